(** One step of the back-propagation. *)
From Coq Require Import List ZArith Lia.
From Verif Require Import Base Invar_model Invar_spec Invar_proofs Symmetry_model Symmetry_spec Symmetry_tables Symmetry_proofs
  Subspaces_model Subspaces_spec Subspaces_proofs Subspaces_step Density_struct Density_model Density_spec Density_sums.
From mathcomp Require Import ssreflect ssrfun ssrbool eqtype ssrnat seq fintype bigop ssralg order ssrnum.
Import GRing.Theory Num.Theory.
Local Open Scope ring_scope.
Set Implicit Arguments.
Unset Strict Implicit.
Unset Printing Implicit Defensive.

Lemma nth_error_ltn {A} (l : list A) i : (i < List.length l)%N -> forall d, List.nth_error l i = Some (List.nth i l d).
Proof. move=> /ltP H d. by rewrite (List.nth_error_nth' l d). Qed.

Lemma enumerate_In {A} (l : list A) i x : In (i, x) (enumerate l) -> forall d, x = List.nth i l d.
Proof.
  suff G : forall k, In (i, x) (List.combine (List.seq k (List.length l)) l) -> (k <= i)%N /\ forall d, x = List.nth (i - k) l d.
  { by move=> /G [_ H] d; rewrite (H d) subn0. }
  elim: l => [|a l IH] k //= [[<- <-]|/IH [Hk H]]; first by rewrite subnn.
  split; first by apply: ltnW. move=> d. rewrite (H d) -(subnSK Hk) //.
Qed.

Section Step.
  Variable C : numClosedFieldType.
  Variable sh : shipped_table.
  Hypothesis Hsh : In sh shipped.
  Let sy := sh_sym sh.
  Let t := sh_tab sh.
  Let combs := sh_combs sh.
  Variables (prev cur : backsubs) (diag : diaginfo C).
  Hypothesis Hnp : NoDup (List.map fst prev).
  Hypothesis Hmp : forall J b, In (J, b) prev -> multiplet sy J.
  Hypothesis Hbp : forall J b, In (J, b) prev -> (Z.of_nat (b_kept b) <= 1000000)%Z.
  Hypothesis Hreg : regular_step sh prev cur diag.

  Definition di (i : nat) : invar := List.nth i (tb_In t) nil.
  Definition nw (i : nat) (J : invar) : invar := newp sh (di i) J.
  Definition an (i : nat) (J : invar) : invar := ancp sh (di i) J.
  Definition mm (J : invar) : C := zc C (degeneracy sy J).
  Definition kp (J : invar) : nat := match lookup prev J with Some b => b_kept b | None => 0%N end.
  Definition rm (J : invar) (i : nat) : nat := Z.to_nat (match lookup cur J with Some b => List.nth i (b_rmax b) 0%Z | None => 0%Z end).
  Definition nil_mat : fmat C := Fmat 0 0 (fun _ _ => 0).
  Definition Ub (J : invar) (i : nat) : fmat C := match lookup diag J with Some e => List.nth i (e_U e) nil_mat | None => nil_mat end.

  Lemma length_In : List.length (tb_In t) = combs.
  Proof. exact: (proj1 (shipped_ok sh Hsh)). Qed.
  Lemma di_ok i : (i < combs)%N -> List.nth_error (tb_In t) i = Some (di i) /\ In (di i) (tb_In t) /\ admissible (ts sy) (di i).
  Proof.
    move=> Hi. have Hi' : (i < List.length (tb_In t))%N by rewrite length_In. split; first by apply: nth_error_ltn.
    have Hin : In (di i) (tb_In t) by apply: List.nth_In; apply/ltP. split=> //.
    case: (shipped_ok sh Hsh) => _ [_ [A1 _]]. by move: A1; rewrite Forall_forall; apply.
  Qed.

  Lemma mm_ok J : multiplet sy J -> exists m, mult sy J = Ok m /\ mm J = zc C m /\ mm J != 0 /\ 0 < mm J.
  Proof.
    move=> HJ. case: (mult_multiplet sh J Hsh HJ) => m [E Hm]. exists m. rewrite /mm /degeneracy /sy E /=.
    have Hn : (0 < Z.to_nat m)%N by apply/ltP; lia.
    by rewrite /zc pnatr_eq0 -lt0n ltr0n.
  Qed.

  Lemma dp_ok J n : In (J, n) (sizes_of prev) -> multiplet sy J /\ (0 <= n <= 1000000)%Z.
  Proof.
    move=> /in_map_iff [[K b] [[<- <-] Hin]] /=. split; first by apply: (Hmp Hin). move: (Hbp Hin) => /= ?. lia.
  Qed.
  Lemma dp_nodup : NoDup (List.map fst (sizes_of prev)).
  Proof. by rewrite /sizes_of List.map_map. Qed.

  Lemma nw_adm i J : (i < combs)%N -> admissible (ts sy) J -> admissible (ts sy) (nw i J).
  Proof. move=> Hi HJ. apply: newp_adm => //. by case: (di_ok Hi) => _ []. Qed.
  Lemma an_nw i J : (i < combs)%N -> admissible (ts sy) J -> an i (nw i J) = J.
  Proof. move=> Hi HJ. apply: anc_newp => //. by case: (di_ok Hi) => _ []. Qed.
  Lemma nw_an i J : (i < combs)%N -> admissible (ts sy) J -> nw i (an i J) = J.
  Proof. move=> Hi HJ. apply: newp_anc => //. by case: (di_ok Hi) => _ []. Qed.

  Lemma new_subspaces_eval J : admissible (ts sy) J -> exists ns, new_subspaces sy combs t J = Ok ns /\ List.length ns = combs /\
    forall i, (i < combs)%N -> List.nth i ns nil = nw i J.
  Proof.
    move=> HJ. case: (shipped_ok sh Hsh) => L1 [L2 [A1 A2]]. rewrite new_subspaces_pure //. eexists. split; first by [].
    rewrite List.map_length. split=> // i Hi. rewrite /nw /newp /di.
    rewrite (List.nth_indep _ nil ((fun d => combp (ts sy) (invp (ts sy) d) J) nil)); last by rewrite List.map_length; apply/ltP; rewrite L1.
    by rewrite (List.map_nth (fun d => combp (ts sy) (invp (ts sy) d) J)).
  Qed.

  (** The sectors of the step. *)
  Lemma cur_nodup : NoDup (List.map fst cur).
  Proof. case: Hreg => st [infos [_ [-> [Hn _]]]]. by rewrite /backiter_subs List.map_map. Qed.
  Lemma diag_keys : List.map fst diag = List.map fst cur.
  Proof. case: Hreg => st [infos [_ [-> [_ [_ [-> _]]]]]]. by rewrite /backiter_subs List.map_map. Qed.
  Lemma diag_nodup : NoDup (List.map fst diag).
  Proof. rewrite diag_keys. exact: cur_nodup. Qed.

  Lemma cur_sector J b : In (J, b) cur -> multiplet sy J /\ (List.length (b_rmax b) = combs) /\
    forall i, (i < combs)%N -> (List.nth i (b_rmax b) 0%Z = 0%Z \/ (0 < List.nth i (b_rmax b) 0%Z)%Z /\ In (an i J, List.nth i (b_rmax b) 0%Z) (sizes_of prev)).
  Proof.
    case: Hreg => st [infos [Est [Ec [Hn [Hk _]]]]] Hin.
    have HJ : In J (task_list st). { apply Hk. move: Hin. rewrite Ec => /in_map_iff [[K x] [[<- _] Hx]] /=. by apply/in_map_iff; exists (K, x). }
    case: (task_multiplet sh Hsh _ dp_nodup dp_ok st Est J HJ) => d [Hd HM]. split=> //.
    have Hr : b_rmax b = sd_dims d.
    { move: Hin. rewrite Ec => /in_map_iff [[K x] [[EK <-] Hx]] /=. rewrite /= in EK. subst K.
      by rewrite (lookup_In (st_nodup sh Hsh _ dp_nodup dp_ok st Est) Hd). }
    have Hl : List.length (b_rmax b) = combs.
    { case: (structure_correct sh Hsh _ dp_nodup dp_ok) => st' [E [_ [H _]]]. rewrite E in Est. case: Est => Est. subst st'.
      case: (H _ _ Hd) => _ [_ [L _]]. by rewrite Hr L. }
    split=> // i Hi. case: (di_ok Hi) => E1 _.
    case: (block_size sh Hsh _ dp_nodup dp_ok st Est J d i (di i) Hd E1) => n [En Hcase].
    rewrite Hr (List.nth_error_nth _ _ _ En). by case: Hcase => [->|Hc]; [left|right].
  Qed.

  Lemma kp_In J b : In (J, b) prev -> kp J = b_kept b.
  Proof. move=> H. by rewrite /kp (lookup_In Hnp H). Qed.

  Lemma sizes_In J n : In (J, n) (sizes_of prev) -> In J (List.map fst prev) /\ Z.of_nat (kp J) = n.
  Proof.
    move=> /in_map_iff [[K b] [[<- <-] Hin]] /=. rewrite (kp_In Hin). split=> //. by apply/in_map_iff; exists (K, b).
  Qed.

  Lemma rm_anc J i : In J (List.map fst cur) -> (i < combs)%N -> rm J i <> 0%N -> In (an i J) (List.map fst prev) /\ kp (an i J) = rm J i.
  Proof.
    move=> HJ Hi. case: (lookup_key HJ) => b Eb. rewrite /rm Eb.
    case: (cur_sector (lookup_Some Eb)) => _ [_ /(_ i Hi)] [->|[Hp Hin]] //. move=> _.
    case: (sizes_In Hin) => H1 H2. split=> //. by rewrite -H2 Nat2Z.id.
  Qed.
  Lemma rm_new J i : In J (List.map fst prev) -> (i < combs)%N -> In (nw i J) (List.map fst cur) -> rm (nw i J) i <> 0%N -> rm (nw i J) i = kp J.
  Proof.
    move=> HJ Hi Hc Hne. case: (rm_anc Hc Hi Hne) => _ <-. rewrite an_nw //.
    move/in_map_iff: HJ => [[K b] [/= <- Hin]]. by case: (Hmp Hin).
  Qed.

  Lemma Ub_ok J e : In (J, e) diag -> forall i, (i < combs)%N ->
    List.nth_error (e_U e) i = Some (Ub J i) /\ f_rows (Ub J i) = e_nrstored e /\ f_cols (Ub J i) = rm J i.
  Proof.
    move=> He i Hi.
    have HJ : In J (List.map fst cur) by rewrite -diag_keys; apply/in_map_iff; exists (J, e).
    case: (lookup_key HJ) => b Eb. have Hb := lookup_Some Eb. case: (cur_sector Hb) => _ [Hl _].
    case: Hreg => st [infos [_ [_ [_ [_ [_ /(_ J e b He Hb)]]]]]] [_ [Hmap [Hrows _]]].
    have Hi' : (i < List.length (e_U e))%N by rewrite -(List.map_length (fun u => Z.of_nat (f_cols u))) Hmap Hl.
    rewrite /Ub (lookup_In diag_nodup He). split; first by apply: nth_error_ltn. split; first by apply: Hrows; apply: List.nth_In; apply/ltP.
    rewrite /rm Eb -Hmap. rewrite (List.nth_indep _ 0%Z (Z.of_nat (f_cols nil_mat))); last by rewrite List.map_length; apply/ltP.
    by rewrite (List.map_nth (fun u => Z.of_nat (f_cols u))) Nat2Z.id.
  Qed.

  (** Contribution of block i of sector J. *)
  Definition contr (J : invar) (i : nat) (rho : fmat C) (r s : nat) : C :=
    if rm J i == 0%N then 0
    else \sum_(b < f_rows rho) (\sum_(a < f_rows rho) (f_el (Ub J i) a r)^* * f_el rho a b) * f_el (Ub J i) b s.

  Definition diagonal (M : fmat C) : Prop := forall a b, (a < f_rows M)%N -> (b < f_rows M)%N -> a != b -> f_el M a b = 0.

  Lemma cdmI_eval (dg : bool) i Ix J (rho : fmat C) e f (acc : fmat C) : (i < combs)%N -> In Ix (List.map fst prev) -> J = nw i Ix ->
    In (J, e) diag -> f_cols rho = f_rows rho -> (f_rows rho <= e_nrstored e)%N -> (dg -> diagonal rho) ->
    f_rows acc = kp Ix -> f_cols acc = kp Ix -> kp Ix != 0%N ->
    exists acc', cdmI combs dg i J rho e cur f acc = Ok acc' /\ f_rows acc' = kp Ix /\ f_cols acc' = kp Ix /\
      forall r s, f_el acc' r s = f_el acc r s + f * contr J i rho r s.
  Proof.
    move=> Hi HI EJ He Hsq Hle Hdg Hr Hc Hk. rewrite /cdmI Hi /=. rewrite Hsq.
    have Hmem : In J (List.map fst cur) by rewrite -diag_keys; apply/in_map_iff; exists (J, e).
    case: eqP => [E0|/eqP Hn0].
    { exists acc. do 3!split=> //. move=> r s. rewrite /contr E0 !big_ord0. by case: ifP; rewrite mulr0 addr0. }
    rewrite Hc (negbTE Hk). case: (lookup_key Hmem) => b Eb. rewrite /at_key Eb /=.
    case: (cur_sector (lookup_Some Eb)) => HM [Hl Hcase].
    have Erm : List.nth i (b_rmax b) 0%Z = Z.of_nat (rm J i).
    { rewrite /rm Eb. case: (Hcase i Hi) => [->|[Hp _]] //. by rewrite Z2Nat.id; lia. }
    rewrite /rmax. have -> : (Z.of_nat i <? Z.of_nat (List.length (b_rmax b)))%Z = true by apply/Z.ltb_lt; move/ltP: Hi; rewrite Hl; lia.
    rewrite /= Nat2Z.id (@nth_error_ltn _ _ i _ 0%Z) /=; last by rewrite Hl. rewrite Erm.
    case: Z.eqb_spec => Hz.
    { exists acc. do 3!split=> //. move=> r s. rewrite /contr. have -> : rm J i = 0%N by lia. by rewrite eqxx mulr0 addr0. }
    have Hrm : rm J i <> 0%N by lia.
    have Hrk : rm J i = kp Ix by subst J; apply: rm_new.
    rewrite Hrk Z.eqb_refl /= Hle /=. case: (Ub_ok He Hi) => EU [Urows Ucols]. rewrite /get_block EU /=.
    rewrite /first_rows Urows Hle /=.
    rewrite /rotate /rotate_diagonal /= Ucols Hrk Hr Hc Hsq !eqxx /=. rewrite lt0n Hn0 lt0n Hk /=.
    case: dg Hdg => Hdg; eexists; (split; first by []); split=> //; split=> //= r s; rewrite /contr Hrk (negbTE Hk) //.
    congr (_ + _ * _). apply: eq_bigr => b' _. rewrite mulrA. congr (_ * _). rewrite (bigD1 b') //= big1 ?addr0 // => a Hne.
    by rewrite Hdg // mulr0.
  Qed.

  (** A density matrix (or part of one) at the current step that fits the stored eigenvectors. *)
  Definition fits (rho : densmat C) : Prop :=
    NoDup (List.map fst rho) /\ (forall J, In J (List.map fst rho) -> In J (List.map fst cur)) /\
    forall J M e, In (J, M) rho -> In (J, e) diag -> f_cols M = f_rows M /\ (f_rows M <= e_nrstored e)%N.

  Definition contrO (rho : densmat C) (J : invar) (i : nat) (r s : nat) : C :=
    match lookup rho J with Some M => contr J i M r s | None => 0 end.

  Lemma cdmI_if_eval (dg : bool) (rho : densmat C) i Ix f (acc : fmat C) : fits rho -> (dg -> forall J M, In (J, M) rho -> diagonal M) ->
    (i < combs)%N -> In Ix (List.map fst prev) ->
    f_rows acc = kp Ix -> f_cols acc = kp Ix -> kp Ix != 0%N ->
    exists acc', cdmI_if combs dg diag rho cur f (i, nw i Ix) acc = Ok acc' /\ f_rows acc' = kp Ix /\ f_cols acc' = kp Ix /\
      forall r s, f_el acc' r s = f_el acc r s + f * contrO rho (nw i Ix) i r s.
  Proof.
    move=> [Hn [Hsub Hfit]] Hdg Hi HI Hr Hc Hk. rewrite /cdmI_if /= /contrO.
    case EM: (lookup rho (nw i Ix)) => [M|]; last by exists acc; do 3!split=> //; move=> r s; rewrite mulr0 addr0.
    have HM := lookup_Some EM.
    have HJ : In (nw i Ix) (List.map fst diag) by rewrite diag_keys; apply: Hsub; apply/in_map_iff; exists (nw i Ix, M).
    case: (lookup_key HJ) => e Ee. rewrite Ee. case: (Hfit _ _ _ HM (lookup_Some Ee)) => Hsq Hle.
    apply: cdmI_eval => //; [exact: lookup_Some|]. by move=> /Hdg H; apply: (H _ _ HM).
  Qed.

  Lemma prev_multiplet Ix : In Ix (List.map fst prev) -> multiplet sy Ix.
  Proof. by move=> /in_map_iff [[K b] [/= <- /Hmp]]. Qed.

  (** A loop over the blocks that adds [K i] each time. *)
  Lemma block_loop (body : fmat C -> nat * invar -> res (fmat C)) Ix ns (K : nat -> nat -> nat -> C) n :
    List.length ns = combs -> (forall i, (i < combs)%N -> List.nth i ns nil = nw i Ix) ->
    (forall i acc, (i < combs)%N -> f_rows acc = n -> f_cols acc = n -> exists acc', body acc (i, nw i Ix) = Ok acc' /\
        f_rows acc' = n /\ f_cols acc' = n /\ forall r s, f_el acc' r s = f_el acc r s + K i r s) ->
    exists M, foldM body (enumerate ns) (zero_matrix C n) = Ok M /\ f_rows M = n /\ f_cols M = n /\
      forall r s, f_el M r s = \sum_(i < combs) K i r s.
  Proof.
    move=> Hl Hnth Hbody.
    case: (foldM_inv (P := fun l M => f_rows M = n /\ f_cols M = n /\ forall r s, f_el M r s = \sum_(p <- l) K (fst p) r s)
             (f := body) (l := enumerate ns) (a := zero_matrix C n)).
    - do 2!split=> //. move=> r s. by rewrite big_nil.
    - move=> l1 [i J] l2 b E [Hr [Hc Hel]].
      have Hin : In (i, J) (enumerate ns) by rewrite E; apply/in_or_app; right; left.
      have [Hi EJ] : (i < combs)%N /\ J = nw i Ix.
      { have Hlen : (i < List.length ns)%N. { apply List.in_combine_l in Hin. apply List.in_seq in Hin. apply/ltP. lia. }
        rewrite Hl in Hlen. split=> //. rewrite -(Hnth i Hlen).
        by rewrite (enumerate_In Hin nil). }
      subst J. case: (Hbody i b Hi Hr Hc) => acc' [-> [Hr' [Hc' Hel']]]. exists acc'. do 3!split=> //.
      move=> r s. by rewrite Hel' Hel big_cat /= big_seq1.
    - move=> M [E [Hr [Hc Hel]]]. exists M. do 3!split=> //. move=> r s. rewrite Hel /enumerate.
      by rewrite (big_enumerate ns (fun i _ => K i r s) nil 0) Hl.
  Qed.

  Lemma nw_multiplet i Ix : In (nw i Ix) (List.map fst cur) -> multiplet sy (nw i Ix).
  Proof. move=> H. case: (lookup_key H) => b Eb. by case: (cur_sector (lookup_Some Eb)). Qed.

  (** Back-propagated matrix elements of one or two density matrices. *)
  Definition back (rho : densmat C) (Ix : invar) (r s : nat) : C :=
    \sum_(i < combs) mm (nw i Ix) / mm Ix * contrO rho (nw i Ix) i r s.

  Lemma dm_sector_eval rho Ix b : fits rho -> In (Ix, b) prev -> exists M, dm_sector sy combs t diag rho cur (Ix, b) = Ok (Ix, M) /\
    f_rows M = b_kept b /\ f_cols M = b_kept b /\ forall r s, (r < b_kept b)%N -> f_el M r s = back rho Ix r s.
  Proof.
    move=> Hfit Hin. have Hff : false -> forall J M, In (J, M) rho -> diagonal M by []. rewrite /dm_sector /=. case: eqP => [E0|/eqP Hk].
    { exists (zero_matrix C (b_kept b)). do 3!split=> //. by rewrite E0. }
    have HI : In Ix (List.map fst prev) by apply/in_map_iff; exists (Ix, b).
    have HM := prev_multiplet HI. case: (new_subspaces_eval (proj1 HM)) => ns [-> [Hl Hnth]] /=.
    have Ek := kp_In Hin. rewrite -Ek in Hk *.
    case: (block_loop (body := dm_block sy combs diag rho cur Ix) (K := fun i r s => mm (nw i Ix) / mm Ix * contrO rho (nw i Ix) i r s)
      (n := kp Ix) Hl Hnth).
    - move=> i acc Hi Hr Hc. rewrite /dm_block /=.
      case EM: (lookup rho (nw i Ix)) => [M|]; last by exists acc; do 3!split=> //; move=> r s; rewrite /contrO EM mulr0 addr0.
      case: (@cdmI_if_eval false _ _ _ (mm (nw i Ix) / mm Ix) _ Hfit Hff Hi HI Hr Hc Hk) => acc'.
      rewrite /cdmI_if /= EM. case: Hfit => _ [Hsub _].
      have HJc : In (nw i Ix) (List.map fst cur) by apply: Hsub; apply/in_map_iff; exists (nw i Ix, M); split=> //; apply: lookup_Some.
      have HJ : In (nw i Ix) (List.map fst diag) by rewrite diag_keys.
      case: (lookup_key HJ) => e ->. move=> [E1 E2].
      case: (mm_ok (nw_multiplet HJc)) => m1 [Em1 [E1m _]]. case: (mm_ok HM) => m [Em [E1m' _]].
      rewrite Em1 Em /=. exists acc'. by rewrite -E1m -E1m'.
    - move=> M [-> [H1 [H2 H3]]] /=. exists M. do 3!split=> //. move=> r s _. exact: H3.
  Qed.

  Lemma fdm_sector_eval (last : bool) rho rhoD Ix b : fits rho -> (~~ last -> fits rhoD /\ forall J M, In (J, M) rhoD -> diagonal M) ->
    In (Ix, b) prev -> exists M, fdm_sector sy combs t last diag rho rhoD cur (Ix, b) = Ok (Ix, M) /\
    f_rows M = b_kept b /\ f_cols M = b_kept b /\
    forall r s, (r < b_kept b)%N -> f_el M r s = back rho Ix r s + (if last then 0 else back rhoD Ix r s).
  Proof.
    move=> Hfit HfitD Hin. have Hff : false -> forall J M, In (J, M) rho -> diagonal M by []. rewrite /fdm_sector /=.
    have HI : In Ix (List.map fst prev) by apply/in_map_iff; exists (Ix, b).
    have HM := prev_multiplet HI. case: (new_subspaces_eval (proj1 HM)) => ns [-> [Hl Hnth]] /=.
    case: eqP => [E0|/eqP Hk].
    { exists (zero_matrix C (b_kept b)). do 3!split=> //. by rewrite E0. }
    have Ek := kp_In Hin. rewrite -Ek in Hk *.
    case: (block_loop (body := fdm_block sy combs last diag rho rhoD cur Ix)
      (K := fun i r s => mm (nw i Ix) / mm Ix * contrO rho (nw i Ix) i r s + (if last then 0 else mm (nw i Ix) / mm Ix * contrO rhoD (nw i Ix) i r s))
      (n := kp Ix) Hl Hnth).
    - move=> i acc Hi Hr Hc. rewrite /fdm_block /=.
      case: (di_ok Hi) => _ [Hdi _]. case: (mult_new sh (di i) Ix Hsh Hdi (proj1 HM)) => m1 Em1. rewrite -/(nw i Ix) in Em1.
      case: (mm_ok HM) => m [Em [Emm _]]. rewrite /sy Em1 -/sy Em /=.
      have <- : mm (nw i Ix) = zc C m1 by rewrite /mm /degeneracy /sy Em1. rewrite -Emm.
      case: (@cdmI_if_eval false _ _ _ (mm (nw i Ix) / mm Ix) _ Hfit Hff Hi HI Hr Hc Hk) => a1 [-> [Hr1 [Hc1 H1]]] /=.
      case: last HfitD => HfitD.
      + exists a1. do 3!split=> //. move=> r s. by rewrite H1 addr0.
      + case: (HfitD isT) => HfD HdD.
        case: (@cdmI_if_eval true _ _ _ (mm (nw i Ix) / mm Ix) _ HfD (fun _ => HdD) Hi HI Hr1 Hc1 Hk) => a2 [-> [Hr2 [Hc2 H2]]].
        exists a2. do 3!split=> //. move=> r s. by rewrite H2 H1 addrA.
    - move=> M [-> [H1 [H2 H3]]] /=. exists M. do 3!split=> //. move=> r s _. rewrite H3 big_split /=. congr (_ + _).
      case: last {HfitD H3} => //. by rewrite big1_eq.
  Qed.

  Lemma loop_result (sector : invar * backsub -> res (invar * fmat C)) (B : invar -> nat -> nat -> C) :
    (forall Ix b, In (Ix, b) prev -> exists M, sector (Ix, b) = Ok (Ix, M) /\
       f_rows M = b_kept b /\ f_cols M = b_kept b /\ forall r s, (r < b_kept b)%N -> f_el M r s = B Ix r s) ->
    exists res, mapM sector prev = Ok res /\
      Forall2 (fun p q => In p prev /\ fst q = fst p /\ f_rows (snd q) = b_kept (snd p) /\ f_cols (snd q) = b_kept (snd p) /\
        forall r s, (r < b_kept (snd p))%N -> f_el (snd q) r s = B (fst p) r s) prev res.
  Proof.
    clear. move=> H. suff G : forall l, (forall p, In p l -> In p prev) -> exists res, mapM sector l = Ok res /\
      Forall2 (fun p q => In p prev /\ fst q = fst p /\ f_rows (snd q) = b_kept (snd p) /\ f_cols (snd q) = b_kept (snd p) /\
        forall r s, (r < b_kept (snd p))%N -> f_el (snd q) r s = B (fst p) r s) l res by apply: G.
    elim=> [|[Ix b] l IH] Hl /=; first by exists nil; split.
    have Hin : In (Ix, b) prev by apply: Hl; left. case: (H Ix b Hin) => M [-> HM] /=.
    case: IH => [p Hp|res [-> Hr]] /=; first by apply: Hl; right.
    eexists. split; first by []. by constructor.
  Qed.

  (** Duality of the propagation of density matrices and of operators: the expectation value of an operator A of the
      previous step equals that of its image in the current step. *)
  Definition image (A : invar -> nat -> nat -> C) (J : invar) (b a : nat) : C :=
    \sum_(i < combs) \sum_(s < rm J i) \sum_(r < rm J i) f_el (Ub J i) b s * A (an i J) s r * (f_el (Ub J i) a r)^*.

  Lemma back_expect (rho : densmat C) (A : invar -> nat -> nat -> C) : fits rho ->
    \sum_(p <- prev) mm (fst p) * (\sum_(r < b_kept (snd p)) \sum_(s < b_kept (snd p)) back rho (fst p) r s * A (fst p) s r)
    = \sum_(q <- rho) mm (fst q) * (\sum_(a < f_rows (snd q)) \sum_(b < f_rows (snd q)) f_el (snd q) a b * image A (fst q) b a).
  Proof.
    move=> [Hn [Hsub Hfit]].
    pose F i (Ix J : invar) : C := if rm J i == 0%N then 0 else
      match lookup rho J with Some M => mm J * \sum_(r < kp Ix) \sum_(s < kp Ix) \sum_(b < f_rows M) \sum_(a < f_rows M)
          (f_el (Ub J i) a r)^* * f_el M a b * f_el (Ub J i) b s * A Ix s r | None => 0 end.
    transitivity (\sum_(i < combs) \sum_(Ix <- List.map fst prev) F i Ix (nw i Ix)).
    { rewrite exchange_big /= big_lmap. apply: eq_big_In => -[Ix b] Hin /=. rewrite -(kp_In Hin).
      case: (mm_ok (Hmp Hin)) => m [_ [_ [Hm _]]].
      rewrite /back. under eq_bigr do under eq_bigr do rewrite mulr_suml.
      under eq_bigr do rewrite exchange_big /=. rewrite exchange_big /= mulr_sumr. apply: eq_bigr => i _.
      rewrite /F /contrO /contr. case: (lookup rho (nw i Ix)) => [M|].
      - case: ifP => _.
        + rewrite big1; first by rewrite mulr0. by move=> r _; rewrite big1 // => s _; rewrite mulr0 mul0r.
        + rewrite !mulr_sumr. apply: eq_bigr => r _. rewrite !mulr_sumr. apply: eq_bigr => s _.
          rewrite mulrA mulrA (mulrC (mm Ix)) divfK // -mulrA. congr (_ * _). rewrite mulr_suml. apply: eq_bigr => b' _.
          rewrite mulr_suml mulr_suml. by [].
      - rewrite big1; first by rewrite mulr0; case: ifP. by move=> r _; rewrite big1 // => s _; rewrite mulr0 mul0r. }
    transitivity (\sum_(i < combs) \sum_(J <- List.map fst rho) F i (an i J) J).
    { apply: eq_bigr => i _. apply: reindex_keys => //.
      - move=> Ix HI. rewrite /F. case: ifP => // _. case E: (lookup rho (nw i Ix)) => [M|] // _. split.
        + apply/in_map_iff. exists (nw i Ix, M). split=> //. exact: lookup_Some.
        + apply: an_nw => //. by case: (prev_multiplet HI).
      - move=> J HJ. rewrite /F. case: eqP => // Hne _. have HJc := Hsub _ HJ. case: (rm_anc HJc (ltn_ord i) Hne) => H1 _. split=> //.
        apply: nw_an => //. case: (lookup_key HJc) => b Eb. by case: (cur_sector (lookup_Some Eb)) => -[].
      - move=> x. by case: (eqVneq x 0) => [->|/eqP H]; [left|right]. }
    rewrite exchange_big /= (big_lmap _ rho). apply: eq_big_In => -[J M] Hin /=.
    have HJc : In J (List.map fst cur) by apply: Hsub; apply/in_map_iff; exists (J, M).
    rewrite /image. under [in RHS]eq_bigr do under eq_bigr do rewrite mulr_sumr.
    under [in RHS]eq_bigr do rewrite exchange_big /=. rewrite [in RHS]exchange_big /= mulr_sumr. apply: eq_bigr => i _.
    rewrite /F (lookup_In Hn Hin). case: eqP => [->|Hne].
    { rewrite big1 ?mulr0 // => a _. rewrite big1 // => b _. by rewrite big_ord0 mulr0. }
    case: (rm_anc HJc (ltn_ord i) Hne) => _ ->. congr (_ * _).
    transitivity (\sum_(r < rm J i) \sum_(s < rm J i) \sum_(a < f_rows M) \sum_(b < f_rows M)
      f_el M a b * (f_el (Ub J i) b s * A (an i J) s r * (f_el (Ub J i) a r)^* )).
    { apply: eq_bigr => r _. apply: eq_bigr => s _. rewrite exchange_big /=. apply: eq_bigr => a _. apply: eq_bigr => b _.
      rewrite (mulrC _^* ) -!mulrA. congr (_ * _). by rewrite mulrC -!mulrA. }
    under [in LHS]eq_bigr do rewrite exchange_big /=. rewrite [LHS]exchange_big /=. apply: eq_bigr => a _.
    under [in LHS]eq_bigr do rewrite exchange_big /=. rewrite [LHS]exchange_big /=. apply: eq_bigr => b _.
    rewrite exchange_big /= mulr_sumr. apply: eq_bigr => s _. by rewrite mulr_sumr.
  Qed.

  Definition delta (_ : invar) (s r : nat) : C := (s == r)%:R.
  Lemma sum_delta n (x : 'I_n) (F : nat -> C) : \sum_(r < n) F r * (val x == r)%:R = F x.
  Proof. rewrite (bigD1 x) //= eqxx mulr1 big1 ?addr0 // => r Hr. rewrite (_ : (nat_of_ord x == r) = false) ?mulr0 //. by rewrite eq_sym; apply/negbTE. Qed.

  Lemma image_delta J e a b : In (J, e) diag -> (a < e_nrstored e)%N -> (b < e_nrstored e)%N -> image delta J b a = (a == b)%:R.
  Proof.
    move=> He Ha Hb.
    have HJ : In J (List.map fst cur) by rewrite -diag_keys; apply/in_map_iff; exists (J, e).
    case: (lookup_key HJ) => c Ec. have Hc := lookup_Some Ec. case: (cur_sector Hc) => _ [Hl _].
    have HU := Ub_ok He.
    case: Hreg => st [infos [_ [_ [_ [_ [_ /(_ J e c He Hc)]]]]]] [_ [Hmap [_ Horth]]].
    have HlU : List.length (e_U e) = combs by rewrite -(List.map_length (fun u => Z.of_nat (f_cols u))) Hmap Hl.
    rewrite -(Horth a b Ha Hb) (big_list_ord _ _ nil_mat) HlU /image. apply: eq_bigr => i _.
    case: (HU i (ltn_ord i)) => E1 [_ E2].
    have -> : List.nth i (e_U e) nil_mat = Ub J i by rewrite /Ub (lookup_In diag_nodup He).
    rewrite E2. apply: eq_bigr => s _. rewrite /delta.
    under eq_bigr do rewrite mulrAC -mulrA. rewrite -mulr_sumr. rewrite (sum_delta s (fun r => (f_el (Ub J i) a r)^* )). by rewrite mulrC.
  Qed.

  Lemma back_trace (rho : densmat C) : fits rho ->
    \sum_(p <- prev) mm (fst p) * (\sum_(r < b_kept (snd p)) back rho (fst p) r r)
    = \sum_(q <- rho) mm (fst q) * (\sum_(a < f_rows (snd q)) f_el (snd q) a a).
  Proof.
    move=> Hf. transitivity (\sum_(p <- prev) mm (fst p) * (\sum_(r < b_kept (snd p)) \sum_(s < b_kept (snd p)) back rho (fst p) r s * delta (fst p) s r)).
    { apply: eq_big_In => p _. congr (_ * _). apply: eq_bigr => r _. rewrite /delta. under eq_bigr do rewrite eq_sym.
      by rewrite (sum_delta r (fun s => back rho (fst p) r s)). }
    rewrite back_expect //. apply: eq_big_In => -[J M] Hin /=. congr (_ * _). apply: eq_bigr => a _.
    case: Hf => Hn [Hsub Hfit].
    have HJ : In J (List.map fst diag) by rewrite diag_keys; apply: Hsub; apply/in_map_iff; exists (J, M).
    case: (lookup_key HJ) => e Ee. have He := lookup_Some Ee. case: (Hfit _ _ _ Hin He) => _ Hle.
    rewrite -(sum_delta a (fun b => f_el M a b)). apply: eq_bigr => b _. rewrite (image_delta He) //; exact: leq_trans (ltn_ord _) Hle.
  Qed.

  Lemma mm_ge0 J : 0 <= mm J. Proof. by rewrite /mm /zc ler0n. Qed.
  Lemma mm_conj J : (mm J)^* = mm J. Proof. by rewrite /mm /zc conjC_nat. Qed.

  Lemma back_hermitian (rho : densmat C) Ix r s : (forall J M, In (J, M) rho -> hermitian (f_rows M) (f_el M)) ->
    back rho Ix s r = (back rho Ix r s)^*.
  Proof.
    move=> H. rewrite /back rmorph_sum /=. apply: eq_bigr => i _. rewrite rmorphM rmorphM fmorphV /= !mm_conj. congr (_ * _).
    rewrite /contrO. case E: (lookup rho (nw i Ix)) => [M|]; last by rewrite conjC0. have HM := H _ _ (lookup_Some E).
    rewrite /contr. case: ifP => _; first by rewrite conjC0. rewrite rmorph_sum /=.
    under eq_bigr do rewrite mulr_suml. rewrite exchange_big /=. apply: eq_bigr => a _.
    rewrite rmorphM rmorph_sum /= mulr_suml. apply: eq_bigr => b _. rewrite rmorphM /= conjCK -(HM b a) //.
    by rewrite mulrC (mulrC (_^* )) mulrA.
  Qed.

  Lemma back_positive (rho : densmat C) Ix n : In Ix (List.map fst prev) -> (forall J M, In (J, M) rho -> positive (f_rows M) (f_el M)) -> positive n (back rho Ix).
  Proof.
    move=> HI H v. rewrite /back.
    have -> : \sum_(i < n) \sum_(j < n) (v i)^* * (\sum_(k < combs) mm (nw k Ix) / mm Ix * contrO rho (nw k Ix) k i j) * v j
      = \sum_(k < combs) mm (nw k Ix) / mm Ix * \sum_(i < n) \sum_(j < n) (v i)^* * contrO rho (nw k Ix) k i j * v j.
    { under eq_bigr do under eq_bigr do rewrite mulr_sumr mulr_suml. under eq_bigr do rewrite exchange_big /=.
      rewrite exchange_big /=. apply: eq_bigr => k _. rewrite mulr_sumr. apply: eq_bigr => i _. rewrite mulr_sumr. apply: eq_bigr => j _.
      by rewrite mulrCA -[LHS]mulrA. }
    apply: sumr_ge0 => k _. case: (mm_ok (prev_multiplet HI)) => m [_ [_ [_ Hm]]].
    apply: mulr_ge0; first by apply: divr_ge0; [apply: mm_ge0|apply: Order.POrderTheory.ltW].
    rewrite /contrO. case E: (lookup rho (nw k Ix)) => [M|]; last by rewrite big1 // => i _; rewrite big1 // => j _; rewrite mulr0 mul0r.
    have HM := H _ _ (lookup_Some E). case E0: (rm (nw k Ix) k == 0%N); first by rewrite big1 // => i _; rewrite big1 // => j _; rewrite /contr E0 mulr0 mul0r.
    pose w a : C := \sum_(r < n) f_el (Ub (nw k Ix) k) a r * v r.
    move: (HM w). congr (_ <= _). rewrite /w.
    transitivity (\sum_(a < f_rows M) \sum_(b < f_rows M) \sum_(i < n) \sum_(j < n)
       (v i)^* * (f_el (Ub (nw k Ix) k) a i)^* * f_el M a b * f_el (Ub (nw k Ix) k) b j * v j).
    { apply: eq_bigr => a _. apply: eq_bigr => b _. rewrite rmorph_sum /= mulr_suml mulr_suml. apply: eq_bigr => i _. rewrite mulr_sumr.
      apply: eq_bigr => j _. by rewrite rmorphM /= (mulrC _^* (v i)^* ) !mulrA. }
    under [in LHS]eq_bigr do rewrite exchange_big /=. rewrite [LHS]exchange_big /=. apply: eq_bigr => i _.
    under [in LHS]eq_bigr do rewrite exchange_big /=. rewrite [LHS]exchange_big /=. apply: eq_bigr => j _.
    rewrite /contr E0 mulr_sumr mulr_suml exchange_big /=. apply: eq_bigr => b _. rewrite mulrA mulr_sumr mulr_suml mulr_suml. apply: eq_bigr => a _.
    by rewrite !mulrA.
  Qed.
End Step.
