From Coq Require Import List ZArith Lia Bool String.
From Verif Require Import Base Invar_model Invar_spec Invar_proofs Symmetry_model Symmetry_spec Symmetry_tables
  Symmetry_proofs Symmetry_factor Symmetry_dim Subspaces_model Subspaces_proofs Recalc_model Recalc_spec.
Import ListNotations.
Local Open Scope string_scope.
Local Open Scope Z_scope.

(** ** C28: parity -1 always throws *)
Lemma mapM_first_throw {A B} (f : A -> res B) x l : f x = Throw -> mapM f (x :: l) = Throw.
Proof. intros H. cbn [mapM]. rewrite H. reflexivity. Qed.

Lemma singlet_odd_throws M C ops sy combs t diag substruct cold (one : C) :
  sy_islr sy = true -> diag <> [] -> Forall (fun p => fst p <> []) diag ->
  @recalc_singlet M C ops sy combs t diag substruct cold one (-1) = Throw.
Proof.
  intros Hlr Hne Hnn. unfold recalc_singlet. rewrite Hlr. cbn [orb Z.eqb my_assert bind].
  destruct diag as [|[I e] diag]; [congruence|]. inversion Hnn; subst. cbn [map fst] in *.
  rewrite mapM_first_throw; [reflexivity|]. unfold singlet_block, parity_of. cbn [Z.eqb].
  rewrite invert_parity_throws by auto. reflexivity.
Qed.

(** ** C36: parity +1 *)
Definition singlet_unit (k : tri_kind) : Z := match k with TSU2 => 1 | TSU2T => 0 | TU1 => 0 | TZ2 => 1 | TC3 => 0 end.
Definition mkind_eqb (a b : mult_kind) : bool := match a, b with MMult, MMult => true | MOrb, MOrb => true | _, _ => false end.
Definition has_mult (sy : symmetry) (k : mult_kind) (n : string) : bool :=
  existsb (fun p => mkind_eqb (fst p) k && String.eqb (snd p) n) (sy_mult sy).
Definition type_of (sg : signature) (n : string) : option qtype :=
  match index_of sg n 0 with Some i => nth_error (qntype sg) i | None => None end.
Definition qtype_is (a : option qtype) (b : qtype) : bool :=
  match a, b with Some Additive, Additive => true | Some Multiplicative, Multiplicative => true | Some Mod3, Mod3 => true | _, _ => false end.
Definition tri_ok (sy : symmetry) (p : tri_kind * string) : bool :=
  let (k, n) := p in
  match get (sy_sig sy) (sy_singlet sy) n with Ok x => x =? singlet_unit k | _ => false end &&
  match k with
  | TSU2 => has_mult sy MMult n | TSU2T => has_mult sy MOrb n | TC3 => qtype_is (type_of (sy_sig sy) n) Mod3
  | TU1 | TZ2 => true
  end && match index_of (sy_sig sy) n 0 with Some _ => true | None => false end.
Definition singlet_ok (sy : symmetry) : bool := forallb (tri_ok sy) (sy_tri sy).

Lemma singlet_ok_shipped : forallb (fun sh => String.eqb (sh_name sh) "SPSU2LR" || singlet_ok (sh_sym sh)) shipped = true.
Proof. vm_compute. reflexivity. Qed.

Lemma has_mult_in sy k n : has_mult sy k n = true -> In (k, n) (sy_mult sy).
Proof.
  unfold has_mult. rewrite existsb_exists. intros ([k' n'] & Hin & H). apply andb_true_iff in H as [H1 H2]. cbn [fst snd] in *.
  apply String.eqb_eq in H2. subst. destruct k, k'; try discriminate; auto.
Qed.

Lemma index_of_lt sg n : forall i j, index_of sg n i = Some j -> (i <= j < i + List.length sg)%nat.
Proof.
  induction sg as [|[m q] sg IH]; cbn [index_of List.length]; intros i j H; [discriminate|].
  destruct (index_of sg n (S i)) as [j'|] eqn:E.
  - injection H as <-. apply IH in E. lia.
  - destruct (String.eqb m n); [injection H as <-; lia|discriminate].
Qed.

Lemma Forall2_length {A B} (R : A -> B -> Prop) l1 l2 : Forall2 R l1 l2 -> List.length l1 = List.length l2.
Proof. induction 1; cbn; auto. Qed.

Lemma Forall2_nth {A B} (R : A -> B -> Prop) l1 l2 i a b : Forall2 R l1 l2 -> nth_error l1 i = Some a -> nth_error l2 i = Some b -> R a b.
Proof. intros H; revert i; induction H; intros [|i]; cbn; intros; try discriminate; try congruence. eauto. Qed.

Lemma get_ok sg I n i : admissible (qntype sg) I -> index_of sg n 0 = Some i ->
  exists x ty, get sg I n = Ok x /\ nth_error (qntype sg) i = Some ty /\ nth_error I i = Some x /\ adm ty x.
Proof.
  intros HI Hi. pose proof (index_of_lt sg n 0 i Hi) as L. unfold get. rewrite Hi.
  pose proof (Forall2_length _ _ _ HI) as Hl. unfold qntype in Hl. rewrite map_length in Hl.
  destruct (nth_error I i) as [x|] eqn:Ex; [|apply nth_error_None in Ex; lia].
  destruct (nth_error (qntype sg) i) as [ty|] eqn:Et; [|apply nth_error_None in Et; unfold qntype in Et; rewrite map_length in Et; lia].
  exists x, ty. pose proof (Forall2_nth _ _ _ _ _ _ HI Et Ex) as Ha. unfold getqn. rewrite Ex. cbn [bind].
  repeat split; auto. destruct ty; auto.
  - rewrite parity_ok_true by auto. reflexivity.
  - rewrite mod3_ok_true by auto. reflexivity.
Qed.

Lemma triangle_singlet sy I : singlet_ok sy = true -> multiplet sy I -> triangle sy I I (sy_singlet sy) = Ok true.
Proof.
  intros Hok [HI Hm]. unfold triangle, singlet_ok in *.
  assert (G : forall l, (forall p, In p l -> tri_ok sy p = true) -> tri_of (sy_sig sy) l I I (sy_singlet sy) = Ok true).
  { induction l as [|[k n] l IH]; intros Hl; [reflexivity|]. cbn [tri_of].
    pose proof (Hl _ (or_introl eq_refl)) as H0. unfold tri_ok in H0. rewrite !andb_true_iff in H0. destruct H0 as [[H1 H2] H3].
    destruct (index_of (sy_sig sy) n 0) as [i|] eqn:Ei; [|discriminate].
    destruct (get_ok _ I n i HI Ei) as (x & ty & Eg & Et & Ex & Ha). rewrite Eg. cbn [bind].
    destruct (get (sy_sig sy) (sy_singlet sy) n) as [s| |] eqn:Es; try discriminate. apply Z.eqb_eq in H1. subst s. cbn [bind].
    assert (T : tri_test k x x (singlet_unit k) = true).
    { destruct k; cbn [tri_test singlet_unit].
      - apply has_mult_in in H2. specialize (Hm _ _ _ H2 Eg). cbn [mult_factor] in Hm.
        unfold su2_triangle_inequality. rewrite !andb_true_iff, !Z.leb_le. lia.
      - apply has_mult_in in H2. specialize (Hm _ _ _ H2 Eg). cbn [mult_factor] in Hm.
        unfold su2_triangle_inequality. rewrite !andb_true_iff, !Z.leb_le. lia.
      - unfold u1_equality. apply Z.eqb_eq. lia.
      - unfold z2_equality. apply Z.eqb_eq. lia.
      - unfold type_of in H2. rewrite Ei, Et in H2. destruct ty; try discriminate. cbn [adm] in Ha. unfold c3_equality. apply Z.eqb_eq.
        destruct Ha as [->|[->| ->]]; reflexivity. }
    rewrite T. apply IH. intros; apply Hl; right; auto. }
  apply G. rewrite forallb_forall in Hok. auto.
Qed.

Lemma allowed_total sy I : admissible (ts sy) I -> forallb (fun p => match index_of (sy_sig sy) (fst p) 0 with Some _ => true | None => false end) (sy_allowed sy) = true ->
  allowed sy I = Ok (is_allowed sy I).
Proof.
  intros HI Hn. unfold is_allowed. assert (E : exists b, allowed sy I = Ok b); [|destruct E as [b ->]; reflexivity].
  unfold allowed. induction (sy_allowed sy) as [|[n m] l IH]; [eexists; reflexivity|]. cbn [forallb fst] in Hn. apply andb_true_iff in Hn as [H1 H2].
  destruct (index_of (sy_sig sy) n 0) as [i|] eqn:Ei; [|discriminate]. destruct (get_ok _ I n i HI Ei) as (x & ty & Eg & _).
  cbn [allowed_of]. rewrite Eg. cbn [bind]. destruct (IH H2) as [b ->]. cbn [bind]. eexists; reflexivity.
Qed.
Lemma allowed_names : forallb (fun sh => forallb (fun p => match index_of (sy_sig (sh_sym sh)) (fst p) 0 with Some _ => true | None => false end) (sy_allowed (sh_sym sh))) shipped = true.
Proof. vm_compute. reflexivity. Qed.

Section Even.
  Variable sh : shipped_table.
  Hypothesis Hsh : In sh shipped.
  Let sy := sh_sym sh.
  Let t := sh_tab sh.
  Let combs := sh_combs sh.
  Variables (M C : Type) (ops : matops M C) (one : C).
  Hypothesis Hfin : mo_finite ops one = true.
  Variables (diag : list (invar * eig M)) (substruct : structure) (cold : list ((invar * invar) * M)).
  Hypothesis Hdiag : forall I e, In (I, e) diag -> multiplet sy I /\ List.length (eg_blocks e) = combs /\
    exists s, map_at substruct I = Ok s /\ List.length (sd_dims s) = combs.
  Hypothesis Hnd : NoDup (map fst diag).

  Let L1 : List.length (tb_In t) = combs. Proof. apply (shipped_ok sh Hsh). Qed.
  Let L2 : List.length (tb_QN t) = combs. Proof. apply (shipped_ok sh Hsh). Qed.
  Let A1 : Forall (admissible (ts sy)) (tb_In t). Proof. apply (shipped_ok sh Hsh). Qed.

  Lemma alw I : admissible (ts sy) I -> allowed sy I = Ok (is_allowed sy I).
  Proof. intros HI. apply allowed_total; auto. pose proof allowed_names as E. rewrite forallb_forall in E. exact (E _ Hsh). Qed.

  Lemma anc_ok I i : admissible (ts sy) I -> (i < combs)%nat -> exists A, ancestor sy combs t I i = Ok A /\ admissible (ts sy) A.
  Proof.
    intros HI Hi. unfold ancestor. replace (Nat.ltb i combs) with true by (symmetry; apply Nat.ltb_lt; auto). cbn [my_assert bind].
    destruct (nth_error (tb_In t) i) as [d|] eqn:E; [|apply nth_error_None in E; lia].
    assert (admissible (ts sy) d) by (rewrite Forall_forall in A1; apply A1; eapply nth_error_In; eauto).
    rewrite combine_pure by auto. eexists; split; [reflexivity|]. apply combp_adm; auto.
  Qed.

  Definition sing_entry (I : invar) (i : nat) : recalc_entry C :=
    let A := val [] (ancestor sy combs t I i) in {| re_i1 := i + 1; re_ip := i + 1; re_IN1 := A; re_INp := A; re_factor := one |}.

  Lemma table_ok I : admissible (ts sy) I -> singlet_table C sy combs t one I 1 = Ok (map (sing_entry I) (seq 0 combs)).
  Proof.
    intros HI. unfold singlet_table. rewrite nr_combs_ok by auto. cbn [bind]. apply mapM_ok. intros i Hi. apply in_seq in Hi.
    destruct (anc_ok I i HI) as (A & E & _); [lia|]. unfold sing_entry. rewrite E. reflexivity.
  Qed.

  Lemma step_ok I e s i cn : multiplet sy I -> List.length (eg_blocks e) = combs -> List.length (sd_dims s) = combs -> (i < combs)%nat ->
    exists A, ancestor sy combs t I i = Ok A /\
    recalc_step M C ops sy combs t cold I I e e s s cn (sing_entry I i) =
      Ok (match singlet_term sy cold A e s i with Some (U, c) => mo_transform ops cn one U c U | None => cn end).
  Proof.
    intros [HI _] He Hs Hi. destruct (anc_ok I i HI Hi) as (A & E & HA). exists A. split; auto.
    unfold recalc_step, sing_entry. rewrite E. cbn [re_i1 re_ip re_IN1 re_INp re_factor val].
    replace (Nat.leb 1 (i + 1)) with true by (symmetry; apply Nat.leb_le; lia). cbn [my_assert bind].
    rewrite nr_combs_ok by auto. cbn [bind]. replace (Nat.leb (i + 1) combs) with true by (symmetry; apply Nat.leb_le; lia).
    cbn [my_assert bind andb]. rewrite alw by auto. cbn [bind]. unfold singlet_term. destruct (is_allowed sy A) eqn:EA; cbn [negb]; [|reflexivity].
    replace (i + 1 - 1)%nat with i by lia. rewrite E. cbn [bind]. rewrite invar_eqb_refl. cbn [my_assert bind].
    destruct (nth_error (sd_dims s) i) as [n|] eqn:En; [|apply nth_error_None in En; lia].
    assert (Er : rmax (sd_dims s) (Z.of_nat i) = Ok n).
    { unfold rmax. replace (Z.of_nat i <? Z.of_nat (List.length (sd_dims s))) with true by (symmetry; apply Z.ltb_lt; lia).
      cbn [my_assert bind]. rewrite Nat2Z.id, En. reflexivity. }
    rewrite Er. cbn [bind]. rewrite orb_diag. destruct (n =? 0) eqn:E0; [reflexivity|].
    destruct (map_find2 cold A A) as [c|] eqn:Ec; [|reflexivity].
    rewrite Hfin. cbn [my_assert bind]. unfold block. rewrite Nat.add_1_r.
    destruct (nth_error (eg_blocks e) i) as [U|] eqn:EU; [|apply nth_error_None in EU; lia]. reflexivity.
  Qed.

  Lemma loop_ok I e s cn k l : multiplet sy I -> List.length (eg_blocks e) = combs -> List.length (sd_dims s) = combs -> (k + l = combs)%nat ->
    recalc_loop M C ops sy combs t cold I I e e s s cn (map (sing_entry I) (seq k l)) =
      Ok (fold_left (fun acc p => mo_transform ops acc one (fst p) (snd p) (fst p))
           (catSome (map (fun i => singlet_term sy cold (val [] (ancestor sy combs t I i)) e s i) (seq k l))) cn).
  Proof.
    intros HI He Hs. revert k cn; induction l as [|l IH]; intros k cn Hk; [reflexivity|].
    cbn [seq map recalc_loop]. destruct (step_ok I e s k cn HI He Hs) as (A & EA & Est); [lia|]. rewrite Est, EA. cbn [bind val].
    rewrite IH by lia. destruct (singlet_term sy cold A e s k) as [[U c]|]; reflexivity.
  Qed.

  Hypothesis Hname : sh_name sh <> "SPSU2LR".

  Lemma map_at_in {V} (m : list (invar * V)) I v : NoDup (map fst m) -> In (I, v) m -> map_at m I = Ok v.
  Proof. intros Hn Hin. unfold map_at. rewrite (find_key _ _ _ Hn Hin). reflexivity. Qed.

  Lemma singlet_even : recalc_singlet M C ops sy combs t diag substruct cold one 1 =
    Ok (map (fun p => ((fst p, fst p),
              singlet_value ops one sy combs t cold (fst p) (snd p) (val {| sd_dims := []; sd_anc := [] |} (map_at substruct (fst p))))) diag).
  Proof.
    unfold recalc_singlet.
    replace (if sy_islr sy then (1 =? 1) || (1 =? -1) else 1 =? 1) with true by (destruct (sy_islr sy); reflexivity). cbn [my_assert bind].
    set (g := fun I => match map_at diag I with Ok e => Some ((I, I), singlet_value ops one sy combs t cold I e
                        (val {| sd_dims := []; sd_anc := [] |} (map_at substruct I))) | _ => None end).
    rewrite (mapM_ok _ g).
    - cbn [bind]. f_equal.
      assert (G : forall l, (forall p, In p l -> In p diag) -> catSome (map g (map fst l)) =
        map (fun p => ((fst p, fst p), singlet_value ops one sy combs t cold (fst p) (snd p) (val {| sd_dims := []; sd_anc := [] |} (map_at substruct (fst p))))) l).
      { induction l as [|[I e] l IH]; intros Hl; [reflexivity|]. cbn [map fst snd]. unfold g at 1.
        rewrite (map_at_in diag I e) by (auto; apply Hl; left; auto). cbn [catSome]. f_equal. apply IH. intros; apply Hl; right; auto. }
      apply G. auto.
    - intros I HI. apply in_map_iff in HI as ([I' e] & EI & Hin). cbn [fst] in EI. subst I'.
      destruct (Hdiag _ _ Hin) as (Hmul & Hb & s & Es & Hs).
      unfold singlet_block, parity_of. cbn [Z.eqb bind]. rewrite table_ok by apply Hmul. cbn [bind].
      unfold recalc_general. rewrite triangle_singlet; auto.
      2:{ pose proof singlet_ok_shipped as X. rewrite forallb_forall in X. specialize (X _ Hsh). apply orb_true_iff in X as [X|X]; auto.
          apply String.eqb_eq in X. contradiction. }
      cbn [bind negb]. rewrite (map_at_in diag I e) by auto. cbn [bind]. rewrite Es. cbn [bind]. unfold g. rewrite (map_at_in diag I e), Es by auto.
      cbn [val]. unfold singlet_value. destruct (eg_nrstored e =? 0); cbn [orb]; [reflexivity|].
      rewrite loop_ok by (auto; lia). reflexivity.
  Qed.
End Even.

(** SPSU2LR: no block is ever produced. *)
Lemma spsu2lr_singlet_empty sh M C ops (one : C) diag substruct cold :
  In sh shipped -> sh_name sh = "SPSU2LR" -> (forall I e, In (I, e) diag -> multiplet (sh_sym sh) I) ->
  recalc_singlet M C ops (sh_sym sh) (sh_combs sh) (sh_tab sh) diag substruct cold one 1 = Ok [].
Proof.
  intros Hsh Hname Hdiag.
  assert (Hsy : sh_sym sh = sym_SPSU2LR).
  { assert (E : Forall (fun sh => sh_name sh = "SPSU2LR" -> sh_sym sh = sym_SPSU2LR) shipped).
    { unfold shipped. repeat constructor; cbn [sh_name sh_sym]; intros X; try discriminate X; reflexivity. }
    rewrite Forall_forall in E. auto. }
  unfold recalc_singlet. replace (if sy_islr (sh_sym sh) then (1 =? 1) || (1 =? -1) else 1 =? 1) with true by (destruct (sy_islr (sh_sym sh)); reflexivity).
  cbn [my_assert bind]. rewrite (mapM_ok _ (fun _ => None)).
  - cbn [bind]. f_equal. induction (map fst diag); cbn [map catSome]; auto.
  - intros I HI. apply in_map_iff in HI as ([I' e] & EI & Hin). cbn [fst] in EI. subst I'. apply Hdiag in Hin.
    unfold singlet_block, parity_of. cbn [Z.eqb bind]. rewrite (table_ok sh Hsh C one I) by apply Hin. cbn [bind].
    assert (T : triangle (sh_sym sh) I I (sy_singlet (sh_sym sh)) = Ok false).
    { rewrite Hsy in *. destruct Hin as [HI _]. inversion HI as [|? x ? l Hx HI1]; subst. inversion HI1 as [|? p ? l' Hp HI2]; subst. inversion HI2; subst.
      unfold triangle. cbn [sy_tri sym_SPSU2LR tri_of sy_sig sy_singlet].
      assert (G1 : get [("SS", Additive); ("P", Multiplicative)] [x; p] "SS" = Ok x) by reflexivity.
      assert (G2 : get [("SS", Additive); ("P", Multiplicative)] [0; 1] "SS" = Ok 0) by reflexivity.
      rewrite G1, G2. cbn [bind tri_test]. unfold su2_triangle_inequality.
      replace (Z.abs (x - x) <=? 0 - 1) with false by (symmetry; apply Z.leb_gt; lia). reflexivity. }
    unfold recalc_general. rewrite T. reflexivity.
Qed.
