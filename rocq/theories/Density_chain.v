(** The whole back-propagation: from the last step to the first. *)
From Coq Require Import List ZArith Lia.
From Verif Require Import Base Invar_model Invar_spec Invar_proofs Symmetry_model Symmetry_spec Symmetry_tables Symmetry_proofs
  Subspaces_model Subspaces_spec Subspaces_proofs Subspaces_step Density_struct Density_model Density_spec Density_sums Density_proofs.
From mathcomp Require Import ssreflect ssrfun ssrbool eqtype ssrnat seq fintype bigop ssralg order ssrnum.
Import GRing.Theory Num.Theory.
Local Open Scope ring_scope.
Set Implicit Arguments.
Unset Strict Implicit.
Unset Printing Implicit Defensive.

Section Chain.
  Variable C : numClosedFieldType.
  Variable sh : shipped_table.
  Hypothesis Hsh : In sh shipped.
  Notation sy := (sh_sym sh).
  Notation t := (sh_tab sh).
  Notation combs := (sh_combs sh).
  Notation mmC := (mm C sh).

  Lemma foldM_sum {A : Type} (l : list (invar * A)) (F : invar * A -> C) (body : C -> invar * A -> res C) x :
    (forall acc p, In p l -> body acc p = Ok (acc + F p)) -> foldM body l x = Ok (x + \sum_(p <- l) F p).
  Proof.
    elim: l x => [|p l IH] x H /=; first by rewrite big_nil addr0.
    rewrite H; last by left. rewrite /= IH; last by move=> acc q Hq; apply: H; right. by rewrite big_cons addrA.
  Qed.

  (** The trace computed by the code is the trace over all states, when the diagonal is real. *)
  Lemma dm_trace_eval (rho : densmat C) : (forall J M, In (J, M) rho -> multiplet sy J /\ hermitian (f_rows M) (f_el M)) ->
    dm_trace sy rho = Ok (full_trace sy rho).
  Proof.
    move=> H. rewrite /dm_trace (foldM_sum (F := fun p => mmC (fst p) * \sum_(i < f_rows (snd p)) f_el (snd p) i i)); first by rewrite add0r.
    move=> acc [J M] Hin /=. case: (H _ _ Hin) => HJ Hh. case: (mm_ok C Hsh HJ) => m [-> [Em _]] /=. rewrite Em. congr (Ok (_ + _ * _)).
    rewrite /trace_real. apply: eq_bigr => i _. apply/Creal_ReP. apply/CrealP. symmetry. exact: Hh.
  Qed.

  Definition sound (b : backsubs) : Prop :=
    NoDup (List.map fst b) /\ (forall J x, In (J, x) b -> multiplet sy J) /\ (forall J x, In (J, x) b -> (Z.of_nat (b_kept x) <= 1000000)%Z).

  Lemma dm_fits prev cur diag rho : sound prev -> regular_step (C := C) sh prev cur diag -> density_matrix sh cur rho -> fits cur diag rho.
  Proof.
    move=> [H1 [H2 H3]] Hreg [_ [Hn Hr]]. split=> //. split.
    - move=> J /in_map_iff [[K M] [/= <- /Hr [[b [Hb _]] _]]]. by apply/in_map_iff; exists (K, b).
    - move=> J M e /Hr [[b [Hb Eb]] [Esq _]] He. split=> //. case: Hreg => st [infos [_ [_ [_ [_ [_ /(_ J e b He Hb)]]]]]] [Hle _]. by rewrite Eb.
  Qed.

  Lemma Forall2_In_r {A B} (R : A -> B -> Prop) l l' y : Forall2 R l l' -> In y l' -> exists x, In x l /\ R x y.
  Proof. elim=> [|x z l1 l2 Hxy _ IH] //= [<-|/IH [x' [Hx HR]]]; [by exists x; split=> //; left|by exists x'; split=> //; right]. Qed.
  Lemma Forall2_keys {A B} (R : invar * A -> invar * B -> Prop) l l' : Forall2 R l l' -> (forall x y, R x y -> fst y = fst x) -> List.map fst l' = List.map fst l.
  Proof. move=> H HR. elim: H => [|x z l1 l2 Hxy _ IH] //=. by rewrite IH (HR _ _ Hxy). Qed.

  (** One backward step. *)
  Lemma dm_iterN_ok prev cur diag rho : sound prev -> regular_step (C := C) sh prev cur diag -> density_matrix sh cur rho ->
    exists rp, dm_iterN sy combs t diag rho cur prev = Ok rp /\ density_matrix sh prev rp /\ List.map fst rp = List.map fst prev /\
      forall J M, In (J, M) rp -> multiplet sy J.
  Proof.
    move=> Hs Hreg Hd. have Hf := dm_fits Hs Hreg Hd. case: Hs => [H1 [H2 H3]].
    case: (@loop_result C prev (dm_sector sy combs t diag rho cur) (back sh cur diag rho)) => [Ix b Hin|rp [E Hr]].
    { exact: (dm_sector_eval Hsh H1 H2 H3 Hreg). }
    exists rp. split; first by []. case: Hd => Htr [Hn Hm].
    have Hk : List.map fst rp = List.map fst prev by apply: (Forall2_keys Hr) => x y [_ []].
    split; last split=> //; last first.
    { move=> J M Hin. case: (Forall2_In_r Hr Hin) => -[K b] [Hb [_ [/= -> _]]]. exact: (H2 _ _ Hb). }
    split.
    - rewrite -Htr /full_trace -(back_trace Hsh H1 H2 H3 Hreg Hf). apply: (big_Forall2 Hr) => -[J b] [K M] [_ [/= -> [-> [_ El]]]].
      congr (_ * _). apply: eq_bigr => i _. exact: El.
    - split; first by rewrite Hk. move=> J M Hin. case: (Forall2_In_r Hr Hin) => -[K b] [Hb [_ [/= EK [Er [Ec El]]]]]. subst K.
      split; first by exists b. split; first by rewrite Ec. rewrite Er. split.
      + move=> i j Hi Hj. rewrite !El //. apply: back_hermitian. by move=> K N /Hm [_ [_ []]].
      + have HJ : In J (List.map fst prev) by apply/in_map_iff; exists (J, b).
        have HP : forall K N, In (K, N) rho -> positive (f_rows N) (f_el N) by move=> K N /Hm [_ [_ []]].
        move=> v. have := @back_positive C sh Hsh prev cur diag H2 rho J (b_kept b) HJ HP v. congr (_ <= _).
        apply: eq_bigr => i _. apply: eq_bigr => j _. by rewrite El.
  Qed.

  Lemma rev_seq_S a n : List.rev (List.seq a n.+1) = (a + n)%N :: List.rev (List.seq a n).
  Proof. by rewrite List.seq_S List.rev_app_distr. Qed.

  (** Every step of a first pass is sound. *)
  Lemma first_pass_sound Ninit Nmax (df : nat -> diaginfo C) sa : first_pass sh Ninit Nmax df sa -> forall N, (Ninit <= N < Nmax)%N -> sound (sa N).
  Proof.
    move=> [_ [Hlt [Hn [Hm [Hb Hr]]]]] N. elim: N => [|N IH] /andP [H1 H2].
    - have E : Ninit = 0%N by apply/eqP; rewrite -leqn0. subst Ninit. split=> //. split=> // J x Hin. by apply: Hb Hin.
    - case: (leqP Ninit N) => HN; last first.
      { have E : Ninit = N.+1 by apply/eqP; rewrite eqn_leq H1 HN. subst Ninit. split=> //. split=> // J x Hin. by apply: Hb Hin; rewrite leqnn. }
      have HIH : sound (sa N) by apply: IH; rewrite HN /= ltnW.
      have Hreg : regular_step sh (sa N) (sa N.+1) (df N.+1) by move: (Hr N.+1); rewrite subn1 /=; apply; rewrite ltnS HN.
      case: HIH => S1 [S2 S3]. split; first exact: (cur_nodup Hreg). split.
      + move=> J x Hin. by case: (cur_sector Hsh S1 S2 S3 Hreg Hin).
      + move=> J x Hin. by apply: Hb Hin; rewrite H1.
  Qed.

  Variables (near : C -> C -> bool) (checkrho : bool).
  Hypothesis near_refl : forall x, near x x.

  Lemma check_ok rho : (forall J M, In (J, M) rho -> multiplet sy J) -> (forall J M, In (J, M) rho -> hermitian (f_rows M) (f_el M)) ->
    full_trace sy rho = 1 -> check_trace_rho sy near rho 1 = Ok tt.
  Proof. move=> H1 H2 H3. rewrite /check_trace_rho dm_trace_eval; last by move=> J M Hin; split; [apply: H1 Hin|apply: H2 Hin]. by rewrite /= H3 near_refl. Qed.

  Lemma dm_multiplets cur (rho : densmat C) : sound cur -> density_matrix sh cur rho ->
    (forall J M, In (J, M) rho -> multiplet sy J) /\ (forall J M, In (J, M) rho -> hermitian (f_rows M) (f_el M)).
  Proof. move=> [_ [H _]] [_ [_ Hm]]. split=> J M /Hm [[b [Hb _]] [_ [Hh _]]] //. exact: (H _ _ Hb). Qed.

  Lemma calc_dm_loop_ok Ninit Nmax (df : nat -> diaginfo C) sa : first_pass sh Ninit Nmax df sa -> forall n rho, (Ninit + n < Nmax)%N ->
    density_matrix sh (sa (Ninit + n)%N) rho ->
    exists l, calc_dm_loop sy combs t near checkrho df sa Ninit n rho = Ok l /\ List.map fst l = List.rev (List.seq Ninit n) /\
      forall N r, In (N, r) l -> density_matrix sh (sa N) r /\ List.map fst r = List.map fst (sa N).
  Proof.
    move=> Hfp. have Hs := first_pass_sound Hfp. case: (Hfp) => [_ [Hlt [Hn [Hm [Hb Hr]]]]]. elim=> [|n IH] rho HN Hd.
    { by exists nil. }
    rewrite rev_seq_S [calc_dm_loop _ _ _ _ _ _ _ _ _ _]/=.
    have E1 : (Ninit + n.+1 - 1 = Ninit + n)%N by rewrite addnS subn1. rewrite E1.
    have Hreg : regular_step sh (sa (Ninit + n)%N) (sa (Ninit + n.+1)%N) (df (Ninit + n.+1)%N).
    { rewrite -E1. apply: Hr. rewrite HN andbT addnS ltnS. exact: leq_addr. }
    have Hsp : sound (sa (Ninit + n)%N). { apply: Hs. rewrite leq_addr /=. apply: leq_ltn_trans HN. by rewrite addnS. }
    case: (dm_iterN_ok Hsp Hreg Hd) => rp [-> [Hdp [Hk Hmp]]] /=.
    case: (dm_multiplets Hsp Hdp) => M1 M2. have -> : (if checkrho then check_trace_rho sy near rp 1 else Ok tt) = Ok tt.
    { case: checkrho => //. apply: check_ok => //. by case: Hdp. }
    case: (IH rp) => //=; first by apply: leq_ltn_trans HN; rewrite addnS.
    move=> l [-> [El Hl]] /=. eexists. split; first by []. split.
    - by rewrite /= El.
    - move=> N r [[<- <-]|/Hl] //.
  Qed.

  Lemma gcZ_eval (d : list (invar * last_eig C)) : (forall J l, In (J, l) d -> multiplet sy J) ->
    grand_canonical_Z sy d = Ok (\sum_(p <- d) mmC (fst p) * \sum_(i < l_kept (snd p)) l_boltz (snd p) i).
  Proof.
    move=> H. rewrite /grand_canonical_Z (foldM_sum (F := fun p => mmC (fst p) * \sum_(i < l_kept (snd p)) l_boltz (snd p) i)); first by rewrite add0r.
    move=> acc [J l] Hin /=. case: (mm_ok C Hsh (H _ _ Hin)) => m [-> [-> _]] //.
  Qed.

  Lemma gcZ_pos (d : list (invar * last_eig C)) : (forall J l, In (J, l) d -> multiplet sy J /\ forall i, 0 < l_boltz l i) ->
    (exists J l, In (J, l) d /\ (0 < l_kept l)%N) -> 0 < \sum_(p <- d) mmC (fst p) * \sum_(i < l_kept (snd p)) l_boltz (snd p) i.
  Proof.
    elim: d => [|[K k] d IH] H [J [l [Hin Hk]]] //. rewrite big_cons /=.
    have Hge : forall d', (forall J l, In (J, l) d' -> multiplet sy J /\ forall i, 0 < l_boltz l i) ->
      0 <= \sum_(p <- d') mmC (fst p) * \sum_(i < l_kept (snd p)) l_boltz (snd p) i.
    { elim=> [|[J' l'] d' IH'] H'; first by rewrite big_nil. rewrite big_cons /=. apply: addr_ge0.
      - apply: mulr_ge0; first by apply: mm_ge0. apply: sumr_ge0 => i _. case: (H' J' l'); first by left. by move=> _ Hp; apply: Order.POrderTheory.ltW.
      - by apply: IH' => J'' l'' Hin''; apply: H'; right. }
    case: (H K k); first by left. move=> HK Hpos. case: (mm_ok C Hsh HK) => m [_ [_ [_ Hm]]].
    case: Hin => [[E1 E2]|Hin].
    - subst K k. apply: ltr_paddr; first by apply: Hge => J' l' Hin'; apply: H; right.
      apply: mulr_gt0 => //. rewrite (bigD1 (Ordinal Hk)) //=. apply: ltr_paddr => //. by apply: sumr_ge0 => i _; apply: Order.POrderTheory.ltW.
    - apply: ltr_paddl; last by apply: IH; [move=> J' l' Hin'; apply: H; right|exists J, l].
      apply: mulr_ge0; first by apply: mm_ge0. by apply: sumr_ge0 => i _; apply: Order.POrderTheory.ltW.
  Qed.

  Lemma diagonal_dm n (f : nat -> C) Z : 0 < Z -> (forall i, 0 <= f i) ->
    hermitian n (f_el (diagonal_over n f Z)) /\ positive n (f_el (diagonal_over n f Z)).
  Proof.
    move=> HZ Hf. have Hd : forall i, 0 <= f i / Z by move=> i; apply: divr_ge0 => //; apply: Order.POrderTheory.ltW. split.
    - move=> i j _ _ /=. rewrite eq_sym. case: eqP => [->|_]; last by rewrite conjC0. symmetry. apply/CrealP. exact: ger0_real.
    - move=> v /=. apply: sumr_ge0 => i _. rewrite (bigD1 i) //= eqxx big1 ?addr0.
      + rewrite mulrAC. apply: mulr_ge0 => //. by rewrite mulrC mul_conjC_ge0.
      + move=> j Hj. rewrite (_ : (nat_of_ord i == j) = false) ?mulr0 ?mul0r //. by rewrite eq_sym; apply/negbTE.
  Qed.

  Lemma init_rho_ok cur keepsec (d : list (invar * last_eig C)) : sound cur -> last_step cur keepsec d ->
    exists rho, init_rho sy near checkrho keepsec d = Ok rho /\ density_matrix sh cur rho /\
      List.map fst rho = List.map fst (List.filter (fun p => keepsec (fst p)) d).
  Proof.
    move=> Hs [Hn [Hd Hex]]. case: (Hs) => S1 [S2 S3]. rewrite /init_rho. set d' := List.filter _ d.
    have Hd' : forall J l, In (J, l) d' -> multiplet sy J /\ (forall i, 0 < l_boltz l i) /\ l_stored l = l_kept l /\ exists b, In (J, b) cur /\ l_kept l = b_kept b.
    { move=> J l /List.filter_In [Hin _]. case: (Hd _ _ Hin) => H1 [H2 [b [Hb Eb]]]. split; first exact: (S2 _ _ Hb). do 2!split=> //. by exists b. }
    rewrite gcZ_eval; last by move=> J l /Hd' [].
    set Z := \sum_(p <- d') _.
    have HZ : 0 < Z.
    { apply: gcZ_pos; first by move=> J l /Hd' [? []]. case: Hex => J [l [Hin [Hk Hl]]]. exists J, l. split=> //. apply/List.filter_In. by split. }
    have Hne : Z != 0 by rewrite lt0r_neq0.
    rewrite /=. set rho := List.map _ d'.
    have Hdm : density_matrix sh cur rho.
    { split.
      - rewrite /full_trace big_lmap /= -[RHS](divff Hne) [in RHS]/Z mulr_suml. apply: eq_big_In => -[J l] Hin /=.
        case: (Hd' _ _ Hin) => _ [_ [-> _]]. rewrite -mulrA. congr (_ * _). rewrite mulr_suml. apply: eq_bigr => i _. by rewrite eqxx.
      - split.
        + rewrite /rho List.map_map /= /d'. clear -Hn. elim: d Hn => [|[J l] d IH] //= Hn. inversion Hn; subst. case: (keepsec J) => /=; last exact: IH.
          constructor; last exact: IH. move=> /in_map_iff [[K k] [/= EK /List.filter_In [Hin _]]]. subst K. apply: H1. by apply/in_map_iff; exists (J, k).
        + move=> J M /in_map_iff [[K l] [[<- <-] Hin]] /=. case: (Hd' _ _ Hin) => HM [Hp [E1 [b [Hb Eb]]]].
          split; first by exists b; rewrite E1. split=> //. apply: (diagonal_dm (l_stored l) HZ). by move=> i; apply: Order.POrderTheory.ltW. }
    have -> : (if checkrho then check_trace_rho sy near rho 1 else Ok tt) = Ok tt.
    { case: checkrho => //. case: (dm_multiplets Hs Hdm) => M1 M2. apply: check_ok => //. by case: Hdm. }
    exists rho. split=> //. split=> //. by rewrite /rho List.map_map.
  Qed.

  Lemma prepare_rho_ok Ninit Nmax (df : nat -> diaginfo C) sa keepsec d : first_pass sh Ninit Nmax df sa -> last_step (sa (Nmax - 1)%N) keepsec d ->
    exists l, prepare_rho sy combs t near checkrho df sa Ninit Nmax keepsec d = Ok l /\
      List.map fst l = List.rev (List.seq Ninit (Nmax - Ninit)) /\
      forall N r, In (N, r) l -> density_matrix sh (sa N) r.
  Proof.
    move=> Hfp Hls. case: (Hfp) => _ [Hlt _]. have Hs := first_pass_sound Hfp.
    have HN : (Ninit <= Nmax - 1 < Nmax)%N. { case: Nmax Hlt {Hfp Hls Hs} => // m. by rewrite ltnS subn1 /= => ->; rewrite ltnSn. }
    case: (init_rho_ok (Hs _ HN) Hls) => rho [E [Hd _]]. rewrite /prepare_rho E /= /calc_densitymatrix.
    case: (dm_multiplets (Hs _ HN) Hd) => M1 M2.
    have -> : (if checkrho then check_trace_rho sy near rho 1 else Ok tt) = Ok tt.
    { case: checkrho => //. apply: check_ok => //. by case: Hd. }
    have EN : (Ninit + (Nmax - 1 - Ninit) = Nmax - 1)%N by apply: subnKC; case/andP: HN.
    case: (calc_dm_loop_ok Hfp (n := Nmax - 1 - Ninit) (rho := rho)); rewrite ?EN //; first by case/andP: HN.
    move=> l [/= -> [El Hl]] /=. eexists. split; first by []. split.
    - have -> : (Nmax - Ninit = (Nmax - 1 - Ninit).+1)%N by rewrite -subnDA addnC subnDA subn1 prednK // subn_gt0.
      by rewrite rev_seq_S -El EN.
    - move=> N r [[<- <-]|/Hl []] //.
  Qed.
End Chain.

Lemma one_step_back (C : numClosedFieldType) (sh : shipped_table) prev cur (diag : diaginfo C) rho :
  In sh shipped -> NoDup (List.map fst prev) -> (forall J b, In (J, b) prev -> multiplet (sh_sym sh) J) ->
  (forall J b, In (J, b) prev -> (Z.of_nat (b_kept b) <= 1000000)%Z) ->
  regular_step sh prev cur diag -> density_matrix sh cur rho ->
  exists rp, dm_iterN (sh_sym sh) (sh_combs sh) (sh_tab sh) diag rho cur prev = Ok rp /\ density_matrix sh prev rp /\ List.map fst rp = List.map fst prev.
Proof.
  move=> Hsh H1 H2 H3 Hreg Hd. have Hs : sound sh prev by split=> //; split.
  case: (dm_iterN_ok Hsh Hs Hreg Hd) => rp [E [Hp [Hk _]]]. by exists rp.
Qed.

