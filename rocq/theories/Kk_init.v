(** Proofs about the Kramers-Kronig tool: the table. *)
From Coq Require Import List Reals Lra Psatz Lia Sorted Permutation PeanoNat.
From Coquelicot Require Import Coquelicot.
From Verif Require Import Base Kk_model Kk_spec Kk_proofs.
Import ListNotations.
Local Open Scope R_scope.

Lemma insert_perm p l : Permutation (p :: l) (insert p l).
Proof.
  induction l as [|q l IH]; cbn; [reflexivity|]. destruct (pair_le p q); [reflexivity|].
  rewrite perm_swap. constructor. exact IH.
Qed.
Lemma sort_perm l : Permutation l (sort l).
Proof. induction l as [|p l IH]; cbn; [reflexivity|]. rewrite IH at 1. apply insert_perm. Qed.

Notation fle := (fun p q : R * R => fst p <= fst q).
Lemma pair_le_fle p q : pair_le p q = true -> fst p <= fst q.
Proof. unfold pair_le. repeat destruct (Rlt_dec _ _); try lra; discriminate. Qed.
Lemma pair_le_flase p q : pair_le p q = false -> fst q <= fst p.
Proof. unfold pair_le. repeat destruct (Rlt_dec _ _); intros H; try lra; discriminate. Qed.
Lemma insert_sorted p l : StronglySorted fle l -> StronglySorted fle (insert p l).
Proof.
  induction 1 as [|q l Hs IH Hf]; cbn; [repeat constructor|]. destruct (pair_le p q) eqn:E.
  - constructor; [constructor; assumption|]. apply pair_le_fle in E. constructor; [exact E|].
    eapply Forall_impl; [|exact Hf]. cbn. intros; lra.
  - constructor; [exact IH|]. apply pair_le_flase in E.
    eapply Permutation_Forall; [apply insert_perm|]. constructor; assumption.
Qed.
Lemma sort_sorted l : StronglySorted fle (sort l).
Proof. induction l; cbn; [constructor | apply insert_sorted; assumption]. Qed.

Lemma increasing_spec l : increasing l = true <-> StronglySorted Rlt l.
Proof.
  induction l as [|x [|y l] IH]; [split; constructor | split; repeat constructor |].
  cbn [increasing]. destruct (Rlt_dec x y) as [L | N].
  - rewrite IH. split; intros H.
    + constructor; [exact H|]. constructor; [exact L|]. apply StronglySorted_inv in H as [_ H].
      eapply Forall_impl; [|exact H]. cbn. intros; lra.
    + apply StronglySorted_inv in H. tauto.
  - split; [discriminate|]. intros H. exfalso. apply N. apply StronglySorted_inv in H as [_ H]. inversion H; assumption.
Qed.

(** A weakly sorted permutation of a strictly sorted list is that list. *)
Lemma sorted_unique : forall l l' : list (R * R), Permutation l l' -> StronglySorted fle l -> StronglySorted Rlt (map fst l') -> l = l'.
Proof.
  induction l as [|p l IH]; intros l' P S S'.
  - apply Permutation_nil in P. congruence.
  - destruct l' as [|q l']; [apply Permutation_sym, Permutation_nil in P; discriminate|].
    apply StronglySorted_inv in S as [S SF]. cbn in S'. apply StronglySorted_inv in S' as [S' SF'].
    rewrite Forall_forall in SF, SF'.
    assert (E : p = q).
    { assert (H1 : In q (p :: l)) by (eapply Permutation_in; [apply Permutation_sym, P | left; reflexivity]).
      assert (H2 : In p (q :: l')) by (eapply Permutation_in; [apply P | left; reflexivity]).
      destruct H2 as [H2 | H2]; [congruence|]. destruct H1 as [H1 | H1]; [congruence|]. exfalso.
      specialize (SF _ H1). specialize (SF' (fst p) (in_map fst _ _ H2)). lra. }
    subst q. f_equal. apply IH; [eapply Permutation_cons_inv, P | exact S | exact S'].
Qed.

Lemma symmetric_spec fcmp X len nr : symmetric_from fcmp X len nr = true <->
  forall i, (nr <= i < len)%nat -> fcmp (nth (len - i - 1) X 0) (- nth i X 0) eps_grid = true.
Proof.
  unfold symmetric_from. rewrite forallb_forall. split; intros H i Hi; apply H.
  - apply in_seq. lia.
  - apply in_seq in Hi. lia.
Qed.

Lemma eps_pos : 0 <= eps_grid. Proof. unfold eps_grid; lra. Qed.

Theorem init_ok fcmp im0 im : fcmp_contract fcmp -> init fcmp im0 = Ok im ->
  Permutation im0 im /\ StronglySorted Rlt (map fst im) /\ Nat.Even (length im) /\ (6 <= length im)%nat
  /\ forall i, (i < length im)%nat ->
       let a := nth i (map fst im) 0 in let b := nth (length im - 1 - i) (map fst im) 0 in
       Rabs (a + b) <= 2 / 100000000 * Rmax (Rabs a) (Rabs b).
Proof.
  intros [Hc _]. unfold init. destruct im0 as [|p0 im0]; [discriminate|]. set (l := p0 :: im0).
  destruct (Nat.odd (length (sort l))) eqn:Eo; [discriminate|].
  destruct (fcmp _ _ _); cbn [negb]; [|discriminate].
  destruct (Nat.ltb _ 5) eqn:E5; [discriminate|]. apply Nat.ltb_ge in E5.
  destruct (increasing _) eqn:Ei; cbn [negb]; [|discriminate].
  destruct (symmetric_from _ _ _ _) eqn:Es; cbn [negb]; [|discriminate].
  intros E. assert (EE : im = sort l) by congruence. subst im. rewrite symmetric_spec in Es. apply increasing_spec in Ei.
  assert (Ev : Nat.Even (length (sort l))) by (apply Nat.even_spec; rewrite <- Nat.negb_odd, Eo; reflexivity).
  split; [apply sort_perm|]. split; [exact Ei|]. split; [exact Ev|].
  split; [destruct Ev as [k Ek]; lia|].
  destruct Ev as [k Ek]. rewrite Ek in Es. rewrite Nat.div2_double in Es.
  assert (W : forall u v : R, Rabs (u - - v) <= 2 * eps_grid * Rmax (Rabs u) (Rabs (- v)) ->
            Rabs (u + v) <= 2 / 100000000 * Rmax (Rabs u) (Rabs v)).
  { intros u v H. rewrite Rabs_Ropp in H. replace (u - - v) with (u + v) in H by ring. unfold eps_grid in H. lra. }
  intros i Hi.
  destruct (Nat.le_gt_cases k i) as [L | L].
  - specialize (Es i ltac:(lia)). apply (Hc _ _ _ eps_pos) in Es.
    rewrite Rplus_comm, Rmax_comm. apply W. rewrite Ek. replace (2 * k - 1 - i)%nat with (2 * k - i - 1)%nat by lia. exact Es.
  - specialize (Es (2 * k - 1 - i)%nat ltac:(lia)). apply (Hc _ _ _ eps_pos) in Es.
    apply W. rewrite Ek. replace (2 * k - (2 * k - 1 - i) - 1)%nat with i in Es by lia. exact Es.
Qed.

Lemma last_nth (l : list R) d : last l d = nth (length l - 1) l d.
Proof.
  induction l as [|x [|y l] IH]; [reflexivity | reflexivity |]. change (last (x :: y :: l) d) with (last (y :: l) d). rewrite IH. cbn [length].
  replace (S (S (length l)) - 1)%nat with (S (S (length l) - 1))%nat by lia. reflexivity.
Qed.

Theorem init_accepts fcmp im0 im : fcmp_contract fcmp -> Permutation im0 im -> StronglySorted Rlt (map fst im) ->
  Nat.Even (length im) -> (6 <= length im)%nat ->
  (forall i, (i < length im)%nat -> nth (length im - 1 - i) (map fst im) 0 = - nth i (map fst im) 0) ->
  init fcmp im0 = Ok im.
Proof.
  intros [_ Hc] P S Ev L6 Sy.
  assert (E : sort im0 = im).
  { apply sorted_unique; [|apply sort_sorted | exact S]. etransitivity; [apply Permutation_sym, sort_perm | exact P]. }
  assert (EQ : forall u v : R, u = v -> fcmp u v eps_grid = true).
  { intros u v ->. apply Hc; [exact eps_pos|]. rewrite Rminus_eq_0, Rabs_R0.
    apply Rmult_le_pos; [exact eps_pos|]. eapply Rle_trans; [apply Rabs_pos | apply Rmax_l]. }
  unfold init. destruct im0 as [|p0 im0].
  { apply Permutation_length in P. cbn in P. lia. }
  rewrite E. rewrite <- Nat.negb_even. replace (Nat.even (length im)) with true by (symmetry; apply Nat.even_spec, Ev). cbn [negb].
  rewrite EQ.
  2:{ rewrite last_nth, map_length. replace (hd 0 (map fst im)) with (nth 0 (map fst im) 0) by (destruct (map fst im); reflexivity).
      rewrite <- (Sy 0%nat) by lia. f_equal. lia. }
  cbn [negb]. destruct (Nat.ltb_spec (length im) 5); [lia|].
  replace (increasing (map fst im)) with true by (symmetry; apply increasing_spec, S). cbn [negb].
  replace (symmetric_from _ _ _ _) with true; [reflexivity|]. symmetry. apply symmetric_spec. intros i Hi. apply EQ.
  rewrite <- Sy by lia. f_equal. lia.
Qed.

Theorem tool fcmp integr spline im0 out : fcmp_contract fcmp -> exact_quadrature integr -> kk fcmp integr spline im0 = Ok out ->
  exists im, Permutation im0 im /\ StronglySorted Rlt (map fst im) /\ map fst out = map fst im
  /\ let X := last (map fst im) 0 in let '(f, df) := spline im in
     forall x r, In (x, r) out -> - X < x < X -> smooth_at f X x (df x) -> exists v, r = Some v /\ principal_value f X x (PI * v).
Proof.
  intros Hc Hi H. revert H. unfold kk. destruct (init fcmp im0) as [im| |] eqn:E; cbn [bind]; try discriminate.
  destruct (init_ok _ _ _ Hc E) as (P & S & _). intros H. exists im. destruct (spline im) as [f df] eqn:Es.
  injection H as <-. split; [exact P|]. split; [exact S|]. split.
  - rewrite map_map. cbn. apply map_id.
  - cbv zeta. intros x r Hin Hx Hs. apply in_map_iff in Hin as (x' & Ex & _). injection Ex as -> <-.
    apply calc_principal_value; assumption.
Qed.

Theorem tool_nan fcmp integr spline im0 out : fcmp_contract fcmp -> kk fcmp integr spline im0 = Ok out ->
  exists im, init fcmp im0 = Ok im
  /\ let Xmin := hd 0 (map fst im) in let Xmax := last (map fst im) 0 in
     (Xmin < - Xmax -> hd (0, Some 0) out = (Xmin, None)).
Proof.
  intros Hc. unfold kk. destruct (init fcmp im0) as [im| |] eqn:E; cbn [bind]; try discriminate.
  destruct (init_ok _ _ _ Hc E) as (P & S & Ev & L6 & Sy). intros H. exists im. split; [reflexivity|].
  destruct (spline im) as [f df]. injection H as <-. cbv zeta. intros Hlt.
  specialize (Sy 0%nat ltac:(lia)). cbv zeta in Sy. rewrite Nat.sub_0_r in Sy.
  rewrite last_nth, map_length in *.
  assert (Hl : length (map fst im) = length im) by apply map_length.
  set (m := map fst im) in *. clearbody m. destruct m as [|x0 m]; [cbn in Hl; lia|]. cbn [hd map] in *. change (nth 0 (x0 :: m) 0) with x0 in Sy.
  f_equal.
  assert (Hx : x0 < nth (length im - 1) (x0 :: m) 0).
  { apply StronglySorted_inv in S as [_ S]. rewrite Forall_forall in S. apply S.
    replace (length im - 1)%nat with (Datatypes.S (length im - 2))%nat by lia. cbn [nth]. apply nth_In. cbn in Hl. lia. }
  set (X := nth (length im - 1) (x0 :: m) 0) in *.
  assert (HX : 0 < X).
  { destruct (Rlt_dec 0 X); [assumption|]. exfalso.
    assert (Rabs (x0 + X) = - x0 - X) by (rewrite Rabs_left; lra).
    assert (Rmax (Rabs x0) (Rabs X) = - x0) by (rewrite Rabs_left, Rmax_left by (try rewrite (Rabs_left1 X); lra); reflexivity).
    lra. }
  apply calc_nan; [exact HX|]. rewrite Rabs_left; lra.
Qed.
