(** Concrete cases for the theorems about the Kramers-Kronig tool. *)
From Coq Require Import List Reals Lra Psatz Lia Sorted Permutation.
From Coquelicot Require Import Coquelicot.
From Verif Require Import Base Kk_model Kk_spec Kk_proofs Kk_init.
Import ListNotations.
Local Open Scope R_scope.

Definition exact_integr (f : R -> R) (a b : R) : R := RInt f a b.
Lemma exact_integr_ok : exact_quadrature exact_integr.
Proof. intros f a b _. reflexivity. Qed.

(** A comparison that meets the contract. *)
Definition ex_fcmp (a b eps : R) : bool := if Rle_dec (Rabs (a - b)) (eps * Rmax (Rabs a) (Rabs b)) then true else false.
Lemma ex_fcmp_ok : fcmp_contract ex_fcmp.
Proof.
  split; intros a b eps He; unfold ex_fcmp; destruct (Rle_dec _ _); intros H; try reflexivity; try discriminate; try contradiction.
  assert (0 <= Rmax (Rabs a) (Rabs b)) by (eapply Rle_trans; [apply Rabs_pos | apply Rmax_l]). nra.
Qed.

(** A parabola. *)
Lemma square_smooth X Z : smooth_at (fun x => x * x) X Z (2 * Z).
Proof.
  exists (fun x => x * x). split.
  - intros x _. split; [reflexivity|]. apply (continuous_mult (fun x : R => x) (fun x : R => x)); apply continuous_id.
  - auto_derive; [trivial | ring].
Qed.
Definition ex_spline (_ : list (R * R)) : (R -> R) * (R -> R) := ((fun x => x * x), (fun x => 2 * x)).

(** A symmetric table, not in order, and a table in which the lowest point is lower by less than the tolerance. *)
Definition ex_table : list (R * R) := [(1, 1); (- (1), 1); (2, 4); (- (2), 4); (3, 9); (- (3), 9)].
Definition ex_sorted : list (R * R) := [(- (3), 9); (- (2), 4); (- (1), 1); (1, 1); (2, 4); (3, 9)].
Lemma ex_perm : Permutation ex_table ex_sorted.
Proof.
  unfold ex_table, ex_sorted.
  apply Permutation_sym.
  apply (Permutation_cons_app [(1, 1); (- (1), 1); (2, 4); (- (2), 4); (3, 9)] []). cbn.
  apply (Permutation_cons_app [(1, 1); (- (1), 1); (2, 4)] [(3, 9)]). cbn.
  apply (Permutation_cons_app [(1, 1)] [(2, 4); (3, 9)]). cbn. apply Permutation_refl.
Qed.
Lemma ex_increasing : StronglySorted Rlt (map fst ex_sorted).
Proof. cbn. repeat constructor; lra. Qed.
Lemma ex_symmetric i : (i < length ex_sorted)%nat -> nth (length ex_sorted - 1 - i) (map fst ex_sorted) 0 = - nth i (map fst ex_sorted) 0.
Proof. intros Hi. cbn in Hi. do 6 (destruct i as [|i]; [cbn; lra|]). lia. Qed.

Definition low : R := - (3 + 1 / 1000000000).
Definition ex_skew : list (R * R) := [(low, 9); (- (2), 4); (- (1), 1); (1, 1); (2, 4); (3, 9)].
Lemma ex_skew_ok : init ex_fcmp ex_skew = Ok ex_skew.
Proof.
  assert (S : StronglySorted Rlt (map fst ex_skew)) by (cbn; unfold low; repeat constructor; lra).
  assert (E : sort ex_skew = ex_skew).
  { apply sorted_unique; [apply Permutation_sym, sort_perm | apply sort_sorted | exact S]. }
  assert (G : forall a, ex_fcmp a a eps_grid = true).
  { intros a. apply (proj2 ex_fcmp_ok); [apply eps_pos|]. rewrite Rminus_eq_0, Rabs_R0.
    apply Rmult_le_pos; [apply eps_pos|]. eapply Rle_trans; [apply Rabs_pos | apply Rmax_l]. }
  assert (F1 : ex_fcmp (- low) 3 eps_grid = true).
  { unfold ex_fcmp, eps_grid, low. destruct (Rle_dec _ _) as [|N]; [reflexivity|]. exfalso. apply N.
    rewrite Ropp_involutive. rewrite !Rabs_pos_eq by lra. rewrite Rmax_left by lra. lra. }
  assert (F2 : ex_fcmp low (- (3)) eps_grid = true).
  { unfold ex_fcmp, eps_grid, low. destruct (Rle_dec _ _) as [|N]; [reflexivity|]. exfalso. apply N.
    rewrite (Rabs_left (- (3 + 1 / 1000000000))) by lra. rewrite (Rabs_left (- (3))) by lra. rewrite Rabs_left by lra.
    rewrite Rmax_left by lra. lra. }
  unfold init. change ex_skew with ((low, 9) :: [(- (2), 4); (- (1), 1); (1, 1); (2, 4); (3, 9)]) at 1. cbv beta iota zeta. rewrite E.
  change (Nat.odd (length ex_skew)) with false. cbv iota.
  change (hd 0 (map fst ex_skew)) with low. change (last (map fst ex_skew) 0) with 3. rewrite F1. cbn [negb].
  change (Nat.ltb (length ex_skew) 5) with false. cbv iota.
  replace (increasing (map fst ex_skew)) with true by (symmetry; apply increasing_spec, S). cbn [negb].
  replace (symmetric_from ex_fcmp (map fst ex_skew) (length ex_skew) (Nat.div2 (length ex_skew))) with true; [reflexivity|].
  symmetry. apply symmetric_spec. change (length ex_skew) with 6%nat. intros i Hi.
  destruct i as [|[|[|i]]]; try (cbn in Hi; lia). destruct i as [|[|[|i]]]; try (cbn in Hi; lia); cbn [nth map fst Nat.sub ex_skew]; auto.
Qed.
