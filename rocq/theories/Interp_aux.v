(** A concrete table for the examples of Interp_props. *)
From Coq Require Import List ZArith Reals Lia Lra.
From Verif Require Import Base Interp_model Interp_spec Interp_proofs.
Import ListNotations.
Local Open Scope R_scope.

Definition tent : table := [(0, 0); (1, 2); (3, 0)].
Lemma tent_increasing : increasing tent.
Proof. intros i p q Hp Hq. destruct i as [|[|[|[|]]]]; simpl in *; inversion Hp; inversion Hq; subst; simpl; try lra. Qed.

Lemma tent_values : interpolate true tent [1 / 2; 5; 2; 1 / 2; 1; - 1] = Ok [Some 1; Some 0; Some 1; Some 1; Some 2; Some 0].
Proof.
  destruct (history_form true tent tent_increasing (le_n_S 1 2 (le_S 1 1 (le_n 1)))) as (f & H1 & _ & H3). rewrite H3. simpl.
  assert (E : forall x y, linear_interpolant tent x (f x) -> (x <= 0 /\ y = 0 \/ 0 <= x <= 1 /\ y = 2 * x \/ 1 <= x <= 3 /\ y = 3 - x \/ 3 <= x /\ y = 0) -> f x = y).
  { intros x y (L1 & L2 & L3) [[A ->]|[[A ->]|[[A ->]|[A ->]]]].
    - apply (L1 (0, 0) eq_refl A).
    - rewrite (L3 0%nat (0, 0) (1, 2) eq_refl eq_refl A). simpl. field.
    - rewrite (L3 1%nat (1, 2) (3, 0) eq_refl eq_refl A). simpl. field.
    - apply (L2 (3, 0) eq_refl A). }
  rewrite (E (1 / 2) 1), (E 5 0), (E 2 1), (E 1 2), (E (- 1) 0); auto; lra.
Qed.

Lemma tent_cumulative : integrals tent [3; 1; 2; 1 / 2; 5; 1] = Ok [Some 3; Some 1; Some (5 / 2); Some (1 / 4); Some 3; Some 1].
Proof.
  rewrite (integrals_ok tent _ tent_increasing) by (simpl; lia). simpl.
  assert (Hl : (2 <= length tent)%nat) by (simpl; lia). pose proof (inc_nth tent tent_increasing) as Hn.
  assert (A : forall x, 0 <= x <= 1 -> Fval tent x = x * x).
  { intros x Hx. rewrite (Fval_seg tent Hl Hn 0) by (simpl; lia || lra). unfold Sval, slope. simpl. field. }
  assert (B : forall x, 1 <= x <= 3 -> Fval tent x = 1 + (x - 1) * 2 - (x - 1) * (x - 1) / 2).
  { intros x Hx. rewrite (Fval_seg tent Hl Hn 1) by (simpl; lia || lra). unfold Sval, slope. simpl. field. }
  assert (D : forall x, 3 <= x -> Fval tent x = 3).
  { intros x Hx. rewrite (Fval_high tent Hl Hn) by (simpl; lra). unfold Sval. simpl. field. }
  rewrite (D 3), (D 5), (A 1), (A (1 / 2)), (B 2) by lra. repeat (f_equal; try lra).
Qed.

Lemma mono_form : forall v a b, increasing v -> (2 <= length v)%nat -> (forall p, In p v -> 0 <= snd p) -> a <= b ->
  exists x y, integrals v [a; b] = Ok [Some x; Some y] /\ x <= y.
Proof.
  intros v a b Hi Hl Hp Hab. rewrite integrals_ok by auto. simpl. eexists _, _. split; [reflexivity|]. apply Fval_mono; auto.
Qed.
