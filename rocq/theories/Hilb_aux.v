(** Concrete cases for the theorems about the Hilbert-transform tool. *)
From Coq Require Import List Reals Lra Psatz Sorted.
From Coquelicot Require Import Coquelicot.
From Verif Require Import Base Hilb_model Hilb_spec Hilb_proofs Hilb_final.
Import ListNotations.
Local Open Scope R_scope.

(** The exact integral. *)
Definition exact_integr (f : R -> R) (a b : R) : R := RInt f a b.
Lemma exact_integr_ok : exact_integration exact_integr.
Proof. intros f a b _. reflexivity. Qed.

Lemma Bethe1_piecewise : piecewise (Bethe 1) (fun _ => 0) (Ropp 1) 1.
Proof. pose proof (Bethe_piecewise 1 ltac:(lra)) as H. replace (1 / 1) with 1 in H by field. exact H. Qed.

(** A density of states with a cusp *)
Lemma cusp_piecewise : piecewise Rabs (fun _ => 0) (Ropp 1) 1.
Proof.
  apply (piece _ _ _ _ Rabs (fun _ => 0)); [lra | |auto]. intros w _. split; [|apply continuous_const].
  apply continuous_Rabs.
Qed.
Lemma cusp_Lipschitz x w : Rabs (Rabs w - Rabs x) <= 1 * Rabs (w - x) /\ Rabs (0 - 0) <= 1 * Rabs (w - x).
Proof.
  split; [rewrite Rmult_1_l; apply Rabs_triang_inv2|]. rewrite Rminus_0_r, Rabs_R0, Rmult_1_l. apply Rabs_pos.
Qed.

Lemma Bethe1_quarter w : - (1 / 2) < w < 1 / 2 -> 1 / 4 <= Bethe 1 w.
Proof.
  intros Hw. unfold Bethe. rewrite !Rmult_1_r. destruct (Rlt_dec (Rabs w) 1) as [|N].
  2:{ exfalso. apply N, Rabs_lt_between. lra. }
  pose proof PI_RGT_0. pose proof PI_4.
  assert (1 / 2 <= sqrt (1 - sqr w)).
  { replace (1 / 2) with (sqrt (1 / 2 * (1 / 2))) by (rewrite sqrt_square; lra). apply sqrt_le_1_alt. unfold sqr. nra. }
  assert (1 / 2 <= 2 / PI).
  { apply (Rmult_le_reg_r PI); [lra|]. unfold Rdiv at 2. rewrite Rmult_assoc, Rinv_l by lra. lra. }
  nra.
Qed.
Lemma Bethe1_edge x : x = 1 \/ x = Ropp 1 -> Bethe 1 x = 0.
Proof.
  intros Hx. apply Bethe_outside; [lra|]. destruct Hx as [-> | ->]; [rewrite Rabs_pos_eq; lra | rewrite Rabs_Ropp, Rabs_pos_eq; lra].
Qed.
