(** A case for the examples of C73. *)
From Coq Require Import List ZArith Reals Bool Lia Lra Permutation.
From Coquelicot Require Import Coquelicot.
From Verif Require Import Base Interp_model Interp_spec Interp_proofs Averages_proofs Resample_model Resample_spec Resample_proofs.
Import ListNotations.
Local Open Scope R_scope.

(** Three points of the function x + 2, not in order. *)
Definition line_table : table := [(1, 3); (-1, 1); (0, 2)].
Definition line_sorted : table := [(-1, 1); (0, 2); (1, 3)].
Definition line (x : R) : R := x + 2.
Definition line_spline (v : table) : option (R -> R) := Some line.
Lemma line_arranged : arranged line_table line_sorted.
Proof.
  split; [| apply sorted_increasing; repeat constructor; cbn; lra]. unfold line_table, line_sorted. symmetry. eapply perm_trans; [apply perm_swap |]. apply perm_skip. apply perm_swap.
Qed.
Lemma line_interpolates : interpolates line line_sorted.
Proof.
  split; [intros p [<- | [<- | [<- | []]]]; unfold line; cbn; lra |]. intros x _. apply (ex_derive_continuous (K := R_AbsRing) (V := R_NormedModule)). unfold line. now auto_derive.
Qed.
(** An exact integration that evaluates the centre. *)
Definition exact_qag (g : R -> option R) (a b : R) : option R :=
  match g ((a + b) / 2) with Some _ => Some (RInt (fun x => match g x with Some y => y | None => 0 end) a b) | None => None end.
Lemma exact_integrates : integrates exact_qag 0.
Proof.
  intros g f a b Hab H _. unfold exact_qag. rewrite (H ((a + b) / 2)) by lra. exists (RInt f a b). split; [f_equal |].
  - apply (RInt_ext (V := R_CompleteNormedModule)). intros x Hx. rewrite Rmin_left, Rmax_right in Hx by assumption. rewrite (H x) by lra. reflexivity.
  - rewrite Rminus_diag_eq by reflexivity. rewrite Rabs_R0. lra.
Qed.
Lemma exact_centre : uses_centre exact_qag.
Proof. intros g a b E. unfold exact_qag. now rewrite E. Qed.
Lemma line_integral : RInt line (-1) 1 = 4.
Proof.
  apply is_RInt_unique. replace 4 with (minus ((fun x : R => x * x / 2 + 2 * x) 1) ((fun x : R => x * x / 2 + 2 * x) (-1))) by (unfold minus, plus, opp; cbn; lra).
  apply (is_RInt_derive (V := R_CompleteNormedModule) (fun x : R => x * x / 2 + 2 * x)); intros x _.
  - unfold line. auto_derive; [exact Logic.I | lra].
  - apply (ex_derive_continuous (K := R_AbsRing) (V := R_NormedModule)). unfold line. now auto_derive.
Qed.
