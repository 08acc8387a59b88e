(** Examples for C72. *)
From Coq Require Import List ZArith Reals Bool Lia Lra Permutation Sorted.
From Verif Require Import Base Interp_model Interp_spec Interp_proofs Tables_model Tables_spec Averages_model Averages_spec Averages_proofs.
Import ListNotations.
Local Open Scope R_scope.

Ltac decide_R := repeat match goal with
  | |- context [Rltb ?a ?b] => first [replace (Rltb a b) with true by (symmetry; apply Rltb_true; lra) | replace (Rltb a b) with false by (symmetry; apply Rltb_false; lra)]
  | |- context [Rleb ?a ?b] => first [replace (Rleb a b) with true by (symmetry; apply Rleb_true; lra) | replace (Rleb a b) with false by (symmetry; apply Rleb_false; lra)] end.
Ltac run_R := do 8 (try unfold call; cbn [xmin xmax fxmin fxmax bind oadd odiv avg sum_calls]; decide_R).
Lemma small : 0 < / 1000000 < 1.
Proof. split; [apply Rinv_0_lt_compat; lra |]. rewrite <- Rinv_1. apply Rinv_lt_contravar; lra. Qed.
Lemma far a b : 0 < a -> 2 * a <= b -> eq_approx a b = false.
Proof.
  intros Ha Hb. apply not_true_iff_false. rewrite approx_iff by lra. rewrite (Rabs_pos_eq a) by lra. rewrite Rabs_minus_sym, Rabs_pos_eq by lra. pose proof small. nra.
Qed.
Lemma same a : 0 < a -> eq_approx a a = true.
Proof. intros Ha. rewrite approx_iff by lra. rewrite Rminus_eq_0, Rabs_R0, Rabs_pos_eq by lra. pose proof small. nra. Qed.

(** A table that is not in increasing order. *)
Definition descending : table := [(2, 5); (1, 3)].
Lemma descending_average : intavg [descending] = Ok [(1, Some 5); (2, Some 5)].
Proof.
  unfold intavg, merge_meshes. assert (E : unique (sort (List.concat (map (map fst) [descending]))) = [1; 2]).
  { cbn [descending map List.concat app fst sort fold_right insert]. decide_R. cbn [unique unique_from]. rewrite far; [ reflexivity | lra | lra ]. }
  rewrite E. cbn [mapM construct descending andb front back at_ nth_error length Nat.sub bind fst snd avg sum_calls]. run_R.
  unfold rdiv. cbn [INR]. destruct (Req_EM_T 1 0); [lra |]. replace ((0 + 5) / 1) with 5 by lra. reflexivity.
Qed.
(** Two tables that contain the abscissa zero. *)
Definition from_zero : table := [(0, 1); (1, 2)].
Lemma zero_average : intavg [from_zero; from_zero] = Ok [(0, Some 1); (0, Some 1); (1, Some 2)].
Proof.
  unfold intavg, merge_meshes. assert (E : unique (sort (List.concat (map (map fst) [from_zero; from_zero]))) = [0; 0; 1]).
  { cbn [from_zero map List.concat app fst sort fold_right insert]. decide_R. cbn [insert]. decide_R. cbn [insert]. decide_R. cbn [insert]. cbn [unique unique_from]. now rewrite !approx_zero, same by lra. }
  rewrite E. cbn [mapM construct from_zero andb front back at_ nth_error length Nat.sub bind fst snd avg sum_calls]. run_R.
  unfold rdiv. cbn [INR]. destruct (Req_EM_T (1 + 1) 0); [lra |]. replace ((0 + 1 + 1) / (1 + 1)) with 1 by lra. replace ((0 + 2 + 2) / (1 + 1)) with 2 by lra. reflexivity.
Qed.
Lemma from_zero_increasing : increasing from_zero.
Proof. apply sorted_increasing. repeat constructor; cbn; lra. Qed.

(** Two tables on different meshes. *)
Definition odd_table : table := [(1, 10); (3, 30)].
Definition even_table : table := [(2, 0); (4, 8)].
Lemma odd_increasing : increasing odd_table.
Proof. apply sorted_increasing. repeat constructor; cbn; lra. Qed.
Lemma even_increasing : increasing even_table.
Proof. apply sorted_increasing. repeat constructor; cbn; lra. Qed.
(** Blocks. *)
Definition block_1 : block := [(2, [20; 1]); (1, [10; 0])].
Definition block_2 : block := [(1, [12; 2]); (3, [14; 4])].
Lemma block_1_good : good_block 2 block_1.
Proof. repeat split; [discriminate | repeat constructor |]. repeat constructor; cbn; [intros [H | []]; lra | tauto]. Qed.
Lemma block_2_good : good_block 2 block_2.
Proof. repeat split; [discriminate | repeat constructor |]. repeat constructor; cbn; [intros [H | []]; lra | tauto]. Qed.
Lemma odd_apart p q : In p odd_table -> In q odd_table -> near (fst p) (fst q) -> fst p = fst q.
Proof.
  pose proof small as Hs. intros [<- | [<- | []]] [<- | [<- | []]] [E | H]; try reflexivity; try assumption; exfalso; revert H; cbn [fst]; apply Rle_not_lt.
  - rewrite (Rabs_pos_eq 1) by lra. rewrite Rabs_minus_sym, Rabs_pos_eq; lra.
  - rewrite (Rabs_pos_eq 3) by lra. rewrite Rabs_pos_eq; lra.
Qed.
