(** Concrete cases for Zavg_props. *)
From Coq Require Import List ZArith Reals Lra Lia Bool.
From Verif Require Import Base Zavg_model Zavg_spec Zavg_proofs.
Import ListNotations.
Local Open Scope R_scope.

(** Two tables with one common frequency, one of them unsorted and with a repeated frequency. *)
Definition z_tab (i : nat) : list (list R) := match i with 1%nat => [[1; 2]; [-1; 1]; [1; 4]] | _ => [[0; 3]; [1; 2]] end.
Lemma z_case : (1 <= 2)%nat /\ (1 <= 1)%nat /\ (forall i, (1 <= i <= 2)%nat -> table 1 (z_tab i)) /\
  mean_over 2 1 z_tab (delta 1) = 4 /\ mean_over 2 1 z_tab (fun _ => 1) = 6.
Proof.
  split; [lia|]. split; [lia|]. split.
  { intros i Hi r Hr. assert (i = 1 \/ i = 2)%nat as [-> | ->] by lia; simpl in Hr; repeat destruct Hr as [<-|Hr]; auto; destruct Hr. }
  unfold mean_over. simpl. unfold delta, freq, value. simpl. split; [|lra].
  repeat match goal with |- context [Req_EM_T ?a ?b] => destruct (Req_EM_T a b); try lra end.
Qed.

Definition z_spec : list (R * R) := [(-1, 1); (0, 2); (1, 3)].
Lemma z_spec_case : ascending (map fst z_spec) /\ nonnegative z_spec /\ moment 0 z_spec = 6 /\ integral (delta 0) z_spec = 2 /\ sorted [-1 / 2; 0; 1 / 2] /\
  map (fun m => below_weight m z_spec) [-1 / 2; 0; 1 / 2] = [1; 1; 3].
Proof.
  split; [simpl; lra|]. split; [intros f w H; simpl in H; repeat destruct H as [H|H]; try (injection H as <- <-; lra); destruct H|].
  split; [unfold moment, accum; simpl; lra|]. split.
  { unfold integral, delta; simpl. repeat match goal with |- context [Req_EM_T ?a ?b] => destruct (Req_EM_T a b); try lra end. }
  split; [simpl; lra|]. unfold below_weight, z_spec. simpl.
  repeat match goal with |- context [Rlt_dec ?a ?b] => destruct (Rlt_dec a b); try lra end. repeat f_equal; lra.
Qed.

Lemma z_central_case : nonnegative z_spec /\ exists b c2 c3 c4, central_moments z_spec = Ok [6; b; c2; c3; c4].
Proof.
  destruct z_spec_case as (_ & Hn & E & _). split; [exact Hn|]. destruct (central_ok z_spec) as (m & c2 & c3 & c4 & H & _); [rewrite E; lra|].
  rewrite H, E. repeat eexists.
Qed.
