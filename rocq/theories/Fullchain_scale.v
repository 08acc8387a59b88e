(** The ratio of the energy scales of successive steps. *)
From Coq Require Import Reals ZArith Lra Lia List String.
From Verif Require Import Patch_model Coef_model Datafile_spec Fullchain_terms Fullchain_scale_model.
Import ListNotations.
Local Open Scope string_scope.
Local Open Scope list_scope.
Local Open Scope R_scope.

Lemma scale_step P s : 1 < p_Lambda P -> 0 < p_bandrescale P -> (0 < p_channels P)%nat ->
  0 < scale P s /\ scale P (step_next s) * nrg_step_scale_factor P = scale P s.
Proof.
  intros HL Hb Hc. unfold scale, nrg_step_scale_factor. destruct (p_absolute P); [split; lra|].
  assert (Hd : 0 < match p_discretization P with Yoshida => 0.5 * (1 + 1 / p_Lambda P) | _ => (1 - 1 / p_Lambda P) / ln (p_Lambda P) end).
  { assert (0 < / p_Lambda P < 1). { split; [apply Rinv_0_lt_compat; lra|]. rewrite <- Rinv_1. apply Rinv_lt_contravar; lra. }
    assert (0 < ln (p_Lambda P)) by (rewrite <- ln_1; apply ln_increasing; lra).
    unfold Rdiv. destruct (p_discretization P); try lra; apply Rmult_lt_0_compat; try lra; now apply Rinv_0_lt_compat. }
  unfold SCALE. set (q := match p_discretization P with Yoshida => _ | _ => _ end) in *. cbn [step_next s_true].
  destruct (p_substeps P); cbn [negb].
  - split; [repeat apply Rmult_lt_0_compat; try lra; apply exp_pos|].
    rewrite !Rmult_assoc. f_equal. rewrite (Rmult_comm (p_bandrescale P)), <- Rmult_assoc, <- Rpower_plus. f_equal. f_equal.
    rewrite !plus_IZR. replace 0.5 with (1 / 2) by lra. field. apply not_0_INR. lia.
  - split; [repeat apply Rmult_lt_0_compat; try lra; apply exp_pos|].
    rewrite <- (Rpower_sqrt (p_Lambda P)) by lra.
    rewrite !Rmult_assoc. f_equal. rewrite (Rmult_comm (p_bandrescale P)), <- Rmult_assoc, <- Rpower_plus. f_equal. f_equal.
    rewrite !minus_IZR, !plus_IZR. field.
Qed.

Lemma per_channel_ok cs : In (cs_name cs) ["QSZ"; "DBLQSZ"; "U1"; "NONE"; "SPU1"; "SL"; "SL3"] ->
  per_channel cs = ops_per_channel (cs_name cs).
Proof. intros H. unfold per_channel. cbn [In] in H. repeat (destruct H as [<- | H]; [vm_compute; reflexivity|]). contradiction. Qed.
