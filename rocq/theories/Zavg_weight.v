(** The weight a broadened peak puts on an interval of frequencies. *)
From Coq Require Import List ZArith Reals Lra Lia.
From Coquelicot Require Import Coquelicot.
From Verif Require Import Base Zavg_model Zavg_spec Zavg_proofs Zavg_kernel.
Local Open Scope R_scope.

Section W.
  Variables (alpha omega0 sqrtpi p : R).
  Hypothesis Ha : 0 < alpha.
  Hypothesis Ho : 0 < omega0.
  Hypothesis Hpi : 0 < sqrtpi.
  Hypothesis Hp : 0 < p.
  Definition gauss (t : R) : R := exp (- Rsqr t) / sqrtpi.
  Definition uL (e : R) : R := ln (e / p) / alpha - alpha / 4.
  Definition uG (w e : R) : R := (e - p) / w.

  Lemma gauss_cont t : continuous gauss t.
  Proof.
    apply (ex_derive_continuous gauss). unfold gauss, Rsqr. auto_derive. auto.
  Qed.
  Lemma L_value e : 0 < e -> BR_L_acc alpha 0 sqrtpi e p = Some (/ (alpha * e) * gauss (uL e)).
  Proof.
    intros He. unfold BR_L_acc. destruct (Rlt_dec 0 e); [|lra]. destruct (Rlt_dec 0 p); [|lra].
    destruct (Rlt_dec (e - 0) (- 0)); [lra|]. rewrite !Rminus_0_r. rewrite (BR_L_same alpha sqrtpi) by nra. f_equal.
    rewrite Rabs_right by lra. unfold gauss, uL. field. lra.
  Qed.
  Lemma uL_derive e : 0 < e -> is_derive uL e (/ (alpha * e)).
  Proof.
    intros He. unfold uL. assert (0 < e / p) by (apply Rdiv_lt_0_compat; auto). auto_derive.
    - unfold Rdiv in H. repeat split; auto; lra.
    - field. lra.
  Qed.
  Lemma L_int a b : 0 < a <= b -> is_RInt (fun e => / (alpha * e) * gauss (uL e)) a b (RInt gauss (uL a) (uL b)).
  Proof.
    intros Hab. apply (is_RInt_ext (fun e => scal (/ (alpha * e)) (gauss (uL e)))); [intros; reflexivity|].
    apply (is_RInt_comp gauss uL (fun e => / (alpha * e))).
    - intros x _. apply gauss_cont.
    - intros x Hx. rewrite Rmin_left, Rmax_right in Hx by lra. split; [apply uL_derive; lra|].
      apply (ex_derive_continuous (fun e => / (alpha * e))). auto_derive. nra.
  Qed.
  Lemma G_int w a b : 0 < w -> a <= b -> is_RInt (fun e => BR_Gw sqrtpi w e p) a b (RInt gauss (uG w a) (uG w b)).
  Proof.
    intros Hw Hab. apply (is_RInt_ext (fun e => scal (/ w) (gauss (uG w e)))).
    { intros x _. unfold BR_Gw, gauss, uG, scal. simpl. unfold mult. simpl. field. lra. }
    apply (is_RInt_comp gauss (uG w) (fun _ => / w)).
    - intros x _. apply gauss_cont.
    - intros x _. split; [|apply continuous_const]. unfold uG. auto_derive; [lra|]. field. lra.
  Qed.


  Theorem weight_ok a b : 0 < a <= b -> exists h, BR_h0 alpha omega0 p = Some h /\ 0 <= h <= 1 /\
    is_RInt (fun e => br_kernel alpha omega0 0 sqrtpi false true e p) a b
      (h * RInt gauss (uL a) (uL b) + (1 - h) * RInt gauss (uG omega0 a) (uG omega0 b)).
  Proof.
    intros Hab. destruct (h0_ok alpha omega0 Ho p) as (h & E & Hh). exists h. split; auto. split; auto.
    apply (is_RInt_ext (fun e => plus (scal h (/ (alpha * e) * gauss (uL e))) (scal (1 - h) (BR_Gw sqrtpi omega0 e p)))).
    { intros x Hx. rewrite Rmin_left, Rmax_right in Hx by lra. unfold br_kernel, bfnc, BR_h. rewrite E, L_value by lra.
      destruct (Rle_dec 0 h); [|lra]. destruct (Rle_dec h 1); [|lra]. unfold plus, scal. simpl. unfold mult. simpl. ring. }
    apply (is_RInt_plus (V := R_NormedModule)).
    - apply (is_RInt_scal (V := R_NormedModule)). apply L_int. auto.
    - apply (is_RInt_scal (V := R_NormedModule)). apply G_int; lra.
  Qed.
  Theorem weight_gaussian a b : a <= b -> is_RInt (fun e => br_kernel alpha omega0 0 sqrtpi true true e p) a b (RInt gauss (uG alpha a) (uG alpha b)).
  Proof. intros Hab. apply G_int; auto. Qed.
End W.
