(** The weight of the broadened spectrum of the tool [bw] on either side of zero frequency. *)
From Coq Require Import List ZArith Reals Lra Lia.
From Coquelicot Require Import Coquelicot.
From Verif Require Import Base Interp_model Zavg_weight Gauss Bw_model Bw_spec.
Import ListNotations.
Local Open Scope R_scope.

Section K.
  Variables (alpha p : R).
  Hypothesis Ha : 0 < alpha.
  Hypothesis Hp : 0 < p.
  Let u := uL alpha p.
  Lemma spi : 0 < sqrt PI.
  Proof. apply sqrt_lt_R0, PI_RGT_0. Qed.
  Lemma u_low M e : 0 < e -> e < p * exp ((M + alpha / 4) * alpha) -> u e < M.
  Proof.
    intros He H. unfold u, uL. assert (H0 : 0 < e / p) by (apply Rdiv_lt_0_compat; assumption).
    assert (H1 : ln (e / p) < (M + alpha / 4) * alpha). { rewrite <- (ln_exp ((M + alpha / 4) * alpha)). apply ln_increasing; [assumption |]. apply (Rmult_lt_reg_r p); [assumption |]. unfold Rdiv. rewrite Rmult_assoc, Rinv_l by lra. lra. }
    assert (ln (e / p) / alpha < M + alpha / 4); [| lra]. apply (Rmult_lt_reg_r alpha); [assumption |]. unfold Rdiv at 1. rewrite Rmult_assoc, Rinv_l by lra. lra.
  Qed.
  Lemma u_high M e : 0 < e -> p * exp ((M + alpha / 4) * alpha) < e -> M < u e.
  Proof.
    intros He H. unfold u, uL. assert (H0 : 0 < e / p) by (apply Rdiv_lt_0_compat; assumption).
    assert (H1 : (M + alpha / 4) * alpha < ln (e / p)). { rewrite <- (ln_exp ((M + alpha / 4) * alpha)). apply ln_increasing; [apply exp_pos |]. apply (Rmult_lt_reg_r p); [assumption |]. unfold Rdiv. rewrite (Rmult_assoc e), Rinv_l by lra. lra. }
    assert (M + alpha / 4 < ln (e / p) / alpha); [| lra]. apply (Rmult_lt_reg_r alpha); [assumption |]. unfold Rdiv at 2. rewrite Rmult_assoc, Rinv_l by lra. lra.
  Qed.
  Lemma edge_pos M : 0 < p * exp ((M + alpha / 4) * alpha).
  Proof. apply Rmult_lt_0_compat; [assumption | apply exp_pos]. Qed.

  Lemma pos_unit : is_RInt_gen (fun e => / (alpha * e) * gauss (sqrt PI) (u e)) (at_right 0) (Rbar_locally p_infty) 1.
  Proof.
    apply (gauss_unit (at_right 0) (Rbar_locally p_infty) _ _ u _ (fun a => 0 < a < 1) (fun b => 1 < b)).
    - exists (mkposreal 1 Rlt_0_1). intros y Hy Hy0. change (Rabs (y - 0) < 1) in Hy. apply Rabs_def2 in Hy. lra.
    - exists 1. auto.
    - intros P [M HM]. exists (mkposreal _ (edge_pos M)). intros y Hy Hy0. apply HM, u_low; [assumption |]. change (Rabs (y - 0) < p * exp ((M + alpha / 4) * alpha)) in Hy. apply Rabs_def2 in Hy. lra.
    - intros P [M HM]. exists (p * exp ((M + alpha / 4) * alpha)). intros y Hy. pose proof (edge_pos M). apply HM, u_high; lra.
    - intros a b H1 H2. apply (L_int alpha (sqrt PI) p Ha Hp). lra.
  Qed.

  Let v (e : R) : R := - u (- e).
  Lemma v_derive e : e < 0 -> is_derive v e (/ (alpha * - e)).
  Proof.
    intros He. unfold v. assert (H : is_derive (fun x => u (- x)) e (- / (alpha * - e))).
    { apply (is_derive_ext (fun x => u (- x))); [reflexivity |]. replace (- / (alpha * - e)) with (scal (- 1) (/ (alpha * - e))) by (unfold scal; cbn; unfold mult; cbn; ring). apply (is_derive_comp u (fun x => - x) e (/ (alpha * - e)) (- 1)).
      - apply (uL_derive alpha p Ha Hp). lra.
      - auto_derive; [auto | ring]. }
    apply (is_derive_opp (V := R_NormedModule)) in H. replace (/ (alpha * - e)) with (opp (- / (alpha * - e))) by (unfold opp; cbn; ring). exact H.
  Qed.
  Lemma neg_int a b : a <= b < 0 -> is_RInt (fun e => / (alpha * - e) * gauss (sqrt PI) (v e)) a b (RInt (gauss (sqrt PI)) (v a) (v b)).
  Proof.
    intros Hab. apply (is_RInt_ext (fun e => scal (/ (alpha * - e)) (gauss (sqrt PI) (v e)))); [intros; reflexivity |].
    apply (is_RInt_comp (gauss (sqrt PI)) v (fun e => / (alpha * - e))).
    - intros x _. apply (gauss_cont (sqrt PI)).
    - intros x Hx. rewrite Rmin_left, Rmax_right in Hx by lra. split; [apply v_derive; lra |]. apply (ex_derive_continuous (fun e => / (alpha * - e))). auto_derive. nra.
  Qed.
  Lemma neg_unit : is_RInt_gen (fun e => / (alpha * - e) * gauss (sqrt PI) (v e)) (Rbar_locally m_infty) (at_left 0) 1.
  Proof.
    apply (gauss_unit (Rbar_locally m_infty) (at_left 0) _ _ v _ (fun b => b < - 1) (fun a => - 1 < a < 0)).
    - exists (- 1). auto.
    - exists (mkposreal 1 Rlt_0_1). intros y Hy Hy0. change (Rabs (y - 0) < 1) in Hy. apply Rabs_def2 in Hy. lra.
    - intros P [M HM]. exists (- (p * exp ((- M + alpha / 4) * alpha))). intros y Hy. pose proof (edge_pos (- M)). apply HM. unfold v. enough (- M < u (- y)) by lra. apply u_high; lra.
    - intros P [M HM]. exists (mkposreal _ (edge_pos (- M))). intros y Hy Hy0. apply HM. unfold v. enough (u (- y) < - M) by lra. apply u_low; [lra |]. change (Rabs (y - 0) < p * exp ((- M + alpha / 4) * alpha)) in Hy. apply Rabs_def2 in Hy. lra.
    - intros a b H1 H2. apply neg_int. lra.
  Qed.
End K.

Lemma kernel_pos alpha w e : 0 < alpha -> 0 < w -> 0 < e -> log_gaussian alpha w e = / (alpha * e) * gauss (sqrt PI) (uL alpha w e).
Proof. intros Ha Hw He. unfold log_gaussian, gauss, uL. rewrite Rabs_right by lra. pose proof spi. field. lra. Qed.
Lemma kernel_neg alpha w e : 0 < alpha -> w < 0 -> e < 0 -> log_gaussian alpha w e = / (alpha * - e) * gauss (sqrt PI) (- uL alpha (- w) (- e)).
Proof. intros Ha Hw He. unfold log_gaussian, gauss, uL. rewrite Rabs_left by lra. replace (- e / - w) with (e / w) by (field; lra). rewrite <- Rsqr_neg. pose proof spi. field. lra. Qed.
Lemma unit_pos alpha w : 0 < alpha -> 0 < w -> is_RInt_gen (log_gaussian alpha w) (at_right 0) (Rbar_locally p_infty) 1.
Proof.
  intros Ha Hw. apply (is_RInt_gen_ext (fun e => / (alpha * e) * gauss (sqrt PI) (uL alpha w e))); [| now apply pos_unit].
  apply (Filter_prod _ _ _ (fun a => 0 < a) (fun b => 0 < b)); [exists (mkposreal 1 Rlt_0_1); auto | exists 0; auto |]. intros a b H1 H2 x Hx. cbn in Hx. symmetry. apply kernel_pos; try assumption. destruct Hx as [Hx _]. pose proof (Rmin_glb_lt a b 0 H1 H2). lra.
Qed.
Lemma unit_neg alpha w : 0 < alpha -> w < 0 -> is_RInt_gen (log_gaussian alpha w) (Rbar_locally m_infty) (at_left 0) 1.
Proof.
  intros Ha Hw. apply (is_RInt_gen_ext (fun e => / (alpha * - e) * gauss (sqrt PI) (- uL alpha (- w) (- e)))); [| apply neg_unit; lra].
  apply (Filter_prod _ _ _ (fun a => a < 0) (fun b => b < 0)); [exists 0; auto | exists (mkposreal 1 Rlt_0_1); auto |]. intros a b H1 H2 x Hx. cbn in Hx. symmetry. apply kernel_neg; try assumption. destruct Hx as [_ Hx]. pose proof (Rmax_lub_lt a b 0 H1 H2). lra.
Qed.
