(** The total weight of a broadened spectrum. *)
From Coq Require Import List ZArith Reals Lra Lia.
From Coquelicot Require Import Coquelicot.
From Verif Require Import Base Zavg_model Zavg_spec Zavg_proofs Zavg_kernel Zavg_weight Gauss.
From Verif Require Bw_spec Bw_kernel.
Import ListNotations.
Local Open Scope R_scope.

Lemma spi : 0 < sqrt PI.
Proof. apply sqrt_lt_R0, PI_RGT_0. Qed.
Lemma gauss_measure x y : RInt (gauss (sqrt PI)) x y = (gA y - gA x) / (2 * gs_half).
Proof.
  pose proof half_pos as Hh. apply is_RInt_unique. replace ((gA y - gA x) / (2 * gs_half)) with (scal (/ (2 * gs_half)) (plus (opp (gA x)) (gA y))) by (unfold scal, plus, opp; cbn; unfold mult; cbn; field; lra).
  apply (is_RInt_ext (fun t => scal (/ (2 * gs_half)) (gs t))). { intros t _. unfold gauss, scal, gs, gs_half, Rsqr. cbn. unfold mult. cbn. unfold gs_half in Hh. field. lra. }
  apply (is_RInt_scal (V := R_NormedModule)). apply (is_RInt_Chasles (V := R_NormedModule) gs x 0 y); [apply (is_RInt_swap (V := R_NormedModule)) |]; apply (RInt_correct (V := R_CompleteNormedModule)); apply gs_int.
Qed.
Lemma gauss_between (Fa Fb : (R -> Prop) -> Prop) (FF : Filter Fa) (FF' : Filter Fb) (u : R -> R) (f : R -> R) (D D' : R -> Prop) A B :
  Fa D -> Fb D' -> filterlim (fun x => gA (u x)) Fa (locally A) -> filterlim (fun x => gA (u x)) Fb (locally B) ->
  (forall a b, D a -> D' b -> is_RInt f a b (RInt (gauss (sqrt PI)) (u a) (u b))) -> is_RInt_gen f Fa Fb ((B - A) / (2 * gs_half)).
Proof.
  intros HD HD' Hu Hu' Hf P [eps HP]. pose proof half_pos as Hh. pose proof (cond_pos eps) as He. assert (He' : 0 < eps * gs_half) by nra.
  assert (Q1 : Fa (fun a => Rabs (gA (u a) - A) < eps * gs_half)) by (apply (Hu (fun y => Rabs (y - A) < eps * gs_half)); exists (mkposreal _ He'); auto).
  assert (Q2 : Fb (fun b => Rabs (gA (u b) - B) < eps * gs_half)) by (apply (Hu' (fun y => Rabs (y - B) < eps * gs_half)); exists (mkposreal _ He'); auto).
  apply (Filter_prod Fa Fb _ (fun a => D a /\ Rabs (gA (u a) - A) < eps * gs_half) (fun b => D' b /\ Rabs (gA (u b) - B) < eps * gs_half)); [now apply filter_and | now apply filter_and |].
  intros a b [Ha1 H1] [Hb1 H2]. eexists. split; [apply (Hf a b Ha1 Hb1) |]. apply HP. rewrite gauss_measure.
  change (Rabs ((gA (u b) - gA (u a)) / (2 * gs_half) + - ((B - A) / (2 * gs_half))) < eps). apply Rabs_def2 in H1. apply Rabs_def2 in H2.
  replace ((gA (u b) - gA (u a)) / (2 * gs_half) + - ((B - A) / (2 * gs_half))) with ((gA (u b) - gA (u a) - (B - A)) / (2 * gs_half)) by (field; lra). apply Rabs_def1.
  - apply (Rmult_lt_reg_r (2 * gs_half)); [lra |]. unfold Rdiv. rewrite Rmult_assoc, Rinv_l by lra. lra.
  - apply (Rmult_lt_reg_r (2 * gs_half)); [lra |]. unfold Rdiv. rewrite Rmult_assoc, Rinv_l by lra. lra.
Qed.
Lemma lim_low (F : (R -> Prop) -> Prop) (FF : Filter F) (u : R -> R) : filterlim u F (Rbar_locally m_infty) -> filterlim (fun x => gA (u x)) F (locally (- gs_half)).
Proof.
  intros H P [eps HP]. destruct (gA_close eps (cond_pos eps)) as (M & HM & HC). assert (Q : F (fun a => u a < - M)) by (apply (H (fun y => y < - M)); exists (- M); auto).
  change (F (fun x => P (gA (u x)))). apply (filter_imp (fun a => u a < - M)); [| exact Q]. intros x Hx. apply HP. change (Rabs (gA (u x) - - gs_half) < eps). pose proof (HC (- u x) ltac:(lra)) as H1. rewrite gA_odd in H1. apply Rabs_def2 in H1. apply Rabs_def1; lra.
Qed.
Lemma lim_high (F : (R -> Prop) -> Prop) (FF : Filter F) (u : R -> R) : filterlim u F (Rbar_locally p_infty) -> filterlim (fun x => gA (u x)) F (locally gs_half).
Proof.
  intros H P [eps HP]. destruct (gA_close eps (cond_pos eps)) as (M & HM & HC). assert (Q : F (fun a => M < u a)) by (apply (H (fun y => M < y)); exists M; auto).
  change (F (fun x => P (gA (u x)))). apply (filter_imp (fun a => M < u a)); [| exact Q]. intros x Hx. apply HP. exact (HC (u x) Hx).
Qed.
Lemma gA_cont x : continuous gA x.
Proof. apply (ex_derive_continuous gA). eexists. apply gA_derive. Qed.
Lemma left_sub x : filter_le (at_left x) (locally x).
Proof. intros P H. unfold at_left, within. revert H. apply filter_imp. auto. Qed.
Lemma right_sub x : filter_le (at_right x) (locally x).
Proof. intros P H. unfold at_right, within. revert H. apply filter_imp. auto. Qed.

(** ** The Gaussian part *)
Section G.
  Variables (w p : R).
  Hypothesis Hw : 0 < w.
  Let u := uG p w.
  Let kk e := BR_Gw (sqrt PI) w e p.
  Lemma G_all a b : is_RInt kk a b (RInt (gauss (sqrt PI)) (u a) (u b)).
  Proof.
    unfold kk, u. apply (is_RInt_ext (fun e => scal (/ w) (gauss (sqrt PI) (uG p w e)))).
    { intros x _. unfold BR_Gw, gauss, uG, scal. simpl. unfold mult. simpl. pose proof spi. field. lra. }
    apply (is_RInt_comp (gauss (sqrt PI)) (uG p w) (fun _ => / w)).
    - intros x _. apply gauss_cont.
    - intros x _. split; [|apply continuous_const]. unfold uG. auto_derive; [lra|]. field. lra.
  Qed.
  Lemma u_cont x : continuous (fun e => gA (u e)) x.
  Proof. apply (continuous_comp u gA); [| apply gA_cont]. apply (ex_derive_continuous u). unfold u, uG. auto_derive. lra. Qed.
  Lemma u_minus : filterlim u (Rbar_locally m_infty) (Rbar_locally m_infty).
  Proof. intros P [M HM]. exists (p + M * w). intros x Hx. apply HM. unfold u, uG. apply (Rmult_lt_reg_r w); [assumption |]. unfold Rdiv. rewrite Rmult_assoc, Rinv_l by lra. lra. Qed.
  Lemma u_plus : filterlim u (Rbar_locally p_infty) (Rbar_locally p_infty).
  Proof. intros P [M HM]. exists (p + M * w). intros x Hx. apply HM. unfold u, uG. apply (Rmult_lt_reg_r w); [assumption |]. unfold Rdiv. rewrite Rmult_assoc, Rinv_l by lra. lra. Qed.
  Lemma G_below : is_RInt_gen kk (Rbar_locally m_infty) (at_left 0) ((gA (u 0) - - gs_half) / (2 * gs_half)).
  Proof.
    apply (gauss_between _ _ _ _ u kk (fun _ => True) (fun _ => True)); [apply filter_true | apply filter_true | apply lim_low; [apply _ | apply u_minus] | | intros; apply G_all].
    apply (filterlim_filter_le_1 _ (left_sub 0)). exact (u_cont 0).
  Qed.
  Lemma G_above : is_RInt_gen kk (at_right 0) (Rbar_locally p_infty) ((gs_half - gA (u 0)) / (2 * gs_half)).
  Proof.
    apply (gauss_between _ _ _ _ u kk (fun _ => True) (fun _ => True)); [apply filter_true | apply filter_true | | apply lim_high; [apply _ | apply u_plus] | intros; apply G_all].
    apply (filterlim_filter_le_1 _ (right_sub 0)). exact (u_cont 0).
  Qed.
  Lemma G_total : is_RInt_gen kk (Rbar_locally m_infty) (Rbar_locally p_infty) 1.
  Proof.
    pose proof half_pos. replace 1 with ((gs_half - - gs_half) / (2 * gs_half)) by (field; lra).
    apply (gauss_between _ _ _ _ u kk (fun _ => True) (fun _ => True)); [apply filter_true | apply filter_true | apply lim_low; [apply _ | apply u_minus] | apply lim_high; [apply _ | apply u_plus] | intros; apply G_all].
  Qed.
End G.

(** ** One peak *)
Lemma ext_above (f g : R -> R) v : (forall e, 0 < e -> f e = g e) -> is_RInt_gen f (at_right 0) (Rbar_locally p_infty) v -> is_RInt_gen g (at_right 0) (Rbar_locally p_infty) v.
Proof.
  intros H. apply is_RInt_gen_ext. apply (Filter_prod _ _ _ (fun a => 0 < a) (fun c => 0 < c)); [exists (mkposreal 1 Rlt_0_1); auto | exists 0; auto |].
  intros a c H1 H2 x Hx. cbn [fst snd] in Hx. pose proof (Rmin_glb_lt a c 0 H1 H2). apply H. lra.
Qed.
Lemma ext_below (f g : R -> R) v : (forall e, e < 0 -> f e = g e) -> is_RInt_gen f (Rbar_locally m_infty) (at_left 0) v -> is_RInt_gen g (Rbar_locally m_infty) (at_left 0) v.
Proof.
  intros H. apply is_RInt_gen_ext. apply (Filter_prod _ _ _ (fun a => a < 0) (fun c => c < 0)); [exists 0; auto | exists (mkposreal 1 Rlt_0_1); auto |].
  intros a c H1 H2 x Hx. cbn [fst snd] in Hx. pose proof (Rmax_lub_lt a c 0 H1 H2). apply H. lra.
Qed.
Lemma gen_zero (Fa Fb : (R -> Prop) -> Prop) (FF : Filter Fa) (FF' : Filter Fb) : is_RInt_gen (fun _ : R => 0) Fa Fb 0.
Proof.
  intros P HP. apply (Filter_prod Fa Fb _ (fun _ => True) (fun _ => True)); [apply filter_true | apply filter_true |]. intros a b _ _. exists 0. split; [| now apply locally_singleton]. assert (E : scal (b - a) (0 : R_NormedModule) = (0 : R_NormedModule)) by (unfold scal; cbn; unfold mult; cbn; apply Rmult_0_r). exact (eq_ind _ (fun v => is_RInt (fun _ : R => 0) a b v) (is_RInt_const (V := R_NormedModule) a b 0) 0 E).
Qed.
Lemma gen_mix (Fa Fb : (R -> Prop) -> Prop) (FF : Filter Fa) (FF' : Filter Fb) (f g : R -> R) x y vf vg :
  is_RInt_gen f Fa Fb vf -> is_RInt_gen g Fa Fb vg -> is_RInt_gen (fun e => x * f e + y * g e) Fa Fb (x * vf + y * vg).
Proof. intros H1 H2. exact (is_RInt_gen_plus (V := R_NormedModule) _ _ _ _ (is_RInt_gen_scal (V := R_NormedModule) f x vf H1) (is_RInt_gen_scal (V := R_NormedModule) g y vg H2)). Qed.

Section P.
  Variables (alpha omega0 : R).
  Hypothesis Ha : 0 < alpha.
  Hypothesis Ho : 0 < omega0.
  Definition Lpart (p e : R) : R := if Rlt_dec 0 (e * p) then Bw_spec.log_gaussian alpha p e else 0.
  Lemma L_acc0 e p : e <> 0 -> BR_L_acc alpha 0 (sqrt PI) e p = Some (Lpart p e).
  Proof.
    intros He. assert (E : BR_L_acc alpha 0 (sqrt PI) e p = BR_L_orig alpha (sqrt PI) e p).
    { unfold BR_L_acc. destruct (Rlt_dec 0 e), (Rlt_dec 0 p); cbv zeta iota; try rewrite !Rminus_0_r; destruct (Rlt_dec e (- 0)), (Rlt_dec p (- 0)); try lra; rewrite ?Ropp_0, ?Rminus_0_r; reflexivity. }
    rewrite E. unfold Lpart. destruct (Rlt_dec 0 (e * p)) as [C | C].
    - rewrite (BR_L_same alpha (sqrt PI)) by assumption. unfold Bw_spec.log_gaussian. reflexivity.
    - unfold BR_L_orig. destruct (opposite e p) eqn:O; [reflexivity |]. destruct (Req_EM_T p 0); [reflexivity |]. exfalso. assert (N : ~ ((e < 0 /\ 0 < p) \/ (0 < e /\ p < 0))) by (intros X; apply opposite_spec in X; congruence). apply C. destruct (Rdichotomy e 0 He), (Rdichotomy p 0 n); try nra; exfalso; apply N; lra.
  Qed.
  Lemma h_zero : BR_h0 alpha omega0 0 = Some 0.
  Proof. unfold BR_h0. rewrite Rabs_R0. destruct (Rlt_dec omega0 0); [lra |]. unfold gausslog, Rdiv. rewrite Rmult_0_l. destruct (Rlt_dec 0 0); [lra |]. destruct (Req_EM_T 0 0); [reflexivity | lra]. Qed.
  Lemma kernel_shape p : exists h, 0 <= h <= 1 /\ (p = 0 -> h = 0) /\ forall e, e <> 0 -> br_kernel alpha omega0 0 (sqrt PI) false true e p = h * Lpart p e + (1 - h) * BR_Gw (sqrt PI) omega0 e p.
  Proof.
    destruct (h0_ok alpha omega0 Ho p) as (h & E & Hh). exists h. split; [assumption |]. split; [intros ->; rewrite h_zero in E; congruence |]. intros e He. unfold br_kernel, bfnc, BR_h. rewrite E, L_acc0 by assumption.
    destruct (Rle_dec 0 h); [|lra]. destruct (Rle_dec h 1); [|lra]. ring.
  Qed.
  Lemma Lpart_above p : is_RInt_gen (Lpart p) (at_right 0) (Rbar_locally p_infty) (if Rlt_dec 0 p then 1 else 0).
  Proof.
    destruct (Rlt_dec 0 p) as [C | C].
    - apply (ext_above (Bw_spec.log_gaussian alpha p)); [| now apply Bw_kernel.unit_pos]. intros e He. unfold Lpart. destruct (Rlt_dec 0 (e * p)); [reflexivity | nra].
    - apply (ext_above (fun _ => 0)); [| apply gen_zero; apply _]. intros e He. unfold Lpart. destruct (Rlt_dec 0 (e * p)); [nra | reflexivity].
  Qed.
  Lemma Lpart_below p : is_RInt_gen (Lpart p) (Rbar_locally m_infty) (at_left 0) (if Rlt_dec p 0 then 1 else 0).
  Proof.
    destruct (Rlt_dec p 0) as [C | C].
    - apply (ext_below (Bw_spec.log_gaussian alpha p)); [| now apply Bw_kernel.unit_neg]. intros e He. unfold Lpart. destruct (Rlt_dec 0 (e * p)); [reflexivity | nra].
    - apply (ext_below (fun _ => 0)); [| apply gen_zero; apply _]. intros e He. unfold Lpart. destruct (Rlt_dec 0 (e * p)); [nra | reflexivity].
  Qed.
  Lemma peak_total gaussian p : exists below above, is_RInt_gen (fun e => br_kernel alpha omega0 0 (sqrt PI) gaussian true e p) (Rbar_locally m_infty) (at_left 0) below /\
    is_RInt_gen (fun e => br_kernel alpha omega0 0 (sqrt PI) gaussian true e p) (at_right 0) (Rbar_locally p_infty) above /\ below + above = 1.
  Proof.
    pose proof half_pos as Hh. destruct gaussian.
    - eexists. eexists. split; [exact (G_below alpha p Ha) |]. split; [exact (G_above alpha p Ha) |]. field. lra.
    - destruct (kernel_shape p) as (h & Hb & Hz & Hk). eexists. eexists.
      split; [apply (ext_below (fun e => h * Lpart p e + (1 - h) * BR_Gw (sqrt PI) omega0 e p)); [intros; symmetry; apply Hk; lra |]; apply gen_mix; [apply _ | apply _ | apply Lpart_below | apply G_below; assumption] |].
      split; [apply (ext_above (fun e => h * Lpart p e + (1 - h) * BR_Gw (sqrt PI) omega0 e p)); [intros; symmetry; apply Hk; lra |]; apply gen_mix; [apply _ | apply _ | apply Lpart_above | apply G_above; assumption] |].
      destruct (Rlt_dec p 0), (Rlt_dec 0 p); try lra; try (field; lra). rewrite Hz by lra. field. lra.
  Qed.

  (** ** The spectrum *)
  Theorem total_ok gaussian l : exists below above,
    is_RInt_gen (fun e => match broaden1 alpha omega0 0 (sqrt PI) gaussian true l e with Ok (Some x) => x | _ => 0 end) (Rbar_locally m_infty) (at_left 0) below /\
    is_RInt_gen (fun e => match broaden1 alpha omega0 0 (sqrt PI) gaussian true l e with Ok (Some x) => x | _ => 0 end) (at_right 0) (Rbar_locally p_infty) above /\
    below + above = rsum snd l.
  Proof.
    pose proof spi as Hs.
    assert (E : exists below above, is_RInt_gen (fun e => integral (br_kernel alpha omega0 0 (sqrt PI) gaussian true e) l) (Rbar_locally m_infty) (at_left 0) below /\ is_RInt_gen (fun e => integral (br_kernel alpha omega0 0 (sqrt PI) gaussian true e) l) (at_right 0) (Rbar_locally p_infty) above /\ below + above = rsum snd l).
    { induction l as [| [f w] l IH].
      - exists 0, 0. split; [apply gen_zero; apply _ |]. split; [apply gen_zero; apply _ |]. cbn. lra.
      - destruct IH as (b1 & a1 & B1 & A1 & S1). destruct (peak_total gaussian f) as (b2 & a2 & B2 & A2 & S2). exists (w * b2 + 1 * b1), (w * a2 + 1 * a1).
        split; [apply (ext_below (fun e => w * br_kernel alpha omega0 0 (sqrt PI) gaussian true e f + 1 * integral (br_kernel alpha omega0 0 (sqrt PI) gaussian true e) l)); [| apply gen_mix; [apply _ | apply _ | assumption | assumption]]; intros e _; unfold integral; cbn [rsum fst snd]; ring |].
        split; [apply (ext_above (fun e => w * br_kernel alpha omega0 0 (sqrt PI) gaussian true e f + 1 * integral (br_kernel alpha omega0 0 (sqrt PI) gaussian true e) l)); [| apply gen_mix; [apply _ | apply _ | assumption | assumption]]; intros e _; unfold integral; cbn [rsum fst snd]; ring |].
        cbn [rsum snd]. rewrite <- S1. replace (w * b2 + 1 * b1 + (w * a2 + 1 * a1)) with (w * (b2 + a2) + (b1 + a1)) by ring. rewrite S2. ring. }
    destruct E as (b & a & B & A & S). exists b, a. split; [| split; [| assumption]].
    - revert B. apply ext_below. intros e He. rewrite (broaden1_ok alpha omega0 0 (sqrt PI) Ha Ho (Rle_refl 0) Hs) by lra. reflexivity.
    - revert A. apply ext_above. intros e He. rewrite (broaden1_ok alpha omega0 0 (sqrt PI) Ha Ho (Rle_refl 0) Hs) by lra. reflexivity.
  Qed.

  (** ** With an accumulation point the weight is not conserved *)
  Lemma acc_value acc e p : 0 < acc -> acc < p -> omega0 < p -> 0 < e -> br_kernel alpha omega0 acc (sqrt PI) false true e p = if Rlt_dec acc e then Bw_spec.log_gaussian alpha (p - acc) (e - acc) else Bw_spec.log_gaussian alpha p e.
  Proof.
    intros H0 H1 H2 He. unfold br_kernel, bfnc, BR_h, BR_h0. rewrite Rabs_right by lra. destruct (Rlt_dec omega0 p); [| lra]. destruct (Rle_dec 0 1); [| lra]. destruct (Rle_dec 1 1); [| lra].
    assert (E : BR_L_acc alpha acc (sqrt PI) e p = Some (if Rlt_dec acc e then Bw_spec.log_gaussian alpha (p - acc) (e - acc) else Bw_spec.log_gaussian alpha p e)).
    { unfold BR_L_acc. destruct (Rlt_dec acc e), (Rlt_dec acc p); try lra; cbv zeta iota.
      - destruct (Rlt_dec (e - acc) (- acc)); [lra |]. rewrite (BR_L_same alpha (sqrt PI)) by nra. reflexivity.
      - destruct (Rlt_dec e (- acc)); [lra |]. rewrite (BR_L_same alpha (sqrt PI)) by nra. reflexivity. }
    rewrite E. destruct (Rlt_dec acc e); ring.
  Qed.
  Lemma shift_right (f : R -> R) c : is_RInt_gen f (at_right 0) (Rbar_locally p_infty) 1 -> is_RInt_gen (fun e => f (e - c)) (at_right c) (Rbar_locally p_infty) 1.
  Proof.
    intros H P HP. specialize (H P HP). destruct H as [Q1 Q2 [d Hd] [M HM] HQ].
    apply (Filter_prod _ _ _ (fun a => Q1 (a - c)) (fun b => Q2 (b - c))).
    - exists d. intros y Hy Hc. apply Hd; [| lra]. change (Rabs (y - c) < d) in Hy. change (Rabs (y - c - 0) < d). now rewrite Rminus_0_r.
    - exists (M + c). intros x Hx. apply HM. lra.
    - intros a b Ha' Hb'. destruct (HQ _ _ Ha' Hb') as (v & Hv & HPv). exists v. split; [| exact HPv]. cbn [fst snd] in *.
      apply (is_RInt_ext (fun y => scal 1 (f (1 * y + - c)))). { intros x _. change (1 * f (1 * x + - c) = f (x - c)). rewrite Rmult_1_l. f_equal. ring. }
      apply (is_RInt_comp_lin (V := R_NormedModule) f 1 (- c) a b). replace (1 * a + - c) with (a - c) by ring. replace (1 * b + - c) with (b - c) by ring. exact Hv.
  Qed.
  Theorem accumulation_excess acc p : 0 < acc -> acc < p -> omega0 < p -> exists excess, 0 < excess /\
    is_RInt_gen (fun e => br_kernel alpha omega0 acc (sqrt PI) false true e p) (at_right 0) (at_left acc) excess /\
    is_RInt_gen (fun e => br_kernel alpha omega0 acc (sqrt PI) false true e p) (at_right acc) (Rbar_locally p_infty) 1.
  Proof.
    intros H0 H1 H2. pose proof half_pos as Hh. assert (Hp : 0 < p) by lra. exists ((gA (uL alpha p acc) - - gs_half) / (2 * gs_half)). split; [| split].
    - apply Rdiv_lt_0_compat; [| lra]. destruct (Rle_dec 0 (uL alpha p acc)) as [C | C]; [pose proof (gA_pos _ C); lra |].
      assert (X : gA (- uL alpha p acc) < gs_half); [| rewrite gA_odd in X; lra]. set (x := - uL alpha p acc) in *. pose proof (gA_upper (x + 1) ltac:(unfold x; lra)) as [_ U].
      apply Rlt_le_trans with (gA (x + 1)); [| exact U]. apply (incr_function gA m_infty p_infty gs); try exact Logic.I; [intros; apply gA_derive | intros; apply gs_pos | lra].
    - apply (is_RInt_gen_ext (fun e => / (alpha * e) * gauss (sqrt PI) (uL alpha p e))).
      { apply (Filter_prod _ _ _ (fun a => 0 < a < acc) (fun b => 0 < b < acc)).
        - exists (mkposreal _ H0). intros y Hy Hy0. change (Rabs (y - 0) < acc) in Hy. apply Rabs_def2 in Hy. lra.
        - exists (mkposreal _ H0). intros y Hy Hy0. change (Rabs (y - acc) < acc) in Hy. apply Rabs_def2 in Hy. lra.
        - intros a b A B x Hx. cbn [fst snd] in Hx. pose proof (Rmin_glb_lt a b 0 (proj1 A) (proj1 B)). pose proof (Rmax_lub_lt a b acc (proj2 A) (proj2 B)). rewrite acc_value by lra. destruct (Rlt_dec acc x); [lra |]. symmetry. apply Bw_kernel.kernel_pos; lra. }
      apply (gauss_between _ _ _ _ (uL alpha p) _ (fun a => 0 < a < acc / 2) (fun b => acc / 2 < b)).
      + assert (H3 : 0 < acc / 2) by lra. exists (mkposreal _ H3). intros y Hy Hy0. change (Rabs (y - 0) < acc / 2) in Hy. apply Rabs_def2 in Hy. lra.
      + assert (H3 : 0 < acc / 2) by lra. exists (mkposreal _ H3). intros y Hy Hy0. change (Rabs (y - acc) < acc / 2) in Hy. apply Rabs_def2 in Hy. lra.
      + apply lim_low; [apply _ |]. intros P [M HM]. exists (mkposreal _ (Bw_kernel.edge_pos alpha p Hp M)). intros y Hy Hy0. apply HM, (Bw_kernel.u_low alpha p Ha Hp); [assumption |]. change (Rabs (y - 0) < p * exp ((M + alpha / 4) * alpha)) in Hy. apply Rabs_def2 in Hy. lra.
      + apply (filterlim_filter_le_1 _ (left_sub acc)). apply (continuous_comp (uL alpha p) gA); [| apply gA_cont]. apply (ex_derive_continuous (uL alpha p)). eexists. apply (uL_derive alpha p Ha Hp). assumption.
      + intros a b A B. apply (L_int alpha (sqrt PI) p Ha Hp). lra.
    - apply (is_RInt_gen_ext (fun e => Bw_spec.log_gaussian alpha (p - acc) (e - acc))); [| apply shift_right, Bw_kernel.unit_pos; lra].
      apply (Filter_prod _ _ _ (fun a => acc < a) (fun b => acc < b)); [exists (mkposreal 1 Rlt_0_1); auto | exists acc; auto |].
      intros a b A B x Hx. cbn [fst snd] in Hx. pose proof (Rmin_glb_lt a b acc A B). rewrite acc_value by lra. destruct (Rlt_dec acc x); [reflexivity | lra].
  Qed.
End P.
