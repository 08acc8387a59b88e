(** The Gaussian integral.  With A(x) the integral of exp(-t^2) from 0 to x and B(x) that of exp(-x^2 (1+t^2)) / (1+t^2) from 0 to 1,
    A^2 + B is constant, hence pi/4. *)
From Coq Require Import Reals Lra Lia.
From Coquelicot Require Import Coquelicot.
Local Open Scope R_scope.

Definition gs (t : R) : R := exp (- (t * t)).
Definition gA (x : R) : R := RInt gs 0 x.
Definition gk (x t : R) : R := exp (- (x * x * (1 + t * t))) / (1 + t * t).
Definition gB (x : R) : R := RInt (fun t => gk x t) 0 1.
Definition gd (x t : R) : R := - (2 * x) * exp (- (x * x * (1 + t * t))).

Lemma gs_cont t : continuous gs t.
Proof. apply (ex_derive_continuous gs). unfold gs. auto_derive. auto. Qed.
Lemma gs_int a b : ex_RInt gs a b.
Proof. apply (ex_RInt_continuous (V := R_CompleteNormedModule)). intros z _. apply gs_cont. Qed.
Lemma gs_pos t : 0 < gs t.
Proof. apply exp_pos. Qed.
Lemma gA_derive x : is_derive gA x (gs x).
Proof.
  apply (is_derive_RInt gs gA 0); [| apply gs_cont]. exists (mkposreal 1 Rlt_0_1). intros y _. apply (RInt_correct (V := R_CompleteNormedModule)). apply gs_int.
Qed.
Lemma sq_pos t : 0 < 1 + t * t.
Proof. nra. Qed.
Lemma gk_derive x t : is_derive (fun u => gk u t) x (gd x t).
Proof. pose proof (sq_pos t). unfold gk, gd. auto_derive; [lra |]. field. lra. Qed.
Lemma gk_cont x t : continuous (fun t => gk x t) t.
Proof. pose proof (sq_pos t). apply (ex_derive_continuous (fun t => gk x t)). unfold gk. auto_derive. lra. Qed.
Lemma gk_int x : ex_RInt (fun t => gk x t) 0 1.
Proof. apply (ex_RInt_continuous (V := R_CompleteNormedModule)). intros z _. apply gk_cont. Qed.
Lemma gd_cont x t : continuity_2d_pt gd x t.
Proof.
  unfold gd. apply (continuity_2d_pt_mult (fun u v => - (2 * u)) (fun u v => exp (- (u * u * (1 + v * v))))).
  - apply (continuity_2d_pt_opp (fun u v => 2 * u)). apply (continuity_2d_pt_mult (fun u v => 2) (fun u v => u)); [apply continuity_2d_pt_const | apply continuity_2d_pt_id1].
  - apply (continuity_1d_2d_pt_comp exp (fun u v => - (u * u * (1 + v * v)))); [apply derivable_continuous_pt, derivable_pt_exp |].
    apply (continuity_2d_pt_opp (fun u v => u * u * (1 + v * v))). apply (continuity_2d_pt_mult (fun u v => u * u) (fun u v => 1 + v * v)).
    + apply (continuity_2d_pt_mult (fun u v => u) (fun u v => u)); apply continuity_2d_pt_id1.
    + apply (continuity_2d_pt_plus (fun u v => 1) (fun u v => v * v)); [apply continuity_2d_pt_const |]. apply (continuity_2d_pt_mult (fun u v => v) (fun u v => v)); apply continuity_2d_pt_id2.
Qed.
Lemma gB_derive0 x : is_derive gB x (RInt (fun t => gd x t) 0 1).
Proof.
  unfold gB. assert (E : forall u t, Derive (fun z => gk z t) u = gd u t) by (intros u t; apply is_derive_unique, gk_derive).
  rewrite (RInt_ext (fun t => gd x t) (fun t => Derive (fun u => gk u t) x)) by (intros; now rewrite E).
  apply (is_derive_RInt_param gk 0 1 x).
  - exists (mkposreal 1 Rlt_0_1). intros y _ t _. eexists. apply gk_derive.
  - intros t _. apply (continuity_2d_pt_ext gd); [intros; now rewrite E | apply gd_cont].
  - exists (mkposreal 1 Rlt_0_1). intros y _. apply gk_int.
Qed.
Lemma gB_derive x : is_derive gB x (- (2 * gs x * gA x)).
Proof.
  replace (- (2 * gs x * gA x)) with (RInt (fun t => gd x t) 0 1); [apply gB_derive0 |].
  assert (E : RInt gs 0 x = RInt (fun y => x * gs (x * y + 0)) 0 1).
  { assert (E0 : x * 0 + 0 = 0) by ring. assert (E1 : x * 1 + 0 = x) by ring. rewrite <- E0 at 1. rewrite <- E1 at 2. symmetry. apply (RInt_comp_lin (V := R_CompleteNormedModule) gs x 0 0 1). apply gs_int. }
  unfold gA. set (r := RInt gs 0 x) in *.
  assert (I : ex_RInt (fun y => x * gs (x * y + 0)) 0 1). { apply (ex_RInt_continuous (V := R_CompleteNormedModule)). intros z _. apply (ex_derive_continuous (fun y => x * gs (x * y + 0))). unfold gs. auto_derive. auto. }
  transitivity (scal (- (2 * gs x)) r); [| unfold scal; cbn; unfold mult; cbn; ring]. rewrite E.
  rewrite <- (RInt_scal (V := R_CompleteNormedModule)) by assumption. apply RInt_ext. intros t _. unfold scal, gd, gs. cbn. unfold mult. cbn.
  replace (- (x * x * (1 + t * t))) with (- (x * x) + - ((x * t + 0) * (x * t + 0))) by ring. rewrite exp_plus. ring.
Qed.
Lemma gAB_const x : gA x * gA x + gB x = PI / 4.
Proof.
  assert (D : forall y, is_derive (fun z => gA z * gA z + gB z) y 0).
  { intros y. replace 0 with (plus (plus (mult (gs y) (gA y)) (mult (gA y) (gs y))) (- (2 * gs y * gA y))) by (unfold plus, mult; cbn; ring).
    apply (is_derive_plus (fun z => gA z * gA z) gB); [| apply gB_derive]. apply (is_derive_mult gA gA); [apply gA_derive | apply gA_derive | exact Rmult_comm]. }
  assert (C : gA x * gA x + gB x = gA 0 * gA 0 + gB 0).
  { destruct (MVT_gen (fun z => gA z * gA z + gB z) 0 x (fun _ => 0)) as (c & _ & Hc); [intros; apply D | intros; apply continuity_pt_filterlim; apply (ex_derive_continuous (fun z => gA z * gA z + gB z)); eexists; apply D | lra]. }
  rewrite C. unfold gA, gB. rewrite RInt_point. replace (@zero R_CompleteNormedModule) with 0 by reflexivity.
  rewrite (RInt_ext (fun t => gk 0 t) (fun t => / (1 + t * t))) by (intros t _; unfold gk; replace (- (0 * 0 * (1 + t * t))) with 0 by ring; rewrite exp_0; unfold Rdiv; apply Rmult_1_l).
  assert (J : is_RInt (fun t => / (1 + t * t)) 0 1 (minus (atan 1) (atan 0))).
  { apply (is_RInt_derive (V := R_CompleteNormedModule) atan (fun t => / (1 + t * t))).
    - intros t _. pose proof (sq_pos t). auto_derive; [auto |]. unfold Rsqr. field. lra.
    - intros t _. pose proof (sq_pos t). apply (ex_derive_continuous (fun t => / (1 + t * t))). auto_derive. lra. }
  rewrite (is_RInt_unique _ _ _ _ J). rewrite atan_1, atan_0. unfold minus, plus, opp. cbn. lra.
Qed.
Lemma gB_bound x : 0 <= gB x <= gs x.
Proof.
  unfold gB. split.
  - apply RInt_ge_0; [lra | apply gk_int |]. intros t _. unfold gk. pose proof (sq_pos t). apply Rlt_le, Rdiv_lt_0_compat; [apply exp_pos | lra].
  - replace (gs x) with (RInt (fun _ => gs x) 0 1) by (rewrite RInt_const; unfold scal; cbn; unfold mult; cbn; ring). apply RInt_le; [lra | apply gk_int | apply ex_RInt_const |]. intros t _. unfold gk, gs. pose proof (sq_pos t).
    assert (exp (- (x * x * (1 + t * t))) <= exp (- (x * x))) by (destruct (Req_dec (x * x * (t * t)) 0); [apply Req_le; f_equal; lra | apply Rlt_le, exp_increasing; assert (0 <= x * x) by nra; assert (0 <= t * t) by nra; nra]). assert (0 < exp (- (x * x * (1 + t * t)))) by apply exp_pos.
    apply (Rmult_le_reg_r (1 + t * t)); [lra |]. unfold Rdiv. rewrite Rmult_assoc, Rinv_l by lra. nra.
Qed.
Lemma gs_small x : 1 <= x -> gs x < / x.
Proof.
  intros Hx. unfold gs. assert (H : 1 + x * x <= exp (x * x)) by (apply Rlt_le, exp_ineq1; nra). rewrite exp_Ropp. apply Rinv_lt_contravar; [| nra]. pose proof (exp_pos (x * x)). nra.
Qed.
Definition gs_half : R := sqrt PI / 2.
Lemma half_pos : 0 < gs_half.
Proof. unfold gs_half. pose proof PI_RGT_0. assert (0 < sqrt PI) by (apply sqrt_lt_R0; assumption). lra. Qed.
Lemma half_sq : gs_half * gs_half = PI / 4.
Proof. unfold gs_half. pose proof PI_RGT_0. replace (sqrt PI / 2 * (sqrt PI / 2)) with (sqrt PI * sqrt PI / 4) by field. rewrite sqrt_sqrt; lra. Qed.
Lemma gA_pos x : 0 <= x -> 0 <= gA x.
Proof. intros Hx. unfold gA. apply RInt_ge_0; [assumption | apply gs_int |]. intros t _. apply Rlt_le, gs_pos. Qed.
Lemma gA_odd x : gA (- x) = - gA x.
Proof.
  unfold gA. assert (E : RInt gs (- 1 * 0 + 0) (- 1 * x + 0) = RInt (fun y => - 1 * gs (- 1 * y + 0)) 0 x) by (symmetry; apply (RInt_comp_lin (V := R_CompleteNormedModule) gs (- 1) 0 0 x); apply gs_int).
  assert (E0 : - 1 * 0 + 0 = 0) by ring. assert (E1 : - 1 * x + 0 = - x) by ring. rewrite E0, E1 in E. rewrite E. transitivity (scal (- 1) (RInt gs 0 x)); [| unfold scal; cbn; unfold mult; cbn; ring].
  rewrite <- (RInt_scal (V := R_CompleteNormedModule)) by apply gs_int. apply RInt_ext. intros t _. unfold scal, gs. cbn. unfold mult. cbn. f_equal. f_equal. f_equal. ring.
Qed.
Lemma gA_upper x : 0 <= x -> gs_half - gs x / gs_half <= gA x <= gs_half.
Proof.
  intros Hx. pose proof half_pos as Hh. pose proof half_sq as Hs. pose proof (gAB_const x) as Hc. pose proof (gB_bound x) as [Hb1 Hb2]. pose proof (gA_pos x Hx) as Ha. assert (Hu : gA x <= gs_half) by nra. split; [| assumption].
  assert (gs_half - gA x <= gs x / gs_half); [| lra]. apply (Rmult_le_reg_r gs_half); [assumption |]. unfold Rdiv. rewrite Rmult_assoc, Rinv_l by lra. nra.
Qed.
(** How close to the limit. *)
Lemma gA_close eps : 0 < eps -> exists M, 0 < M /\ forall x, M < x -> Rabs (gA x - gs_half) < eps.
Proof.
  intros He. pose proof half_pos as Hh. exists (1 + / (eps * gs_half)). assert (Hi : 0 < / (eps * gs_half)) by (apply Rinv_0_lt_compat; nra). split; [lra |]. intros x Hx. pose proof (gA_upper x ltac:(lra)) as [H1 H2]. pose proof (gs_small x ltac:(lra)) as H3.
  assert (H4 : / x < eps * gs_half). { rewrite <- (Rinv_inv (eps * gs_half)) by nra. apply Rinv_lt_contravar; [| lra]. apply Rmult_lt_0_compat; lra. }
  assert (H5 : gs x / gs_half < eps). { apply (Rmult_lt_reg_r gs_half); [assumption |]. unfold Rdiv. rewrite Rmult_assoc, Rinv_l by lra. lra. }
  apply Rabs_def1; lra.
Qed.
Theorem gauss_integral : is_RInt_gen gs (Rbar_locally m_infty) (Rbar_locally p_infty) (sqrt PI).
Proof.
  intros P [eps HP]. destruct (gA_close (eps / 2)) as (M & HM & H); [destruct eps; cbn; lra |]. pose proof (cond_pos eps) as He.
  apply (Filter_prod (Rbar_locally m_infty) (Rbar_locally p_infty) _ (fun a => a < - M) (fun b => M < b)); [exists (- M); auto | exists M; auto |].
  intros a b Ha Hb. exists (gA b - gA a). split.
  - replace (gA b - gA a) with (plus (opp (gA a)) (gA b)) by (unfold plus, opp; cbn; ring). apply (is_RInt_Chasles (V := R_NormedModule) gs a 0 b); [apply (is_RInt_swap (V := R_NormedModule)) |]; apply (RInt_correct (V := R_CompleteNormedModule)); apply gs_int.
  - apply HP. change (Rabs (gA b - gA a + - sqrt PI) < eps). assert (E : gA a = - gA (- a)) by (rewrite gA_odd; ring). pose proof (H b Hb) as H1. pose proof (H (- a) ltac:(lra)) as H2. apply Rabs_def2 in H1. apply Rabs_def2 in H2. unfold gs_half in *. apply Rabs_def1; lra.
Qed.
(** A function whose integrals are Gaussian measures of the images of the intervals under a map onto the real line has the integral 1. *)
Lemma gauss_unit (Fa Fb : (R -> Prop) -> Prop) (FF : Filter Fa) (FF' : Filter Fb) (u : R -> R) (f : R -> R) (D D' : R -> Prop) :
  Fa D -> Fb D' -> filterlim u Fa (Rbar_locally m_infty) -> filterlim u Fb (Rbar_locally p_infty) ->
  (forall a b, D a -> D' b -> is_RInt f a b (RInt (fun t => exp (- Rsqr t) / sqrt PI) (u a) (u b))) -> is_RInt_gen f Fa Fb 1.
Proof.
  intros HD HD' Hu Hu' Hf P [eps HP]. pose proof half_pos as Hh. destruct (gA_close (eps * gs_half)) as (M & HM & H); [destruct eps; cbn; nra |].
  assert (Q1 : Fa (fun a => u a < - M)) by (apply (Hu (fun y => y < - M)); exists (- M); auto). assert (Q2 : Fb (fun b => M < u b)) by (apply (Hu' (fun y => M < y)); exists M; auto).
  apply (Filter_prod Fa Fb _ (fun a => D a /\ u a < - M) (fun b => D' b /\ M < u b)); [now apply filter_and | now apply filter_and |].
  intros a b [Ha1 Ha2] [Hb1 Hb2]. eexists. split; [apply (Hf a b Ha1 Hb1) |]. apply HP.
  assert (E : RInt (fun t => exp (- Rsqr t) / sqrt PI) (u a) (u b) = (gA (u b) - gA (u a)) / (2 * gs_half)).
  { apply is_RInt_unique. replace ((gA (u b) - gA (u a)) / (2 * gs_half)) with (scal (/ (2 * gs_half)) (plus (opp (gA (u a))) (gA (u b)))) by (unfold scal, plus, opp; cbn; unfold mult; cbn; field; lra).
    apply (is_RInt_ext (fun t => scal (/ (2 * gs_half)) (gs t))). { intros t _. unfold scal, gs, gs_half, Rsqr. cbn. unfold mult. cbn. unfold gs_half in Hh. field. lra. }
    apply (is_RInt_scal (V := R_NormedModule)). apply (is_RInt_Chasles (V := R_NormedModule) gs (u a) 0 (u b)); [apply (is_RInt_swap (V := R_NormedModule)) |]; apply (RInt_correct (V := R_CompleteNormedModule)); apply gs_int. }
  rewrite E. change (Rabs ((gA (u b) - gA (u a)) / (2 * gs_half) + - 1) < eps). pose proof (cond_pos eps) as He. assert (E' : gA (u a) = - gA (- u a)) by (rewrite gA_odd; ring). pose proof (H (u b) Hb2) as H1. pose proof (H (- u a) ltac:(lra)) as H2. apply Rabs_def2 in H1. apply Rabs_def2 in H2.
  replace ((gA (u b) - gA (u a)) / (2 * gs_half) + - 1) with ((gA (u b) - gA (u a) - 2 * gs_half) / (2 * gs_half)) by (field; lra). apply Rabs_def1.
  - apply (Rmult_lt_reg_r (2 * gs_half)); [lra |]. unfold Rdiv. rewrite Rmult_assoc, Rinv_l by lra. lra.
  - apply (Rmult_lt_reg_r (2 * gs_half)); [lra |]. unfold Rdiv. rewrite Rmult_assoc, Rinv_l by lra. lra.
Qed.
