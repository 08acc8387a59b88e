(** Convergence of the solver, the meaning of its equation, and the example of a flat band. *)
From Coq Require Import List ZArith Reals Lra Lia Bool FunctionalExtensionality.
From Coquelicot Require Import Coquelicot.
From Verif Require Import Base Interp_model Interp_spec Interp_proofs Adapt_model Adapt_spec Adapt_proofs Adapt_ode Adapt_lip Adapt_run Adapt_main Adapt_aux.
Import List ListNotations.
Local Open Scope R_scope.

Lemma converges_fixed Lambda b v gp r S Y X : 1 < Lambda -> 0 < b -> increasing v -> (2 <= length v)%nat -> (forall p, In p v -> 0 < snd p) ->
  (forall x, linear_interpolant (density b v) x (r x)) -> (forall x, derivable_pt_lim S x (r x)) -> 1 <= X -> Y 1 = 1 / Lambda ->
  (forall x, 1 <= x <= X -> derivable_pt_lim Y x (slope_f Lambda r S (grid Lambda gp (fun _ => 1)) x (Y x))) ->
  exists C h0, 0 < h0 /\ forall P h loaded fuel gtab l, p_Lambda P = Lambda -> p_bandrescale P = b -> gap_of P = gp -> p_adapt P = false -> usable P v h -> h <= h0 -> run P loaded fuel v = Some (Ok (gtab, l)) ->
    forall x y, In (x, y) l -> x <= X -> Rabs (y - Y x) <= C * h.
Proof.
  intros HL Hb Hv Hl Hp Hr HS HX HY Hsol. destruct (converge_gen Lambda b v gp (fun _ => 1) r S Y X HL Hb Hv Hl Hp Hr HS) as (C & h0 & H0 & HC); try assumption; try reflexivity.
  { exists 1, 0. split; [lra |]. split; [lra |]. split; intros; [rewrite Rabs_R1; lra | rewrite Rminus_diag_eq, Rabs_R0 by reflexivity; lra]. }
  exists C, h0. split; [assumption |]. intros P h loaded fuel gtab l E1 E2 E3 Ha U Hh E. destruct (fixed P v h r S loaded fuel _ U ltac:(split; rewrite ?E2; assumption) Ha E) as [[Q _] | (rows & [= -> ->] & O_)]; [discriminate |].
  unfold f_file, equation in O_. rewrite E1, E3 in O_. rewrite E1. eapply HC; [| exact O_]. destruct U as (_ & _ & _ & _ & U & _). lra.
Qed.
Lemma converges_loaded Lambda b v gp vg gf r S Y X : 1 < Lambda -> 0 < b -> increasing v -> (2 <= length v)%nat -> (forall p, In p v -> 0 < snd p) ->
  (forall x, linear_interpolant (density b v) x (r x)) -> (forall x, derivable_pt_lim S x (r x)) -> increasing vg -> (2 <= length vg)%nat -> nth_error vg 0 = Some (2, 1) -> (forall x, linear_interpolant vg x (gf x)) -> 1 <= X -> Y 1 = 1 / Lambda ->
  (forall x, 1 <= x <= X -> derivable_pt_lim Y x (slope_f Lambda r S (grid Lambda gp gf) x (Y x))) ->
  exists C h0, 0 < h0 /\ forall P h fuel gtab l, p_Lambda P = Lambda -> p_bandrescale P = b -> gap_of P = gp -> p_adapt P = true -> usable P v h -> h <= h0 -> run P (Some vg) fuel v = Some (Ok (gtab, l)) ->
    forall x y, In (x, y) l -> x <= X -> Rabs (y - Y x) <= C * h.
Proof.
  intros HL Hb Hv Hl Hp Hr HS Gi Gl G0 Hg HX HY Hsol. assert (Q : forall x, gf x = fval vg x) by (intros; now apply interpolant_unique).
  destruct (converge_gen Lambda b v gp gf r S Y X HL Hb Hv Hl Hp Hr HS) as (C & h0 & H0 & HC); try assumption.
  { destruct (fval_lip vg) as (Lg & L1 & L2). destruct vg as [| p0 vg]; [discriminate |]. exists (Rmax 0 (fold_right (fun p m => Rmax (Rabs (snd p)) m) 0 (p0 :: vg))), Lg. split; [apply Rmax_l |]. split; [assumption |]. split; [| intros; rewrite !Q; apply L2].
    intros x. rewrite Q. eapply Rle_trans; [| apply Rmax_r]. set (Bm := fold_right (fun p m => Rmax (Rabs (snd p)) m) 0 (p0 :: vg)). assert (A : forall p, In p (p0 :: vg) -> - Bm <= snd p <= Bm).
    { unfold Bm. generalize (p0 :: vg). intros t p. induction t as [| q t IH]; [contradiction |]. cbn [fold_right In]. intros [<- | Hin]; [| specialize (IH Hin)]; pose proof (Rmax_l (Rabs (snd q)) (fold_right (fun p m => Rmax (Rabs (snd p)) m) 0 t)); pose proof (Rmax_r (Rabs (snd q)) (fold_right (fun p m => Rmax (Rabs (snd p)) m) 0 t)); [| lra]. pose proof (Rle_abs (snd q)). pose proof (Rle_abs (- snd q)) as N. rewrite Rabs_Ropp in N. lra. }
    pose proof (fval_between (p0 :: vg) (- Bm) Bm x Gi Gl A). apply Rabs_le. lra. }
  { rewrite Q. destruct (Hg 2) as (G1 & _). rewrite <- Q. exact (G1 (2, 1) G0 (Rle_refl 2)). }
  exists C, h0. split; [assumption |]. intros P h fuel gtab l E1 E2 E3 Ha U Hh E. destruct (loaded_g P v h r S vg gf fuel _ U ltac:(split; rewrite ?E2; assumption) Ha Gi Gl Hg E) as [[Q' _] | (rows & [= -> ->] & O_)]; [discriminate |].
  unfold f_file, equation in O_. rewrite E1, E3 in O_. rewrite E1. eapply HC; [| exact O_]. destruct U as (_ & _ & _ & _ & U & _). lra.
Qed.

(** ** What the equation means *)
Lemma equation_meaning Lambda r S e Y x : 1 < Lambda -> r (Y x * Rpower Lambda (2 - x)) <> 0 -> derivable_pt_lim Y x (slope_f Lambda r S e x (Y x)) ->
  exists D, derivable_pt_lim (fun t => Y t * Rpower Lambda (2 - t)) x D /\ D * r (Y x * Rpower Lambda (2 - x)) = - (S (e x) - S (e (x + 1))).
Proof.
  intros HL Hr HY. pose proof (exp_pos ((2 - x) * ln Lambda)) as Ep. set (p := Rpower Lambda (2 - x)) in *. assert (Hp : 0 < p) by exact Ep.
  assert (DP : derivable_pt_lim (fun t => Rpower Lambda (2 - t)) x (- ln Lambda * p)) by (apply is_derive_Reals, (P_derive Lambda)).
  exists (slope_f Lambda r S e x (Y x) * p + Y x * (- ln Lambda * p)). split.
  - apply (derivable_pt_lim_mult Y (fun t => Rpower Lambda (2 - t))); assumption.
  - unfold slope_f. fold p. field. split; [assumption | lra].
Qed.

(** ** The Runge-Kutta formula *)
Lemma rk4_cubic a b c d x y h : rk4 (fun t _ => a + b * t + c * t ^ 2 + d * t ^ 3) x y h =
  (a * (x + h) + b * (x + h) ^ 2 / 2 + c * (x + h) ^ 3 / 3 + d * (x + h) ^ 4 / 4) - (a * x + b * x ^ 2 / 2 + c * x ^ 3 / 3 + d * x ^ 4 / 4).
Proof. unfold rk4. field. Qed.
Lemma rk4_linear c x y h : y + rk4 (fun _ u => c * u) x y h = y * (1 + c * h + (c * h) ^ 2 / 2 + (c * h) ^ 3 / 6 + (c * h) ^ 4 / 24).
Proof. unfold rk4. field. Qed.

(** ** The flat band *)
Lemma flat_inc : increasing flat.
Proof. intros [| [| i]] p q; cbn; intros Hp Hq; try discriminate. injection Hp as <-. injection Hq as <-. cbn [fst]. assert (1 < 10 ^ 10) by (apply Rlt_pow_R1; [lra | lia]). rewrite <- Rinv_1. apply Rinv_lt_contravar; lra. Qed.
Lemma flat_usable d st n al : 0 <= d -> 0 <= st -> (1 <= n)%Z -> usable (flat_params d st n al) flat d.
Proof. intros Hd Hs Hn. split; [exact flat_inc |]. split; [cbn; lia |]. split; [intros p [<- | [<- | []]]; cbn; lra |]. cbn. repeat split; try lra; lia. Qed.
Lemma flat_density_of d st n al : density_of (flat_params d st n al) flat (fun _ => 1 / 2) (fun x => x / 2).
Proof.
  split.
  - intros x. change (p_bandrescale (flat_params d st n al)) with 1. unfold density, flat, extended. cbn [fst snd]. destruct Rlt_dec; cbn [map fst snd]; (split; [| split]).
    + intros p [= <-] _. cbn. field.
    + intros p [= <-] _. cbn. field.
    + intros [| [| [| i]]] p q; cbn; intros Hp Hq _; try discriminate; injection Hp as <-; injection Hq as <-; cbn; unfold Rdiv; ring.
    + intros p [= <-] _. cbn. field.
    + intros p [= <-] _. cbn. field.
    + intros [| [| i]] p q; cbn; intros Hp Hq _; try discriminate; injection Hp as <-; injection Hq as <-; cbn; unfold Rdiv; ring.
  - intros x. apply is_derive_Reals. auto_derive; [auto |]. field.
Qed.
Lemma flat_start : flat_Y 1 = 1 / 2.
Proof. unfold flat_Y, flat_E. replace (1 - 1) with 0 by ring. rewrite Rpower_O by lra. replace (1 - 2) with (- (1)) by ring. rewrite Rpower_Ropp, Rpower_1 by lra. unfold Rdiv. ring. Qed.
Lemma flat_solution x : 1 <= x <= 3 / 2 -> derivable_pt_lim flat_Y x (slope_f 2 (fun _ => 1 / 2) (fun x => x / 2) (grid 2 None (fun _ => 1)) x (flat_Y x)).
Proof.
  intros Hx. apply is_derive_Reals. assert (Hln : 0 < ln 2) by (apply lnpos; lra). unfold flat_Y, flat_E, Rpower. auto_derive; [auto |].
  unfold slope_f, grid. destruct (Rle_dec x 2); [| lra].
  assert (Hg : (if Rle_dec (x + 1) 2 then 1 else 1 * Rpower 2 (2 - (x + 1))) = Rpower 2 (1 - x)). { destruct (Rle_dec (x + 1) 2); [replace x with 1 by lra; replace (1 - 1) with 0 by ring; rewrite Rpower_O; lra | rewrite Rmult_1_l; f_equal; ring]. }
  rewrite Hg. unfold Rpower. replace (exp ((2 - x) * ln 2)) with (/ exp ((x - 2) * ln 2)) by (rewrite <- exp_Ropp; f_equal; ring). unfold Rminus. pose proof (exp_pos ((x + - (2)) * ln 2)). field. split; lra.
Qed.
Lemma flat_accepted d n st : st <= 1 -> powerRZ 2 (-52) < d * powerRZ (1 / 2) n -> forall al, set_parameters (flat_params d st n al) = Ok tt.
Proof.
  intros H1 H2 al. unfold set_parameters. cbn [p_Lambda p_xmax p_xfine p_step p_dx_fine p_max_subdiv p_max_abs flat_params]. apply Rltb_spec in H2. rewrite H2. unfold Rltb, Rleb.
  repeat (match goal with |- context [Rlt_dec ?a ?b] => destruct (Rlt_dec a b); [| lra] end). destruct (Rle_dec st 1); [reflexivity | lra].
Qed.
Lemma tiny : powerRZ 2 (-52) < 1 / 1048576.
Proof.
  unfold powerRZ. replace (1 / 1048576) with (/ 2 ^ 20) by field. apply Rinv_lt_contravar; [apply Rmult_lt_0_compat; apply pow_lt; lra |]. apply Rlt_pow; [lra |]. change (Pos.to_nat 52) with 52%nat. lia.
Qed.
Lemma tiny10 : powerRZ 2 (-52) < 1 / 100 * powerRZ (1 / 2) 10.
Proof. pose proof tiny. unfold powerRZ at 2. change (Pos.to_nat 10) with 10%nat. replace ((1 / 2) ^ 10) with (1 / 1024) by field. lra. Qed.
Lemma tiny0 : powerRZ 2 (-52) < 1 / 100 * powerRZ (1 / 2) 0.
Proof. pose proof tiny. unfold powerRZ at 2. lra. Qed.
