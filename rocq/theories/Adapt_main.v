(** The statements about the solver of the discretisation equation. *)
From Coq Require Import List ZArith Reals Lra Lia Bool FunctionalExtensionality.
From Coquelicot Require Import Coquelicot.
From Verif Require Import Base Interp_model Interp_spec Interp_proofs Adapt_model Adapt_spec Adapt_proofs Adapt_ode Adapt_lip Adapt_run Adapt_aux.
Import List ListNotations.
Local Open Scope R_scope.

Lemma equation_eq P v h r S gf gf' : usable P v h -> density_of P v r S -> (forall x, gf x = gf' x) ->
  slope_f (p_Lambda P) (fval (density (p_bandrescale P) v)) (Fval (density (p_bandrescale P) v)) (grid (p_Lambda P) (gap P) gf) = equation P r S gf'.
Proof.
  intros (H1 & H2 & _ & H4 & _) (D1 & D2) Hg. apply functional_extensionality. intros x. apply functional_extensionality. intros y. apply slope_f_ext.
  - intros w. symmetry. apply interpolant_unique; [now apply density_inc | pose proof (density_len (p_bandrescale P) v); lia | apply D1].
  - apply (anti_unique r); [| assumption]. intros w. rewrite (interpolant_unique (density (p_bandrescale P) v) w (r w)); [apply Fval_deriv | now apply density_inc | pose proof (density_len (p_bandrescale P) v); lia | apply D1].
  - intros w. now apply grid_ext.
Qed.
Lemma density_eq P v h r S : usable P v h -> density_of P v r S -> fval (density (p_bandrescale P) v) = r.
Proof. intros (H1 & H2 & _ & H4 & _) (D1 & D2). apply functional_extensionality. intros w. symmetry. apply interpolant_unique; [now apply density_inc | pose proof (density_len (p_bandrescale P) v); lia | apply D1]. Qed.

Lemma fixed P v h r S loaded fuel res_ : usable P v h -> density_of P v r S -> p_adapt P = false -> run P loaded fuel v = Some res_ ->
  res_ = Throw /\ (set_parameters P = Throw \/ f_fails P h (equation P r S (fun _ => 1))) \/
  exists rows, res_ = Ok (None, (1, 1 / p_Lambda P) :: rows) /\ f_file P h (equation P r S (fun _ => 1)) rows.
Proof.
  intros U D Ha E. pose proof (equation_eq P v h r S (fun _ => 1) (fun _ => 1) U D (fun _ => eq_refl)) as Q. pose proof U as (H1 & H2 & H3 & H4 & H5 & H6 & H7 & H8).
  apply (run_fixed P v h H1 H2 H3 H4 H5 H6 H7 H8 loaded fuel res_ Ha) in E. rewrite Q in E. exact E.
Qed.
Lemma loaded_g P v h r S vg gf fuel res_ : usable P v h -> density_of P v r S -> p_adapt P = true -> increasing vg -> (2 <= length vg)%nat -> (forall x, linear_interpolant vg x (gf x)) -> run P (Some vg) fuel v = Some res_ ->
  res_ = Throw /\ (set_parameters P = Throw \/ f_fails P h (equation P r S gf)) \/
  exists rows, res_ = Ok (Some vg, (1, 1 / p_Lambda P) :: rows) /\ f_file P h (equation P r S gf) rows.
Proof.
  intros U D Ha Gi Gl Hg E. assert (Q : forall x, fval vg x = gf x) by (intros; symmetry; now apply interpolant_unique). apply (equation_eq P v h r S _ _ U D) in Q. pose proof U as (H1 & H2 & H3 & H4 & H5 & H6 & H7 & H8).
  apply (run_loaded P v h H1 H2 H3 H4 H5 H6 H7 H8 vg fuel res_ Ha Gl Gi) in E. rewrite Q in E. exact E.
Qed.
Lemma adaptive P v h r S fuel gtab l : usable P v h -> density_of P v r S -> p_adapt P = true -> / 10 ^ 10 < p_step P -> run P None fuel v = Some (Ok (gtab, l)) ->
  exists A rows_g x y rows, gtab = Some ((2, 1) :: rows_g) /\ g_file P h A r rows_g /\ last rows_g (0, 0) = (x, y) /\ A <> 0 /\ Rabs (y / (A / r 0) - 1) < p_secant_eps P /\
    increasing ((2, 1) :: rows_g) /\ l = (1, 1 / p_Lambda P) :: rows /\ forall gf, (forall x, linear_interpolant ((2, 1) :: rows_g) x (gf x)) -> f_file P h (equation P r S gf) rows.
Proof.
  intros U D Ha Hs E. pose proof U as (H1 & H2 & H3 & H4 & H5 & H6 & H7 & H8). apply (run_adaptive P v h H1 H2 H3 H4 H5 H6 H7 H8 fuel gtab l Ha Hs) in E. destruct E as (A & vg & rows & -> & (ratio & Sh & Cv) & -> & O_).
  pose proof (shot_inc P v h H2 A ratio vg Hs Sh) as [Gi Gl]. destruct Sh as (rg & x & y & -> & Og & La & Az & ->). rewrite (density_eq P v h r S U D) in *. exists A, rg, x, y, rows.
  split; [reflexivity |]. split; [exact Og |]. split; [assumption |]. split; [assumption |]. split; [assumption |]. split; [assumption |]. split; [reflexivity |]. intros gf Hg.
  assert (Q : forall x, fval ((2, 1) :: rg) x = gf x) by (intros; symmetry; now apply interpolant_unique). apply (equation_eq P v h r S _ _ U D) in Q. rewrite (density_eq P v h r S U D) in Q. rewrite Q in O_. exact O_.
Qed.
Lemma ends P v h loaded fuel : usable P v h -> (p_adapt P = true -> match loaded with Some vg => (2 <= length vg)%nat /\ increasing vg | None => / 10 ^ 10 < p_step P end) ->
  (1 <= fuel)%nat -> p_xmax P + / 10 ^ 10 <= 1 + INR fuel * p_step P -> 0 < p_step P -> run P loaded fuel v <> None.
Proof. intros (H1 & H2 & H3 & H4 & H5 & H6 & H7 & H8) Hl Hf1 Hf2 Hs. now apply (run_ends P v h H1 H2 H3 H4 H5 H6 H7 H8). Qed.
Lemma endless P v h loaded fuel : usable P v h -> p_adapt P = false -> set_parameters P = Ok tt -> p_step P = 0 -> 1 / p_Lambda P <= p_max_abs P -> run P loaded fuel v = None.
Proof.
  intros (H1 & H2 & H3 & H4 & H5 & H6 & H7 & H8) Ha Hp H0 Hy. apply (run_endless P v h H1 H2 H3 H4 H5 H6 H8); try assumption. assert (1 < p_Lambda P) by (unfold set_parameters in Hp; destruct (Rltb 1 (p_Lambda P)) eqn:C; [now apply Rltb_spec in C | discriminate]).
  rewrite Rabs_right; [assumption |]. apply Rle_ge. apply Rmult_le_pos; [lra | apply Rlt_le, Rinv_0_lt_compat; lra].
Qed.

(** Without subdivisions. *)
Lemma no_subdivision P v r S loaded fuel : increasing v -> (2 <= length v)%nat -> (forall p, In p v -> 0 < snd p) -> 0 < p_bandrescale P -> p_max_subdiv P = 0%Z -> density_of P v r S -> p_adapt P = false ->
  let F := equation P r S (fun _ => 1) in let d := Rmin (p_dx_fine P) (p_step P) in
  Rabs (heun F 1 (1 / p_Lambda P) d - rk4 F 1 (1 / p_Lambda P) d) <= p_allowed P -> (1 <= fuel)%nat -> run P loaded fuel v = Some Throw.
Proof.
  intros H1 H2 H3 H4 Hm D Ha F d Hd Hf.
  set (P1 := {| p_Lambda := p_Lambda P; p_adapt := false; p_hardgap := p_hardgap P; p_boundary := p_boundary P; p_bandrescale := p_bandrescale P; p_xmax := p_xmax P; p_xfine := p_xfine P;
    p_step := 1; p_dx_fine := 1; p_dx_fast := 1; p_allowed := p_allowed P; p_max_subdiv := 1; p_max_abs := p_max_abs P; p_secant_eps := p_secant_eps P; p_factor0 := p_factor0 P; p_max_iter := p_max_iter P |}).
  assert (U : usable P1 v 1) by (repeat split; cbn; try assumption; try lra; lia). pose proof (equation_eq P1 v 1 r S (fun _ => 1) (fun _ => 1) U D (fun _ => eq_refl)) as Q. change (equation P1 r S (fun _ => 1)) with F in Q. change (p_Lambda P1) with (p_Lambda P) in Q. change (p_bandrescale P1) with (p_bandrescale P) in Q. change (gap P1) with (gap P) in Q.
  unfold run. destruct (load_base P v H1 H2 H4) as (o & -> & K). destruct (set_ok P) as [-> | ->]; cbn [bind]; [| reflexivity]. rewrite Ha. set (w := density (p_bandrescale P) v) in *.
  assert (K0 : ok P w [] o) by (destruct K as (A & B & C); split; [exact A | split; [exact B | split; [exact C | congruence]]]).
  assert (Cm : computes P w [] (rhs_F P) F). { pose proof (computes_F P v H1 H2 H3 H4 [] ltac:(congruence)) as C. rewrite Ha in C. fold w in C. rewrite Q in C. exact C. }
  assert (wl : (2 <= length w)%nat) by (pose proof (density_len (p_bandrescale P) v); unfold w; lia). assert (wi : increasing w) by (now apply density_inc).
  destruct fuel as [| fuel]; [lia |]. unfold calc_f. destruct (rho_ok P w [] wl wi 1 o K0) as (o1 & -> & K1). cbn [lines]. destruct (max_cnt_S P w [] wl ltac:(congruence)) as (m & ->). cbn [int_with_to s_x s_y s_o s_err].
  assert (Ed : (if Rltb (1 + p_dx_fine P) (1 + p_step P) then p_dx_fine P else 1 + p_step P - 1) = d).
  { unfold d, Rmin, Rltb. destruct (Rlt_dec (1 + p_dx_fine P) (1 + p_step P)), (Rle_dec (p_dx_fine P) (p_step P)); lra. }
  rewrite Ed. unfold timestep. rewrite Hm. change (Z.to_nat 0) with 0%nat. cbn [s_x s_y s_o s_err].
  destruct (attempt_zero P w [] (rhs_F P) F Cm 1 (1 / p_Lambda P) d 0 o1 Hm K1) as [At _]. rewrite (At Hd). reflexivity.
Qed.

(** ** Convergence *)
Lemma output_close F Y a X Lx Ly M h acc st xe g : 0 <= Lx -> 0 < Ly -> 0 <= M ->
  (forall x, a <= x <= X -> is_derive Y x (F x (Y x))) -> (forall x, a <= x <= X -> Rabs (F x (Y x)) <= M) ->
  (forall x x' y, a <= x <= X -> a <= x' <= X -> Rabs (F x y - F x' (Y x')) <= Lx * Rabs (x - x') + Ly * Rabs (y - Y x')) ->
  h <= 1 -> h * Ly <= 1 / 2 -> forall t p l, output F h acc st xe g t p l -> a <= fst p -> (fst p <= X -> Rabs (snd p - Y (fst p)) <= Adapt_ode.bound a Lx Ly M h (fst p)) ->
  forall q, In q l -> a <= fst q /\ (fst q <= X -> Rabs (snd q - Y (fst q)) <= Adapt_ode.bound a Lx Ly M h (fst q)).
Proof.
  intros L1 L2 L3 Hs Hb Hl Hh1 Hh2. assert (St : forall n p q, walk F h acc n p q -> a <= fst p -> (fst p <= X -> Rabs (snd p - Y (fst p)) <= Adapt_ode.bound a Lx Ly M h (fst p)) -> a <= fst q /\ (fst q <= X -> Rabs (snd q - Y (fst q)) <= Adapt_ode.bound a Lx Ly M h (fst q))).
  { intros n p q W Hp Hc. pose proof (walk_mono _ _ _ _ _ _ W) as Mo. split; [lra |]. intros Hq. apply (walk_close F Y a X Lx Ly M L1 L2 L3 Hs Hb Hl h acc n p q); try assumption. apply Hc. lra. }
  induction 1 as [n t p x y W Hz Rg N | n t p x y l W Hz Rg N1 N2 O_ IH]; intros Hp Hc; destruct (St _ _ _ W Hp Hc) as [A B].
  - intros q [<- | []]. now split.
  - intros q [<- | Hq]; [now split | now apply IH].
Qed.
Lemma continuous_bounded Y a X : a <= X -> (forall x, a <= x <= X -> continuity_pt Y x) -> exists M, 0 <= M /\ forall x, a <= x <= X -> Rabs (Y x) <= M.
Proof.
  intros H C. destruct (continuity_ab_maj (fun x => Rabs (Y x)) a X H) as (m & Hm & _).
  - intros c Hc. apply (continuity_pt_comp Y Rabs); [now apply C | apply Rcontinuity_abs].
  - exists (Rabs (Y m)). split; [apply Rabs_pos | exact Hm].
Qed.
Lemma converge_gen Lambda b v gp gf r S Y X : 1 < Lambda -> 0 < b -> increasing v -> (2 <= length v)%nat -> (forall p, In p v -> 0 < snd p) ->
  (forall x, linear_interpolant (density b v) x (r x)) -> (forall x, derivable_pt_lim S x (r x)) ->
  (exists B Lg, 0 <= B /\ 0 <= Lg /\ (forall x, Rabs (gf x) <= B) /\ (forall x x', Rabs (gf x - gf x') <= Lg * Rabs (x - x'))) -> gf 2 = 1 -> 1 <= X -> Y 1 = 1 / Lambda ->
  let F := slope_f Lambda r S (grid Lambda gp gf) in
  (forall x, 1 <= x <= X -> derivable_pt_lim Y x (F x (Y x))) ->
  exists C h0, 0 < h0 /\ forall h acc st xe g rows, 0 <= h <= h0 -> output F h acc st xe g 1 (1, 1 / Lambda) rows -> forall x y, In (x, y) ((1, 1 / Lambda) :: rows) -> x <= X -> Rabs (y - Y x) <= C * h.
Proof.
  intros HL Hb Hv Hl Hp Hr HS (B & Lg & HB & HLg & Hgb & Hgl) G2 HX HY1 F Hsol. set (w := density b v) in *. assert (wi : increasing w) by now apply density_inc. assert (wl : (2 <= length w)%nat) by (pose proof (density_len b v); unfold w; lia). assert (wp : forall p, In p w -> 0 < snd p) by (apply density_pos; assumption).
  assert (Er : r = fval w) by (apply functional_extensionality; intros; now apply interpolant_unique).
  destruct (table_bounds w wp) as (r0 & r1 & P0 & P1 & Pb). destruct (fval_lip w) as (Lr & HLr & Hrl). destruct (grid_lip Lambda HL gp gf B Lg HB HLg Hgb Hgl G2) as (Le & HLe & Hel).
  assert (Hr01 : forall x, r0 <= r x <= r1) by (intros x; rewrite Er; now apply fval_between).
  assert (HrL : forall x x', Rabs (r x - r x') <= Lr * Rabs (x - x')) by (rewrite Er; assumption).
  assert (HSL : forall x x', Rabs (S x - S x') <= r1 * Rabs (x - x')). { intros x x'. rewrite (anti_unique r S (Fval w) HS) by (intros; rewrite Er; apply Fval_deriv). apply Fval_lip; try assumption. intros p Hin. pose proof (Pb p Hin). pose proof (wp p Hin). lra. }
  destruct (continuous_bounded Y 1 X HX) as (MY & HMY & HYb). { intros x Hx. apply derivable_continuous_pt. exists (F x (Y x)). now apply Hsol. }
  destruct (Lip_pos Lambda HL r r0 r1 Lr Le P0 Hr01 HLr HLe X MY HMY) as [Px Py]. set (Lx := Lipx Lambda r0 r1 Lr Le X MY) in *. set (Ly := Lipy Lambda r0 r1 Lr Le X) in *. set (M := ln Lambda * MY + r1 * Le / (Rpower Lambda (2 - X) * r0)).
  assert (Hbd : forall x, 1 <= x <= X -> Rabs (F x (Y x)) <= M) by (intros; apply slope_bound; auto). assert (HM : 0 <= M) by (eapply Rle_trans; [apply Rabs_pos | apply (Hbd 1); lra]).
  assert (Hlip : forall x x' y, 1 <= x <= X -> 1 <= x' <= X -> Rabs (F x y - F x' (Y x')) <= Lx * Rabs (x - x') + Ly * Rabs (y - Y x')) by (intros; apply slope_lip; auto).
  exists (Adapt_ode.bound 1 Lx Ly M 1 X), (Rmin 1 (1 / (2 * Ly))). assert (Hiy : 0 < 1 / (2 * Ly)) by (apply Rdiv_lt_0_compat; lra). split; [apply Rmin_glb_lt; lra |].
  intros h acc st xe g rows [Hh0 Hh] O_ x y Hin Hx. assert (Hh1 : h <= 1) by (eapply Rle_trans; [exact Hh | apply Rmin_l]). assert (Hh2 : h * Ly <= 1 / 2). { apply Rle_trans with (1 / (2 * Ly) * Ly); [apply Rmult_le_compat_r; [lra |]; eapply Rle_trans; [exact Hh | apply Rmin_r] |]. right. field. lra. }
  assert (B0 : Rabs (1 / Lambda - Y 1) <= Adapt_ode.bound 1 Lx Ly M h 1) by (rewrite HY1, Rminus_diag_eq, Rabs_R0 by reflexivity; apply bound_pos; auto; lra).
  assert (Bx : 1 <= x /\ Rabs (y - Y x) <= Adapt_ode.bound 1 Lx Ly M h x).
  { destruct Hin as [[= <- <-] | Hin]; [split; [lra | exact B0] |]. destruct (output_close F Y 1 X Lx Ly M h acc st xe g Px Py HM (fun x Hx => proj2 (is_derive_Reals _ _ _) (Hsol x Hx)) Hbd Hlip Hh1 Hh2 1 (1, 1 / Lambda) rows O_ ltac:(cbn; lra) (fun _ => B0) (x, y) Hin) as [A1 A2]. split; [exact A1 | exact (A2 Hx)]. }
  destruct Bx as [Hx1 Bx]. eapply Rle_trans; [exact Bx |]. unfold Adapt_ode.bound. pose proof (Kc_pos Lx Ly M Px Py HM) as HK.
  assert (He : exp (2 * Ly * (x - 1)) <= exp (2 * Ly * (X - 1))). { destruct (Rle_lt_or_eq_dec x X Hx) as [Hlt | ->]; [| lra]. apply Rlt_le, exp_increasing. apply Rmult_lt_compat_l; lra. }
  assert (HKL : 0 <= Kc Lx Ly M / (2 * Ly)) by (apply Rmult_le_pos; [assumption | apply Rlt_le, Rinv_0_lt_compat; lra]).
  replace (Kc Lx Ly M * h / (2 * Ly) * (exp (2 * Ly * (x - 1)) - 1)) with (Kc Lx Ly M / (2 * Ly) * (exp (2 * Ly * (x - 1)) - 1) * h) by (field; lra).
  replace (Kc Lx Ly M * 1 / (2 * Ly) * (exp (2 * Ly * (X - 1)) - 1) * h) with (Kc Lx Ly M / (2 * Ly) * (exp (2 * Ly * (X - 1)) - 1) * h) by (field; lra).
  apply Rmult_le_compat_r; [assumption |]. apply Rmult_le_compat_l; [assumption | lra].
Qed.
