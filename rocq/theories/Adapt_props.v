(** C77: the solver of the discretisation equation (tool adapt). *)
From Coq Require Import List ZArith Reals Lra Lia.
From Verif Require Import Base Interp_model Interp_spec Adapt_model Adapt_spec Adapt_aux Adapt_proofs Adapt_main Adapt_final Adapt_secant Adapt_full Adapt_flat.
Import ListNotations.
Local Open Scope R_scope.

(** Fixed grid: the file consists of points reached by Runge-Kutta steps of the equation, at the multiples of the output step up to
    1e-10; the program stops for one of the stated reasons only. *)
Theorem C77_fixed : forall P v h r S loaded fuel res_,
  usable P v h -> density_of P v r S -> p_adapt P = false -> run P loaded fuel v = Some res_ ->
  res_ = Throw /\ (set_parameters P = Throw \/ f_fails P h (equation P r S (fun _ => 1))) \/
  exists rows, res_ = Ok (None, (1, 1 / p_Lambda P) :: rows) /\ f_file P h (equation P r S (fun _ => 1)) rows.
Proof. exact fixed. Qed.
Print Assumptions C77_fixed.

(** Adaptive grid with a given table g. *)
Theorem C77_loaded : forall P v h r S vg gf fuel res_,
  usable P v h -> density_of P v r S -> p_adapt P = true -> increasing vg -> (2 <= length vg)%nat -> (forall x, linear_interpolant vg x (gf x)) ->
  run P (Some vg) fuel v = Some res_ ->
  res_ = Throw /\ (set_parameters P = Throw \/ f_fails P h (equation P r S gf)) \/
  exists rows, res_ = Ok (Some vg, (1, 1 / p_Lambda P) :: rows) /\ f_file P h (equation P r S gf) rows.
Proof. exact loaded_g. Qed.
Print Assumptions C77_loaded.

(** Adaptive grid: the table g belongs to a constant A for which its last value is A / rho(0) within the tolerance. *)
Theorem C77_adaptive : forall P v h r S fuel gtab l,
  usable P v h -> density_of P v r S -> p_adapt P = true -> / 10 ^ 10 < p_step P -> run P None fuel v = Some (Ok (gtab, l)) ->
  exists A rows_g x y rows, gtab = Some ((2, 1) :: rows_g) /\ g_file P h A r rows_g /\ last rows_g (0, 0) = (x, y) /\ A <> 0 /\
    Rabs (y / (A / r 0) - 1) < p_secant_eps P /\ increasing ((2, 1) :: rows_g) /\ l = (1, 1 / p_Lambda P) :: rows /\
    forall gf, (forall x, linear_interpolant ((2, 1) :: rows_g) x (gf x)) -> f_file P h (equation P r S gf) rows.
Proof. exact adaptive. Qed.
Print Assumptions C77_adaptive.

(** How A is found: the first value is the weight of the density up to 1 (in the interval with 1 the average of its two ends is used), the
    second differs by the factor factor0, then the secant method is used at most max_iter times. *)
Theorem C77_secant : forall P v h r S fuel gtab l k p q x0,
  usable P v h -> density_of P v r S -> p_adapt P = true ->
  nth_error (density (p_bandrescale P) v) 0 = Some x0 -> nth_error (density (p_bandrescale P) v) k = Some p -> nth_error (density (p_bandrescale P) v) (Datatypes.S k) = Some q -> fst p < 1 <= fst q ->
  run P None fuel v = Some (Ok (gtab, l)) ->
  exists A rows, gtab = Some ((2, 1) :: rows) /\
    search (attempt_g P h r) (p_secant_eps P) (p_factor0 P) (Datatypes.S (Z.to_nat (p_max_iter P - 1))) (S (fst p) - S (fst x0) + (1 - fst p) * ((snd q + snd p) / 2)) A rows.
Proof. exact secant_run. Qed.
Print Assumptions C77_secant.

(** The program ends. *)
Theorem C77_ends : forall P v h loaded fuel,
  usable P v h ->
  (p_adapt P = true -> match loaded with Some vg => (2 <= length vg)%nat /\ increasing vg | None => / 10 ^ 10 < p_step P end) ->
  (1 <= fuel)%nat -> p_xmax P + / 10 ^ 10 <= 1 + INR fuel * p_step P -> 0 < p_step P -> run P loaded fuel v <> None.
Proof. exact ends. Qed.
Print Assumptions C77_ends.

(** The program does its work: with steps that are short enough (and a million of them enough for a line) nothing is refused, and the
    file is completed.  The constants depend on Lambda, the density, the gap, xmax and the bound on the values only. *)
Theorem C77_completes : forall Lambda b v gp xmax M,
  1 < Lambda -> 0 < b -> increasing v -> (2 <= length v)%nat -> (forall p, In p v -> 0 < snd p) -> match gp with Some bo => bo <= 1 | None => True end ->
  exists K C, 0 < K /\ 0 < C /\ forall P h loaded fuel,
    p_Lambda P = Lambda -> p_bandrescale P = b -> gap_of P = gp -> p_xmax P = xmax -> p_max_abs P = M -> p_adapt P = false -> set_parameters P = Ok tt ->
    usable P v h -> 0 < p_step P -> h * K <= 1 -> h * C * exp (K * (p_step P + / 10 ^ 10)) <= / 10 ^ 5 -> enough_steps P (p_dx_fine P) -> enough_steps P (p_dx_fast P) ->
    (1 <= fuel)%nat -> xmax + / 10 ^ 10 <= 1 + INR fuel * p_step P -> exists l, run P loaded fuel v = Some (Ok (None, l)).
Proof. exact completes_fixed. Qed.
Print Assumptions C77_completes.

Theorem C77_completes_loaded : forall Lambda b v gp vg gf xmax M,
  1 < Lambda -> 0 < b -> increasing v -> (2 <= length v)%nat -> (forall p, In p v -> 0 < snd p) ->
  increasing vg -> (2 <= length vg)%nat -> nth_error vg 0 = Some (2, 1) -> (forall x, linear_interpolant vg x (gf x)) ->
  (forall x, 1 <= x -> grid Lambda gp gf (x + 1) <= grid Lambda gp gf x) ->
  exists K C, 0 < K /\ 0 < C /\ forall P h fuel,
    p_Lambda P = Lambda -> p_bandrescale P = b -> gap_of P = gp -> p_xmax P = xmax -> p_max_abs P = M -> p_adapt P = true -> set_parameters P = Ok tt ->
    usable P v h -> 0 < p_step P -> h * K <= 1 -> h * C * exp (K * (p_step P + / 10 ^ 10)) <= / 10 ^ 5 -> enough_steps P (p_dx_fine P) -> enough_steps P (p_dx_fast P) ->
    (1 <= fuel)%nat -> xmax + / 10 ^ 10 <= 1 + INR fuel * p_step P -> exists l, run P (Some vg) fuel v = Some (Ok (Some vg, l)).
Proof. exact completes_loaded. Qed.
Print Assumptions C77_completes_loaded.

(** As the steps become shorter the lines of the file converge to the solution of the equation. *)
Theorem C77_converges : forall Lambda b v gp r S Y X,
  1 < Lambda -> 0 < b -> increasing v -> (2 <= length v)%nat -> (forall p, In p v -> 0 < snd p) ->
  (forall x, linear_interpolant (density b v) x (r x)) -> (forall x, derivable_pt_lim S x (r x)) -> 1 <= X -> Y 1 = 1 / Lambda ->
  (forall x, 1 <= x <= X -> derivable_pt_lim Y x (slope_f Lambda r S (grid Lambda gp (fun _ => 1)) x (Y x))) ->
  exists C h0, 0 < h0 /\ forall P h loaded fuel gtab l,
    p_Lambda P = Lambda -> p_bandrescale P = b -> gap_of P = gp -> p_adapt P = false -> usable P v h -> h <= h0 ->
    run P loaded fuel v = Some (Ok (gtab, l)) -> forall x y, In (x, y) l -> x <= X -> Rabs (y - Y x) <= C * h.
Proof. exact converges_fixed. Qed.
Print Assumptions C77_converges.

Theorem C77_converges_loaded : forall Lambda b v gp vg gf r S Y X,
  1 < Lambda -> 0 < b -> increasing v -> (2 <= length v)%nat -> (forall p, In p v -> 0 < snd p) ->
  (forall x, linear_interpolant (density b v) x (r x)) -> (forall x, derivable_pt_lim S x (r x)) ->
  increasing vg -> (2 <= length vg)%nat -> nth_error vg 0 = Some (2, 1) -> (forall x, linear_interpolant vg x (gf x)) -> 1 <= X -> Y 1 = 1 / Lambda ->
  (forall x, 1 <= x <= X -> derivable_pt_lim Y x (slope_f Lambda r S (grid Lambda gp gf) x (Y x))) ->
  exists C h0, 0 < h0 /\ forall P h fuel gtab l,
    p_Lambda P = Lambda -> p_bandrescale P = b -> gap_of P = gp -> p_adapt P = true -> usable P v h -> h <= h0 ->
    run P (Some vg) fuel v = Some (Ok (gtab, l)) -> forall x y, In (x, y) l -> x <= X -> Rabs (y - Y x) <= C * h.
Proof. exact converges_loaded. Qed.
Print Assumptions C77_converges_loaded.

(** The equation: E(x) = Y(x) Lambda^(2-x) obeys E' rho(E) = - (weight between eps(x+1) and eps(x)). *)
Theorem C77_equation : forall Lambda r S e Y x,
  1 < Lambda -> r (Y x * Rpower Lambda (2 - x)) <> 0 -> derivable_pt_lim Y x (slope_f Lambda r S e x (Y x)) ->
  exists D, derivable_pt_lim (fun t => Y t * Rpower Lambda (2 - t)) x D /\ D * r (Y x * Rpower Lambda (2 - x)) = - (S (e x) - S (e (x + 1))).
Proof. exact equation_meaning. Qed.
Print Assumptions C77_equation.

(** The Runge-Kutta formula integrates cubic polynomials exactly and reproduces the exponential function up to the fourth order. *)
Theorem C77_formula : (forall a b c d x y h, rk4 (fun t _ => a + b * t + c * t ^ 2 + d * t ^ 3) x y h =
    (a * (x + h) + b * (x + h) ^ 2 / 2 + c * (x + h) ^ 3 / 3 + d * (x + h) ^ 4 / 4) - (a * x + b * x ^ 2 / 2 + c * x ^ 3 / 3 + d * x ^ 4 / 4)) /\
  forall c x y h, y + rk4 (fun _ u => c * u) x y h = y * (1 + c * h + (c * h) ^ 2 / 2 + (c * h) ^ 3 / 6 + (c * h) ^ 4 / 24).
Proof. exact (conj rk4_cubic rk4_linear). Qed.
Print Assumptions C77_formula.

(** Violated: an output step of zero is accepted, and then the program writes lines for ever. *)
Theorem C77_endless_refuted : forall P v h loaded fuel,
  usable P v h -> p_adapt P = false -> set_parameters P = Ok tt -> p_step P = 0 -> 1 / p_Lambda P <= p_max_abs P -> run P loaded fuel v = None.
Proof. exact endless. Qed.
Print Assumptions C77_endless_refuted.

(** Violated: without subdivisions (max_subdiv = 0, accepted) a first step that is accurate enough stops the program. *)
Theorem C77_no_subdivisions_refuted : forall P v r S loaded fuel,
  increasing v -> (2 <= length v)%nat -> (forall p, In p v -> 0 < snd p) -> 0 < p_bandrescale P -> p_max_subdiv P = 0%Z -> density_of P v r S -> p_adapt P = false ->
  let F := equation P r S (fun _ => 1) in let d := Rmin (p_dx_fine P) (p_step P) in
  Rabs (heun F 1 (1 / p_Lambda P) d - rk4 F 1 (1 / p_Lambda P) d) <= p_allowed P -> (1 <= fuel)%nat -> run P loaded fuel v = Some Throw.
Proof. exact no_subdivision. Qed.
Print Assumptions C77_no_subdivisions_refuted.

(** The hypotheses are met: a flat band, with its exact solution between x = 1 and x = 3/2. *)
Example C77_flat : forall d st n al, 0 <= d -> 0 <= st -> (1 <= n)%Z ->
  usable (flat_params d st n al) flat d /\ density_of (flat_params d st n al) flat (fun _ => 1 / 2) (fun x => x / 2).
Proof. intros. split; [now apply flat_usable | apply flat_density_of]. Qed.
Example C77_flat_solution : flat_Y 1 = 1 / 2 /\
  forall x, 1 <= x <= 3 / 2 -> derivable_pt_lim flat_Y x (slope_f 2 (fun _ => 1 / 2) (fun x => x / 2) (grid 2 None (fun _ => 1)) x (flat_Y x)).
Proof. split; [exact flat_start | exact flat_solution]. Qed.
Example C77_flat_converges : exists C h0, 0 < h0 /\ forall d st n al fuel l, 0 <= d <= h0 -> 0 <= st -> (1 <= n)%Z ->
  run (flat_params d st n al) None fuel flat = Some (Ok (None, l)) -> forall x y, In (x, y) l -> x <= 3 / 2 -> Rabs (y - flat_Y x) <= C * d.
Proof.
  destruct (C77_converges 2 1 flat None (fun _ => 1 / 2) (fun x => x / 2) flat_Y (3 / 2)) as (C & h0 & H0 & H);
    [lra | lra | exact flat_inc | cbn; lia | intros p [<- | [<- | []]]; cbn; lra | exact (proj1 (flat_density_of 0 0 1 0)) | exact (proj2 (flat_density_of 0 0 1 0)) | lra | exact flat_start | exact flat_solution |].
  exists C, h0. split; [exact H0 |]. intros d st n al fuel l Hd Hs Hn. apply H; try reflexivity; [apply flat_usable; [apply Hd | assumption | assumption] | apply Hd].
Qed.
Example C77_flat_endless : set_parameters (flat_params (1 / 100) 0 10 0) = Ok tt /\ forall fuel, run (flat_params (1 / 100) 0 10 0) None fuel flat = None.
Proof.
  assert (A : set_parameters (flat_params (1 / 100) 0 10 0) = Ok tt) by (apply flat_accepted; [lra | exact tiny10]). split; [exact A |]. intros fuel.
  apply (C77_endless_refuted _ _ (1 / 100)); [apply flat_usable; [lra | lra | lia] | reflexivity | exact A | reflexivity | cbn; lra].
Qed.
Example C77_flat_no_subdivisions : exists al, 0 <= al /\ set_parameters (flat_params (1 / 100) (1 / 10) 0 al) = Ok tt /\ forall fuel, (1 <= fuel)%nat -> run (flat_params (1 / 100) (1 / 10) 0 al) None fuel flat = Some Throw.
Proof.
  set (F := equation (flat_params (1 / 100) (1 / 10) 0 0) (fun _ => 1 / 2) (fun x => x / 2) (fun _ => 1)). exists (Rabs (heun F 1 (1 / 2) (Rmin (1 / 100) (1 / 10)) - rk4 F 1 (1 / 2) (Rmin (1 / 100) (1 / 10)))). split; [apply Rabs_pos |]. split; [apply flat_accepted; [lra | exact tiny0] |]. intros fuel Hf.
  apply (C77_no_subdivisions_refuted _ _ (fun _ => 1 / 2) (fun x => x / 2)); [exact flat_inc | cbn; lia | intros p [<- | [<- | []]]; cbn; lra | cbn; lra | reflexivity | apply flat_density_of | reflexivity | apply Rle_refl | exact Hf].
Qed.
(** Completed runs: a flat band, with the fixed grid, and with the adaptive grid, for which also the hypotheses about its table hold. *)
Example C77_flat_runs : (forall loaded, exists l, run (flat0_params false) loaded 501 flat0 = Some (Ok (None, l))) /\ exists gtab l, run (flat0_params true) None 501 flat0 = Some (Ok (gtab, l)).
Proof. split; [exact flat0_fixed | exact flat0_adaptive]. Qed.
Example C77_flat_runs_hypotheses : forall a, usable (flat0_params a) flat0 (/ 10 ^ 8) /\ density_of (flat0_params a) flat0 (fun _ => 1 / 2) (fun x => x / 2) /\ enough_steps (flat0_params a) (/ 10 ^ 8) /\ / 10 ^ 10 < p_step (flat0_params a) /\
  nth_error (density (p_bandrescale (flat0_params a)) flat0) 0 = Some (0, 1 / 2) /\ nth_error (density (p_bandrescale (flat0_params a)) flat0) 1 = Some (1, 1 / 2) /\ fst (0, 1 / 2) < 1 <= fst (1, 1 / 2).
Proof.
  intros a. split; [apply flat0_usable |]. split; [apply flat0_of |]. split; [apply flat0_enough |]. split; [cbn; lra |]. change (p_bandrescale (flat0_params a)) with 1. rewrite flat0_density. split; [reflexivity |]. split; [reflexivity |]. cbn. lra.
Qed.
