(** Abbreviations for the statements about the solver of the discretisation equation, and the data of the examples. *)
From Coq Require Import List ZArith Reals.
From Verif Require Import Base Interp_model Interp_spec Adapt_model Adapt_spec.
Import ListNotations.
Local Open Scope R_scope.

(** Sensible input: increasing frequencies, a positive density, non-negative steps of at most h. *)
Definition usable (P : params) (v : table) (h : R) : Prop :=
  increasing v /\ (2 <= length v)%nat /\ (forall p, In p v -> 0 < snd p) /\ 0 < p_bandrescale P /\
  0 <= p_dx_fine P <= h /\ 0 <= p_dx_fast P <= h /\ 0 <= p_step P /\ (1 <= p_max_subdiv P)%Z.
(** r is the density, S its integral. *)
Definition density_of (P : params) (v : table) (r S : R -> R) : Prop :=
  (forall x, linear_interpolant (density (p_bandrescale P) v) x (r x)) /\ forall x, derivable_pt_lim S x (r x).
Definition gap_of (P : params) : option R := if p_hardgap P then Some (p_boundary P) else None.
(** The equation that is to be solved. *)
Definition equation (P : params) (r S gf : R -> R) : R -> R -> R := slope_f (p_Lambda P) r S (grid (p_Lambda P) (gap_of P) gf).
(** The rest of the file after its first line. *)
Definition f_file (P : params) (h : R) (F : R -> R -> R) (rows : list (R * R)) : Prop :=
  output F h (acceptable F (p_Lambda P) h (p_allowed P) (Z.to_nat (p_max_subdiv P))) (p_step P) (p_xmax P) (fun y => Rabs y <= p_max_abs P) 1 (1, 1 / p_Lambda P) rows.
Definition f_fails (P : params) (h : R) (F : R -> R -> R) : Prop :=
  failure F h (careful F h (p_allowed P) (Z.to_nat (p_max_subdiv P))) (decreasing F (p_Lambda P)) (p_step P) (p_xmax P) (fun y => Rabs y <= p_max_abs P) 1 (1, 1 / p_Lambda P).
Definition g_file (P : params) (h A : R) (r : R -> R) (rows : list (R * R)) : Prop :=
  output (slope_g (p_Lambda P) A r) h (careful (slope_g (p_Lambda P) A r) h (p_allowed P) (Z.to_nat (p_max_subdiv P))) (p_step P) (p_xmax P) (fun _ => True) 2 (2, 1) rows.

(** A line can be completed within a million steps even if each of them is halved as often as allowed: a steps to come as near as
    dx, b further ones to come as near as 1e-10. *)
Definition enough_steps (P : params) (dx : R) : Prop :=
  let n := Z.to_nat (p_max_subdiv P) in
  exists a b : nat, (Z.of_nat (a + b) < 1000000)%Z /\ p_step P + / 10 ^ 10 <= dx + INR a * (dx / 2 ^ n) /\ dx * (1 - / 2 ^ n) ^ b <= / 10 ^ 10.
(** One attempt to find g. *)
Definition attempt_g (P : params) (h : R) (r : R -> R) (A ratio : R) (rows : list (R * R)) : Prop :=
  A <> 0 /\ g_file P h A r rows /\ exists x y, last rows (0, 0) = (x, y) /\ ratio = y / (A / r 0).

(** A flat band of half width 1 and the fixed grid. *)
Definition flat : table := [(/ 10 ^ 10, 1 / 2); (1, 1 / 2)].
Definition flat_params (d step : R) (n : Z) (allowed : R) : params :=
  {| p_Lambda := 2; p_adapt := false; p_hardgap := false; p_boundary := 0; p_bandrescale := 1; p_xmax := 3 / 2; p_xfine := 5; p_step := step; p_dx_fine := d; p_dx_fast := d;
     p_allowed := allowed; p_max_subdiv := n; p_max_abs := 100; p_secant_eps := / 10 ^ 4; p_factor0 := 1 + / 10 ^ 7; p_max_iter := 10 |}.
(** The solution for 1 <= x <= 2: E' = Lambda^(1-x) - 1. *)
Definition flat_E (x : R) : R := 1 - (x - 1) - (Rpower 2 (1 - x) - 1) / ln 2.
Definition flat_Y (x : R) : R := flat_E x * Rpower 2 (x - 2).

(** A flat band given from 0 on, for which every grid is found in one attempt: A = 1/2 and g = 1. *)
Definition flat0 : table := [(0, 1 / 2); (1, 1 / 2)].
Definition flat0_params (adapt : bool) : params :=
  {| p_Lambda := 2; p_adapt := adapt; p_hardgap := false; p_boundary := 0; p_bandrescale := 1; p_xmax := 3 / 2; p_xfine := 5; p_step := / 10 ^ 3; p_dx_fine := / 10 ^ 8; p_dx_fast := / 10 ^ 8;
     p_allowed := / 10 ^ 4; p_max_subdiv := 1; p_max_abs := 100; p_secant_eps := / 10 ^ 4; p_factor0 := 1 + / 10 ^ 7; p_max_iter := 10 |}.
