(** Property theorems C31. *)
From Coq Require Import List ZArith Reals.
From Verif Require Import Base Interp_model Interp_spec Interp_proofs Interp_aux.
Import ListNotations.
Local Open Scope R_scope.

(** C31. Whatever has been evaluated before, a table of increasing abscissae evaluates to its piecewise linear interpolant;
    no query fails. [check] distinguishes the shared class from its copies in intavg, tdavg and bw. *)
Theorem C31_history_independent : forall check v, increasing v -> (2 <= length v)%nat ->
  exists f, (forall x, linear_interpolant v x (f x)) /\ (forall x y, linear_interpolant v x y -> y = f x) /\
    forall xs, interpolate check v xs = Ok (map (fun x => Some (f x)) xs).
Proof. exact history_form. Qed.
Print Assumptions C31_history_independent.

(** The cumulative table evaluates, in any order, to the integral of the interpolant. *)
Theorem C31_integral : forall v p0, increasing v -> (2 <= length v)%nat -> nth_error v 0 = Some p0 ->
  exists f F, (forall x, linear_interpolant v x (f x)) /\ integral_from (fst p0) f F /\
    forall xs, integrals v xs = Ok (map (fun x => Some (F x)) xs).
Proof. exact integral_form. Qed.
Print Assumptions C31_integral.

(** The trapezoidal rule tabulates that integral at the abscissae and returns its value at the last one. *)
Theorem C31_trapezoidal_rule : forall v p q, increasing v -> (2 <= length v)%nat -> nth_error v (length v - 1) = Some p -> nth_error v 0 = Some q ->
  exists f F iv, (forall x, linear_interpolant v x (f x)) /\ integral_from (fst q) f F /\ integrate_trapezoidal v = Ok (iv, F (fst p)) /\
    map fst iv = map fst v /\ map snd iv = map (fun a => F (fst a)) v.
Proof. exact total_form. Qed.
Print Assumptions C31_trapezoidal_rule.

(** The integral of non-negative data does not decrease. *)
Theorem C31_integral_monotone : forall v a b, increasing v -> (2 <= length v)%nat -> (forall p, In p v -> 0 <= snd p) -> a <= b ->
  exists x y, integrals v [a; b] = Ok [Some x; Some y] /\ x <= y.
Proof. exact mono_form. Qed.
Print Assumptions C31_integral_monotone.

Theorem C31_short_tables_rejected : forall v xs, (length v < 2)%nat -> interpolate true v xs = Throw.
Proof. exact short_form. Qed.
Print Assumptions C31_short_tables_rejected.

(** Increasing abscissae are needed: a step given by two values at one abscissa is accepted, and there the result depends on
    the query before it; it may even not be a number. *)
Theorem C31_repeated_abscissa_refuted : nondecreasing step_table /\
  interpolate true step_table [1] = Ok [Some 0] /\
  interpolate true step_table [1 / 2; 1] = Ok [Some 0; None] /\
  interpolate true step_table [3 / 2; 1] = Ok [Some 1; Some 1].
Proof. exact step_form. Qed.
Print Assumptions C31_repeated_abscissa_refuted.

Example C31_example : increasing tent /\ interpolate true tent [1 / 2; 5; 2; 1 / 2; 1; - 1] = Ok [Some 1; Some 0; Some 1; Some 1; Some 2; Some 0].
Proof. exact (conj tent_increasing tent_values). Qed.
Example C31_example_integral : integrals tent [3; 1; 2; 1 / 2; 5; 1] = Ok [Some 3; Some 1; Some (5 / 2); Some (1 / 4); Some 3; Some 1].
Proof. exact tent_cumulative. Qed.
