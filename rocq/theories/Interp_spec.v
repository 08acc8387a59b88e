(** What the interpolation tables are supposed to be, independently of the model. *)
From Coq Require Import List Reals.
Import ListNotations.
Local Open Scope R_scope.

(** The abscissae of the data increase. *)
Definition increasing (v : list (R * R)) : Prop :=
  forall i p q, nth_error v i = Some p -> nth_error v (S i) = Some q -> fst p < fst q.
Definition nondecreasing (v : list (R * R)) : Prop :=
  forall i p q, nth_error v i = Some p -> nth_error v (S i) = Some q -> fst p <= fst q.

(** [y] is the value at [x] of the piecewise linear function through the data, continued by constants on both sides. *)
Definition linear_interpolant (v : list (R * R)) (x y : R) : Prop :=
  (forall p, nth_error v 0 = Some p -> x <= fst p -> y = snd p) /\
  (forall p, nth_error v (length v - 1) = Some p -> fst p <= x -> y = snd p) /\
  (forall i p q, nth_error v i = Some p -> nth_error v (S i) = Some q -> fst p <= x <= fst q ->
    y = snd p + (snd q - snd p) * ((x - fst p) / (fst q - fst p))).

(** [F] is the integral of [f] from [a]. *)
Definition integral_from (a : R) (f F : R -> R) : Prop := F a = 0 /\ forall x, derivable_pt_lim F x (f x).
