(** What C73 talks about. *)
From Coq Require Import List Reals Permutation.
From Coquelicot Require Import Coquelicot.
From Verif Require Import Interp_spec.
Import ListNotations.
Local Open Scope R_scope.

(** The sorted form of a table without repeated abscissae. *)
Definition arranged (im v : list (R * R)) : Prop := Permutation v im /\ increasing v.
Definition first_of (v : list (R * R)) : R * R := hd (0, 0) v.
Definition last_of (v : list (R * R)) : R * R := last v (0, 0).
(** The interpolating function: continuous in the range of the table, through all of its points. *)
Definition interpolates (f : R -> R) (v : list (R * R)) : Prop :=
  (forall p, In p v -> f (fst p) = snd p) /\ forall x, fst (first_of v) <= x <= fst (last_of v) -> continuous f x.
(** Integration with an error of at most tol, for functions that are finite in the interval. *)
Definition integrates (qag : (R -> option R) -> R -> R -> option R) (tol : R) : Prop :=
  forall (g : R -> option R) (f : R -> R) a b, a <= b -> (forall x, a <= x <= b -> g x = Some (f x)) -> ex_RInt f a b -> exists v, qag g a b = Some v /\ Rabs (v - RInt f a b) <= tol.
(** The centre of the interval is one of the points at which the integrand is evaluated (Gauss-Kronrod rule with 15 points). *)
Definition uses_centre (qag : (R -> option R) -> R -> R -> option R) : Prop := forall g a b, g ((a + b) / 2) = None -> qag g a b = None.
(** A result within tol of the value. *)
Definition about (r : option R) (tol x : R) : Prop := exists v, r = Some v /\ Rabs (v - x) <= tol.
(** The point of [a, b] nearest to zero. *)
Definition nearest_zero (a b : R) : R := Rmax a (Rmin 0 b).
