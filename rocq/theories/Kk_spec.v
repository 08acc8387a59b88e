(** What the Kramers-Kronig tool is to compute. *)
From Coq Require Import List Reals.
From Coquelicot Require Import Coquelicot.
Local Open Scope R_scope.

(** The integral of f(x) / (x - Z) over [-X, X] without the interval (Z - eps, Z + eps). *)
Definition punctured (f : R -> R) (X Z eps : R) : R :=
  RInt (fun x => f x / (x - Z)) (- X) (Z - eps) + RInt (fun x => f x / (x - Z)) (Z + eps) X.
(** v is the principal value of the integral. *)
Definition principal_value (f : R -> R) (X Z v : R) : Prop :=
  forall tol, 0 < tol -> exists eps0, 0 < eps0 /\ forall eps, 0 < eps < eps0 -> Rabs (punctured f X Z eps - v) < tol.

(** f is, on [-X, X], a continuous function (whatever it is elsewhere) whose derivative at Z is d. *)
Definition smooth_at (f : R -> R) (X Z d : R) : Prop :=
  exists g, (forall x, - X <= x <= X -> f x = g x /\ continuous g x) /\ is_derive g Z d.

(** The contract of gsl_fcmp: "equal" means equal within the accuracy. *)
Definition fcmp_contract (fcmp : R -> R -> R -> bool) : Prop :=
  (forall a b eps, 0 <= eps -> fcmp a b eps = true -> Rabs (a - b) <= 2 * eps * Rmax (Rabs a) (Rabs b))
  /\ (forall a b eps, 0 <= eps -> Rabs (a - b) <= eps * Rmax (Rabs a) (Rabs b) -> fcmp a b eps = true).

Definition exact_quadrature (integr : (R -> R) -> R -> R -> R) : Prop :=
  forall f a b, ex_RInt f a b -> integr f a b = RInt f a b.
