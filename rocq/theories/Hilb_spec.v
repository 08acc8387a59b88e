(** What the Hilbert-transform tool is to compute, stated with the complex numbers and the Riemann integral of Coquelicot. *)
From Coq Require Import Reals.
From Coquelicot Require Import Coquelicot.
Local Open Scope R_scope.

(** A complex density of states that is continuous on each of finitely many adjoining intervals covering [a, b]; the values at the end
    points of the intervals do not matter. *)
Inductive piecewise (rhor rhoi : R -> R) : R -> R -> Prop :=
| piece (a b : R) (gr gi : R -> R) : a <= b -> (forall w, a <= w <= b -> continuous gr w /\ continuous gi w) ->
    (forall w, a < w < b -> rhor w = gr w /\ rhoi w = gi w) -> piecewise rhor rhoi a b
| join (a b c : R) : piecewise rhor rhoi a b -> piecewise rhor rhoi b c -> piecewise rhor rhoi a c.

(** rho(w) / (z - w) *)
Definition integrand (rhor rhoi : R -> R) (z : C) (w : R) : C := Cdiv (rhor w, rhoi w) (Cminus z (RtoC w)).
(** The integral of rho(w) / (z - w) over [-B, B]. *)
Definition transform (rhor rhoi : R -> R) (B : R) (z : C) : C :=
  (RInt (fun w => Re (integrand rhor rhoi z w)) (- B) B, RInt (fun w => Im (integrand rhor rhoi z w)) (- B) B).

(** The integration routine gives the integral of every integrable function. *)
Definition exact_integration (integr : (R -> R) -> R -> R -> R) : Prop :=
  forall f a b, ex_RInt f a b -> integr f a b = RInt f a b.

(** A function restricted to [a, b]. *)
Definition zero_outside (a b : R) (f : R -> R) (w : R) : R := if Rle_dec a w then if Rle_dec w b then f w else 0 else 0.
