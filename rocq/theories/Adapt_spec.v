(** What is claimed of the solver of the discretisation equation. *)
From Coq Require Import List ZArith Reals.
Import ListNotations.
Local Open Scope R_scope.

(** The boundaries of the discretisation intervals, eps(x): 1 up to x = 2, then g(x) Lambda^(2-x); with a gap the interval [0,1] is
    mapped on [boundary,1]. *)
Definition grid (Lambda : R) (gap : option R) (gf : R -> R) (x : R) : R :=
  let e := if Rle_dec x 2 then 1 else gf x * Rpower Lambda (2 - x) in
  match gap with Some b => b + (1 - b) * e | None => e end.

(** The equation for f: with the density r, its integral R and the boundaries e. *)
Definition slope_f (Lambda : R) (r R_ e : R -> R) (x y : R) : R :=
  ln Lambda * y - (R_ (e x) - R_ (e (x + 1))) / (Rpower Lambda (2 - x) * r (y * Rpower Lambda (2 - x))).
(** The equation for g. *)
Definition slope_g (Lambda A : R) (r : R -> R) (x y : R) : R := ln Lambda * (y - A / r (y * Rpower Lambda (2 - x))).

(** The classical Runge-Kutta step of fourth order, and Heun's step of second order. *)
Definition rk4 (F : R -> R -> R) (x y h : R) : R :=
  let k1 := F x y in let k2 := F (x + h / 2) (y + h / 2 * k1) in let k3 := F (x + h / 2) (y + h / 2 * k2) in let k4 := F (x + h) (y + h * k3) in
  h * (k1 + 2 * k2 + 2 * k3 + k4) / 6.
Definition heun (F : R -> R -> R) (x y h : R) : R := h * (F x y + F (x + h) (y + h * F x y)) / 2.

(** A step is short enough if the two formulas agree, or if the longest step has been halved n times. *)
Definition careful (F : R -> R -> R) (h allowed : R) (n : nat) (x y d : R) : Prop := Rabs (heun F x y d - rk4 F x y d) <= allowed \/ d <= h / 2 ^ n.
(** E(x) = y Lambda^(2-x) does not grow, up to a tolerance: its slope is y' - y ln Lambda in units of Lambda^(2-x). *)
Definition decreasing (F : R -> R -> R) (Lambda : R) (x y d : R) : Prop := d <> 0 -> rk4 F x y d / d - y * ln Lambda <= / 10 ^ 5.

Definition acceptable (F : R -> R -> R) (Lambda h allowed : R) (n : nat) (x y d : R) : Prop := careful F h allowed n x y d /\ decreasing F Lambda x y d.

(** n Runge-Kutta steps of lengths between 0 and h, all of them acceptable, from one point to another. *)
Inductive walk (F : R -> R -> R) (h : R) (acc : R -> R -> R -> Prop) : nat -> R * R -> R * R -> Prop :=
| walk_here p : walk F h acc 0 p p
| walk_step n x y d q : 0 <= d <= h -> acc x y d -> walk F h acc n (x + d, y + rk4 F x y d) q -> walk F h acc (S n) (x, y) q.

(** The lines of a file: each reached from the one before, close to the multiples of the step, until the end is reached. *)
Inductive output (F : R -> R -> R) (h : R) (acc : R -> R -> R -> Prop) (step xend : R) (go_on : R -> Prop) : R -> R * R -> list (R * R) -> Prop :=
| out_last n t p x y : walk F h acc n p (x, y) -> (Z.of_nat n <= 1000000)%Z -> t + step - / 10 ^ 10 <= x <= t + step -> ~ (x < xend /\ go_on y) ->
    output F h acc step xend go_on t p [(x, y)]
| out_more n t p x y l : walk F h acc n p (x, y) -> (Z.of_nat n <= 1000000)%Z -> t + step - / 10 ^ 10 <= x <= t + step -> x < xend -> go_on y ->
    output F h acc step xend go_on (t + step) (x, y) l -> output F h acc step xend go_on t p ((x, y) :: l).
(** The two ways in which the file is not completed: at some point a step that is short enough is refused, or there are too many steps
    in one line. *)
Inductive failure (F : R -> R -> R) (h : R) (short sane : R -> R -> R -> Prop) (step xend : R) (go_on : R -> Prop) : R -> R * R -> Prop :=
| fail_refused n t p x y d : walk F h (fun x y d => short x y d /\ sane x y d) n p (x, y) -> x <= t + step -> 0 <= d <= h -> short x y d -> ~ sane x y d ->
    failure F h short sane step xend go_on t p
| fail_long n t p q : walk F h (fun x y d => short x y d /\ sane x y d) n p q -> (1000000 < Z.of_nat n)%Z -> failure F h short sane step xend go_on t p
| fail_later n t p x y : walk F h (fun x y d => short x y d /\ sane x y d) n p (x, y) -> t + step - / 10 ^ 10 <= x <= t + step -> x < xend -> go_on y ->
    failure F h short sane step xend go_on (t + step) (x, y) -> failure F h short sane step xend go_on t p.

(** The density: the data, continued by a constant towards zero, with the frequencies in units of the parameter bandrescale. *)
Definition extended (v : list (R * R)) : list (R * R) :=
  match v with [] => [] | p :: _ => if Rlt_dec (/ 10 ^ 99) (fst p) then (/ 10 ^ 99, snd p) :: v else v end.
Definition density (b : R) (v : list (R * R)) : list (R * R) := map (fun p : R * R => (fst p / b, snd p * b)) (extended v).

(** The secant method: [shot A ratio rows] is one attempt; from two attempts with the ratios a and b the next one is made with the
    zero of the straight line through (A, a-1) and (A', b-1).  At most n attempts; all but the last one are outside of the tolerance. *)
Inductive secant_search (shot : R -> R -> list (R * R) -> Prop) (tol : R) : nat -> R * R -> R * R -> R -> list (R * R) -> Prop :=
| ss_last n p q A ratio rows : snd p <> snd q -> A = fst q - (fst q - fst p) / (snd q - snd p) * (snd q - 1) -> shot A ratio rows -> Rabs (ratio - 1) < tol ->
    secant_search shot tol (S n) p q A rows
| ss_more n p q A ratio rows A' rows' : snd p <> snd q -> A = fst q - (fst q - fst p) / (snd q - snd p) * (snd q - 1) -> shot A ratio rows -> tol <= Rabs (ratio - 1) ->
    secant_search shot tol n q (A, ratio) A' rows' -> secant_search shot tol (S n) p q A' rows'.
Definition search (shot : R -> R -> list (R * R) -> Prop) (tol factor : R) (n : nat) (A1 A : R) (rows : list (R * R)) : Prop :=
  exists ratio1 rows1, shot A1 ratio1 rows1 /\
    (Rabs (ratio1 - 1) < tol /\ A = A1 /\ rows = rows1 \/
     tol <= Rabs (ratio1 - 1) /\ exists A2 ratio2 rows2, (1 < ratio1 /\ A2 = A1 * factor \/ ratio1 <= 1 /\ A2 = A1 / factor) /\ shot A2 ratio2 rows2 /\
       (Rabs (ratio2 - 1) < tol /\ A = A2 /\ rows = rows2 \/ tol <= Rabs (ratio2 - 1) /\ secant_search shot tol n (A1, ratio1) (A2, ratio2) A rows)).
