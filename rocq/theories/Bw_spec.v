(** What the tool [bw] is supposed to compute, independently of the model. *)
From Coq Require Import List ZArith Reals Bool Sorting String.
From Verif Require Import Interp_spec.
Import ListNotations.
Local Open Scope R_scope.

Definition rsum (l : list R) : R := fold_right Rplus 0 l.

(** The total weight of the raw data at the frequency [f]. *)
Definition weight_at (l : list (R * R)) (f : R) : R := rsum (map (fun p : R * R => if Req_EM_T (fst p) f then snd p else 0) l).

(** The kernel of Freyn and Florens: a peak at [w], broadened with the width [alpha], seen at [E] on the same side of zero. *)
Definition log_gaussian (alpha w E : R) : R := exp (- Rsqr (ln (E / w) / alpha - alpha / 4)) / (alpha * Rabs E * sqrt PI).

(** The broadened spectrum at [E]: the peaks on the same side of zero contribute. *)
Definition contribution (E : R) (p : (R * R) * R) : R :=
  let '((w, weight), alpha) := p in if Rlt_dec 0 (E * w) then weight * log_gaussian alpha w E else 0.
Definition broadened (peaks : list (R * R)) (b : list R) (E : R) : R := rsum (map (contribution E) (combine peaks b)).

(** The weight of the peaks at positive and at negative frequencies. *)
Definition weight_above (peaks : list (R * R)) : R := rsum (map (fun p : R * R => if Rlt_dec 0 (fst p) then snd p else 0) peaks).
Definition weight_below (peaks : list (R * R)) : R := rsum (map (fun p : R * R => if Rlt_dec (fst p) 0 then snd p else 0) peaks).

(** The integral of the data (w, a) up to the i-th abscissa. *)
Fixpoint integral (w a : list R) (i : nat) : R :=
  match i with
  | O => 0
  | S k => integral w a k + (nth (S k) a 0 + nth k a 0) * (nth (S k) w 0 - nth k w 0) / 2
  end.
(** Its value at zero frequency, between the last negative and the first positive abscissa. *)
Definition integral_at_zero (w a : list R) (z : R) : Prop :=
  exists k, (S k < List.length w)%nat /\ nth k w 0 < 0 < nth (S k) w 0 /\ z = (integral w a k + integral w a (S k)) / 2.
(** The slope of [f] in the doubly logarithmic scale, between the abscissae i-1 and i; 0 where it does not exist. *)
Definition log_slope (w : list R) (f : nat -> R) (i : nat) : R :=
  match i with
  | O => 0
  | S k => if Req_EM_T (Rabs (nth (S k) w 0)) (Rabs (nth k w 0)) then 0
           else if Rlt_dec 0 (f (S k) * f k) then (ln (f (S k) / f k)) / ln (Rabs (nth (S k) w 0 / nth k w 0)) else 0
  end.
(** Eq. (7) of Freyn and Florens, for two slopes. *)
Definition adapted (q b0 s1 s2 : R) : R := b0 * (q / (q + Rabs s1) + q / (q + Rabs s2)) / 2.
(** The new width of a peak at [x], given the spectrum [a] on the mesh [w]: [y]. *)
Definition new_width (q b0 bmin : R) (w a : list R) (x y : R) : Prop :=
  exists z t v, integral_at_zero w a z /\ List.length t = List.length w /\
    (forall i, (i < List.length w)%nat -> nth i t (0, 0) = (nth i w 0,
       if Rlt_dec x 0 then adapted q b0 (log_slope w (integral w a) i) (log_slope w (fun k => integral w a k - z) i)
       else adapted q b0 (log_slope w (fun k => integral w a k - z) i) (log_slope w (fun k => integral w a (List.length w - 1) - integral w a k) i))) /\
    linear_interpolant t x v /\ y = Rmax bmin v.

(** The mesh: the points +-min ratio^k below max, and one more pair beyond max. *)
Definition initial_mesh (min max ratio : R) (m : list R) : Prop :=
  exists n, min * ratio ^ n < max <= min * ratio ^ S n /\ StronglySorted Rlt m /\
    forall x, In x m <-> exists k, ((k <= n)%nat \/ k = S (S n)) /\ Rabs x = min * ratio ^ k.

(** Linear extrapolation from the points 2 and 1 misses the value at the point 0 by a fraction of more than [dyn] of that value. *)
Definition badly_predicted (dyn : R) (p2 p1 p0 : R * R) : Prop :=
  dyn * Rabs (snd p0) < Rabs (snd p0 - (snd p1 + (snd p2 - snd p1) / (fst p2 - fst p1) * (fst p0 - fst p1))).
(** [x] is the geometric mean of two neighbouring points on the same side of zero, which are the outermost ones or between which
    the spectrum is badly predicted from the outside. *)
Definition refinement (dyn : R) (d : list (R * R)) (x : R) : Prop :=
  (exists p q t, d = p :: q :: t /\ x = - sqrt (fst p * fst q)) \/
  (exists p q t, d = t ++ [q; p] /\ x = sqrt (fst p * fst q)) \/
  (exists l p2 p1 p0 t, d = l ++ p2 :: p1 :: p0 :: t /\ fst p0 < 0 /\ badly_predicted dyn p2 p1 p0 /\ x = - sqrt (fst p1 * fst p0)) \/
  (exists l p0 p1 p2 t, d = l ++ p0 :: p1 :: p2 :: t /\ 0 < fst p0 /\ badly_predicted dyn p2 p1 p0 /\ x = sqrt (fst p1 * fst p0)).
(** The mesh for the next pass. *)
Definition next_mesh (dyn : R) (m a m' : list R) : Prop :=
  if Rlt_dec 0 dyn then StronglySorted Rlt m' /\ forall x, In x m' <-> In x m \/ refinement dyn (combine m a) x
  else m' = m.
