(** Model of the Hilbert-transform tool: /repo/tools/hilb/hilb.hpp.  Floating-point numbers are real numbers; the integration routine of
    GSL (operator() of class integrator, :114-120, which may also throw when the integration fails) and the interpolation (class interpolator) are arguments.  Not modelled: options,
    reading and writing of files. *)
From Coq Require Import List Reals.
From Verif Require Import Base.
Import ListNotations.
Local Open Scope R_scope.

(** :167 *)
Definition sqr (x : R) : R := x * x.
(** :170 *)
Definition imQ (x y B : R) : R := atan ((- B + x) / y) - atan ((B + x) / y).
(** :173 *)
Definition reQ (x y B : R) : R := (- ln (sqr (B - x) + sqr y) + ln (sqr (B + x) + sqr y)) / 2.
(** :176-181 [bandwidth]; front and back of an empty vector: undefined. *)
Definition bandwidth (X : list R) : res R :=
  match X with [] => UB | x0 :: _ => Ok (Rmax (Rabs x0) (Rabs (last X 0))) end.
(** :163 the table's function, zero outside the table. *)
Definition interpolator (spline : R -> R) (Xmin Xmax x : R) : R :=
  if Rle_dec Xmin x then if Rle_dec x Xmax then spline x else 0 else 0.

Section Transform.
  Variables (integr : (R -> R) -> R -> R -> R) (rhor rhoi : R -> R) (B x y lim_direct : R).
  Definition ln1016 : R := - (368 / 10).
  (** :204-233 *)
  Definition calcA (f3p f3m : R -> R) (d : R) : R :=
    let W1 := (x - B) / Rabs y in
    let W2 := (B + x) / Rabs y in
    let '(lim1down, lim1up, lim2down, lim2up, inside) :=
      if Rlt_dec W1 0 then if Rlt_dec 0 W2 then (ln1016, ln (- W1), ln1016, ln W2, true)
                           else if Rlt_dec W2 0 then (ln (- W2), ln (- W1), 1, -1, false) else (1, -1, 1, -1, true)
      else if Rlt_dec 0 W1 then if Rlt_dec 0 W2 then (1, -1, ln W1, ln W2, false) else (1, -1, 1, -1, true)
      else (1, -1, 1, -1, true) in
    let result1 := if Rlt_dec lim1down lim1up then integr f3p lim1down lim1up else 0 in
    let result2 := if Rlt_dec lim2down lim2up then integr f3m lim2down lim2up else 0 in
    let result3 := if inside : bool then d else 0 in
    result1 + result2 + result3.
  (** :235 *)
  Definition calcB (f0 : R -> R) : R := integr f0 (- B) B.
  (** :236 *)
  Definition calc (f3p f3m : R -> R) (d : R) (f0 : R -> R) : R := if Rlt_dec (Rabs y) lim_direct then calcA f3p f3m d else calcB f0.
  (** :239, :242 *)
  Definition ref0 (omega : R) : R := (rhor omega * (x - omega) + rhoi omega * y) / (sqr y + sqr (x - omega)).
  Definition imf0 (omega : R) : R := (rhor omega * - y + rhoi omega * (x - omega)) / (sqr y + sqr (x - omega)).
  (** :245-251 *)
  Definition ref1 (omega : R) : R := ((rhor omega - rhor x) * (x - omega) + (rhoi omega - rhoi x) * y) / (sqr y + sqr (x - omega)).
  Definition ref2 (W : R) : R := Rabs y * ref1 (Rabs y * W + x).
  Definition ref3p (r : R) : R := ref2 (exp r) * exp r.
  Definition ref3m (r : R) : R := ref2 (- exp r) * exp r.
  Definition red : R := rhor x * reQ x y B - rhoi x * imQ x y B.
  (** :254-260 *)
  Definition imf1 (omega : R) : R := ((rhor omega - rhor x) * - y + (rhoi omega - rhoi x) * (x - omega)) / (sqr y + sqr (x - omega)).
  Definition imf2 (W : R) : R := Rabs y * imf1 (Rabs y * W + x).
  Definition imf3p (r : R) : R := imf2 (exp r) * exp r.
  Definition imf3m (r : R) : R := imf2 (- exp r) * exp r.
  Definition imd : R := rhor x * imQ x y B + rhoi x * reQ x y B.
  (** :262 real and imaginary part *)
  Definition hilbert_transform : R * R := (calc ref3p ref3m red ref0, calc imf3p imf3m imd imf0).
End Transform.

(** :270-275: tabulated density of states. *)
Definition hilbert_table integr (Xpts : list R) (splr spli : R -> R) (x y lim_direct : R) : res (R * R) :=
  let* B := bandwidth Xpts in
  let f spl := interpolator spl (hd 0 Xpts) (last Xpts 0) in
  Ok (hilbert_transform integr (f splr) (f spli) B x y lim_direct).
(** :292 density of states of the Bethe lattice *)
Definition Bethe (scale w : R) : R := if Rlt_dec (Rabs (w * scale)) 1 then 2 / PI * scale * sqrt (1 - sqr (w * scale)) else 0.

(** :291-296 *)
Definition hilbert (integr : (R -> R) -> R -> R -> R) (rho : R -> R) (B shiftx shifty x y : R) : R * R :=
  hilbert_transform integr rho (fun _ => 0) B (x + shiftx) (y + shifty) (1 / 1000).
(** :326-342 one line of [do_hilb] *)
Definition do_line (hilbert : R -> R -> R * R) (G : bool) (label1 x label2 y : R) : res ((R * R) * (R * R)) :=
  if Rlt_dec (1 / 1000000) (Rabs (label1 - label2)) then Throw else
  let y1 := Rmin y (- (1 / 100000000)) in
  let res := hilbert (label1 - x) (- y1) in
  let out v := if G then v else v / - PI in
  Ok ((label1, out (fst res)), (label2, out (snd res))).
(** :320-345 [do_hilb]: the lines of the two input files; the lines written, and whether the loop ended without an exception.  The longer
    file is read only as far as the shorter one. *)
Fixpoint do_hilb (hilbert : R -> R -> R * R) (G : bool) (Fr Fi : list (R * R)) : list ((R * R) * (R * R)) * bool :=
  match Fr, Fi with
  | (label1, x) :: Fr1, (label2, y) :: Fi1 =>
    match do_line hilbert G label1 x label2 y with
    | Ok l => let '(ls, ok) := do_hilb hilbert G Fr1 Fi1 in (l :: ls, ok)
    | _ => ([], false)
    end
  | _, _ => ([], true)
  end.
