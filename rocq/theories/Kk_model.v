(** Model of the Kramers-Kronig tool: /repo/tools/kk/kk.hpp.  Floating-point numbers are real numbers.  The comparison gsl_fcmp, the spline
    (its value f and derivative df) and the integration gsl_integration_qag are arguments; the spline is taken to be defined on
    [-Xmax, Xmax].  None stands for the value NaN.  Not modelled: reading and writing of files (:66-86, :205-232). *)
From Coq Require Import List Reals.
From Verif Require Import Base.
Import ListNotations.
Local Open Scope R_scope.

(** :137 std::sort of pairs (equal pairs are identical, so that there is only one sorted order). *)
Definition pair_le (p q : R * R) : bool :=
  if Rlt_dec (fst p) (fst q) then true else if Rlt_dec (fst q) (fst p) then false else if Rle_dec (snd p) (snd q) then true else false.
Fixpoint insert (p : R * R) (l : list (R * R)) : list (R * R) :=
  match l with [] => [p] | q :: l' => if pair_le p q then p :: l else q :: insert p l' end.
Definition sort (l : list (R * R)) : list (R * R) := fold_right insert [] l.
(** gsl_spline_init refuses arguments that are not strictly increasing. *)
Fixpoint increasing (l : list R) : bool :=
  match l with x :: (y :: _) as l' => if Rlt_dec x y then increasing l' else false | _ => true end.

Section Init.
  Variable (fcmp : R -> R -> R -> bool). (* gsl_fcmp (a, b, epsilon) == 0 *)
  Definition eps_grid : R := 1 / 100000000.
  (** :160-163; i runs from nr to len - 1. *)
  Definition symmetric_from (X : list R) (len nr : nat) : bool :=
    forallb (fun i => fcmp (nth (len - i - 1) X 0) (- nth i X 0) eps_grid) (seq nr (len - nr)).
  (** :135-168 the sorted table.  An Akima spline needs five points (:152-155). *)
  Definition init (im0 : list (R * R)) : res (list (R * R)) :=
    match im0 with
    | [] => Throw
    | _ =>
      let im := sort im0 in
      let len := length im in
      if Nat.odd len then Throw else
      let X := map fst im in
      let Xmin := hd 0 X in
      let Xmax := last X 0 in
      if negb (fcmp (- Xmin) Xmax eps_grid) then Throw else
      if Nat.ltb len 5 then Throw else
      if negb (increasing X) then Throw else
      if negb (symmetric_from X len (Nat.div2 len)) then Throw else
      Ok im
    end.
End Init.

(** gsl_atanh for an argument of absolute value less than 1; NaN (or infinite) otherwise. *)
Definition gsl_atanh (x : R) : option R :=
  if Rlt_dec (Rabs x) 1 then Some (ln ((1 + x) / (1 - x)) / 2) else None.

Section Calc.
  Variables (integr : (R -> R) -> R -> R -> R) (f df : R -> R) (Xmax : R).
  (** :173-181 *)
  Definition fXZ (Z X : R) : R :=
    (if Req_EM_T X Z then df X else (f X - f Z) / (X - Z))
    + (if Req_EM_T (- X) Z then df (- X) else (f (- X) - f Z) / (- X - Z)).
  (** :237-257 *)
  Definition calc (Z : R) : option R :=
    let integral := integr (fXZ Z) 0 Xmax in
    match (if Req_EM_T (Rabs Z) Xmax then Some 0
           else match gsl_atanh (Z / Xmax) with Some a => Some (- f Z * 2 * a) | None => None end) with
    | Some correction => Some ((integral + correction) / PI)
    | None => None
    end.
End Calc.

(** :260-265, :268-275: the table of the transform at the points of the sorted table. *)
Definition kk (fcmp : R -> R -> R -> bool) (integr : (R -> R) -> R -> R -> R) (spline : list (R * R) -> (R -> R) * (R -> R))
    (im0 : list (R * R)) : res (list (R * option R)) :=
  let* im := init fcmp im0 in
  let '(f, df) := spline im in
  let X := map fst im in
  Ok (map (fun x => (x, calc integr f df (last X 0) x)) X).
