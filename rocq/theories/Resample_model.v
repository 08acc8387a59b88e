(** Model of /repo/tools/integ/integ.cc (init, calc, main) and /repo/tools/resample/resample.hpp.
    GSL is an argument: [spline_init] gives the Akima spline of a sorted table or fails; [qag] integrates.  Real numbers without rounding; a
    value that is not a finite number is [None].  The reading of the tables is in Tables_model. *)
From Coq Require Import List ZArith Reals Bool.
From Verif Require Import Base Interp_model Tables_model.
Import ListNotations.
Local Open Scope R_scope.

Section Gsl.
  Variable spline_init : table -> option (R -> R).
  (** A spline with its range. *)
  Record spline := { s_f : R -> R; s_min : R; s_max : R; s_first : R; s_last : R }.
  (** gsl_spline_eval: outside of the range NaN, since the error handler is off. *)
  Definition spline_eval (s : spline) (x : R) : option R := if Rleb (s_min s) x && Rleb x (s_max s) then Some (s_f s x) else None.
  (** integ.cc:150-187 init, resample.hpp:155-182 init *)
  Definition init (im : table) : res spline :=
    match im with
    | [] => Throw
    | _ =>
        let v := sort_pairs R Rltb im in
        let* a := front v in
        let* b := back v in
        match spline_init v with Some f => Ok {| s_f := f; s_min := fst a; s_max := fst b; s_first := snd a; s_last := snd b |} | None => Throw end
    end.

  (** integ.cc:206-217: the integrands *)
  Definition f_neg (s : spline) (X : R) : option R := if Rltb X 0 then spline_eval s X else Some 0.
  Definition f_pos (s : spline) (X : R) : option R := if Rltb 0 X then spline_eval s X else Some 0.
  Definition f_total (s : spline) (X : R) : option R := spline_eval s X.
  Definition f_abs (s : spline) (X : R) : option R := option_map Rabs (spline_eval s X).
  (** 1 / (1 + exp(X / T)); for T = 0 the quotient is infinite, and for X = 0 not a number. *)
  Definition fermi_dirac (T X : R) : option R :=
    if Req_EM_T T 0 then if Rltb X 0 then Some 1 else if Rltb 0 X then Some 0 else None else Some (1 / (1 + exp (X / T))).
  Definition f_fermi (s : spline) (T X : R) : option R :=
    match spline_eval s X, fermi_dirac T X with Some y, Some d => Some (y * d) | _, _ => None end.
  (** integ.cc:235-259 calc and 267-300 main; [qag] reports its failures only on the standard error. *)
  Variable qag : (R -> option R) -> R -> R -> option R.
  Record integrals5 := { i_total : option R; i_pos : option R; i_neg : option R; i_abs : option R; i_fermi : option R }.
  Definition integ (T : R) (im : table) : res integrals5 :=
    let* s := init im in
    let calc f := qag f (s_min s) (s_max s) in
    Ok {| i_total := calc (f_total s); i_pos := calc (f_pos s); i_neg := calc (f_neg s); i_abs := calc (f_abs s); i_fermi := calc (f_fermi s T) |}.
  (** integ.cc:96-102, 294-299: the last of the options decides. *)
  Inductive quantity := Total | Pos | Neg | Abs | Fermi.
  Definition chosen (options : list quantity) : quantity := last options Total.
  Definition printed (q : quantity) (r : integrals5) : option R :=
    match q with Total => i_total r | Pos => i_pos r | Neg => i_neg r | Abs => i_abs r | Fermi => i_fermi r end.

  (** resample.hpp:184-191 resample *)
  Definition resampled (s : spline) (extrapolate : bool) (below above : R) (x : R) : option R :=
    if extrapolate && Rltb x (s_min s) then Some below else if extrapolate && Rltb (s_max s) x then Some above else spline_eval s x.
  (** resample.hpp:77-108 parse_param (options -e, -a, -b), 119-125 the constructor, 142-153 run *)
  Definition resample (extrapolate : bool) (a b : option R) (im grid : table) : res (list (R * option R)) :=
    let* _ := my_assert (extrapolate || negb (match a, b with None, None => false | _, _ => true end)) in
    let* s := init im in
    let below := match a with Some v => v | None => s_first s end in
    let above := match b with Some v => v | None => s_last s end in
    Ok (map (fun p => (fst p, resampled s extrapolate below above (fst p))) grid).
End Gsl.
