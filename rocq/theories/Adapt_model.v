(** Model of the tool [adapt], the solver of the discretisation equation: /repo/tools/adapt/adapt.hpp, with
    /repo/tools/common/lambda.hpp and integrate_trapezoidal_ab of /repo/tools/common/calc.hpp.  The interpolation objects with
    their state and their flag are those of Interp_model.v.
    Numbers are real numbers, without rounding.  A quotient by zero, where the program would go on with infinities or NaN, is [UB],
    which here only means that the model says nothing; the places where the program tests for it are modelled.
    Not modelled: the command line and the reading of the files (C26, C71), messages on the terminal, [report], [Eps] (never
    called).  The build is the default one, in which [assert] does nothing. *)
From Coq Require Import List ZArith Reals Bool.
From Verif Require Import Base Interp_model.
Import ListNotations.
Local Open Scope R_scope.

(** adapt.hpp:41-65: the parameters. *)
Record params := { p_Lambda : R; p_adapt : bool; p_hardgap : bool; p_boundary : R; p_bandrescale : R; p_xmax : R; p_xfine : R;
  p_step : R; p_dx_fine : R; p_dx_fast : R; p_allowed : R; p_max_subdiv : Z; p_max_abs : R; p_secant_eps : R; p_factor0 : R; p_max_iter : Z }.

(** adapt.hpp:292-317 set_parameters: the tests. DBL_EPSILON is 2^-52. *)
Definition set_parameters (P : params) : res unit :=
  if negb (Rltb 1 (p_Lambda P)) then Throw else
  if negb (Rltb 1 (p_xmax P)) then Throw else
  if negb (Rltb 1 (p_xfine P)) then Throw else
  if negb (Rleb (p_step P) 1) then Throw else
  if negb (Rltb (powerRZ 2 (-52)) (p_dx_fine P * powerRZ (1 / 2) (p_max_subdiv P))) then Throw else
  if negb (Rltb 0 (p_max_abs P)) then Throw else Ok tt.

(** lambda.hpp:22-24 *)
Definition logL (P : params) : R := ln (p_Lambda P).
Definition power (P : params) (x : R) : R := Rpower (p_Lambda P) x.

(** The interpolation objects: rho, intrho1, intrho2, g. *)
Record objs := { o_rho : linint; o_int1 : intlinint; o_int2 : intlinint; o_g : linint }.
Definition set_rho (o : objs) (s : linint) : objs := {| o_rho := s; o_int1 := o_int1 o; o_int2 := o_int2 o; o_g := o_g o |}.
Definition set_int1 (o : objs) (s : intlinint) : objs := {| o_rho := o_rho o; o_int1 := s; o_int2 := o_int2 o; o_g := o_g o |}.
Definition set_int2 (o : objs) (s : intlinint) : objs := {| o_rho := o_rho o; o_int1 := o_int1 o; o_int2 := s; o_g := o_g o |}.
Definition set_g (o : objs) (s : linint) : objs := {| o_rho := o_rho o; o_int1 := o_int1 o; o_int2 := o_int2 o; o_g := s |}.
Definition value {A} (r : res (option R * A)) : res (R * A) := let* (v, s) := r in match v with Some y => Ok (y, s) | None => UB end.
Definition rho (x : R) (o : objs) : res (R * objs) := let* (y, s) := value (call x (o_rho o)) in Ok (y, set_rho o s).
Definition intrho1 (x : R) (o : objs) : res (R * objs) := let* (y, s) := value (call_int x (o_int1 o)) in Ok (y, set_int1 o s).
Definition intrho2 (x : R) (o : objs) : res (R * objs) := let* (y, s) := value (call_int x (o_int2 o)) in Ok (y, set_int2 o s).
Definition g (x : R) (o : objs) : res (R * objs) := let* (y, s) := value (call x (o_g o)) in Ok (y, set_g o s).

Definition rhs := R -> R -> objs -> res (R * objs).
Definition quotient (x y : R) : res R := match rdiv x y with Some z => Ok z | None => UB end.

(** adapt.hpp:67-70 rhs_G *)
Definition rhs_G (P : params) (A : R) : rhs := fun x y o =>
  let powL := power P (2 - x) in
  let* (r, o) := rho (y * powL) o in
  let* q := quotient A r in
  Ok (logL P * (y - q), o).

(** adapt.hpp:230 rescale *)
Definition rescale (P : params) (omega : R) : R := (1 - p_boundary P) * omega + p_boundary P.
(** adapt.hpp:232-237 eps *)
Definition eps (P : params) (x : R) (o : objs) : res (R * objs) :=
  let* (gx, o) := if p_adapt P then g x o else Ok (1, o) in
  let epsilon := if Rleb x 2 then 1 else gx * power P (2 - x) in
  Ok (if p_hardgap P then rescale P epsilon else epsilon, o).
(** adapt.hpp:244-259 rhs_F.  The two terms of the difference may be evaluated in any order. *)
Definition rhs_F (P : params) : rhs := fun x y o =>
  let term1 := logL P * y in
  let* (e2, o) := eps P x o in
  let* (i2, o) := intrho2 e2 o in
  let* (e1, o) := eps P (x + 1) o in
  let* (i1, o) := intrho1 e1 o in
  let integral := i2 - i1 in
  let powL := power P (2 - x) in
  let* (r, o) := rho (y * powL) o in
  let denom := powL * r in
  let term2 := if Req_EM_T denom 0 then 0 else integral / denom in
  Ok (term1 - term2, o).

(** adapt.hpp:72-79 rk_step *)
Definition rk_step (f : rhs) (x y dx : R) (o : objs) : res (R * objs) :=
  let* (r1, o) := f x y o in
  let k1 := dx * r1 in
  let* (r2, o) := f (x + dx / 2) (y + k1 / 2) o in
  let k2 := dx * r2 in
  let* (r3, o) := f (x + dx / 2) (y + k2 / 2) o in
  let k3 := dx * r3 in
  let* (r4, o) := f (x + dx) (y + k3) o in
  let k4 := dx * r4 in
  Ok ((k1 + 2 * k2 + 2 * k3 + k4) / 6, o).
(** adapt.hpp:80-85 heun_step *)
Definition heun_step (f : rhs) (x y dx : R) (o : objs) : res (R * objs) :=
  let* (r1, o) := f x y o in
  let k1 := dx * r1 in
  let* (r2, o) := f (x + dx) (y + k1) o in
  let k2 := dx * r2 in
  Ok ((k1 + k2) / 2, o).

(** The members x, y, max_error and the objects. *)
Record state := { s_x : R; s_y : R; s_err : R; s_o : objs }.

(** adapt.hpp:95-132: the loop of timestep.  [left] is the number of subdivisions that are still allowed.  [cnt] is 1 where it is
    compared.  The result: dx, dy, the maximal error and the objects. *)
Fixpoint attempt (P : params) (f : rhs) (x y : R) (left : nat) (dx err : R) (o : objs) : res (R * R * R * objs) :=
  let o := set_rho o (set_flag (o_rho o) false) in
  let* (dy, o) := rk_step f x y dx o in
  match flag (o_rho o), left with
  | true, S left' => attempt P f x y left' (dx / 2) err o
  | _, _ =>
    let* (dy_heun, o) := heun_step f x y dx o in
    let error := Rabs (dy_heun - dy) in
    let err := Rmax err error in
    match flag (o_rho o), left with
    | true, S left' => attempt P f x y left' (dx / 2) err o
    | _, _ =>
      if Rltb (p_allowed P) error then
        match left with S left' => attempt P f x y left' (dx / 2) err o | O => Ok (dx, dy, err, o) end
      else if (2 * p_max_subdiv P <? 1)%Z then Throw else Ok (dx, dy, err, o)
    end
  end.
(** adapt.hpp:87-148 timestep.  For dx = 0 the quotient dy/dx is not a number and both comparisons are false. *)
Definition timestep (P : params) (f : rhs) (check_f : bool) (try_dx : R) (s : state) : res state :=
  let* (r, o) := attempt P f (s_x s) (s_y s) (Z.to_nat (p_max_subdiv P)) try_dx (s_err s) (s_o s) in
  let '(dx, dy, err) := r in
  let too_large := match rdiv dy dx with Some q => Rltb (/ 10 ^ 5) (q - s_y s * logL P) | None => false end in
  if check_f && too_large then Throw else
  Ok {| s_x := s_x s + dx; s_y := s_y s + dy; s_err := err; s_o := o |}.

(** adapt.hpp:150-160 int_with_to: [more] further steps are allowed after the first one. *)
Definition max_diff_x : R := / 10 ^ 10.
Definition max_cnt : nat := Z.to_nat 1000000.
Fixpoint int_with_to (P : params) (f : rhs) (check_f : bool) (dx xf : R) (more : nat) (s : state) : res state :=
  let steplength := if Rltb (s_x s + dx) xf then dx else xf - s_x s in
  let* s := timestep P f check_f steplength s in
  match more with
  | O => Throw
  | S more' => if Rltb max_diff_x (Rabs (s_x s - xf)) then int_with_to P f check_f dx xf more' s else Ok s
  end.

(** adapt.hpp:177-184 and 348-358: the loops over the lines of the output.  [fuel] bounds their number, [None] = still running.
    [bound]: the second condition of calc_f. *)
Fixpoint lines (P : params) (f : rhs) (check_f bound : bool) (fuel : nat) (dx x_st : R) (s : state) : option (res (table * state)) :=
  match fuel with
  | O => None
  | S fuel =>
    let x_st := x_st + p_step P in
    match int_with_to P f check_f dx x_st max_cnt s with
    | Throw => Some Throw
    | UB => Some UB
    | Ok s =>
      let dx := if Rltb (p_xfine P) (s_x s) then p_dx_fast P else dx in
      if Rltb (s_x s) (p_xmax P) && (negb bound || Rleb (Rabs (s_y s)) (p_max_abs P)) then
        match lines P f check_f bound fuel dx x_st s with
        | Some (Ok (l, s')) => Some (Ok ((s_x s, s_y s) :: l, s'))
        | r => r
        end
      else Some (Ok ([(s_x s, s_y s)], s))
    end
  end.

(** adapt.hpp:163-190 shoot_g: the ratio and the table g, which is also the contents of the file GSOL. *)
Definition shoot_g (P : params) (A : R) (fuel : nat) (o : objs) : option (res (R * table * objs)) :=
  match rho 1 o with
  | Throw => Some Throw
  | UB => Some UB
  | Ok (_, o) =>
    match lines P (rhs_G P A) false false fuel (p_dx_fine P) 2 {| s_x := 2; s_y := 1; s_err := 0; s_o := o |} with
    | None => None
    | Some r => Some (
      let* (l, s) := r in
      let* (r0, o) := rho 0 (s_o s) in
      let* factor := quotient A r0 in
      let* ratio := quotient (s_y s) factor in
      Ok (ratio, (2, 1) :: l, o))
    end
  end.

(** adapt.hpp:206-226: the secant method; [more] further iterations are allowed after this one. The result: g, A, objects. *)
Definition converged (P : params) (ratio : R) : bool := Rltb (Rabs (ratio - 1)) (p_secant_eps P).
Fixpoint secant (P : params) (fuel more : nat) (x0 y0 x1 y1 : R) (o : objs) : option (res (table * R * objs)) :=
  match quotient (x1 - x0) (y1 - y0) with
  | Throw => Some Throw
  | UB => Some UB
  | Ok q =>
    let xnew := x1 - q * y1 in
    match shoot_g P xnew fuel o with
    | None => None
    | Some Throw => Some Throw
    | Some UB => Some UB
    | Some (Ok (ratio, vecg, o)) =>
      if converged P ratio then Some (Ok (vecg, xnew, o)) else
      match more with O => Some Throw | S more' => secant P fuel more' x1 y1 xnew (ratio - 1) o end
    end
  end.
(** adapt.hpp:196-227 calc_g *)
Definition calc_g (P : params) (intA : R) (fuel : nat) (o : objs) : option (res (table * R * objs)) :=
  match shoot_g P intA fuel o with
  | None => None
  | Some Throw => Some Throw
  | Some UB => Some UB
  | Some (Ok (ratio1, vecg1, o)) =>
    if converged P ratio1 then Some (Ok (vecg1, intA, o)) else
    let A := if Rltb 1 ratio1 then intA * p_factor0 P else intA / p_factor0 P in
    match shoot_g P A fuel o with
    | None => None
    | Some Throw => Some Throw
    | Some UB => Some UB
    | Some (Ok (ratio2, vecg2, o)) =>
      if converged P ratio2 then Some (Ok (vecg2, A, o)) else
      secant P fuel (Z.to_nat (p_max_iter P - 1)) intA (ratio1 - 1) A (ratio2 - 1) o
    end
  end.

(** adapt.hpp:338-359 calc_f: the contents of the file FSOL. *)
Definition calc_f (P : params) (fuel : nat) (o : objs) : option (res table) :=
  match rho 1 o with
  | Throw => Some Throw
  | UB => Some UB
  | Ok (_, o) =>
    match lines P (rhs_F P) true true fuel (p_dx_fine P) 1 {| s_x := 1; s_y := 1 / p_Lambda P; s_err := 0; s_o := o |} with
    | None => None
    | Some r => Some (let* (l, _) := r in Ok ((1, 1 / p_Lambda P) :: l))
    end
  end.

(** adapt.hpp:32-38 add_zero_point; std::sort of pairs. *)
Definition pair_leb (p q : R * R) : bool := if Rltb (fst p) (fst q) then true else if Rltb (fst q) (fst p) then false else Rleb (snd p) (snd q).
Fixpoint insert (x : R * R) (l : table) : table := match l with [] => [x] | h :: t => if pair_leb x h then x :: l else h :: insert x t end.
Fixpoint sort (l : table) : table := match l with [] => [] | h :: t => insert h (sort t) end.
Definition small : R := / 10 ^ 99.
Definition add_zero_point (v : table) : res table :=
  let* p := front v in
  Ok (sort (if Rltb small (fst p) then v ++ [(small, snd p)] else v)).
(** load.hpp:34-36 rescalevecxy, as called in adapt.hpp:268. *)
Definition rescaled (P : params) (v : table) : res table :=
  let* s := quotient 1 (p_bandrescale P) in
  Ok (map (fun p : R * R => (fst p * s, snd p * p_bandrescale P)) v).
(** load.hpp:56-62 flat_rho *)
Definition flat_rho (gamma : R) : table := [(/ 10 ^ 10, gamma); (1, gamma)].
(** adapt.hpp:260-278 load_init_rho: vecrho and the objects; g has not been constructed yet. *)
Definition load_init_rho (P : params) (v : table) : res (table * objs) :=
  let* v := add_zero_point v in
  let* v := rescaled P v in
  let* r := construct true v in
  let* (_, r) := value (call 0 r) in
  let* (_, r) := value (call 1 r) in
  let* c := cumulative v in
  Ok (v, {| o_rho := r; o_int1 := c; o_int2 := c; o_g := r |}).

(** calc.hpp:27-50 integrate_trapezoidal_ab, without its lower limit, which is not used. *)
Fixpoint ab_loop (b : R) (prev : R * R) (rest : table) (sum : R) : R :=
  match rest with
  | [] => sum
  | p :: t =>
    let yavg := (snd p + snd prev) / 2 in
    let dx := if Rltb (fst prev) b && Rleb (fst p) b then fst p - fst prev else if Rltb (fst prev) b && Rltb b (fst p) then b - fst prev else 0 in
    ab_loop b p t (sum + dx * yavg)
  end.
Definition integrate_ab (v : table) (b : R) : R := match sort v with [] => 0 | p :: t => ab_loop b p t 0 end.

(** adapt.hpp:360-366 run, after set_parameters (constructor, 319-322): the contents of GSOL (if adapt; [loaded] is the table read
    when loadg is set) and of FSOL. *)
Definition run (P : params) (loaded : option table) (fuel : nat) (v : table) : option (res (option table * table)) :=
  match (let* _ := set_parameters P in load_init_rho P v) with
  | Throw => Some Throw
  | UB => Some UB
  | Ok (v, o) =>
    let A := integrate_ab v 1 in
    let finish (vecg : table) (o : objs) : option (res (option table * table)) :=
      match construct true vecg with
      | Throw => Some Throw
      | UB => Some UB
      | Ok s => match calc_f P fuel (set_g o s) with None => None | Some r => Some (let* l := r in Ok (Some vecg, l)) end
      end in
    if p_adapt P then
      match loaded with
      | Some vecg => finish vecg o
      | None =>
        match calc_g P A fuel o with
        | None => None
        | Some Throw => Some Throw
        | Some UB => Some UB
        | Some (Ok (vecg, _, o)) => finish vecg o
        end
      end
    else match calc_f P fuel o with None => None | Some r => Some (let* l := r in Ok (None, l)) end
  end.
