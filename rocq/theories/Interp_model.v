(** Model of the interpolation tables of the tools: /repo/tools/common/linint.hpp (LinIntBase, IntLinIntBase) and
    /repo/tools/common/calc.hpp (integrate_trapezoidal).  The classes LinInt of tools/intavg/intavg.cc:106-208,
    tools/tdavg/tdavg.cc:191-288 and tools/bw/bw.cc:526-602 are copies of LinIntBase without the test of the length and
    without the flag.  Floating-point numbers are real numbers, without rounding; a division by zero gives [None], which
    stands for an infinity or NaN.  [exit(1)] and [throw] of the error policies are [Throw]. *)
From Coq Require Import List ZArith Reals Bool.
From Verif Require Import Base.
Import ListNotations.
Local Open Scope R_scope.

Definition Rleb (x y : R) : bool := if Rle_dec x y then true else false.
Definition Rltb (x y : R) : bool := if Rlt_dec x y then true else false.

(** [Vec] *)
Definition table := list (R * R).

(** vec[i]: an access beyond the end is undefined. *)
Definition at_ (v : table) (i : nat) : res (R * R) := match nth_error v i with Some p => Ok p | None => UB end.
Definition front (v : table) : res (R * R) := at_ v 0.
Definition back (v : table) : res (R * R) := match v with [] => UB | _ => at_ v (length v - 1) end.

(** IEEE division, where the result is not a finite number if the divisor is zero. *)
Definition rdiv (x y : R) : option R := if Req_EM_T y 0 then None else Some (x / y).

(** linint.hpp:14-22: the members. [None] in [index] is -1. *)
Record linint := { vec : table; index : option nat; x0 : R; x1 : R; f0 : R; f1 : R; deriv : option R; flag : bool;
  xmin : R; xmax : R; fxmin : R; fxmax : R }.

Definition set_x (s : linint) (a b : R) : linint :=
  {| vec := vec s; index := index s; x0 := a; x1 := b; f0 := f0 s; f1 := f1 s; deriv := deriv s; flag := flag s;
     xmin := xmin s; xmax := xmax s; fxmin := fxmin s; fxmax := fxmax s |}.
Definition set_index (s : linint) (i : nat) : linint :=
  {| vec := vec s; index := Some i; x0 := x0 s; x1 := x1 s; f0 := f0 s; f1 := f1 s; deriv := deriv s; flag := flag s;
     xmin := xmin s; xmax := xmax s; fxmin := fxmin s; fxmax := fxmax s |}.
Definition set_f (s : linint) (a b : R) (d : option R) : linint :=
  {| vec := vec s; index := index s; x0 := x0 s; x1 := x1 s; f0 := a; f1 := b; deriv := d; flag := flag s;
     xmin := xmin s; xmax := xmax s; fxmin := fxmin s; fxmax := fxmax s |}.
Definition set_flag (s : linint) (b : bool) : linint :=
  {| vec := vec s; index := index s; x0 := x0 s; x1 := x1 s; f0 := f0 s; f1 := f1 s; deriv := deriv s; flag := b;
     xmin := xmin s; xmax := xmax s; fxmin := fxmin s; fxmax := fxmax s |}.

(** linint.hpp:27-37: the constructor.  [check = false]: the copies without the test of the length. *)
Definition construct (check : bool) (v : table) : res linint :=
  if check && (length v <? 2)%nat then Throw else
  let* a := front v in
  let* b := back v in
  Ok {| vec := v; index := None; x0 := 0; x1 := 0; f0 := 0; f1 := 0; deriv := Some 0; flag := false;
        xmin := fst a; xmax := fst b; fxmin := snd a; fxmax := snd b |}.

(** linint.hpp:41-48, 50-57, 59-66: the loops, over the list of the values of [i]. *)
Fixpoint scan (x : R) (is_ : list nat) (s : linint) : res linint :=
  match is_ with
  | [] => Ok s
  | i :: t =>
    let* p := at_ (vec s) i in
    let* q := at_ (vec s) (i + 1) in
    let s := set_x s (fst p) (fst q) in
    if Rleb (fst p) x && Rleb x (fst q) then Ok (set_index s i) else scan x t s
  end.

(** linint.hpp:39-80 *)
Definition findindex (x : R) (s : linint) : res linint :=
  let len := length (vec s) in
  let* s :=
    match index s with
    | None => scan x (seq 0 (len - 1)) s
    | Some k => if Rleb (x1 s) x then scan x (seq (k + 1) (len - 1 - (k + 1))) s else scan x (rev (seq 0 k)) s
    end in
  match index s with
  | None => Throw
  | Some k =>
    if (k <? len)%nat && Rleb (x0 s) x && Rleb x (x1 s) then
      let* p := at_ (vec s) k in
      let* q := at_ (vec s) (k + 1) in
      Ok (set_f s (snd p) (snd q) (rdiv (snd q - snd p) (x1 s - x0 s)))
    else Throw
  end.

(** linint.hpp:85: is x outside of the cached interval? *)
Definition miss (x : R) (s : linint) : bool :=
  match index s with None => true | Some _ => negb (Rleb (x0 s) x && Rltb x (x1 s)) end.

(** linint.hpp:82-91 operator(): the value and the new state. *)
Definition call (x : R) (s : linint) : res (option R * linint) :=
  if Rleb x (xmin s) then Ok (Some (fxmin s), s) else
  if Rleb (xmax s) x then Ok (Some (fxmax s), s) else
  let* s := if miss x s then findindex x (set_flag s true) else Ok s in
  let dx := x - x0 s in
  Ok (match deriv s with Some d => Some (f0 s + d * dx) | None => None end, s).

(** linint.hpp:97-109 IntLinIntBase *)
Record intlinint := { base : linint; intvec : table; intfxmin : R; intfxmax : R }.
Definition construct_int (check : bool) (v iv : table) : res intlinint :=
  let* b := construct check v in
  let* p := front iv in
  let* q := back iv in
  Ok {| base := b; intvec := iv; intfxmin := snd p; intfxmax := snd q |}.

(** linint.hpp:111-118 *)
Definition call_int (x : R) (t : intlinint) : res (option R * intlinint) :=
  let s := base t in
  if Rleb x (xmin s) then Ok (Some (intfxmin t + fxmin s * (x - xmin s)), t) else
  if Rleb (xmax s) x then Ok (Some (intfxmax t + fxmax s * (x - xmax s)), t) else
  let* s := if miss x s then findindex x s else Ok s in
  let dx := x - x0 s in
  match index s with
  | None => UB
  | Some k =>
    let* p := at_ (intvec t) k in
    Ok (match deriv s with Some d => Some (snd p + dx * f0 s + dx * dx * d / 2) | None => None end,
        {| base := s; intvec := intvec t; intfxmin := intfxmin t; intfxmax := intfxmax t |})
  end.

(** A sequence of evaluations of one object. *)
Fixpoint calls (xs : list R) (s : linint) : res (list (option R)) :=
  match xs with
  | [] => Ok []
  | x :: t => let* (y, s') := call x s in let* ys := calls t s' in Ok (y :: ys)
  end.
Fixpoint calls_int (xs : list R) (s : intlinint) : res (list (option R)) :=
  match xs with
  | [] => Ok []
  | x :: t => let* (y, s') := call_int x s in let* ys := calls_int t s' in Ok (y :: ys)
  end.
Definition interpolate (check : bool) (v : table) (xs : list R) : res (list (option R)) :=
  let* s := construct check v in calls xs s.

(** calc.hpp:9-25 integrate_trapezoidal: the new contents of [vec] and the returned sum. The loop overwrites vec[i] for
    i = 1, 2, ... and vec[0] afterwards. A vector of length zero is an out-of-range access (the assert is compiled out in release
    builds). *)
Fixpoint trapezoid_loop (prev : R * R) (rest : table) (sum : R) : table * R :=
  match rest with
  | [] => ([], sum)
  | p :: t =>
    let sum := sum + (fst p - fst prev) * ((snd p + snd prev) / 2) in
    let '(l, s) := trapezoid_loop p t sum in ((fst p, sum) :: l, s)
  end.
Definition integrate_trapezoidal (v : table) : res (table * R) :=
  match v with
  | [] => UB
  | p :: t => let '(l, s) := trapezoid_loop p t 0 in Ok ((fst p, 0) :: l, s)
  end.

(** tools/adapt/adapt.hpp load_init_rho, tools/nrgchain/nrgchain.cc:251-272: the cumulative hybridisation. *)
Definition cumulative (v : table) : res intlinint :=
  let* (iv, _) := integrate_trapezoidal v in construct_int true v iv.
Definition integrals (v : table) (xs : list R) : res (list (option R)) :=
  let* t := cumulative v in calls_int xs t.
