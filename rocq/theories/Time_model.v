(** Model of /repo/c++/time_mem.hpp: the timing of sections, the report at the end of a run, the peak of the memory used.
    Times are readings of the steady clock in its ticks; their conversion to double and the printing with three digits are omitted.
    The names of sections are ordered as in std::map<std::string, ...>. *)
From Coq Require Import List ZArith Bool Ascii String.
From Verif Require Import Base.
Import ListNotations.
Local Open Scope list_scope.
Local Open Scope Z_scope.

(** time_mem.hpp:34-39, the members of Timing. *)
Record timing := { start_time : Z; timer : Z; running : bool; sections : list (string * Z) }.
(** 41 *)
Definition fresh (now : Z) : timing := {| start_time := now; timer := 0; running := false; sections := [] |}.
(** 45-49 start *)
Definition start (now : Z) (s : timing) : res timing :=
  let* _ := my_assert (negb (running s)) in
  Ok {| start_time := start_time s; timer := now; running := true; sections := sections s |}.
(** 50-55 stop *)
Definition stop (now : Z) (s : timing) : res (Z * timing) :=
  let* _ := my_assert (running s) in
  Ok (now - timer s, {| start_time := start_time s; timer := timer s; running := false; sections := sections s |}).
(** operator[] and += of the map of 38, in the order of the names *)
Fixpoint map_add (x : string) (d : Z) (m : list (string * Z)) : list (string * Z) :=
  match m with
  | [] => [(x, d)]
  | (y, v) :: t => match String.compare x y with Eq => (y, v + d) :: t | Lt => (x, d) :: m | Gt => (y, v) :: map_add x d t end
  end.
(** 56-58 add *)
Definition add (now : Z) (x : string) (s : timing) : res timing :=
  let* r := stop now s in
  Ok {| start_time := start_time (snd r); timer := timer (snd r); running := running (snd r); sections := map_add x (fst r) (sections (snd r)) |}.

(** 85-97 TimeScope: the constructor starts the timer, the destructor adds the time. An object's life is an event at its beginning
    and one at its end; [open] holds the names of the objects alive, the last one first. An exception of the constructor is the end
    of the sequence. *)
Inductive event := Enter (x : string) (now : Z) | Leave (now : Z).
Fixpoint play (es : list event) (s : timing) (opened : list string) : res (timing * list string) :=
  match es with
  | [] => Ok (s, opened)
  | Enter x now :: t => let* s := start now s in play t s (x :: opened)
  | Leave now :: t => match opened with [] => UB (* no such object *) | x :: o => let* s := add now x s in play t s o end
  end.

(** 66-82 report: the lines, and what is counted under Other. A section is listed if its share is more than 1/100 (the comparison is
    made with the quotient of doubles in the program). *)
Definition listed (all : Z) (p : string * Z) : bool := all <? 100 * snd p.
Fixpoint list_sections (all : Z) (m : list (string * Z)) (sum : Z) : list (string * Z) * Z :=
  match m with
  | [] => ([], sum)
  | p :: t => if listed all p then let '(l, z) := list_sections all t (sum + snd p) in (p :: l, z) else list_sections all t sum
  end.
Definition report (now : Z) (s : timing) : list (string * Z) :=
  let all := now - start_time s in
  let '(l, sum) := list_sections all (sections s) 0 in
  ("All"%string, all) :: l ++ [("Other"%string, all - sum)].

(** 18-27 format_memory_usage on the digits of the number: [i] counts the characters already written. *)
Fixpoint group_from (len i : nat) (w : list ascii) : list ascii :=
  match w with
  | [] => []
  | c :: t => (if negb (Nat.eqb i 0) && Nat.eqb ((len - i) mod 3) 0 then ["'"%char] else []) ++ c :: group_from len (S i) t
  end.
Definition format_memory (digits : list ascii) : list ascii := group_from (List.length digits) 0 digits.

(** 99-107 MemoryStats: the peak after a sequence of readings *)
Definition peak (readings : list Z) : Z := fold_left (fun p m => Z.max p m) readings 0.
