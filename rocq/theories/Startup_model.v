(** Model of the start of the program nrg under MPI: /repo/c++/nrg.cc:202-254 (help, set_workdir, main).
    Each process runs main up to the choice between the master and the slave part; any interleaving of their steps is possible.
    The messages are omitted; [check r] is the result of prepare_parallel_runtime (openmp.hpp:465-468) on the process r,
    [has_data r] and [has_param r] tell whether it sees the input files (the processes may run on different machines).
    The broadcast of boost::mpi: the root hands in its value and goes on, the others wait for it. *)
From Coq Require Import List ZArith Bool String.
Import ListNotations.
Local Open Scope list_scope.
Local Open Scope Z_scope.

Record world := { args : list string; env_workdir : option string; has_data : nat -> bool; has_param : nat -> bool; check : nat -> bool }.
(** nrg.cc:202-210 help *)
Definition help (a : list string) : bool := match a with x :: _ => String.eqb x "-h" | [] => false end.
(** nrg.cc:212-218 set_workdir: the directory in which the working directory is created *)
Definition set_workdir (w : world) : string :=
  let dir := "."%string in
  let dir := match env_workdir w with Some e => e | None => dir end in
  match args w with [x; d] => if String.eqb x "-w" then d else dir | _ => dir end.
(** nrg.cc:230-240: the status found by the process r (in the program only by the process 0); -1 to continue *)
Definition startup_status (w : world) (r : nat) : Z :=
  if help (args w) then 0 else if negb (has_data w r) then 1 else if negb (has_param w r) then 1 else -1.

(** Where a process is. [Decided v]: after the broadcast. *)
Inductive local := Begin | Broadcast | Decided (v : Z) | Returned (v : Z) | Master (dir : string) | Slave.
Record state := { processes : list local; handed : option Z }.
(** A step of the process r in the place x: its new place and what has been handed in. *)
Definition move (w : world) (r : nat) (x : local) (h : option Z) : option (local * option Z) :=
  match x with
  | Begin => Some (if check w r then Broadcast else Returned 1, h) (* 226 *)
  | Broadcast => match r with
      | O => Some (Decided (startup_status w r), Some (startup_status w r)) (* 230-242 *)
      | S _ => match h with Some v => Some (Decided v, h) | None => None end (* 242 *)
      end
  | Decided v => Some (if negb (Z.eqb v (-1)) then Returned v (* 243 *) else match r with O => Master (set_workdir w) | S _ => Slave end, h) (* 245-252 *)
  | Returned _ | Master _ | Slave => None
  end.
Inductive step (w : world) : state -> state -> Prop :=
| Step a x b h x' h' : move w (List.length a) x h = Some (x', h') ->
    step w {| processes := a ++ x :: b; handed := h |} {| processes := a ++ x' :: b; handed := h' |}.
Definition start (n : nat) : state := {| processes := repeat Begin n; handed := None |}.
(** An execution: its states after the first one. *)
Inductive execution (w : world) : state -> nat -> state -> Prop :=
| Ex_none s : execution w s 0 s
| Ex_more s k t u : execution w s k t -> step w t u -> execution w s (S k) u.
