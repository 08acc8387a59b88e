(** The MPI diagonalisation engine at the level of individual messages: master scheduler, worker loop, matrix
    transfer.  Also the serial and OpenMP engines.

    Every MPI message is one step of the system; any process may take its next step at any time.  Point-to-point
    messages between two ranks arrive in order (MPI non-overtaking rule); a receive with a tag takes the first
    message with that tag.  A message becomes visible to a probe at an arbitrary time after it was sent: polling may
    report nothing although messages are on their way.  Whether a send returns at once (buffered) or blocks (rendezvous) is left open: a process
    goes on after a send only when the channel content satisfies an arbitrary predicate [free]; all that is known is
    that an empty channel is free.  [diagonalise] is a function of the matrix; failures inside LAPACK or MPI are not
    modelled.  The parameter broadcast at the start of a step (diag_mpi.hpp:46-58) is not modelled. *)
From Coq Require Import List ZArith Lia Bool Permutation Arith.
Import ListNotations.

Section MPI.
Context {T A : Type}.                     (* subspace labels (Invar); scalars *)
Context (teq : forall a b : T, {a = b} + {a <> b}).

(** A matrix as Eigen stores it: sizes and the contiguous block of elements m.data(). *)
Record mat := { size1 : nat; size2 : nat; data : list A }.
Definition mat_wf (m : mat) : Prop := length (data m) = (size1 m * size2 m)%nat.
(** Eigenvalues and eigenvectors, eigen.hpp:264-284 [RawEigen]. *)
Record raweigen := { val : list A; vec : mat }.

Context (ham : T -> mat)                  (* core.hpp:77-103 hamiltonian() *)
        (solve : mat -> raweigen).        (* diag.hpp:603-655 diagonalise() *)

(** diag_mpi.hpp:31 message tags, with the payloads sent with them. *)
Inductive msg :=
| MDiag | MInvar (I : T) | MSize (n : nat) | MPart (row : list A) | MVec (v : list A).
Inductive tag := TDiag | TInvar | TSize | TPart | TVec.
Definition tag_eqb (a b : tag) : bool :=
  match a, b with TDiag, TDiag | TInvar, TInvar | TSize, TSize | TPart, TPart | TVec, TVec => true | _, _ => false end.
Definition tag_of (m : msg) : tag :=
  match m with MDiag => TDiag | MInvar _ => TInvar | MSize _ => TSize | MPart _ => TPart | MVec _ => TVec end.

(** MPI receive with a given source and tag: the first message with that tag; None = would block. *)
Fixpoint recv_tag (t : tag) (ch : list msg) : option (msg * list msg) :=
  match ch with
  | [] => None
  | m :: r => if tag_eqb (tag_of m) t then Some (m, r)
              else match recv_tag t r with Some (x, r') => Some (x, m :: r') | None => None end
  end.

(** diag_mpi.hpp:59-70 [send_matrix]: two sizes, then size1 contiguous pieces of size2 elements. *)
Definition piece (m : mat) (i : nat) : list A := firstn (size2 m) (skipn (i * size2 m) (data m)).
Definition matrix_msgs (m : mat) : list msg :=
  MSize (size1 m) :: MSize (size2 m) :: map (fun i => MPart (piece m i)) (seq 0 (size1 m)).

(** diag_mpi.hpp:71-83 [receive_matrix] as an automaton: what has been received so far. *)
Inductive mrecv := NeedSize1 | NeedSize2 (n1 : nat) | NeedPart (n1 n2 : nat) (got : list (list A)).
Definition mrecv_tag (r : mrecv) : tag := match r with NeedPart _ _ _ => TPart | _ => TSize end.
Definition parts_or_done (n1 n2 : nat) (got : list (list A)) : mrecv + mat :=
  if length got =? n1 then inr {| size1 := n1; size2 := n2; data := concat got |} else inl (NeedPart n1 n2 got).
(** None: unexpected message (a piece whose length differs from the receive count is an MPI truncation error). *)
Definition mrecv_step (r : mrecv) (m : msg) : option (mrecv + mat) :=
  match r, m with
  | NeedSize1, MSize n => Some (inl (NeedSize2 n))
  | NeedSize2 n1, MSize n => Some (parts_or_done n1 n [])
  | NeedPart n1 n2 got, MPart row => if length row =? n2 then Some (parts_or_done n1 n2 (got ++ [row])) else None
  | _, _ => None
  end.

(** diag_mpi.hpp:84-88 and 117-118 [send_raweigen], then the label: the messages of one result. *)
Definition result_msgs (I : T) (e : raweigen) : list msg := MVec (val e) :: matrix_msgs (vec e) ++ [MInvar I].
(** diag_mpi.hpp:146-148: the messages of one job. *)
Definition job_msgs (I : T) : list msg := MDiag :: MInvar I :: matrix_msgs (ham I).

(** Worker: nrg-lib.cc:43-66 [run_nrg_slave_impl] and diag_mpi.hpp:107-119 [slave_diag].
    [WErr]: a message that the worker cannot handle. *)
Inductive wst := WIdle | WInvar | WMatrix (I : T) (r : mrecv) | WSend (ms : list msg) | WErr.
Definition wtag (w : wst) (ch : list msg) : option (msg * list msg) :=
  match w with
  | WIdle => match ch with [] => None | m :: r => Some (m, r) end  (* any_tag *)
  | WInvar => recv_tag TInvar ch
  | WMatrix _ r => recv_tag (mrecv_tag r) ch
  | WSend _ | WErr => None
  end.
Definition wstep (w : wst) (m : msg) : wst :=
  match w, m with
  | WIdle, MDiag => WInvar
  | WInvar, MInvar J => WMatrix J NeedSize1
  | WMatrix J r, _ =>
      match mrecv_step r m with
      | Some (inl r') => WMatrix J r'
      | Some (inr h) => WSend (result_msgs J (solve h))
      | None => WErr
      end
  | _, _ => WErr
  end.

(** Master reading a result, diag_mpi.hpp:89-104 [receive_raweigen], [read_from] (after the probed TAG_VEC message). *)
Inductive rst := RMatrix (v : list A) (r : mrecv) | RInvar (v : list A) (m : mat).
Definition rtag (r : rst) : tag := match r with RMatrix _ r => mrecv_tag r | RInvar _ _ => TInvar end.
Inductive rout := RMore (r : rst) | RDone (I : T) (e : raweigen) | RErr.
Definition rstep (r : rst) (m : msg) : rout :=
  match r, m with
  | RMatrix v r, _ =>
      match mrecv_step r m with
      | Some (inl r') => RMore (RMatrix v r')
      | Some (inr x) => RMore (RInvar v x)
      | None => RErr
      end
  | RInvar v x, MInvar J => RDone J {| val := v; vec := x |}
  | _, _ => RErr
  end.

(** Program counter of the master in [DiagMPI::diagonalisations], diag_mpi.hpp:120-168.
    [Sending i ms]: inside the sends to worker i, [ms] still to be sent (146-148);
    [Poll]: the iprobe loop (151-158); [Final]: the probe loop (161-166);
    [Recv final i r]: inside read_from(i), called from the final loop or from the polling loop;
    [Failed]: a my_assert or an unexpected message. *)
Inductive mst := Sched | Sending (i : nat) (ms : list msg) | Poll | Final | Recv (final : bool) (i : nat) (r : rst) | Returned | Failed.

Record state := {
  todo : list T;                 (* tasks_todo *)
  done : list T;                 (* tasks_done *)
  avail : list nat;              (* nodes_available *)
  result : T -> option raweigen; (* diagnew *)
  master : mst;
  worker : nat -> wst;
  c2w : nat -> list msg;         (* master -> worker i *)
  c2m : nat -> list msg          (* worker i -> master *)
}.

Definition upd {B} (f : nat -> B) (i : nat) (x : B) : nat -> B := fun j => if Nat.eq_dec j i then x else f j.
Definition store (f : T -> option raweigen) (I : T) (e : raweigen) : T -> option raweigen :=
  fun J => if teq J I then Some e else f J.

(** diag_mpi.hpp:124-128 *)
Definition initial (n : nat) (tasks : list T) : state :=
  {| todo := tasks; done := []; avail := seq 0 n; result := fun _ => None; master := Sched;
     worker := fun _ => WIdle; c2w := fun _ => []; c2m := fun _ => [] |}.

Definition set_master (s : state) (m : mst) : state :=
  {| todo := todo s; done := done s; avail := avail s; result := result s; master := m;
     worker := worker s; c2w := c2w s; c2m := c2m s |}.
Definition set_c2w (s : state) (i : nat) (ch : list msg) : state :=
  {| todo := todo s; done := done s; avail := avail s; result := result s; master := master s;
     worker := worker s; c2w := upd (c2w s) i ch; c2m := c2m s |}.
Definition set_c2m (s : state) (i : nat) (ch : list msg) : state :=
  {| todo := todo s; done := done s; avail := avail s; result := result s; master := master s;
     worker := worker s; c2w := c2w s; c2m := upd (c2m s) i ch |}.
Definition set_worker (s : state) (i : nat) (w : wst) : state :=
  {| todo := todo s; done := done s; avail := avail s; result := result s; master := master s;
     worker := upd (worker s) i w; c2w := c2w s; c2m := c2m s |}.

(** misc.hpp:57-69 get_back / get_front on a non-empty container. *)
Definition split_back {B} (d : B) (l : list B) : B * list B := (last l d, removelast l).
Definition split_front {B} (d : B) (l : list B) : B * list B := (hd d l, tl l).

(** diag_mpi.hpp:130-149, one pass of the scheduling loop up to the sends ([d] is any label, used only as the
    default of [hd]/[last] on a non-empty list). *)
Definition schedule (d : T) (s : state) : state :=
  match avail s with
  | [] => set_master s Failed
  | _ =>
      let '(i, nodes) := if negb (length (todo s) =? 1)%nat then split_back 0 (avail s) else (0, avail s) in
      let '(J, rest) := if (i =? 0)%nat then split_back d (todo s) else split_front d (todo s) in
      if (i =? 0)%nat then
        {| todo := rest; done := done s ++ [J]; avail := nodes ++ [0]; result := store (result s) J (solve (ham J));
           master := Poll; worker := worker s; c2w := c2w s; c2m := c2m s |}
      else
        {| todo := rest; done := done s; avail := nodes; result := result s;
           master := Sending i (job_msgs J); worker := worker s; c2w := c2w s; c2m := c2m s |}
  end.

(** diag_mpi.hpp:153-157 and 163-165: the end of read_from and the bookkeeping. *)
Definition finish_read (s : state) (final : bool) (i : nat) (I : T) (e : raweigen) : state :=
  {| todo := todo s; done := done s ++ [I]; avail := if final then avail s else avail s ++ [i];
     result := store (result s) I e; master := if final then Final else Poll;
     worker := worker s; c2w := c2w s; c2m := c2m s |}.

(** One step of the whole system with [n] ranks; [ntasks] = tasks.size(). *)
Context (free : list msg -> Prop).
Inductive step (n ntasks : nat) : state -> state -> Prop :=
(* scheduling loop *)
| st_schedule s d : master s = Sched -> todo s <> [] -> step n ntasks s (schedule d s)
| st_all_scheduled s : master s = Sched -> todo s = [] -> step n ntasks s (set_master s Final)
| st_send s i m ms : master s = Sending i (m :: ms) -> free (c2w s i) ->
    step n ntasks s (set_master (set_c2w s i (c2w s i ++ [m])) (Sending i ms))
| st_sent s i : master s = Sending i [] -> free (c2w s i) -> step n ntasks s (set_master s Poll)
(* polling *)
| st_nothing s : master s = Poll -> step n ntasks s (set_master s Sched)
| st_probe s i v ch : master s = Poll -> (1 <= i < n)%nat -> recv_tag TVec (c2m s i) = Some (MVec v, ch) ->
    step n ntasks s (set_master (set_c2m s i ch) (Recv false i (RMatrix v NeedSize1)))
| st_final_probe s i v ch : master s = Final -> length (done s) <> ntasks -> (1 <= i < n)%nat ->
    recv_tag TVec (c2m s i) = Some (MVec v, ch) ->
    step n ntasks s (set_master (set_c2m s i ch) (Recv true i (RMatrix v NeedSize1)))
| st_return s : master s = Final -> length (done s) = ntasks -> step n ntasks s (set_master s Returned)
| st_recv_more s b i r m ch r' : master s = Recv b i r -> recv_tag (rtag r) (c2m s i) = Some (m, ch) ->
    rstep r m = RMore r' -> step n ntasks s (set_master (set_c2m s i ch) (Recv b i r'))
| st_recv_done s b i r m ch I e : master s = Recv b i r -> recv_tag (rtag r) (c2m s i) = Some (m, ch) ->
    rstep r m = RDone I e -> step n ntasks s (finish_read (set_c2m s i ch) b i I e)
| st_recv_err s b i r m ch : master s = Recv b i r -> recv_tag (rtag r) (c2m s i) = Some (m, ch) ->
    rstep r m = RErr -> step n ntasks s (set_master s Failed)
(* workers *)
| st_worker_recv s i m ch : (1 <= i < n)%nat -> wtag (worker s i) (c2w s i) = Some (m, ch) ->
    step n ntasks s (set_worker (set_c2w s i ch) i (wstep (worker s i) m))
| st_worker_send s i m ms : (1 <= i < n)%nat -> worker s i = WSend (m :: ms) -> free (c2m s i) ->
    step n ntasks s (set_worker (set_c2m s i (c2m s i ++ [m])) i (WSend ms))
| st_worker_sent s i : (1 <= i < n)%nat -> worker s i = WSend [] -> free (c2m s i) ->
    step n ntasks s (set_worker s i WIdle).

Inductive steps (n ntasks : nat) : nat -> state -> state -> Prop :=
| steps_0 s : steps n ntasks 0 s s
| steps_S k s s' s'' : steps n ntasks k s s' -> step n ntasks s' s'' -> steps n ntasks (S k) s s''.

(** diag_serial.hpp:22-30: one task after the other, in the given (decreasing-size) order. *)
Fixpoint serial (tasks : list T) (f : T -> option raweigen) : T -> option raweigen :=
  match tasks with [] => f | J :: r => serial r (store f J (solve (ham J))) end.

(** diag_openmp.hpp:28-52: dynamic schedule; an idle thread takes the next iteration, diagonalises, and stores its
    result in a critical section.  [busy t] is the task thread t is working on. *)
Record omp_state := { next : list T; busy : nat -> option T; omp_result : T -> option raweigen }.
Definition omp_initial (tasks : list T) : omp_state := {| next := tasks; busy := fun _ => None; omp_result := fun _ => None |}.
Inductive omp_step (nth : nat) : omp_state -> omp_state -> Prop :=
| omp_take s t I r : (t < nth)%nat -> busy s t = None -> next s = I :: r ->
    omp_step nth s {| next := r; busy := upd (busy s) t (Some I); omp_result := omp_result s |}
| omp_store s t I : (t < nth)%nat -> busy s t = Some I ->
    omp_step nth s {| next := next s; busy := upd (busy s) t None; omp_result := store (omp_result s) I (solve (ham I)) |}.
Inductive omp_steps (nth : nat) : omp_state -> omp_state -> Prop :=
| omp_refl s : omp_steps nth s s
| omp_more s s' s'' : omp_steps nth s s' -> omp_step nth s' s'' -> omp_steps nth s s''.
(** The implicit barrier at the end of the parallel loop. *)
Definition omp_finished (nth : nat) (s : omp_state) : Prop := next s = [] /\ forall t, (t < nth)%nat -> busy s t = None.

End MPI.
