(** Property theorems C15, C16.  [exec] below is any interleaving of the message-level steps of the master and of the
    [n]-1 workers; [free] says when a send may return (any predicate that holds of an empty channel covers buffered
    and rendezvous sends). *)
From Coq Require Import List ZArith Lia Bool Permutation Arith.
From Verif Require Import Mpi_model Mpi_aux.
Import ListNotations.

(** C15. When the master returns, every task has been solved exactly once and stored under its own label, nothing else
    has been stored, and no message is left over. *)
Theorem C15_every_task_once :
  forall (T A : Type) (teq : forall a b : T, {a = b} + {a <> b}) (ham : T -> @mat A) (solve : @mat A -> @raweigen A) (free : list (@msg T A) -> Prop),
  (forall I, mat_wf (ham I)) -> (forall m, mat_wf m -> mat_wf (vec (solve m))) ->
  forall n tasks, 1 <= n -> forall k s,
  steps teq ham solve free n (length tasks) k (initial n tasks) s -> master s = Returned ->
  Permutation (done s) tasks /\
  (forall I, In I tasks -> result s I = Some (solve (ham I))) /\ (forall I, ~ In I tasks -> result s I = None) /\
  (forall i, 1 <= i < n -> c2w s i = [] /\ c2m s i = []).
Proof. exact @mpi_result. Qed.
Print Assumptions C15_every_task_once.

(** C15. No assertion fails and no process ever receives a message it does not expect. *)
Theorem C15_never_fails :
  forall (T A : Type) (teq : forall a b : T, {a = b} + {a <> b}) (ham : T -> @mat A) (solve : @mat A -> @raweigen A) (free : list (@msg T A) -> Prop),
  (forall I, mat_wf (ham I)) -> (forall m, mat_wf m -> mat_wf (vec (solve m))) ->
  forall n tasks, 1 <= n -> forall k s, steps teq ham solve free n (length tasks) k (initial n tasks) s ->
  master s <> Failed /\ forall i, 1 <= i < n -> worker s i <> WErr.
Proof. exact @mpi_never_fails. Qed.
Print Assumptions C15_never_fails.

(** C15. A worker that is handed a job has no other job. *)
Theorem C15_jobs_go_to_idle_workers :
  forall (T A : Type) (teq : forall a b : T, {a = b} + {a <> b}) (ham : T -> @mat A) (solve : @mat A -> @raweigen A) (free : list (@msg T A) -> Prop),
  (forall I, mat_wf (ham I)) -> (forall m, mat_wf m -> mat_wf (vec (solve m))) ->
  forall n tasks, 1 <= n -> forall k s i I, steps teq ham solve free n (length tasks) k (initial n tasks) s ->
  master s = Sending i (job_msgs ham I) ->
  1 <= i < n /\ c2w s i = [] /\ c2m s i = [] /\ (worker s i = WIdle \/ worker s i = WSend []).
Proof. exact @mpi_dispatch_to_idle. Qed.
Print Assumptions C15_jobs_go_to_idle_workers.

(** C15. Termination without any fairness assumption: executions have bounded length ... *)
Theorem C15_executions_are_bounded :
  forall (T A : Type) (teq : forall a b : T, {a = b} + {a <> b}) (ham : T -> @mat A) (solve : @mat A -> @raweigen A) (free : list (@msg T A) -> Prop),
  (forall I, mat_wf (ham I)) -> (forall m, mat_wf m -> mat_wf (vec (solve m))) ->
  forall n tasks, 1 <= n -> exists B, forall k s, steps teq ham solve free n (length tasks) k (initial n tasks) s -> k <= B.
Proof. exact @mpi_bounded. Qed.
Print Assumptions C15_executions_are_bounded.

(** C15. ... and none stops before the master has returned (no deadlock, for buffered as well as blocking sends). *)
Theorem C15_no_deadlock :
  forall (T A : Type) (teq : forall a b : T, {a = b} + {a <> b}) (ham : T -> @mat A) (solve : @mat A -> @raweigen A) (free : list (@msg T A) -> Prop),
  (forall I, mat_wf (ham I)) -> (forall m, mat_wf m -> mat_wf (vec (solve m))) ->
  forall n tasks, 1 <= n -> free [] -> forall k s, steps teq ham solve free n (length tasks) k (initial n tasks) s ->
  master s <> Returned -> exists s', step teq ham solve free n (length tasks) s s'.
Proof. exact @mpi_progress. Qed.
Print Assumptions C15_no_deadlock.

Example C15_run : forall free : list (@msg nat nat) -> Prop, free [] ->
  exists k s, steps Nat.eq_dec ex_ham ex_solve free 3 4 k (initial 3 [4; 3; 2; 1]) s /\ master s = Returned /\
    result s 2 = Some {| val := [7; 7]; vec := {| size1 := 2; size2 := 2; data := [3; 3; 3; 3] |} |} /\ result s 5 = None.
Proof. exact ex_run. Qed.

(** C15. The row-wise transfer: the pieces have the announced length and together are the matrix. *)
Theorem C15_matrix_pieces : forall (A : Type) (m : @mat A), mat_wf m ->
  concat (map (piece m) (seq 0 (size1 m))) = data m /\ Forall (fun p => length p = size2 m) (map (piece m) (seq 0 (size1 m))).
Proof. exact @transfer_round_trip. Qed.
Print Assumptions C15_matrix_pieces.

(** C16. Serial engine: each task's own result; independent of the order of the tasks. *)
Theorem C16_serial :
  forall (T A : Type) (teq : forall a b : T, {a = b} + {a <> b}) (ham : T -> @mat A) (solve : @mat A -> @raweigen A) tasks,
  (forall I, In I tasks -> serial teq ham solve tasks (fun _ => None) I = Some (solve (ham I))) /\
  (forall I, ~ In I tasks -> serial teq ham solve tasks (fun _ => None) I = None).
Proof. exact @serial_result. Qed.
Print Assumptions C16_serial.
Theorem C16_task_order_is_irrelevant :
  forall (T A : Type) (teq : forall a b : T, {a = b} + {a <> b}) (ham : T -> @mat A) (solve : @mat A -> @raweigen A) tasks tasks',
  Permutation tasks tasks' -> forall I,
  serial teq ham solve tasks (fun _ => None) I = serial teq ham solve tasks' (fun _ => None) I.
Proof. exact @serial_order. Qed.
Print Assumptions C16_task_order_is_irrelevant.

(** C16. Every MPI execution that returns gives the serial result. *)
Theorem C16_mpi_equals_serial :
  forall (T A : Type) (teq : forall a b : T, {a = b} + {a <> b}) (ham : T -> @mat A) (solve : @mat A -> @raweigen A) (free : list (@msg T A) -> Prop),
  (forall I, mat_wf (ham I)) -> (forall m, mat_wf m -> mat_wf (vec (solve m))) ->
  forall n tasks, 1 <= n -> forall k s,
  steps teq ham solve free n (length tasks) k (initial n tasks) s -> master s = Returned ->
  forall I, result s I = serial teq ham solve tasks (fun _ => None) I.
Proof. exact @mpi_equals_serial. Qed.
Print Assumptions C16_mpi_equals_serial.

(** C16. Every schedule of the OpenMP loop gives the serial result, and every schedule finishes. *)
Theorem C16_openmp_equals_serial :
  forall (T A : Type) (teq : forall a b : T, {a = b} + {a <> b}) (ham : T -> @mat A) (solve : @mat A -> @raweigen A) threads tasks s,
  omp_steps teq ham solve threads (omp_initial tasks) s -> omp_finished threads s ->
  forall I, omp_result s I = serial teq ham solve tasks (fun _ => None) I.
Proof. exact @omp_equals_serial. Qed.
Print Assumptions C16_openmp_equals_serial.
Theorem C16_openmp_finishes :
  forall (T A : Type) (teq : forall a b : T, {a = b} + {a <> b}) (ham : T -> @mat A) (solve : @mat A -> @raweigen A) threads,
  (0 < threads)%nat ->
  (forall s, omp_finished threads s \/ exists s', omp_step teq ham solve threads s s') /\
  well_founded (fun s' s => omp_step (A := A) teq ham solve threads s s').
Proof. exact @omp_terminates. Qed.
Print Assumptions C16_openmp_finishes.
