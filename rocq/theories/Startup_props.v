(** C80: the start of nrg on several processes. *)
From Coq Require Import List ZArith Bool String Lia.
From Verif Require Import Startup_model Startup_spec Startup_proofs.
Import ListNotations.
Local Open Scope list_scope.
Local Open Scope Z_scope.

(** If the check of the libraries succeeds on every process, then whatever the order of their steps, all come to an end of the start
    after at most three steps each, and they agree: all return with the same status (help, or a file missing for the process 0, whatever the others see), or the process 0
    is the master, with the working directory in the right place, and all the others are slaves. *)
Theorem C80_agree : forall (w : world) (n k : nat) (s : state), (forall r, (r < n)%nat -> check w r = true) -> execution w (start n) k s ->
  (k <= 3 * n)%nat /\ (stuck w s -> List.length (processes s) = n /\ forall r x, nth_error (processes s) r = Some x -> outcome w r x).
Proof. exact all_agree. Qed.
Print Assumptions C80_agree.
Example C80_agree_nonvacuous : let w := {| args := ["-w"; "/scratch"]%string; env_workdir := Some "/tmp"%string; has_data := Nat.eqb 0; has_param := Nat.eqb 0; check := fun _ => true |} in
  execution w (start 2) 6 {| processes := [Master "/scratch"; Slave]; handed := Some (-1) |} /\ stuck w {| processes := [Master "/scratch"; Slave]; handed := Some (-1) |}.
Proof.
  intros w. split.
  - eapply Ex_more; [|apply (Step w [Master "/scratch"%string] (Decided (-1)) [] (Some (-1))); reflexivity].
    eapply Ex_more; [|apply (Step w [] (Decided (-1)) [Decided (-1)] (Some (-1))); reflexivity].
    eapply Ex_more; [|apply (Step w [Decided (-1)] Broadcast [] (Some (-1))); reflexivity].
    eapply Ex_more; [|apply (Step w [] Broadcast [Broadcast] None); reflexivity].
    eapply Ex_more; [|apply (Step w [] Begin [Broadcast] None); reflexivity].
    eapply Ex_more; [apply Ex_none|apply (Step w [Begin] Begin [] None); reflexivity].
  - intros t H. inversion H as [a x b h x' h' M E1]. destruct a as [|y [|z [|z' a]]]; try discriminate E1; injection E1; intros; subst; discriminate M.
Qed.

(** Finding: the check is not shared. If it fails on the process 0 but not on another one, the latter waits for ever for the status. *)
Theorem C80_uneven_refuted : forall (w : world) (n k : nat) (s : state) (r : nat) (x : local), check w 0 = false -> check w (S r) = true ->
  execution w (start n) k s -> nth_error (processes s) (S r) = Some x -> (x = Begin \/ x = Broadcast) /\ (stuck w s -> x = Broadcast).
Proof. exact uneven_waits. Qed.
Print Assumptions C80_uneven_refuted.
Example C80_uneven_nonvacuous : let w := {| args := []; env_workdir := None; has_data := fun _ => true; has_param := fun _ => true; check := fun r => negb (Nat.eqb r 0) |} in
  execution w (start 2) 2 {| processes := [Returned 1; Broadcast]; handed := None |} /\ stuck w {| processes := [Returned 1; Broadcast]; handed := None |}.
Proof.
  intros w. split.
  - eapply Ex_more; [|apply (Step w [Returned 1] Begin [] None); reflexivity].
    eapply Ex_more; [apply Ex_none|apply (Step w [] Begin [Begin] None); reflexivity].
  - intros t H. inversion H as [a x b h x' h' M E1]. destruct a as [|y [|z [|z' a]]]; try discriminate E1; injection E1; intros; subst; discriminate M.
Qed.
