(** The lemmas used in Mpi_props.v, in the form stated there. *)
From Coq Require Import List ZArith Lia Bool Permutation Arith.
From Verif Require Import Mpi_model Mpi_proofs Mpi_global.
Import ListNotations.

Section X.
Context {T A : Type} (teq : forall a b : T, {a = b} + {a <> b}).
Context (ham : T -> @mat A) (solve : @mat A -> @raweigen A) (free : list (@msg T A) -> Prop).
Context (ham_wf : forall I, mat_wf (ham I)) (solve_wf : forall m, mat_wf m -> mat_wf (vec (solve m))).
Context (n : nat) (tasks : list T) (Hn : 1 <= n).
Notation exec := (steps teq ham solve free n (length tasks)).

Lemma mpi_result : forall k s, exec k (initial n tasks) s -> master s = Returned ->
  Permutation (done s) tasks /\
  (forall I, In I tasks -> result s I = Some (solve (ham I))) /\ (forall I, ~ In I tasks -> result s I = None) /\
  (forall i, 1 <= i < n -> c2w s i = [] /\ c2m s i = []).
Proof.
  intros k s H Em. destruct (steps_ok teq ham solve ham_wf solve_wf free _ _ _ _ Hn H) as (job & Hi & _).
  destruct (returned_ok _ _ _ _ _ _ _ Hi Em) as (H1 & H2 & H3). split; [exact H1|]. split; [|split].
  - intros Ix Hin. rewrite H2. now destruct (in_dec teq Ix tasks).
  - intros Ix Hin. rewrite H2. now destruct (in_dec teq Ix tasks).
  - intros i Hr. destruct (H3 i Hr) as (? & ? & _). auto.
Qed.
Lemma mpi_never_fails : forall k s, exec k (initial n tasks) s -> master s <> Failed /\ forall i, 1 <= i < n -> worker s i <> WErr.
Proof.
  intros k s H. destruct (steps_ok teq ham solve ham_wf solve_wf free _ _ _ _ Hn H) as (job & Hi & _).
  eapply never_failed; eauto.
Qed.
Lemma mpi_bounded : exists B, forall k s, exec k (initial n tasks) s -> k <= B.
Proof.
  exists (measure ham solve n (initial n tasks) (fun _ => None)). intros k s H.
  destruct (steps_ok teq ham solve ham_wf solve_wf free _ _ _ _ Hn H) as (job & Hi & Hm). lia.
Qed.
Lemma mpi_progress : free [] -> forall k s, exec k (initial n tasks) s -> master s <> Returned ->
  exists s', step teq ham solve free n (length tasks) s s'.
Proof.
  intros Hf k s H. destruct (steps_ok teq ham solve ham_wf solve_wf free _ _ _ _ Hn H) as (job & Hi & Hm).
  eapply progress; eauto.
Qed.
Lemma mpi_returns : free [] -> exists k s, exec k (initial n tasks) s /\ master s = Returned.
Proof.
  intros Hf. destruct mpi_bounded as [B HB].
  assert (forall d k s, exec k (initial n tasks) s -> B < k + d -> exists k' s', exec k' (initial n tasks) s' /\ master s' = Returned) as G.
  { induction d as [|d IH]; intros k s H Hd.
    - specialize (HB _ _ H). lia.
    - assert (master s = Returned \/ master s <> Returned) as [E|E] by (destruct (master s); auto; right; discriminate); [eauto|].
      destruct (mpi_progress Hf _ _ H E) as [s' Hs]. apply (IH (S k) s'); [econstructor; eauto|lia]. }
  apply (G (S B) 0 (initial n tasks)); [constructor|lia].
Qed.

Lemma job_no_diag : forall I, ~ In MDiag (tl (job_msgs (T := T) ham I)).
Proof.
  intros I. cbn. intros [H|[H|[H|H]]]; try discriminate. apply in_map_iff in H as (x & H & _). discriminate.
Qed.
Lemma mpi_dispatch_to_idle : forall k s i I, exec k (initial n tasks) s -> master s = Sending i (job_msgs ham I) ->
  1 <= i < n /\ c2w s i = [] /\ c2m s i = [] /\ (worker s i = WIdle \/ worker s i = WSend []).
Proof.
  intros k s i I H Em. destruct (steps_ok teq ham solve ham_wf solve_wf free _ _ _ _ Hn H) as (job & [Hl _ _ _ Hm] & _).
  rewrite Em in Hm. destruct Hm as [Hi Hj]. split; [exact Hi|]. pose proof (Hl i Hi) as HL. unfold LV, pend in HL. rewrite Em in HL.
  destruct (Nat.eq_dec i i) as [_|]; [|congruence]. destruct (job i) as [Iy|]; [|congruence]. cbn [L] in HL.
  destruct HL as [(_ & Hcm & _ & pre & HJ & Hw)|(_ & HL & _)]; [|discriminate].
  assert (pre = [] /\ c2w s i = []) as [-> Hcw].
  { destruct (pre ++ c2w s i) as [|m l] eqn:E; [now apply app_eq_nil in E|]. exfalso.
    rewrite app_assoc, E in HJ. apply (job_no_diag Iy). rewrite HJ. cbn [tl app]. apply in_or_app. right. now left. }
  split; [exact Hcw|]. split; [exact Hcm|]. destruct Hw as [Hw|[_ Hw]]; [|auto]. inversion Hw; subst. auto.
Qed.

Lemma mpi_equals_serial : forall k s, exec k (initial n tasks) s -> master s = Returned ->
  forall I, result s I = serial teq ham solve tasks (fun _ => None) I.
Proof.
  intros k s H Em I. destruct (mpi_result k s H Em) as (_ & H1 & H2 & _). rewrite serial_ok.
  destruct (in_dec teq I tasks) as [Hin|Hin]; auto.
Qed.
End X.

Section Y.
Context {T A : Type} (teq : forall a b : T, {a = b} + {a <> b}).
Context (ham : T -> @mat A) (solve : @mat A -> @raweigen A).
Lemma serial_result : forall tasks,
  (forall I, In I tasks -> serial teq ham solve tasks (fun _ => None) I = Some (solve (ham I))) /\
  (forall I, ~ In I tasks -> serial teq ham solve tasks (fun _ => None) I = None).
Proof. intros tasks. split; intros I H; rewrite serial_ok; now destruct (in_dec teq I tasks). Qed.
Lemma serial_order : forall tasks tasks', Permutation tasks tasks' -> forall I,
  serial teq ham solve tasks (fun _ => None) I = serial teq ham solve tasks' (fun _ => None) I.
Proof.
  intros tasks tasks' H I. rewrite !serial_ok. destruct (in_dec teq I tasks) as [A1|A1]; destruct (in_dec teq I tasks') as [A2|A2]; auto; exfalso.
  - apply A2. eapply Permutation_in; eauto.
  - apply A1. eapply Permutation_in; [apply Permutation_sym|]; eauto.
Qed.
Lemma omp_equals_serial : forall threads tasks s, omp_steps teq ham solve threads (omp_initial tasks) s -> omp_finished threads s ->
  forall I, omp_result s I = serial teq ham solve tasks (fun _ => None) I.
Proof. intros threads tasks s H1 H2 I. rewrite serial_ok. eapply omp_ok; eauto. Qed.
Lemma omp_terminates : forall threads, (0 < threads)%nat ->
  (forall s, omp_finished threads s \/ exists s', omp_step teq ham solve threads s s') /\
  well_founded (fun s' s => omp_step (A := A) teq ham solve threads s s').
Proof.
  intros threads Ht. split; [intros s; now apply omp_progress|].
  intros s. remember (omp_measure threads s) as k eqn:E. revert s E.
  induction k as [k IH] using (well_founded_induction lt_wf). intros s E. constructor. intros s' Hs.
  apply (IH (omp_measure threads s')); [|reflexivity]. subst k. eapply omp_decreases; eauto.
Qed.
Lemma transfer_round_trip : forall (m : @mat A), mat_wf m ->
  concat (map (piece m) (seq 0 (size1 m))) = data m /\ Forall (fun p => length p = size2 m) (map (piece m) (seq 0 (size1 m))).
Proof. intros m H. split; [now apply pieces_concat|now apply pieces_forall]. Qed.
End Y.

(** ** A concrete run: three ranks, four sectors of different sizes *)
Definition ex_ham (I : nat) : @mat nat := {| size1 := I; size2 := I; data := repeat I (I * I) |}.
Definition ex_solve (m : @mat nat) : @raweigen nat :=
  {| val := repeat 7 (size1 m); vec := {| size1 := size1 m; size2 := size2 m; data := map S (data m) |} |}.
Lemma ex_ham_wf : forall I, mat_wf (ex_ham I).
Proof. intros. unfold mat_wf. cbn. now rewrite repeat_length. Qed.
Lemma ex_solve_wf : forall m, mat_wf m -> mat_wf (vec (ex_solve m)).
Proof. intros m H. unfold mat_wf in *. cbn. now rewrite map_length. Qed.
Lemma ex_run : forall free : list (@msg nat nat) -> Prop, free [] ->
  exists k s, steps Nat.eq_dec ex_ham ex_solve free 3 4 k (initial 3 [4; 3; 2; 1]) s /\ master s = Returned /\
    result s 2 = Some {| val := [7; 7]; vec := {| size1 := 2; size2 := 2; data := [3; 3; 3; 3] |} |} /\ result s 5 = None.
Proof.
  intros free Hf.
  assert (1 <= 3) as H3 by lia.
  destruct (mpi_returns Nat.eq_dec ex_ham ex_solve free ex_ham_wf ex_solve_wf 3 [4; 3; 2; 1] H3 Hf) as (k & s & H & E).
  exists k, s. split; [exact H|]. split; [exact E|].
  destruct (mpi_result Nat.eq_dec ex_ham ex_solve free ex_ham_wf ex_solve_wf 3 [4; 3; 2; 1] H3 k s H E) as (_ & H1 & H2 & _).
  split.
  - rewrite H1 by (cbn; auto). reflexivity.
  - apply H2. cbn. intuition discriminate.
Qed.
