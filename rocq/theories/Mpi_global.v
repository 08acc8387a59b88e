(** The MPI engine: global invariant, every step decreases a measure, some step is always possible. *)
From Coq Require Import List ZArith Lia Bool Permutation Arith.
From Verif Require Import Mpi_model Mpi_proofs.
Import ListNotations.

Section G.
Context {T A : Type} (teq : forall a b : T, {a = b} + {a <> b}).
Context (ham : T -> @mat A) (solve : @mat A -> @raweigen A).
Context (ham_wf : forall I, mat_wf (ham I)) (solve_wf : forall m, mat_wf m -> mat_wf (vec (solve m))).
Context (free : list (@msg T A) -> Prop).
Notation msg := (@msg T A).
Notation state := (@state T A).
Notation R I := (result_msgs I (solve (ham I))).
Notation J I := (job_msgs ham I).

Definition pend (s : state) (i : nat) : list msg :=
  match master s with Sending j ms => if Nat.eq_dec i j then ms else [] | _ => [] end.
Definition rp (s : state) (i : nat) : option (@rst A) :=
  match master s with Recv _ j r => if Nat.eq_dec i j then Some r else None | _ => None end.
Definition LV (s : state) (job : nat -> option T) (i : nat) : Prop :=
  L ham solve (worker s i) (c2w s i) (c2m s i) (pend s i) (rp s i) (job i).
Definition CV (s : state) (job : nat -> option T) (i : nat) : nat :=
  cost ham solve (worker s i) (c2w s i) (c2m s i) (pend s i) (job i).
Definition o2l (o : option T) : list T := match o with Some x => [x] | None => [] end.
Definition ranks (n : nat) : list nat := seq 1 (n - 1).
Definition outstanding (n : nat) (job : nat -> option T) : list T := flat_map (fun i => o2l (job i)) (ranks n).

Definition phase (m : @mst T A) : nat :=
  match m with Failed | Returned => 0 | Final | Recv true _ _ => 1 | Sched => 2 | Poll | Recv false _ _ => 3 | Sending _ _ => 4 end.
Definition task_cost (Ix : T) : nat := 2 * length (J Ix) + 2 * length (R Ix) + 5.
Definition nsum (l : list nat) : nat := fold_right Nat.add 0 l.
Definition measure (n : nat) (s : state) (job : nat -> option T) : nat :=
  nsum (map task_cost (todo s)) + phase (master s) + nsum (map (CV s job) (ranks n)).

Record Inv (n : nat) (tasks : list T) (s : state) (job : nat -> option T) : Prop := {
  inv_local : forall i, 1 <= i < n -> LV s job i;
  inv_perm : Permutation (todo s ++ done s ++ outstanding n job) tasks;
  inv_res : forall Ix, result s Ix = if in_dec teq Ix (done s) then Some (solve (ham Ix)) else None;
  inv_avail : todo s = [] \/ exists ws, avail s = 0 :: ws /\ NoDup ws /\ forall i, In i ws -> 1 <= i < n /\ job i = None;
  inv_master : match master s with
               | Failed => False
               | Sending i _ => 1 <= i < n /\ job i <> None
               | Recv b i _ => 1 <= i < n /\ job i <> None /\ (b = true -> todo s = [])
               | Final => todo s = []
               | Returned => todo s = [] /\ length (done s) = length tasks
               | _ => True
               end
}.

(** ** Sums and lists over the ranks *)
Lemma in_ranks : forall n i, In i (ranks n) <-> 1 <= i < n.
Proof. intros. unfold ranks. rewrite in_seq. lia. Qed.
Lemma nodup_ranks : forall n, NoDup (ranks n).
Proof. intros. apply seq_NoDup. Qed.
Lemma upd_eq : forall {B} (f : nat -> B) i x, upd f i x i = x.
Proof. intros. unfold upd. now destruct (Nat.eq_dec i i). Qed.
Lemma upd_neq : forall {B} (f : nat -> B) i j x, j <> i -> upd f i x j = f j.
Proof. intros. unfold upd. now destruct (Nat.eq_dec j i). Qed.

Lemma nsum_cons : forall x l, nsum (x :: l) = x + nsum l.
Proof. reflexivity. Qed.
Lemma nsum_change : forall (l : list nat) (f g : nat -> nat) i, NoDup l -> In i l -> (forall j, j <> i -> In j l -> g j = f j) ->
  nsum (map g l) + f i = nsum (map f l) + g i.
Proof.
  induction l as [|a l IH]; intros f g i Hd Hi H; [easy|]. inversion Hd as [|? ? Ha Hd']; subst. cbn [map]. rewrite !nsum_cons. destruct Hi as [->|Hi].
  - assert (map g l = map f l) as -> by (apply map_ext_in; intros j Hj; apply H; [intros ->; contradiction|now right]). lia.
  - assert (g a = f a) as -> by (apply H; [intros ->; contradiction|now left]).
    specialize (IH f g i Hd' Hi (fun j Hj Hin => H j Hj (or_intror Hin))). lia.
Qed.
Lemma nsum_same : forall (l : list nat) (f g : nat -> nat), (forall j, In j l -> g j = f j) -> nsum (map g l) = nsum (map f l).
Proof. intros. f_equal. now apply map_ext_in. Qed.
Lemma nsum_app : forall a b, nsum (a ++ b) = nsum a + nsum b.
Proof. induction a; intros; cbn [app]; [reflexivity|]. rewrite !nsum_cons, IHa. lia. Qed.

Lemma out_upd : forall l (job : nat -> option T) i x, NoDup l -> In i l ->
  exists rest, Permutation (flat_map (fun k => o2l (job k)) l) (o2l (job i) ++ rest) /\
               Permutation (flat_map (fun k => o2l (upd job i x k)) l) (o2l x ++ rest).
Proof.
  induction l as [|a l IH]; intros job i x Hd Hi; [easy|]. inversion Hd as [|? ? Ha Hd']; subst. cbn. destruct Hi as [->|Hi].
  - exists (flat_map (fun k => o2l (job k)) l). split; [reflexivity|]. rewrite upd_eq.
    rewrite (flat_map_concat_map (fun k => o2l (upd job i x k))), (flat_map_concat_map (fun k => o2l (job k))).
    replace (map (fun k => o2l (upd job i x k)) l) with (map (fun k => o2l (job k)) l); [reflexivity|].
    apply map_ext_in. intros j Hj. rewrite upd_neq; [reflexivity|]. intros ->. contradiction.
  - destruct (IH job i x Hd' Hi) as (rest & H1 & H2). exists (o2l (job a) ++ rest).
    assert (a <> i) by (intros ->; contradiction). rewrite (upd_neq job i a) by assumption.
    split; rewrite ?H1, ?H2, !app_assoc; apply Permutation_app_tail, Permutation_app_comm.
Qed.
Lemma outstanding_take : forall n job i Ix, 1 <= i < n -> job i = None ->
  Permutation (outstanding n (upd job i (Some Ix))) (Ix :: outstanding n job).
Proof.
  intros n job i Ix Hi Hj. destruct (out_upd (ranks n) job i (Some Ix) (nodup_ranks n)) as (rest & H1 & H2); [now apply in_ranks|].
  rewrite Hj in H1. cbn in *. unfold outstanding. now rewrite H2, H1.
Qed.
Lemma outstanding_drop : forall n job i Ix, 1 <= i < n -> job i = Some Ix ->
  Permutation (outstanding n job) (Ix :: outstanding n (upd job i None)).
Proof.
  intros n job i Ix Hi Hj. destruct (out_upd (ranks n) job i None (nodup_ranks n)) as (rest & H1 & H2); [now apply in_ranks|].
  rewrite Hj in H1. cbn in *. unfold outstanding. now rewrite H1, H2.
Qed.
Lemma outstanding_in : forall n job i Ix, 1 <= i < n -> job i = Some Ix -> In Ix (outstanding n job).
Proof. intros n job i Ix Hi Hj. apply in_flat_map. exists i. split; [now apply in_ranks|]. rewrite Hj. now left. Qed.
Lemma outstanding_nil : forall n job, outstanding n job = [] -> forall i, 1 <= i < n -> job i = None.
Proof. intros n job H i Hi. destruct (job i) as [Ix|] eqn:E; [|reflexivity]. pose proof (outstanding_in _ _ _ _ Hi E) as K. now rewrite H in K. Qed.
Lemma outstanding_some : forall n job, outstanding n job <> [] -> exists i Ix, 1 <= i < n /\ job i = Some Ix.
Proof.
  intros n job H. destruct (outstanding n job) as [|x l] eqn:E; [congruence|].
  assert (In x (outstanding n job)) as Hin by (rewrite E; now left). apply in_flat_map in Hin as (i & Hi & Hx).
  apply in_ranks in Hi. destruct (job i) as [y|] eqn:Ej; [|easy]. exists i, y. auto.
Qed.

Lemma store_res : forall (r : T -> option raweigen) dn Ix, (forall K, r K = if in_dec teq K dn then Some (solve (ham K)) else None) ->
  forall K, store teq r Ix (solve (ham Ix)) K = if in_dec teq K (dn ++ [Ix]) then Some (solve (ham K)) else None.
Proof.
  intros r dn Ix H K. unfold store. destruct (teq K Ix) as [->|Hne].
  - destruct (in_dec teq Ix (dn ++ [Ix])) as [_|Hn]; [reflexivity|]. exfalso. apply Hn, in_or_app. right. now left.
  - rewrite H. destruct (in_dec teq K dn) as [Hin|Hn]; destruct (in_dec teq K (dn ++ [Ix])) as [Hin'|Hn']; try reflexivity.
    + exfalso. apply Hn', in_or_app. now left.
    + exfalso. apply in_app_or in Hin' as [Hi|[E|[]]]; [contradiction|congruence].
Qed.

(** ** Initial state *)
Lemma inv_initial : forall n tasks, 1 <= n -> Inv n tasks (initial n tasks) (fun _ => None).
Proof.
  intros n tasks Hn. constructor; cbn.
  - intros i Hi. unfold LV, L, pend, rp. cbn. auto 10.
  - assert (outstanding n (fun _ => None) = []) as ->.
    { unfold outstanding. induction (ranks n); cbn; auto. }
    rewrite ?app_nil_r. reflexivity.
  - intros. now destruct (in_dec teq Ix []).
  - right. destruct n as [|n]; [lia|]. exists (seq 1 n). split; [reflexivity|]. split; [apply seq_NoDup|].
    intros i Hi. apply in_seq in Hi. split; [lia|reflexivity].
  - exact Logic.I.
Qed.

(** ** One step *)
Lemma last_removelast : forall {B} (d : B) l, l <> [] -> l = removelast l ++ [last l d].
Proof. intros. now apply app_removelast_last. Qed.

Lemma CV_same_views : forall (s s' : state) job job' i,
  worker s' i = worker s i -> c2w s' i = c2w s i -> c2m s' i = c2m s i -> pend s' i = pend s i -> job' i = job i ->
  CV s' job' i = CV s job i.
Proof. intros. unfold CV. congruence. Qed.
Lemma LV_same_views : forall (s s' : state) job job' i,
  worker s' i = worker s i -> c2w s' i = c2w s i -> c2m s' i = c2m s i -> pend s' i = pend s i -> rp s' i = rp s i -> job' i = job i ->
  LV s job i -> LV s' job' i.
Proof. intros. unfold LV in *. congruence. Qed.

Theorem schedule_ok : forall n tasks s job d, Inv n tasks s job -> master s = Sched -> todo s <> [] ->
  exists job', Inv n tasks (schedule teq ham solve d s) job' /\ measure n (schedule teq ham solve d s) job' < measure n s job.
Proof.
  intros n tasks s job d [Hl Hp Hr Ha Hm] Em Ht. destruct Ha as [Ha|(ws & Ea & Hnd & Hws)]; [contradiction|].
  assert (forall i, pend s i = [] /\ rp s i = None) as Hpr by (intros i; unfold pend, rp; rewrite Em; auto).
  assert (forall x, avail s = x -> x <> [] -> schedule teq ham solve d s =
     let '(i, nodes) := if negb (length (todo s) =? 1)%nat then split_back 0 x else (0, x) in
     let '(Ix, rest) := if (i =? 0)%nat then split_back d (todo s) else split_front d (todo s) in
     if (i =? 0)%nat then
        {| todo := rest; done := done s ++ [Ix]; avail := nodes ++ [0]; result := store teq (result s) Ix (solve (ham Ix));
           master := Poll; worker := worker s; c2w := c2w s; c2m := c2m s |}
      else
        {| todo := rest; done := done s; avail := nodes; result := result s;
           master := Sending i (job_msgs ham Ix); worker := worker s; c2w := c2w s; c2m := c2m s |}) as Hs.
  { intros x <- Hx. unfold schedule. destruct (avail s); [contradiction|reflexivity]. }
  specialize (Hs _ Ea ltac:(discriminate)).
  (* the two outcomes *)
  assert (forall nodes, (removelast (todo s) = [] \/ exists ws', nodes ++ [0] = 0 :: ws' /\ NoDup ws' /\ forall i, In i ws' -> 1 <= i < n /\ job i = None) ->
     let s' := {| todo := removelast (todo s); done := done s ++ [last (todo s) d]; avail := nodes ++ [0];
           result := store teq (result s) (last (todo s) d) (solve (ham (last (todo s) d)));
           master := Poll; worker := worker s; c2w := c2w s; c2m := c2m s |} in
     Inv n tasks s' job /\ measure n s' job < measure n s job) as Hlocal.
  { intros nodes Hn s'. split.
    - constructor; cbn.
      + intros i Hi. eapply LV_same_views; [..|apply Hl; exact Hi]; try reflexivity; unfold pend, rp; cbn; rewrite Em; reflexivity.
      + rewrite <- Hp. rewrite (last_removelast d (todo s) Ht) at 3. rewrite <- !app_assoc. apply Permutation_app_head.
        rewrite !app_assoc. apply Permutation_app_tail, Permutation_app_comm.
      + now apply store_res.
      + exact Hn.
      + exact Logic.I.
    - unfold measure. cbn [todo master phase s']. rewrite Em. cbn [phase].
      rewrite (last_removelast d (todo s) Ht) at 2. rewrite map_app, nsum_app. cbn [map]. rewrite nsum_cons.
      assert (nsum (map (CV s' job) (ranks n)) = nsum (map (CV s job) (ranks n))) as ->.
      { apply nsum_same. intros i Hi. apply CV_same_views; try reflexivity. unfold pend; cbn; rewrite Em; reflexivity. }
      unfold task_cost. lia. }
  destruct (length (todo s) =? 1) eqn:E1; cbn [negb] in Hs.
  - (* a single task left *)
    cbn [Nat.eqb] in Hs. unfold split_back in Hs. rewrite Hs. exists job. apply (Hlocal (0 :: ws)). left.
    apply Nat.eqb_eq in E1. destruct (todo s) as [|x [|y l]]; try discriminate. reflexivity.
  - unfold split_back, split_front in Hs. destruct ws as [|w0 ws0].
    + cbn [last removelast Nat.eqb] in Hs. rewrite Hs. exists job. apply (Hlocal []). right. exists []. repeat split; [constructor|easy..].
    + set (ws := w0 :: ws0) in *.
      assert (last (0 :: ws) 0 = last ws 0 /\ removelast (0 :: ws) = 0 :: removelast ws) as [El Er] by (split; reflexivity).
      rewrite El, Er in Hs. set (i := last ws 0) in *.
      assert (ws = removelast ws ++ [i]) as Hwsl by (apply last_removelast; discriminate).
      assert (In i ws) as Hin by (rewrite Hwsl; apply in_or_app; right; now left).
      clearbody i. destruct (Hws i Hin) as [Hi Hji].
      destruct (i =? 0) eqn:Ei; [apply Nat.eqb_eq in Ei; lia|].
      set (Ix := hd d (todo s)) in *. set (s' := {| todo := tl (todo s); done := _ |}) in Hs. rewrite Hs.
      assert (todo s = Ix :: tl (todo s)) as Etodo by (unfold Ix; destruct (todo s); [contradiction|reflexivity]).
      exists (upd job i (Some Ix)). 
      assert (LV s job i) as HLi by (apply Hl; exact Hi). unfold LV, L in HLi. rewrite Hji in HLi.
      destruct HLi as (Hc1 & Hc2 & _ & _ & Hw).
      split.
      * constructor.
        -- intros k Hk. destruct (Nat.eq_dec k i) as [->|Hne].
           ++ unfold LV. unfold L. rewrite upd_eq. left. unfold s'. cbn [worker c2w c2m]. unfold rp, pend. cbn [master].
              destruct (Nat.eq_dec i i) as [_|]; [|congruence]. rewrite Hc1. cbn [app]. repeat split; [exact Hc2|discriminate|].
              exists []. split; [reflexivity|]. destruct Hw as [-> | ->]; [left; constructor|right; auto].
           ++ eapply LV_same_views; [..|apply Hl; exact Hk]; try reflexivity.
              ** unfold pend. cbn. rewrite Em. destruct (Nat.eq_dec k i); [congruence|reflexivity].
              ** unfold rp. cbn. rewrite Em. reflexivity.
              ** apply upd_neq. exact Hne.
        -- rewrite (outstanding_take n job i Ix Hi Hji). unfold s'. cbn [todo done]. rewrite <- Hp. rewrite Etodo at 2.
           rewrite !app_assoc. symmetry. apply Permutation_cons_app. reflexivity.
        -- exact Hr.
        -- right. exists (removelast ws). split; [reflexivity|]. rewrite Hwsl in Hnd. apply NoDup_remove in Hnd as [Hnd1 Hnd2].
           rewrite app_nil_r in Hnd1, Hnd2. split; [exact Hnd1|]. intros k Hk. destruct (Hws k) as [H1 H2].
           { rewrite Hwsl. apply in_or_app. now left. }
           split; [exact H1|]. rewrite upd_neq; [exact H2|]. intros ->. contradiction.
        -- unfold s'. cbn [master]. rewrite upd_eq. split; [exact Hi|discriminate].
      * unfold measure. unfold s' at 1 2. cbn [todo master phase]. rewrite Em. cbn [phase]. rewrite Etodo at 2. cbn [map]. rewrite nsum_cons.
        pose proof (nsum_change (ranks n) (CV s job) (CV s' (upd job i (Some Ix))) i (nodup_ranks n)) as Hsum.
        rewrite in_ranks in Hsum. specialize (Hsum Hi).
        assert (forall k, k <> i -> In k (ranks n) -> CV s' (upd job i (Some Ix)) k = CV s job k) as Hsame.
        { intros k Hk _. apply CV_same_views; try reflexivity; [|now apply upd_neq].
          unfold pend. cbn. rewrite Em. destruct (Nat.eq_dec k i); [congruence|reflexivity]. }
        specialize (Hsum Hsame).
        assert (CV s' (upd job i (Some Ix)) i <= CV s job i + 2 * length (J Ix) + 2 * length (R Ix) + 2) as Hc.
        { unfold CV. rewrite upd_eq. unfold s'. cbn [worker c2w c2m]. unfold pend. cbn [master].
          destruct (Nat.eq_dec i i) as [_|]; [|congruence]. rewrite Hji. unfold cost. rewrite Hc1, Hc2. cbn [app length].
          destruct (J Ix); cbn [length]; lia. }
        unfold task_cost at 2. lia.
Qed.

(** A step that changes only the master's program counter and one worker's view. *)
Lemma change_one : forall n tasks (s s' : state) job i, Inv n tasks s job -> 1 <= i < n ->
  todo s' = todo s -> done s' = done s -> avail s' = avail s -> result s' = result s ->
  (forall k, k <> i -> worker s' k = worker s k /\ c2w s' k = c2w s k /\ c2m s' k = c2m s k /\ pend s' k = pend s k /\ rp s' k = rp s k) ->
  LV s' job i ->
  match master s' with
  | Failed => False
  | Sending i _ => 1 <= i < n /\ job i <> None
  | Recv b i _ => 1 <= i < n /\ job i <> None /\ (b = true -> todo s = [])
  | Final => todo s = []
  | Returned => todo s = [] /\ length (done s) = length tasks
  | _ => True
  end ->
  phase (master s') + CV s' job i < phase (master s) + CV s job i ->
  Inv n tasks s' job /\ measure n s' job < measure n s job.
Proof.
  intros n tasks s s' job i [Hl Hp Hr Ha Hm] Hi Et Ed Ea Er Hk HL HM Hc. split.
  - constructor; try rewrite Et; try rewrite Ed; try rewrite Ea; try rewrite Er; auto.
    intros k Hkn. destruct (Nat.eq_dec k i) as [->|Hne]; [exact HL|]. destruct (Hk k Hne) as (? & ? & ? & ? & ?).
    eapply LV_same_views; [..|apply Hl; exact Hkn]; auto.
  - unfold measure. rewrite Et.
    pose proof (nsum_change (ranks n) (CV s job) (CV s' job) i (nodup_ranks n) (proj2 (in_ranks n i) Hi)) as Hsum.
    assert (forall k, k <> i -> In k (ranks n) -> CV s' job k = CV s job k) as Hsame.
    { intros k Hne _. destruct (Hk k Hne) as (? & ? & ? & ? & ?). apply CV_same_views; auto. }
    specialize (Hsum Hsame). lia.
Qed.
(** A step that changes no worker's view. *)
Lemma change_none : forall n tasks (s : state) job m, Inv n tasks s job ->
  (forall k, pend (set_master s m) k = pend s k /\ rp (set_master s m) k = rp s k) ->
  match m with
  | Failed => False
  | Sending i _ => 1 <= i < n /\ job i <> None
  | Recv b i _ => 1 <= i < n /\ job i <> None /\ (b = true -> todo s = [])
  | Final => todo s = []
  | Returned => todo s = [] /\ length (done s) = length tasks
  | _ => True
  end ->
  phase m < phase (master s) ->
  Inv n tasks (set_master s m) job /\ measure n (set_master s m) job < measure n s job.
Proof.
  intros n tasks s job m [Hl Hp Hr Ha Hm] Hk HM Hc. split.
  - constructor; auto. intros k Hkn. destruct (Hk k). eapply LV_same_views; [..|apply Hl; exact Hkn]; auto.
  - unfold measure. cbn [todo master set_master].
    assert (nsum (map (CV (set_master s m) job) (ranks n)) = nsum (map (CV s job) (ranks n))) as ->; [|lia].
    apply nsum_same. intros k _. destruct (Hk k). apply CV_same_views; auto.
Qed.

Local Arguments cost : simpl never.
Local Arguments CV : simpl never.
Local Arguments result_msgs : simpl never.
Local Arguments job_msgs : simpl never.
Local Arguments matrix_msgs : simpl never.
Ltac views := let k := fresh "k" in let Hk := fresh "Hk" in
  intros k Hk; unfold pend, rp; cbn; rewrite ?upd_neq by assumption;
  repeat match goal with H : master _ = _ |- _ => rewrite H end;
  repeat match goal with |- context [Nat.eq_dec k ?x] => destruct (Nat.eq_dec k x); [congruence|] end; auto.
Ltac eqself i := destruct (Nat.eq_dec i i) as [_|]; [|congruence].

Theorem step_ok : forall n tasks s s' job, Inv n tasks s job -> step teq ham solve free n (length tasks) s s' ->
  exists job', Inv n tasks s' job' /\ measure n s' job' < measure n s job.
Proof.
  intros n tasks s s' job Hinv Hstep. pose proof Hinv as [Hl Hp Hr Ha Hm]. destruct Hstep as
   [s d Em Ht | s Em Ht | s i m ms Em Hf | s i Em Hf | s Em | s i v ch Em Hi Hrecv | s i v ch Em Hd Hi Hrecv | s Em Hd
   | s b i r m ch r' Em Hrecv Hst | s b i r m ch Ix e Em Hrecv Hst | s b i r m ch Em Hrecv Hst | s i m ch Hi Hrecv
   | s i m ms Hi Hw Hf | s i Hi Hw Hf ].
  - now apply schedule_ok with (d := d).
  - exists job. apply change_none; [assumption| |exact Ht|rewrite Em; cbn; lia]. intros k. unfold pend, rp. cbn. rewrite Em. auto.
  - rewrite Em in Hm. destruct Hm as [Hi Hj]. exists job.
    pose proof (Hl i Hi) as HL. unfold LV, pend, rp in HL. rewrite Em in HL. destruct (Nat.eq_dec i i) as [_|]; [|congruence].
    destruct (L_send ham solve _ _ _ _ _ _ _ HL) as [HL' _].
    apply (change_one n tasks s _ job i); auto.
    + views.
    + unfold LV, pend, rp. cbn. rewrite upd_eq. eqself i. exact HL'.
    + cbn. auto.
    + cbn. rewrite Em. cbn. unfold CV, pend. cbn. rewrite upd_eq, Em. eqself i. unfold cost.
      rewrite app_length. cbn [length]. rewrite <- app_assoc. cbn [app]. lia.
  - exists job. apply change_none; [assumption| |exact Logic.I|rewrite Em; cbn; lia].
    intros k. unfold pend, rp. cbn. rewrite Em. destruct (Nat.eq_dec k i); auto.
  - exists job. apply change_none; [assumption| |exact Logic.I|rewrite Em; cbn; lia]. intros k. unfold pend, rp. cbn. rewrite Em. auto.
  - pose proof (Hl i Hi) as HL. unfold LV, pend, rp in HL. rewrite Em in HL.
    destruct (L_probe ham solve _ _ _ _ _ _ _ HL Hrecv) as [HL' Hc]. exists job.
    apply (change_one n tasks s _ job i); auto.
    + views.
    + unfold LV, pend, rp. cbn. rewrite upd_eq. eqself i. exact HL'.
    + cbn. repeat split; try (apply Hi); try discriminate. intros E. rewrite E in HL. destruct HL as (_ & E2 & _). rewrite E2 in Hrecv. discriminate.
    + cbn. rewrite Em. cbn. unfold CV, pend. cbn. rewrite upd_eq, Em. lia.
  - pose proof (Hl i Hi) as HL. unfold LV, pend, rp in HL. rewrite Em in HL, Hm.
    destruct (L_probe ham solve _ _ _ _ _ _ _ HL Hrecv) as [HL' Hc]. exists job.
    apply (change_one n tasks s _ job i); auto.
    + views.
    + unfold LV, pend, rp. cbn. rewrite upd_eq. eqself i. exact HL'.
    + cbn. repeat split; try (apply Hi); auto. intros E. rewrite E in HL. destruct HL as (_ & E2 & _). rewrite E2 in Hrecv. discriminate.
    + cbn. rewrite Em. cbn. unfold CV, pend. cbn. rewrite upd_eq, Em. lia.
  - exists job. rewrite Em in Hm. apply change_none; [assumption| |auto|rewrite Em; cbn; lia]. intros k. unfold pend, rp. cbn. rewrite Em. auto.
  - rewrite Em in Hm. destruct Hm as (Hi & Hj & Hb). pose proof (Hl i Hi) as HL. unfold LV, pend, rp in HL. rewrite Em in HL.
    destruct (Nat.eq_dec i i) as [_|] in HL; [|congruence].
    destruct (L_recv_head ham solve ham_wf solve_wf _ _ _ _ _ _ _ _ HL Hrecv) as (Ix & Ej & Ecm & [(r1 & E1 & HL')|[E1 _]]); [|congruence].
    exists job. assert (r1 = r') as -> by congruence.
    apply (change_one n tasks s _ job i); auto.
    + views.
    + unfold LV, pend, rp. cbn. rewrite upd_eq. eqself i. exact HL'.
    + cbn. auto.
    + cbn. rewrite Em. cbn. unfold CV, pend. cbn. rewrite upd_eq, Em. unfold cost. rewrite Ecm. cbn [length].
      destruct b; lia.
  - rewrite Em in Hm. destruct Hm as (Hi & Hj & Hb). pose proof (Hl i Hi) as HL. unfold LV, pend, rp in HL. rewrite Em in HL.
    destruct (Nat.eq_dec i i) as [_|] in HL; [|congruence].
    destruct (L_recv_head ham solve ham_wf solve_wf _ _ _ _ _ _ _ _ HL Hrecv) as (Iy & Ej & Ecm & [(r1 & E1 & _)|[E1 HL']]); [congruence|].
    assert (Iy = Ix /\ solve (ham Iy) = e) as [-> <-] by (split; congruence). exists (upd job i None). split.
    + constructor.
      * intros k Hk. destruct (Nat.eq_dec k i) as [->|Hne].
        -- unfold LV, pend, rp. cbn. rewrite !upd_eq. destruct b; exact HL'.
        -- eapply LV_same_views; [..|apply Hl; exact Hk]; cbn; try reflexivity; [now apply upd_neq|..|now apply upd_neq];
           unfold pend, rp; cbn; rewrite Em; destruct b; try reflexivity; destruct (Nat.eq_dec k i); congruence.
      * cbn [todo done finish_read set_c2m]. rewrite <- Hp. rewrite (outstanding_drop n job i Ix Hi Ej).
        rewrite <- !app_assoc. reflexivity.
      * cbn [result done finish_read set_c2m]. now apply store_res.
      * cbn [todo avail finish_read set_c2m]. destruct Ha as [Ha|(ws & Ea & Hnd & Hws)]; [now left|]. destruct b.
        -- left. auto.
        -- right. exists (ws ++ [i]). rewrite Ea. split; [reflexivity|].
           assert (~ In i ws) as Hni by (intros Hin; destruct (Hws i Hin) as [_ E]; congruence). split.
           ++ apply NoDup_rev in Hnd. rewrite <- (rev_involutive (ws ++ [i])). apply NoDup_rev. rewrite rev_app_distr. cbn.
              constructor; [rewrite <- in_rev; exact Hni|exact Hnd].
           ++ intros k Hk. apply in_app_or in Hk as [Hk|[<-|[]]].
              ** destruct (Hws k Hk) as [H1 H2]. split; [exact H1|]. rewrite upd_neq; [exact H2|]. intros ->. contradiction.
              ** split; [exact Hi|apply upd_eq].
      * cbn. destruct b; auto.
    + unfold measure. cbn [todo master finish_read set_c2m]. rewrite Em.
      assert (phase (if b then Final else Poll : @mst T A) = phase (Recv b i r : @mst T A)) as -> by (destruct b; reflexivity).
      pose proof (nsum_change (ranks n) (CV s job) (CV (finish_read teq (set_c2m s i ch) b i Ix (solve (ham Ix))) (upd job i None)) i
        (nodup_ranks n) (proj2 (in_ranks n i) Hi)) as Hsum.
      assert (forall k, k <> i -> In k (ranks n) -> CV (finish_read teq (set_c2m s i ch) b i Ix (solve (ham Ix))) (upd job i None) k = CV s job k) as Hsame.
      { intros k Hne _. apply CV_same_views; cbn; try reflexivity; try (now apply upd_neq).
        unfold pend. cbn. rewrite Em. destruct b; reflexivity. }
      specialize (Hsum Hsame).
      assert (CV (finish_read teq (set_c2m s i ch) b i Ix (solve (ham Ix))) (upd job i None) i < CV s job i) as Hc.
      { unfold CV. cbn [worker c2w c2m finish_read set_c2m]. rewrite !upd_eq. unfold cost. rewrite Ecm. cbn [length].
        assert (pend (finish_read teq (set_c2m s i ch) b i Ix (solve (ham Ix))) i = pend s i) as ->
          by (unfold pend; cbn; rewrite Em; destruct b; reflexivity). lia. }
      lia.
  - exfalso. rewrite Em in Hm. destruct Hm as (Hi & Hj & Hb). pose proof (Hl i Hi) as HL. unfold LV, pend, rp in HL. rewrite Em in HL.
    destruct (Nat.eq_dec i i) as [_|] in HL; [|congruence].
    destruct (L_recv_head ham solve ham_wf solve_wf _ _ _ _ _ _ _ _ HL Hrecv) as (Iy & Ej & Ecm & [(r1 & E1 & _)|[E1 HL']]); congruence.
  - pose proof (Hl i Hi) as HL. unfold LV in HL. destruct (L_wrecv ham solve ham_wf _ _ _ _ _ _ _ _ HL Hrecv) as (HL' & _ & Hc).
    exists job. apply (change_one n tasks s _ job i); auto.
    + views.
    + unfold LV. cbn. rewrite !upd_eq. exact HL'.
    + unfold CV. cbn. rewrite !upd_eq. unfold pend in *. cbn. lia.
  - pose proof (Hl i Hi) as HL. unfold LV in HL. rewrite Hw in HL. destruct (L_wsend ham solve ham_wf _ _ _ _ _ _ _ HL) as (HL' & Hc).
    exists job. apply (change_one n tasks s _ job i); auto.
    + views.
    + unfold LV. cbn. rewrite !upd_eq. exact HL'.
    + unfold CV. cbn. rewrite !upd_eq, Hw. unfold pend in *. cbn. lia.
  - pose proof (Hl i Hi) as HL. unfold LV in HL. rewrite Hw in HL. destruct (L_wsent ham solve ham_wf _ _ _ _ _ HL) as (HL' & Hc).
    exists job. apply (change_one n tasks s _ job i); auto.
    + views.
    + unfold LV. cbn. rewrite !upd_eq. exact HL'.
    + unfold CV. cbn. rewrite !upd_eq, Hw. unfold pend in *. cbn. lia.
Qed.

Theorem steps_ok : forall n tasks k s, 1 <= n -> steps teq ham solve free n (length tasks) k (initial n tasks) s ->
  exists job, Inv n tasks s job /\ measure n s job + k <= measure n (initial n tasks) (fun _ => None).
Proof.
  intros n tasks k s Hn H. remember (initial n tasks) as s0 eqn:E0. induction H as [s|k s s' s'' H IH Hs].
  - exists (fun _ => None). subst s. split; [now apply inv_initial|lia].
  - destruct (IH E0) as (job & Hi & Hm). destruct (step_ok _ _ _ _ _ Hi Hs) as (job' & Hi' & Hm'). exists job'. split; [assumption|lia].
Qed.

(** ** Progress *)
Lemma cons_or_nil : forall {B} (l : list B), l = [] \/ exists x r, l = x :: r.
Proof. intros B [|x r]; eauto. Qed.

(** A worker that has received (part of) a job and whose messages are not yet all taken can move, or the master has a
    result message to read. *)
Lemma worker_progress : forall n tasks s job i Ix, free [] -> Inv n tasks s job -> 1 <= i < n -> job i = Some Ix ->
  pend s i = [] -> (exists s', step teq ham solve free n (length tasks) s s') \/ (c2m s i <> []).
Proof.
  intros n tasks s job i Ix Hf Hinv Hi Ej Hpend. pose proof (inv_local _ _ _ _ Hinv i Hi) as HL. unfold LV in HL. rewrite Ej, Hpend in HL.
  cbn in HL. destruct HL as [(Hrp & Hcm & Hne & pre & HJ & Hw)|(Hcw & _ & pre & ms & HR & Hw & Hrp)].
  - left. rewrite app_nil_r in *. destruct (cons_or_nil (c2w s i)) as [E|(m & ch & E)]; [congruence|].
    destruct Hw as [Hw|[_ Hw]].
    + assert (acc (worker s i) m) as Hacc.
      { pose proof (wrun_job ham solve ham_wf Ix) as Hj. rewrite HJ, E in Hj. apply wrun_app in Hj as (x & Hx & Hy).
        rewrite (wrun_det _ _ _ _ _ Hw Hx). inversion Hy; subst. assumption. }
      assert (wtag (worker s i) (c2w s i) = Some (m, ch)) as Ht.
      { rewrite E. destruct (worker s i); cbn [acc wtag] in *; try contradiction; try reflexivity; now apply recv_head. }
      eexists. eapply st_worker_recv; eauto.
    + eexists. eapply st_worker_sent; eauto. rewrite Hcm. exact Hf.
  - destruct (cons_or_nil (c2m s i)) as [E|(m & ch & E)]; [|right; congruence].
    left. rewrite E in *. cbn in *. destruct Hw as [Hw|[-> Hw]].
    + destruct ms as [|m ms].
      * exfalso. destruct (rp s i) as [r|].
        -- destruct Hrp as (v & pre' & _ & _ & Hn). congruence.
        -- subst pre. discriminate.
      * eexists. eapply st_worker_send; eauto. rewrite E. exact Hf.
    + exfalso. destruct (rp s i) as [r|].
      -- destruct Hrp as (v & pre' & _ & _ & Hn). congruence.
      -- subst pre. discriminate.
Qed.

Theorem progress : forall n tasks s job, free [] -> Inv n tasks s job -> master s <> Returned ->
  exists s', step teq ham solve free n (length tasks) s s'.
Proof.
  intros n tasks s job Hf Hinv Hnr. pose proof Hinv as [Hl Hp Hr Ha Hm].
  destruct (master s) as [|i ms| | |b i r| |] eqn:Em.
  - destruct (todo s) as [|x l] eqn:Et.
    + eexists. eapply st_all_scheduled; eauto.
    + eexists. eapply (st_schedule _ _ _ _ _ _ s x); [exact Em|congruence].
  - destruct Hm as [Hi Hj]. destruct (cons_or_nil (c2w s i)) as [E|(m & ch & E)].
    + destruct ms as [|m ms]; eexists; [eapply st_sent; eauto|eapply st_send; eauto]; rewrite E; exact Hf.
    + destruct (job i) as [Ix|] eqn:Ej; [|congruence]. pose proof (Hl i Hi) as HL. unfold LV in HL. rewrite Ej in HL. cbn in HL.
      destruct HL as [(Hrp & Hcm & Hne & pre & HJ & Hw)|(Hcw & _)]; [|congruence].
      destruct Hw as [Hw|[_ Hw]].
      * assert (acc (worker s i) m) as Hacc.
        { pose proof (wrun_job ham solve ham_wf Ix) as Hjj. rewrite HJ, E in Hjj. apply wrun_app in Hjj as (x & Hx & Hy).
          rewrite (wrun_det _ _ _ _ _ Hw Hx). inversion Hy; subst. assumption. }
        assert (wtag (worker s i) (c2w s i) = Some (m, ch)) as Ht.
        { rewrite E. destruct (worker s i); cbn [acc wtag] in *; try contradiction; try reflexivity; now apply recv_head. }
        eexists. eapply st_worker_recv; eauto.
      * eexists. eapply st_worker_sent; eauto. rewrite Hcm. exact Hf.
  - eexists. eapply st_nothing; eauto.
  - destruct (Nat.eq_dec (length (done s)) (length tasks)) as [Ed|Ed]; [eexists; eapply st_return; eauto|].
    assert (outstanding n job <> []) as Ho.
    { intros E. apply Ed. rewrite <- (Permutation_length Hp), E, Hm, app_nil_r. reflexivity. }
    apply outstanding_some in Ho as (i & Ix & Hi & Ej).
    destruct (worker_progress n tasks s job i Ix Hf Hinv Hi Ej) as [H|H]; [unfold pend; now rewrite Em|exact H|].
    pose proof (Hl i Hi) as HL. unfold LV in HL. rewrite Ej in HL. cbn in HL.
    destruct HL as [(_ & Hcm & _)|(Hcw & _ & pre & ms & HR & Hw & Hrp)]; [congruence|].
    unfold rp in Hrp. rewrite Em in Hrp. subst pre. destruct (c2m s i) as [|m ch] eqn:Ec; [congruence|].
    cbn [app] in HR. unfold result_msgs in HR. eexists. eapply (st_final_probe _ _ _ _ _ _ s i (val (solve (ham Ix))) ch); eauto.
    rewrite Ec. replace m with (MVec (T := T) (val (solve (ham Ix)))) by congruence. now apply recv_head.
  - destruct Hm as (Hi & Hj & Hb). destruct (job i) as [Ix|] eqn:Ej; [|congruence].
    destruct (worker_progress n tasks s job i Ix Hf Hinv Hi Ej) as [H|H]; [unfold pend; now rewrite Em|exact H|].
    pose proof (Hl i Hi) as HL. unfold LV, rp in HL. rewrite Em, Ej in HL. destruct (Nat.eq_dec i i) as [_|]; [|congruence].
    cbn in HL. destruct HL as [(E & _)|(Hcw & _ & pre & ms & HR & Hw & v & pre' & -> & Hrun & Hne)]; [discriminate|].
    destruct (c2m s i) as [|m ch] eqn:Ec; [congruence|]. cbn [app] in HR. unfold result_msgs in HR.
    assert (v = val (solve (ham Ix)) /\ matrix_msgs (vec (solve (ham Ix))) ++ [MInvar Ix] = pre' ++ m :: ch ++ ms) as [-> HR'].
    { split; [|congruence]. assert ((MVec (val (solve (ham Ix))) = MVec v :> msg)) as E by congruence. congruence. }
    assert (recv_tag (rtag r) (c2m s i) = Some (m, ch)) as Hrecv.
    { rewrite Ec. apply recv_head. pose proof (rrun_result ham solve ham_wf solve_wf Ix) as Hfull.
      destruct (exists_last (l := m :: ch ++ ms)) as (l & z & El); [discriminate|].
      rewrite El, app_assoc in HR'. apply app_inj_tail in HR' as [HR' <-]. destruct l as [|m1 l].
      - cbn in El. injection El as -> El. rewrite app_nil_r in HR'. subst pre'. now rewrite (rrun_det _ _ _ _ Hrun Hfull).
      - cbn in El. injection El as <- El. rewrite HR' in Hfull. apply rrun_app in Hfull as (y & Hy1 & Hy2).
        rewrite (rrun_det _ _ _ _ Hrun Hy1). inversion Hy2; subst. assumption. }
    destruct (rstep (T := T) r m) as [r'|Iy e|] eqn:Est; eexists.
    + eapply st_recv_more; eauto.
    + eapply st_recv_done; eauto.
    + eapply st_recv_err; eauto.
  - congruence.
  - contradiction.
Qed.

(** ** Final state *)
Theorem returned_ok : forall n tasks s job, Inv n tasks s job -> master s = Returned ->
  Permutation (done s) tasks /\ (forall Ix, result s Ix = if in_dec teq Ix tasks then Some (solve (ham Ix)) else None) /\
  (forall i, 1 <= i < n -> c2w s i = [] /\ c2m s i = [] /\ (worker s i = WIdle \/ worker s i = WSend [])).
Proof.
  intros n tasks s job [Hl Hp Hr Ha Hm] Em. rewrite Em in Hm. destruct Hm as [Et Ed]. rewrite Et in Hp. cbn in Hp.
  assert (outstanding n job = []) as Eo.
  { apply Permutation_length in Hp. rewrite app_length in Hp. destruct (outstanding n job); [reflexivity|cbn in Hp; lia]. }
  rewrite Eo, app_nil_r in Hp. split; [exact Hp|]. split.
  - intros Ix. rewrite Hr. destruct (in_dec teq Ix (done s)) as [H|H]; destruct (in_dec teq Ix tasks) as [H'|H']; try reflexivity; exfalso.
    + apply H'. eapply Permutation_in; eauto.
    + apply H. eapply Permutation_in; [apply Permutation_sym|]; eauto.
  - intros i Hi. pose proof (outstanding_nil _ _ Eo i Hi) as Ej. pose proof (Hl i Hi) as HL. unfold LV in HL. rewrite Ej in HL.
    cbn in HL. intuition.
Qed.

Theorem never_failed : forall n tasks s job, Inv n tasks s job -> master s <> Failed /\ forall i, 1 <= i < n -> worker s i <> WErr.
Proof.
  intros n tasks s job [Hl Hp Hr Ha Hm]. split; [intros E; rewrite E in Hm; exact Hm|].
  intros i Hi E. pose proof (Hl i Hi) as HL. unfold LV in HL. rewrite E in HL. destruct (job i) as [Ix|].
  - cbn in HL. destruct HL as [(_ & _ & Hne & pre & HJ & [Hw|[_ Hw]])|(_ & _ & pre & ms & _ & [Hw|[_ Hw]] & _)]; try discriminate.
    pose proof (wrun_job ham solve ham_wf Ix) as Hj. rewrite HJ in Hj. apply wrun_app in Hj as (x & Hx & Hy).
    rewrite <- (wrun_det _ _ _ _ _ Hw Hx) in Hy. inversion Hy as [|? ? ? ? Ha']; subst. contradiction.
  - cbn in HL. destruct HL as (_ & _ & _ & _ & [H|H]); discriminate.
Qed.

(** ** Serial and OpenMP *)
Lemma serial_ok : forall tasks (f : T -> option raweigen) Ix,
  serial teq ham solve tasks f Ix = if in_dec teq Ix tasks then Some (solve (ham Ix)) else f Ix.
Proof.
  induction tasks as [|x l IH]; intros f Ix; cbn [serial]; [now destruct (in_dec teq Ix [])|].
  rewrite IH. unfold store. destruct (in_dec teq Ix l) as [H|H]; destruct (in_dec teq Ix (x :: l)) as [H'|H']; try reflexivity.
  - exfalso. apply H'. now right.
  - destruct (teq Ix x) as [->|Hne]; [reflexivity|]. destruct H' as [E|H']; [congruence|contradiction].
  - destruct (teq Ix x) as [->|Hne]; [|reflexivity]. exfalso. apply H'. now left.
Qed.

Record OInv (nth : nat) (tasks : list T) (s : @omp_state T A) : Prop := {
  oi_next : forall Ix, In Ix (next s) -> In Ix tasks;
  oi_busy : forall t Ix, busy s t = Some Ix -> (t < nth)%nat /\ In Ix tasks;
  oi_res : forall Ix, (omp_result s Ix = None /\ (In Ix tasks -> In Ix (next s) \/ exists t, (t < nth)%nat /\ busy s t = Some Ix))
                      \/ (In Ix tasks /\ omp_result s Ix = Some (solve (ham Ix)))
}.
Lemma omp_inv : forall nth tasks s, omp_steps teq ham solve nth (omp_initial tasks) s -> OInv nth tasks s.
Proof.
  intros nth tasks s H. remember (omp_initial tasks) as s0 eqn:E0. induction H as [s|s s' s'' H IH Hs].
  - subst. constructor; cbn; auto; try discriminate.
  - destruct (IH E0) as [Hn Hb Hr]. destruct Hs as [s' t Ix r Ht Hbt En | s' t Ix Ht Hbt].
    + constructor; cbn.
      * intros K HK. apply Hn. rewrite En. now right.
      * intros t' K. unfold upd. destruct (Nat.eq_dec t' t) as [->|]; [|apply Hb]. intros E. injection E as <-.
        split; [assumption|]. apply Hn. rewrite En. now left.
      * intros K. destruct (Hr K) as [[Hk1 Hk2]|Hk]; [left|now right]. split; [assumption|]. intros HK.
        destruct (Hk2 HK) as [Hin|(t' & Ht' & Hbt')].
        -- rewrite En in Hin. destruct Hin as [<-|Hin]; [right; exists t; split; [assumption|]; unfold upd; now destruct (Nat.eq_dec t t)|now left].
        -- right. exists t'. split; [assumption|]. unfold upd. destruct (Nat.eq_dec t' t) as [->|]; [congruence|assumption].
    + constructor; cbn.
      * exact Hn.
      * intros t' K. unfold upd. destruct (Nat.eq_dec t' t); [discriminate|apply Hb].
      * intros K. unfold store. destruct (teq K Ix) as [->|Hne]; [right; split; [now apply (Hb t)|reflexivity]|].
        destruct (Hr K) as [[Hk1 Hk2]|Hk]; [left|now right]. split; [assumption|]. intros HK.
        destruct (Hk2 HK) as [Hin|(t' & Ht' & Hbt')]; [now left|]. right. exists t'. split; [assumption|].
        unfold upd. destruct (Nat.eq_dec t' t) as [->|]; [congruence|assumption].
Qed.
Lemma omp_ok : forall nth tasks s, omp_steps teq ham solve nth (omp_initial tasks) s -> omp_finished nth s ->
  forall Ix, omp_result s Ix = if in_dec teq Ix tasks then Some (solve (ham Ix)) else None.
Proof.
  intros nth tasks s H [Hf1 Hf2] Ix. destruct (omp_inv _ _ _ H) as [Hn Hb Hr]. destruct (in_dec teq Ix tasks) as [Hin|Hin].
  - destruct (Hr Ix) as [[_ Hk]|[_ Hk]]; [|exact Hk]. destruct (Hk Hin) as [E|(t & Ht & E)]; [now rewrite Hf1 in E|rewrite (Hf2 t Ht) in E; discriminate].
  - destruct (Hr Ix) as [[Hk _]|[Hk _]]; [exact Hk|contradiction].
Qed.
(** With at least one thread the loop never gets stuck, and every step makes progress. *)
Definition omp_measure (nth : nat) (s : @omp_state T A) : nat :=
  2 * length (next s) + nsum (map (fun t => match busy s t with Some _ => 1 | None => 0 end) (seq 0 nth)).
Lemma omp_decreases : forall nth s s', omp_step teq ham solve nth s s' -> omp_measure nth s' < omp_measure nth s.
Proof.
  intros nth s s' Hs. destruct Hs as [s t Ix r Ht Hbt En | s t Ix Ht Hbt]; unfold omp_measure; cbn [next busy].
  - rewrite En. cbn [length].
    pose proof (nsum_change (seq 0 nth) (fun t => match busy s t with Some _ => 1 | None => 0 end)
      (fun t0 => match upd (busy s) t (Some Ix) t0 with Some _ => 1 | None => 0 end) t (seq_NoDup _ _)) as H.
    specialize (H ltac:(apply in_seq; lia)).
    cbv beta in H. rewrite upd_eq, Hbt in H.
    assert (forall j, j <> t -> In j (seq 0 nth) -> match upd (busy s) t (Some Ix) j with Some _ => 1 | None => 0 end = match busy s j with Some _ => 1 | None => 0 end) as Hx.
    { intros j Hj _. now rewrite upd_neq. }
    specialize (H Hx). lia.
  - pose proof (nsum_change (seq 0 nth) (fun t => match busy s t with Some _ => 1 | None => 0 end)
      (fun t0 => match upd (busy s) t None t0 with Some _ => 1 | None => 0 end) t (seq_NoDup _ _)) as H.
    specialize (H ltac:(apply in_seq; lia)). cbv beta in H. rewrite upd_eq, Hbt in H.
    assert (forall j, j <> t -> In j (seq 0 nth) -> match upd (busy s) t None j with Some _ => 1 | None => 0 end = match busy s j with Some _ => 1 | None => 0 end) as Hx.
    { intros j Hj _. now rewrite upd_neq. }
    specialize (H Hx). lia.
Qed.
Lemma omp_progress : forall nth (s : @omp_state T A), (0 < nth)%nat ->
  omp_finished nth s \/ exists s', omp_step teq ham solve nth s s'.
Proof.
  intros nth s Hn.
  assert ((exists t Ix, t < nth /\ busy s t = Some Ix) \/ (forall t, t < nth -> busy s t = None)) as [(t & Ix & Ht & E)|Hb].
  { clear Hn. induction nth as [|k [IH|IH]].
    - right. intros. lia.
    - left. destruct IH as (t & Ix & Ht & E). exists t, Ix. split; [lia|assumption].
    - destruct (busy s k) as [Ix|] eqn:E; [left; exists k, Ix; auto|]. right. intros t Ht. destruct (Nat.eq_dec t k) as [->|]; [assumption|]. apply IH. lia. }
  - right. eexists. eapply omp_store; eauto.
  - destruct (next s) as [|Ix r] eqn:En; [left; split; auto|]. right. eexists. eapply (omp_take _ _ _ nth s 0); eauto.
Qed.
End G.
