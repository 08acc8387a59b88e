From Coq Require Import List ZArith Reals Lia Lra Bool.
From Verif Require Import Base Interp_model Interp_spec.
Import ListNotations.
Local Open Scope R_scope.

Lemma Rleb_true x y : Rleb x y = true <-> x <= y.
Proof. unfold Rleb. destruct (Rle_dec x y); split; intros; auto; discriminate || contradiction. Qed.
Lemma Rleb_false x y : Rleb x y = false <-> y < x.
Proof. unfold Rleb. destruct (Rle_dec x y); split; intros; try discriminate; auto; lra. Qed.
Lemma Rltb_true x y : Rltb x y = true <-> x < y.
Proof. unfold Rltb. destruct (Rlt_dec x y); split; intros; auto; discriminate || contradiction. Qed.
Lemma Rltb_false x y : Rltb x y = false <-> y <= x.
Proof. unfold Rltb. destruct (Rlt_dec x y); split; intros; try discriminate; auto; lra. Qed.

(** Finite sums. *)
Fixpoint rsum (f : nat -> R) (n : nat) : R := match n with O => 0 | S k => rsum f k + f k end.
Lemma rsum_ext f g n : (forall k, (k < n)%nat -> f k = g k) -> rsum f n = rsum g n.
Proof. induction n; simpl; intros H; auto. rewrite IHn, H; auto. Qed.
Lemma rsum_zero f n : (forall k, (k < n)%nat -> f k = 0) -> rsum f n = 0.
Proof. induction n; simpl; intros H; auto. rewrite IHn, H by auto. lra. Qed.
Lemma rsum_telescope f n : rsum (fun k => f (S k) - f k) n = f n - f 0%nat.
Proof. induction n; simpl; lra. Qed.
Lemma rsum_add f g n : rsum (fun k => f k + g k) n = rsum f n + rsum g n.
Proof. induction n; simpl; lra. Qed.
Lemma rsum_scal c f n : rsum (fun k => c * f k) n = c * rsum f n.
Proof. induction n; simpl; lra. Qed.
Lemma rsum_split f n m : (n <= m)%nat -> rsum f m = rsum f n + rsum (fun k => f (n + k)%nat) (m - n).
Proof.
  intros H. replace m with (n + (m - n))%nat at 1 by lia. generalize (m - n)%nat as d. clear H. intros d.
  induction d; simpl; [rewrite Nat.add_0_r; lra|]. rewrite Nat.add_succ_r. simpl. rewrite IHd. lra.
Qed.
Lemma rsum_nonneg f n : (forall k, (k < n)%nat -> 0 <= f k) -> 0 <= rsum f n.
Proof. induction n; simpl; intros H; [lra|]. assert (0 <= rsum f n) by auto. pose proof (H n ltac:(lia)). lra. Qed.

(** The positive part and its primitive. *)
Definition pos (t : R) : R := Rmax 0 t.
Lemma pos_ge t : 0 <= t -> pos t = t.
Proof. intros. unfold pos. rewrite Rmax_right; lra. Qed.
Lemma pos_le t : t <= 0 -> pos t = 0.
Proof. intros. unfold pos. rewrite Rmax_left; lra. Qed.
Lemma pos_cases t : (0 <= t /\ pos t = t) \/ (t <= 0 /\ pos t = 0).
Proof. destruct (Rle_lt_dec 0 t); [left|right]; split; auto; [apply pos_ge|lra|apply pos_le]; lra. Qed.

Lemma pos_sq_bound x h : Rabs (pos (x + h) * pos (x + h) / 2 - pos x * pos x / 2 - h * pos x) <= h * h / 2.
Proof.
  apply Rabs_le.
  destruct (pos_cases (x + h)) as [[A ->]|[A ->]]; destruct (pos_cases x) as [[B ->]|[B ->]]; split; try nra.
Qed.

Lemma pos_sq_deriv a x : derivable_pt_lim (fun t => pos (t - a) * pos (t - a) / 2) x (pos (x - a)).
Proof.
  intros eps He. exists (mkposreal eps He). intros h Hh Hd. simpl in Hd.
  pose proof (pos_sq_bound (x - a) h) as B.
  replace (x + h - a) with (x - a + h) by lra.
  set (A := pos (x - a + h) * pos (x - a + h) / 2 - pos (x - a) * pos (x - a) / 2) in *.
  replace (A / h - pos (x - a)) with ((A - h * pos (x - a)) / h) by (field; auto).
  unfold Rdiv. rewrite Rabs_mult, Rabs_inv.
  assert (0 < Rabs h) by (apply Rabs_pos_lt; auto).
  apply Rle_lt_trans with (Rabs h / 2); [|lra].
  apply (Rmult_le_reg_r (Rabs h)); auto. rewrite Rmult_assoc, Rinv_l, Rmult_1_r by lra.
  replace (Rabs h / 2 * Rabs h) with (h * h / 2).
  - exact B.
  - replace (h * h) with (Rabs h * Rabs h); [lra|]. rewrite <- Rabs_mult. apply Rabs_right. nra.
Qed.

Lemma rsum_deriv (F f : nat -> R -> R) n x : (forall k, derivable_pt_lim (F k) x (f k x)) ->
  derivable_pt_lim (fun t => rsum (fun k => F k t) n) x (rsum (fun k => f k x) n).
Proof.
  intros H. induction n; simpl.
  - apply derivable_pt_lim_const.
  - apply (derivable_pt_lim_plus (fun t => rsum (fun k => F k t) n) (F n)); auto.
Qed.

Lemma back_eq v : (1 <= length v)%nat -> back v = at_ v (length v - 1).
Proof. destruct v; simpl; intros; [lia|reflexivity]. Qed.

Section Table.
  Variable v : table.
  Let n := length v.
  Let X i := fst (nth i v (0, 0)).
  Let Y i := snd (nth i v (0, 0)).
  Hypothesis Hn : (2 <= n)%nat.
  Hypothesis Hinc : forall i, (S i < n)%nat -> X i < X (S i).

  Definition slope (i : nat) : R := (Y (S i) - Y i) / (X (S i) - X i).
  Definition fval (x : R) : R := Y 0%nat + rsum (fun k => slope k * (pos (x - X k) - pos (x - X (S k)))) (n - 1).
  Definition Fval (x : R) : R := Y 0%nat * (x - X 0%nat) +
    rsum (fun k => slope k * (pos (x - X k) * pos (x - X k) / 2 - pos (x - X (S k)) * pos (x - X (S k)) / 2)) (n - 1).

  Lemma X_le i j : (i <= j)%nat -> (j < n)%nat -> X i <= X j.
  Proof.
    intros H. induction H; intros; [lra|]. apply Rle_trans with (X m); [apply IHle; lia|]. left. apply Hinc. lia.
  Qed.
  Lemma X_lt i j : (i < j)%nat -> (j < n)%nat -> X i < X j.
  Proof. intros. apply Rlt_le_trans with (X (S i)); [apply Hinc; lia|apply X_le; lia]. Qed.

  Lemma slope_w i : (S i < n)%nat -> slope i * (X (S i) - X i) = Y (S i) - Y i.
  Proof. intros H. unfold slope. pose proof (Hinc i H). field. lra. Qed.

  Lemma fval_seg k x : (S k < n)%nat -> X k <= x <= X (S k) -> fval x = Y k + slope k * (x - X k).
  Proof.
    intros Hk Hx. unfold fval. rewrite (rsum_split _ (S k) (n - 1)) by lia. simpl.
    rewrite (rsum_zero (fun j => _ * (_ - pos (x - X (S (S (k + j))))))).
    2:{ intros j Hj. rewrite !pos_le; [lra| |].
        - pose proof (X_le (S k) (S (S (k + j)))). lra || (assert (X (S k) <= X (S (S (k+j)))) by (apply X_le; lia); lra).
        - assert (X (S k) <= X (S (k + j))) by (apply X_le; lia). lra. }
    rewrite (rsum_ext _ (fun j => Y (S j) - Y j) k).
    2:{ intros j Hj. assert (X (S j) <= X k) by (apply X_le; lia). assert (X j <= X k) by (apply X_le; lia).
        rewrite !pos_ge by lra. rewrite <- slope_w by lia. ring. }
    rewrite rsum_telescope. rewrite (pos_ge (x - X k)), (pos_le (x - X (S k))) by lra. lra.
  Qed.
  Lemma fval_low x : x <= X 0%nat -> fval x = Y 0%nat.
  Proof.
    intros Hx. unfold fval. rewrite rsum_zero; [lra|]. intros k Hk.
    assert (X 0%nat <= X k) by (apply X_le; lia). assert (X 0%nat <= X (S k)) by (apply X_le; lia). rewrite !pos_le by lra. ring.
  Qed.
  Lemma fval_high x : X (n - 1)%nat <= x -> fval x = Y (n - 1)%nat.
  Proof.
    intros Hx. unfold fval. rewrite (rsum_ext _ (fun j => Y (S j) - Y j)).
    - rewrite rsum_telescope. lra.
    - intros k Hk. assert (X k <= X (n - 1)%nat) by (apply X_le; lia). assert (X (S k) <= X (n - 1)%nat) by (apply X_le; lia).
      rewrite !pos_ge by lra. rewrite <- slope_w by lia. ring.
  Qed.

  (** The cumulative sums of the trapezoidal rule. *)
  Definition Sval (k : nat) : R := rsum (fun j => (X (S j) - X j) * ((Y (S j) + Y j) / 2)) k.

  Lemma Fval_node_step k x : (S k < n)%nat -> X k <= x <= X (S k) ->
    Fval x = Fval (X k) + (x - X k) * Y k + (x - X k) * (x - X k) * slope k / 2.
  Proof.
    intros Hk Hx. unfold Fval. rewrite (rsum_split _ (S k) (n - 1)) by lia.
    rewrite (rsum_split (fun k0 => _ * (pos (X k - X k0) * _ / 2 - _)) (S k) (n - 1)) by lia. simpl.
    assert (Z1 : forall x', x' <= X (S k) -> rsum (fun j => slope (S (k + j)) * (pos (x' - X (S (k + j))) * pos (x' - X (S (k + j))) / 2
      - pos (x' - X (S (S (k + j)))) * pos (x' - X (S (S (k + j)))) / 2)) (n - 1 - S k) = 0).
    { intros x' Hx'. apply rsum_zero. intros j Hj. assert (X (S k) <= X (S (S (k + j)))) by (apply X_le; lia).
      assert (X (S k) <= X (S (k + j))) by (apply X_le; lia). rewrite !pos_le by lra. field. }
    pose proof (Hinc k Hk). rewrite !Z1 by lra.
    assert (E : rsum (fun k0 => slope k0 * (pos (x - X k0) * pos (x - X k0) / 2 - pos (x - X (S k0)) * pos (x - X (S k0)) / 2)) k =
      rsum (fun k0 => slope k0 * (pos (X k - X k0) * pos (X k - X k0) / 2 - pos (X k - X (S k0)) * pos (X k - X (S k0)) / 2)) k + (x - X k) * (Y k - Y 0%nat)).
    { rewrite <- (rsum_telescope Y k), <- rsum_scal, <- rsum_add. apply rsum_ext. intros j Hj.
      assert (X (S j) <= X k) by (apply X_le; lia). assert (X j <= X k) by (apply X_le; lia). rewrite !pos_ge by lra.
      rewrite <- slope_w by lia. field. }
    rewrite E. rewrite (pos_ge (x - X k)), (pos_le (x - X (S k))), (pos_ge (X k - X k)), (pos_le (X k - X (S k))) by lra. lra.
  Qed.
  Lemma Fval_node k : (k < n)%nat -> Fval (X k) = Sval k.
  Proof.
    induction k; intros Hk.
    - unfold Fval, Sval. simpl. rewrite rsum_zero; [lra|]. intros j Hj. assert (X 0%nat <= X j) by (apply X_le; lia).
      assert (X 0%nat <= X (S j)) by (apply X_le; lia). rewrite !pos_le by lra. field.
    - pose proof (Hinc k Hk). rewrite (Fval_node_step k) by (lia || lra). rewrite IHk by lia. unfold Sval. simpl.
      replace ((X (S k) - X k) * (X (S k) - X k) * slope k / 2) with ((X (S k) - X k) * (slope k * (X (S k) - X k)) / 2) by field.
      rewrite slope_w by lia. field.
  Qed.
  Lemma Fval_seg k x : (S k < n)%nat -> X k <= x <= X (S k) ->
    Fval x = Sval k + (x - X k) * Y k + (x - X k) * (x - X k) * slope k / 2.
  Proof. intros. rewrite <- Fval_node by lia. apply Fval_node_step; auto. Qed.
  Lemma Fval_low x : x <= X 0%nat -> Fval x = Y 0%nat * (x - X 0%nat).
  Proof.
    intros Hx. unfold Fval. rewrite rsum_zero; [lra|]. intros j Hj. assert (X 0%nat <= X j) by (apply X_le; lia).
    assert (X 0%nat <= X (S j)) by (apply X_le; lia). rewrite !pos_le by lra. field.
  Qed.
  Lemma Fval_high x : X (n - 1)%nat <= x -> Fval x = Sval (n - 1) + Y (n - 1)%nat * (x - X (n - 1)%nat).
  Proof.
    intros Hx. rewrite <- Fval_node by lia. unfold Fval.
    match goal with |- _ + rsum ?f _ = _ + rsum ?g _ + _ =>
      assert (E : rsum f (n - 1) = rsum g (n - 1) + (x - X (n - 1)%nat) * (Y (n - 1)%nat - Y 0%nat)) end.
    { rewrite <- (rsum_telescope Y (n - 1)), <- rsum_scal, <- rsum_add. apply rsum_ext. intros j Hj.
      assert (X (S j) <= X (n - 1)%nat) by (apply X_le; lia). assert (X j <= X (n - 1)%nat) by (apply X_le; lia). rewrite !pos_ge by lra.
      rewrite <- slope_w by lia. field. }
    rewrite E. ring.
  Qed.
  Lemma Fval_deriv x : derivable_pt_lim Fval x (fval x).
  Proof.
    unfold Fval, fval.
    apply (derivable_pt_lim_plus (fun t => Y 0%nat * (t - X 0%nat))
      (fun t => rsum (fun k => slope k * (pos (t - X k) * pos (t - X k) / 2 - pos (t - X (S k)) * pos (t - X (S k)) / 2)) (n - 1))).
    - assert (D : derivable_pt_lim (fun t => Y 0%nat * (t - X 0%nat)) x (Y 0%nat * (1 - 0))); [|replace (Y 0%nat * (1 - 0)) with (Y 0%nat) in D by ring; exact D].
      apply (derivable_pt_lim_scal (fun t => t - X 0%nat)).
      apply (derivable_pt_lim_minus id (fun _ => X 0%nat)); [apply derivable_pt_lim_id|apply derivable_pt_lim_const].
    - apply (rsum_deriv (fun k t => slope k * (pos (t - X k) * pos (t - X k) / 2 - pos (t - X (S k)) * pos (t - X (S k)) / 2))
        (fun k t => slope k * (pos (t - X k) - pos (t - X (S k))))).
      intros k. apply (derivable_pt_lim_scal (fun t => pos (t - X k) * pos (t - X k) / 2 - pos (t - X (S k)) * pos (t - X (S k)) / 2)).
      apply (derivable_pt_lim_minus (fun t => pos (t - X k) * pos (t - X k) / 2) (fun t => pos (t - X (S k)) * pos (t - X (S k)) / 2)); apply pos_sq_deriv.
  Qed.

  Lemma locate x : X 0%nat <= x -> x < X (n - 1)%nat -> exists k, (S k < n)%nat /\ X k <= x < X (S k).
  Proof.
    intros Hl Hh. assert (G : forall m, (m < n)%nat -> x < X m -> exists k, (S k <= m)%nat /\ X k <= x < X (S k)).
    { induction m; intros Hm Hx; [lra|]. destruct (Rle_lt_dec (X m) x).
      - exists m. split; auto.
      - destruct IHm as (k & Hk & E); auto; [lia|]. exists k. split; auto. }
    destruct (G (n - 1)%nat) as (k & Hk & E); auto; [lia|]. exists k. split; [lia|auto].
  Qed.

  Lemma nth_ok i : (i < n)%nat -> nth_error v i = Some (X i, Y i).
  Proof. intros H. unfold X, Y. rewrite <- surjective_pairing. apply nth_error_nth'. exact H. Qed.
  Lemma at_ok i : (i < n)%nat -> at_ v i = Ok (X i, Y i).
  Proof. intros H. unfold at_. rewrite nth_ok; auto. Qed.
  Lemma rdiv_ok x y : y <> 0 -> rdiv x y = Some (x / y).
  Proof. intros. unfold rdiv. destruct (Req_EM_T y 0); [contradiction|auto]. Qed.

  (** The cached interval is an interval of the table. *)
  Definition good (s : linint) : Prop :=
    vec s = v /\ xmin s = X 0%nat /\ xmax s = X (n - 1)%nat /\ fxmin s = Y 0%nat /\ fxmax s = Y (n - 1)%nat /\
    match index s with
    | None => True
    | Some k => (S k < n)%nat /\ x0 s = X k /\ x1 s = X (S k) /\ f0 s = Y k /\ f1 s = Y (S k) /\ deriv s = Some (slope k)
    end.

  Lemma scan_ok x is_ : (forall i, In i is_ -> (S i < n)%nat) -> (exists j, In j is_ /\ X j <= x <= X (S j)) ->
    forall s, vec s = v -> exists k, In k is_ /\ X k <= x <= X (S k) /\ scan x is_ s = Ok (set_index (set_x s (X k) (X (S k))) k).
  Proof.
    induction is_ as [|i t IH]; intros Hr (j & Hj & E) s Hs; [destruct Hj|].
    simpl. rewrite Hs. rewrite !at_ok by (pose proof (Hr i (or_introl eq_refl)); lia). simpl.
    replace (i + 1)%nat with (S i) by lia.
    destruct (Rleb (X i) x && Rleb x (X (S i))) eqn:C.
    - apply andb_true_iff in C. rewrite !Rleb_true in C. exists i. split; [left; auto|]. auto.
    - destruct (IH (fun a b => Hr a (or_intror b))) with (s := set_x s (X i) (X (S i))) as (k & Hk & Ek & Es); auto.
      + exists j. split; auto. destruct Hj as [<-|]; auto. exfalso. destruct E as [E1 E2].
        apply Rleb_true in E1. apply Rleb_true in E2. rewrite E1, E2 in C. discriminate.
      + exists k. split; [right; auto|]. split; auto.
  Qed.

  Lemma findindex_ok x s : good s -> X 0%nat < x < X (n - 1)%nat -> miss x s = true ->
    exists s' k, findindex x s = Ok s' /\ good s' /\ index s' = Some k /\ X k <= x <= X (S k) /\ (S k < n)%nat.
  Proof.
    intros (Hv & H1 & H2 & H3 & H4 & Hi) Hx Hm. unfold findindex, miss in *. rewrite Hv. fold n.
    destruct (locate x) as (j & Hj & Ej); [lra|lra|].
    assert (G : exists k, (S k < n)%nat /\ X k <= x <= X (S k) /\
      (match index s with
       | None => scan x (seq 0 (n - 1)) s
       | Some k => if Rleb (x1 s) x then scan x (seq (k + 1) (n - 1 - (k + 1))) s else scan x (rev (seq 0 k)) s
       end) = Ok (set_index (set_x s (X k) (X (S k))) k)).
    { destruct (index s) as [k|].
      - destruct Hi as (Hk & E0 & E1 & _). rewrite E0, E1 in *.
        destruct (Rleb (X (S k)) x) eqn:C.
        + apply Rleb_true in C.
          destruct (scan_ok x (seq (k + 1) (n - 1 - (k + 1)))) with (s := s) as (k' & A & B & D); auto.
          * intros i Hin. apply in_seq in Hin. lia.
          * exists j. split; [|lra]. apply in_seq. assert (k < j)%nat; [|lia].
            destruct (Nat.lt_ge_cases k j); auto. exfalso. assert (X (S j) <= X (S k)) by (apply X_le; lia). lra.
          * exists k'. apply in_seq in A. split; [lia|]. auto.
        + apply Rleb_false in C.
          assert (x < X k).
          { destruct (Rleb (X k) x) eqn:C1; [|apply Rleb_false in C1; auto]. simpl in Hm.
            apply negb_true_iff in Hm. apply Rltb_false in Hm. lra. }
          destruct (scan_ok x (rev (seq 0 k))) with (s := s) as (k' & A & B & D); auto.
          * intros i Hin. apply in_rev in Hin. apply in_seq in Hin. lia.
          * exists j. split; [|lra]. apply -> in_rev. apply in_seq. assert (j < k)%nat; [|lia].
            destruct (Nat.lt_ge_cases j k); auto. exfalso. assert (X k <= X j) by (apply X_le; lia). lra.
          * exists k'. apply in_rev in A. apply in_seq in A. split; [lia|]. auto.
      - destruct (scan_ok x (seq 0 (n - 1))) with (s := s) as (k' & A & B & D); auto.
        + intros i Hin. apply in_seq in Hin. lia.
        + exists j. split; [apply in_seq; lia|lra].
        + exists k'. apply in_seq in A. split; [lia|]. auto. }
    destruct G as (k & Hk & Ek & E). rewrite E. simpl.
    destruct Ek as [E1 E2].
    assert (B1 : Rleb (X k) x = true) by (apply Rleb_true; auto). assert (B2 : Rleb x (X (S k)) = true) by (apply Rleb_true; auto).
    assert (B3 : (k <? n)%nat = true) by (apply Nat.ltb_lt; lia).
    rewrite B1, B2, B3. simpl. rewrite Hv, !at_ok by lia. replace (k + 1)%nat with (S k) by lia. simpl.
    pose proof (Hinc k Hk).
    rewrite rdiv_ok by lra. eexists _, k. split; [reflexivity|]. split; [|split; [reflexivity|auto]].
    unfold good. simpl. repeat split; auto.
  Qed.

  Lemma call_ok x s : good s -> exists s', call x s = Ok (Some (fval x), s') /\ good s'.
  Proof.
    intros G. pose proof G as (Hv & H1 & H2 & H3 & H4 & Hi). unfold call. rewrite H1, H2, H3, H4.
    destruct (Rleb x (X 0%nat)) eqn:C1; [apply Rleb_true in C1; exists s; rewrite fval_low by auto; auto|].
    destruct (Rleb (X (n - 1)%nat) x) eqn:C2; [apply Rleb_true in C2; exists s; rewrite fval_high by auto; auto|].
    apply Rleb_false in C1. apply Rleb_false in C2.
    destruct (miss x s) eqn:M.
    - destruct (findindex_ok x (set_flag s true)) as (s' & k & E & G' & I' & L & Hk); auto.
      rewrite E. simpl. pose proof G' as (_ & _ & _ & _ & _ & Hi'). rewrite I' in Hi'.
      destruct Hi' as (_ & A0 & _ & A1 & _ & A2). rewrite A0, A1, A2. exists s'. split; auto. rewrite (fval_seg k) by auto. auto.
    - simpl. unfold miss in M. destruct (index s) as [k|] eqn:Ik; [|discriminate].
      destruct Hi as (Hk & A0 & A3 & A1 & _ & A2). rewrite A0, A1, A2. exists s. split; auto.
      apply negb_false_iff, andb_true_iff in M. rewrite Rleb_true, Rltb_true in M. rewrite A0, A3 in M.
      rewrite (fval_seg k) by (auto; lra). auto.
  Qed.

  Lemma calls_ok xs : forall s, good s -> calls xs s = Ok (map (fun x => Some (fval x)) xs).
  Proof.
    induction xs as [|x t IH]; intros s G; simpl; auto.
    destruct (call_ok x s G) as (s' & E & G'). rewrite E. simpl. rewrite IH; auto.
  Qed.

  Lemma construct_ok check : exists s, construct check v = Ok s /\ good s.
  Proof.
    unfold construct. replace (length v <? 2)%nat with false by (symmetry; apply Nat.ltb_ge; auto). rewrite andb_false_r.
    rewrite back_eq by (fold n; lia). unfold front. fold n. rewrite !at_ok by lia. simpl. eexists. split; [reflexivity|]. unfold good. simpl. repeat split; auto.
  Qed.

  Lemma interpolate_ok check xs : interpolate check v xs = Ok (map (fun x => Some (fval x)) xs).
  Proof. unfold interpolate. destruct (construct_ok check) as (s & E & G). rewrite E. simpl. apply calls_ok; auto. Qed.

  Lemma fval_interpolant x : linear_interpolant v x (fval x).
  Proof.
    split; [|split].
    - intros p Hp Hx. rewrite nth_ok in Hp by lia. inversion Hp; subst. simpl in *. apply fval_low; auto.
    - intros p Hp Hx. fold n in Hp. rewrite nth_ok in Hp by lia. inversion Hp; subst. simpl in *. apply fval_high; auto.
    - intros i p q Hp Hq Hx. assert (Hi : (S i < n)%nat) by (unfold n; apply nth_error_Some; congruence).
      rewrite nth_ok in Hp, Hq by lia. inversion Hp; inversion Hq; subst. simpl in *. rewrite (fval_seg i) by auto.
      unfold slope. field. pose proof (Hinc i Hi). lra.
  Qed.

  (** The cumulative table. *)
  Definition good_int (t : intlinint) : Prop :=
    good (base t) /\ length (intvec t) = n /\ (forall k, (k < n)%nat -> nth_error (intvec t) k = Some (X k, Sval k)) /\
    intfxmin t = 0 /\ intfxmax t = Sval (n - 1).

  Lemma call_int_ok x t : good_int t -> exists t', call_int x t = Ok (Some (Fval x), t') /\ good_int t'.
  Proof.
    intros GI. pose proof GI as (G & Hl & Hk' & Hmin & Hmax). pose proof G as (Hv & H1 & H2 & H3 & H4 & Hi).
    unfold call_int. rewrite H1, H2, H3, H4, Hmin, Hmax.
    destruct (Rleb x (X 0%nat)) eqn:C1.
    { apply Rleb_true in C1. exists t. rewrite Fval_low by auto. split; auto. f_equal. f_equal. f_equal. ring. }
    destruct (Rleb (X (n - 1)%nat) x) eqn:C2; [apply Rleb_true in C2; exists t; rewrite Fval_high by auto; auto|].
    apply Rleb_false in C1. apply Rleb_false in C2.
    destruct (miss x (base t)) eqn:M.
    - destruct (findindex_ok x (base t)) as (s' & k & E & G' & I' & L & Hk); auto.
      rewrite E. simpl. rewrite I'. pose proof G' as (_ & _ & _ & _ & _ & Hi'). rewrite I' in Hi'.
      destruct Hi' as (_ & A0 & _ & A1 & _ & A2). rewrite A0, A1, A2. unfold at_. rewrite Hk' by lia. simpl.
      rewrite (Fval_seg k) by auto. eexists. split; [reflexivity|]. unfold good_int. simpl. auto.
    - simpl. unfold miss in M. destruct (index (base t)) as [k|] eqn:Ik; [|discriminate].
      destruct Hi as (Hk & A0 & A3 & A1 & _ & A2). rewrite A0, A1, A2. unfold at_. rewrite Hk' by lia. simpl.
      apply negb_false_iff, andb_true_iff in M. rewrite Rleb_true, Rltb_true in M. rewrite A0, A3 in M.
      rewrite (Fval_seg k) by (auto; lra). eexists. split; [reflexivity|]. unfold good_int. simpl. auto.
  Qed.
  Lemma calls_int_ok xs : forall t, good_int t -> calls_int xs t = Ok (map (fun x => Some (Fval x)) xs).
  Proof.
    induction xs as [|x r IH]; intros s G; simpl; auto.
    destruct (call_int_ok x s G) as (s' & E & G'). rewrite E. simpl. rewrite IH; auto.
  Qed.
End Table.

Lemma Sval_cons p q t k : Sval (p :: q :: t) (S k) = (fst q - fst p) * ((snd q + snd p) / 2) + Sval (q :: t) k.
Proof.
  induction k; [unfold Sval; simpl; ring|].
  change (Sval (p :: q :: t) (S (S k))) with (Sval (p :: q :: t) (S k) + (fst (nth (S k) (q :: t) (0, 0)) - fst (nth k (q :: t) (0, 0))) *
    ((snd (nth (S k) (q :: t) (0, 0)) + snd (nth k (q :: t) (0, 0))) / 2)).
  rewrite IHk. unfold Sval at 2. simpl. fold (Sval (q :: t) k). unfold Sval. simpl. ring.
Qed.

Lemma trapezoid_loop_ok t : forall p sum,
  trapezoid_loop p t sum = (map (fun k => (fst (nth k (p :: t) (0, 0)), sum + Sval (p :: t) k)) (seq 1 (length t)), sum + Sval (p :: t) (length t)).
Proof.
  induction t as [|q t IH]; intros p sum.
  - unfold Sval. simpl. f_equal. ring.
  - change (trapezoid_loop p (q :: t) sum) with (let sum := sum + (fst q - fst p) * ((snd q + snd p) / 2) in
      let '(l, s) := trapezoid_loop q t sum in ((fst q, sum) :: l, s)).
    cbv zeta. rewrite (IH q). change (length (q :: t)) with (S (length t)).
    change (seq 1 (S (length t))) with (1%nat :: seq 2 (length t)). rewrite <- (seq_shift (length t) 1).
    rewrite map_cons, map_map. rewrite !Sval_cons. f_equal; [f_equal|].
    + f_equal. unfold Sval. simpl. ring.
    + apply map_ext. intros k. rewrite Sval_cons. f_equal. ring.
    + ring.
Qed.

Lemma integrate_ok p t : let v := p :: t in
  integrate_trapezoidal v = Ok (map (fun k => (fst (nth k v (0, 0)), Sval v k)) (seq 0 (length v)), Sval v (length v - 1)).
Proof.
  intros v. unfold integrate_trapezoidal. simpl. rewrite (trapezoid_loop_ok t p 0). simpl. rewrite Nat.sub_0_r. f_equal. f_equal.
  - f_equal. apply map_ext. intros k. f_equal. fold v. ring.
  - fold v. ring.
Qed.

Lemma inc_nth v : increasing v -> forall i, (S i < length v)%nat -> fst (nth i v (0, 0)) < fst (nth (S i) v (0, 0)).
Proof. intros H i Hi. apply (H i); apply nth_error_nth'; lia. Qed.

Lemma cumulative_ok v : increasing v -> (2 <= length v)%nat -> exists t, cumulative v = Ok t /\ good_int v t.
Proof.
  intros Hi Hl. unfold cumulative.
  assert (Hc : exists p t, v = p :: t) by (destruct v; simpl in *; [lia|eauto]). destruct Hc as (p & t & Ev).
  pose proof (integrate_ok p t) as E0. cbv zeta in E0. rewrite <- Ev in E0. rewrite E0. simpl. clear E0 Ev.
  unfold construct_int. destruct (construct_ok v Hl true) as (s & E & G). rewrite E. simpl.
  set (iv := map (fun k => (fst (nth k v (0, 0)), Sval v k)) (seq 0 (length v))).
  assert (Li : length iv = length v) by (unfold iv; rewrite map_length, seq_length; auto).
  assert (N : forall k, (k < length v)%nat -> nth_error iv k = Some (fst (nth k v (0, 0)), Sval v k)).
  { intros k Hk. unfold iv. rewrite nth_error_map. rewrite (nth_error_nth' _ 0%nat) by (rewrite seq_length; auto).
    rewrite seq_nth by auto. reflexivity. }
  rewrite back_eq by lia. unfold front, at_. rewrite Li, !N by lia. simpl. eexists. split; [reflexivity|].
  split; [exact G|]. simpl. split; [exact Li|]. split; [exact N|]. auto.
Qed.

Lemma integrals_ok v xs : increasing v -> (2 <= length v)%nat -> integrals v xs = Ok (map (fun x => Some (Fval v x)) xs).
Proof.
  intros Hi Hl. unfold integrals. destruct (cumulative_ok v Hi Hl) as (t & E & G). rewrite E. simpl.
  apply calls_int_ok; auto. apply inc_nth; auto.
Qed.

(** The interpolant is determined by its description. *)
Lemma interpolant_unique v x y : increasing v -> (2 <= length v)%nat -> linear_interpolant v x y -> y = fval v x.
Proof.
  intros Hi Hl (L1 & L2 & L3). pose proof (inc_nth v Hi) as Hn.
  assert (N : forall i, (i < length v)%nat -> nth_error v i = Some (fst (nth i v (0, 0)), snd (nth i v (0, 0)))).
  { intros i H. rewrite <- surjective_pairing. apply nth_error_nth'; auto. }
  destruct (Rle_lt_dec x (fst (nth 0 v (0, 0)))).
  - rewrite fval_low by auto. apply (L1 _ (N 0%nat ltac:(lia))). auto.
  - destruct (Rle_lt_dec (fst (nth (length v - 1) v (0, 0))) x).
    + rewrite fval_high by auto. apply (L2 _ (N (length v - 1)%nat ltac:(lia))). auto.
    + destruct (locate v Hl x) as (k & Hk & E); [lra|lra|]. rewrite (fval_seg v Hl Hn k) by (auto; lra).
      rewrite (L3 k _ _ (N k ltac:(lia)) (N (S k) Hk)) by (simpl; lra). simpl. unfold slope. field. pose proof (Hn k Hk). lra.
Qed.

Lemma Fval_first v : increasing v -> (2 <= length v)%nat -> Fval v (fst (nth 0 v (0, 0))) = 0.
Proof. intros Hi Hl. rewrite Fval_low; [ring|auto|apply inc_nth; auto|lra]. Qed.

Lemma fval_nonneg v x : increasing v -> (2 <= length v)%nat -> (forall p, In p v -> 0 <= snd p) -> 0 <= fval v x.
Proof.
  intros Hi Hl Hp. pose proof (inc_nth v Hi) as Hn.
  assert (P : forall i, (i < length v)%nat -> 0 <= snd (nth i v (0, 0))) by (intros; apply Hp, nth_In; auto).
  destruct (Rle_lt_dec x (fst (nth 0 v (0, 0)))); [rewrite fval_low by auto; apply P; lia|].
  destruct (Rle_lt_dec (fst (nth (length v - 1) v (0, 0))) x); [rewrite fval_high by auto; apply P; lia|].
  destruct (locate v Hl x) as (k & Hk & E); [lra|lra|]. rewrite (fval_seg v Hl Hn k) by (auto; lra).
  pose proof (P k ltac:(lia)) as P0. pose proof (P (S k) Hk) as P1. pose proof (Hn k Hk) as W. unfold slope.
  set (a := snd (nth k v (0, 0))) in *. set (b := snd (nth (S k) v (0, 0))) in *. set (u := fst (nth k v (0, 0))) in *. set (w := fst (nth (S k) v (0, 0))) in *.
  replace (a + (b - a) / (w - u) * (x - u)) with ((a * (w - x) + b * (x - u)) / (w - u)) by (field; lra).
  apply Rmult_le_pos; [|left; apply Rinv_0_lt_compat; lra].
  apply Rplus_le_le_0_compat; apply Rmult_le_pos; lra.
Qed.

Lemma Fval_mono v a b : increasing v -> (2 <= length v)%nat -> (forall p, In p v -> 0 <= snd p) -> a <= b -> Fval v a <= Fval v b.
Proof.
  intros Hi Hl Hp Hab. pose proof (inc_nth v Hi) as Hn.
  assert (pr : derivable (Fval v)) by (intros x; exists (fval v x); apply Fval_deriv).
  apply (nonneg_derivative_1 (Fval v) pr); auto. intros x.
  rewrite (derive_pt_eq_0 (Fval v) x (fval v x) (pr x)) by apply Fval_deriv. apply fval_nonneg; auto.
Qed.

Lemma history_form : forall check v, increasing v -> (2 <= length v)%nat ->
  exists f, (forall x, linear_interpolant v x (f x)) /\ (forall x y, linear_interpolant v x y -> y = f x) /\
    forall xs, interpolate check v xs = Ok (map (fun x => Some (f x)) xs).
Proof.
  intros check v Hi Hl. pose proof (inc_nth v Hi) as Hn. exists (fval v). split; [intros; apply fval_interpolant; auto|].
  split; [intros; apply interpolant_unique; auto|]. intros. apply interpolate_ok; auto.
Qed.

Lemma integral_form : forall v p0, increasing v -> (2 <= length v)%nat -> nth_error v 0 = Some p0 ->
  exists f F, (forall x, linear_interpolant v x (f x)) /\ integral_from (fst p0) f F /\
    forall xs, integrals v xs = Ok (map (fun x => Some (F x)) xs).
Proof.
  intros v p0 Hi Hl H0. pose proof (inc_nth v Hi) as Hn. exists (fval v), (Fval v). split; [intros; apply fval_interpolant; auto|].
  split; [|intros; apply integrals_ok; auto]. split; [|intros; apply Fval_deriv; auto].
  apply nth_error_nth with (d := (0, 0)) in H0. rewrite <- H0. apply Fval_first; auto.
Qed.

Lemma total_form : forall v p q, increasing v -> (2 <= length v)%nat -> nth_error v (length v - 1) = Some p -> nth_error v 0 = Some q ->
  exists f F iv, (forall x, linear_interpolant v x (f x)) /\ integral_from (fst q) f F /\ integrate_trapezoidal v = Ok (iv, F (fst p)) /\
    map fst iv = map fst v /\ map snd iv = map (fun a => F (fst a)) v.
Proof.
  intros v p q Hi Hl Hp Hq. pose proof (inc_nth v Hi) as Hn.
  exists (fval v), (Fval v). destruct v as [|a t]; [simpl in Hl; lia|]. set (v := a :: t) in *. eexists.
  split; [intros; apply fval_interpolant; auto|].
  split; [split; [apply nth_error_nth with (d := (0, 0)) in Hq; rewrite <- Hq; apply Fval_first; auto|intros; apply Fval_deriv; auto]|].
  split; [unfold v at 1; rewrite (integrate_ok a t); fold v; apply nth_error_nth with (d := (0, 0)) in Hp; rewrite <- Hp, Fval_node by (auto; lia); reflexivity|].
  rewrite !map_map. assert (M : forall (B : Type) (g : R * R -> B), map g v = map (fun k => g (nth k v (0, 0))) (seq 0 (length v))).
  { intros B g. clear. induction v as [|b r IH]; auto. simpl. rewrite IH. f_equal. rewrite <- seq_shift, map_map. apply map_ext. auto. }
  split.
  - rewrite (M _ fst). reflexivity.
  - rewrite (M _ (fun a => Fval v (fst a))). apply map_ext_in. intros k Hk. apply in_seq in Hk. symmetry. apply (Fval_node v Hl Hn k). lia.
Qed.

Lemma short_form : forall v xs, (length v < 2)%nat -> interpolate true v xs = Throw.
Proof. intros v xs H. unfold interpolate, construct. apply Nat.ltb_lt in H. rewrite H. reflexivity. Qed.

(** Evaluation of comparisons of numerals. *)
Ltac rcmp := repeat first [
  match goal with |- context [Rleb ?a ?b] => first [
    replace (Rleb a b) with true by (symmetry; apply Rleb_true; lra) |
    replace (Rleb a b) with false by (symmetry; apply Rleb_false; lra)] end |
  match goal with |- context [Rltb ?a ?b] => first [
    replace (Rltb a b) with true by (symmetry; apply Rltb_true; lra) |
    replace (Rltb a b) with false by (symmetry; apply Rltb_false; lra)] end |
  match goal with |- context [rdiv ?a ?b] => first [
    replace (rdiv a b) with (@None R) by (unfold rdiv; destruct (Req_EM_T b 0); [reflexivity|exfalso; lra]) |
    replace (rdiv a b) with (Some (a / b)) by (unfold rdiv; destruct (Req_EM_T b 0); [exfalso; lra|reflexivity])] end |
  progress simpl].

(** A step given by two values at the same abscissa. *)
Definition step_table : table := [(0, 0); (1, 0); (1, 1); (2, 1)].
Lemma step_form : nondecreasing step_table /\
  interpolate true step_table [1] = Ok [Some 0] /\
  interpolate true step_table [1 / 2; 1] = Ok [Some 0; None] /\
  interpolate true step_table [3 / 2; 1] = Ok [Some 1; Some 1].
Proof.
  split; [|split; [|split]].
  - intros i p q Hp Hq. destruct i as [|[|[|[|]]]]; simpl in *; inversion Hp; inversion Hq; subst; simpl; try lra.
  - unfold interpolate, construct. simpl. unfold call. simpl. rcmp. unfold findindex, scan. simpl. rcmp. f_equal. f_equal. f_equal. lra.
  - unfold interpolate, construct. simpl. unfold call at 1. simpl. rcmp. unfold findindex, scan. simpl. rcmp.
    unfold call, miss. simpl. rcmp. unfold findindex, scan. simpl. rcmp. f_equal. f_equal. f_equal. lra.
  - unfold interpolate, construct. simpl. unfold call at 1. simpl. rcmp. unfold findindex, scan. simpl. rcmp.
    unfold call, miss. simpl. rcmp. f_equal. f_equal; [f_equal; lra|f_equal; f_equal; lra].
Qed.
