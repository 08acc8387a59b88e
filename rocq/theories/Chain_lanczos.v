From Coq Require Import List ZArith Reals Lia Lra Bool.
From Verif Require Import Base Interp_model Chain_model Chain_spec.
Import ListNotations.
Local Open Scope R_scope.

Lemma msum_sum M f : msum M f = sum_to M f.
Proof. induction M; simpl; congruence. Qed.
Lemma sum_to_ext n f g : (forall m, (m < n)%nat -> f m = g m) -> sum_to n f = sum_to n g.
Proof. induction n; simpl; intros H; auto. rewrite IHn, H; auto. Qed.
Lemma sum_to_add n f g : sum_to n (fun m => f m + g m) = sum_to n f + sum_to n g.
Proof. induction n; simpl; [lra|]. rewrite IHn. lra. Qed.
Lemma sum_to_scal n c f : sum_to n (fun m => c * f m) = c * sum_to n f.
Proof. induction n; simpl; [lra|]. rewrite IHn. lra. Qed.
Lemma sum_to_nonneg n f : (forall m, (m < n)%nat -> 0 <= f m) -> 0 <= sum_to n f.
Proof. induction n; simpl; intros H; [lra|]. assert (0 <= sum_to n f) by auto. pose proof (H n ltac:(lia)). lra. Qed.
Lemma sum_to_zero_inv n f : (forall m, (m < n)%nat -> 0 <= f m) -> sum_to n f <= 0 -> forall m, (m < n)%nat -> f m = 0.
Proof.
  induction n; simpl; intros H Hs m Hm; [lia|]. assert (0 <= sum_to n f) by (apply sum_to_nonneg; auto).
  pose proof (H n ltac:(lia)). destruct (Nat.eq_dec m n); [subst; lra|]. apply IHn; auto; [lra|lia].
Qed.

Section Inner.
  Variables (M : nat) (e : nat -> R * R).
  Notation ip := (inner M).
  Notation A := (star e).

  Lemma ip_sym a b : ip a b = ip b a.
  Proof. apply sum_to_ext. intros. ring. Qed.
  Lemma ip_ext a a' b : same M a a' -> ip a b = ip a' b.
  Proof. intros H. apply sum_to_ext. intros m Hm. rewrite H; auto. Qed.
  Lemma ip_comb3 x a y b z c d : ip (comb3 x a y b z c) d = x * ip a d + y * ip b d + z * ip c d.
  Proof.
    unfold inner. rewrite <- !sum_to_scal, <- !sum_to_add. apply sum_to_ext. intros m Hm. unfold comb3. simpl. ring.
  Qed.
  Lemma ip_star a b : ip (A a) b = ip a (A b).
  Proof. apply sum_to_ext. intros m Hm. unfold star. simpl. ring. Qed.
  Lemma ip_zero b : ip zero_state b = 0.
  Proof. unfold inner, zero_state. simpl. induction M; simpl; auto. rewrite IHn. ring. Qed.
  Lemma ip_nonneg a : 0 <= ip a a.
  Proof. apply sum_to_nonneg. intros m Hm. nra. Qed.
  Lemma ip_pos_def a : ip a a <= 0 -> same M a zero_state.
  Proof.
    intros H m Hm. assert (E : (fun m => fst (a m) * fst (a m) + snd (a m) * snd (a m)) m = 0).
    { apply (sum_to_zero_inv M (fun m => fst (a m) * fst (a m) + snd (a m) * snd (a m))); auto. intros. nra. }
    simpl in E. destruct (a m) as [x y]. simpl in E. unfold zero_state. f_equal; nra.
  Qed.
  Lemma ip_scale c a b : ip (fun m => (fst (a m) / c, snd (a m) / c)) b = ip a b / c.
  Proof.
    unfold inner, Rdiv. rewrite (Rmult_comm _ (/ c)), <- sum_to_scal. apply sum_to_ext. intros. simpl. ring.
  Qed.

  (** The situation after n iterations. *)
  Definition inv (n : nat) (q : nat -> state) (xi zeta : nat -> R) (s : lstate) : Prop :=
    u_prev s = q n /\ u_prev2 s = before q n /\ xi_prev s = hop_before xi n /\ xi2_prev s = hop_before xi n * hop_before xi n /\
    orthonormal M (S n) q /\ (forall i, (i < n)%nat -> chain_form M e q xi zeta i /\ 0 < xi i).

  Definition onsite (q : nat -> state) n := ip (q n) (A (q n)).
  Definition residual (q : nat -> state) (xi : nat -> R) n : state :=
    comb3 1 (A (q n)) (- onsite q n) (q n) (- hop_before xi n) (before q n).

  Lemma orth_same n q i : orthonormal M (S n) q -> (i <= n)%nat -> ip (q i) (q i) = 1.
  Proof. intros H Hi. rewrite (H i i) by lia. destruct (Nat.eq_dec i i); [auto|contradiction]. Qed.
  Lemma orth_diff n q i j : orthonormal M (S n) q -> (i <= n)%nat -> (j <= n)%nat -> i <> j -> ip (q i) (q j) = 0.
  Proof. intros H Hi Hj Hd. rewrite (H i j) by lia. destruct (Nat.eq_dec i j); [contradiction|auto]. Qed.

  Lemma A_lower n q xi zeta s j : inv n q xi zeta s -> (j < n)%nat -> ip (A (q n)) (q j) = if Nat.eq_dec (S j) n then xi j else 0.
  Proof.
    intros (_ & _ & _ & _ & O & H) Hj. rewrite ip_star, ip_sym. destruct (H j Hj) as [C _].
    rewrite (ip_ext _ _ _ C), ip_comb3.
    rewrite (orth_diff n q j n O) by lia.
    assert (B : hop_before xi j * ip (before q j) (q n) = 0).
    { destruct j; simpl; [ring|]. rewrite (orth_diff n q j n O) by lia. ring. }
    rewrite B. destruct (Nat.eq_dec (S j) n).
    - subst n. rewrite (orth_same (S j) q (S j) O) by lia. ring.
    - rewrite (orth_diff n q (S j) n O) by lia. ring.
  Qed.
  Lemma A_before n q xi zeta s : inv n q xi zeta s -> ip (before q n) (A (q n)) = hop_before xi n.
  Proof.
    intros H. destruct n; simpl; [apply ip_zero|]. rewrite ip_sym, (A_lower _ _ _ _ _ n H) by lia.
    destruct (Nat.eq_dec (S n) (S n)); [auto|contradiction].
  Qed.
  Lemma before_orth n q xi zeta s : inv n q xi zeta s -> ip (before q n) (q n) = 0.
  Proof.
    intros (_ & _ & _ & _ & O & _). destruct n; simpl; [apply ip_zero|]. apply (orth_diff (S n) q n (S n) O); lia.
  Qed.
  Lemma before_norm n q xi zeta s : inv n q xi zeta s -> hop_before xi n * ip (before q n) (before q n) = hop_before xi n.
  Proof.
    intros (_ & _ & _ & _ & O & _). destruct n; simpl; [ring|]. rewrite (orth_same (S n) q n O) by lia. ring.
  Qed.

  Lemma residual_orth n q xi zeta s j : inv n q xi zeta s -> (j <= n)%nat -> ip (residual q xi n) (q j) = 0.
  Proof.
    intros H Hj. pose proof H as (_ & _ & _ & _ & O & _). unfold residual. rewrite ip_comb3.
    destruct (Nat.eq_dec j n) as [->|Hn].
    - rewrite (before_orth n q xi zeta s H), (orth_same n q n O) by lia. rewrite ip_star. unfold onsite. ring.
    - rewrite (A_lower n q xi zeta s j H) by lia. rewrite (orth_diff n q n j O) by lia.
      destruct (Nat.eq_dec (S j) n) as [E|E].
      + subst n. simpl. rewrite (orth_same (S j) q j O) by lia. ring.
      + assert (B : ip (before q n) (q j) = 0) by (destruct n; [lia|]; simpl; apply (orth_diff (S n) q n j O); lia). rewrite B. ring.
  Qed.
  Lemma residual_before n q xi zeta s : inv n q xi zeta s -> ip (residual q xi n) (before q n) = 0.
  Proof. intros H. destruct n; simpl; [rewrite ip_sym; apply ip_zero|]. apply (residual_orth (S n) q xi zeta s); auto. Qed.
  Lemma residual_A n q xi zeta s : inv n q xi zeta s -> ip (residual q xi n) (A (q n)) = ip (residual q xi n) (residual q xi n).
  Proof.
    intros H. symmetry. unfold residual at 2. rewrite ip_sym, ip_comb3, (ip_sym (q n)), (ip_sym (before q n)), (ip_sym (A (q n))).
    rewrite (residual_orth n q xi zeta s n H), (residual_before n q xi zeta s H) by lia. ring.
  Qed.
  Lemma residual_norm n q xi zeta s : inv n q xi zeta s ->
    ip (residual q xi n) (residual q xi n) = ip (A (q n)) (A (q n)) - hop_before xi n * hop_before xi n - onsite q n * onsite q n.
  Proof.
    intros H. rewrite <- (residual_A n q xi zeta s H). unfold residual. rewrite ip_comb3.
    rewrite (A_before n q xi zeta s H). unfold onsite. ring.
  Qed.

  Definition xi2_of (s : lstate) : R :=
    let u := u_prev s in
    let zeta := msum M (fun m => fst (u m) * fst (u m) * fst (e m) - snd (u m) * snd (u m) * snd (e m)) in
    msum M (fun m => fst (u m) * fst (u m) * (fst (e m) * fst (e m)) + snd (u m) * snd (u m) * (snd (e m) * snd (e m))) - xi2_prev s - zeta * zeta.
  Lemma zeta_eq n q xi zeta s : inv n q xi zeta s ->
    msum M (fun m => fst (u_prev s m) * fst (u_prev s m) * fst (e m) - snd (u_prev s m) * snd (u_prev s m) * snd (e m)) = onsite q n.
  Proof. intros (H & _). rewrite H, msum_sum. apply sum_to_ext. intros m Hm. unfold star. simpl. ring. Qed.
  Lemma xi2_eq n q xi zeta s : inv n q xi zeta s -> xi2_of s = ip (residual q xi n) (residual q xi n).
  Proof.
    intros H. unfold xi2_of. cbv zeta. rewrite (zeta_eq n q xi zeta s H), (residual_norm n q xi zeta s H).
    destruct H as (Hu & _ & _ & Hx & _). rewrite Hx, Hu, msum_sum. f_equal. f_equal. apply sum_to_ext. intros m Hm. unfold star. simpl. ring.
  Qed.

  Definition upd {T} (f : nat -> T) (n : nat) (x : T) : nat -> T := fun k => if Nat.eq_dec k n then x else f k.
  Lemma upd_same {T} (f : nat -> T) n x : upd f n x n = x.
  Proof. unfold upd. destruct (Nat.eq_dec n n); [auto|contradiction]. Qed.
  Lemma upd_other {T} (f : nat -> T) n x k : k <> n -> upd f n x k = f k.
  Proof. unfold upd. destruct (Nat.eq_dec k n); [contradiction|auto]. Qed.

  Lemma step_ok n q xi zeta s c s' : inv n q xi zeta s -> lanczos_step M e s = Ok (c, s') ->
    exists r, inv (S n) (upd q (S n) r) (upd xi n (fst c)) (upd zeta n (snd c)) s'.
  Proof.
    intros H E. unfold lanczos_step in E. cbv zeta in E.
    rewrite (zeta_eq n q xi zeta s H) in E.
    assert (X : msum M (fun m => fst (u_prev s m) * fst (u_prev s m) * (fst (e m) * fst (e m)) + snd (u_prev s m) * snd (u_prev s m) * (snd (e m) * snd (e m))) - xi2_prev s - onsite q n * onsite q n
      = ip (residual q xi n) (residual q xi n)).
    { rewrite <- (xi2_eq n q xi zeta s H). unfold xi2_of. cbv zeta. rewrite (zeta_eq n q xi zeta s H). reflexivity. }
    rewrite X in E. set (N2 := ip (residual q xi n) (residual q xi n)) in *.
    destruct (Rle_dec N2 0) as [|Hp]; [discriminate|]. apply Rnot_le_lt in Hp.
    set (x := sqrt N2) in *. assert (Hx : 0 < x) by (apply sqrt_lt_R0; auto). assert (Hxx : x * x = N2) by (apply sqrt_sqrt; lra).
    pose proof H as (Hu & Hu2 & Hxp & Hxp2 & O & HC). rewrite Hu, Hu2, Hxp in E.
    set (w := fun m => _) in E.
    assert (W : same M w (fun m => (fst (residual q xi n m) / x, snd (residual q xi n m) / x))).
    { intros m Hm. unfold w, residual, comb3, star. simpl. f_equal; f_equal; ring. }
    assert (NW : msum M (fun m => fst (w m) * fst (w m) + snd (w m) * snd (w m)) = 1).
    { rewrite msum_sum. change (ip w w = 1). rewrite (ip_ext _ _ _ W), ip_scale, ip_sym, (ip_ext _ _ _ W), ip_scale. fold N2. rewrite <- Hxx. field. lra. }
    unfold fix_norm in E. rewrite NW, sqrt_1 in E. destruct (Req_EM_T 1 0); [lra|]. simpl in E.
    set (r := fun m => (fst (w m) / 1, snd (w m) / 1)) in E.
    assert (Rr : same M r (fun m => (fst (residual q xi n m) / x, snd (residual q xi n m) / x))).
    { intros m Hm. unfold r. rewrite (W m Hm). simpl. f_equal; field; lra. }
    set (x' := msum M _) in E.
    assert (Hx' : x' = x).
    { unfold x'. rewrite msum_sum. transitivity (ip r (A (q n))).
      - apply sum_to_ext. intros m Hm. unfold star. simpl. ring.
      - rewrite (ip_ext _ _ _ Rr), ip_scale, (residual_A n q xi zeta s H). fold N2. rewrite <- Hxx. field. lra. }
    clearbody x'. subst x'. inversion E; subst c s'; clear E. exists r. simpl.
    assert (Or : forall j, (j <= n)%nat -> ip r (q j) = 0).
    { intros j Hj. rewrite (ip_ext _ _ _ Rr), ip_scale, (residual_orth n q xi zeta s j H Hj). field. lra. }
    assert (Nr : ip r r = 1).
    { rewrite (ip_ext _ _ _ Rr), ip_scale, ip_sym, (ip_ext _ _ _ Rr), ip_scale. fold N2. rewrite <- Hxx. field. lra. }
    unfold inv. simpl. rewrite !upd_same, (upd_other q (S n) r n) by lia.
    split; [auto|]. split; [auto|]. split; [auto|]. split; [auto|]. split.
    - intros i j Hi Hj. unfold upd. destruct (Nat.eq_dec i (S n)), (Nat.eq_dec j (S n)); subst.
      + destruct (Nat.eq_dec (S n) (S n)); [auto|contradiction].
      + destruct (Nat.eq_dec (S n) j); [subst; contradiction|]. apply Or. lia.
      + destruct (Nat.eq_dec i (S n)); [contradiction|]. rewrite ip_sym. apply Or. lia.
      + apply O; lia.
    - intros i Hi. destruct (Nat.eq_dec i n) as [->|Hn].
      + rewrite upd_same. split; [|exact Hx]. intros m Hm. unfold comb3. rewrite !upd_same.
        rewrite (upd_other q (S n) r n) by lia.
        assert (B : before (upd q (S n) r) n = before q n) by (destruct n; simpl; auto; rewrite upd_other by lia; auto).
        assert (B2 : hop_before (upd xi n x) n = hop_before xi n) by (destruct n; simpl; auto; rewrite upd_other by lia; auto).
        rewrite B, B2, (Rr m Hm). simpl. unfold residual, comb3, star. simpl. f_equal; field; lra.
      + destruct (HC i ltac:(lia)) as [C P]. rewrite (upd_other xi) by lia. split; [|exact P].
        unfold chain_form in *. rewrite (upd_other q (S n) r i), (upd_other q (S n) r (S i)), (upd_other zeta), (upd_other xi n) by lia.
        assert (B : before (upd q (S n) r) i = before q i) by (destruct i; simpl; auto; rewrite upd_other by lia; auto).
        assert (B2 : hop_before (upd xi n x) i = hop_before xi i) by (destruct i; simpl; auto; rewrite upd_other by lia; auto).
        rewrite B, B2. exact C.
  Qed.
End Inner.
