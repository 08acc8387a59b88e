From Coq Require Import List ZArith Reals Lia Lra Bool.
From Verif Require Import Base Interp_model Chain_model Chain_spec Chain_lanczos.
Import ListNotations.
Local Open Scope R_scope.

Section Run.
  Variables (M : nat) (e : nat -> R * R).

  Lemma step_not_ok n q xi zeta s : inv M e n q xi zeta s -> (forall c s', lanczos_step M e s <> Ok (c, s')) ->
    lanczos_step M e s = Throw /\ same M (residual M e q xi n) zero_state.
  Proof.
    intros H E. unfold lanczos_step in *. cbv zeta in *. rewrite (zeta_eq M e n q xi zeta s H) in *.
    assert (X : msum M (fun m => fst (u_prev s m) * fst (u_prev s m) * (fst (e m) * fst (e m)) + snd (u_prev s m) * snd (u_prev s m) * (snd (e m) * snd (e m))) - xi2_prev s - onsite M e q n * onsite M e q n
      = inner M (residual M e q xi n) (residual M e q xi n)).
    { rewrite <- (xi2_eq M e n q xi zeta s H). unfold xi2_of. cbv zeta. rewrite (zeta_eq M e n q xi zeta s H). reflexivity. }
    rewrite X in *. set (N2 := inner M (residual M e q xi n) (residual M e q xi n)) in *.
    destruct (Rle_dec N2 0) as [Hz|Hp]; [split; [auto|apply ip_pos_def; auto]|]. exfalso. apply Rnot_le_lt in Hp.
    set (x := sqrt N2) in *. assert (Hx : 0 < x) by (apply sqrt_lt_R0; auto). assert (Hxx : x * x = N2) by (apply sqrt_sqrt; lra).
    pose proof H as (Hu & Hu2 & Hxp & Hxp2 & O & HC). rewrite Hu, Hu2, Hxp in E.
    set (w := fun m => ((_ - _) / x, _)) in E.
    assert (W : same M w (fun m => (fst (residual M e q xi n m) / x, snd (residual M e q xi n m) / x))).
    { intros m Hm. unfold w, residual, comb3, star. simpl. f_equal; f_equal; ring. }
    assert (NW : msum M (fun m => fst (w m) * fst (w m) + snd (w m) * snd (w m)) = 1).
    { rewrite msum_sum. change (inner M w w = 1). rewrite (ip_ext _ _ _ _ W), ip_scale, ip_sym, (ip_ext _ _ _ _ W), ip_scale. fold N2. rewrite <- Hxx. field. lra. }
    unfold fix_norm in E. rewrite NW, sqrt_1 in E. destruct (Req_EM_T 1 0); [lra|]. simpl in E. eapply E. reflexivity.
  Qed.

  Lemma loop_ok k : forall n q xi zeta s l, inv M e n q xi zeta s -> lanczos_loop k M e s = Ok l ->
    exists q' xi' zeta' s', inv M e (n + k) q' xi' zeta' s' /\ length l = k /\ q' 0%nat = q 0%nat /\
      (forall i, (i < n)%nat -> xi' i = xi i /\ zeta' i = zeta i) /\
      (forall i, (i < k)%nat -> nth i l (0, 0) = (xi' (n + i)%nat, zeta' (n + i)%nat)).
  Proof.
    induction k; intros n q xi zeta s l H E; simpl in E.
    - inversion E; subst. exists q, xi, zeta, s. rewrite Nat.add_0_r. split; [auto|]. split; [auto|]. split; [auto|]. split; [auto|]. intros; lia.
    - destruct (lanczos_step M e s) as [[c s1]| |] eqn:Es; try discriminate. simpl in E.
      destruct (lanczos_loop k M e s1) as [l1| |] eqn:El; try discriminate. simpl in E. inversion E; subst l. clear E.
      destruct (step_ok M e n q xi zeta s c s1 H Es) as (r & H1).
      destruct (IHk _ _ _ _ _ _ H1 El) as (q' & xi' & zeta' & s' & H' & Ll & Q0 & Hlow & Hl).
      exists q', xi', zeta', s'. rewrite <- Nat.add_succ_comm. split; [auto|]. split; [simpl; auto|].
      split; [rewrite Q0, upd_other by lia; auto|]. split.
      + intros i Hi. destruct (Hlow i ltac:(lia)) as [-> ->]. rewrite !upd_other by lia. auto.
      + intros [|i] Hi; simpl.
        * destruct (Hlow n ltac:(lia)) as [A B]. rewrite !upd_same in *. rewrite Nat.add_0_r, A, B. apply surjective_pairing.
        * rewrite (Hl i) by lia. rewrite Nat.add_succ_comm. auto.
  Qed.

  Lemma loop_not_ok k : forall n q xi zeta s, inv M e n q xi zeta s -> (forall l, lanczos_loop k M e s <> Ok l) ->
    lanczos_loop k M e s = Throw /\
    exists n' q' xi' zeta' s', (n <= n' < n + k)%nat /\ inv M e n' q' xi' zeta' s' /\ q' 0%nat = q 0%nat /\ same M (residual M e q' xi' n') zero_state.
  Proof.
    induction k; intros n q xi zeta s H E; simpl in *; [exfalso; eapply E; reflexivity|].
    destruct (lanczos_step M e s) as [[c s1]| |] eqn:Es.
    - simpl in *. destruct (step_ok M e n q xi zeta s c s1 H Es) as (r & H1).
      destruct (IHk _ _ _ _ _ H1) as (T & n' & q' & xi' & zeta' & s' & Hn & H' & Q & R0).
      + intros l El. rewrite El in E. simpl in E. apply (E (c :: l)). reflexivity.
      + rewrite T. split; auto. exists n', q', xi', zeta', s'. split; [lia|]. split; auto.
    - split; auto. destruct (step_not_ok n q xi zeta s H) as [_ R0]; [rewrite Es; discriminate|].
      exists n, q, xi, zeta, s. split; [lia|]. auto.
    - destruct (step_not_ok n q xi zeta s H) as [R0 _]; [rewrite Es; discriminate|]. congruence.
  Qed.

  Definition norm2 (u : state) : R := inner M u u.
  Definition normalised (u : state) : state := fun m => (fst (u m) / sqrt (norm2 u), snd (u m) / sqrt (norm2 u)).

  Lemma fix_norm_eq u : fix_norm M u = if Req_EM_T (sqrt (norm2 u)) 0 then Throw else Ok (normalised u).
  Proof. unfold fix_norm. rewrite msum_sum. reflexivity. Qed.
  Lemma normalised_norm u : sqrt (norm2 u) <> 0 -> inner M (normalised u) (normalised u) = 1.
  Proof.
    intros H. assert (0 <= norm2 u) by apply ip_nonneg. unfold normalised. rewrite ip_scale, ip_sym, ip_scale. fold (norm2 u).
    rewrite <- (sqrt_sqrt (norm2 u)) at 1 by auto. field. auto.
  Qed.

  Lemma init_inv u : sqrt (norm2 u) <> 0 ->
    inv M e 0 (fun _ => normalised u) (fun _ => 0) (fun _ => 0) {| u_prev := normalised u; u_prev2 := fun _ => (0, 0); xi_prev := 0; xi2_prev := 0 |}.
  Proof.
    intros H. unfold inv. simpl. split; [auto|]. split; [auto|]. split; [auto|]. split; [ring|]. split.
    - intros i j Hi Hj. replace i with 0%nat by lia. replace j with 0%nat by lia. simpl. apply normalised_norm; auto.
    - intros i Hi. lia.
  Qed.

  Lemma tridiag_ok Nmax u l : tridiag M Nmax u e = Ok l ->
    length l = (Nmax + 1)%nat /\ 0 < norm2 u /\
    exists q xi zeta, q 0%nat = normalised u /\ orthonormal M (Nmax + 2) q /\
      forall n, (n <= Nmax)%nat -> nth n l (0, 0) = (xi n, zeta n) /\ chain_form M e q xi zeta n /\ 0 < xi n.
  Proof.
    unfold tridiag. rewrite fix_norm_eq. destruct (Req_EM_T (sqrt (norm2 u)) 0) as [|H]; [discriminate|]. simpl. intros E.
    destruct (loop_ok _ _ _ _ _ _ _ (init_inv u H) E) as (q & xi & zeta & s & I0 & L & Q & _ & Hl). split; auto.
    assert (0 <= norm2 u) by apply ip_nonneg. split.
    { destruct (Req_dec (norm2 u) 0); [|lra]. exfalso. apply H. rewrite H1. apply sqrt_0. }
    destruct I0 as (_ & _ & _ & _ & O & C). exists q, xi, zeta. split; [auto|]. split; [replace (Nmax + 2)%nat with (S (0 + (Nmax + 1))) by lia; auto|].
    intros n Hn. rewrite (Hl n) by lia. destruct (C n ltac:(lia)). auto.
  Qed.

  Lemma tridiag_not_ok Nmax u : (forall l, tridiag M Nmax u e <> Ok l) ->
    tridiag M Nmax u e = Throw /\
    (same M u zero_state \/
     exists n q xi zeta, (n <= Nmax)%nat /\ q 0%nat = normalised u /\ orthonormal M (n + 1) q /\
       (forall i, (i < n)%nat -> chain_form M e q xi zeta i) /\
       same M (star e (q n)) (comb3 (hop_before xi n) (before q n) (zeta n) (q n) 0 (q n))).
  Proof.
    unfold tridiag. rewrite fix_norm_eq. assert (Hp : 0 <= norm2 u) by apply ip_nonneg.
    destruct (Req_EM_T (sqrt (norm2 u)) 0) as [Hz|H].
    { intros _. split; [reflexivity|]. left. apply ip_pos_def. apply sqrt_eq_0 in Hz; auto. unfold norm2 in Hz. rewrite Hz. lra. }
    simpl. intros E. destruct (loop_not_ok _ _ _ _ _ _ (init_inv u H) E) as (T & n & q & xi & zeta & s & Hn & I0 & Q & R0).
    split; auto. right. destruct I0 as (_ & _ & _ & _ & O & C).
    exists n, q, xi, (upd zeta n (onsite M e q n)). split; [lia|]. split; auto. split; [replace (n + 1)%nat with (S n) by lia; auto|]. split.
    - intros i Hi. unfold chain_form. rewrite upd_other by lia. apply C; auto.
    - intros m Hm. rewrite upd_same. pose proof (R0 m Hm) as E0. unfold residual, comb3, zero_state in *. unfold star in *. simpl in *.
      injection E0 as E1 E2. f_equal; lra.
  Qed.
End Run.

Section Moments.
  Variables (M : nat) (e : nat -> R * R) (N : nat) (q : nat -> state) (xi zeta : nat -> R).
  Hypothesis O : orthonormal M (N + 2) q.
  Hypothesis C : forall n, (n <= N)%nat -> chain_form M e q xi zeta n.
  Notation ip := (inner M).

  Fixpoint A_iter (k : nat) (a : state) : state := match k with 0%nat => a | S p => star e (A_iter p a) end.
  Lemma A_iter_r k a : A_iter (S k) a = A_iter k (star e a).
  Proof. induction k; simpl in *; auto. rewrite IHk. auto. Qed.
  Lemma A_iter_val k a m : A_iter k a m = (fst (e m) ^ k * fst (a m), (- snd (e m)) ^ k * snd (a m)).
  Proof.
    induction k; simpl; [rewrite !Rmult_1_l; apply surjective_pairing|]. unfold star. rewrite IHk. simpl. f_equal; ring.
  Qed.
  Lemma A_iter_sym k a b : ip (A_iter k a) b = ip a (A_iter k b).
  Proof. apply sum_to_ext. intros m Hm. rewrite !A_iter_val. simpl. ring. Qed.

  Lemma ip_chain n b : (n <= N)%nat -> ip (star e (q n)) b = hop_before xi n * ip (before q n) b + zeta n * ip (q n) b + xi n * ip (q (S n)) b.
  Proof. intros Hn. rewrite (ip_ext _ _ _ _ (C n Hn)), ip_comb3. auto. Qed.

  Lemma far k : forall i j, (i + k < j)%nat -> (j <= N + 1)%nat -> ip (q j) (A_iter k (q i)) = 0.
  Proof.
    induction k; intros i j Hij Hj.
    - simpl. rewrite (O j i) by lia. destruct (Nat.eq_dec j i); [lia|auto].
    - rewrite A_iter_r, <- A_iter_sym, ip_sym, ip_chain by lia.
      rewrite (ip_sym _ (q i)), (ip_sym _ (q (S i))), !A_iter_sym, (IHk i j), (IHk (S i) j) by lia.
      destruct i; simpl; [ring|]. rewrite (ip_sym _ (q i)), A_iter_sym, (IHk i j) by lia. ring.
  Qed.

  Lemma amplitudes k : forall j, (j <= N)%nat -> (k + j <= 2 * N + 1)%nat -> ip (q j) (A_iter k (q 0%nat)) = repeat_hop k N xi zeta j.
  Proof.
    induction k; intros j Hj Hk.
    - simpl. rewrite (O j 0%nat) by lia. destruct j; simpl; auto.
    - simpl A_iter. rewrite <- ip_star, ip_chain by auto. simpl. unfold chain_hop.
      replace (j <=? N)%nat with true by (symmetry; apply Nat.leb_le; auto).
      rewrite (IHk j) by lia. f_equal; [f_equal|].
      + destruct j; simpl; [ring|]. rewrite (IHk j) by lia. auto.
      + destruct (Nat.ltb_spec j N).
        * rewrite (IHk (S j)) by lia. auto.
        * rewrite far by lia. ring.
  Qed.
End Moments.

Lemma moments_form : forall M Nmax u e l, tridiag M Nmax u e = Ok l ->
  exists xi zeta, (forall n, (n <= Nmax)%nat -> nth_error l n = Some (xi n, zeta n)) /\
    forall k, (k <= 2 * Nmax + 1)%nat -> star_moment M u e k = star_moment M u e 0 * chain_moment Nmax xi zeta k.
Proof.
  intros M Nmax u e l E. destruct (tridiag_ok M e Nmax u l E) as (L & Hp & q & xi & zeta & Q & O & C).
  exists xi, zeta. split.
  - intros n Hn. destruct (C n Hn) as (E1 & _). rewrite <- E1. apply nth_error_nth'. lia.
  - intros k Hk. unfold chain_moment. rewrite <- (amplitudes M e Nmax q xi zeta O (fun n H => proj1 (proj2 (C n H))) k 0) by lia.
    assert (N0 : star_moment M u e 0 = norm2 M u) by (apply sum_to_ext; intros; simpl; ring).
    rewrite N0, Q. unfold star_moment, inner. rewrite <- sum_to_scal. apply sum_to_ext. intros m Hm. rewrite A_iter_val. unfold normalised. simpl.
    pose proof (sqrt_sqrt (norm2 M u) ltac:(lra)) as Sq. pose proof (sqrt_lt_R0 _ Hp) as Sp.
    set (r := sqrt (norm2 M u)) in *. rewrite <- Sq. field. lra.
Qed.

Lemma chain_form_form : forall M Nmax u e l, tridiag M Nmax u e = Ok l ->
  length l = (Nmax + 1)%nat /\
  exists c q xi zeta, 0 < c /\ same M u (fun m => (c * fst (q 0%nat m), c * snd (q 0%nat m))) /\ orthonormal M (Nmax + 2) q /\
    forall n, (n <= Nmax)%nat -> nth_error l n = Some (xi n, zeta n) /\ chain_form M e q xi zeta n /\ 0 < xi n.
Proof.
  intros M Nmax u e l E. destruct (tridiag_ok M e Nmax u l E) as (L & Hp & q & xi & zeta & Q & O & C). split; auto.
  exists (sqrt (norm2 M u)), q, xi, zeta. pose proof (sqrt_lt_R0 _ Hp). split; auto. split.
  - intros m Hm. rewrite Q. unfold normalised. simpl. destruct (u m) as [x y]. simpl. f_equal; field; lra.
  - split; auto. intros n Hn. destruct (C n Hn) as (E1 & E2 & E3). rewrite <- E1. split; auto. apply nth_error_nth'. lia.
Qed.

Lemma abort_form : forall M Nmax u e, (forall l, tridiag M Nmax u e <> Ok l) ->
  tridiag M Nmax u e = Throw /\
  (same M u zero_state \/
   exists c n q xi zeta, (n <= Nmax)%nat /\ 0 < c /\ same M u (fun m => (c * fst (q 0%nat m), c * snd (q 0%nat m))) /\ orthonormal M (n + 1) q /\
     (forall i, (i < n)%nat -> chain_form M e q xi zeta i) /\
     same M (star e (q n)) (comb3 (hop_before xi n) (before q n) (zeta n) (q n) 0 (q n))).
Proof.
  intros M Nmax u e E. destruct (tridiag_not_ok M e Nmax u E) as (T & H). split; auto.
  destruct H as [H|(n & q & xi & zeta & Hn & Q & O & C & S0)]; [left; auto|].
  assert (Hp : 0 < norm2 M u).
  { assert (0 <= norm2 M u) by apply ip_nonneg. destruct (Req_dec (norm2 M u) 0) as [Z|]; [|lra]. exfalso.
    pose proof (O 0%nat 0%nat ltac:(lia) ltac:(lia)) as O0. simpl in O0. rewrite Q in O0.
    assert (S1 : same M u zero_state) by (apply ip_pos_def; unfold norm2 in Z; rewrite Z; lra).
    assert (S2 : same M (normalised M u) zero_state).
    { intros m Hm. unfold normalised. rewrite (S1 m Hm). unfold zero_state. simpl. f_equal; unfold Rdiv; ring. }
    rewrite (ip_ext _ _ _ _ S2), ip_zero in O0. lra. }
  right. pose proof (sqrt_lt_R0 _ Hp). exists (sqrt (norm2 M u)), n, q, xi, zeta. split; auto. split; auto. split.
  - intros m Hm. rewrite Q. unfold normalised. simpl. destruct (u m) as [x y]. simpl. f_equal; field; lra.
  - auto.
Qed.
