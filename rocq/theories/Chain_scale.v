From Coq Require Import List ZArith Reals Lia Lra Bool.
From Verif Require Import Base Interp_model Chain_model Chain_spec Chain_lanczos.
Import ListNotations.
Local Open Scope R_scope.

Section Scale.
  Variables (M : nat) (e : nat -> R * R) (c : R).
  Hypothesis Hc : 0 < c.
  Definition scaled (e : nat -> R * R) : nat -> R * R := fun m => (c * fst (e m), c * snd (e m)).
  Definition rel (s s' : lstate) : Prop :=
    (forall m, u_prev s' m = u_prev s m) /\ (forall m, u_prev2 s' m = u_prev2 s m) /\ xi_prev s' = c * xi_prev s /\ xi2_prev s' = c * c * xi2_prev s.

  Lemma fix_norm_ext u u' : (forall m, u' m = u m) ->
    match fix_norm M u, fix_norm M u' with
    | Ok a, Ok a' => forall m, a' m = a m
    | Throw, Throw => True
    | _, _ => False
    end.
  Proof.
    intros H. unfold fix_norm. cbv zeta.
    assert (E : msum M (fun m => fst (u' m) * fst (u' m) + snd (u' m) * snd (u' m)) = msum M (fun m => fst (u m) * fst (u m) + snd (u m) * snd (u m))).
    { rewrite !msum_sum. apply sum_to_ext. intros. rewrite H. auto. }
    rewrite E. destruct (Req_EM_T _ 0); auto. intros m. rewrite H. auto.
  Qed.

  Lemma step_scale s s' : rel s s' ->
    match lanczos_step M e s, lanczos_step M (scaled e) s' with
    | Ok (r, t), Ok (r', t') => r' = (c * fst r, c * snd r) /\ rel t t'
    | Throw, Throw => True
    | _, _ => False
    end.
  Proof.
    intros (Hu & Hu2 & Hx & Hx2). unfold lanczos_step. cbv zeta.
    set (zeta := msum M (fun m => fst (u_prev s m) * fst (u_prev s m) * fst (e m) - _)).
    assert (Ez : msum M (fun m => fst (u_prev s' m) * fst (u_prev s' m) * fst (scaled e m) - snd (u_prev s' m) * snd (u_prev s' m) * snd (scaled e m)) = c * zeta).
    { unfold zeta. rewrite !msum_sum, <- sum_to_scal. apply sum_to_ext. intros. rewrite Hu. unfold scaled. simpl. ring. }
    rewrite Ez.
    set (xi2 := msum M (fun m => fst (u_prev s m) * fst (u_prev s m) * (fst (e m) * fst (e m)) + _) - xi2_prev s - zeta * zeta).
    assert (E2 : msum M (fun m => fst (u_prev s' m) * fst (u_prev s' m) * (fst (scaled e m) * fst (scaled e m)) + snd (u_prev s' m) * snd (u_prev s' m) * (snd (scaled e m) * snd (scaled e m))) - xi2_prev s' - c * zeta * (c * zeta) = c * c * xi2).
    { unfold xi2. rewrite Hx2, !msum_sum. rewrite !Rmult_minus_distr_l, <- sum_to_scal. f_equal; [f_equal|ring]. apply sum_to_ext. intros. rewrite Hu. unfold scaled. simpl. ring. }
    rewrite E2. destruct (Rle_dec xi2 0), (Rle_dec (c * c * xi2) 0); auto; try nra.
    - exfalso. assert (0 < c * c) by nra. nra.
    - assert (Es : sqrt (c * c * xi2) = c * sqrt xi2) by (rewrite sqrt_mult by nra; rewrite sqrt_square by lra; auto).
      rewrite Es. assert (0 < sqrt xi2) by (apply sqrt_lt_R0; lra). set (x := sqrt xi2) in *.
      set (w := fun m => (((fst (e m) - zeta) * fst (u_prev s m) - xi_prev s * fst (u_prev2 s m)) / x,
                          ((- snd (e m) - zeta) * snd (u_prev s m) - xi_prev s * snd (u_prev2 s m)) / x)).
      set (w' := fun m => (((fst (scaled e m) - c * zeta) * fst (u_prev s' m) - xi_prev s' * fst (u_prev2 s' m)) / (c * x),
                           ((- snd (scaled e m) - c * zeta) * snd (u_prev s' m) - xi_prev s' * snd (u_prev2 s' m)) / (c * x))).
      assert (W : forall m, w' m = w m).
      { intros m. unfold w, w'. rewrite Hu, Hu2, Hx. unfold scaled. simpl. f_equal; field; lra. }
      pose proof (fix_norm_ext w w' W) as F. destruct (fix_norm M w) as [a| |], (fix_norm M w') as [a'| |]; unfold bind; auto.
      set (x1 := msum M (fun m => fst (a m) * fst (u_prev s m) * fst (e m) - _)).
      assert (E3 : msum M (fun m => fst (a' m) * fst (u_prev s' m) * fst (scaled e m) - snd (a' m) * snd (u_prev s' m) * snd (scaled e m)) = c * x1).
      { unfold x1. rewrite !msum_sum, <- sum_to_scal. apply sum_to_ext. intros. rewrite F, Hu. unfold scaled. simpl. ring. }
      rewrite E3. split; auto. unfold rel. simpl. split; auto. split; auto. split; [auto|ring].
  Qed.

  Lemma loop_scale n : forall s s', rel s s' ->
    lanczos_loop n M (scaled e) s' = let* l := lanczos_loop n M e s in Ok (map (fun r => (c * fst r, c * snd r)) l).
  Proof.
    induction n; intros s s' H; simpl; auto. pose proof (step_scale s s' H) as F.
    destruct (lanczos_step M e s) as [[r t]| |], (lanczos_step M (scaled e) s') as [[r' t']| |]; simpl; try contradiction; auto.
    destruct F as [-> F]. rewrite (IHn t t' F). destruct (lanczos_loop n M e t); simpl; auto.
  Qed.
End Scale.

Lemma scale_form : forall M Nmax u e c, 0 < c ->
  tridiag M Nmax u (fun m => (c * fst (e m), c * snd (e m))) = let* l := tridiag M Nmax u e in Ok (map (fun r => (c * fst r, c * snd r)) l).
Proof.
  intros M Nmax u e c Hc. unfold tridiag. destruct (fix_norm M u) as [u0| |]; simpl; auto.
  apply (loop_scale M e c Hc). unfold rel. simpl. repeat split; auto; ring.
Qed.

Lemma stored_form : forall L z b n r, stored L z b false n r = (b * fst r, b * snd r).
Proof. intros. unfold stored, Rdiv. rewrite Rinv_1. f_equal; ring. Qed.

Lemma bandrescale_form : forall M Nmax u e b L z, 0 < b -> forall l n r, tridiag M Nmax u e = Ok l -> nth_error l n = Some r ->
  exists l', tridiag M Nmax u (fun m => (b * fst (e m), b * snd (e m))) = Ok l' /\ nth_error l' n = Some (stored L z b false n r).
Proof.
  intros M Nmax u e b L z Hb l n r E Hn. rewrite scale_form, E by auto. simpl. eexists. split; [reflexivity|]. rewrite nth_error_map, Hn. simpl.
  rewrite stored_form. auto.
Qed.
