From Coq Require Import List ZArith Reals Lia Lra Bool.
From Verif Require Import Base Interp_model Interp_spec Interp_proofs Chain_model Chain_spec Chain_lanczos Chain_tables.
Import ListNotations.
Local Open Scope R_scope.

Lemma floor_one x : 1 <= x < 2 -> IZR (Int_part x) = 1.
Proof.
  intros H. destruct (base_Int_part x) as [A B]. assert (Int_part x = 1%Z) as ->; [|reflexivity].
  assert (Int_part x < 2)%Z by (apply lt_IZR; lra). assert (0 < Int_part x)%Z by (apply lt_IZR; lra). lia.
Qed.
Lemma floor_more x : 2 <= x -> IZR (Int_part x) <> 1.
Proof.
  intros H E. destruct (base_Int_part x) as [A B]. lra.
Qed.

Section Flat.
  Variable L : R.
  Hypothesis HL : 1 < L.
  Lemma lnL : 0 < ln L.
  Proof. rewrite <- ln_1. apply ln_increasing; lra. Qed.
  Definition lowx (x : R) := (1 - Rpower L (1 - x)) / ln L + 2 - x.
  Definition highx (x : R) := (1 - Rpower L (- (1))) / ln L * Rpower L (2 - x).
  Lemma Eps_low x : 1 <= x < 2 -> Eps_flat L x = lowx x.
  Proof.
    intros H. unfold Eps_flat, lowx, power. rewrite floor_one by auto. destruct (Req_EM_T 1 1); [|contradiction].
    replace (- (x - 1)) with (1 - x) by ring. ring.
  Qed.
  Lemma Eps_high x : 2 <= x -> Eps_flat L x = highx x.
  Proof.
    intros H. unfold Eps_flat, highx, power. destruct (Req_EM_T (IZR (Int_part x)) 1) as [E|]; [exfalso; apply (floor_more x H E)|].
    replace (2 - IZR (Int_part x) - (x - IZR (Int_part x))) with (2 - x) by ring. reflexivity.
  Qed.
  Lemma Rpower_deriv c x : derivable_pt_lim (fun t => Rpower L (c - t)) x (- (ln L * Rpower L (c - x))).
  Proof.
    unfold Rpower. assert (D : derivable_pt_lim (fun t => (c - t) * ln L) x ((0 - 1) * ln L + (c - x) * 0)).
    { apply (derivable_pt_lim_mult (fun t => c - t) (fun _ => ln L)); [|apply derivable_pt_lim_const].
      apply (derivable_pt_lim_minus (fun _ => c) id); [apply derivable_pt_lim_const|apply derivable_pt_lim_id]. }
    pose proof (derivable_pt_lim_comp _ exp x _ _ D (derivable_pt_lim_exp _)) as E. unfold comp in E.
    replace (- (ln L * exp ((c - x) * ln L))) with (exp ((c - x) * ln L) * ((0 - 1) * ln L + (c - x) * 0)) by ring. exact E.
  Qed.
  Lemma low_deriv x : derivable_pt_lim lowx x (- (1 - Rpower L (1 - x))).
  Proof.
    pose proof lnL as Hl. unfold lowx.
    assert (D : derivable_pt_lim (fun t => (1 - Rpower L (1 - t)) * / ln L + 2 - t) x (((0 - - (ln L * Rpower L (1 - x))) * / ln L + (1 - Rpower L (1 - x)) * 0) + 0 - 1)).
    { apply (derivable_pt_lim_minus (fun t => (1 - Rpower L (1 - t)) * / ln L + 2) id); [|apply derivable_pt_lim_id].
      apply (derivable_pt_lim_plus (fun t => (1 - Rpower L (1 - t)) * / ln L) (fun _ => 2)); [|apply derivable_pt_lim_const].
      apply (derivable_pt_lim_mult (fun t => 1 - Rpower L (1 - t)) (fun _ => / ln L)); [|apply derivable_pt_lim_const].
      apply (derivable_pt_lim_minus (fun _ => 1) (fun t => Rpower L (1 - t))); [apply derivable_pt_lim_const|apply Rpower_deriv]. }
    replace (- (1 - Rpower L (1 - x))) with (((0 - - (ln L * Rpower L (1 - x))) * / ln L + (1 - Rpower L (1 - x)) * 0) + 0 - 1); [exact D|field; lra].
  Qed.
  Lemma pow_shift x : Rpower L (- (1)) * Rpower L (2 - x) = Rpower L (1 - x).
  Proof. rewrite <- Rpower_plus. f_equal. ring. Qed.
  Lemma high_deriv x : derivable_pt_lim highx x (- (Rpower L (2 - x) - Rpower L (1 - x))).
  Proof.
    pose proof lnL as Hl. unfold highx.
    pose proof (derivable_pt_lim_scal (fun t => Rpower L (2 - t)) ((1 - Rpower L (- (1))) / ln L) x _ (Rpower_deriv 2 x)) as D.
    replace (- (Rpower L (2 - x) - Rpower L (1 - x))) with ((1 - Rpower L (- (1))) / ln L * - (ln L * Rpower L (2 - x))); [exact D|].
    rewrite <- pow_shift. field. lra.
  Qed.
  Lemma meet : lowx 2 = highx 2.
  Proof.
    unfold lowx, highx. replace (1 - 2) with (- (1)) by ring. replace (2 - 2) with 0 by ring. rewrite Rpower_O by lra. ring.
  Qed.

  Lemma deriv_glue (f a b : R -> R) c d : (forall x, c - 1 <= x < c -> f x = a x) -> (forall x, c <= x -> f x = b x) -> a c = b c ->
    derivable_pt_lim a c d -> derivable_pt_lim b c d -> derivable_pt_lim f c d.
  Proof.
    intros Ha Hb Hc Da Db eps0 He. destruct (Da eps0 He) as [da Da']. destruct (Db eps0 He) as [db Db'].
    assert (Hm : 0 < Rmin (Rmin da db) 1) by (repeat apply Rmin_glb_lt; try apply cond_pos; lra).
    exists (mkposreal _ Hm). intros h Hh Hd. simpl in Hd.
    assert (h1 : Rabs h < da) by (eapply Rlt_le_trans; [exact Hd|]; eapply Rle_trans; [apply Rmin_l|apply Rmin_l]).
    assert (h2 : Rabs h < db) by (eapply Rlt_le_trans; [exact Hd|]; eapply Rle_trans; [apply Rmin_l|apply Rmin_r]).
    assert (h3 : Rabs h < 1) by (eapply Rlt_le_trans; [exact Hd|]; apply Rmin_r).
    rewrite (Hb c) by lra. destruct (Rlt_le_dec h 0).
    - apply Rabs_def2 in h3. rewrite (Ha (c + h)) by lra. rewrite <- Hc. apply Da'; auto.
    - rewrite (Hb (c + h)) by lra. apply Db'; auto.
  Qed.
  Lemma deriv_local (f g : R -> R) c d r : 0 < r -> (forall x, Rabs (x - c) < r -> f x = g x) -> derivable_pt_lim g c d -> derivable_pt_lim f c d.
  Proof.
    intros Hr H D eps0 He. destruct (D eps0 He) as [da Da].
    assert (Hm : 0 < Rmin da r) by (apply Rmin_glb_lt; try apply cond_pos; lra). exists (mkposreal _ Hm). intros h Hh Hd. simpl in Hd.
    assert (h1 : Rabs h < da) by (eapply Rlt_le_trans; [exact Hd|apply Rmin_l]).
    assert (h2 : Rabs h < r) by (eapply Rlt_le_trans; [exact Hd|apply Rmin_r]).
    rewrite (H (c + h)), (H c); [apply Da; auto| |].
    - replace (c - c) with 0 by ring. rewrite Rabs_R0. auto.
    - replace (c + h - c) with h by ring. auto.
  Qed.

  Lemma flat_ode x : 1 < x -> derivable_pt_lim (Eps_flat L) x (- (fixed_mesh L x - fixed_mesh L (x + 1))).
  Proof.
    intros Hx. unfold fixed_mesh. destruct (Rle_dec (x + 1) 2); [lra|]. replace (2 - (x + 1)) with (1 - x) by ring.
    destruct (Rtotal_order x 2) as [H|[H|H]].
    - destruct (Rle_dec x 2); [|lra]. apply (deriv_local _ lowx x _ (Rmin (x - 1) (2 - x))); [apply Rmin_glb_lt; lra| |apply low_deriv].
      intros t Ht. assert (A1 : Rabs (t - x) < x - 1) by (eapply Rlt_le_trans; [exact Ht|apply Rmin_l]).
      assert (A2 : Rabs (t - x) < 2 - x) by (eapply Rlt_le_trans; [exact Ht|apply Rmin_r]).
      apply Rabs_def2 in A1. apply Rabs_def2 in A2. apply Eps_low. lra.
    - subst x. destruct (Rle_dec 2 2); [|lra].
      apply (deriv_glue _ lowx highx); [intros; apply Eps_low; lra|intros; apply Eps_high; auto|apply meet|apply low_deriv|].
      pose proof (high_deriv 2) as D. replace (2 - 2) with 0 in D by ring. rewrite Rpower_O in D by lra. exact D.
    - destruct (Rle_dec x 2); [lra|]. apply (deriv_local _ highx x _ (x - 2)); [lra| |apply high_deriv].
      intros t Ht. apply Rabs_def2 in Ht. apply Eps_high. lra.
  Qed.

  Lemma inv_L : Rpower L (- (1)) = exp (- ln L).
  Proof. unfold Rpower. f_equal. ring. Qed.
  Lemma C_bounds : exp (- ln L) < (1 - exp (- ln L)) / ln L < 1.
  Proof.
    pose proof lnL as Hl. assert (E1 : 1 + - ln L < exp (- ln L)) by (apply exp_ineq1; lra).
    assert (E2 : 1 + ln L < exp (ln L)) by (apply exp_ineq1; lra).
    assert (E3 : exp (- ln L) * exp (ln L) = 1) by (rewrite <- exp_plus; replace (- ln L + ln L) with 0 by ring; apply exp_0).
    pose proof (exp_pos (- ln L)) as Ep. split.
    - apply (Rmult_lt_reg_r (ln L)); auto. unfold Rdiv. rewrite Rmult_assoc, Rinv_l, Rmult_1_r by lra. nra.
    - apply (Rmult_lt_reg_r (ln L)); auto. unfold Rdiv. rewrite Rmult_assoc, Rinv_l, Rmult_1_r by lra. lra.
  Qed.

  Lemma exp_convex a t : 0 <= t <= 1 -> exp (- (a * t)) <= (1 - t) + t * exp (- a).
  Proof.
    intros Ht. set (s := - (a * t)).
    assert (T1 : exp s * (1 + (0 - s)) <= 1).
    { destruct (Req_dec s 0) as [->|N]; [rewrite exp_0; lra|].
      pose proof (exp_ineq1 (0 - s) ltac:(lra)). pose proof (exp_pos s). replace 1 with (exp s * exp (0 - s)) at 2 by (rewrite <- exp_plus; replace (s + (0 - s)) with 0 by ring; apply exp_0).
      apply Rmult_le_compat_l; lra. }
    assert (T2 : exp s * (1 + (- a - s)) <= exp (- a)).
    { destruct (Req_dec (- a - s) 0) as [E|N]; [rewrite E; replace (- a) with s by lra; lra|].
      pose proof (exp_ineq1 (- a - s) N). pose proof (exp_pos s). replace (exp (- a)) with (exp s * exp (- a - s)) by (rewrite <- exp_plus; f_equal; ring).
      apply Rmult_le_compat_l; lra. }
    replace (exp s) with ((1 - t) * (exp s * (1 + (0 - s))) + t * (exp s * (1 + (- a - s)))) by (unfold s; ring).
    apply Rplus_le_compat; [rewrite <- (Rmult_1_r (1 - t)) at 2|]; apply Rmult_le_compat_l; lra.
  Qed.

  Lemma flat_interval x : 1 < x -> fixed_mesh L (x + 1) < Eps_flat L x < fixed_mesh L x.
  Proof.
    intros Hx. pose proof lnL as Hl. unfold fixed_mesh at 1. destruct (Rle_dec (x + 1) 2); [lra|]. replace (2 - (x + 1)) with (1 - x) by ring.
    destruct (Rlt_le_dec x 2) as [H|H].
    - rewrite Eps_low by lra. unfold fixed_mesh. destruct (Rle_dec x 2); [|lra]. unfold lowx, Rpower.
      set (a := ln L) in *. set (t := x - 1). replace ((1 - x) * a) with (- (a * t)) by (unfold t; ring). replace x with (1 + t) by (unfold t; ring).
      assert (Ht : 0 < t < 1) by (unfold t; lra). split.
      + pose proof (exp_convex a t ltac:(lra)) as Cx. pose proof (exp_pos (- (a * t))) as Ep.
        assert (E2 : 1 + a < exp a) by (apply exp_ineq1; lra).
        assert (E3 : exp (- a) * exp a = 1) by (rewrite <- exp_plus; replace (- a + a) with 0 by ring; apply exp_0).
        pose proof (exp_pos (- a)) as Ea.
        assert (Key : (a + 1) * exp (- a) < 1) by nra.
        assert (Hmul : (1 - exp (- (a * t))) + a * (1 - t) > a * exp (- (a * t))).
        { assert (exp (- (a * t)) * (1 + a) <= ((1 - t) + t * exp (- a)) * (1 + a)) by (apply Rmult_le_compat_r; lra). nra. }
        apply (Rmult_lt_reg_r a); auto. replace (((1 - exp (- (a * t))) / a + 2 - (1 + t)) * a) with ((1 - exp (- (a * t))) + a * (1 - t)) by (field; lra). lra.
      + assert (E1 : 1 + - (a * t) < exp (- (a * t))) by (apply exp_ineq1; nra).
        apply (Rmult_lt_reg_r a); auto. replace (((1 - exp (- (a * t))) / a + 2 - (1 + t)) * a) with ((1 - exp (- (a * t))) + a * (1 - t)) by (field; lra). lra.
    - rewrite Eps_high by auto. destruct C_bounds as [C1 C2]. unfold highx. rewrite inv_L.
      assert (F : fixed_mesh L x = Rpower L (2 - x)).
      { unfold fixed_mesh. destruct (Rle_dec x 2); auto. replace x with 2 by lra. replace (2 - 2) with 0 by ring. rewrite Rpower_O; lra. }
      rewrite F, <- pow_shift, inv_L. pose proof (Rpower_pos L (2 - x)). split.
      + apply Rmult_lt_compat_r; auto.
      + rewrite <- (Rmult_1_l (Rpower L (2 - x))) at 2. apply Rmult_lt_compat_r; auto.
  Qed.
End Flat.

Lemma flat_table_form : forall P vp vn r, band vp -> band vn -> tables P vp vn = Ok r -> flat P = true -> 1 < Lambda P -> 0 < z P ->
  length (de r) = (mMAX P + 1)%nat /\
  forall m, (m <= mMAX P)%nat -> exists a, nth_error (de r) m = Some (a, a) /\
    fixed_mesh (Lambda P) (z P + INR m + 2) < a < fixed_mesh (Lambda P) (z P + INR m + 1).
Proof.
  intros P vp vn r Bp Bn E Hf HL Hz. rewrite tables_eq in E by auto. destruct (checksum_fails _); [discriminate|]. inversion E; subst r; clear E.
  unfold result. simpl. split; [rewrite map_length, seq_length; auto|]. intros m Hm. rewrite nth_error_map.
  rewrite (nth_error_nth' _ 0%nat) by (rewrite seq_length; lia). rewrite seq_nth by lia. simpl. unfold Eps. rewrite Hf.
  eexists. split; [reflexivity|]. pose proof (pos_INR m).
  replace (z P + INR m + 2) with (z P + INR m + 1 + 1) by ring. apply flat_interval; auto. lra.
Qed.
