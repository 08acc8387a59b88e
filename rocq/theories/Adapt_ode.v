(** Convergence of the Runge-Kutta steps, for a right-hand side that satisfies a Lipschitz condition along the solution. *)
From Coq Require Import List ZArith Reals Lra Lia.
From Coquelicot Require Import Coquelicot.
From Verif Require Import Adapt_spec.
Import ListNotations.
Local Open Scope R_scope.

Section Conv.
  Variables (F : R -> R -> R) (Y : R -> R) (a X Lx Ly M : R).
  Hypothesis HLx : 0 <= Lx.
  Hypothesis HLy : 0 < Ly.
  Hypothesis HM : 0 <= M.
  Hypothesis Hsol : forall x, a <= x <= X -> is_derive Y x (F x (Y x)).
  Hypothesis Hbound : forall x, a <= x <= X -> Rabs (F x (Y x)) <= M.
  Hypothesis Hlip : forall x x' y, a <= x <= X -> a <= x' <= X -> Rabs (F x y - F x' (Y x')) <= Lx * Rabs (x - x') + Ly * Rabs (y - Y x').

  Lemma mean x d : a <= x -> 0 <= d -> x + d <= X -> exists c, x <= c <= x + d /\ Y (x + d) - Y x = d * F c (Y c).
  Proof.
    intros H1 H2 H3. destruct (MVT_gen Y x (x + d) (fun t => F t (Y t))) as (c & Hc & E).
    - intros t Ht. rewrite Rmin_left, Rmax_right in Ht by lra. apply Hsol. lra.
    - intros t Ht. rewrite Rmin_left, Rmax_right in Ht by lra. apply continuity_pt_filterlim. apply (ex_derive_continuous Y). eexists. apply Hsol. lra.
    - rewrite Rmin_left, Rmax_right in Hc by lra. exists c. split; [assumption |]. rewrite E. ring.
  Qed.
  Lemma drift x c d : a <= x -> x <= c <= x + d -> x + d <= X -> Rabs (Y x - Y c) <= d * M.
  Proof.
    intros H1 H2 H3. destruct (mean x (c - x)) as (u & Hu & E); try lra. replace (x + (c - x)) with c in * by ring.
    rewrite Rabs_minus_sym, E, Rabs_mult, Rabs_right by lra. pose proof (Hbound u ltac:(lra)). apply Rle_trans with ((c - x) * M); [apply Rmult_le_compat_l; lra |]. apply Rmult_le_compat_r; lra.
  Qed.
  (** One evaluation within a step: x the beginning of the step, z the point of evaluation, w the value there. *)
  Lemma stage x z c d y w e q : a <= x -> x <= z <= x + d -> x <= c <= x + d -> x + d <= X -> Rabs (y - Y x) <= e -> Rabs (w - y) <= q ->
    Rabs (F z w - F c (Y c)) <= Lx * d + Ly * (q + e + d * M).
  Proof.
    intros H1 H2 H3 H4 He Hq. eapply Rle_trans; [apply Hlip; lra |]. pose proof (drift x c d H1 H3 H4) as D. apply Rplus_le_compat.
    - apply Rmult_le_compat_l; [assumption |]. apply Rabs_le. lra.
    - apply Rmult_le_compat_l; [lra |]. replace (w - Y c) with ((w - y) + ((y - Y x) + (Y x - Y c))) by ring. eapply Rle_trans; [apply Rabs_triang |]. pose proof (Rabs_triang (y - Y x) (Y x - Y c)). lra.
  Qed.
  Definition Kc : R := Lx + Ly * (2 * (M + Lx + Ly * M) + M).
  Lemma Kc_pos : 0 <= Kc.
  Proof. unfold Kc. assert (0 <= Ly * M) by (apply Rmult_le_pos; lra). assert (0 <= Ly * (2 * (M + Lx + Ly * M) + M)) by (apply Rmult_le_pos; lra). lra. Qed.

  Lemma one_step x y d : a <= x -> 0 <= d <= 1 -> d * Ly <= 1 / 2 -> x + d <= X ->
    Rabs (y + rk4 F x y d - Y (x + d)) <= Rabs (y - Y x) * (1 + 2 * Ly * d) + Kc * (d * d).
  Proof.
    intros H1 H2 H3 H4. set (e := Rabs (y - Y x)). destruct (mean x d H1 (proj1 H2) H4) as (c & Hc & E).
    assert (He : 0 <= e) by apply Rabs_pos. assert (Hdd : 0 <= d * d) by nra.
    set (B := M + Lx + Ly * M). assert (HB : 0 <= B) by (unfold B; assert (0 <= Ly * M) by (apply Rmult_le_pos; lra); lra). assert (HLe : 0 <= Ly * e) by (apply Rmult_le_pos; lra).
    (* the size of a stage *)
    assert (S : forall z w q, x <= z <= x + d -> Rabs (w - y) <= q -> Rabs (F z w) <= B + Ly * e + Ly * q).
    { intros z w q Hz Hq. pose proof (stage x z x d y w e q H1 Hz ltac:(lra) H4 (Rle_refl _) Hq) as St. pose proof (Hbound x ltac:(lra)) as Hb.
      replace (F z w) with ((F z w - F x (Y x)) + F x (Y x)) by ring. eapply Rle_trans; [apply Rabs_triang |]. unfold B.
      assert (Lx * d <= Lx * 1) by (apply Rmult_le_compat_l; lra). assert (Ly * (d * M) <= Ly * M) by (apply Rmult_le_compat_l; [lra |]; assert (d * M <= 1 * M) by (apply Rmult_le_compat_r; lra); lra). lra. }
    set (Q := 2 * d * (B + Ly * e)). assert (HQ : 0 <= Q) by (unfold Q; apply Rmult_le_pos; lra).
    (* increments of all stages are at most Q *)
    assert (T : forall z w, x <= z <= x + d -> Rabs (w - y) <= Q -> d * Rabs (F z w) <= Q).
    { intros z w Hz Hw. pose proof (S z w Q Hz Hw) as HS. apply Rle_trans with (d * (B + Ly * e + Ly * Q)); [apply Rmult_le_compat_l; lra |].
      replace (d * (B + Ly * e + Ly * Q)) with (d * (B + Ly * e) + (d * Ly) * Q) by ring. assert ((d * Ly) * Q <= 1 / 2 * Q) by (apply Rmult_le_compat_r; lra). unfold Q in *. lra. }
    unfold rk4. set (k1 := F x y). set (k2 := F (x + d / 2) (y + d / 2 * k1)). set (k3 := F (x + d / 2) (y + d / 2 * k2)). set (k4 := F (x + d) (y + d * k3)).
    assert (N : forall s k, 0 <= s <= d -> d * Rabs k <= Q -> Rabs (y + s * k - y) <= Q).
    { intros s k Hs Hk. replace (y + s * k - y) with (s * k) by ring. rewrite Rabs_mult, (Rabs_right s) by lra. apply Rle_trans with (d * Rabs k); [apply Rmult_le_compat_r; [apply Rabs_pos | lra] | assumption]. }
    assert (W1 : Rabs (y - y) <= Q) by (rewrite Rminus_diag_eq, Rabs_R0 by reflexivity; assumption).
    pose proof (T x y ltac:(lra) W1) as T1. fold k1 in T1. pose proof (N (d / 2) k1 ltac:(lra) T1) as W2. pose proof (T (x + d / 2) _ ltac:(lra) W2) as T2. fold k2 in T2.
    pose proof (N (d / 2) k2 ltac:(lra) T2) as W3. pose proof (T (x + d / 2) _ ltac:(lra) W3) as T3. fold k3 in T3. pose proof (N d k3 ltac:(lra) T3) as W4.
    pose proof (stage x x c d y y e Q H1 ltac:(lra) Hc H4 (Rle_refl _) W1) as S1. fold k1 in S1.
    pose proof (stage x (x + d / 2) c d y _ e Q H1 ltac:(lra) Hc H4 (Rle_refl _) W2) as S2. fold k2 in S2.
    pose proof (stage x (x + d / 2) c d y _ e Q H1 ltac:(lra) Hc H4 (Rle_refl _) W3) as S3. fold k3 in S3.
    pose proof (stage x (x + d) c d y _ e Q H1 ltac:(lra) Hc H4 (Rle_refl _) W4) as S4. fold k4 in S4.
    set (f := F c (Y c)) in *. set (W := Lx * d + Ly * (Q + e + d * M)) in *.
    replace (y + d * (k1 + 2 * k2 + 2 * k3 + k4) / 6 - Y (x + d)) with ((y - Y x) + (d * (k1 + 2 * k2 + 2 * k3 + k4) / 6 - (Y (x + d) - Y x))) by ring. rewrite E.
    replace (d * (k1 + 2 * k2 + 2 * k3 + k4) / 6 - d * f) with (d * (((k1 - f) + 2 * (k2 - f) + 2 * (k3 - f) + (k4 - f)) / 6)) by field.
    assert (A : Rabs (((k1 - f) + 2 * (k2 - f) + 2 * (k3 - f) + (k4 - f)) / 6) <= W).
    { apply Rabs_le. apply Rabs_le_between in S1. apply Rabs_le_between in S2. apply Rabs_le_between in S3. apply Rabs_le_between in S4. split; lra. }
    eapply Rle_trans; [apply Rabs_triang |]. fold e. rewrite Rabs_mult, (Rabs_right d) by lra.
    apply Rle_trans with (e + d * W); [apply Rplus_le_compat_l, Rmult_le_compat_l; lra |]. unfold W, Q, Kc. fold B.
    assert (G : d * (d * Ly) * (2 * Ly * e) <= d * (1 / 2) * (2 * Ly * e)) by (apply Rmult_le_compat_r; [lra |]; apply Rmult_le_compat_l; lra).
    replace (d * (Lx * d + Ly * (2 * d * (B + Ly * e) + e + d * M))) with ((d * d) * (Lx + Ly * (2 * B + M)) + (d * (d * Ly) * (2 * Ly * e) + Ly * e * d)) by ring.
    replace (e * (1 + 2 * Ly * d)) with (e + (d * (1 / 2) * (2 * Ly * e) + Ly * e * d)) by field. lra.
  Qed.

  Definition bound (h x : R) : R := Kc * h / (2 * Ly) * (exp (2 * Ly * (x - a)) - 1).
  Lemma bound_step h x d : 0 <= d <= h -> a <= x -> bound h x * (1 + 2 * Ly * d) + Kc * (d * d) <= bound h (x + d).
  Proof.
    intros Hd Hx. unfold bound. pose proof Kc_pos. replace (2 * Ly * (x + d - a)) with (2 * Ly * (x - a) + 2 * Ly * d) by ring. rewrite exp_plus. set (u := exp (2 * Ly * (x - a))).
    assert (Hu : 0 < u) by apply exp_pos. assert (Hs : 1 + 2 * Ly * d <= exp (2 * Ly * d)) by (destruct (Req_dec (2 * Ly * d) 0) as [-> | N]; [rewrite exp_0; lra | apply Rlt_le, exp_ineq1; assumption]).
    set (s := exp (2 * Ly * d)) in *. set (C := Kc * h / (2 * Ly)). assert (HC : 0 <= C) by (unfold C; apply Rmult_le_pos; [apply Rmult_le_pos; lra | apply Rlt_le, Rinv_0_lt_compat; lra]).
    assert (E : Kc * (d * d) <= C * (2 * Ly * d)). { unfold C. replace (Kc * h / (2 * Ly) * (2 * Ly * d)) with (Kc * h * d) by (field; lra). replace (Kc * (d * d)) with (Kc * d * d) by ring. apply Rmult_le_compat_r; [lra |]. apply Rmult_le_compat_l; lra. }
    assert (C * (u * (1 + 2 * Ly * d)) <= C * (u * s)) by (apply Rmult_le_compat_l; [assumption |]; apply Rmult_le_compat_l; lra). lra.
  Qed.
  Lemma bound_pos h x : 0 <= h -> a <= x -> 0 <= bound h x.
  Proof.
    intros Hh Hx. unfold bound. pose proof Kc_pos. apply Rmult_le_pos; [apply Rmult_le_pos; [apply Rmult_le_pos; lra | apply Rlt_le, Rinv_0_lt_compat; lra] |]. destruct (Req_dec x a) as [-> | N]; [replace (2 * Ly * (a - a)) with 0 by ring; rewrite exp_0; lra |]. assert (exp 0 < exp (2 * Ly * (x - a))) as HE; [apply exp_increasing; apply Rmult_lt_0_compat; lra | rewrite exp_0 in HE; lra].
  Qed.
  Lemma walk_mono h acc n p q : walk F h acc n p q -> fst p <= fst q.
  Proof. induction 1; cbn [fst] in *; lra. Qed.
  Lemma walk_close h acc n p q : h <= 1 -> h * Ly <= 1 / 2 -> walk F h acc n p q -> a <= fst p -> fst q <= X -> Rabs (snd p - Y (fst p)) <= bound h (fst p) -> Rabs (snd q - Y (fst q)) <= bound h (fst q).
  Proof.
    intros Hh1 Hh2 W. induction W as [p | n x y d q Hd Ha W IH]; intros Hp Hq Hb; [assumption |]. cbn [fst snd] in *. pose proof (walk_mono _ _ _ _ _ W) as Hm. cbn [fst] in Hm.
    apply IH; [lra | assumption |]. assert (Hdl : d * Ly <= 1 / 2) by (apply Rle_trans with (h * Ly); [apply Rmult_le_compat_r; lra | assumption]).
    eapply Rle_trans; [apply one_step; lra |]. eapply Rle_trans; [| apply bound_step; lra]. apply Rplus_le_compat_r. apply Rmult_le_compat_r; [| assumption]. assert (0 <= Ly * d) by (apply Rmult_le_pos; lra). lra.
  Qed.
End Conv.
