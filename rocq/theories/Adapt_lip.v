(** Lipschitz constants of the interpolated functions and of the discretisation equation. *)
From Coq Require Import List ZArith Reals Lra Lia.
From Coquelicot Require Import Coquelicot.
From Verif Require Import Base Interp_model Interp_spec Interp_proofs Adapt_spec.
Import ListNotations.
Local Open Scope R_scope.

(** ** Tables *)
Lemma pos_lip a b : Rabs (pos a - pos b) <= Rabs (a - b).
Proof. destruct (pos_cases a) as [[H1 ->] | [H1 ->]], (pos_cases b) as [[H2 ->] | [H2 ->]]; unfold Rabs; repeat destruct Rcase_abs; lra. Qed.
Lemma rsum_abs f n : Rabs (rsum f n) <= rsum (fun k => Rabs (f k)) n.
Proof. induction n as [| n IH]; cbn [rsum]; [rewrite Rabs_R0; lra |]. eapply Rle_trans; [apply Rabs_triang |]. lra. Qed.
Lemma rsum_le f h n : (forall k, f k <= h k) -> rsum f n <= rsum h n.
Proof. intros H. induction n as [| n IH]; cbn [rsum]; [lra |]. pose proof (H n). lra. Qed.
Lemma fval_lip v : exists L, 0 <= L /\ forall x y, Rabs (fval v x - fval v y) <= L * Rabs (x - y).
Proof.
  exists (rsum (fun k => Rabs (slope v k) * 2) (length v - 1)). split; [apply rsum_nonneg; intros; pose proof (Rabs_pos (slope v k)); lra |]. intros x y. unfold fval.
  set (X := fun i => fst (nth i v (0, 0))). change (Rabs (snd (nth 0 v (0, 0)) + rsum (fun k => slope v k * (pos (x - X k) - pos (x - X (S k)))) (length v - 1) - (snd (nth 0 v (0, 0)) + rsum (fun k => slope v k * (pos (y - X k) - pos (y - X (S k)))) (length v - 1))) <= rsum (fun k => Rabs (slope v k) * 2) (length v - 1) * Rabs (x - y)).
  set (f := fun k => slope v k * (pos (x - X k) - pos (x - X (S k)))). set (h := fun k => slope v k * (pos (y - X k) - pos (y - X (S k)))).
  replace (snd (nth 0 v (0, 0)) + rsum f (length v - 1) - (snd (nth 0 v (0, 0)) + rsum h (length v - 1))) with (rsum f (length v - 1) + (-1) * rsum h (length v - 1)) by ring. rewrite <- rsum_scal, <- rsum_add.
  eapply Rle_trans; [apply rsum_abs |]. rewrite (Rmult_comm (rsum _ _)), <- rsum_scal. apply rsum_le. intros k. unfold f, h.
  replace (slope v k * (pos (x - X k) - pos (x - X (S k))) + -1 * (slope v k * (pos (y - X k) - pos (y - X (S k))))) with (slope v k * ((pos (x - X k) - pos (y - X k)) - (pos (x - X (S k)) - pos (y - X (S k))))) by ring.
  rewrite Rabs_mult. replace (Rabs (x - y) * (Rabs (slope v k) * 2)) with (Rabs (slope v k) * (Rabs (x - y) + Rabs (x - y))) by ring. apply Rmult_le_compat_l; [apply Rabs_pos |].
  unfold Rminus at 1. eapply Rle_trans; [apply Rabs_triang |]. rewrite Rabs_Ropp. pose proof (pos_lip (x - X k) (y - X k)) as P1. pose proof (pos_lip (x - X (S k)) (y - X (S k))) as P2.
  replace (x - X k - (y - X k)) with (x - y) in P1 by ring. replace (x - X (S k) - (y - X (S k))) with (x - y) in P2 by ring. lra.
Qed.
Lemma fval_between v lo hi x : increasing v -> (2 <= length v)%nat -> (forall p, In p v -> lo <= snd p <= hi) -> lo <= fval v x <= hi.
Proof.
  intros Hi Hl Hp. pose proof (inc_nth v Hi) as Hn.
  assert (P : forall i, (i < length v)%nat -> lo <= snd (nth i v (0, 0)) <= hi) by (intros; apply Hp, nth_In; auto).
  destruct (Rle_lt_dec x (fst (nth 0 v (0, 0)))); [rewrite fval_low by auto; apply P; lia|].
  destruct (Rle_lt_dec (fst (nth (length v - 1) v (0, 0))) x); [rewrite fval_high by auto; apply P; lia|].
  destruct (locate v Hl x) as (k & Hk & E); [lra|lra|]. rewrite (fval_seg v Hl Hn k) by (auto; lra).
  pose proof (P k ltac:(lia)) as P0. pose proof (P (S k) Hk) as P1. pose proof (Hn k Hk) as W. unfold slope.
  set (a := snd (nth k v (0, 0))) in *. set (b := snd (nth (S k) v (0, 0))) in *. set (u := fst (nth k v (0, 0))) in *. set (w := fst (nth (S k) v (0, 0))) in *.
  set (t := (x - u) / (w - u)). assert (Ht : 0 <= t <= 1). { unfold t. split; [apply Rmult_le_pos; [lra | apply Rlt_le, Rinv_0_lt_compat; lra] |]. apply (Rmult_le_reg_r (w - u)); [lra |]. unfold Rdiv. rewrite Rmult_assoc, Rinv_l by lra. lra. }
  replace (a + (b - a) / (w - u) * (x - u)) with (a * (1 - t) + b * t) by (unfold t; field; lra). nra.
Qed.
Lemma table_bounds (v : list (R * R)) : (forall p, In p v -> 0 < snd p) -> exists lo hi, 0 < lo /\ 0 < hi /\ forall p, In p v -> lo <= snd p <= hi.
Proof.
  induction v as [| q v IH]; intros H; [exists 1, 1; repeat split; try lra; contradiction |]. destruct IH as (lo & hi & H1 & H2 & H3); [intros; apply H; now right |].
  pose proof (H q (or_introl eq_refl)) as Hq. exists (Rmin lo (snd q)), (Rmax hi (snd q)). split; [now apply Rmin_glb_lt |]. split; [eapply Rlt_le_trans; [exact H2 | apply Rmax_l] |].
  intros p [<- | Hp]; [split; [apply Rmin_r | apply Rmax_r] |]. destruct (H3 p Hp). split; [eapply Rle_trans; [apply Rmin_l | assumption] | eapply Rle_trans; [eassumption | apply Rmax_l]].
Qed.
Lemma Fval_lip v hi a b : increasing v -> (2 <= length v)%nat -> (forall p, In p v -> 0 <= snd p <= hi) -> Rabs (Fval v a - Fval v b) <= hi * Rabs (a - b).
Proof.
  intros Hi Hl Hp. destruct (MVT_gen (Fval v) b a (fval v)) as (c & _ & E).
  - intros. apply is_derive_Reals, Fval_deriv.
  - intros. apply derivable_continuous_pt. exists (fval v x). apply Fval_deriv.
  - rewrite E, Rabs_mult. apply Rmult_le_compat_r; [apply Rabs_pos |]. pose proof (fval_between v 0 hi c Hi Hl Hp). rewrite Rabs_right; lra.
Qed.

(** ** The powers of Lambda *)
Section L.
  Variable Lambda : R.
  Hypothesis HL : 1 < Lambda.
  Let P x := Rpower Lambda (2 - x).
  Lemma lnpos : 0 < ln Lambda.
  Proof. rewrite <- ln_1. apply ln_increasing; lra. Qed.
  Lemma P_pos x : 0 < P x.
  Proof. unfold P, Rpower. apply exp_pos. Qed.
  Lemma P_decr x x' : x <= x' -> P x' <= P x.
  Proof. intros H. unfold P. apply Rle_Rpower; lra. Qed.
  Lemma P_one : P 1 = Lambda.
  Proof. unfold P. replace (2 - 1) with 1 by ring. apply Rpower_1. lra. Qed.
  Lemma P_two : P 2 = 1.
  Proof. unfold P. replace (2 - 2) with 0 by ring. apply Rpower_O. lra. Qed.
  Lemma P_top x : 1 <= x -> P x <= Lambda.
  Proof. intros H. rewrite <- P_one. now apply P_decr. Qed.
  Lemma P_derive x : is_derive P x (- ln Lambda * P x).
  Proof. subst P. unfold Rpower. auto_derive; [auto |]. unfold Rminus. ring. Qed.
  Lemma P_lip x x' : 1 <= x -> 1 <= x' -> Rabs (P x - P x') <= ln Lambda * Lambda * Rabs (x - x').
  Proof.
    intros H1 H2. destruct (MVT_gen P x' x (fun t => - ln Lambda * P t)) as (c & Hc & E).
    - intros. apply P_derive.
    - intros. apply continuity_pt_filterlim. apply (ex_derive_continuous P). eexists. apply P_derive.
    - rewrite E, !Rabs_mult, Rabs_Ropp. pose proof lnpos. pose proof (P_pos c). rewrite (Rabs_right (ln Lambda)), (Rabs_right (P c)) by lra. apply Rmult_le_compat_r; [apply Rabs_pos |]. apply Rmult_le_compat_l; [lra |]. apply P_top. pose proof (Rmin_glb x' x 1 H2 H1). lra.
  Qed.

  (** ** The boundaries of the intervals *)
  Lemma grid_lip gap gf B Lg : 0 <= B -> 0 <= Lg -> (forall x, Rabs (gf x) <= B) -> (forall x x', Rabs (gf x - gf x') <= Lg * Rabs (x - x')) -> gf 2 = 1 ->
    exists Le, 0 <= Le /\ forall x x', 1 <= x -> 1 <= x' -> Rabs (grid Lambda gap gf x - grid Lambda gap gf x') <= Le * Rabs (x - x').
  Proof.
    intros HB HLg Hb Hg G2. pose proof lnpos as Hln. set (C := B * (ln Lambda * Lambda) + Lambda * Lg). assert (HC : 0 <= C). { unfold C. assert (0 <= ln Lambda * Lambda) by (apply Rmult_le_pos; lra). assert (0 <= B * (ln Lambda * Lambda)) by (apply Rmult_le_pos; lra). assert (0 <= Lambda * Lg) by (apply Rmult_le_pos; lra). lra. }
    assert (H : forall x x', 2 <= x -> 2 <= x' -> Rabs (gf x * P x - gf x' * P x') <= C * Rabs (x - x')).
    { intros x x' H1 H2. replace (gf x * P x - gf x' * P x') with (gf x * (P x - P x') + P x' * (gf x - gf x')) by ring. eapply Rle_trans; [apply Rabs_triang |]. rewrite !Rabs_mult. pose proof (P_lip x x' ltac:(lra) ltac:(lra)) as PL. pose proof (P_pos x') as Pp. pose proof (P_top x' ltac:(lra)) as Pt. rewrite (Rabs_right (P x')) by lra.
      unfold C. rewrite Rmult_plus_distr_r. apply Rplus_le_compat.
      - rewrite Rmult_assoc. apply Rmult_le_compat; try apply Rabs_pos; [apply Hb | exact PL].
      - rewrite Rmult_assoc. apply Rmult_le_compat; [lra | apply Rabs_pos | exact Pt | apply Hg]. }
    set (e := fun x => if Rle_dec x 2 then 1 else gf x * Rpower Lambda (2 - x)).
    assert (E : forall x x', Rabs (e x - e x') <= C * Rabs (x - x')).
    { assert (E1 : forall x, e x = if Rle_dec x 2 then 1 else gf x * P x) by reflexivity. assert (G : gf 2 * P 2 = 1) by (rewrite G2, P_two; ring). intros x x'. rewrite !E1. destruct (Rle_dec x 2) as [A | A], (Rle_dec x' 2) as [A' | A'].
      - rewrite Rminus_diag_eq, Rabs_R0 by reflexivity. apply Rmult_le_pos; [assumption | apply Rabs_pos].
      - rewrite <- G. eapply Rle_trans; [apply H; lra |]. apply Rmult_le_compat_l; [assumption |]. unfold Rabs; repeat destruct Rcase_abs; lra.
      - rewrite <- G. eapply Rle_trans; [apply H; lra |]. apply Rmult_le_compat_l; [assumption |]. unfold Rabs; repeat destruct Rcase_abs; lra.
      - apply H; lra. }
    exists (match gap with Some b => Rabs (1 - b) * C | None => C end). split; [destruct gap; [apply Rmult_le_pos; [apply Rabs_pos | assumption] | assumption] |].
    intros x x' _ _. unfold grid. fold (e x) (e x'). destruct gap as [b |]; [| apply E]. replace (b + (1 - b) * e x - (b + (1 - b) * e x')) with ((1 - b) * (e x - e x')) by ring. rewrite Rabs_mult, Rmult_assoc. apply Rmult_le_compat_l; [apply Rabs_pos | apply E].
  Qed.

  (** ** The equation *)
  Variables (r R_ e : R -> R) (r0 r1 Lr Le : R).
  Hypothesis Hr0 : 0 < r0.
  Hypothesis Hr : forall w, r0 <= r w <= r1.
  Hypothesis HLr : 0 <= Lr.
  Hypothesis Hrl : forall w w', Rabs (r w - r w') <= Lr * Rabs (w - w').
  Hypothesis HR : forall w w', Rabs (R_ w - R_ w') <= r1 * Rabs (w - w').
  Hypothesis HLe : 0 <= Le.
  Hypothesis Hel : forall x x', 1 <= x -> 1 <= x' -> Rabs (e x - e x') <= Le * Rabs (x - x').
  Let F := slope_f Lambda r R_ e.
  Let J x := R_ (e x) - R_ (e (x + 1)).
  Let G x y := P x * r (y * P x).
  Lemma r1pos : 0 < r1.
  Proof. pose proof (Hr 0). lra. Qed.
  Lemma J_bound x : 1 <= x -> Rabs (J x) <= r1 * Le.
  Proof. intros H. unfold J. eapply Rle_trans; [apply HR |]. apply Rmult_le_compat_l; [pose proof r1pos; lra |]. eapply Rle_trans; [apply Hel; lra |]. replace (x - (x + 1)) with (- (1)) by ring. rewrite Rabs_Ropp, Rabs_R1. lra. Qed.
  Lemma J_lip x x' : 1 <= x -> 1 <= x' -> Rabs (J x - J x') <= 2 * (r1 * Le) * Rabs (x - x').
  Proof.
    intros H H'. unfold J. replace (R_ (e x) - R_ (e (x + 1)) - (R_ (e x') - R_ (e (x' + 1)))) with ((R_ (e x) - R_ (e x')) + - (R_ (e (x + 1)) - R_ (e (x' + 1)))) by ring. eapply Rle_trans; [apply Rabs_triang |]. rewrite Rabs_Ropp.
    assert (A : forall u u', 1 <= u -> 1 <= u' -> Rabs (R_ (e u) - R_ (e u')) <= r1 * Le * Rabs (u - u')) by (intros u u' Hu Hu'; eapply Rle_trans; [apply HR |]; rewrite Rmult_assoc; apply Rmult_le_compat_l; [pose proof r1pos; lra | now apply Hel]).
    pose proof (A x x' H H'). pose proof (A (x + 1) (x' + 1) ltac:(lra) ltac:(lra)) as A2. replace (x + 1 - (x' + 1)) with (x - x') in A2 by ring. lra.
  Qed.
  Variables (X MY : R).
  Hypothesis HMY : 0 <= MY.
  Let g0 := P X * r0.
  Lemma g0pos : 0 < g0.
  Proof. unfold g0. apply Rmult_lt_0_compat; [apply P_pos | assumption]. Qed.
  Lemma G_low x y : x <= X -> g0 <= G x y.
  Proof. intros H. unfold g0, G. pose proof (P_pos X). apply Rmult_le_compat; try lra; [now apply P_decr | apply Hr]. Qed.
  Definition Lg1 : R := r1 * (ln Lambda * Lambda) + Lambda * Lr * (MY * (ln Lambda * Lambda)).
  Definition Lg2 : R := Lambda * Lr * Lambda.
  Lemma Lg_pos : 0 <= Lg1 /\ 0 <= Lg2.
  Proof. pose proof lnpos. pose proof r1pos. assert (0 <= ln Lambda * Lambda) by (apply Rmult_le_pos; lra). assert (0 <= Lambda * Lr) by (apply Rmult_le_pos; lra). unfold Lg1, Lg2. split; [apply Rplus_le_le_0_compat; repeat apply Rmult_le_pos; lra | repeat apply Rmult_le_pos; lra]. Qed.
  Lemma G_lip x x' y y' : 1 <= x -> 1 <= x' -> Rabs y' <= MY -> Rabs (G x y - G x' y') <= Lg1 * Rabs (x - x') + Lg2 * Rabs (y - y').
  Proof.
    intros H H' Hy. unfold G. pose proof (P_lip x x' H H') as PL. pose proof (P_top x H) as T1. pose proof (P_top x' H') as T2. pose proof (P_pos x) as P1. pose proof (P_pos x') as P2. set (d := Rabs (x - x')) in *. set (q := Rabs (y - y')).
    assert (A : Rabs (y * P x - y' * P x') <= Lambda * q + MY * (ln Lambda * Lambda * d)).
    { replace (y * P x - y' * P x') with (P x * (y - y') + y' * (P x - P x')) by ring. eapply Rle_trans; [apply Rabs_triang |]. rewrite !Rabs_mult. rewrite (Rabs_right (P x)) by lra. apply Rplus_le_compat; [apply Rmult_le_compat_r; [apply Rabs_pos | assumption] | apply Rmult_le_compat; try apply Rabs_pos; assumption]. }
    replace (P x * r (y * P x) - P x' * r (y' * P x')) with (r (y * P x) * (P x - P x') + P x' * (r (y * P x) - r (y' * P x'))) by ring. eapply Rle_trans; [apply Rabs_triang |]. rewrite !Rabs_mult. rewrite (Rabs_right (P x')) by lra. destruct (Hr (y * P x)) as [B1 B2]. rewrite (Rabs_right (r _)) by lra.
    assert (C1 : r (y * P x) * Rabs (P x - P x') <= r1 * (ln Lambda * Lambda * d)) by (apply Rmult_le_compat; [lra | apply Rabs_pos | assumption | assumption]).
    assert (C2 : P x' * Rabs (r (y * P x) - r (y' * P x')) <= Lambda * (Lr * (Lambda * q + MY * (ln Lambda * Lambda * d)))).
    { apply Rmult_le_compat; [lra | apply Rabs_pos | assumption |]. eapply Rle_trans; [apply Hrl |]. now apply Rmult_le_compat_l. }
    unfold Lg1, Lg2. lra.
  Qed.
  Definition Lipx : R := 2 * (r1 * Le) / g0 + r1 * Le * Lg1 / (g0 * g0).
  Definition Lipy : R := ln Lambda + r1 * Le * Lg2 / (g0 * g0).
  Lemma slope_lip x x' y y' : 1 <= x <= X -> 1 <= x' <= X -> Rabs y' <= MY -> Rabs (F x y - F x' y') <= Lipx * Rabs (x - x') + Lipy * Rabs (y - y').
  Proof.
    intros H H' Hy. pose proof g0pos as Hg. pose proof (G_low x y (proj2 H)) as G1. pose proof (G_low x' y' (proj2 H')) as G2. pose proof (G_lip x x' y y' (proj1 H) (proj1 H') Hy) as GL. pose proof (J_lip x x' (proj1 H) (proj1 H')) as JL. pose proof (J_bound x' (proj1 H')) as JB. pose proof lnpos as Hln.
    change (F x y) with (ln Lambda * y - J x / G x y). change (F x' y') with (ln Lambda * y' - J x' / G x' y'). set (d := Rabs (x - x')) in *. set (q := Rabs (y - y')) in *.
    replace (ln Lambda * y - J x / G x y - (ln Lambda * y' - J x' / G x' y')) with (ln Lambda * (y - y') + ((J x' - J x) / G x y + J x' * (G x y - G x' y') / (G x y * G x' y'))) by (field; lra).
    eapply Rle_trans; [apply Rabs_triang |]. rewrite Rabs_mult, (Rabs_right (ln Lambda)) by lra. fold q.
    assert (A1 : Rabs ((J x' - J x) / G x y) <= 2 * (r1 * Le) / g0 * d).
    { unfold Rdiv at 1. rewrite Rabs_mult, Rabs_minus_sym. rewrite (Rabs_right (/ G x y)) by (apply Rle_ge, Rlt_le, Rinv_0_lt_compat; lra). replace (2 * (r1 * Le) / g0 * d) with (2 * (r1 * Le) * d * / g0) by (field; lra). apply Rmult_le_compat; [apply Rabs_pos | apply Rlt_le, Rinv_0_lt_compat; lra | assumption | apply Rinv_le_contravar; assumption]. }
    assert (A2 : Rabs (J x' * (G x y - G x' y') / (G x y * G x' y')) <= r1 * Le * (Lg1 * d + Lg2 * q) * / (g0 * g0)).
    { unfold Rdiv. rewrite !Rabs_mult. assert (HGG : g0 * g0 <= G x y * G x' y') by (apply Rmult_le_compat; lra). assert (Hgg : 0 < g0 * g0) by (apply Rmult_lt_0_compat; assumption). rewrite (Rabs_right (/ _)) by (apply Rle_ge, Rlt_le, Rinv_0_lt_compat; lra).
      apply Rmult_le_compat; [apply Rmult_le_pos; apply Rabs_pos | apply Rlt_le, Rinv_0_lt_compat; lra | apply Rmult_le_compat; try apply Rabs_pos; assumption | now apply Rinv_le_contravar]. }
    pose proof (Rabs_triang ((J x' - J x) / G x y) (J x' * (G x y - G x' y') / (G x y * G x' y'))) as T. unfold Lipx, Lipy.
    replace ((2 * (r1 * Le) / g0 + r1 * Le * Lg1 / (g0 * g0)) * d + (ln Lambda + r1 * Le * Lg2 / (g0 * g0)) * q) with (2 * (r1 * Le) / g0 * d + ln Lambda * q + r1 * Le * (Lg1 * d + Lg2 * q) * / (g0 * g0)) by (field; lra). lra.
  Qed.
  Lemma slope_bound x y : 1 <= x <= X -> Rabs y <= MY -> Rabs (F x y) <= ln Lambda * MY + r1 * Le / g0.
  Proof.
    intros H Hy. pose proof g0pos as Hg. pose proof (G_low x y (proj2 H)) as G1. pose proof (J_bound x (proj1 H)) as JB. pose proof lnpos as Hln. change (F x y) with (ln Lambda * y - J x / G x y). unfold Rminus. eapply Rle_trans; [apply Rabs_triang |]. rewrite Rabs_Ropp, Rabs_mult, (Rabs_right (ln Lambda)) by lra.
    apply Rplus_le_compat; [apply Rmult_le_compat_l; lra |]. unfold Rdiv. rewrite Rabs_mult. rewrite (Rabs_right (/ _)) by (apply Rle_ge, Rlt_le, Rinv_0_lt_compat; lra). apply Rmult_le_compat; [apply Rabs_pos | apply Rlt_le, Rinv_0_lt_compat; lra | assumption | now apply Rinv_le_contravar].
  Qed.
  Lemma Lip_pos : 0 <= Lipx /\ 0 < Lipy.
  Proof.
    pose proof g0pos as Hg. destruct Lg_pos as [L1 L2]. pose proof r1pos. pose proof lnpos. assert (0 <= r1 * Le) by (apply Rmult_le_pos; lra). assert (0 < / g0) by (apply Rinv_0_lt_compat; assumption). assert (0 < / (g0 * g0)) by (apply Rinv_0_lt_compat, Rmult_lt_0_compat; assumption). unfold Lipx, Lipy, Rdiv. split.
    - apply Rplus_le_le_0_compat; repeat apply Rmult_le_pos; lra.
    - assert (0 <= r1 * Le * Lg2 * / (g0 * g0)) by (repeat apply Rmult_le_pos; lra). lra.
  Qed.
End L.
