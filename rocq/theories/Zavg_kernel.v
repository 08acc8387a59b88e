From Coq Require Import List ZArith Reals Arith Bool Lra Lia.
From Verif Require Import Base Zavg_model Zavg_spec Zavg_proofs.
Import ListNotations.
Local Open Scope R_scope.

Ltac decs := repeat match goal with
  | |- context [Rlt_dec ?a ?b] => destruct (Rlt_dec a b); try lra
  | |- context [Rle_dec ?a ?b] => destruct (Rle_dec a b); try lra
  | |- context [Req_EM_T ?a ?b] => destruct (Req_EM_T a b); try lra
  end.

Lemma gausslog_ok x a g : 0 <= x -> exists h, gausslog x a g = Some h /\ 0 <= h <= 1 /\ (0 < x -> h = exp (- Rsqr (ln x / a - g))) /\ (x = 0 -> h = 0).
Proof.
  intros Hx. unfold gausslog. destruct (Rlt_dec 0 x).
  - eexists. split; [reflexivity|]. split; [|split; [auto|lra]]. split; [left; apply exp_pos|]. rewrite <- exp_0 at 1.
    pose proof (Rle_0_sqr (ln x / a - g)) as [H|H]; [left; apply exp_increasing; lra|right; f_equal; lra].
  - destruct (Req_EM_T x 0); [|lra]. exists 0. split; [auto|]. split; [lra|]. split; [lra|auto].
Qed.
Lemma opposite_spec e p : opposite e p = true <-> (e < 0 /\ 0 < p) \/ (0 < e /\ p < 0).
Proof. unfold opposite. decs; simpl; split; intros; try lra; try discriminate; auto. Qed.

Section K.
  Variables (alpha omega0 acc sqrtpi : R).
  Hypothesis Ha : 0 < alpha.
  Hypothesis Ho : 0 < omega0.
  Hypothesis Hacc : 0 <= acc.
  Hypothesis Hpi : 0 < sqrtpi.

  Lemma h0_ok x : exists h, BR_h0 alpha omega0 x = Some h /\ 0 <= h <= 1.
  Proof.
    unfold BR_h0. destruct (Rlt_dec omega0 (Rabs x)); [exists 1; split; [auto|lra]|].
    destruct (gausslog_ok (Rabs x / omega0) alpha 0) as (h & E & H & _).
    { apply Rmult_le_pos; [apply Rabs_pos|left; apply Rinv_0_lt_compat; auto]. }
    exists h. auto.
  Qed.

  Lemma quot_pos e p : 0 < e * p -> 0 < e / p.
  Proof.
    intros H. assert (p <> 0) by (intros ->; lra). replace (e / p) with (e * p * (/ p * / p)) by (field; auto).
    apply Rmult_lt_0_compat; auto. assert (/ p <> 0) by (apply Rinv_neq_0_compat; auto). nra.
  Qed.
  Lemma BR_L_same e p : 0 < e * p -> BR_L_orig alpha sqrtpi e p = Some (exp (- Rsqr (ln (e / p) / alpha - alpha / 4)) / (alpha * Rabs e * sqrtpi)).
  Proof.
    intros H. unfold BR_L_orig. assert (E : opposite e p = false).
    { destruct (opposite e p) eqn:E; auto. apply opposite_spec in E. nra. }
    rewrite E. destruct (Req_EM_T p 0); [subst; lra|]. destruct (gausslog_ok (e / p) alpha (alpha / 4)) as (h & G & _ & G1 & _).
    { left. apply quot_pos; auto. }
    rewrite G. destruct (Req_EM_T e 0); [subst; lra|]. rewrite (G1 (quot_pos e p H)). auto.
  Qed.
  Lemma BR_L_value e p : e <> 0 -> exists k, BR_L_orig alpha sqrtpi e p = Some k /\ 0 <= k.
  Proof.
    intros He. destruct (Req_EM_T p 0) as [->|Hp].
    - exists 0. unfold BR_L_orig. destruct (opposite e 0); decs; split; auto; lra.
    - destruct (opposite e p) eqn:E; [exists 0; unfold BR_L_orig; rewrite E; split; auto; lra|].
      assert (H : 0 < e * p).
      { destruct (Rle_or_lt (e * p) 0) as [H|H]; auto. exfalso. assert (O : opposite e p = true); [|congruence].
        apply opposite_spec. destruct (Rlt_or_le e 0) as [H1|H1]; [left|right]; split; nra. }
      eexists. split; [apply BR_L_same; auto|]. apply Rmult_le_pos; [left; apply exp_pos|]. left. apply Rinv_0_lt_compat.
      assert (0 < Rabs e) by (apply Rabs_pos_lt; auto). apply Rmult_lt_0_compat; auto. apply Rmult_lt_0_compat; auto.
  Qed.
  Lemma BR_L_acc_value e p : e <> 0 -> exists k, BR_L_acc alpha acc sqrtpi e p = Some k /\ 0 <= k.
  Proof.
    intros He. unfold BR_L_acc.
    destruct (Rlt_dec acc e) as [H1|H1]; [destruct (Rlt_dec acc p) as [H2|H2]|].
    - destruct (Rlt_dec (e - acc) (- acc)); [lra|]. apply BR_L_value. lra.
    - destruct (Rlt_dec e (- acc)); [lra|]. apply BR_L_value. lra.
    - destruct (Rlt_dec e (- acc)); [|apply BR_L_value; auto]. destruct (Rlt_dec p (- acc)); [|apply BR_L_value; auto].
      apply BR_L_value. lra.
  Qed.
  Lemma Gw_pos w e p : 0 < w -> 0 < BR_Gw sqrtpi w e p.
  Proof. intros. unfold BR_Gw. apply Rmult_lt_0_compat; [apply exp_pos|]. apply Rinv_0_lt_compat. apply Rmult_lt_0_compat; auto. Qed.

  Theorem bfnc_ok gaussian normalization e p : e <> 0 ->
    exists k, bfnc alpha omega0 acc sqrtpi gaussian normalization e p = Ok (Some k) /\ 0 <= k.
  Proof.
    intros He. unfold bfnc. destruct gaussian.
    - eexists. split; [reflexivity|]. left. apply Gw_pos. auto.
    - unfold BR_h. destruct (h0_ok (if normalization then p else e)) as (h & E & Hh). rewrite E. destruct (BR_L_acc_value e p He) as (l & El & Hl).
      rewrite El. destruct (Rle_dec 0 h); [|lra]. destruct (Rle_dec h 1); [|lra]. eexists. split; [reflexivity|].
      pose proof (Gw_pos omega0 e p Ho). nra.
  Qed.

  Theorem BR_L_symmetric e p : 0 < e * p -> BR_L_orig alpha sqrtpi e p = BR_L_orig alpha sqrtpi p e.
  Proof.
    intros H. rewrite !BR_L_same by lra. f_equal.
    assert (He : e <> 0) by (intros ->; lra). assert (Hp : p <> 0) by (intros ->; lra).
    assert (E : exp (- Rsqr (ln (e / p) / alpha - alpha / 4)) = exp (- Rsqr (ln (p / e) / alpha - alpha / 4)) * (e / p)).
    { assert (Q : 0 < e / p) by (apply quot_pos; auto). rewrite <- (exp_ln (e / p)) at 2 by auto. rewrite <- exp_plus. f_equal.
      replace (p / e) with (/ (e / p)) by (field; auto). rewrite ln_Rinv by auto. unfold Rsqr. field. lra. }
    rewrite E. assert (A : Rabs e = Rabs p * (e / p)).
    { destruct (Rlt_or_le e 0) as [H1|H1]; destruct (Rlt_or_le p 0) as [H2|H2]; try nra.
      - rewrite !Rabs_left by auto. field. auto.
      - rewrite !Rabs_right by lra. field. auto. }
    rewrite A. assert (Rabs p <> 0) by (apply Rabs_no_R0; auto). field. repeat split; auto; lra.
  Qed.
  Theorem BR_G_symmetric w e p : BR_Gw sqrtpi w e p = BR_Gw sqrtpi w p e.
  Proof. unfold BR_Gw. f_equal. f_equal. f_equal. unfold Rsqr, Rdiv. ring. Qed.

  Variables (gaussian normalization : bool).
  Definition br_kernel (e p : R) : R := match bfnc alpha omega0 acc sqrtpi gaussian normalization e p with Ok (Some k) => k | _ => 0 end.
  Lemma kernel_bfnc e p : e <> 0 -> bfnc alpha omega0 acc sqrtpi gaussian normalization e p = Ok (Some (br_kernel e p)) /\ 0 <= br_kernel e p.
  Proof. intros He. destruct (bfnc_ok gaussian normalization e p He) as (k & E & Hk). unfold br_kernel. rewrite E. auto. Qed.

  Lemma broaden1_ok l m : m <> 0 -> broaden1 alpha omega0 acc sqrtpi gaussian normalization l m = Ok (Some (integral (br_kernel m) l)).
  Proof.
    intros Hm. unfold broaden1, integral.
    set (F := fun (s : res (option R)) (p : R * R) => _).
    assert (G : forall l s, fold_left F l (Ok (Some s)) = Ok (Some (s + rsum (fun p => br_kernel m (fst p) * snd p) l))).
    { induction l0 as [|p t IH]; intros s; cbn [fold_left rsum]; [rewrite Rplus_0_r; auto|]. unfold F at 2. cbn [bind].
      rewrite (proj1 (kernel_bfnc m (fst p) Hm)). cbn [bind]. rewrite IH. do 2 f_equal. lra. }
    rewrite G. do 2 f_equal. lra.
  Qed.
  Theorem broaden_ok l mesh : (forall m, In m mesh -> m <> 0) ->
    broaden alpha omega0 acc sqrtpi gaussian normalization l mesh = Ok (map (fun m => Some (integral (br_kernel m) l)) mesh).
  Proof. intros H. unfold broaden. apply mapM_all. intros m Hm. apply broaden1_ok; auto. Qed.

  Theorem kernel_nonneg e p : e <> 0 -> 0 <= br_kernel e p.
  Proof. intros; apply kernel_bfnc; auto. Qed.

  (** A mesh containing the frequency zero (possible when it is loaded from a file). *)
  Lemma Lzero p : p <> 0 -> BR_L_acc alpha acc sqrtpi 0 p = None.
  Proof.
    intros Hp. unfold BR_L_acc. destruct (Rlt_dec acc 0); [lra|]. destruct (Rlt_dec 0 (- acc)); [lra|]. unfold BR_L_orig.
    destruct (opposite 0 p) eqn:E; [apply opposite_spec in E; lra|]. destruct (Req_EM_T p 0); [lra|].
    replace (0 / p) with 0 by (unfold Rdiv; lra). unfold gausslog. decs; auto.
  Qed.
  Theorem zero_mesh l f w : gaussian = false -> In (f, w) l -> f <> 0 -> broaden1 alpha omega0 acc sqrtpi gaussian normalization l 0 = Ok None.
  Proof.
    intros -> Hin Hf. unfold broaden1.
    set (F := fun (s : res (option R)) (p : R * R) => _).
    assert (B : forall p, exists k, bfnc alpha omega0 acc sqrtpi false normalization 0 p = Ok k /\ (p <> 0 -> k = None)).
    { intros p. unfold bfnc, BR_h. destruct (h0_ok (if normalization then p else 0)) as (h & E & Hh). rewrite E.
      destruct (Rle_dec 0 h); [|lra]. destruct (Rle_dec h 1); [|lra]. eexists. split; [reflexivity|]. intros Hp. rewrite Lzero; auto. }
    assert (G0 : forall l, fold_left F l (Ok None) = Ok None).
    { induction l0 as [|p t IH]; auto. cbn [fold_left]. unfold F at 2. cbn [bind]. destruct (B (fst p)) as (k & E & _). rewrite E. exact IH. }
    assert (G : forall l s, In (f, w) l -> fold_left F l (Ok s) = Ok None).
    { induction l0 as [|p t IH]; intros s [].
      - subst p. cbn [fold_left]. unfold F at 2. cbn [bind fst snd]. destruct (B f) as (k & E & Hk). rewrite E, (Hk Hf). cbn [bind]. destruct s; apply G0.
      - cbn [fold_left]. unfold F at 2. cbn [bind]. destruct (B (fst p)) as (k & E & _). rewrite E. apply IH; auto. }
    apply G; auto.
  Qed.
End K.

(** ** Matsubara frequencies *)
Lemma kernel_some om f w : om <> 0 -> kernel om f w = Some (- f / (om * om + f * f) * w, - om / (om * om + f * f) * w).
Proof. intros H. unfold kernel. destruct (Req_EM_T (om * om + f * f) 0); [nra|]. do 2 f_equal; unfold Rdiv; ring. Qed.
Theorem compute1_ok om l : om <> 0 ->
  compute1 om l = Some (integral (fun f => - f / (om * om + f * f)) l, integral (fun f => - om / (om * om + f * f)) l).
Proof.
  intros H. unfold compute1, integral.
  set (F := fun (s : option (R * R)) (p : R * R) => _).
  assert (G : forall l a b, fold_left F l (Some (a, b)) =
    Some (a + rsum (fun p => - fst p / (om * om + fst p * fst p) * snd p) l, b + rsum (fun p => - om / (om * om + fst p * fst p) * snd p) l)).
  { induction l0 as [|p t IH]; intros a b; cbn [fold_left rsum]; [rewrite !Rplus_0_r; auto|]. unfold F at 2. rewrite kernel_some by auto. rewrite IH.
    do 2 f_equal; lra. }
  rewrite G. do 2 f_equal; lra.
Qed.
Lemma omegan_pos T n : 0 < T -> 0 < omegan true T n.
Proof. intros H. unfold omegan. pose proof PI_RGT_0. pose proof (pos_INR n). apply Rmult_lt_0_compat; [apply Rmult_lt_0_compat; auto|lra]. Qed.
(** The complex number -f/(om^2+f^2) - i om/(om^2+f^2) is the inverse of i om - f. *)
Lemma green_kernel om f : om <> 0 -> let a := - f / (om * om + f * f) in let b := - om / (om * om + f * f) in
  a * - f - b * om = 1 /\ a * om + b * - f = 0.
Proof. intros H. assert (om * om + f * f <> 0) by nra. split; cbv zeta; field; auto. Qed.
Theorem green_ok T nrmats l : 0 < T -> forall n, (n < nrmats)%nat -> exists a b, nth_error (compute true T nrmats l) n = Some (Some (a, b)) /\
  a = integral (fun f => - f / (Rsqr ((2 * INR n + 1) * PI * T) + Rsqr f)) l /\
  b = - integral (fun f => (2 * INR n + 1) * PI * T / (Rsqr ((2 * INR n + 1) * PI * T) + Rsqr f)) l /\
  (nonnegative l -> b <= 0).
Proof.
  intros HT n Hn. unfold compute. rewrite nth_error_map. assert (E : nth_error (seq 0 nrmats) n = Some n).
  { rewrite (nth_error_nth' _ 0%nat) by (rewrite seq_length; auto). rewrite seq_nth by auto. auto. }
  rewrite E. cbn [option_map]. pose proof (omegan_pos T n HT) as Ho. rewrite compute1_ok by lra.
  assert (Eo : omegan true T n = (2 * INR n + 1) * PI * T) by (unfold omegan; ring). rewrite Eo in *. do 2 eexists. split; [reflexivity|].
  split; [auto|]. assert (B : integral (fun f => - ((2 * INR n + 1) * PI * T) / ((2 * INR n + 1) * PI * T * ((2 * INR n + 1) * PI * T) + f * f)) l =
    - integral (fun f => (2 * INR n + 1) * PI * T / (Rsqr ((2 * INR n + 1) * PI * T) + Rsqr f)) l).
  { unfold integral, Rsqr. rewrite <- (Rmult_1_l (rsum _ l)) at 1. replace (- rsum (fun p => (2 * INR n + 1) * PI * T / ((2 * INR n + 1) * PI * T * ((2 * INR n + 1) * PI * T) + fst p * fst p) * snd p) l)
      with (-1 * rsum (fun p => (2 * INR n + 1) * PI * T / ((2 * INR n + 1) * PI * T * ((2 * INR n + 1) * PI * T) + fst p * fst p) * snd p) l) by lra.
    rewrite <- !rsum_scale. apply rsum_ext. intros [f w] _. cbn [fst snd]. unfold Rdiv. ring. }
  split; [exact B|]. intros Hw. rewrite B. assert (0 <= integral (fun f => (2 * INR n + 1) * PI * T / (Rsqr ((2 * INR n + 1) * PI * T) + Rsqr f)) l); [|lra].
  apply rsum_nonneg. intros [f w] Hp. cbn [fst snd]. apply Rmult_le_pos; [|eapply Hw; eauto]. apply Rmult_le_pos; [lra|].
  left. apply Rinv_0_lt_compat. pose proof (Rle_0_sqr f). pose proof (Rsqr_pos_lt ((2 * INR n + 1) * PI * T) ltac:(lra)). lra.
Qed.
