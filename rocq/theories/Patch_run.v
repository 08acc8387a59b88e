(** Steps, scales and the sum of the windows. *)
From Coq Require Import List ZArith Reals Lia Lra Psatz.
From Verif Require Import Base Bins_model Bins_spec Bins_proofs Patch_model Patch_spec Patch_proofs.
Import ListNotations.
Local Open Scope R_scope.

(** The loop over the steps. *)
Lemma loop_steps_ok P fuel n : (p_Nmax P - n <= fuel)%nat -> loop_steps P fuel (st n) = map st (seq n (p_Nmax P - n)).
Proof.
  revert n. induction fuel as [|k IH]; intros n H.
  - replace (p_Nmax P - n)%nat with 0%nat by lia. cbn. destruct (Nat.leb_spec (p_Nmax P) n); [reflexivity|lia].
  - cbn [loop_steps st s_ndx]. destruct (Nat.leb_spec (p_Nmax P) n).
    + replace (p_Nmax P - n)%nat with 0%nat by lia. reflexivity.
    + replace (p_Nmax P - n)%nat with (S (p_Nmax P - S n)) by lia. cbn [seq map]. f_equal.
      replace (step_next (st n)) with (st (S n)); [apply IH; lia|]. unfold step_next, st. cbn [s_true s_ndx]. f_equal; lia.
Qed.
Lemma nrg_steps_ok P : nrg_steps P = map st (seq (p_Ninit P) (p_Nmax P - p_Ninit P)).
Proof.
  unfold nrg_steps. replace (step_set (Z.of_nat (p_Ninit P))) with (st (p_Ninit P)); [apply loop_steps_ok; lia|]. unfold step_set, st. f_equal. lia.
Qed.

(** Scales. *)
Section Scales.
  Variable P : pparams.
  Hypothesis HP : pvalid P.
  Let L1 : 1 < p_Lambda P. Proof. apply HP. Qed.
  Lemma lnL : 0 < ln (p_Lambda P).
  Proof. rewrite <- ln_1. apply ln_increasing; lra. Qed.
  Definition pre : R := match p_discretization P with Yoshida => 0.5 * (1 + 1 / p_Lambda P) | _ => (1 - 1 / p_Lambda P) / ln (p_Lambda P) end.
  Lemma pre_pos : 0 < pre.
  Proof.
    pose proof L1. pose proof lnL. assert (0 < / p_Lambda P < 1). { split; [apply Rinv_0_lt_compat; lra|]. rewrite <- Rinv_1. apply Rinv_lt_contravar; lra. }
    unfold pre. destruct (p_discretization P); unfold Rdiv; try lra; apply Rmult_lt_0_compat; try lra; apply Rinv_0_lt_compat; lra.
  Qed.
  Lemma SCALE_eq N : SCALE P N = pre * Rpower (p_Lambda P) (if p_substeps P then - IZR N / (2 * INR (p_channels P)) + 3 / 2 - p_z P else - IZR (N - 1) / 2 + 1 - p_z P) * p_bandrescale P.
  Proof. unfold SCALE, pre. destruct (p_substeps P); reflexivity. Qed.
  Lemma SCALE_pos N : 0 < SCALE P N.
  Proof.
    rewrite SCALE_eq. pose proof pre_pos. destruct HP as [_ [Hb _]]. apply Rmult_lt_0_compat; [|lra]. apply Rmult_lt_0_compat; [lra|]. unfold Rpower. apply exp_pos.
  Qed.
  (** The exponent by which the scale decreases per step. *)
  Definition delta : R := if p_substeps P then 1 / (2 * INR (p_channels P)) else 1 / 2.
  Lemma channels_pos : 0 < INR (p_channels P).
  Proof. apply lt_0_INR. destruct HP as [_ [_ [_ [H _]]]]. lia. Qed.
  Lemma SCALE_step N : SCALE P N = Rpower (p_Lambda P) delta * SCALE P (N + 1).
  Proof.
    rewrite !SCALE_eq. set (b := p_bandrescale P). set (q := pre). pose proof channels_pos.
    transitivity (q * (Rpower (p_Lambda P) delta * Rpower (p_Lambda P) (if p_substeps P then - IZR (N + 1) / (2 * INR (p_channels P)) + 3 / 2 - p_z P else - IZR (N + 1 - 1) / 2 + 1 - p_z P)) * b); [|ring].
    f_equal. f_equal. rewrite <- Rpower_plus. f_equal. unfold delta. destruct (p_substeps P).
    - rewrite plus_IZR. field. lra.
    - rewrite !minus_IZR, plus_IZR. field.
  Qed.
  Lemma scale_pos s : 0 < scale P s.
  Proof. unfold scale. destruct (p_absolute P); [lra|apply SCALE_pos]. Qed.
  Lemma efactor_gt1 : 1 < getEfactor P.
  Proof.
    unfold getEfactor. pose proof L1. destruct (_ && _)%bool; [auto|]. rewrite <- sqrt_1. apply sqrt_lt_1_alt. lra.
  Qed.
  Lemma goodE_pos : 0 < p_goodE P.
  Proof. apply HP. Qed.
  Lemma edges_ok s : edges P s.
  Proof.
    pose proof (scale_pos s). pose proof efactor_gt1. pose proof goodE_pos. unfold edges, lower, peak, upper. set (f := getEfactor P) in *. set (g := p_goodE P) in *. set (c := scale P s) in *.
    split; apply Rmult_lt_compat_l; auto.
    - rewrite <- (Rmult_1_r g) at 1. apply Rmult_lt_compat_l; auto.
    - apply Rmult_lt_compat_l; auto. cbn. rewrite Rmult_1_r. rewrite <- (Rmult_1_r f) at 1. apply Rmult_lt_compat_l; lra.
  Qed.
  Lemma all_edges l : Forall (edges P) l.
  Proof. apply Forall_forall. intros. apply edges_ok. Qed.
  Lemma sqrt_Rpower : sqrt (p_Lambda P) = Rpower (p_Lambda P) (1 / 2).
  Proof. rewrite <- Rpower_sqrt by (pose proof L1; lra). f_equal. lra. Qed.
  (** Stride of the merged steps. *)
  Definition stride : nat := if p_NN1 P then 1%nat else 2%nat.
  Lemma scale_st n : p_absolute P = false -> scale P (st n) = Rpower (p_Lambda P) delta * scale P (st (S n)).
  Proof.
    intros Ha. unfold scale. rewrite Ha. cbn [st s_true]. rewrite SCALE_step. do 2 f_equal. lia.
  Qed.
  Lemma scale_stride n : fitting P -> scale P (st n) = getEfactor P * scale P (st (n + stride)).
  Proof.
    intros [Ha Hf]. unfold stride, getEfactor. pose proof L1. destruct (p_NN1 P) eqn:E1.
    - rewrite Nat.add_1_r, (scale_st n Ha). f_equal. rewrite Bool.andb_false_r, sqrt_Rpower. f_equal. unfold delta. destruct Hf as [_ [->| ->]]; [reflexivity|].
      destruct (p_substeps P); cbn; field.
    - replace (n + 2)%nat with (S (S n)) by lia. rewrite (scale_st n Ha), (scale_st (S n) Ha), <- Rmult_assoc. f_equal. rewrite <- Rpower_plus. cbn [negb].
      unfold delta. destruct Hf as [-> | [-> ->]]; cbn [Nat.eqb andb].
      + rewrite <- (Rpower_1 (p_Lambda P)) at 2 by lra. f_equal. destruct (p_substeps P); cbn; field.
      + rewrite sqrt_Rpower. f_equal. cbn. field.
  Qed.
  Lemma link_st n : fitting P -> lower P (st n) = peak P (st (n + stride)) /\ peak P (st n) = upper P (st (n + stride)).
  Proof. intros Hf. unfold lower, peak, upper. rewrite (scale_stride n Hf). split; ring. Qed.
End Scales.

(** Arithmetic progressions. *)
Fixpoint spaced (d : nat) (l : list nat) : Prop := match l with a :: ((b :: _) as r) => b = (a + d)%nat /\ spaced d r | _ => True end.
Lemma spaced_seq a k : spaced 1 (seq a k).
Proof. revert a. induction k as [|k IH]; intros a; [exact Logic.I|]. destruct k as [|k]; [exact Logic.I|]. split; [lia|]. exact (IH (S a)). Qed.
Lemma filter_true {A} (l : list A) : filter (fun _ => true) l = l.
Proof. induction l; cbn; congruence. Qed.
Lemma parity_split (sel : nat -> bool) a k : (forall n, sel (S n) = negb (sel n)) ->
  spaced 2 (filter sel (seq a k)) /\ match filter sel (seq a k) with [] => True | b :: _ => b = if sel a then a else S a end.
Proof.
  intros Hs. revert a. induction k as [|k IH]; intros a; [split; exact Logic.I|]. cbn [seq filter]. destruct (IH (S a)) as [H1 H2]. destruct (sel a) eqn:Ea.
  - split; [|reflexivity]. destruct (filter sel (seq (S a) k)) as [|b r]; [exact Logic.I|]. split; [|exact H1]. rewrite H2, Hs, Ea. cbn. lia.
  - split; [exact H1|]. destruct (filter sel (seq (S a) k)) as [|b r]; [exact Logic.I|]. now rewrite H2, Hs, Ea.
Qed.
Lemma even_S n : Nat.even (S n) = negb (Nat.even n).
Proof. rewrite Nat.even_succ, <- Nat.negb_even. reflexivity. Qed.
Lemma odd_S n : Nat.odd (S n) = negb (Nat.odd n).
Proof. rewrite Nat.odd_succ, <- Nat.negb_odd. reflexivity. Qed.
Lemma steps_bounds P sel n : In n (steps_of P sel) -> (p_Ninit P <= n < p_Nmax P)%nat.
Proof. intros H. apply filter_In in H. destruct H as [H _]. apply in_seq in H. lia. Qed.

Section Sums.
  Variable P : pparams.
  Hypothesis HP : pvalid P.
  Hypothesis HF : fitting P.
  Lemma spaced_linked l : spaced (stride P) l -> (forall n, In n l -> (p_Ninit P <= n < p_Nmax P)%nat) -> linked P (map st l).
  Proof.
    induction l as [|a [|b l] IH]; intros H1 H2; try exact Logic.I. destruct H1 as [-> H1]. cbn [map]. destruct (link_st P HP a HF) as [K1 K2].
    assert (Hd : (1 <= stride P)%nat) by (unfold stride; destruct (p_NN1 P); lia).
    split; [exact K1|]. split; [exact K2|]. pose proof (H2 a ltac:(now left)). pose proof (H2 (a + stride P)%nat ltac:(right; now left)).
    split; [unfold is_first; cbn [st s_ndx]; apply Nat.eqb_neq; lia|]. split; [unfold is_last; cbn [st s_ndx]; apply Nat.eqb_neq; lia|]. apply IH; auto. intros n Hn. apply H2. now right.
  Qed.
  Lemma chain_spaced c : In c (chains P) -> spaced (stride P) c /\ exists sel, c = steps_of P sel.
  Proof.
    unfold chains, stride. destruct (p_NN1 P).
    - intros [<-|[]]. split; [|eauto]. unfold steps_of. rewrite filter_true. apply spaced_seq.
    - assert (He : spaced 2 (steps_of P Nat.even)) by apply (parity_split Nat.even _ _ even_S). assert (Ho : spaced 2 (steps_of P Nat.odd)) by apply (parity_split Nat.odd _ _ odd_S).
      destruct (p_NN2avg P); [|destruct (p_NN2even P)]; intros H; cbn in H; repeat (destruct H as [<-|H]; [split; [assumption|eauto]|]); destruct H.
  Qed.
  Lemma last_map {A B} (f : A -> B) l d : last (map f l) (f d) = f (last l d).
  Proof. induction l as [|a [|b l] IH]; try reflexivity. exact IH. Qed.
  Lemma chain_one c E : In c (chains P) -> covered P c E -> ssum (fun s => hat P s E) (map st c) = 1.
  Proof.
    intros Hc Hv. destruct (chain_spaced c Hc) as [Hs [sel ->]]. destruct (steps_of P sel) as [|n0 l] eqn:El; [contradiction|]. destruct Hv as [Hd Hu].
    assert (Hb : forall n, In n (n0 :: l) -> (p_Ninit P <= n < p_Nmax P)%nat) by (intros n Hn; rewrite <- El in Hn; now apply steps_bounds in Hn).
    pose proof (spaced_linked _ Hs Hb) as Hl. cbn [map] in *. pose proof (edges_ok P HP (st n0)) as [K1 K2].
    destruct (Rle_dec E (peak P (st n0))) as [Hp|Hp].
    - apply (sum_inside P E (st n0) (map st l)); auto; [apply all_edges; auto|]. change (st n0 :: map st l) with (map st (n0 :: l)). rewrite last_map. destruct Hd as [Hd|[Hd1 Hd2]]; [now left|right].
      split; [|exact Hd2]. unfold is_last. cbn [st s_ndx]. now apply Nat.eqb_eq.
    - destruct Hu as [Hu|[Hu1 Hu2]]; [contradiction|]. rewrite (sum_top P E (st n0) (map st l)); [|apply all_edges; auto|exact Hl|lra].
      unfold top, is_first. cbn [st s_ndx]. apply Nat.eqb_eq in Hu1. now rewrite Hu1.
  Qed.
  Lemma sum_range s l E : linked P (s :: l) -> 0 <= ssum (fun s => hat P s E) (s :: l) <= 1.
  Proof.
    revert s. induction l as [|t l IH]; intros s Hl.
    - cbn. pose proof (hat_range P s E (edges_ok P HP s)). lra.
    - destruct (Rle_dec (upper P s) E) as [Hu|Hu]; [rewrite sum_above; auto; [lra|now apply all_edges]|].
      destruct (Rle_dec (peak P s) E) as [Hp|Hp].
      + rewrite (sum_top P E s (t :: l)); auto; [|now apply all_edges|lra]. unfold top. pose proof (edges_ok P HP s) as [K1 K2]. destruct (is_first P s); [lra|].
        assert (0 <= fnc P ((E - peak P s) / (upper P s - peak P s)) <= 1) by (apply fnc_range, frac_range; lra). lra.
      + pose proof Hl as [L1 [L2 [L3 [L4 L5]]]]. specialize (IH t L5). destruct (Rle_dec E (lower P s)) as [Hd|Hd].
        * change (ssum (fun s => hat P s E) (s :: t :: l)) with (hat P s E + ssum (fun s => hat P s E) (t :: l)). rewrite hat_below by auto. lra.
        * change (ssum (fun s => hat P s E) (s :: t :: l)) with (hat P s E + ssum (fun s => hat P s E) (t :: l)).
          rewrite (sum_top P E t l); auto; [|now apply all_edges|lra]. unfold top. rewrite L3. unfold hat. pose proof (edges_ok P HP s) as [K1 K2].
          destruct (Rlt_dec (lower P s) E); [|lra]. destruct (Rlt_dec E (upper P s)); [|lra]. destruct (Rle_dec E (peak P s)); [|lra]. rewrite L4, L1, L2. lra.
  Qed.
  Lemma chain_range c E : In c (chains P) -> 0 <= ssum (fun s => hat P s E) (map st c) <= 1.
  Proof.
    intros Hc. destruct (chain_spaced c Hc) as [Hs [sel ->]]. destruct (steps_of P sel) as [|n0 l] eqn:El; [cbn; lra|].
    cbn [map]. apply sum_range. change (st n0 :: map st l) with (map st (n0 :: l)). apply spaced_linked; auto. intros n Hn; rewrite <- El in Hn; now apply steps_bounds in Hn.
  Qed.
End Sums.

(** The sum over all steps is the sum over the chains. *)
Lemma ssum_ext f g l : (forall s, In s l -> f s = g s) -> ssum f l = ssum g l.
Proof. induction l as [|s l IH]; intros H; [reflexivity|]. cbn. rewrite H by now left. rewrite IH; auto. intros t Ht. apply H. now right. Qed.
Lemma ssum_filter (sel : nat -> bool) (f : step -> R) l : ssum (fun s => if sel (s_ndx s) then f s else 0) (map st l) = ssum f (map st (filter sel l)).
Proof.
  induction l as [|n l IH]; [reflexivity|]. cbn [map ssum filter st s_ndx]. destruct (sel n); cbn [map ssum]; rewrite IH; [reflexivity|ring].
Qed.
Lemma ssum_scale c f l : ssum (fun s => c * f s) l = c * ssum f l.
Proof. induction l as [|s l IH]; cbn; [ring|rewrite IH; ring]. Qed.
Lemma ssum_plus f g l : ssum (fun s => f s + g s) l = ssum f l + ssum g l.
Proof. induction l as [|s l IH]; cbn; [ring|rewrite IH; ring]. Qed.
Definition rsum (l : list R) : R := fold_right Rplus 0 l.
Lemma total_shares P E : ssum (fun s => share P s E) (nrg_steps P) = factor P * rsum (map (fun c => ssum (fun s => hat P s E) (map st c)) (chains P)).
Proof.
  rewrite nrg_steps_ok. unfold chains, steps_of. set (l := seq _ _). unfold share, N_for_merging. destruct (p_NN1 P).
  - rewrite filter_true. cbn. rewrite Rplus_0_r. now rewrite ssum_scale.
  - destruct (p_NN2avg P) eqn:Ea.
    + rewrite ssum_scale. cbn [map rsum fold_right]. f_equal. rewrite Rplus_0_r, <- !ssum_filter, <- ssum_plus. apply ssum_ext. intros s _.
      rewrite <- Nat.negb_even. destruct (Nat.even (s_ndx s)); cbn; ring.
    + destruct (p_NN2even P); cbn [map rsum fold_right]; rewrite Rplus_0_r.
      * rewrite <- ssum_scale, <- (ssum_filter Nat.even). reflexivity.
      * rewrite <- ssum_scale, <- (ssum_filter Nat.odd). reflexivity.
Qed.
Lemma partition P E : pvalid P -> fitting P -> (forall c, In c (chains P) -> covered P c E) ->
  ssum (fun s => share P s E) (nrg_steps P) = 1.
Proof.
  intros HP HF HC. rewrite total_shares. assert (H : forall l, (forall c, In c l -> In c (chains P)) -> rsum (map (fun c => ssum (fun s => hat P s E) (map st c)) l) = INR (length l)).
  { induction l as [|c l IH]; intros Hl; [reflexivity|]. cbn [map rsum fold_right length]. change (fold_right Rplus 0) with rsum. rewrite IH by (intros d Hd; apply Hl; now right).
    rewrite (chain_one P HP HF c E (Hl c ltac:(now left)) (HC c (Hl c ltac:(now left)))), S_INR. ring. }
  rewrite H by auto. unfold factor, chains. destruct HF as [_ HF]. destruct (p_NN1 P).
  - destruct HF as [-> _]. cbn. ring.
  - destruct (p_NN2avg P); [cbn; lra|]. destruct (p_NN2even P); cbn; lra.
Qed.
Lemma never_over P E : pvalid P -> fitting P -> 0 <= ssum (fun s => share P s E) (nrg_steps P) <= 1.
Proof.
  intros HP HF. rewrite total_shares. pose proof (chain_range P HP HF) as HR. destruct HF as [_ HF]. unfold factor, chains in *. destruct (p_NN1 P).
  - destruct HF as [-> _]. pose proof (HR _ E (or_introl eq_refl)). cbn [map rsum fold_right]. lra.
  - destruct (p_NN2avg P).
    + pose proof (HR _ E (or_introl eq_refl)). pose proof (HR _ E (or_intror (or_introl eq_refl))). cbn [map rsum fold_right]. lra.
    + destruct (p_NN2even P); pose proof (HR _ E (or_introl eq_refl)); cbn [map rsum fold_right]; lra.
Qed.
(** The whole run on spectra given on one grid. *)
Fixpoint wsum (P : pparams) (l : list (step * spikes)) (e : R) (k : nat) : weight :=
  match l with
  | [] => (0, 0)
  | (s, cs) :: l' => (share P s e * fst (weight_at cs k) + fst (wsum P l' e k), share P s e * snd (weight_at cs k) + snd (wsum P l' e k))
  end.
Lemma merge_run_ok P l f : pvalid P -> (forall s cs, In (s, cs) l -> energies cs = energies f) ->
  exists r, merge_run P l f = Ok r /\ energies r = energies f /\
    forall k, weight_at r k = (fst (weight_at f k) + fst (wsum P l (energy_at f k) k), snd (weight_at f k) + snd (wsum P l (energy_at f k) k)).
Proof.
  intros HP. revert f. induction l as [|[s cs] l IH]; intros f H.
  - exists f. split; [reflexivity|]. split; [reflexivity|]. intros k. cbn. destruct (weight_at f k). cbn. f_equal; ring.
  - cbn [merge_run]. destruct (mergeNN2_ok P s f cs (edges_ok P HP s)) as [r [-> [E1 E2]]]; [symmetry; eapply H; now left|]. cbn [bind].
    destruct (IH r) as [r' [-> [E3 E4]]]; [intros s' cs' Hi; rewrite E1; eapply H; right; exact Hi|]. exists r'. split; [reflexivity|]. split; [congruence|].
    intros k. rewrite E4, E2, (energies_at _ _ _ E1). cbn. f_equal; ring.
Qed.
Lemma wsum_const P cs e k l : wsum P (map (fun s => (s, cs)) l) e k = (ssum (fun s => share P s e) l * fst (weight_at cs k), ssum (fun s => share P s e) l * snd (weight_at cs k)).
Proof. induction l as [|s l IH]; cbn; [f_equal; ring|]. rewrite IH. cbn. f_equal; ring. Qed.
