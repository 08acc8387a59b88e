(** Forms, settings that do not fit and concrete cases for Patch_props. *)
From Coq Require Import List ZArith Reals Lia Lra Psatz.
From Verif Require Import Base Bins_model Bins_spec Bins_proofs Patch_model Patch_spec Patch_proofs Patch_run.
Import ListNotations.
Local Open Scope R_scope.

Lemma partition_form P E : pvalid P -> fitting P -> (forall c, In c (chains P) -> covered P c E) ->
  share_sum P E (dmnrg_steps P) 1 /\ (forall x, share_sum P E (dmnrg_steps P) x -> x = 1).
Proof.
  intros HP HF HC. pose proof (partition P E HP HF HC) as H. unfold dmnrg_steps. pose proof (fun x => share_sum_iff P E (nrg_steps P) x (all_edges P HP _)) as HI.
  split; [apply HI; auto|]. intros x Hx. apply HI in Hx. congruence.
Qed.
Lemma over_form P E : pvalid P -> fitting P -> exists x, share_sum P E (dmnrg_steps P) x /\ 0 <= x <= 1.
Proof.
  intros HP HF. exists (ssum (fun s => share P s E) (nrg_steps P)). split; [now apply share_sum_iff; [apply all_edges|]|now apply never_over].
Qed.
Lemma shares_form P : pvalid P -> exists x : step -> R -> R, (forall s E, share_of P s E (x s E) /\ 0 <= x s E <= 1) /\
  forall l f, (forall s cs, In (s, cs) l -> energies cs = energies f) ->
  exists r, merge_run P l f = Ok r /\ energies r = energies f /\
    forall k, weight_at r k = (fst (weight_at f k) + fst (weighted x l (energy_at f k) k), snd (weight_at f k) + snd (weighted x l (energy_at f k) k)).
Proof.
  intros HP. exists (share P). split.
  - intros s E. split; [apply share_of_ok; now apply edges_ok|]. unfold share, factor. pose proof (hat_range P s E (edges_ok P HP s)). destruct (N_for_merging P s); [|lra]. destruct (p_NN2avg P); lra.
  - intros l f H. destruct (merge_run_ok P l f HP H) as [r [E1 [E2 E3]]]. exists r. split; [auto|]. split; [auto|]. intros k. rewrite E3.
    assert (Hw : forall l e, wsum P l e k = weighted (share P) l e k) by (induction l0 as [|[s cs] l0 IH]; intros e; cbn; [auto|now rewrite IH]). now rewrite Hw.
Qed.
Lemma same_form P cs f : pvalid P -> fitting P -> energies f = energies cs -> (forall k, weight_at f k = (0, 0)) ->
  exists r, merge_run P (map (fun s => (s, cs)) (dmnrg_steps P)) f = Ok r /\ energies r = energies cs /\
    forall k, (forall c, In c (chains P) -> covered P c (energy_at cs k)) -> weight_at r k = weight_at cs k.
Proof.
  intros HP HF He Hz. destruct (merge_run_ok P (map (fun s => (s, cs)) (dmnrg_steps P)) f HP) as [r [E1 [E2 E3]]].
  - intros s cs' H. apply in_map_iff in H. destruct H as [s' [H _]]. injection H as _ <-. auto.
  - exists r. split; [auto|]. split; [congruence|]. intros k Hk. rewrite E3, wsum_const, Hz, (energies_at _ _ _ He). unfold dmnrg_steps. rewrite (partition P _ HP HF Hk).
    destruct (weight_at cs k). cbn. f_equal; ring.
Qed.
Lemma different_grids P s f c : N_for_merging P s = true -> length f <> length c -> mergeNN2 P s f c = Throw.
Proof. exact (mergeNN2_fail P s f c). Qed.

(** Scales decrease. *)
Lemma scale_mono P m n : pvalid P -> p_absolute P = false -> (m <= n)%nat -> scale P (st n) <= scale P (st m).
Proof.
  intros HP Ha. induction 1 as [|n H IH]; [lra|]. apply (Rle_trans _ (scale P (st n))); [|auto]. rewrite (scale_st P HP n Ha).
  pose proof (scale_pos P HP (st (S n))). assert (1 <= Rpower (p_Lambda P) (delta P)).
  { rewrite <- (Rpower_O (p_Lambda P)) by (destruct HP; lra). destruct HP as [H1 HP']. apply Rle_Rpower; [lra|]. pose proof (channels_pos P (conj H1 HP')). unfold delta. destruct (p_substeps P); [|lra].
    apply Rlt_le, Rdiv_lt_0_compat; lra. }
  nra.
Qed.
Lemma edge_mono P m n : pvalid P -> p_absolute P = false -> (m <= n)%nat -> lower P (st n) <= lower P (st m) /\ peak P (st n) <= peak P (st m) /\ upper P (st n) <= upper P (st m).
Proof.
  intros HP Ha H. pose proof (scale_mono P m n HP Ha H). pose proof (goodE_pos P HP). pose proof (efactor_gt1 P HP). unfold lower, peak, upper.
  assert (0 < p_goodE P * getEfactor P) by (apply Rmult_lt_0_compat; lra). assert (0 < p_goodE P * getEfactor P ^ 2) by (apply Rmult_lt_0_compat; [lra|apply pow_lt; lra]).
  repeat split; apply Rmult_le_compat_r; lra.
Qed.
(** Two or more channels, full steps, N/N+2: nothing at all is collected at the edge between two windows. *)
Lemma gap P n : pvalid P -> p_absolute P = false -> p_substeps P = false -> (2 <= p_channels P)%nat -> p_NN1 P = false -> p_NN2avg P = false -> p_NN2even P = true ->
  Nat.even n = true -> (p_Ninit P <= n)%nat -> (n + 2 < p_Nmax P)%nat ->
  (forall c, In c (chains P) -> covered P c (lower P (st n))) /\ share_sum P (lower P (st n)) (dmnrg_steps P) 0.
Proof.
  intros HP Ha Hs Hch H1 H2 H3 Hn Hi Hm. set (E := lower P (st n)).
  assert (Hf : getEfactor P = sqrt (p_Lambda P)). { unfold getEfactor. destruct (Nat.eqb_spec (p_channels P) 1); [lia|reflexivity]. }
  assert (HL : 1 < p_Lambda P) by apply HP.
  assert (Hu : upper P (st (n + 2)) = E).
  { unfold E, upper, lower. rewrite (scale_st P HP n Ha), (scale_st P HP (S n) Ha). replace (S (S n)) with (n + 2)%nat by lia. unfold delta. rewrite Hs, Hf, <- (sqrt_Rpower P HP).
    cbn. rewrite Rmult_1_r. ring. }
  assert (Hin : forall m, (p_Ninit P <= m < p_Nmax P)%nat -> Nat.even m = true -> In m (steps_of P Nat.even)).
  { intros m Hm1 Hm2. apply filter_In. split; [apply in_seq; lia|auto]. }
  split.
  - unfold chains. rewrite H1, H2, H3. intros c [<-|[]]. pose proof (Hin n ltac:(lia) Hn) as I1. pose proof (Hin (n + 2)%nat ltac:(lia) ltac:(now rewrite Nat.even_add_mul_2 with (m := 1%nat) || (rewrite Nat.even_add, Hn; reflexivity))) as I2.
    destruct (parity_split Nat.even (p_Ninit P) (p_Nmax P - p_Ninit P) even_S) as [Sp _]. fold (steps_of P Nat.even) in Sp.
    destruct (steps_of P Nat.even) as [|n0 l]; [destruct I1|].
    assert (Hmin : forall l a x, spaced 2 (a :: l) -> In x (a :: l) -> (a <= x)%nat).
    { clear. induction l as [|b l IH]; intros a x Hsp Hx; [destruct Hx as [->|[]]; auto|]. destruct Hsp as [-> Hsp]. destruct Hx as [->|Hx]; [auto|]. specialize (IH _ _ Hsp Hx). lia. }
    assert (Hmax : forall l a x d, spaced 2 (a :: l) -> In x (a :: l) -> (x <= last (a :: l) d)%nat).
    { clear. induction l as [|b l IH]; intros a x d Hsp Hx; [destruct Hx as [->|[]]; auto|]. destruct Hsp as [-> Hsp]. change (last (a :: (a + 2)%nat :: l) d) with (last ((a + 2)%nat :: l) d).
      destruct Hx as [->|Hx]; [|now apply IH]. pose proof (IH (x + 2)%nat (x + 2)%nat d Hsp ltac:(now left)). lia. }
    cbn [covered]. pose proof (edges_ok P HP (st n)) as [K1 K2]. pose proof (edges_ok P HP (st (n + 2))) as [K3 K4]. split; left.
    + destruct (edge_mono P (n + 2) (last (n0 :: l) n0) HP Ha (Hmax l n0 _ n0 Sp I2)) as [_ [K _]]. lra.
    + destruct (edge_mono P n0 n HP Ha (Hmin l n0 _ Sp I1)) as [_ [K _]]. unfold E. lra.
  - apply share_sum_iff; [now apply all_edges|]. unfold dmnrg_steps. rewrite nrg_steps_ok. symmetry.
    transitivity (ssum (fun _ => 0) (map st (seq (p_Ninit P) (p_Nmax P - p_Ninit P)))).
    + apply ssum_ext. intros s Hsi. apply in_map_iff in Hsi. destruct Hsi as [m [<- Hm']]. unfold share, N_for_merging. rewrite H1, H2, H3. cbn [st s_ndx].
      destruct (Nat.even m) eqn:Em; [|reflexivity]. assert (Hc : (m <= n \/ n + 2 <= m)%nat).
      { destruct (Nat.eq_dec m (S n)) as [->|]; [|lia]. rewrite even_S, Hn in Em. discriminate. }
      destruct Hc as [Hc|Hc].
      * rewrite hat_below; [ring|]. now apply (edge_mono P m n).
      * rewrite hat_above; [ring|]. rewrite <- Hu. now apply (edge_mono P (n + 2) m).
    + induction (map st _) as [|s l IH]; cbn; [auto|]. rewrite IH. ring.
Qed.
(** The first run with its default calculation before the loop: double weight. *)
Lemma double P : pvalid P -> p_absolute P = false -> p_channels P = 1%nat -> p_NN1 P = false -> p_NN2avg P = false -> p_NN2even P = true -> p_Ninit P = 0%nat -> p_calc0 P = true ->
  exists E, (forall c, In c (chains P) -> covered P c E) /\ share_sum P E (ft_steps P) 2.
Proof.
  intros HP Ha Hch H1 H2 H3 Hi Hc. set (s0 := step_set (-1)). exists (peak P s0).
  assert (HL : 1 < p_Lambda P) by apply HP.
  assert (HF : fitting P). { split; [auto|]. rewrite H1. now left. }
  assert (Hsc : scale P s0 = Rpower (p_Lambda P) (1 / 2) * scale P (st 0)).
  { unfold scale. rewrite Ha. cbn [s0 step_set s_true st Z.of_nat]. change (-1 + 1)%Z with 0%Z. rewrite (SCALE_step P HP 0). f_equal. unfold delta. rewrite Hch. destruct (p_substeps P); [|reflexivity]. f_equal. cbn. field. }
  assert (Hf : getEfactor P = p_Lambda P). { unfold getEfactor. now rewrite Hch, H1. }
  pose proof (scale_pos P HP (st 0)) as Hp. pose proof (goodE_pos P HP) as Hg.
  assert (Hq : 1 < Rpower (p_Lambda P) (1 / 2) < p_Lambda P).
  { split; [rewrite <- (Rpower_O (p_Lambda P)) at 1 by lra; apply Rpower_lt; lra|]. rewrite <- (Rpower_1 (p_Lambda P)) at 2 by lra. apply Rpower_lt; lra. }
  assert (Hpk : peak P (st 0) < peak P s0 < upper P (st 0)).
  { unfold peak, upper. rewrite Hsc, Hf. assert (0 < p_goodE P * p_Lambda P) by (apply Rmult_lt_0_compat; lra). cbn [pow]. set (q := Rpower _ _) in *. set (a := scale P (st 0)) in *.
    assert (0 < a * (p_goodE P * p_Lambda P)) by (apply Rmult_lt_0_compat; lra).
    replace (q * a * (p_goodE P * p_Lambda P)) with (q * (a * (p_goodE P * p_Lambda P))) by ring.
    replace (a * (p_goodE P * (p_Lambda P * (p_Lambda P * 1)))) with (p_Lambda P * (a * (p_goodE P * p_Lambda P))) by ring. nra. }
  assert (HC : forall c, In c (chains P) -> covered P c (peak P s0)).
  { unfold chains. rewrite H1, H2, H3. intros c [<-|[]]. assert (Hh : exists l, steps_of P Nat.even = 0%nat :: l).
    { unfold steps_of. rewrite Hi. pose proof (proj2 (proj2 (proj2 (proj2 HP)))) as Hn. rewrite Hi in Hn. destruct (p_Nmax P) as [|N]; [lia|]. cbn. eauto. }
    destruct Hh as [l ->]. cbn [covered]. split; [left|right; split; [auto|lra]]. apply (Rle_trans _ (peak P (st 0))); [|lra]. apply edge_mono; auto. lia. }
  split; [exact HC|]. replace 2 with (1 + 1) by ring. unfold ft_steps. rewrite Hc, Hi. cbn [app]. change (Z.of_nat 0 - 1)%Z with (-1)%Z. fold s0. constructor.
  - replace 1 with (share P s0 (peak P s0)); [apply share_of_ok; now apply edges_ok|]. unfold share, N_for_merging. rewrite H1, H2, H3. change (Nat.even (s_ndx s0)) with true. cbv iota.
    rewrite hat_peak; [|now apply edges_ok|auto]. unfold factor. rewrite H2. ring.
  - apply (partition_form P (peak P s0) HP HF HC).
Qed.
(** N/N+1 together with averaging: half of the weight. *)
Lemma half P E : pvalid P -> p_absolute P = false -> p_NN1 P = true -> p_NN2avg P = true -> (p_substeps P = false \/ p_channels P = 1%nat) -> (forall c, In c (chains P) -> covered P c E) ->
  share_sum P E (dmnrg_steps P) (1 / 2).
Proof.
  intros HP Ha H1 H2 Hs HC.
  set (P' := {| p_Lambda := p_Lambda P; p_discretization := p_discretization P; p_bandrescale := p_bandrescale P; p_z := p_z P; p_channels := p_channels P; p_substeps := p_substeps P; p_absolute := p_absolute P;
     p_goodE := p_goodE P; p_NN1 := p_NN1 P; p_NN2even := p_NN2even P; p_NN2avg := false; p_NNtanh := p_NNtanh P; p_Ninit := p_Ninit P; p_Nmax := p_Nmax P; p_calc0 := p_calc0 P |}).
  assert (HF : fitting P') by (split; [exact Ha|]; unfold P'; cbn [p_NN1]; rewrite H1; now split).
  assert (HC' : forall c, In c (chains P') -> covered P' c E). { intros c Hc. apply (HC c). unfold chains in *. cbn [P' p_NN1] in Hc. rewrite H1 in *. exact Hc. }
  apply share_sum_iff; [now apply all_edges|]. unfold dmnrg_steps. rewrite total_shares. unfold chains, factor. rewrite H1, H2. cbn [map rsum fold_right].
  pose proof (chain_one P' HP HF (steps_of P (fun _ => true)) E) as K. change (hat P') with (hat P) in K. rewrite K; [lra| |].
  - unfold chains. cbn [P' p_NN1]. rewrite H1. now left.
  - apply HC'. unfold chains. cbn [P' p_NN1]. rewrite H1. now left.
Qed.
(** Absolute energies: all windows coincide. *)
Lemma absolute_sum P : pvalid P -> p_absolute P = true ->
  share_sum P (p_goodE P * getEfactor P) (dmnrg_steps P) ((if p_NN2avg P then 1 / 2 else 1) * INR (length (filter (N_for_merging P) (dmnrg_steps P)))).
Proof.
  intros HP Ha. apply share_sum_iff; [now apply all_edges|]. unfold dmnrg_steps. induction (nrg_steps P) as [|s l IH]; [cbn; ring|].
  cbn [ssum filter]. rewrite <- IH. unfold share at 1. destruct (N_for_merging P s).
  - cbn [length]. rewrite S_INR. rewrite hat_peak; [|now apply edges_ok|unfold peak, scale; rewrite Ha; ring]. unfold factor. destruct (p_NN2avg P); lra.
  - ring.
Qed.
(** A concrete case: one channel, N/N+2 on even steps. *)
Definition px (ch : nat) : pparams :=
  {| p_Lambda := 2; p_discretization := Yoshida; p_bandrescale := 1; p_z := 1; p_channels := ch; p_substeps := false; p_absolute := false; p_goodE := 2; p_NN1 := false; p_NN2even := true; p_NN2avg := false;
     p_NNtanh := 0.5; p_Ninit := 0; p_Nmax := 6; p_calc0 := true |}.
Lemma px_valid ch : (1 <= ch)%nat -> pvalid (px ch).
Proof. intros H. unfold pvalid. cbn. repeat split; try lra; lia. Qed.
Lemma case_C25 : pvalid (px 1) /\ fitting (px 1) /\ chains (px 1) = [[0; 2; 4]]%nat /\ (forall c, In c (chains (px 1)) -> covered (px 1) c (lower (px 1) (st 1))).
Proof.
  assert (HP := px_valid 1 ltac:(lia)). split; [auto|]. split; [split; [reflexivity|now left]|]. split; [reflexivity|]. intros c [<-|[]].
  change (covered (px 1) [0; 2; 4]%nat (lower (px 1) (st 1))). cbn [covered last]. pose proof (edge_mono (px 1) 1 4 HP eq_refl ltac:(lia)) as [_ [K1 _]]. pose proof (edge_mono (px 1) 0 1 HP eq_refl ltac:(lia)) as [_ [K2 _]].
  pose proof (edges_ok (px 1) HP (st 1)) as [K3 K4]. pose proof (edges_ok (px 1) HP (st 3)) as [K5 K6]. split; left; [|lra].
  assert (HF : fitting (px 1)) by (split; [reflexivity|now left]).
  destruct (link_st (px 1) HP 1 HF) as [-> _]. apply edge_mono; auto.
Qed.
Lemma case_gap : exists P E, pvalid P /\ p_channels P = 2%nat /\ (forall c, In c (chains P) -> covered P c E) /\ share_sum P E (dmnrg_steps P) 0.
Proof.
  exists (px 2), (lower (px 2) (st 0)). split; [apply px_valid; lia|]. split; [reflexivity|]. apply gap; try reflexivity; try (apply px_valid; lia); cbn; lia.
Qed.
Lemma case_double : exists P E, pvalid P /\ fitting P /\ (forall c, In c (chains P) -> covered P c E) /\ share_sum P E (ft_steps P) 2.
Proof.
  destruct (double (px 1)) as [E HE]; try reflexivity; [apply px_valid; lia|]. exists (px 1), E. split; [apply px_valid; lia|]. split; [split; [reflexivity|now left]|auto].
Qed.
