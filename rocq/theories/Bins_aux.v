(** Concrete cases for Bins_props: one bin per decade from 1 to 100. *)
From Coq Require Import List ZArith Reals Lia Lra Psatz.
From Verif Require Import Base Bins_model Bins_spec Bins_proofs Bins_acc Bins_run.
Import ListNotations.
Local Open Scope R_scope.

Definition bx (acc : R) : bparams :=
  {| p_bins := 1; p_accumulation := acc; p_linstep := 0; p_emin := 1; p_emax := 100; p_discard_immediately := / 10 ^ 16; p_discard_trim := / 10 ^ 16;
     p_SCALE0 := 1; p_last_scale := 1 |}.
Lemma bx_emin acc : emin (bx acc) = 1.
Proof. unfold emin. cbn. destruct (Rlt_dec 0 1); [auto|lra]. Qed.
Lemma bx_emax acc : emax (bx acc) = 100.
Proof. unfold emax. cbn. destruct (Rlt_dec 0 100); [auto|lra]. Qed.
Lemma bx_valid acc : valid (bx acc).
Proof. unfold valid. rewrite bx_emin, bx_emax. cbn. repeat split; [lia|lra|lra]. Qed.
Lemma log10_1 : log10 1 = 0.
Proof. unfold log10. rewrite ln_1. unfold Rdiv. ring. Qed.
Lemma log10_100 : log10 100 = 2.
Proof. unfold log10. replace 100 with (10 * 10) by lra. rewrite ln_mult by lra. pose proof ln10_pos. field. lra. Qed.
Lemma bx_lmin acc : log10emin (bx acc) = 0%Z.
Proof. unfold log10emin. rewrite bx_emin, log10_1. apply floor_unique. lra. Qed.
Lemma bx_lmax acc : log10emax (bx acc) = 2%Z.
Proof. unfold log10emax, ceil. rewrite bx_emax, log10_100. assert (E : Int_part (Ropp 2) = (-2)%Z) by (apply floor_unique; lra). now rewrite E. Qed.
Lemma bx_grid : loggrid_std (bx 0) = [(Rpower 10 (0 + 0 / 1), wzero); (Rpower 10 (0 + 1 / 1), wzero); (Rpower 10 (0 + (1 + 1) / 1), wzero)].
Proof. rewrite grid_eq by apply bx_valid. unfold nrb. rewrite bx_lmin, bx_lmax. reflexivity. Qed.
Lemma bx_construct : construct (bx 0) (Ok (loggrid_std (bx 0))).
Proof.
  destruct (construct_ok _ (bx_valid 0)) as [b [H1 _]]. destruct (construct_inv _ _ H1) as [_ [_ H2]]. cbn in H2. destruct (Rlt_dec 0 0); [lra|]. now subst b.
Qed.
Lemma not_clipped_1 acc e : 0 <= e -> e < 10 -> ~ clipped (bx acc) e (1, 0).
Proof.
  intros H1 H2. unfold clipped. cbn [p_discard_immediately bx]. replace (wabs (1, 0)) with 1.
  - intros H. assert (H10 : 10 <= 10 ^ 16) by (apply (Rle_trans _ (10 ^ 1)); [lra|apply Rle_pow; [lra|lia]]).
    assert (0 < / 10 ^ 16) by (apply Rinv_0_lt_compat; lra).
    assert (/ 10 ^ 16 * e <= / 10 ^ 16 * 10 ^ 16) as H3 by (apply Rmult_le_compat_l; lra). rewrite Rinv_l in H3; lra.
  - unfold wabs. cbn. replace (1 * 1 + 0 * 0) with 1 by ring. now rewrite sqrt_1.
Qed.
(** A peak half-way (on the logarithmic scale) between the first two bins. *)
Lemma case_C24 : valid (bx 0) /\ construct (bx 0) (Ok (loggrid_std (bx 0))) /\
  exists b', add (bx 0) (Rpower 10 (1 / 2)) (1, 0) (loggrid_std (bx 0)) = Ok b' /\
    weight_at b' 0 = (1 / 2, 0) /\ weight_at b' 1 = (1 / 2, 0) /\ weight_at b' 2 = (0, 0).
Proof.
  split; [apply bx_valid|]. split; [apply bx_construct|].
  assert (Hp : 1 < Rpower 10 (1 / 2)).
  { assert (H : Rpower 10 0 < Rpower 10 (1 / 2)) by (apply Rpower_lt; lra). now rewrite Rpower_O in H by lra. }
  assert (Hq : Rpower 10 (1 / 2) < 10).
  { assert (H : Rpower 10 (1 / 2) < Rpower 10 1) by (apply Rpower_lt; lra). now rewrite Rpower_1 in H by lra. }
  unfold add. destruct (Rlt_dec (wabs (1, 0)) _) as [Hc|_].
  { exfalso. exact (not_clipped_1 0 (Rpower 10 (1 / 2)) ltac:(lra) Hq Hc). }
  cbn [p_accumulation bx]. destruct (Rlt_dec 0 0); [lra|]. unfold add_std. rewrite bx_grid. change (Rlt_dec (Rpower 10 (1 / 2)) (emin (bx 0))) with (Rlt_dec (Rpower 10 (1 / 2)) (emin (bx 0))).
  destruct (Rlt_dec (Rpower 10 (1 / 2)) (emin (bx 0))) as [H|_]; [rewrite bx_emin in H; lra|].
  cbv zeta. rewrite bx_lmin. change (INR (p_bins (bx 0))) with 1.
  assert (Ex : (log10 (Rpower 10 (1 / 2)) - 0) * 1 = 1 / 2).
  { unfold log10. rewrite ln_pow10. pose proof ln10_pos. field. lra. }
  rewrite Ex. rewrite (floor_unique (1 / 2) 0) by lra. cbn [Z.ltb Z.compare Z.to_nat length Nat.sub Nat.leb].
  eexists. split; [reflexivity|]. cbn. unfold wadd, wscale, wzero. cbn. repeat split; f_equal; lra.
Qed.
Lemma case_C45 : valid (bx 1) /\ 0 < p_accumulation (bx 1) /\ ~ clipped (bx 1) 0 (1, 0).
Proof. split; [apply bx_valid|]. split; [cbn; lra|]. apply not_clipped_1; lra. Qed.
(** Energy zero on the shifted grid. *)
Lemma zero_lost P b w : on_grid P b -> 0 < p_accumulation P -> add P 0 w b = Ok b.
Proof.
  intros [b0 [H0 Hb]] Ha. unfold add. destruct (Rlt_dec (wabs w) (p_discard_immediately P * 0)); [auto|]. destruct (Rlt_dec 0 (p_accumulation P)); [|contradiction].
  assert (Hne : b <> []). { intros ->. apply energies_length in Hb. pose proof (grid_size P b0 H0). cbn in Hb. lia. }
  assert (E : add_acc 0 w b = add_acc_loop 0 w b) by (destruct b; [contradiction|auto]). rewrite E. apply acc_outside.
  - apply (ordered_energies _ _ Hb). now apply (grid_ordered P).
  - left. destruct (energies_first_last _ _ Hb) as [-> _]. pose proof (grid_size P b0 H0). destruct b0 as [|p b0]; [cbn in H; lia|].
    apply (grid_elem P _ H0). now left.
Qed.
Lemma zero_lost_refuted : exists P b0 w, construct P (Ok b0) /\ ~ clipped P 0 w /\ w <> (0, 0) /\ exists b', add P 0 w b0 = Ok b' /\ total b' = total b0.
Proof.
  destruct (construct_ok _ (bx_valid 1)) as [b0 [H _]]. exists (bx 1), b0, (1, 0). split; [auto|]. split; [apply case_C45|]. split; [intros E; injection E; lra|].
  exists b0. split; [|auto]. apply zero_lost; [now exists b0|cbn; lra].
Qed.
(** Forms for Bins_props. *)
Lemma grid_facts P : valid P -> exists b0, construct P (Ok b0) /\ (forall r, construct P r -> r = Ok b0) /\
  (2 <= length b0)%nat /\ non_decreasing b0 /\ (forall p, In p b0 -> 0 < fst p /\ snd p = (0, 0)) /\
  (~ 0 < p_accumulation P -> increasing b0 /\ first_energy b0 <= emin P /\ emax P <= last_energy b0) /\
  (0 < p_accumulation P -> first_energy b0 <= / 2 ^ 1022 /\ emax P / Rpower 10 (1 / INR (p_bins P)) < last_energy b0).
Proof.
  intros HP. destruct (construct_ok P HP) as [b0 [H1 H2]]. exists b0. split; [auto|]. split; [auto|]. split; [now apply (grid_size P)|].
  split; [apply ordered_non_decreasing; now apply (grid_ordered P)|]. split; [exact (grid_elem P b0 H1)|].
  destruct (construct_inv _ _ H1) as [_ [_ H3]]. destruct (Rlt_dec 0 (p_accumulation P)) as [Ha|Ha].
  - split; [intros; contradiction|]. intros _. split; [now apply (acc_first P)|now apply (acc_last P HP Ha)].
  - split; [|intros; contradiction]. intros _. subst b0. split; [now apply grid_increasing|now apply grid_covers].
Qed.
Lemma add_std_grid P b energy w : on_grid P b -> ~ 0 < p_accumulation P -> ~ clipped P energy w ->
  exists b' i t, add P energy w b = Ok b' /\ shared b b' w i t /\ total b' = (fst (total b) + fst w, snd (total b) + snd w) /\
    (energy < emin P -> i = 0%nat /\ t = 0) /\
    (emin P <= energy <= last_energy b -> energy_at b i <= energy <= energy_at b (S i) /\
       ln energy = (1 - t) * ln (energy_at b i) + t * ln (energy_at b (S i))) /\
    (last_energy b < energy -> S (S i) = length b /\ t = 1).
Proof.
  intros [b0 [H0 Hb]] Ha Hc. destruct (construct_inv _ _ H0) as [HP [_ H3]]. destruct (Rlt_dec 0 (p_accumulation P)) as [Ha'|_]; [contradiction|]. subst b0.
  destruct (add_std_spec P HP b Hb energy w) as [b' [i [t [E1 [E2 [E3 [E4 E5]]]]]]]. exists b', i, t. split; [|split; [auto|split; [exact (shared_total _ _ _ _ _ E2)|auto]]].
  unfold add. destruct (Rlt_dec (wabs w) _) as [H|_]; [contradiction|]. destruct (Rlt_dec 0 (p_accumulation P)); [contradiction|auto].
Qed.
Lemma add_acc_grid P b energy w : on_grid P b -> 0 < p_accumulation P -> ~ clipped P energy w ->
  (first_energy b <= energy <= last_energy b ->
   exists b' i t, add P energy w b = Ok b' /\ shared b b' w i t /\ total b' = (fst (total b) + fst w, snd (total b) + snd w) /\
    energy_at b i <= energy <= energy_at b (S i) /\ energy = (1 - t) * energy_at b i + t * energy_at b (S i)) /\
  (energy < first_energy b \/ last_energy b < energy -> add P energy w b = Ok b).
Proof.
  intros [b0 [H0 Hb]] Ha Hc.
  assert (Hne : b <> []). { intros ->. apply energies_length in Hb. pose proof (grid_size P b0 H0). cbn in Hb. lia. }
  assert (Ho : ordered b) by (apply (ordered_energies _ _ Hb); now apply (grid_ordered P)).
  assert (Hl : (2 <= length b)%nat) by (rewrite (energies_length _ _ Hb); now apply (grid_size P)).
  assert (E : add P energy w b = add_acc_loop energy w b).
  { unfold add. destruct (Rlt_dec (wabs w) _) as [H|_]; [contradiction|]. destruct (Rlt_dec 0 (p_accumulation P)); [|contradiction]. destruct b; [contradiction|auto]. }
  rewrite E. split; intros H.
  - destruct (acc_inside energy w b Ho Hl H) as [b' [i [t [E1 [E2 [E3 E4]]]]]]. exists b', i, t. split; [auto|]. split; [auto|].
    split; [exact (shared_total _ _ _ _ _ E2)|auto].
  - now apply acc_outside.
Qed.
Lemma add_clipped P b energy w : clipped P energy w -> add P energy w b = Ok b.
Proof. intros H. unfold add. destruct (Rlt_dec (wabs w) _); [auto|contradiction]. Qed.
Lemma merge_both b c : (energies b = energies c -> exists r, merge b c = Ok r /\ energies r = energies b /\
    (forall k, weight_at r k = (fst (weight_at b k) + fst (weight_at c k), snd (weight_at b k) + snd (weight_at c k))) /\
    total r = (fst (total b) + fst (total c), snd (total b) + snd (total c))) /\
  (energies b <> energies c -> merge b c = Throw).
Proof. split; [exact (merge_ok b c)|exact (merge_fail b c)]. Qed.
Lemma trim_grid P b : on_grid P b -> exists b', trim P b = Ok b' /\
  b' = map (fun i => nth i b (0, (0, 0))) (filter (heavy P b) (seq 0 (length b))) /\
  (0 <= p_discard_trim P -> wabs (wsub (total b) (total b')) <= p_discard_trim P * (last_energy b - first_energy b)).
Proof.
  intros [b0 [H0 Hb]].
  assert (Hne : b <> []). { intros ->. apply energies_length in Hb. pose proof (grid_size P b0 H0). cbn in Hb. lia. }
  assert (Ho : ordered b) by (apply (ordered_energies _ _ Hb); now apply (grid_ordered P)).
  pose proof (trim_ok P b Ho Hne) as E. eexists. split; [exact E|]. split; [auto|]. intros Hd. apply (trim_loss P b _ Hd Ho). unfold trim in E. destruct b; [contradiction|exact E].
Qed.
Lemma run_grid P b0 steps : construct P (Ok b0) ->
  exists r, collect_steps P b0 steps (b0, b0) = Ok r /\ energies (fst r) = energies b0 /\ energies (snd r) = energies b0 /\
    chain_total r = total (collected P b0 (concat steps)) /\
    savebins r = Ok (fst r ++ map (fun p => (- fst p, snd p)) (snd r)).
Proof.
  intros H0. destruct (run_ok P b0 H0 steps) as [r [E [H1 [H2 H3]]]]. exists r. split; [auto|]. split; [auto|]. split; [auto|]. split; [auto|].
  now apply (savebins_ok P b0 H0).
Qed.
Lemma temperature_series e w l : total (add_value e w l) = (fst (total l) + fst w, snd (total l) + snd w) /\
  (NoDup (energies l) -> NoDup (energies (add_value e w l))).
Proof. split; [exact (add_value_total e w l)|apply add_value_nodup]. Qed.
