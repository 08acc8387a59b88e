(** Property theorems C24 and C45. *)
From Coq Require Import List ZArith Reals.
From Verif Require Import Base Bins_model Bins_spec Bins_aux.
Import ListNotations.
Local Open Scope R_scope.

(** C24. The grid: for valid limits the constructor succeeds with empty bins at positive ordered energies which cover
    [emin, emax] (standard grid) or reach from DBL_MIN to within one step of emax (shifted grid). *)
Theorem C24_grid : forall P, valid P -> exists b0, construct P (Ok b0) /\ (forall r, construct P r -> r = Ok b0) /\
  (2 <= length b0)%nat /\ non_decreasing b0 /\ (forall p, In p b0 -> 0 < fst p /\ snd p = (0, 0)) /\
  (~ 0 < p_accumulation P -> increasing b0 /\ first_energy b0 <= emin P /\ emax P <= last_energy b0) /\
  (0 < p_accumulation P -> first_energy b0 <= / 2 ^ 1022 /\ emax P / Rpower 10 (1 / INR (p_bins P)) < last_energy b0).
Proof. exact grid_facts. Qed.
Print Assumptions C24_grid.

Theorem C24_invalid_limits_rejected : forall P r, ~ valid P -> construct P r -> r = Throw.
Proof. exact Bins_run.construct_invalid. Qed.
Print Assumptions C24_invalid_limits_rejected.

(** Standard grid: a peak of any energy deposits exactly its weight, shared by two neighbouring bins; inside the grid they
    enclose the energy and the mean of the logarithm of the energy is preserved. *)
Theorem C24_add_standard_grid : forall P b energy w, on_grid P b -> ~ 0 < p_accumulation P -> ~ clipped P energy w ->
  exists b' i t, add P energy w b = Ok b' /\ shared b b' w i t /\ total b' = (fst (total b) + fst w, snd (total b) + snd w) /\
    (energy < emin P -> i = 0%nat /\ t = 0) /\
    (emin P <= energy <= last_energy b -> energy_at b i <= energy <= energy_at b (S i) /\
       ln energy = (1 - t) * ln (energy_at b i) + t * ln (energy_at b (S i))) /\
    (last_energy b < energy -> S (S i) = length b /\ t = 1).
Proof. exact add_std_grid. Qed.
Print Assumptions C24_add_standard_grid.

(** Shifted grid: the same inside the grid, with the mean energy preserved; a peak outside is dropped. *)
Theorem C24_add_shifted_grid : forall P b energy w, on_grid P b -> 0 < p_accumulation P -> ~ clipped P energy w ->
  (first_energy b <= energy <= last_energy b ->
   exists b' i t, add P energy w b = Ok b' /\ shared b b' w i t /\ total b' = (fst (total b) + fst w, snd (total b) + snd w) /\
    energy_at b i <= energy <= energy_at b (S i) /\ energy = (1 - t) * energy_at b i + t * energy_at b (S i)) /\
  (energy < first_energy b \/ last_energy b < energy -> add P energy w b = Ok b).
Proof. exact add_acc_grid. Qed.
Print Assumptions C24_add_shifted_grid.

Theorem C24_clipped_peaks_ignored : forall P b energy w, clipped P energy w -> add P energy w b = Ok b.
Proof. exact add_clipped. Qed.
Print Assumptions C24_clipped_peaks_ignored.

(** Merging adds bin by bin, and is refused for different grids. *)
Theorem C24_merge : forall b c, (energies b = energies c -> exists r, merge b c = Ok r /\ energies r = energies b /\
    (forall k, weight_at r k = (fst (weight_at b k) + fst (weight_at c k), snd (weight_at b k) + snd (weight_at c k))) /\
    total r = (fst (total b) + fst (total c), snd (total b) + snd (total c))) /\
  (energies b <> energies c -> merge b c = Throw).
Proof. exact merge_both. Qed.
Print Assumptions C24_merge.

(** A whole run: any number of steps with any peaks; the total weight of the merged spectrum is the sum over all peaks that
    are not clipped (and lie on the grid); saving it never fails. *)
Theorem C24_whole_run : forall P b0 steps, construct P (Ok b0) ->
  exists r, collect_steps P b0 steps (b0, b0) = Ok r /\ energies (fst r) = energies b0 /\ energies (snd r) = energies b0 /\
    chain_total r = total (collected P b0 (concat steps)) /\
    savebins r = Ok (fst r ++ map (fun p => (- fst p, snd p)) (snd r)).
Proof. exact run_grid. Qed.
Print Assumptions C24_whole_run.

(** Trimming keeps exactly the heavy bins and the last one and loses at most discard_trim times the width of the grid. *)
Theorem C24_trim : forall P b, on_grid P b -> exists b', trim P b = Ok b' /\
  b' = map (fun i => nth i b (0, (0, 0))) (filter (heavy P b) (seq 0 (length b))) /\
  (0 <= p_discard_trim P -> wabs (wsub (total b) (total b')) <= p_discard_trim P * (last_energy b - first_energy b)).
Proof. exact trim_grid. Qed.
Print Assumptions C24_trim.

Theorem C24_temperature_series : forall e w l, total (add_value e w l) = (fst (total l) + fst w, snd (total l) + snd w) /\
  (NoDup (energies l) -> NoDup (energies (add_value e w l))).
Proof. exact temperature_series. Qed.
Print Assumptions C24_temperature_series.

Example C24_example : valid (bx 0) /\ construct (bx 0) (Ok (loggrid_std (bx 0))) /\
  exists b', add (bx 0) (Rpower 10 (1 / 2)) (1, 0) (loggrid_std (bx 0)) = Ok b' /\
    weight_at b' 0 = (1 / 2, 0) /\ weight_at b' 1 = (1 / 2, 0) /\ weight_at b' 2 = (0, 0).
Proof. exact case_C24. Qed.

(** C45. On the shifted grid a peak at zero energy is always lost. *)
Theorem C45_zero_energy_peak_lost : forall P b w, on_grid P b -> 0 < p_accumulation P -> add P 0 w b = Ok b.
Proof. exact zero_lost. Qed.
Print Assumptions C45_zero_energy_peak_lost.

Theorem C45_zero_energy_peak_refuted : exists P b0 w, construct P (Ok b0) /\ ~ clipped P 0 w /\ w <> (0, 0) /\
  exists b', add P 0 w b0 = Ok b' /\ total b' = total b0.
Proof. exact zero_lost_refuted. Qed.
Print Assumptions C45_zero_energy_peak_refuted.

Example C45_example : valid (bx 1) /\ 0 < p_accumulation (bx 1) /\ ~ clipped (bx 1) 0 (1, 0).
Proof. exact case_C45. Qed.
