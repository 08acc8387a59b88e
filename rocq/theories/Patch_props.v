(** Property theorems C25 and C46. *)
From Coq Require Import List ZArith Reals.
From Verif Require Import Base Bins_model Bins_spec Patch_model Patch_spec Patch_aux.
Import ListNotations.
Local Open Scope R_scope.

(** C25. Wherever the windows of consecutive merged steps fit together, the factors with which a weight enters the patched
    spectrum add up to one at every energy covered. *)
Theorem C25_partition_of_unity : forall P E, pvalid P -> fitting P -> (forall c, In c (chains P) -> covered P c E) ->
  share_sum P E (dmnrg_steps P) 1 /\ (forall x, share_sum P E (dmnrg_steps P) x -> x = 1).
Proof. exact partition_form. Qed.
Print Assumptions C25_partition_of_unity.

(** At no energy is weight counted more than once. *)
Theorem C25_never_over_counted : forall P E, pvalid P -> fitting P -> exists x, share_sum P E (dmnrg_steps P) x /\ 0 <= x <= 1.
Proof. exact over_form. Qed.
Print Assumptions C25_never_over_counted.

(** The merged spectrum of a run: bin by bin the sum of the spectra of the steps with factors between 0 and 1 that depend only
    on the step and the energy. *)
Theorem C25_merged_spectrum : forall P, pvalid P -> exists x : step -> R -> R, (forall s E, share_of P s E (x s E) /\ 0 <= x s E <= 1) /\
  forall l f, (forall s cs, In (s, cs) l -> energies cs = energies f) ->
  exists r, merge_run P l f = Ok r /\ energies r = energies f /\
    forall k, weight_at r k = (fst (weight_at f k) + fst (weighted x l (energy_at f k) k), snd (weight_at f k) + snd (weighted x l (energy_at f k) k)).
Proof. exact shares_form. Qed.
Print Assumptions C25_merged_spectrum.

(** If all steps yield the same spectrum, patching reproduces it at the energies covered. *)
Theorem C25_same_spectrum_reproduced : forall P cs f, pvalid P -> fitting P -> energies f = energies cs -> (forall k, weight_at f k = (0, 0)) ->
  exists r, merge_run P (map (fun s => (s, cs)) (dmnrg_steps P)) f = Ok r /\ energies r = energies cs /\
    forall k, (forall c, In c (chains P) -> covered P c (energy_at cs k)) -> weight_at r k = weight_at cs k.
Proof. exact same_form. Qed.
Print Assumptions C25_same_spectrum_reproduced.

Theorem C25_different_grids_rejected : forall P s f c, N_for_merging P s = true -> length f <> length c -> mergeNN2 P s f c = Throw.
Proof. exact different_grids. Qed.
Print Assumptions C25_different_grids_rejected.

Example C25_example : pvalid (px 1) /\ fitting (px 1) /\ chains (px 1) = [[0; 2; 4]]%nat /\
  (forall c, In c (chains (px 1)) -> covered (px 1) c (lower (px 1) (st 1))).
Proof. exact case_C25. Qed.

(** C46. Settings that are accepted but for which the factors do not add up to one.  Several channels without substeps and
    N/N+2 patching: at the edge between consecutive windows nothing is collected. *)
Theorem C46_several_channels_refuted : forall P n, pvalid P -> p_absolute P = false -> p_substeps P = false -> (2 <= p_channels P)%nat ->
  p_NN1 P = false -> p_NN2avg P = false -> p_NN2even P = true -> Nat.even n = true -> (p_Ninit P <= n)%nat -> (n + 2 < p_Nmax P)%nat ->
  (forall c, In c (chains P) -> covered P c (lower P (st n))) /\ share_sum P (lower P (st n)) (dmnrg_steps P) 0.
Proof. exact gap. Qed.
Print Assumptions C46_several_channels_refuted.

(** The first run calculates spectra before the loop by default, with the same step index as the first step: double weight. *)
Theorem C46_calculation_before_loop_refuted : forall P, pvalid P -> p_absolute P = false -> p_channels P = 1%nat -> p_NN1 P = false ->
  p_NN2avg P = false -> p_NN2even P = true -> p_Ninit P = 0%nat -> p_calc0 P = true ->
  exists E, (forall c, In c (chains P) -> covered P c E) /\ share_sum P E (ft_steps P) 2.
Proof. exact double. Qed.
Print Assumptions C46_calculation_before_loop_refuted.

(** N/N+1 patching combined with averaging: half of the weight. *)
Theorem C46_averaged_refuted : forall P E, pvalid P -> p_absolute P = false -> p_NN1 P = true -> p_NN2avg P = true ->
  (p_substeps P = false \/ p_channels P = 1%nat) -> (forall c, In c (chains P) -> covered P c E) -> share_sum P E (dmnrg_steps P) (1 / 2).
Proof. exact half. Qed.
Print Assumptions C46_averaged_refuted.

(** Absolute energies: all windows coincide, the factors add up to the number of merged steps. *)
Theorem C46_absolute_refuted : forall P, pvalid P -> p_absolute P = true ->
  share_sum P (p_goodE P * getEfactor P) (dmnrg_steps P) ((if p_NN2avg P then 1 / 2 else 1) * INR (length (filter (N_for_merging P) (dmnrg_steps P)))).
Proof. exact absolute_sum. Qed.
Print Assumptions C46_absolute_refuted.

Example C46_example : (exists P E, pvalid P /\ p_channels P = 2%nat /\ (forall c, In c (chains P) -> covered P c E) /\ share_sum P E (dmnrg_steps P) 0) /\
  (exists P E, pvalid P /\ fitting P /\ (forall c, In c (chains P) -> covered P c E) /\ share_sum P E (ft_steps P) 2).
Proof. exact (conj case_gap case_double). Qed.
