(** What is claimed of the binned spectra. *)
From Coq Require Import List ZArith Reals.
From Verif Require Import Base Bins_model.
Import ListNotations.
Local Open Scope R_scope.

(** Total weight and bin energies. *)
Fixpoint total (l : spikes) : weight := match l with [] => (0, 0) | p :: t => (fst (snd p) + fst (total t), snd (snd p) + snd (total t)) end.
Definition energies (l : spikes) : list R := map fst l.
Definition energy_at (l : spikes) (i : nat) : R := fst (nth i l (0, (0, 0))).
Definition weight_at (l : spikes) (i : nat) : weight := snd (nth i l (0, (0, 0))).
Definition first_energy (l : spikes) : R := energy_at l 0.
Definition last_energy (l : spikes) : R := energy_at l (length l - 1).
Definition increasing (l : spikes) : Prop := forall i j, (i < j < length l)%nat -> energy_at l i < energy_at l j.
Definition non_decreasing (l : spikes) : Prop := forall i j, (i <= j < length l)%nat -> energy_at l i <= energy_at l j.
(** A set of bins belonging to the grid set up for the parameters: the constructor's grid with any weights. *)
Definition on_grid (P : bparams) (b : spikes) : Prop := exists b0, construct P (Ok b0) /\ energies b = energies b0.
(** Valid parameters. *)
Definition valid (P : bparams) : Prop := (0 < p_bins P)%nat /\ 0 < emin P /\ emin P < emax P.

(** [b'] is [b] with the weight [w] shared by the neighbouring bins [i] and [i+1] in the proportions 1-t and t. *)
Definition shared (b b' : spikes) (w : weight) (i : nat) (t : R) : Prop :=
  (S i < length b)%nat /\ 0 <= t <= 1 /\ energies b' = energies b /\
  forall k, weight_at b' k = if Nat.eqb k i then (fst (weight_at b k) + (1 - t) * fst w, snd (weight_at b k) + (1 - t) * snd w)
                             else if Nat.eqb k (S i) then (fst (weight_at b k) + t * fst w, snd (weight_at b k) + t * snd w)
                             else weight_at b k.
(** A peak is dropped on arrival if its weight is below the clipping parameter times its energy. *)
Definition clipped (P : bparams) (energy : R) (w : weight) : Prop := wabs w < p_discard_immediately P * energy.
Definition clipped_dec P e w : {clipped P e w} + {~ clipped P e w} := Rlt_dec _ _.
(** Sum of the weights of the peaks that are not clipped and, for the shifted grid, whose |energy| lies on the grid. *)
Definition not_clipped (P : bparams) (p : R * weight) : bool := if clipped_dec P (Rabs (fst p)) (snd p) then false else true.
Definition on_range (P : bparams) (b : spikes) (p : R * weight) : bool :=
  if Rlt_dec 0 (p_accumulation P) then
    if Rle_dec (first_energy b) (Rabs (fst p)) then if Rle_dec (Rabs (fst p)) (last_energy b) then true else false else false
  else true.
Definition collected (P : bparams) (b : spikes) (l : spikes) : spikes := filter (fun p => andb (not_clipped P p) (on_range P b p)) l.
(** Bins heavy enough to be kept at the end of a run; the last one always is. *)
Definition heavy (P : bparams) (b : spikes) (i : nat) : bool :=
  if Nat.eqb (S i) (length b) then true
  else if Rle_dec (p_discard_trim P * (energy_at b (S i) - energy_at b i)) (wabs (weight_at b i)) then true else false.
Definition wsub (x y : weight) : weight := (fst x - fst y, snd x - snd y).
