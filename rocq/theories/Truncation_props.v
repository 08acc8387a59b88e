(** Property theorems C08-C14. *)
From Coq Require Import List ZArith Lia Bool Permutation QArith.
From Verif Require Import Base Truncation_model Truncation_spec Truncation_aux.
Import ListNotations.
Local Open Scope Z_scope.

(** C08. Whatever the settings and the outcome, the kept states of every sector are its first states, and every
    kept state of any sector is strictly below every discarded state of any sector. *)
Theorem C08_kept_states_are_the_lowest :
  forall P sectors p kept,
  truncate_prepare P false sectors = Ok p -> p = Enough kept \/ p = NotEnough kept ->
  (forall s, In s sectors -> ascending (crit s)) ->
  length kept = length sectors /\
  forall a sa ka, nth_error sectors a = Some sa -> nth_error kept a = Some ka ->
    0 <= ka <= len (crit sa) /\
    forall b sb kb, nth_error sectors b = Some sb -> nth_error kept b = Some kb ->
      forall i j, Z.of_nat i < ka -> kb <= Z.of_nat j < len (crit sb) -> nth i (crit sa) 0 < nth j (crit sb) 0.
Proof. exact kept_lowest. Qed.
Print Assumptions C08_kept_states_are_the_lowest.

(** Two sectors with a degeneracy at the cutoff: both degenerate states are kept although 3 were requested. *)
Example C08_example :
  truncate_prepare {| floquet := false; keep_all := false; keep := 3; keepenergy_on := false; keepmin := 0; ecut := 0; safeguard := 0; safeguardmax := 0 |}
    false [{| crit := [0; 5; 9]; sdim := 3 |}; {| crit := [2; 5; 5; 8]; sdim := 4 |}] = Ok (Enough [2; 3]).
Proof. vm_compute. reflexivity. Qed.

(** C08, from raw eigenvalues: with validated settings and ascending non-empty sectors the preparation of a step
    (ground-state shift, splitting clean-up, truncation) never fails an assertion nor runs into undefined
    behaviour, and the kept states are strictly below the discarded ones in the raw energies as well. *)
Theorem C08_step_from_raw_energies :
  forall P fixeps raw dims,
  floquet P = false -> valid P -> raw <> [] -> length dims = length raw ->
  (forall v, In v raw -> v <> [] /\ ascending v) ->
  exists corrected p kept,
    prepare_step P fixeps false raw dims = Ok (corrected, p) /\ (p = Enough kept \/ p = NotEnough kept) /\
    length kept = length raw /\
    forall a va ka, nth_error raw a = Some va -> nth_error kept a = Some ka ->
      0 <= ka <= len va /\
      forall b vb kb, nth_error raw b = Some vb -> nth_error kept b = Some kb ->
        forall i j, Z.of_nat i < ka -> kb <= Z.of_nat j < len vb -> nth i va 0 < nth j vb 0.
Proof. exact step_from_raw. Qed.
Print Assumptions C08_step_from_raw_energies.

Example C08_step_example :
  prepare_step {| floquet := false; keep_all := false; keep := 2; keepenergy_on := false; keepmin := 0; ecut := 0; safeguard := 0; safeguardmax := 0 |}
    3 false [[10; 21; 40]; [11; 33]] [3; 2] = Ok ([[0; 11; 30]; [0; 23]], Enough [1; 1]).
Proof. vm_compute. reflexivity. Qed.

(** C09. The cutoff is a level of the spectrum.  With [s] the ascending spectrum and r the requested number: all
    states are kept if there are at most r (or if keepall applies); otherwise the cutoff is the level number
    r+extra where extra is at most the safeguard budget, all extra levels are within the safeguard gap of their
    lower neighbour, and the next level is farther than that unless the budget or the spectrum is exhausted. *)
Theorem C09_cutoff :
  forall P crits s,
  crits <> [] -> zero_based P crits -> valid P -> sorted_copy s crits ->
  1 <= request P crits <= keep P /\
  exists cmax, highest_retained P crits = Ok cmax /\
    (keep_all P = true \/ len crits <= request P crits -> cmax = nth (length crits - 1) s 0) /\
    (keep_all P = false -> request P crits < len crits ->
     exists extra : nat,
       let k := (Z.to_nat (request P crits) + extra)%nat in
       (k <= length crits)%nat /\
       Z.of_nat extra <= (if 0 <? safeguard P then safeguardmax P else 0) /\
       cmax = nth (k - 1) s 0 /\
       (forall j, (j < extra)%nat ->
          nth (Z.to_nat (request P crits) + j) s 0 - nth (Z.to_nat (request P crits) + j - 1) s 0 <= safeguard P) /\
       (k = length crits \/ Z.of_nat extra = (if 0 <? safeguard P then safeguardmax P else 0) \/
        safeguard P < nth k s 0 - nth (k - 1) s 0)).
Proof. exact cutoff_correct. Qed.
Print Assumptions C09_cutoff.

Example C09_example :
  highest_retained {| floquet := false; keep_all := false; keep := 3; keepenergy_on := true; keepmin := 2; ecut := 4; safeguard := 2; safeguardmax := 5 |}
    [7; 0; 9; 20; 5; 30] = Ok 9.
Proof. vm_compute. reflexivity. Qed.

(** C09. The number of kept states. *)
Theorem C09_number_of_kept_states :
  forall P sectors,
  sectors <> [] -> (forall s, In s sectors -> crit s <> []) -> zero_based P (concat (map crit sectors)) -> valid P ->
  exists p kept, truncate_prepare P false sectors = Ok p /\ (p = Enough kept \/ p = NotEnough kept) /\
    1 <= zsum kept /\
    Z.min (request P (concat (map crit sectors))) (len (concat (map crit sectors))) <= zsum kept /\
    (keep_all P = true -> zsum kept = len (concat (map crit sectors))).
Proof. exact number_kept. Qed.
Print Assumptions C09_number_of_kept_states.

(** C09. In the last step (and whenever everything is to be kept) all computed states of all sectors are kept. *)
Theorem C09_last_step_keeps_all :
  forall P sectors,
  sectors <> [] -> (forall s, In s sectors -> crit s <> []) -> zero_based P (concat (map crit sectors)) -> valid P ->
  exists p, truncate_prepare P true sectors = Ok p /\
    (p = Enough (map (fun s => len (crit s)) sectors) \/ p = NotEnough (map (fun s => len (crit s)) sectors)).
Proof. exact last_step_keeps_all. Qed.
Print Assumptions C09_last_step_keeps_all.

(** C09. The energy-cutoff rule: one state above the cutoff energy is kept, within the limits. *)
Theorem C09_request_is_clamped :
  forall P crits, valid P ->
  (keepenergy_on P = false -> request P crits = keep P) /\
  (keepenergy_on P = true ->
     keepmin P <= request P crits <= keep P /\
     (keepmin P <= 1 + Z.of_nat (not_above (ecut P) crits) <= keep P -> request P crits = 1 + Z.of_nat (not_above (ecut P) crits))) /\
  requested P crits = Ok (request P crits).
Proof. exact request_clamped. Qed.
Print Assumptions C09_request_is_clamped.

(** C09. Without the bound on keep + safeguardmax the guarantee fails: safeguardmax = 2^64-1 ("no limit") makes the
    prefix size wrap around, and the cutoff is then read outside the sorted prefix. *)
Theorem C09_huge_safeguardmax_refuted :
  exists P crits, validate_truncation P = Ok tt /\ 0 <= safeguardmax P < 2 ^ 64 /\ keep P = 2 /\
    crits <> [] /\ zero_based P crits /\ highest_retained P crits = UB.
Proof. exact huge_safeguardmax. Qed.
Print Assumptions C09_huge_safeguardmax_refuted.

(** C10. Let [full] be the complete ascending spectrum of each sector, of which the first n states were computed.
    If truncation succeeds, every state that was not computed lies at or above every kept state. *)
Theorem C10_uncomputed_states_are_not_below_kept_ones :
  forall P (input : list (list Z * nat)) kept,
  (forall full n, In (full, n) input -> ascending full) ->
  truncate_prepare P false (map (fun fn => {| crit := firstn (snd fn) (fst fn); sdim := len (fst fn) |}) input) = Ok (Enough kept) ->
  forall a fa na ka, nth_error input a = Some (fa, na) -> nth_error kept a = Some ka ->
  forall b fb nb kb, nth_error input b = Some (fb, nb) -> nth_error kept b = Some kb ->
    forall i j, Z.of_nat i < ka -> (nb <= j < length fb)%nat ->
      nth i fa 0 <= nth j fb 0 /\ (kb < Z.of_nat (Nat.min nb (length fb)) -> nth i fa 0 < nth j fb 0).
Proof. exact uncomputed_not_below. Qed.
Print Assumptions C10_uncomputed_states_are_not_below_kept_ones.

Example C10_example :
  let P := {| floquet := false; keep_all := false; keep := 3; keepenergy_on := false; keepmin := 0; ecut := 0; safeguard := 0; safeguardmax := 0 |} in
  truncate_prepare P false (map (fun fn => {| crit := firstn (snd fn) (fst fn); sdim := len (fst fn) |}) [([0; 0; 2; 3], 2%nat); ([1; 4; 6], 2%nat)])
    = Ok (NotEnough [2; 1]) /\
  truncate_prepare P false (map (fun fn => {| crit := firstn (snd fn) (fst fn); sdim := len (fst fn) |}) [([0; 0; 2; 3], 3%nat); ([1; 4; 6], 2%nat)])
    = Ok (Enough [2; 1]).
Proof. split; vm_compute; reflexivity. Qed.

(** C10. Fixed number of states, no safeguard: if fewer states are requested than computed and truncation succeeds,
    the cutoff is the one that the complete spectrum gives. *)
Theorem C10_cutoff_as_from_full_spectrum :
  forall P (input : list (list Z * nat)) kept,
  valid P -> keepenergy_on P = false -> safeguard P <= 0 -> keep_all P = false ->
  (forall full n, In (full, n) input -> ascending full) ->
  keep P < len (concat (map (fun fn => firstn (snd fn) (fst fn)) input)) ->
  truncate_prepare P false (map (fun fn => {| crit := firstn (snd fn) (fst fn); sdim := len (fst fn) |}) input) = Ok (Enough kept) ->
  zero_based P (concat (map fst input)) ->
  highest_retained P (concat (map (fun fn => firstn (snd fn) (fst fn)) input)) = highest_retained P (concat (map fst input)).
Proof. exact cutoff_full. Qed.
Print Assumptions C10_cutoff_as_from_full_spectrum.

(** C10. When at least as many states are requested as were computed, an incomplete diagonalisation goes
    unnoticed: the sector holding the highest computed state is never reported. *)
Theorem C10_fewer_states_than_requested_refuted :
  exists P full n kept,
    valid P /\ ascending full /\ keep P <= len full /\ (n < length full)%nat /\
    truncate_prepare P false [{| crit := firstn n full; sdim := len full |}] = Ok (Enough kept) /\
    zsum kept < keep P.
Proof. exact fewer_than_requested. Qed.
Print Assumptions C10_fewer_states_than_requested_refuted.

(** C11. With restartfactor > 1 the loop ends, for every spectrum, and not with NotEnough. *)
Theorem C11_restart_loop_terminates :
  forall P fixeps al diagratio full ratio factor,
  (0 < ratio)%Q -> (ratio <= 1)%Q -> (1 < factor)%Q ->
  exists fuel r attempts,
    do_diag_loop fuel (attempt_on P fixeps al diagratio full) true factor ratio = Some (r, attempts) /\
    forall k, r <> Ok (NotEnough k).
Proof. exact restart_terminates. Qed.
Print Assumptions C11_restart_loop_terminates.

Example C11_example :
  let P := {| floquet := false; keep_all := false; keep := 5; keepenergy_on := false; keepmin := 0; ecut := 0; safeguard := 0; safeguardmax := 0 |} in
  do_diag_loop 10 (attempt_on P 0 false (1 # 5) [[0; 1; 2; 3]; [50; 100; 200; 300]]) true (3 # 2) (1 # 5) = Some (Ok (Enough [4; 1]), 5%nat).
Proof. vm_compute. reflexivity. Qed.

(** C11. Restart disabled: exactly one attempt. *)
Theorem C11_single_attempt_without_restart :
  forall fuel att factor ratio, do_diag_loop (S fuel) att false factor ratio = Some (att ratio, 1%nat).
Proof. exact single_attempt. Qed.
Print Assumptions C11_single_attempt_without_restart.

(** C11. A restart factor in [0,1] is accepted by the program but can loop forever. *)
Theorem C11_small_factor_loops_refuted :
  exists P full, valid P /\ (forall v, In v full -> ascending v) /\
    forall factor, (0 <= factor)%Q -> (factor <= 1)%Q ->
    forall fuel, do_diag_loop fuel (attempt_on P 0 false (1 # 2) full) true factor (1 # 2) = None.
Proof. exact small_factor_loops. Qed.
Print Assumptions C11_small_factor_loops_refuted.

(** C12. The clean-up never throws on a non-empty spectrum and applies one map to all sectors; this map sends every
    level to a level not above it at a distance less than eps, keeps the order and the ground-state energy, fixes its
    targets, and distinct targets are at least eps apart. *)
Theorem C12_cleanup :
  forall eps sectors, 0 < eps -> concat sectors <> [] ->
  exists f, fix_splittings eps sectors = Ok (map (map f) sectors) /\
    good_map eps (concat sectors) f /\
    (forall g, In g (concat sectors) -> (forall x, In x (concat sectors) -> g <= x) -> f g = g) /\
    (forall v, In v sectors -> ascending v -> ascending (map f v)).
Proof. exact cleanup_correct. Qed.
Print Assumptions C12_cleanup.

(** C12. These properties determine the result. *)
Theorem C12_cleanup_is_determined :
  forall eps D f g ground, 0 < eps -> In ground D -> (forall x, In x D -> ground <= x) ->
  f ground = ground -> g ground = ground -> good_map eps D f -> good_map eps D g ->
  forall x, In x D -> f x = g x.
Proof. exact cleanup_unique. Qed.
Print Assumptions C12_cleanup_is_determined.

(** C12. A level farther than eps from all lower levels is untouched; tolerance <= 0 changes nothing. *)
Theorem C12_isolated_levels_untouched :
  forall eps sectors, concat sectors <> [] ->
  exists out, fix_splittings eps sectors = Ok out /\
    (eps <= 0 -> out = sectors) /\
    forall a va oa i, nth_error sectors a = Some va -> nth_error out a = Some oa -> (i < length va)%nat ->
      (forall y, In y (concat sectors) -> y < nth i va 0 -> eps <= nth i va 0 - y) -> nth i oa 0 = nth i va 0.
Proof. exact isolated_untouched. Qed.
Print Assumptions C12_isolated_levels_untouched.

Example C12_example : fix_splittings 3 [[0; 2; 7; 30]; [0; 3; 5; 6]] = Ok [[0; 0; 6; 30]; [0; 3; 3; 6]].
Proof. vm_compute. reflexivity. Qed.

(** C13. For every admissible outcome [p] of the (unstable) index sort: the criterion becomes ascending, the
    eigenpairs are permuted, and position k holds criterion, energy, corrected energy and eigenvector of one
    and the same original eigenpair. *)
Theorem C13_sort_by_criterion :
  forall (V : Type) (dv : V) (e : eigenpairs V) p,
  length (ep_v e) = length (ep_c e) -> length (ep_corr e) = length (ep_c e) -> length (ep_rows e) = length (ep_c e) ->
  sorts_by (ep_c e) p ->
  let e' := perform_sort_by_c dv p e in
  ascending (ep_c e') /\
  Permutation (combine (combine (ep_c e') (ep_v e')) (combine (ep_corr e') (ep_rows e')))
              (combine (combine (ep_c e) (ep_v e)) (combine (ep_corr e) (ep_rows e))) /\
  (length (ep_c e') = length (ep_c e) /\ length (ep_v e') = length (ep_c e) /\
   length (ep_corr e') = length (ep_c e) /\ length (ep_rows e') = length (ep_c e)) /\
  (forall k, (k < length (ep_c e))%nat -> exists i, (i < length (ep_c e))%nat /\
     nth k (ep_c e') 0 = nth i (ep_c e) 0 /\ nth k (ep_v e') 0 = nth i (ep_v e) 0 /\
     nth k (ep_corr e') 0 = nth i (ep_corr e) 0 /\ nth k (ep_rows e') dv = nth i (ep_rows e) dv).
Proof. exact sort_by_c_correct. Qed.
Print Assumptions C13_sort_by_criterion.

Example C13_example :
  sorts_by [4; 1; 4; 0] [3; 1; 2; 0]%nat /\
  perform_sort_by_c 0 [3; 1; 2; 0]%nat {| ep_c := [4; 1; 4; 0]; ep_v := [10; 11; 12; 13]; ep_corr := [10; 11; 11; 13]; ep_rows := [100; 101; 102; 103] |}
  = {| ep_c := [0; 1; 4; 4]; ep_v := [13; 11; 12; 10]; ep_corr := [13; 11; 11; 10]; ep_rows := [103; 101; 102; 100] |}.
Proof. exact sort_example. Qed.

(** C14. Kept and discarded ranges. *)
Theorem C14_ranges_partition_the_states :
  forall e, (getnrpost e <= e_nrcomputed e)%nat ->
  kept_range e ++ discarded_range e = seq 0 (e_nrcomputed e) /\
  Krange e ++ Drange e = seq 0 (e_nrcomputed e) /\
  (e_last e = true -> Krange e = [] /\ Drange e = seq 0 (e_nrcomputed e)) /\
  (e_last e = false -> Krange e = kept_range e /\ Drange e = discarded_range e) /\
  (e_dim e = e_nrcomputed e -> stored_all e (e_last e) = Drange e).
Proof. exact ranges_partition. Qed.
Print Assumptions C14_ranges_partition_the_states.

Example C14_example :
  let e := {| e_nrpost := Some 2%nat; e_nrcomputed := 5; e_dim := 5; e_last := false |} in
  Krange e = [0; 1]%nat /\ Drange e = [2; 3; 4]%nat /\ stored_all e false = [2; 3; 4]%nat.
Proof. vm_compute. repeat split. Qed.

(** C14. After a partial diagonalisation the stored range contains states that do not exist. *)
Theorem C14_stored_range_partial_diagonalisation_refuted :
  exists e, (getnrpost e <= e_nrcomputed e)%nat /\ (e_nrcomputed e < e_dim e)%nat /\
    exists i, In i (stored_all e false) /\ ~ In i (seq 0 (e_nrcomputed e)).
Proof. exact stored_range_partial. Qed.
Print Assumptions C14_stored_range_partial_diagonalisation_refuted.
