(** Lemmas in the form used by Truncation_props.v. *)
From Coq Require Import List ZArith Lia Bool Permutation Sorted QArith Qminmax Qround.
From Verif Require Import Base Truncation_model Truncation_spec.
From Verif Require Truncation_proofs Truncation_clusters Truncation_step.
Import Truncation_proofs Truncation_clusters Truncation_step.
Import ListNotations.
Local Open Scope Z_scope.

Definition kept_lowest := Truncation_proofs.kept_lowest.

Lemma nth_error_combine {A B} (l : list A) : forall (m : list B) i, nth_error (combine l m) i =
  match nth_error l i, nth_error m i with Some a, Some b => Some (a, b) | _, _ => None end.
Proof.
  induction l as [|a l IH]; intros [|b m] [|i]; simpl; auto.
  - destruct (nth_error l i); auto.
Qed.

Lemma step_from_raw : forall P fixeps raw dims,
  floquet P = false -> valid P -> raw <> [] -> length dims = length raw ->
  (forall v, In v raw -> v <> [] /\ ascending v) ->
  exists corrected p kept,
    prepare_step P fixeps false raw dims = Ok (corrected, p) /\ (p = Enough kept \/ p = NotEnough kept) /\
    length kept = length raw /\
    forall a va ka, nth_error raw a = Some va -> nth_error kept a = Some ka ->
      0 <= ka <= len va /\
      forall b vb kb, nth_error raw b = Some vb -> nth_error kept b = Some kb ->
        forall i j, Z.of_nat i < ka -> kb <= Z.of_nat j < len vb -> nth i va 0 < nth j vb 0.
Proof.
  intros P fixeps raw dims Hfl HV Hne HL Hv.
  destruct (prepare_step_correct P fixeps false raw dims Hfl HV Hne HL Hv) as (f & p & E1 & E2 & Hmono & _ & _).
  set (sectors := map _ _) in E2.
  assert (exists kept, p = Enough kept \/ p = NotEnough kept) as [kept Hp] by (destruct p; eauto).
  exists (map (map f) raw), p, kept. split; auto. split; auto.
  assert (Hsec : forall a va, nth_error raw a = Some va -> exists s, nth_error sectors a = Some s /\ crit s = map f va).
  { intros a va Ha. assert (exists d, nth_error dims a = Some d) as [d Hd].
    { destruct (nth_error dims a) eqn:E; eauto. apply nth_error_None in E.
      assert (nth_error raw a <> None) by congruence. apply nth_error_Some in H. lia. }
    exists {| crit := map f va; sdim := d |}. split; auto.
    unfold sectors. rewrite nth_error_map, nth_error_combine, nth_error_map, Ha, Hd. auto. }
  assert (HA : forall s, In s sectors -> ascending (crit s)).
  { intros s Hs. unfold sectors in Hs. apply in_map_iff in Hs. destruct Hs as ([v d] & <- & Hs). simpl.
    apply in_combine_l in Hs. apply in_map_iff in Hs. destruct Hs as (w & <- & Hw).
    intros i j Hij. rewrite map_length in Hij.
    rewrite (nth_indep (map f w) 0 (f 0)) by (rewrite map_length; lia).
    rewrite (nth_indep (map f w) 0 (f 0) (n := j)) by (rewrite map_length; lia).
    rewrite !map_nth. apply Hmono; try (apply in_concat; exists w; split; auto; apply nth_In; lia).
    apply Hv; auto. }
  destruct (kept_lowest _ _ _ _ E2 Hp HA) as [HkL HK]. split.
  { rewrite HkL. unfold sectors. rewrite map_length, combine_length, map_length. lia. }
  intros a va ka Ha Hka. destruct (Hsec a va Ha) as (sa & Hsa & Ca).
  destruct (HK a sa ka Hsa Hka) as [HK1 HK2]. rewrite Ca in HK1. unfold len in *. rewrite map_length in HK1.
  split; auto. intros b vb kb Hb Hkb i j Hi Hj. destruct (Hsec b vb Hb) as (sb & Hsb & Cb).
  specialize (HK2 b sb kb Hsb Hkb i j Hi). rewrite Ca, Cb, map_length in HK2. specialize (HK2 Hj).
  destruct (Z.lt_ge_cases (nth i va 0) (nth j vb 0)); auto. exfalso.
  assert (Hin : forall c v k, nth_error raw c = Some v -> (k < length v)%nat -> In (nth k v 0) (concat raw)).
  { intros c v k Hc Hk. apply in_concat. exists v. split; [eapply nth_error_In; eauto|apply nth_In; auto]. }
  pose proof (Hmono (nth j vb 0) (nth i va 0) (Hin b vb j Hb ltac:(lia)) (Hin a va i Ha ltac:(lia)) ltac:(lia)) as M.
  rewrite (nth_indep (map f va) 0 (f 0)) in HK2 by (rewrite map_length; lia).
  rewrite (nth_indep (map f vb) 0 (f 0)) in HK2 by (rewrite map_length; lia).
  rewrite !map_nth in HK2. lia.
Qed.

Lemma cutoff_correct : forall P crits s,
  crits <> [] -> zero_based P crits -> valid P -> sorted_copy s crits ->
  1 <= request P crits <= keep P /\
  exists cmax, highest_retained P crits = Ok cmax /\
    (keep_all P = true \/ len crits <= request P crits -> cmax = nth (length crits - 1) s 0) /\
    (keep_all P = false -> request P crits < len crits ->
     exists extra : nat,
       let k := (Z.to_nat (request P crits) + extra)%nat in
       (k <= length crits)%nat /\
       Z.of_nat extra <= (if 0 <? safeguard P then safeguardmax P else 0) /\
       cmax = nth (k - 1) s 0 /\
       (forall j, (j < extra)%nat ->
          nth (Z.to_nat (request P crits) + j) s 0 - nth (Z.to_nat (request P crits) + j - 1) s 0 <= safeguard P) /\
       (k = length crits \/ Z.of_nat extra = (if 0 <? safeguard P then safeguardmax P else 0) \/
        safeguard P < nth k s 0 - nth (k - 1) s 0)).
Proof.
  intros P crits s H1 H2 H3 H4. split; [apply requested_request; auto|apply highest_retained_correct; auto].
Qed.

Lemma last_step_keeps_all : forall P sectors,
  sectors <> [] -> (forall s, In s sectors -> crit s <> []) -> zero_based P (concat (map crit sectors)) -> valid P ->
  exists p, truncate_prepare P true sectors = Ok p /\
    (p = Enough (map (fun s => len (crit s)) sectors) \/ p = NotEnough (map (fun s => len (crit s)) sectors)).
Proof.
  intros P sectors Hne Hc Hz HV. destruct (truncate_prepare_total P true sectors Hne Hc Hz HV) as [p Hp]. exists p. split; auto.
  destruct (truncate_prepare_inv _ _ _ _ Hp) as (cmax & _ & Hk & _). exact Hk.
Qed.

Lemma number_kept : forall P sectors,
  sectors <> [] -> (forall s, In s sectors -> crit s <> []) -> zero_based P (concat (map crit sectors)) -> valid P ->
  exists p kept, truncate_prepare P false sectors = Ok p /\ (p = Enough kept \/ p = NotEnough kept) /\
    1 <= zsum kept /\
    Z.min (request P (concat (map crit sectors))) (len (concat (map crit sectors))) <= zsum kept /\
    (keep_all P = true -> zsum kept = len (concat (map crit sectors))).
Proof.
  intros P sectors Hne Hc Hz HV.
  destruct (truncate_prepare_total P false sectors Hne Hc Hz HV) as [p Hp].
  destruct (truncate_prepare_inv _ _ _ _ Hp) as (cmax & Hcm & Hk & _).
  exists p, (map (nr_kept false cmax) sectors). split; auto. split; auto. rewrite zsum_kept.
  set (crits := concat (map crit sectors)) in *.
  assert (Hcne : crits <> []).
  { apply concat_ne. destruct sectors; simpl; congruence. intros l Hl. apply in_map_iff in Hl. destruct Hl as (s & <- & Hs). auto. }
  assert (Hlen : (0 < length crits)%nat) by (destruct crits; simpl; [congruence|lia]).
  destruct (requested_request P crits HV) as [_ HR].
  destruct (highest_retained_correct P crits _ Hcne Hz HV (sort_values_copy crits)) as (cm & Hcm' & HA & HB).
  assert (cm = cmax) by congruence. subst cm. clear Hcm'.
  pose proof (sort_values_copy crits) as SC. pose proof (sorted_copy_length _ _ SC) as SL. destruct SC as [SP SA].
  rewrite <- (not_above_perm cmax _ _ SP).
  assert (Hpre : forall k, (0 < k <= length crits)%nat -> cmax = nth (k - 1) (sort_values crits) 0 -> (k <= not_above cmax (sort_values crits))%nat).
  { intros k Hk2 Ek. assert (k - 1 < not_above cmax (sort_values crits))%nat; [|lia].
    apply (ascending_prefix _ cmax SA); lia. }
  assert (Hub : (not_above cmax (sort_values crits) <= length crits)%nat).
  { rewrite <- SL. apply filter_length_le. }
  unfold len in *. destruct (keep_all P) eqn:EK.
  - specialize (Hpre (length crits) ltac:(lia) (HA (or_introl eq_refl))). lia.
  - destruct (Z.lt_ge_cases (request P crits) (Z.of_nat (length crits))) as [Hlt|Hge].
    + destruct (HB eq_refl Hlt) as (extra & K1 & K2 & K3 & _).
      assert (Hk0 : (0 < Z.to_nat (request P crits) + extra <= length crits)%nat) by lia. specialize (Hpre _ Hk0 K3). split; [lia|]. split; [lia|discriminate].
    + specialize (Hpre (length crits) ltac:(lia) (HA (or_intror Hge))). split; [lia|]. split; [lia|discriminate].
Qed.

Lemma request_clamped : forall P crits, valid P ->
  (keepenergy_on P = false -> request P crits = keep P) /\
  (keepenergy_on P = true ->
     keepmin P <= request P crits <= keep P /\
     (keepmin P <= 1 + Z.of_nat (not_above (ecut P) crits) <= keep P -> request P crits = 1 + Z.of_nat (not_above (ecut P) crits))) /\
  requested P crits = Ok (request P crits).
Proof.
  intros P crits HV. destruct (requested_request P crits HV) as [HR HR1]. apply valid_inv in HV.
  destruct HV as (V1 & V2 & V3 & _). split; [|split]; auto.
  - unfold request. intros ->. auto.
  - intros E. specialize (V2 E). unfold request in *. rewrite E in *. lia.
Qed.

Lemma huge_safeguardmax :
  exists P crits, validate_truncation P = Ok tt /\ 0 <= safeguardmax P < 2 ^ 64 /\ keep P = 2 /\
    crits <> [] /\ zero_based P crits /\ highest_retained P crits = UB.
Proof.
  exists {| floquet := false; keep_all := false; keep := 2; keepenergy_on := false; keepmin := 0; ecut := 0; safeguard := 1; safeguardmax := 2 ^ 64 - 1 |}.
  exists [0; 5; 9; 20].
  split; [vm_compute; reflexivity|]. split; [simpl safeguardmax; lia|]. split; [reflexivity|]. split; [discriminate|].
  split; [|vm_compute; reflexivity].
  right. split; [left; auto|]. intros x Hx. simpl in Hx. lia.
Qed.

Lemma map_crit_firstn (input : list (list Z * nat)) :
  map crit (map (fun fn => {| crit := firstn (snd fn) (fst fn); sdim := len (fst fn) |}) input) = map (fun fn => firstn (snd fn) (fst fn)) input.
Proof. rewrite map_map. reflexivity. Qed.

Lemma uncomputed_not_below : forall P (input : list (list Z * nat)) kept,
  (forall full n, In (full, n) input -> ascending full) ->
  truncate_prepare P false (map (fun fn => {| crit := firstn (snd fn) (fst fn); sdim := len (fst fn) |}) input) = Ok (Enough kept) ->
  forall a fa na ka, nth_error input a = Some (fa, na) -> nth_error kept a = Some ka ->
  forall b fb nb kb, nth_error input b = Some (fb, nb) -> nth_error kept b = Some kb ->
    forall i j, Z.of_nat i < ka -> (nb <= j < length fb)%nat ->
      nth i fa 0 <= nth j fb 0 /\ (kb < Z.of_nat (Nat.min nb (length fb)) -> nth i fa 0 < nth j fb 0).
Proof.
  intros P input kept HA H a fa na ka Ha Hka b fb nb kb Hb Hkb i j Hi Hj.
  destruct (truncate_prepare_inv _ _ _ _ H) as (cmax & _ & Hk & Hins).
  assert (Hkept : Enough kept = Enough (map (nr_kept false cmax) (map (fun fn => {| crit := firstn (snd fn) (fst fn); sdim := len (fst fn) |}) input))) by (destruct Hk; congruence).
  specialize (Hins Hkept). inversion Hkept as [Hkept']. rewrite Hkept' in Hka, Hkb.
  rewrite !nth_error_map, Ha in Hka. rewrite !nth_error_map, Hb in Hkb. cbn [option_map fst snd] in Hka, Hkb.
  set (sa := {| crit := firstn na fa; sdim := len fa |}) in *. set (sb := {| crit := firstn nb fb; sdim := len fb |}) in *.
  assert (ka = nr_kept false cmax sa) by congruence. assert (kb = nr_kept false cmax sb) by congruence. subst ka kb.
  assert (Hsb : In sb (map (fun fn => {| crit := firstn (snd fn) (fst fn); sdim := len (fst fn) |}) input)).
  { apply in_map_iff. exists (fb, nb). split; auto. eapply nth_error_In; eauto. }
  pose proof (HA fa na (nth_error_In _ _ Ha)) as Aa. pose proof (HA fb nb (nth_error_In _ _ Hb)) as Ab.
  destruct (uncomputed_above cmax sb fb nb Ab eq_refl eq_refl (Hins _ Hsb) j Hj) as [U1 U2].
  pose proof (nr_kept_range cmax sa) as Hr. unfold nrcomputed, len in Hr.
  assert (HiL : (i < length (crit sa))%nat) by lia.
  apply kept_prefix in Hi; [|apply ascending_firstn; auto|auto].
  simpl crit in Hi, HiL. rewrite firstn_length in HiL. rewrite nth_firstn in Hi by lia.
  split; [lia|]. intros Hlt. assert (cmax < nth j fb 0); [|lia]. apply U2.
  unfold nrcomputed, len. simpl crit. rewrite firstn_length. lia.
Qed.

Lemma highest_retained_Ok_inv P crits c : highest_retained P crits = Ok c -> crits <> [] /\ zero_based P crits.
Proof.
  unfold highest_retained. destruct (Z.eqb_spec (len crits) 0); [discriminate|]. cbn [negb my_assert bind].
  assert (Hne : crits <> []) by (intros ->; apply n; reflexivity). intros H. split; auto.
  unfold zero_based. destruct (floquet P); auto. right. destruct (Z.eqb_spec (min_element crits) 0) as [E|]; [|discriminate].
  rewrite <- E at 1. split; [apply min_element_in; auto|]. intros x Hx. rewrite <- E. apply min_element_le; auto.
Qed.

Lemma concat_split (input : list (list Z * nat)) :
  Permutation (concat (map fst input)) (concat (map (fun fn => firstn (snd fn) (fst fn)) input) ++ concat (map (fun fn => skipn (snd fn) (fst fn)) input)).
Proof.
  induction input as [|[l n] t IH]; simpl; auto. rewrite <- (firstn_skipn n l) at 1. rewrite IH.
  rewrite <- !app_assoc. apply Permutation_app_head. rewrite !app_assoc. apply Permutation_app_tail. apply Permutation_app_comm.
Qed.

Lemma in_skipn_nth (l : list Z) n x : In x (skipn n l) -> exists j, (n <= j < length l)%nat /\ nth j l 0 = x.
Proof.
  revert n. induction l as [|a l IH]; intros [|n] H; simpl in *; try tauto.
  - destruct H as [->|H]; [exists 0%nat; split; auto; lia|].
    destruct (IH 0%nat) as (j & Hj & E); [simpl; auto|]. exists (S j). split; [lia|auto].
  - destruct (IH n H) as (j & Hj & E). exists (S j). split; [lia|auto].
Qed.

Lemma cutoff_full : forall P (input : list (list Z * nat)) kept,
  valid P -> keepenergy_on P = false -> safeguard P <= 0 -> keep_all P = false ->
  (forall full n, In (full, n) input -> ascending full) ->
  keep P < len (concat (map (fun fn => firstn (snd fn) (fst fn)) input)) ->
  truncate_prepare P false (map (fun fn => {| crit := firstn (snd fn) (fst fn); sdim := len (fst fn) |}) input) = Ok (Enough kept) ->
  zero_based P (concat (map fst input)) ->
  highest_retained P (concat (map (fun fn => firstn (snd fn) (fst fn)) input)) = highest_retained P (concat (map fst input)).
Proof.
  intros P input kept HV Hke Hsg Hka HA Hlt H HZ.
  destruct (truncate_prepare_inv _ _ _ _ H) as (cmax & Hcm & Hk & Hins).
  assert (Hkept : Enough kept = Enough (map (nr_kept false cmax) (map (fun fn => {| crit := firstn (snd fn) (fst fn); sdim := len (fst fn) |}) input))) by (destruct Hk; congruence).
  specialize (Hins Hkept). clear Hkept Hk.
  rewrite map_crit_firstn in Hcm. set (part := concat (map (fun fn => firstn (snd fn) (fst fn)) input)) in *.
  set (all := concat (map fst input)) in *. set (rest := concat (map (fun fn => skipn (snd fn) (fst fn)) input)).
  pose proof (concat_split input) as HPm. fold part all rest in HPm.
  destruct (highest_retained_Ok_inv _ _ _ Hcm) as [Hpne HpZ].
  assert (Hane : all <> []).
  { intros E. rewrite E in HPm. apply Permutation_nil in HPm. apply app_eq_nil in HPm. destruct HPm; auto. }
  assert (Hreq : forall c, request P c = keep P) by (intros c; unfold request; rewrite Hke; auto).
  pose proof (valid_inv P HV) as (V1 & _).
  assert (HLall : (length part <= length all)%nat) by (rewrite (Permutation_length HPm), app_length; lia).
  destruct (highest_retained_correct P part _ Hpne HpZ HV (sort_values_copy part)) as (c1 & E1 & _ & B1).
  destruct (highest_retained_correct P all _ Hane HZ HV (sort_values_copy all)) as (c2 & E2 & _ & B2).
  assert (c1 = cmax) by congruence. subst c1. rewrite E1, E2. f_equal.
  rewrite Hreq in *. unfold len in *.
  destruct (B1 Hka Hlt) as (x1 & K1 & X1 & C1 & _). destruct (B2 Hka ltac:(lia)) as (x2 & K2 & X2 & C2 & _).
  assert (0 <? safeguard P = false) as Esg by (apply Z.ltb_ge; lia). rewrite Esg in X1, X2.
  assert (x1 = 0%nat) by lia. assert (x2 = 0%nat) by lia. subst x1 x2. rewrite Nat.add_0_r in *.
  rewrite C2. symmetry.
  apply (kth_smallest_extend part rest (sort_values part)); auto using sort_values_copy.
  - destruct (sort_values_copy all) as [S1 S2]. split; auto. rewrite S1. auto.
  - lia.
  - intros x Hx. unfold rest in Hx. apply in_concat in Hx. destruct Hx as (l & Hl & Hx).
    apply in_map_iff in Hl. destruct Hl as ([full n] & <- & Hin). simpl in Hx.
    apply in_skipn_nth in Hx. destruct Hx as (j & Hj & <-).
    apply (uncomputed_above cmax {| crit := firstn n full; sdim := len full |} full n); auto.
    + eapply HA; eauto.
    + apply Hins. apply in_map_iff. exists (full, n). auto.
Qed.

Lemma fewer_than_requested :
  exists P full n kept,
    valid P /\ ascending full /\ keep P <= len full /\ (n < length full)%nat /\
    truncate_prepare P false [{| crit := firstn n full; sdim := len full |}] = Ok (Enough kept) /\
    zsum kept < keep P.
Proof.
  exists {| floquet := false; keep_all := false; keep := 5; keepenergy_on := false; keepmin := 0; ecut := 0; safeguard := 0; safeguardmax := 0 |}.
  exists [0; 1; 2; 3; 4; 5], 3%nat, [3].
  split; [unfold valid; simpl; repeat split; try lia; reflexivity|].
  split; [apply (ss_ascending [0; 1; 2; 3; 4; 5]); repeat constructor; lia|].
  split; [vm_compute; discriminate|]. split; [simpl; lia|]. split; [vm_compute; reflexivity|]. simpl; lia.
Qed.

Lemma restart_terminates : forall P fixeps al diagratio full ratio factor,
  (0 < ratio)%Q -> (ratio <= 1)%Q -> (1 < factor)%Q ->
  exists fuel r attempts,
    do_diag_loop fuel (attempt_on P fixeps al diagratio full) true factor ratio = Some (r, attempts) /\
    forall k, r <> Ok (NotEnough k).
Proof.
  intros P fixeps al dr full ratio factor H0 H1 Hf.
  destruct (ratio_reaches_one' factor ratio H0 H1 Hf) as [k Hk].
  destruct (loop_terminates (attempt_on P fixeps al dr full) factor) with (k := k) (ratio := ratio) as (r & n & E & _ & Hn); auto.
  - intros r l Hr. apply attempt_full; auto.
  - exists (S k), r, n. auto.
Qed.

Lemma single_attempt : forall fuel att factor ratio, do_diag_loop (S fuel) att false factor ratio = Some (att ratio, 1%nat).
Proof. intros. rewrite do_diag_loop_S. destruct (att ratio) as [[|]| |]; auto. Qed.

Lemma attempt_half r : (0 <= r)%Q -> (r <= 1 # 2)%Q -> forall P,
  P = {| floquet := false; keep_all := false; keep := 10; keepenergy_on := false; keepmin := 0; ecut := 0; safeguard := 0; safeguardmax := 0 |} ->
  exists k, attempt_on P 0 false (1 # 2) [[0; 1; 2; 3]; [50; 100; 200; 300]] r = Ok (NotEnough k).
Proof.
  intros H0 H1 P ->. unfold attempt_on.
  assert (Hr : forall q, (0 <= q)%Q -> (q <= 1 # 2)%Q -> nr_to_compute q 4 = 1 \/ nr_to_compute q 4 = 2).
  { intros q Q0 Q1. unfold nr_to_compute.
    destruct (Qeq_bool q 1) eqn:E. { apply Qeq_bool_iff in E. rewrite E in Q1. exfalso. apply (Qle_not_lt _ _ Q1). reflexivity. }
    assert (Hc : Qceiling (q * inject_Z 4) <= 2).
    { rewrite <- (Qceiling_Z 2). apply Qceiling_resp_le.
      setoid_replace (inject_Z 2) with ((1 # 2) * inject_Z 4)%Q by reflexivity. apply Qmult_le_compat_r; auto. discriminate. }
    unfold clamp. destruct (Z.ltb_spec (Qceiling (q * inject_Z 4)) 1); auto.
    destruct (Z.ltb_spec 4 (Qceiling (q * inject_Z 4))); [lia|]. lia. }
  cbn [map]. change (len [0; 1; 2; 3]) with 4. change (len [50; 100; 200; 300]) with 4.
  set (q := if Qle_bool r 0 then 1 # 2 else r).
  assert (nr_to_compute q 4 = 1 \/ nr_to_compute q 4 = 2) as [-> | ->].
  { apply Hr; unfold q; destruct (Qle_bool r 0); auto; discriminate. }
  - eexists. vm_compute. reflexivity.
  - eexists. vm_compute. reflexivity.
Qed.

Lemma small_factor_loops :
  exists P full, valid P /\ (forall v, In v full -> ascending v) /\
    forall factor, (0 <= factor)%Q -> (factor <= 1)%Q ->
    forall fuel, do_diag_loop fuel (attempt_on P 0 false (1 # 2) full) true factor (1 # 2) = None.
Proof.
  exists {| floquet := false; keep_all := false; keep := 10; keepenergy_on := false; keepmin := 0; ecut := 0; safeguard := 0; safeguardmax := 0 |}.
  exists [[0; 1; 2; 3]; [50; 100; 200; 300]].
  split; [unfold valid; simpl; repeat split; try lia; reflexivity|]. split.
  { intros v [<-|[<-|[]]]; apply ss_ascending; repeat constructor; lia. }
  intros factor H0 H1 fuel. apply loop_stuck; auto; try discriminate.
  intros r R0 R1. apply attempt_half; auto.
Qed.

Lemma cleanup_correct : forall eps sectors, 0 < eps -> concat sectors <> [] ->
  exists f, fix_splittings eps sectors = Ok (map (map f) sectors) /\
    good_map eps (concat sectors) f /\
    (forall g, In g (concat sectors) -> (forall x, In x (concat sectors) -> g <= x) -> f g = g) /\
    (forall v, In v sectors -> ascending v -> ascending (map f v)).
Proof.
  intros eps sectors He Hne. destruct (cluster_mapping_good eps _ He Hne) as (m & E & G & G0).
  exists (replace m). unfold fix_splittings. rewrite E. split; auto. split; auto. split.
  - intros g Hg Hmin. rewrite (min_element_unique _ g Hg Hmin) in G0. exact G0.
  - intros v Hv HA. eapply good_map_ascending; eauto. intros x Hx. apply in_concat. eauto.
Qed.

Definition cleanup_unique := good_map_unique.

Lemma map_map_id (f : Z -> Z) (ll : list (list Z)) : (forall x, f x = x) -> map (map f) ll = ll.
Proof. intros H. rewrite <- (map_id ll) at 2. apply map_ext. intros l. rewrite <- (map_id l) at 2. apply map_ext. auto. Qed.

Lemma isolated_untouched : forall eps sectors, concat sectors <> [] ->
  exists out, fix_splittings eps sectors = Ok out /\
    (eps <= 0 -> out = sectors) /\
    forall a va oa i, nth_error sectors a = Some va -> nth_error out a = Some oa -> (i < length va)%nat ->
      (forall y, In y (concat sectors) -> y < nth i va 0 -> eps <= nth i va 0 - y) -> nth i oa 0 = nth i va 0.
Proof.
  intros eps sectors Hne. destruct (Z.lt_ge_cases 0 eps) as [He|He].
  - destruct (cluster_mapping_good eps _ He Hne) as (m & E & G & _).
    exists (map (map (replace m)) sectors). unfold fix_splittings. rewrite E. split; auto. split; [lia|].
    intros a va oa i Ha Hoa Hi Hiso. rewrite nth_error_map, Ha in Hoa. cbn [option_map] in Hoa.
    assert (oa = map (replace m) va) as -> by congruence.
    rewrite (nth_indep _ 0 (replace m 0)) by (rewrite map_length; auto). rewrite map_nth.
    assert (Hin : In (nth i va 0) (concat sectors)).
    { apply in_concat. exists va. split; [eapply nth_error_In; eauto|apply nth_In; auto]. }
    pose proof (gm_shift _ _ _ G _ Hin) as S. pose proof (gm_in _ _ _ G _ Hin) as I1.
    specialize (Hiso _ I1). lia.
  - exists sectors. unfold fix_splittings. rewrite cluster_mapping_off by auto. cbn [bind].
    rewrite map_map_id by reflexivity. split; auto. split; auto.
    intros a va oa i Ha Hoa. assert (va = oa) by congruence. subst. auto.
Qed.

Lemma combine_permuted {A B} (da : A) (db : B) p la lb :
  (forall i, In i p -> (i < length la)%nat) -> length la = length lb ->
  combine (permuted da p la) (permuted db p lb) = permuted (da, db) p (combine la lb).
Proof.
  intros Hp HL. unfold permuted. induction p as [|i p IH]; simpl; auto.
  rewrite IH by (intros; apply Hp; right; auto). f_equal. rewrite combine_nth by auto. auto.
Qed.

Lemma sort_by_c_correct : forall (V : Type) (dv : V) (e : eigenpairs V) p,
  length (ep_v e) = length (ep_c e) -> length (ep_corr e) = length (ep_c e) -> length (ep_rows e) = length (ep_c e) ->
  sorts_by (ep_c e) p ->
  let e' := perform_sort_by_c dv p e in
  ascending (ep_c e') /\
  Permutation (combine (combine (ep_c e') (ep_v e')) (combine (ep_corr e') (ep_rows e')))
              (combine (combine (ep_c e) (ep_v e)) (combine (ep_corr e) (ep_rows e))) /\
  (length (ep_c e') = length (ep_c e) /\ length (ep_v e') = length (ep_c e) /\
   length (ep_corr e') = length (ep_c e) /\ length (ep_rows e') = length (ep_c e)) /\
  (forall k, (k < length (ep_c e))%nat -> exists i, (i < length (ep_c e))%nat /\
     nth k (ep_c e') 0 = nth i (ep_c e) 0 /\ nth k (ep_v e') 0 = nth i (ep_v e) 0 /\
     nth k (ep_corr e') 0 = nth i (ep_corr e) 0 /\ nth k (ep_rows e') dv = nth i (ep_rows e) dv).
Proof.
  intros V dv e p L1 L2 L3 [HP HS]. cbv zeta. unfold perform_sort_by_c. cbn [ep_c ep_v ep_corr ep_rows].
  pose proof (Permutation_length HP) as PL. rewrite seq_length in PL.
  assert (Hin : forall i, In i p -> (i < length (ep_c e))%nat).
  { intros i Hi. eapply Permutation_in in Hi; [|exact HP]. apply in_seq in Hi. lia. }
  split; [|split; [|split]].
  - intros i j Hij. rewrite permuted_length in Hij. rewrite !permuted_nth by lia. apply HS. lia.
  - rewrite !combine_permuted by (try (intros; rewrite ?L2, ?combine_length, ?L1, ?Nat.min_id; auto; fail); try congruence; rewrite !combine_length; congruence).
    apply permuted_perm. rewrite !combine_length, L1, L2, L3, !Nat.min_id. auto.
  - rewrite !permuted_length. auto.
  - intros k Hk. exists (nth k p 0%nat). split; [apply Hin, nth_In; lia|].
    rewrite !permuted_nth by lia. auto.
Qed.

Lemma sort_example :
  sorts_by [4; 1; 4; 0] [3; 1; 2; 0]%nat /\
  perform_sort_by_c 0 [3; 1; 2; 0]%nat {| ep_c := [4; 1; 4; 0]; ep_v := [10; 11; 12; 13]; ep_corr := [10; 11; 11; 13]; ep_rows := [100; 101; 102; 103] |}
  = {| ep_c := [0; 1; 4; 4]; ep_v := [13; 11; 12; 10]; ep_corr := [13; 11; 11; 10]; ep_rows := [103; 101; 102; 100] |}.
Proof.
  split; [|vm_compute; reflexivity]. split.
  - simpl. apply (Permutation_trans (l' := [0; 3; 1; 2]%nat)).
    + apply (Permutation_app_comm [3; 1; 2]%nat [0]%nat).
    + apply perm_skip. apply (Permutation_app_comm [3]%nat [1; 2]%nat).
  - intros i j Hij. simpl in Hij.
    destruct i as [|[|[|[|i]]]]; try lia; destruct j as [|[|[|[|j]]]]; try lia; simpl; lia.
Qed.

Lemma ranges_partition : forall e, (getnrpost e <= e_nrcomputed e)%nat ->
  kept_range e ++ discarded_range e = seq 0 (e_nrcomputed e) /\
  Krange e ++ Drange e = seq 0 (e_nrcomputed e) /\
  (e_last e = true -> Krange e = [] /\ Drange e = seq 0 (e_nrcomputed e)) /\
  (e_last e = false -> Krange e = kept_range e /\ Drange e = discarded_range e) /\
  (e_dim e = e_nrcomputed e -> stored_all e (e_last e) = Drange e).
Proof.
  intros e H. unfold kept_range, discarded_range, Krange, Drange, stored_all, boundary.
  split; [apply irange_seq_app; auto|]. split; [destruct (e_last e); apply irange_seq_app; lia|].
  split; [intros E; rewrite E; unfold irange; rewrite !Nat.sub_0_r; split; reflexivity|].
  split; [intros E; rewrite E; auto|]. intros E; rewrite E. auto.
Qed.

Lemma stored_range_partial :
  exists e, (getnrpost e <= e_nrcomputed e)%nat /\ (e_nrcomputed e < e_dim e)%nat /\
    exists i, In i (stored_all e false) /\ ~ In i (seq 0 (e_nrcomputed e)).
Proof.
  exists {| e_nrpost := Some 1%nat; e_nrcomputed := 2; e_dim := 4; e_last := false |}.
  split; [vm_compute; lia|]. split; [vm_compute; lia|]. exists 3%nat. split; [vm_compute; auto|]. vm_compute. lia.
Qed.
