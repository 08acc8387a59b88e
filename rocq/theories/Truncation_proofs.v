(** Proofs about the truncation model. *)
From Coq Require Import List ZArith Lia Bool Permutation Sorted.
From Verif Require Import Base Truncation_model Truncation_spec.
Import ListNotations.
Local Open Scope Z_scope.

(** *** Sorting *)
Lemma insert_sorted_perm x l : Permutation (insert_sorted x l) (x :: l).
Proof.
  induction l as [|y t IH]; simpl; auto. destruct (x <=? y); auto.
  rewrite IH. apply perm_swap.
Qed.

Lemma sort_values_perm l : Permutation (sort_values l) l.
Proof. induction l; simpl; auto. rewrite insert_sorted_perm. auto. Qed.

Lemma insert_sorted_ss x l : StronglySorted Z.le l -> StronglySorted Z.le (insert_sorted x l).
Proof.
  induction 1 as [|y t Ht IH Hy]; simpl.
  - repeat constructor.
  - destruct (Z.leb_spec x y).
    + constructor; [constructor; auto|]. constructor; auto.
      eapply Forall_impl; [|exact Hy]. simpl. lia.
    + constructor; auto.
      apply Forall_forall. intros z Hz.
      apply (Permutation_in _ (insert_sorted_perm x t)) in Hz. destruct Hz as [<-|Hz]; [lia|].
      rewrite Forall_forall in Hy. auto.
Qed.

Lemma sort_values_ss l : StronglySorted Z.le (sort_values l).
Proof. induction l; simpl. constructor. apply insert_sorted_ss; auto. Qed.

Lemma ss_ascending l : StronglySorted Z.le l -> ascending l.
Proof.
  induction 1 as [|y t Ht IH Hy]; intros i j Hij; simpl in *; [lia|].
  destruct i, j; simpl; try lia.
  - rewrite Forall_forall in Hy. apply Hy, nth_In. lia.
  - apply IH. lia.
Qed.

Lemma ascending_cons_inv y t : ascending (y :: t) -> ascending t /\ forall x, In x t -> y <= x.
Proof.
  intros H; split.
  - intros i j Hij. apply (H (S i) (S j)). simpl; lia.
  - intros x Hx. destruct (In_nth _ _ 0 Hx) as (k & Hk & <-). apply (H 0%nat (S k)). simpl; lia.
Qed.

Lemma ascending_ss l : ascending l -> StronglySorted Z.le l.
Proof.
  induction l; intros H; constructor.
  - apply IHl, (ascending_cons_inv _ _ H).
  - apply Forall_forall. apply (ascending_cons_inv _ _ H).
Qed.

Lemma ss_perm_eq l : forall s, StronglySorted Z.le l -> StronglySorted Z.le s -> Permutation l s -> l = s.
Proof.
  induction l as [|x l IH]; intros s Hl Hs HP.
  - apply Permutation_nil in HP. auto.
  - destruct s as [|y s]; [apply Permutation_sym, Permutation_nil in HP; discriminate|].
    inversion Hl; inversion Hs; subst. rewrite Forall_forall in *.
    assert (x = y).
    { assert (In x (y :: s)) by (eapply Permutation_in; [exact HP|left; auto]).
      assert (In y (x :: l)) by (eapply Permutation_in; [symmetry; exact HP|left; auto]).
      simpl in *. destruct H, H0; auto. apply Z.le_antisymm; auto. }
    subst. f_equal. apply IH; auto. eapply Permutation_cons_inv; eauto.
Qed.

Lemma sorted_copy_sort s l : sorted_copy s l -> s = sort_values l.
Proof.
  intros [HP HA]. apply ss_perm_eq; auto using ascending_ss, sort_values_ss.
  rewrite HP. symmetry. apply sort_values_perm.
Qed.

Lemma sort_values_copy l : sorted_copy (sort_values l) l.
Proof. split; [apply sort_values_perm|apply ss_ascending, sort_values_ss]. Qed.

Lemma sorted_copy_length s l : sorted_copy s l -> length s = length l.
Proof. intros [H _]. apply Permutation_length; auto. Qed.

(** *** Minimum and maximum *)
Lemma fold_min_le d l x : In x l -> fold_right Z.min d l <= x.
Proof. induction l; simpl; [tauto|]. intros [->|H]; [lia|]. specialize (IHl H). lia. Qed.
Lemma fold_min_in d l : fold_right Z.min d l = d \/ In (fold_right Z.min d l) l.
Proof. induction l; simpl; auto. destruct (Z.min_spec a (fold_right Z.min d l)) as [[_ ->]|[_ ->]]; auto. destruct IHl; auto. Qed.
Lemma min_element_in l : l <> [] -> In (min_element l) l.
Proof.
  intros H. unfold min_element. destruct (fold_min_in (hd 0 l) l) as [E|]; auto.
  rewrite E. destruct l; [tauto|left; auto].
Qed.
Lemma min_element_le l x : In x l -> min_element l <= x.
Proof. apply fold_min_le. Qed.
Lemma fold_max_le d l x : In x l -> x <= fold_right Z.max d l.
Proof. induction l; simpl; [tauto|]. intros [->|H]; [lia|]. specialize (IHl H). lia. Qed.
Lemma fold_max_in d l : fold_right Z.max d l = d \/ In (fold_right Z.max d l) l.
Proof. induction l; simpl; auto. destruct (Z.max_spec a (fold_right Z.max d l)) as [[_ ->]|[_ ->]]; auto. destruct IHl; auto. Qed.
Lemma max_element_in l : l <> [] -> In (max_element l) l.
Proof.
  intros H. unfold max_element. destruct (fold_max_in (hd 0 l) l) as [E|]; auto.
  rewrite E. destruct l; [tauto|left; auto].
Qed.
Lemma max_element_le l x : In x l -> x <= max_element l.
Proof. apply fold_max_le. Qed.

Lemma min_element_unique l m : In m l -> (forall x, In x l -> m <= x) -> min_element l = m.
Proof.
  intros Hi Hm. apply Z.le_antisymm; [apply min_element_le; auto|].
  apply Hm, min_element_in. intros ->; inversion Hi.
Qed.

Lemma len_nonneg {A} (l : list A) : 0 <= len l.
Proof. unfold len; lia. Qed.

Lemma count_le_spec c l : count_le c l = Z.of_nat (not_above c l).
Proof. reflexivity. Qed.

Lemma filter_length_le {A} (f : A -> bool) l : (length (filter f l) <= length l)%nat.
Proof. induction l; simpl; auto. destruct (f a); simpl; lia. Qed.

Lemma filter_length_all {A} (f : A -> bool) l : length (filter f l) = length l -> forall x, In x l -> f x = true.
Proof.
  induction l; simpl; [tauto|]. destruct (f a) eqn:E; simpl; intros H x.
  - intros [->|Hx]; auto.
  - pose proof (filter_length_le f l). lia.
Qed.

Lemma not_above_perm c l l' : Permutation l l' -> not_above c l = not_above c l'.
Proof.
  unfold not_above. induction 1; simpl; auto.
  - destruct (x <=? c); simpl; auto.
  - destruct (x <=? c), (y <=? c); simpl; auto.
  - congruence.
Qed.

Lemma below_perm c l l' : Permutation l l' -> below c l = below c l'.
Proof.
  unfold below. induction 1; simpl; auto.
  - destruct (x <? c); simpl; auto.
  - destruct (x <? c), (y <? c); simpl; auto.
  - congruence.
Qed.

(** In an ascending list exactly the first [not_above c l] elements are <= c. *)
Lemma ascending_prefix l c : ascending l -> forall i, (i < length l)%nat -> nth i l 0 <= c <-> (i < not_above c l)%nat.
Proof.
  induction l as [|y t IH]; intros HA i Hi; simpl in Hi; [lia|].
  apply ascending_cons_inv in HA. destruct HA as [HA Hy].
  unfold not_above in *. simpl. destruct (Z.leb_spec y c).
  - simpl. destruct i; [split; lia|]. rewrite IH by (auto; lia). lia.
  - assert (E : filter (fun x => x <=? c) t = []).
    { destruct (filter (fun x => x <=? c) t) as [|z r] eqn:E; auto.
      assert (Hz : In z (filter (fun x => x <=? c) t)) by (rewrite E; left; auto).
      apply filter_In in Hz. destruct Hz as [Hz1 Hz2]. specialize (Hy _ Hz1). lia. }
    rewrite E. simpl. destruct i; [lia|]. split; [|lia].
    assert (In (nth i t 0) t) by (apply nth_In; lia). specialize (Hy _ H0). lia.
Qed.

Lemma ascending_below l c : ascending l -> forall i, (i < length l)%nat -> nth i l 0 < c <-> (i < below c l)%nat.
Proof.
  intros HA i Hi. pose proof (ascending_prefix l (c - 1) HA i Hi) as H.
  assert (E : below c l = not_above (c - 1) l).
  { unfold below, not_above. f_equal. apply filter_ext. intros x. apply eq_true_iff_eq. rewrite Z.ltb_lt, Z.leb_le. lia. }
  rewrite E, <- H. lia.
Qed.

Lemma nth_error_firstn {A} (l : list A) : forall n k, (k < n)%nat -> nth_error (firstn n l) k = nth_error l k.
Proof. induction l; intros [|n] [|k] H; simpl; auto; try lia. apply IHl. lia. Qed.

(** *** The safeguard loop *)
Lemma read_pre s sp i : 0 <= i < sp -> sp <= len s -> read (firstn (Z.to_nat sp) s) i = Ok (nth (Z.to_nat i) s 0).
Proof.
  unfold len. intros H1 H2. unfold read. destruct (Z.ltb_spec i 0); [lia|].
  rewrite nth_error_firstn by lia.
  rewrite (nth_error_nth' s 0) by lia. auto.
Qed.

Lemma safeguard_loop_spec s sp sg budget : sp <= len s ->
  forall fuel nrkeep cnt, 1 <= nrkeep -> Z.of_nat fuel = sp - nrkeep -> 0 <= cnt <= budget ->
  exists extra : nat,
    safeguard_loop fuel (firstn (Z.to_nat sp) s) sg budget nrkeep cnt = Ok (nrkeep + Z.of_nat extra) /\
    nrkeep + Z.of_nat extra <= sp /\ cnt + Z.of_nat extra <= budget /\
    (forall j, (j < extra)%nat -> nth (Z.to_nat nrkeep + j) s 0 - nth (Z.to_nat nrkeep + j - 1) s 0 <= sg) /\
    (nrkeep + Z.of_nat extra = sp \/ cnt + Z.of_nat extra = budget \/
     sg < nth (Z.to_nat nrkeep + extra) s 0 - nth (Z.to_nat nrkeep + extra - 1) s 0).
Proof.
  intros Hsp. induction fuel as [|f IH]; intros nrkeep cnt Hn Hf Hc.
  - exists 0%nat. simpl. repeat split; try lia. rewrite Z.add_0_r. auto.
  - cbn [safeguard_loop]. rewrite !read_pre by lia. cbn [bind].
    replace (Z.to_nat (nrkeep - 1)) with (Z.to_nat nrkeep - 1)%nat by lia.
    destruct (Z.leb_spec (nth (Z.to_nat nrkeep) s 0 - nth (Z.to_nat nrkeep - 1) s 0) sg); cbn [andb].
    + destruct (Z.ltb_spec cnt budget).
      * destruct (IH (nrkeep + 1) (cnt + 1)) as (extra & E & H1 & H2 & H3 & H4); try lia.
        exists (S extra). rewrite E. repeat split; try lia.
        -- f_equal. lia.
        -- intros [|j] Hj.
           ++ rewrite Nat.add_0_r. auto.
           ++ specialize (H3 j). replace (Z.to_nat (nrkeep + 1)) with (Z.to_nat nrkeep + 1)%nat in * by lia.
              replace (Z.to_nat nrkeep + S j)%nat with (Z.to_nat nrkeep + 1 + j)%nat by lia. apply H3. lia.
        -- destruct H4 as [H4|[H4|H4]]; [left; lia|right; left; lia|right; right].
           replace (Z.to_nat (nrkeep + 1)) with (Z.to_nat nrkeep + 1)%nat in * by lia.
           replace (Z.to_nat nrkeep + S extra)%nat with (Z.to_nat nrkeep + 1 + extra)%nat by lia. auto.
      * exists 0%nat. rewrite Z.add_0_r, Nat.add_0_r. repeat split; try lia.
    + exists 0%nat. rewrite Z.add_0_r, Nat.add_0_r. repeat split; try lia.
Qed.

(** *** [highest_retained] *)
Lemma valid_inv P : valid P -> 1 < keep P /\ (keepenergy_on P = true -> keepmin P <= keep P) /\ 0 <= keepmin P /\ 0 <= safeguardmax P /\
  keep P + (if 0 <? safeguard P then safeguardmax P else 0) < 2 ^ 64.
Proof.
  intros (H & H1 & H2 & H3). unfold validate_truncation, my_assert in H.
  destruct (Z.ltb_spec 1 (keep P)); simpl in H; [|discriminate].
  repeat split; auto. intros E. rewrite E in H. destruct (Z.leb_spec (keepmin P) (keep P)); auto. discriminate.
Qed.

Lemma requested_request P crits : valid P -> requested P crits = Ok (request P crits) /\ 1 <= request P crits <= keep P.
Proof.
  intros HV. apply valid_inv in HV. destruct HV as (H1 & H2 & H3 & _).
  unfold requested, request. rewrite count_le_spec. destruct (keepenergy_on P); [|split; auto; lia].
  specialize (H2 eq_refl).
  destruct (Z.ltb_spec (keep P) (keepmin P)); [lia|].
  split; [|lia]. f_equal. unfold clamp.
  destruct (Z.ltb_spec (1 + Z.of_nat (not_above (ecut P) crits)) (keepmin P)); [lia|].
  destruct (Z.ltb_spec (keep P) (1 + Z.of_nat (not_above (ecut P) crits))); lia.
Qed.

Lemma max_element_last s l : l <> [] -> sorted_copy s l -> max_element l = nth (length l - 1) s 0.
Proof.
  intros Hne Hs. pose proof (sorted_copy_length _ _ Hs) as HL. destruct Hs as [HP HA].
  assert (length l <> 0)%nat by (destruct l; simpl; congruence).
  apply Z.le_antisymm.
  - assert (Hin : In (max_element l) s) by (eapply Permutation_in; [symmetry; exact HP|apply max_element_in; auto]).
    destruct (In_nth _ _ 0 Hin) as (k & Hk & <-). apply HA. lia.
  - apply max_element_le. eapply Permutation_in; [exact HP|]. apply nth_In. lia.
Qed.

Lemma highest_retained_correct P crits s :
  crits <> [] -> zero_based P crits -> valid P -> sorted_copy s crits ->
  exists cmax, highest_retained P crits = Ok cmax /\
    (keep_all P = true \/ len crits <= request P crits -> cmax = nth (length crits - 1) s 0) /\
    (keep_all P = false -> request P crits < len crits ->
     exists extra : nat,
       let k := (Z.to_nat (request P crits) + extra)%nat in
       (k <= length crits)%nat /\
       Z.of_nat extra <= (if 0 <? safeguard P then safeguardmax P else 0) /\
       cmax = nth (k - 1) s 0 /\
       (forall j, (j < extra)%nat ->
          nth (Z.to_nat (request P crits) + j) s 0 - nth (Z.to_nat (request P crits) + j - 1) s 0 <= safeguard P) /\
       (k = length crits \/ Z.of_nat extra = (if 0 <? safeguard P then safeguardmax P else 0) \/
        safeguard P < nth k s 0 - nth (k - 1) s 0)).
Proof.
  intros Hne Hz HV Hs. pose proof (max_element_last _ _ Hne Hs) as Hmax.
  destruct (requested_request P crits HV) as [HR HR1].
  apply valid_inv in HV. destruct HV as (V1 & V2 & V3 & V4 & V5).
  pose proof (sorted_copy_length _ _ Hs) as HL.
  assert (Hlen : 0 < len crits) by (unfold len; destruct crits; simpl; [congruence|lia]).
  unfold highest_retained. destruct (Z.eqb_spec (len crits) 0); [lia|]. cbn [negb my_assert bind].
  replace (if floquet P then Ok tt else my_assert (min_element crits =? 0)) with (Ok tt).
  2:{ destruct Hz as [->|[Hz1 Hz2]]; auto. destruct (floquet P); auto.
      rewrite (min_element_unique crits 0); auto. }
  cbn [bind]. destruct (keep_all P).
  { eexists; split; [reflexivity|]. split; auto. discriminate. }
  rewrite HR. cbn [bind]. destruct (Z.leb_spec (len crits) (request P crits)).
  { eexists; split; [reflexivity|]. split; auto. lia. }
  set (budget := if 0 <? safeguard P then safeguardmax P else 0) in *.
  assert (Hb : 0 <= budget) by (unfold budget; destruct (0 <? safeguard P); lia).
  rewrite Z.max_r by lia.
  rewrite Z.mod_small by lia.
  set (r := request P crits) in *.
  set (sp := Z.min (len crits) (r + budget)).
  assert (Hsp : r <= sp <= len crits) by (unfold sp; lia).
  destruct (Z.eqb_spec sp 0); [lia|].
  rewrite <- (sorted_copy_sort _ _ Hs).
  assert (HsL : len s = len crits) by (unfold len; lia).
  assert (Hfin : forall nr, r <= nr <= sp -> read (firstn (Z.to_nat sp) s) (clamp nr 1 (len crits) - 1) = Ok (nth (Z.to_nat nr - 1) s 0)).
  { intros nr Hnr. unfold clamp. destruct (Z.ltb_spec nr 1); [lia|]. destruct (Z.ltb_spec (len crits) nr); [lia|].
    rewrite read_pre by lia. f_equal. f_equal. lia. }
  assert (Hcr : len crits = Z.of_nat (length crits)) by reflexivity.
  destruct (Z.ltb_spec 0 (safeguard P)) as [Hsg|Hsg].
  - destruct (safeguard_loop_spec s sp (safeguard P) (safeguardmax P) ltac:(lia) (Z.to_nat (sp - r)) r 0)
      as (extra & E & H1 & H2 & H3 & H4); try lia.
    rewrite E. cbn [bind]. rewrite Hfin by lia. eexists; split; [reflexivity|].
    split; [intros [?|?]; [discriminate|lia]|]. intros _ _. exists extra.
    unfold budget. cbv zeta.
    split; [lia|]. split; [lia|]. split; [f_equal; lia|]. split; [exact H3|].
    { destruct H4 as [H4|[H4|H4]].
      * destruct (Z.min_spec (len crits) (r + budget)) as [[_ Hm]|[_ Hm]]; fold sp in Hm; [left; lia|right; left; unfold budget in Hm; lia].
      * right; left. lia.
      * right; right. auto. }
  - cbn [bind]. rewrite Hfin by lia. eexists; split; [reflexivity|].
    split; [intros [?|?]; [discriminate|lia]|]. intros _ _. exists 0%nat.
    unfold budget. cbv zeta. rewrite Nat.add_0_r. repeat split; try lia.
Qed.

(** *** [truncate_prepare] *)
Lemma nr_kept_range cmax s : 0 <= nr_kept false cmax s <= nrcomputed s.
Proof.
  unfold nr_kept, nrcomputed, count_le, len. pose proof (filter_length_le (fun x => x <=? cmax) (crit s)). lia.
Qed.

Lemma truncate_prepare_inv P al sectors p : truncate_prepare P al sectors = Ok p ->
  exists cmax, highest_retained P (concat (map crit sectors)) = Ok cmax /\
    (p = Enough (map (nr_kept al cmax) sectors) \/ p = NotEnough (map (nr_kept al cmax) sectors)) /\
    (p = Enough (map (nr_kept al cmax) sectors) -> forall s, In s sectors -> insufficient al cmax s = Ok false).
Proof.
  unfold truncate_prepare. destruct (highest_retained P _) as [cmax| |]; try discriminate. cbn [bind].
  destruct (mapM _ _) as [bad| |] eqn:E; try discriminate. cbn [bind]. intros H. inversion H; subst; clear H.
  exists cmax. split; auto. destruct (existsb (fun b => b) bad) eqn:Eb.
  - split; auto. discriminate.
  - split; auto. intros _ s Hs. apply mapM_Ok_inv in E.
    assert (Hb : forall b, In b bad -> b = false).
    { intros b Hb. destruct b; auto. exfalso. assert (existsb (fun b => b) bad = true) by (apply existsb_exists; eauto). congruence. }
    clear Eb. induction E as [|x y l l' Hxy HF IH]; [inversion Hs|].
    destruct Hs as [->|Hs].
    + rewrite Hxy. f_equal. apply Hb. left; auto.
    + apply IH; auto. intros; apply Hb; right; auto.
Qed.

Lemma kept_prefix cmax s i : ascending (crit s) -> (i < length (crit s))%nat ->
  (Z.of_nat i < nr_kept false cmax s <-> nth i (crit s) 0 <= cmax).
Proof.
  intros HA Hi. unfold nr_kept. rewrite count_le_spec, (ascending_prefix _ cmax HA i Hi). lia.
Qed.

Lemma kept_lowest P sectors p kept :
  truncate_prepare P false sectors = Ok p -> p = Enough kept \/ p = NotEnough kept ->
  (forall s, In s sectors -> ascending (crit s)) ->
  length kept = length sectors /\
  forall a sa ka, nth_error sectors a = Some sa -> nth_error kept a = Some ka ->
    0 <= ka <= len (crit sa) /\
    forall b sb kb, nth_error sectors b = Some sb -> nth_error kept b = Some kb ->
      forall i j, Z.of_nat i < ka -> kb <= Z.of_nat j < len (crit sb) -> nth i (crit sa) 0 < nth j (crit sb) 0.
Proof.
  intros H Hp HA. apply truncate_prepare_inv in H. destruct H as (cmax & _ & H2 & _).
  assert (kept = map (nr_kept false cmax) sectors) as -> by (destruct Hp; destruct H2; congruence).
  split; [apply map_length|]. intros a sa ka Ha Hka.
  rewrite nth_error_map, Ha in Hka. cbn [option_map] in Hka. assert (ka = nr_kept false cmax sa) as -> by congruence. clear Hka.
  split; [apply nr_kept_range|].
  intros b sb kb Hb Hkb i j Hi Hj. rewrite nth_error_map, Hb in Hkb. cbn [option_map] in Hkb. assert (kb = nr_kept false cmax sb) as -> by congruence. clear Hkb.
  pose proof (nr_kept_range cmax sa) as Hra. unfold nrcomputed, len in Hra.
  assert (HiL : (i < length (crit sa))%nat) by lia.
  apply kept_prefix in Hi; [|eapply HA, nth_error_In; eauto|exact HiL].
  destruct (Z.lt_ge_cases cmax (nth j (crit sb) 0)); [lia|].
  apply kept_prefix in H; [|eapply HA, nth_error_In; eauto|unfold len in Hj; lia]. lia.
Qed.

Lemma zsum_kept cmax sectors : zsum (map (nr_kept false cmax) sectors) = Z.of_nat (not_above cmax (concat (map crit sectors))).
Proof.
  induction sectors; simpl; auto. rewrite IHsectors. unfold nr_kept. rewrite count_le_spec. unfold not_above.
  rewrite filter_app, app_length. lia.
Qed.

Lemma insufficient_total al cmax s : crit s <> [] -> exists b, insufficient al cmax s = Ok b.
Proof. intros H. unfold insufficient. destruct (negb _); eauto. destruct (crit s); eauto. congruence. Qed.

Lemma truncate_prepare_total P al sectors :
  sectors <> [] -> (forall s, In s sectors -> crit s <> []) -> zero_based P (concat (map crit sectors)) -> valid P ->
  exists p, truncate_prepare P al sectors = Ok p.
Proof.
  intros Hne Hc Hz HV. unfold truncate_prepare.
  assert (concat (map crit sectors) <> []).
  { destruct sectors as [|s t]; [congruence|]. simpl. specialize (Hc s (or_introl eq_refl)). destruct (crit s); [congruence|discriminate]. }
  destruct (highest_retained_correct P _ _ H Hz HV (sort_values_copy _)) as (cmax & -> & _). cbn [bind].
  assert (exists bad, mapM (insufficient al cmax) sectors = Ok bad) as [bad ->].
  { clear - Hc. induction sectors as [|s t IH]; simpl; eauto.
    destruct (insufficient_total al cmax s) as [b ->]; [apply Hc; left; auto|]. cbn [bind].
    destruct IH as [bs ->]; [intros; apply Hc; right; auto|]. cbn. eauto. }
  cbn. eauto.
Qed.

(** *** Partial diagonalisation *)
Lemma nth_firstn {A} (d : A) l : forall n i, (i < n)%nat -> nth i (firstn n l) d = nth i l d.
Proof. induction l; intros [|n] [|i] H; simpl; auto; try lia. apply IHl. lia. Qed.

Lemma ascending_firstn n l : ascending l -> ascending (firstn n l).
Proof.
  intros H i j Hij. rewrite firstn_length in Hij. rewrite !nth_firstn by lia. apply H. lia.
Qed.

Lemma last_nth (l : list Z) : last l 0 = nth (length l - 1) l 0.
Proof.
  induction l as [|x t IH]; auto. destruct t as [|y t]; auto.
  change (last (x :: y :: t) 0) with (last (y :: t) 0). rewrite IH.
  replace (length (x :: y :: t) - 1)%nat with (S (length (y :: t) - 1)) by (simpl; lia). reflexivity.
Qed.

Lemma uncomputed_above cmax s full n :
  ascending full -> crit s = firstn n full -> sdim s = len full ->
  insufficient false cmax s = Ok false ->
  forall j, (n <= j < length full)%nat ->
    cmax <= nth j full 0 /\ (nr_kept false cmax s < nrcomputed s -> cmax < nth j full 0).
Proof.
  intros HA HC HD HI j Hj. unfold insufficient in HI.
  assert (HcL : length (crit s) = n) by (rewrite HC, firstn_length; lia).
  assert (HAc : ascending (crit s)) by (rewrite HC; apply ascending_firstn; auto).
  destruct (Z.eqb_spec (nr_kept false cmax s) (nrcomputed s)) as [E|E]; cbn [negb] in HI.
  - split; [|lia]. destruct (crit s) as [|x t] eqn:EC; [discriminate|]. rewrite <- EC in *.
    inversion HI as [HI']. apply andb_false_iff in HI'. destruct HI' as [HI'|HI'].
    + apply negb_false_iff, Z.eqb_eq in HI'. rewrite last_nth in HI'. rewrite <- HI', HC, firstn_length, nth_firstn by (rewrite EC in HcL; simpl in HcL; lia).
      apply HA. rewrite EC in HcL; simpl in HcL. lia.
    + apply Z.ltb_ge in HI'. unfold nrcomputed, len in HI'. rewrite HD in HI'. unfold len in HI'. lia.
  - assert (Hlt : nr_kept false cmax s < nrcomputed s) by (pose proof (nr_kept_range cmax s); lia).
    assert (cmax < nth j full 0); [|split; [lia|auto]].
    set (i := Z.to_nat (nr_kept false cmax s)).
    pose proof (nr_kept_range cmax s) as Hr. unfold nrcomputed, len in *.
    assert (Hi : (i < length (crit s))%nat) by lia.
    assert (Hni : ~ nth i (crit s) 0 <= cmax) by (rewrite <- (kept_prefix cmax s i HAc Hi); lia).
    rewrite HC, nth_firstn in Hni by lia.
    pose proof (HA i j). lia.
Qed.

(** The cutoff computed from the partial spectrum is the one the full spectrum would give. *)
Lemma below_app c l1 l2 : below c (l1 ++ l2) = (below c l1 + below c l2)%nat.
Proof. unfold below. rewrite filter_app, app_length. auto. Qed.

Lemma not_above_app c l1 l2 : not_above c (l1 ++ l2) = (not_above c l1 + not_above c l2)%nat.
Proof. unfold not_above. rewrite filter_app, app_length. auto. Qed.

Lemma kth_smallest_extend l1 l2 s1 s c k :
  sorted_copy s1 l1 -> sorted_copy s (l1 ++ l2) -> (1 <= k <= length l1)%nat ->
  c = nth (k - 1) s1 0 -> (forall x, In x l2 -> c <= x) -> nth (k - 1) s 0 = c.
Proof.
  intros H1 H Hk Hc H2.
  pose proof (sorted_copy_length _ _ H1) as L1. pose proof (sorted_copy_length _ _ H) as L.
  rewrite app_length in L. destruct H1 as [P1 A1], H as [PP A].
  assert (E2 : below c l2 = 0%nat).
  { unfold below. destruct (filter (fun x => x <? c) l2) as [|z t] eqn:E; auto.
    assert (Hz : In z (filter (fun x => x <? c) l2)) by (rewrite E; left; auto).
    apply filter_In in Hz. destruct Hz as [Hz1 Hz2]. specialize (H2 _ Hz1). lia. }
  apply Z.le_antisymm.
  - apply (ascending_prefix s c A); [lia|]. rewrite (not_above_perm c s (l1 ++ l2)), not_above_app by auto.
    assert (k - 1 < not_above c l1)%nat; [|lia].
    rewrite <- (not_above_perm c s1 l1) by auto. apply (ascending_prefix s1 c A1); lia.
  - destruct (Z.lt_ge_cases (nth (k - 1) s 0) c); [|lia]. exfalso.
    apply (ascending_below s c A) in H; [|lia].
    rewrite (below_perm c s (l1 ++ l2)), below_app, E2 in H by auto.
    rewrite <- (below_perm c s1 l1) in H by auto.
    assert (k - 1 < below c s1)%nat as H' by lia.
    apply (ascending_below s1 c A1) in H'; lia.
Qed.
