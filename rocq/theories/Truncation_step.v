(** From raw eigenvalues to kept counts; criterion sorting; index ranges; the restart loop. *)
From Coq Require Import List ZArith Lia Bool Permutation Sorted QArith Qminmax Qround Qabs.
From Verif Require Import Base Truncation_model Truncation_spec Truncation_proofs Truncation_clusters.
Import ListNotations.
Local Open Scope Z_scope.

Lemma concat_ne {A} (ll : list (list A)) : ll <> [] -> (forall l, In l ll -> l <> []) -> concat ll <> [].
Proof.
  intros H1 H2. destruct ll as [|l t]; [congruence|]. specialize (H2 l (or_introl eq_refl)).
  destruct l; [congruence|discriminate].
Qed.

Lemma hd_ascending v x : ascending v -> In x v -> hd 0 v <= x.
Proof.
  intros HA Hx. destruct v as [|y t]; [inversion Hx|]. simpl. destruct Hx as [<-|Hx]; [lia|].
  apply (ascending_cons_inv _ _ HA); auto.
Qed.

Lemma find_Egs_min raw : raw <> [] -> (forall v, In v raw -> v <> [] /\ ascending v) ->
  find_Egs raw = Ok (min_element (concat raw)).
Proof.
  intros Hne Hv. unfold find_Egs.
  replace (existsb (fun v : list Z => match v with [] => true | _ :: _ => false end) raw) with false.
  2:{ symmetry. apply not_true_is_false. intros E. apply existsb_exists in E. destruct E as (v & Hi & E).
      destruct (Hv v Hi) as [Hn _]. destruct v; [congruence|discriminate]. }
  destruct raw as [|v0 t] eqn:E; [congruence|]. rewrite <- E in *. f_equal. symmetry.
  apply min_element_unique.
  - assert (HI : In (min_element (map (hd 0) raw)) (map (hd 0) raw)) by (apply min_element_in; rewrite E; discriminate).
    apply in_map_iff in HI. destruct HI as (v & <- & Hi). apply in_concat. exists v. split; auto.
    destruct (Hv v Hi) as [Hn _]. destruct v; [congruence|left; auto].
  - intros x Hx. apply in_concat in Hx. destruct Hx as (v & Hi & Hx).
    etransitivity; [apply min_element_le, in_map, Hi|]. apply hd_ascending; auto. apply Hv; auto.
Qed.

Lemma concat_map_map {A B} (f : A -> B) (ll : list (list A)) : concat (map (map f) ll) = map f (concat ll).
Proof. symmetry. apply concat_map. Qed.

Lemma ascending_shift d v : ascending v -> ascending (map (fun x => x - d) v).
Proof.
  intros HA i j Hij. rewrite map_length in Hij. specialize (HA i j Hij).
  rewrite (nth_indep _ 0 ((fun x => x - d) 0)) by (rewrite map_length; lia).
  rewrite (nth_indep _ 0 ((fun x => x - d) 0) (n := j)) by (rewrite map_length; lia).
  rewrite !(map_nth (fun x => x - d)). lia.
Qed.

Lemma replace_nil x : replace [] x = x.
Proof. reflexivity. Qed.

(** The whole preparation of one step succeeds, and the corrected energies come from an order-preserving map
    that fixes the ground state. *)
Lemma prepare_step_correct P fixeps al raw dims :
  floquet P = false -> valid P -> raw <> [] -> length dims = length raw ->
  (forall v, In v raw -> v <> [] /\ ascending v) ->
  exists f p,
    prepare_step P fixeps al raw dims = Ok (map (map f) raw, p) /\
    truncate_prepare P al (map (fun cd => {| crit := fst cd; sdim := snd cd |}) (combine (map (map f) raw) dims)) = Ok p /\
    (forall x y, In x (concat raw) -> In y (concat raw) -> x <= y -> f x <= f y) /\
    f (min_element (concat raw)) = 0 /\
    (forall x, In x (concat raw) -> 0 <= x - min_element (concat raw) - f x < Z.max 1 fixeps).
Proof.
  intros Hfl HV Hne HL Hv. unfold prepare_step. rewrite find_Egs_min by auto. cbn [bind].
  set (egs := min_element (concat raw)). unfold fix_splittings. rewrite concat_map_map.
  assert (Hcne : concat raw <> []) by (apply concat_ne; auto; intros l Hl; apply Hv; auto).
  assert (Hrne : map (fun x => x - egs) (concat raw) <> []) by (destruct (concat raw); [congruence|discriminate]).
  assert (Hmin0 : min_element (map (fun x => x - egs) (concat raw)) = 0).
  { apply min_element_unique.
    - apply in_map_iff. exists egs. split; [lia|]. apply min_element_in; auto.
    - intros x Hx. apply in_map_iff in Hx. destruct Hx as (y & <- & Hy).
      pose proof (min_element_le _ _ Hy). unfold egs. lia. }
  assert (exists m, cluster_mapping fixeps (map (fun x => x - egs) (concat raw)) = Ok m /\
     (forall x y, In x (concat raw) -> In y (concat raw) -> x <= y -> replace m (x - egs) <= replace m (y - egs)) /\
     replace m 0 = 0 /\ (forall x, In x (concat raw) -> 0 <= x - egs - replace m (x - egs) < Z.max 1 fixeps)) as (m & -> & M1 & M2 & M3).
  { destruct (Z.lt_ge_cases 0 fixeps) as [He|He].
    - destruct (cluster_mapping_good fixeps _ He Hrne) as (m & E & G & G0). rewrite Hmin0 in G0.
      exists m. split; auto. split; [|split; auto].
      + intros x y Hx Hy Hxy. apply (gm_mono _ _ _ G); [apply (in_map (fun x => x - egs)); auto..|lia].
      + intros x Hx. pose proof (gm_shift _ _ _ G (x - egs) (in_map (fun x => x - egs) _ _ Hx)). lia.
    - exists []. rewrite cluster_mapping_off by auto. split; auto. split; [|split; auto].
      + intros x y _ _ Hxy. rewrite !replace_nil. lia.
      + intros x _. rewrite replace_nil. lia. }
  cbn [bind]. rewrite map_map.
  exists (fun x => replace m (x - egs)).
  assert (EQ : map (fun x => map (replace m) (map (fun x0 => x0 - egs) x)) raw = map (map (fun x => replace m (x - egs))) raw).
  { apply map_ext. intros v. apply map_map. }
  rewrite EQ.
  set (f := fun x => replace m (x - egs)) in *.
  set (sectors := map (fun cd => {| crit := fst cd; sdim := snd cd |}) (combine (map (map f) raw) dims)).
  assert (HC : map crit sectors = map (map f) raw).
  { unfold sectors. rewrite map_map. simpl. clearbody f. clear - HL.
    revert dims HL. induction raw as [|v t IH]; intros [|d ds] HL; simpl in *; try lia; auto. f_equal. apply IH. lia. }
  destruct (truncate_prepare_total P al sectors) as (p & Hp); auto.
  - unfold sectors. destruct raw, dims; simpl in *; try discriminate; congruence.
  - intros s Hs. assert (Hin : In (crit s) (map (map f) raw)) by (rewrite <- HC; apply in_map; auto).
    apply in_map_iff in Hin. destruct Hin as (v & <- & Hi). destruct (Hv v Hi) as [Hn _]. destruct v; [congruence|discriminate].
  - right. rewrite HC, concat_map_map. split.
    + apply in_map_iff. exists egs. split; [|apply min_element_in; auto]. unfold f. rewrite Z.sub_diag. auto.
    + intros x Hx. apply in_map_iff in Hx. destruct Hx as (y & <- & Hy).
      pose proof (M1 egs y (min_element_in _ Hcne) Hy (min_element_le _ _ Hy)) as H.
      rewrite Z.sub_diag, M2 in H. exact H.
  - exists p. rewrite Hp. cbn [bind]. split; [reflexivity|]. split; [reflexivity|]. split; [exact M1|].
    split; [unfold f; rewrite Z.sub_diag; auto|exact M3].
Qed.

(** *** Sorting by criterion *)
Lemma permuted_length {A} (d : A) p l : length (permuted d p l) = length p.
Proof. apply map_length. Qed.

Lemma permuted_nth {A} (d : A) p l k : (k < length p)%nat -> nth k (permuted d p l) d = nth (nth k p 0%nat) l d.
Proof.
  intros H. unfold permuted. rewrite (nth_indep _ d ((fun i => nth i l d) 0%nat)) by (rewrite map_length; auto).
  rewrite (map_nth (fun i => nth i l d)). auto.
Qed.

Lemma permuted_perm {A} (d : A) p l : Permutation p (seq 0 (length l)) -> Permutation (permuted d p l) l.
Proof.
  intros H. unfold permuted. rewrite H. clear H p.
  replace (map (fun i => nth i l d) (seq 0 (length l))) with l; auto.
  apply (nth_ext _ _ d (nth 0 l d)).
  - rewrite map_length, seq_length. auto.
  - intros n Hn. rewrite (map_nth (fun i => nth i l d)), seq_nth by auto. auto.
Qed.

(** *** Ranges *)
Lemma irange_seq_app a b : (a <= b)%nat -> irange 0 a ++ irange a b = seq 0 b.
Proof. intros H. unfold irange. rewrite Nat.sub_0_r. rewrite <- seq_app. f_equal. lia. Qed.

(** *** Restart loop *)

Lemma existsb_mapM_false al cmax sectors bad : mapM (insufficient al cmax) sectors = Ok bad ->
  (forall s, In s sectors -> nrcomputed s = sdim s) -> existsb (fun b => b) bad = false.
Proof.
  intros H HS. apply mapM_Ok_inv in H. induction H as [|x y l l' Hxy HF IH]; auto. simpl.
  rewrite IH by (intros; apply HS; right; auto). rewrite orb_false_r.
  unfold insufficient in Hxy. destruct (negb _); [congruence|]. destruct (crit x); [discriminate|].
  rewrite (HS x) in Hxy by (left; auto). rewrite Z.ltb_irrefl, andb_false_r in Hxy. congruence.
Qed.

Lemma full_not_insufficient P al sectors k :
  (forall s, In s sectors -> nrcomputed s = sdim s) -> truncate_prepare P al sectors <> Ok (NotEnough k).
Proof.
  intros HS. unfold truncate_prepare. destruct (highest_retained _ _); try discriminate. cbn [bind].
  destruct (mapM _ _) as [bad| |] eqn:E; try discriminate. cbn [bind].
  rewrite (existsb_mapM_false _ _ _ _ E HS). discriminate.
Qed.

Lemma combine_full (g : Z -> Z) (rel : list (list Z)) : forall dims s,
  In s (map (fun cd => {| crit := fst cd; sdim := snd cd |}) (combine rel dims)) ->
  exists v d, In (v, d) (combine rel dims) /\ s = {| crit := v; sdim := d |}.
Proof.
  intros dims s H. apply in_map_iff in H. destruct H as ([v d] & <- & H). exists v, d. auto.
Qed.

Lemma prepare_full P fixeps al full x : prepare_step P fixeps al full (map len full) = Ok x -> forall k, snd x <> NotEnough k.
Proof.
  unfold prepare_step. destruct (find_Egs full) as [egs| |]; try discriminate. cbn [bind].
  unfold fix_splittings. destruct (cluster_mapping _ _) as [m| |]; try discriminate. cbn [bind].
  set (sectors := map _ (combine _ _)).
  destruct (truncate_prepare P al sectors) as [p| |] eqn:E; try discriminate. cbn [bind].
  intros H k. inversion H; subst; clear H. simpl. intros ->.
  refine (full_not_insufficient _ _ _ _ _ E). intros s Hs. unfold sectors in Hs. apply in_map_iff in Hs.
  destruct Hs as ([v d] & <- & Hs). unfold nrcomputed. simpl.
  rewrite map_map in Hs. clear - Hs. induction full as [|w t IH]; simpl in Hs; [tauto|].
  destruct Hs as [Hs|Hs]; auto. inversion Hs; subst. unfold len. rewrite !map_length. auto.
Qed.

Lemma attempt_full P fixeps al dr full r : r == 1 -> forall k, attempt_on P fixeps al dr full r <> Ok (NotEnough k).
Proof.
  intros Hr k. unfold attempt_on.
  assert (Qle_bool r 0 = false) as ->.
  { apply not_true_is_false. intros E. apply Qle_bool_iff in E. rewrite Hr in E. apply (Qle_not_lt _ _ E). reflexivity. }
  unfold nr_to_compute. assert (Qeq_bool r 1 = true) as -> by (apply Qeq_bool_iff; auto).
  assert (map (fun v : list Z => firstn (Z.to_nat (len v)) v) full = full) as ->.
  { rewrite <- (map_id full) at 2. apply map_ext. intros v. unfold len. rewrite Nat2Z.id. apply firstn_all. }
  destruct (prepare_step _ _ _ _ _) as [x| |] eqn:E; try discriminate. cbn [bind].
  intros H. inversion H. eapply prepare_full; eauto.
Qed.

(** *** Termination of the loop *)
Local Open Scope Q_scope.

(** After n restarts the ratio is at least min(1, r (1 + n d)) when factor >= 1 + d. *)
Fixpoint ratio_after (n : nat) (factor ratio : Q) : Q :=
  match n with O => ratio | S k => ratio_after k factor (Qmin (ratio * factor) 1) end.

Lemma Qmin_1_le x : Qmin x 1 <= 1.
Proof. apply Q.le_min_r. Qed.

Lemma ratio_grows factor ratio d : 0 < ratio -> ratio <= 1 -> 0 < d -> 1 + d <= factor ->
  Qmin (ratio * factor) 1 == 1 \/ (ratio + ratio * d <= Qmin (ratio * factor) 1 /\ Qmin (ratio * factor) 1 <= 1).
Proof.
  intros H0 H1 Hd Hf. destruct (Qlt_le_dec (ratio * factor) 1) as [H|H].
  - right. rewrite Q.min_l by (apply Qlt_le_weak; auto). split; [|apply Qlt_le_weak; auto].
    setoid_replace (ratio + ratio * d) with (ratio * (1 + d)) by ring.
    rewrite !(Qmult_comm ratio). apply Qmult_le_compat_r; auto. apply Qlt_le_weak; auto.
  - left. rewrite Q.min_r; auto. reflexivity.
Qed.

Lemma ratio_reaches_one : forall n factor ratio r0 d,
  0 < r0 -> r0 <= ratio -> ratio <= 1 -> 0 < d -> 1 + d <= factor ->
  (exists k, (k <= n)%nat /\ ratio_after k factor ratio == 1) \/ ratio + inject_Z (Z.of_nat n) * (r0 * d) <= ratio_after n factor ratio.
Proof.
  induction n as [|n IH]; intros factor ratio r0 d H0 Hr H1 Hd Hf.
  - right. cbn [ratio_after]. change (inject_Z (Z.of_nat 0)) with 0. setoid_replace (ratio + 0 * (r0 * d)) with ratio by ring. apply Qle_refl.
  - assert (Hrp : 0 < ratio) by (apply (Qlt_le_trans _ r0); auto).
    destruct (ratio_grows factor ratio d Hrp H1 Hd Hf) as [E|[E1 E2]].
    + left. exists 1%nat. split; [lia|]. simpl. auto.
    + assert (Hge : ratio + r0 * d <= Qmin (ratio * factor) 1).
      { eapply Qle_trans; [|exact E1]. apply Qplus_le_compat; [apply Qle_refl|].
        apply Qmult_le_compat_r; auto. apply Qlt_le_weak; auto. }
      assert (Hr' : r0 <= Qmin (ratio * factor) 1).
      { eapply Qle_trans; [exact Hr|]. eapply Qle_trans; [|exact E1].
        rewrite <- (Qplus_0_r ratio) at 1. apply Qplus_le_compat; [apply Qle_refl|].
        apply Qmult_le_0_compat; apply Qlt_le_weak; auto. }
      destruct (IH factor (Qmin (ratio * factor) 1) r0 d H0 Hr' E2 Hd Hf) as [(k & Hk & Ek)|Hk].
      * left. exists (S k). split; [lia|]. simpl. auto.
      * right. simpl ratio_after. eapply Qle_trans; [|exact Hk].
        rewrite Nat2Z.inj_succ, <- Z.add_1_l, inject_Z_plus. change (inject_Z 1) with 1.
        setoid_replace (ratio + (1 + inject_Z (Z.of_nat n)) * (r0 * d)) with ((ratio + r0 * d) + inject_Z (Z.of_nat n) * (r0 * d)) by ring.
        apply Qplus_le_compat; [exact Hge|apply Qle_refl].
Qed.

Lemma ratio_after_le n : forall factor ratio, ratio <= 1 -> ratio_after n factor ratio <= 1.
Proof. induction n; intros; simpl; auto. apply IHn, Qmin_1_le. Qed.

Lemma ratio_reaches_one' factor ratio : 0 < ratio -> ratio <= 1 -> 1 < factor -> exists k, ratio_after k factor ratio == 1.
Proof.
  intros H0 H1 Hf. set (d := factor - 1).
  assert (Hd : 0 < d) by (unfold d; apply Qlt_minus_iff in Hf; exact Hf).
  assert (Hp : 0 < ratio * d) by (setoid_replace 0 with (0 * d) by ring; apply Qmult_lt_compat_r; auto).
  destruct (Qlt_le_dec 1 (ratio * d)) as [Hbig|_].
  - destruct (ratio_reaches_one 1 factor ratio ratio d) as [(k & _ & Ek)|Hk]; auto.
    + apply Qle_refl.
    + unfold d. setoid_replace (1 + (factor - 1)) with factor by ring. apply Qle_refl.
    + eauto.
    + exfalso. pose proof (ratio_after_le 1 factor ratio H1) as Hle.
      assert (1 < ratio + inject_Z (Z.of_nat 1) * (ratio * d)).
      { change (inject_Z (Z.of_nat 1)) with 1. setoid_replace (ratio + 1 * (ratio * d)) with (ratio * d + ratio) by ring.
        rewrite <- (Qplus_0_r 1). apply Qplus_lt_le_compat; auto. apply Qlt_le_weak; auto. }
      apply (Qlt_irrefl 1). eapply Qlt_le_trans; [exact H|]. eapply Qle_trans; eauto.
  - (* pick n >= 1 / (ratio d) *)
    set (n := Z.to_nat (Qceiling (/ (ratio * d)))).
    assert (Hn : 1 <= inject_Z (Z.of_nat n) * (ratio * d)).
    { assert (Hpos : 0 < / (ratio * d)) by (apply Qinv_lt_0_compat; auto).
      assert (Hc : / (ratio * d) <= inject_Z (Qceiling (/ (ratio * d)))) by apply Qle_ceiling.
      assert ((0 <= Qceiling (/ (ratio * d)))%Z).
      { assert (inject_Z 0 <= inject_Z (Qceiling (/ (ratio * d)))) as Hz by (eapply Qle_trans; [apply Qlt_le_weak, Hpos|exact Hc]).
        rewrite <- Zle_Qle in Hz. auto. }
      unfold n. rewrite Z2Nat.id by auto.
      setoid_replace 1 with (/ (ratio * d) * (ratio * d)) by (field; split; intros E; [rewrite E in Hd; exact (Qlt_irrefl _ Hd)|rewrite E in H0; exact (Qlt_irrefl _ H0)]).
      apply Qmult_le_compat_r; auto. apply Qlt_le_weak; auto. }
    destruct (ratio_reaches_one n factor ratio ratio d) as [(k & _ & Ek)|Hk]; auto.
    + apply Qle_refl.
    + unfold d. setoid_replace (1 + (factor - 1)) with factor by ring. apply Qle_refl.
    + eauto.
    + exfalso. pose proof (ratio_after_le n factor ratio H1) as Hle.
      apply (Qlt_irrefl 1). eapply Qlt_le_trans; [|eapply Qle_trans; [exact Hk|exact Hle]].
      rewrite <- (Qplus_0_l 1) at 1. apply Qplus_lt_le_compat; auto.
Qed.

Lemma do_diag_loop_S f att mr factor ratio : do_diag_loop (S f) att mr factor ratio =
  match att ratio with
  | Ok (NotEnough k) =>
      if negb mr then Some (Ok (NotEnough k), 1%nat)
      else match do_diag_loop f att mr factor (Qmin (ratio * factor) 1) with
           | None => None
           | Some (r, n) => Some (r, S n)
           end
  | r => Some (r, 1%nat)
  end.
Proof. reflexivity. Qed.

Lemma loop_terminates att factor : (forall r k, r == 1 -> att r <> Ok (NotEnough k)) ->
  forall k ratio, ratio_after k factor ratio == 1 ->
  exists r n, do_diag_loop (S k) att true factor ratio = Some (r, n) /\ (1 <= n <= S k)%nat /\ forall l, r <> Ok (NotEnough l).
Proof.
  intros Hatt. induction k as [|k IH]; intros ratio Hr; rewrite do_diag_loop_S.
  - simpl in Hr. destruct (att ratio) as [[l|l]| |] eqn:E.
    + exists (Ok (Enough l)), 1%nat. repeat split; auto; congruence.
    + exfalso. eapply Hatt; eauto.
    + exists Throw, 1%nat. repeat split; auto; congruence.
    + exists UB, 1%nat. repeat split; auto; congruence.
  - destruct (IH _ Hr) as (r & n & E & Hn & Hl).
    destruct (att ratio) as [[l|l]| |] eqn:E2.
    + exists (Ok (Enough l)), 1%nat. repeat split; auto; try lia; congruence.
    + rewrite E. exists r, (S n). repeat split; auto; lia.
    + exists Throw, 1%nat. repeat split; auto; try lia; congruence.
    + exists UB, 1%nat. repeat split; auto; try lia; congruence.
Qed.

Lemma loop_stuck att factor : (forall r, 0 <= r -> r <= 1 # 2 -> exists k, att r = Ok (NotEnough k)) -> 0 <= factor -> factor <= 1 ->
  forall fuel ratio, 0 <= ratio -> ratio <= 1 # 2 -> do_diag_loop fuel att true factor ratio = None.
Proof.
  intros Hatt Hf0 Hf. induction fuel as [|f IH]; intros ratio H0 Hr; auto. cbn [do_diag_loop].
  destruct (Hatt ratio H0 Hr) as [k ->]. cbn [negb].
  assert (Hle : ratio * factor <= 1 # 2).
  { eapply Qle_trans; [|exact Hr]. setoid_replace ratio with (ratio * 1) at 2 by ring.
    rewrite !(Qmult_comm ratio). apply Qmult_le_compat_r; auto. }
  rewrite IH; auto.
  - apply Q.min_glb; [apply Qmult_le_0_compat; auto|discriminate].
  - eapply Qle_trans; [apply Q.le_min_l|exact Hle].
Qed.
