From Coq Require Import List ZArith Lia Bool String Permutation Sorted.
From Verif Require Import Base Invar_model Invar_spec Invar_proofs Symmetry_model Symmetry_spec Symmetry_tables
  Symmetry_proofs Symmetry_factor Symmetry_dim Subspaces_model.
Import ListNotations.
Local Open Scope Z_scope.

(** ** Machine sums *)

Lemma to_int_id z : - 2 ^ 31 <= z < 2 ^ 31 -> to_int z = z.
Proof. unfold to_int, two32. intros. rewrite Z.mod_small; lia. Qed.
Lemma to_size_id z : 0 <= z < two64 -> to_size z = z.
Proof. unfold to_size. intros. apply Z.mod_small; lia. Qed.

Lemma to_int_mod z : exists k, to_int z = z + k * two32.
Proof.
  exists (- ((z + 2 ^ 31) / two32)). unfold to_int. pose proof (Z.div_mod (z + 2 ^ 31) two32).
  unfold two32 in *. lia.
Qed.
Lemma to_int_shift z k : to_int (z + k * two32) = to_int z.
Proof. unfold to_int. replace (z + k * two32 + 2 ^ 31) with (z + 2 ^ 31 + k * two32) by lia. rewrite Z_mod_plus_full. reflexivity. Qed.
Lemma to_size_mod z : exists k, to_size z = z + k * two64.
Proof. exists (- (z / two64)). unfold to_size. pose proof (Z.div_mod z two64). unfold two64 in *. lia. Qed.

Lemma dims_total_acc d acc a : acc = to_int a -> fold_left (fun acc x => to_int (to_size acc + x)) d acc = to_int (a + zsum d).
Proof.
  revert acc a; induction d as [|x d IH]; intros acc a E; cbn [fold_left zsum fold_right].
  - rewrite Z.add_0_r. auto.
  - rewrite (IH _ (a + x)).
    + f_equal. unfold zsum. lia.
    + destruct (to_size_mod acc) as [k1 ->]. destruct (to_int_mod a) as [k2 E2]. rewrite E, E2.
      replace (a + k2 * two32 + k1 * two64 + x) with (a + x + (k2 + k1 * two32) * two32) by (unfold two32, two64; lia).
      apply to_int_shift.
Qed.

Lemma dims_total_spec d : dims_total d = to_int (zsum d).
Proof. unfold dims_total. rewrite (dims_total_acc d 0 0); auto. Qed.

Lemma dims_total_exact d : (forall x, In x d -> 0 <= x) -> zsum d < 2 ^ 31 -> dims_total d = zsum d.
Proof. intros H1 H2. rewrite dims_total_spec. apply to_int_id. pose proof (zsum_nonneg d H1). lia. Qed.

Lemma accumulate_acc d acc : 0 <= acc -> (forall x, In x d -> 0 <= x) -> acc + zsum d < two64 ->
  fold_left (fun acc x => to_size (acc + x)) d acc = acc + zsum d.
Proof.
  revert acc; induction d as [|x d IH]; intros acc Ha Hd Hs; cbn [fold_left zsum fold_right]; [lia|].
  assert (0 <= x) by (apply Hd; left; auto). assert (Hd' : forall y, In y d -> 0 <= y) by (intros; apply Hd; right; auto).
  pose proof (zsum_nonneg d Hd'). cbn [zsum fold_right] in Hs. fold (zsum d) in Hs |- *.
  rewrite to_size_id by lia. rewrite IH; lia || auto.
Qed.

Lemma accumulate_exact d : (forall x, In x d -> 0 <= x) -> zsum d < two64 -> accumulate_size d = zsum d.
Proof. intros. unfold accumulate_size. rewrite accumulate_acc; auto; lia. Qed.

(** ** C05 *)

Lemma zsum_firstn_S d i n : nth_error d i = Some n -> zsum (firstn (S i) d) = zsum (firstn i d) + n.
Proof.
  revert i; induction d as [|x d IH]; intros [|i] H; cbn in H; try discriminate.
  - injection H as ->. simpl. lia.
  - change (zsum (firstn (S (S i)) (x :: d))) with (x + zsum (firstn (S i) d)). rewrite (IH _ H).
    change (zsum (firstn (S i) (x :: d))) with (x + zsum (firstn i d)). lia.
Qed.

Lemma firstn_In {A} (x : A) n l : In x (firstn n l) -> In x l.
Proof. rewrite <- (firstn_skipn n l) at 2. intros. apply in_or_app; auto. Qed.

Lemma zsum_firstn_le d i : (forall x, In x d -> 0 <= x) -> 0 <= zsum (firstn i d) <= zsum d.
Proof.
  intros H. rewrite <- (firstn_skipn i d) at 3. rewrite zsum_app.
  assert (0 <= zsum (firstn i d)) by (apply zsum_nonneg; intros; apply H; eapply firstn_In; eauto).
  assert (0 <= zsum (skipn i d)).
  { apply zsum_nonneg. intros x Hx. apply H. rewrite <- (firstn_skipn i d). apply in_or_app; auto. }
  lia.
Qed.

Lemma zsum_firstn_mono d i j : (forall x, In x d -> 0 <= x) -> (i <= j)%nat -> zsum (firstn i d) <= zsum (firstn j d).
Proof.
  intros H Hij. replace (firstn i d) with (firstn i (firstn j d)) by (rewrite firstn_firstn; f_equal; lia).
  apply zsum_firstn_le. intros; apply H; eapply firstn_In; eauto.
Qed.

Section Blocks.
  Variable d : list Z.
  Hypothesis Hnn : forall x, In x d -> 0 <= x.
  Hypothesis Hsum : zsum d < two64.
  Hypothesis Hlen : Z.of_nat (List.length d) < two64.

  Lemma view_eq i n : nth_error d i = Some n ->
    view d (Z.of_nat i) = Ok (zsum (firstn i d), zsum (firstn i d) + n).
  Proof.
    intros Hn. assert (Hi : (i < List.length d)%nat) by (apply nth_error_Some; congruence).
    unfold view, offset, rmax. replace (Z.of_nat i <? Z.of_nat (List.length d)) with true by (symmetry; apply Z.ltb_lt; lia).
    cbn [my_assert bind]. rewrite Nat2Z.id, Hn. cbn [bind].
    pose proof (zsum_firstn_le d i Hnn). pose proof (zsum_firstn_le d (S i) Hnn). rewrite (zsum_firstn_S _ _ _ Hn) in *.
    rewrite accumulate_exact; [|intros; apply Hnn; eapply firstn_In; eauto|lia].
    assert (0 <= n) by (apply Hnn; eapply nth_error_In; eauto).
    rewrite to_size_id by lia. reflexivity.
  Qed.

  Lemma view_err i : Z.of_nat (List.length d) <= i -> view d i = Throw.
  Proof.
    intros. unfold view, offset. replace (i <? Z.of_nat (List.length d)) with false by (symmetry; apply Z.ltb_ge; lia). reflexivity.
  Qed.

  (** The block containing index x. *)
  Lemma find_block x : 0 <= x < zsum d -> exists i n, nth_error d i = Some n /\ zsum (firstn i d) <= x < zsum (firstn i d) + n.
  Proof.
    clear Hsum Hlen. revert x Hnn. induction d as [|y l IH]; intros x Hnn0 Hx.
    - cbn in Hx. lia.
    - destruct (Z_lt_dec x y) as [Hlt|Hge].
      + exists 0%nat, y. split; [reflexivity|]. cbn [firstn zsum fold_right]. lia.
      + destruct (IH (x - y)) as (i & n & E & B).
        * intros; apply Hnn0; right; auto.
        * change (zsum (y :: l)) with (y + zsum l) in Hx. lia.
        * exists (S i), n. split; [exact E|]. change (zsum (firstn (S i) (y :: l))) with (y + zsum (firstn i l)). lia.
  Qed.

  Lemma tiling :
    (forall i, Z.of_nat (List.length d) <= i -> view d i = Throw /\ part d i = Throw) /\
    (forall i, 0 <= i < Z.of_nat (List.length d) ->
       exists a b n, view d i = Ok (a, b) /\ part d i = Ok (a, b) /\ view_mma d (i + 1) = Ok (a, b) /\ part_mma d (i + 1) = Ok (a, b) /\
                   chunk d (i + 1) = Ok (a, n) /\ b = a + n /\ nth_error d (Z.to_nat i) = Some n /\ rmax d i = Ok n /\
                   offset d i = Ok a /\ 0 <= a /\ a <= b <= zsum d) /\
    (forall x, 0 <= x < zsum d -> exists! i, 0 <= i < Z.of_nat (List.length d) /\ exists a b, view d i = Ok (a, b) /\ a <= x < b) /\
    (forall i j a b a' b', 0 <= i -> i < j -> view d i = Ok (a, b) -> view d j = Ok (a', b') -> b <= a').
  Proof.
    assert (V : forall i, 0 <= i < Z.of_nat (List.length d) -> exists n, nth_error d (Z.to_nat i) = Some n /\ 0 <= n /\
              view d i = Ok (zsum (firstn (Z.to_nat i) d), zsum (firstn (Z.to_nat i) d) + n)).
    { intros i Hi. destruct (nth_error d (Z.to_nat i)) as [n|] eqn:E.
      - exists n. split; auto. split. { apply Hnn; eapply nth_error_In; eauto. }
        rewrite <- (Z2Nat.id i) at 1 by lia. apply view_eq; auto.
      - apply nth_error_None in E. lia. }
    assert (V2 : forall i r, 0 <= i -> view d i = Ok r -> i < Z.of_nat (List.length d)).
    { intros i r Hi Hr. destruct (Z_lt_dec i (Z.of_nat (List.length d))); auto. rewrite view_err in Hr by lia. discriminate. }
    split; [|split; [|split]].
    - intros. split; [|change (part d i) with (view d i)]; apply view_err; auto.
    - intros i Hi. destruct (V i Hi) as (n & En & Hn & Ev).
      exists (zsum (firstn (Z.to_nat i) d)), (zsum (firstn (Z.to_nat i) d) + n), n.
      assert (T : to_size (i + 1 - 1) = i) by (rewrite to_size_id; lia).
      split; [exact Ev|]. split; [exact Ev|].
      split; [unfold view_mma; rewrite T; exact Ev|]. split; [unfold part_mma; rewrite T; exact Ev|].
      assert (Eo : offset d i = Ok (zsum (firstn (Z.to_nat i) d))).
      { unfold view in Ev. destruct (offset d i); cbn [bind] in Ev; try discriminate. destruct (rmax d i); cbn [bind] in Ev; try discriminate.
        injection Ev as -> _. reflexivity. }
      assert (Er : rmax d i = Ok n).
      { unfold rmax. replace (i <? Z.of_nat (List.length d)) with true by (symmetry; apply Z.ltb_lt; lia). cbn. rewrite En. reflexivity. }
      split. { unfold chunk. rewrite T, Eo, Er. reflexivity. }
      split; [reflexivity|]. split; [exact En|]. split; [exact Er|]. split; [exact Eo|].
      pose proof (zsum_firstn_le d (Z.to_nat i) Hnn). pose proof (zsum_firstn_le d (S (Z.to_nat i)) Hnn).
      rewrite (zsum_firstn_S _ _ _ En) in *. lia.
    - intros x Hx. destruct (find_block x Hx) as (i & n & En & B). exists (Z.of_nat i). split.
      + assert ((i < List.length d)%nat) by (apply nth_error_Some; congruence). split; [lia|].
        do 2 eexists. split; [apply view_eq; eauto|]. exact B.
      + intros j [Hj (a & b & Ev & Hab)]. destruct (V j Hj) as (m & Em & Hm & Ev'). rewrite Ev' in Ev. injection Ev as <- <-.
        destruct (Z.lt_total (Z.of_nat i) j) as [L|[L|L]]; auto; exfalso.
        * pose proof (zsum_firstn_mono d (S i) (Z.to_nat j) Hnn ltac:(lia)). rewrite (zsum_firstn_S _ _ _ En) in H. lia.
        * pose proof (zsum_firstn_mono d (S (Z.to_nat j)) i Hnn ltac:(lia)). rewrite (zsum_firstn_S _ _ _ Em) in H. lia.
    - intros i j a b a' b' Hi Hij E1 E2. pose proof (V2 _ _ Hi E1) as Hi'. assert (Hj0 : 0 <= j) by lia. pose proof (V2 _ _ Hj0 E2) as Hj'.
      destruct (V i (conj Hi Hi')) as (n & En & Hn & Ev). destruct (V j (conj Hj0 Hj')) as (m & Em & Hm & Ev').
      rewrite Ev in E1. rewrite Ev' in E2. injection E1 as <- <-. injection E2 as <- <-.
      pose proof (zsum_firstn_mono d (S (Z.to_nat i)) (Z.to_nat j) Hnn ltac:(lia)). rewrite (zsum_firstn_S _ _ _ En) in H. lia.
  Qed.

  Lemma view_mma_zero : view_mma d 0 = Throw /\ part_mma d 0 = Throw /\ chunk d 0 = Throw.
  Proof.
    assert (E : to_size (0 - 1) = two64 - 1) by reflexivity.
    unfold view_mma, part_mma, chunk. rewrite E. split; [|split].
    - apply view_err. lia.
    - change (part d (two64 - 1)) with (view d (two64 - 1)). apply view_err. lia.
    - unfold offset. replace (two64 - 1 <? Z.of_nat (List.length d)) with false by (symmetry; apply Z.ltb_ge; lia). reflexivity.
  Qed.
End Blocks.

(** ** C06: sorting *)

Lemma pair_gt_irrefl p : pair_gt p p = false.
Proof. unfold pair_gt. rewrite !Z.ltb_irrefl. apply invar_ltb_irrefl. Qed.
Lemma pair_gt_trans p q r : pair_gt p q = true -> pair_gt q r = true -> pair_gt p r = true.
Proof.
  destruct p as [a x], q as [b y], r as [c z]. unfold pair_gt; cbn [fst snd].
  destruct (Z.ltb_spec b a), (Z.ltb_spec a b), (Z.ltb_spec c b), (Z.ltb_spec b c), (Z.ltb_spec c a), (Z.ltb_spec a c);
    try lia; try discriminate; auto.
  intros H5 H6. eapply invar_ltb_trans; eauto.
Qed.
Lemma pair_gt_total p q : p <> q -> pair_gt p q = true \/ pair_gt q p = true.
Proof.
  destruct p as [a x], q as [b y]. intros H. unfold pair_gt; cbn [fst snd].
  destruct (Z.ltb_spec b a), (Z.ltb_spec a b); auto; try lia.
  assert (a = b) by lia. subst. destruct (invar_ltb_total y x); auto. congruence.
Qed.

Definition gtP p q : Prop := pair_gt p q = true.

Lemma insert_desc_perm p l : Permutation (p :: l) (insert_desc p l).
Proof.
  induction l as [|q l IH]; cbn [insert_desc]; auto. destruct (pair_gt p q); auto.
  etransitivity; [apply perm_swap|]. apply perm_skip. exact IH.
Qed.
Lemma sort_desc_perm l : Permutation l (sort_desc l).
Proof. induction l as [|p l IH]; cbn; auto. etransitivity; [apply perm_skip, IH|]. apply insert_desc_perm. Qed.

Lemma insert_desc_sorted p l : ~ In p l -> StronglySorted gtP l -> StronglySorted gtP (insert_desc p l).
Proof.
  induction l as [|q l IH]; intros Hnin Hs; cbn [insert_desc].
  - repeat constructor.
  - destruct (pair_gt p q) eqn:E.
    + constructor; auto. inversion Hs as [|? ? Hs' Hf]; subst. constructor; auto.
      eapply Forall_impl; [|exact Hf]. intros r Hr. eapply pair_gt_trans; eauto.
    + assert (E' : gtP q p).
      { destruct (pair_gt_total p q) as [H|H]; auto; [|congruence]. intros ->. apply Hnin; left; auto. }
      inversion Hs as [|? ? Hs' Hf]; subst. constructor.
      * apply IH; auto. intros H; apply Hnin; right; auto.
      * eapply Permutation_Forall; [apply insert_desc_perm|]. constructor; auto.
Qed.
Lemma sort_desc_sorted l : NoDup l -> StronglySorted gtP (sort_desc l).
Proof.
  induction 1 as [|p l Hn Hd IH]; cbn; [constructor|]. apply insert_desc_sorted; auto.
  intros H. apply Hn. eapply Permutation_in; [symmetry; apply sort_desc_perm|exact H].
Qed.

Lemma sorted_unique l1 l2 : StronglySorted gtP l1 -> StronglySorted gtP l2 -> Permutation l1 l2 -> l1 = l2.
Proof.
  revert l2; induction l1 as [|p l1 IH]; intros l2 H1 H2 HP.
  - apply Permutation_nil in HP. auto.
  - destruct l2 as [|q l2]; [symmetry in HP; apply Permutation_nil in HP; discriminate|].
    inversion H1 as [|? ? S1 F1]; subst. inversion H2 as [|? ? S2 F2]; subst. rewrite Forall_forall in F1, F2.
    assert (p = q).
    { assert (In p (q :: l2)) by (eapply Permutation_in; [exact HP|left; auto]).
      assert (In q (p :: l1)) by (eapply Permutation_in; [symmetry; exact HP|left; auto]).
      destruct H as [->|H]; auto. destruct H0 as [->|H0]; auto.
      pose proof (F2 _ H) as G1. pose proof (F1 _ H0) as G2. pose proof (pair_gt_trans _ _ _ G1 G2). rewrite pair_gt_irrefl in H3. discriminate. }
    subst q. f_equal. apply IH; auto. eapply Permutation_cons_inv; eauto.
Qed.

Lemma NoDup_map_pair {A B C} (f : A -> B) (g : A -> C) l : NoDup (map g l) -> NoDup (map (fun x => (f x, g x)) l).
Proof.
  induction l as [|a l IH]; cbn; intros H; [constructor|]. inversion H; subst. constructor; auto.
  intros Hin. apply in_map_iff in Hin as (b & E & Hb). injection E as _ E. apply H2. rewrite <- E. apply in_map; auto.
Qed.

Lemma NoDup_map_filter {A B} (g : A -> B) f l : NoDup (map g l) -> NoDup (map g (filter f l)).
Proof.
  induction l as [|a l IH]; cbn; intros H; [constructor|]. inversion H; subst. destruct (f a); cbn; auto.
  constructor; auto. intros Hin. apply H2. apply in_map_iff in Hin as (b & E & Hb). apply filter_In in Hb as [Hb _].
  rewrite <- E. apply in_map; auto.
Qed.

Lemma tasks_nodup_pairs s : NoDup (map fst s) ->
  NoDup (map (fun p : invar * subdims => (to_size (dims_total (sd_dims (snd p))), fst p))
             (filter (fun p => negb (dims_total (sd_dims (snd p)) =? 0)) s)).
Proof. intros. apply NoDup_map_pair. apply NoDup_map_filter. auto. Qed.

Lemma StronglySorted_map_impl {A B} (R : A -> A -> Prop) (Q : B -> B -> Prop) (f : A -> B) l :
  (forall a b, In a l -> In b l -> R a b -> Q (f a) (f b)) -> StronglySorted R l -> StronglySorted Q (map f l).
Proof.
  intros H Hs. induction Hs as [|a l Hs IH Hf]; cbn; [constructor|]. constructor.
  - apply IH. intros; apply H; auto; right; auto.
  - rewrite Forall_forall in *. intros b Hb. apply in_map_iff in Hb as (c & <- & Hc). apply H; auto; [left|right]; auto.
Qed.

Lemma find_key {A} (s : list (invar * A)) I a : NoDup (map fst s) -> In (I, a) s ->
  find (fun p => invar_eqb (fst p) I) s = Some (I, a).
Proof.
  induction s as [|[J b] s IH]; cbn; intros Hn Hin; [tauto|]. inversion Hn; subst. destruct (invar_eqb J I) eqn:E.
  - apply invar_eqb_eq in E. subst. destruct Hin as [H|H]; [congruence|]. exfalso. apply H1. apply (in_map fst) in H. exact H.
  - destruct Hin as [H|H]; [injection H as -> ->; rewrite invar_eqb_refl in E; discriminate|]. auto.
Qed.

Lemma NoDup_keys_inj {A} (s : list (invar * A)) I a b : NoDup (map fst s) -> In (I, a) s -> In (I, b) s -> a = b.
Proof. intros Hn H1 H2. pose proof (find_key _ _ _ Hn H1). pose proof (find_key _ _ _ Hn H2). congruence. Qed.

(** Dimension of a sector in the structure, 0 if absent. *)
Definition dim_in (s : structure) (I : invar) : Z :=
  match find (fun p => invar_eqb (fst p) I) s with Some (_, d) => to_size (dims_total (sd_dims d)) | None => 0 end.

Lemma task_list_spec s : NoDup (map fst s) ->
  NoDup (task_list s) /\
  (forall I, In I (task_list s) <-> exists d, In (I, d) s /\ dims_total (sd_dims d) <> 0) /\
  StronglySorted (fun I J => dim_in s J < dim_in s I \/ (dim_in s I = dim_in s J /\ invar_ltb J I = true)) (task_list s) /\
  (forall s', Permutation s s' -> task_list s' = task_list s).
Proof.
  intros Hn. pose proof (tasks_nodup_pairs s Hn) as Hp. pose proof (sort_desc_perm (map (fun p : invar * subdims => (to_size (dims_total (sd_dims (snd p))), fst p))
             (filter (fun p => negb (dims_total (sd_dims (snd p)) =? 0)) s))) as HP.
  pose proof (sort_desc_sorted _ Hp) as HS. fold (tasks_with_sizes s) in HP, HS.
  assert (Hin : forall n I, In (n, I) (tasks_with_sizes s) <-> exists d, In (I, d) s /\ dims_total (sd_dims d) <> 0 /\ n = to_size (dims_total (sd_dims d))).
  { intros n I. split.
    - intros H. eapply Permutation_in in H; [|symmetry; exact HP]. apply in_map_iff in H as ([J d] & E & H). cbn [fst snd] in E.
      apply filter_In in H as [H F]. injection E as <- <-. exists d. split; auto. split; auto. intros E. cbn [snd] in F. rewrite E in F. discriminate.
    - intros (d & H & F & ->). eapply Permutation_in; [exact HP|]. apply in_map_iff. exists (I, d). split; auto.
      apply filter_In. split; auto. cbn [snd]. apply negb_true_iff. apply Z.eqb_neq. auto. }
  split; [|split; [|split]].
  - unfold task_list. eapply Permutation_NoDup; [apply Permutation_map; exact HP|]. rewrite map_map. cbn [snd].
    apply (NoDup_map_filter fst). auto.
  - intros I. unfold task_list. rewrite in_map_iff. split.
    + intros ([n J] & E & H). cbn [snd] in E. subst J. apply Hin in H as (d & H1 & H2 & _). eauto.
    + intros (d & H1 & H2). exists (to_size (dims_total (sd_dims d)), I). split; auto. apply Hin. eauto.
  - unfold task_list. eapply StronglySorted_map_impl; [|exact HS]. intros [n I] [m J] H1 H2 G. cbn [snd].
    apply Hin in H1 as (d1 & A1 & _ & ->). apply Hin in H2 as (d2 & A2 & _ & ->).
    unfold dim_in. rewrite (find_key _ _ _ Hn A1), (find_key _ _ _ Hn A2). unfold gtP, pair_gt in G. cbn [fst snd] in G.
    destruct (Z.ltb_spec (to_size (dims_total (sd_dims d2))) (to_size (dims_total (sd_dims d1)))); [left; auto|].
    destruct (Z.ltb_spec (to_size (dims_total (sd_dims d1))) (to_size (dims_total (sd_dims d2)))); [discriminate|].
    right. split; auto. lia.
  - intros s' HPs. assert (Hn' : NoDup (map fst s')) by (eapply Permutation_NoDup; [apply Permutation_map; exact HPs|auto]).
    unfold task_list. f_equal. symmetry. apply sorted_unique; auto.
    + apply sort_desc_sorted. apply tasks_nodup_pairs. auto.
    + etransitivity; [symmetry; exact HP|]. etransitivity; [|apply sort_desc_perm].
      apply Permutation_map. clear -HPs. induction HPs; cbn; auto.
      * destruct (negb _); auto.
      * destruct (negb _), (negb _); auto. apply perm_swap.
      * etransitivity; eauto.
Qed.
