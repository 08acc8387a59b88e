(** Consequences of the conditions of Fullchain_check.v: sectors of the types considered, and the structure of a step. *)
From Coq Require Import List ZArith Bool String Lia Permutation Sorted.
From Verif Require Import Base Invar_model Invar_spec Invar_proofs Symmetry_model Symmetry_spec Symmetry_tables Symmetry_proofs Symmetry_factor Symmetry_dim
  Subspaces_model Subspaces_proofs Subspaces_step Density_model Density_struct Hamilton_pos Coef_model Coef_tables Fullchain_terms Fullchain_check.
Import ListNotations.
Local Open Scope string_scope.
Local Open Scope list_scope.
Local Open Scope Z_scope.

(** Vectors of integers. *)
Lemma zlist_eqb_eq a b : zlist_eqb a b = true <-> a = b.
Proof.
  revert b; induction a as [|x a IH]; intros [|y b]; cbn [zlist_eqb]; try (split; [discriminate|discriminate]); [tauto|].
  rewrite andb_true_iff, Z.eqb_eq, IH. split; [intros [-> ->]; auto|intros E; injection E as -> ->; auto].
Qed.
Definition vopp (a : invar) : invar := map Z.opp a.
Lemma vadd_length a b : List.length a = List.length b -> List.length (vadd a b) = List.length b.
Proof. intros H. unfold vadd. rewrite map_length, combine_length. lia. Qed.
Lemma vopp_length a : List.length (vopp a) = List.length a. Proof. apply map_length. Qed.
Lemma vadd_cons x a y b : vadd (x :: a) (y :: b) = x + y :: vadd a b. Proof. reflexivity. Qed.
Lemma vadd_assoc a b c : List.length a = List.length b -> List.length b = List.length c -> vadd a (vadd b c) = vadd (vadd a b) c.
Proof.
  revert b c; induction a as [|x a IH]; intros [|y b] [|z c] H1 H2; cbn [List.length] in *; try discriminate; auto.
  rewrite !vadd_cons, Z.add_assoc. f_equal. apply IH; congruence.
Qed.
Lemma vadd_comm a b : vadd a b = vadd b a.
Proof. revert b; induction a as [|x a IH]; intros [|y b]; auto. rewrite !vadd_cons, Z.add_comm. f_equal. apply IH. Qed.
Lemma vadd_opp a b : List.length a = List.length b -> vadd (vopp a) (vadd a b) = b.
Proof.
  revert b; induction a as [|x a IH]; intros [|y b] H; cbn [List.length] in *; try discriminate; auto. unfold vopp. cbn [map].
  rewrite !vadd_cons. f_equal; [lia|]. apply IH. congruence.
Qed.
Lemma vadd_opp' a b : List.length a = List.length b -> vadd a (vadd (vopp a) b) = b.
Proof.
  revert b; induction a as [|x a IH]; intros [|y b] H; cbn [List.length] in *; try discriminate; auto. unfold vopp. cbn [map].
  rewrite !vadd_cons. f_equal; [lia|]. apply IH. congruence.
Qed.
Lemma vadd_inj a b c : List.length a = List.length b -> List.length a = List.length c -> vadd a b = vadd a c -> b = c.
Proof. intros H1 H2 E. rewrite <- (vadd_opp a b), <- (vadd_opp a c), E; auto. Qed.

Lemma additive_comb tl a b : (forall t, In t tl -> t = Additive) -> List.length a = List.length tl -> List.length b = List.length tl -> combp tl a b = vadd a b.
Proof.
  revert a b; induction tl as [|t tl IH]; intros [|x a] [|y b] H L1 L2; cbn [List.length] in *; try discriminate; auto.
  rewrite vadd_cons. cbn [combp]. rewrite (H t (or_introl eq_refl)). cbn [comb1]. f_equal. apply IH; auto; try congruence. intros; apply H; right; auto.
Qed.
Lemma additive_inv tl a : (forall t, In t tl -> t = Additive) -> List.length a = List.length tl -> invp tl a = vopp a.
Proof.
  revert a; induction tl as [|t tl IH]; intros [|x a] H L1; cbn [List.length] in *; try discriminate; auto.
  cbn [invp]. rewrite (H t (or_introl eq_refl)). unfold vopp. cbn [inv1 map]. f_equal. apply IH; auto; try congruence. intros; apply H; right; auto.
Qed.
Lemma additive_adm tl a : (forall t, In t tl -> t = Additive) -> List.length a = List.length tl -> admissible tl a.
Proof.
  revert a; induction tl as [|t tl IH]; intros [|x a] H L1; cbn [List.length] in *; try discriminate; constructor.
  - rewrite (H t (or_introl eq_refl)). exact Logic.I.
  - apply IH; auto; try congruence. intros; apply H; right; auto.
Qed.

Lemma plain_shift_apply l n q k : plain_shift n l = true -> List.length k = List.length l -> (forall i, (i < List.length l)%nat -> nth_error q (n + i) = nth_error k i) ->
  mapO (sh_val q) l = Some (vadd (map (fun s => match s with ShLin _ _ k => k | ShMod3 _ k => k end) l) k).
Proof.
  revert n k; induction l as [|s l IH]; intros n [|x k] H L E; cbn [List.length] in *; try discriminate; [reflexivity|].
  cbn [plain_shift] in H. destruct s as [n' c z|]; [|discriminate]. rewrite !andb_true_iff, Z.eqb_eq, Nat.eqb_eq in H. destruct H as [[-> ->] H].
  cbn [mapO sh_val map]. pose proof (E 0%nat ltac:(lia)) as E0. rewrite Nat.add_0_r in E0. rewrite E0. cbn [nth_error option_map].
  rewrite (IH (S n) k H); [|congruence|].
  - rewrite vadd_cons. cbn [omap2]. f_equal. f_equal. lia.
  - intros i Hi. specialize (E (S i) ltac:(lia)). rewrite Nat.add_succ_r in E. exact E.
Qed.

Section Facts.
  Variables (cs : coef_set) (se : setting) (m : mode).
  Hypothesis Hck : check cs se m = true.
  Let sy := cs_sym cs.
  Let tl := ts sy.
  Let d := List.length (tb_In (cs_tab cs)).
  Let chs := Z.of_nat (cs_channels cs).
  Notation sig := (sy_sig sy).
  Definition isec (J : invar) : Prop := List.length J = List.length (sy_sig (cs_sym cs)) /\ (cs_name cs = "NONE" -> J = [0]).
  Definition Ind (i : nat) : invar := nth i (tb_In (cs_tab cs)) [].
  Definition anc (i : nat) (J : invar) : invar := vadd (Ind i) J.
  Definition child (i : nat) (A : invar) : invar := vadd (vopp (Ind i)) A.

  Lemma ck_sym : sy_mult sy = [] /\ (forall t, In t tl -> t = Additive) /\ (0 < d)%nat /\
    (forall x, In x (tb_In (cs_tab cs)) -> isec x).
  Proof.
    unfold check in Hck. rewrite !andb_true_iff in Hck. destruct Hck as [[[[[[H _] _] _] _] _] _]. unfold check_sym in H. rewrite !andb_true_iff in H.
    destruct H as [[[H1 H2] H3] H4]. split; [fold sy in H1; destruct (sy_mult sy); auto; discriminate|]. rewrite forallb_forall in H2, H3. split; [|split].
    - intros t Ht. apply in_map_iff in Ht as (p & <- & Hp). apply H2 in Hp. destruct (snd p); auto; discriminate.
    - apply Nat.ltb_lt in H4. exact H4.
    - intros x Hx. apply H3 in Hx. rewrite andb_true_iff, orb_true_iff, Nat.eqb_eq in Hx. destruct Hx as [L N]. split; auto.
      intros E. destruct N as [N|N]; [|apply zlist_eqb_eq in N; auto]. unfold is_none in N. rewrite E in N. discriminate.
  Qed.
  Lemma tl_length : List.length tl = List.length sig. Proof. apply map_length. Qed.
  Lemma isec_adm J : isec J -> admissible tl J.
  Proof. intros [L _]. apply additive_adm; [apply ck_sym|]. rewrite tl_length. auto. Qed.
  Lemma isec_multiplet J : isec J -> multiplet sy J.
  Proof. intros H. split; [apply isec_adm; auto|]. destruct ck_sym as [E _]. rewrite E. intros k n x []. Qed.
  Lemma Ind_sec i : (i < d)%nat -> isec (Ind i).
  Proof. intros H. apply ck_sym. apply nth_In. exact H. Qed.
  Lemma vadd_sec a b : isec a -> isec b -> isec (vadd a b).
  Proof.
    intros [L1 N1] [L2 N2]. split; [rewrite vadd_length; congruence|]. intros E. rewrite (N1 E), (N2 E). reflexivity.
  Qed.
  Lemma vopp_sec a : isec a -> isec (vopp a).
  Proof. intros [L1 N1]. split; [rewrite vopp_length; auto|]. intros E. rewrite (N1 E). reflexivity. Qed.
  Lemma anc_sec i J : (i < d)%nat -> isec J -> isec (anc i J).
  Proof. intros. apply vadd_sec; auto. apply Ind_sec; auto. Qed.
  Lemma child_sec i J : (i < d)%nat -> isec J -> isec (child i J).
  Proof. intros. apply vadd_sec; auto. apply vopp_sec, Ind_sec; auto. Qed.
  Lemma sec_len a b : isec a -> isec b -> List.length a = List.length b.
  Proof. intros [L1 _] [L2 _]. congruence. Qed.
  Lemma child_anc i J : (i < d)%nat -> isec J -> child i (anc i J) = J.
  Proof. intros Hi H. apply vadd_opp. apply sec_len; auto. apply Ind_sec; auto. Qed.
  Lemma anc_child i J : (i < d)%nat -> isec J -> anc i (child i J) = J.
  Proof. intros Hi H. apply vadd_opp'. apply sec_len; auto. apply Ind_sec; auto. Qed.
  Lemma anc_inj i J J' : (i < d)%nat -> isec J -> isec J' -> anc i J = anc i J' -> J = J'.
  Proof. intros Hi H H' E. rewrite <- (child_anc i J), <- (child_anc i J'), E; auto. Qed.

  (** Tables. *)
  Lemma ck_table t : In t (cs_irr cs) -> check_table cs t = true.
  Proof. unfold check in Hck. rewrite !andb_true_iff in Hck. destruct Hck as [[[[[[_ H] _] _] _] _] _]. rewrite forallb_forall in H. auto. Qed.
  Lemma delta_sec t : In t (cs_irr cs) -> isec (delta_of t).
  Proof.
    intros Ht. apply ck_table in Ht. unfold check_table in Ht. rewrite !andb_true_iff in Ht. destruct Ht as [[[[[[H _] _] _] _] _] _].
    unfold delta_of. destruct (it_shift t) as [|s l].
    - rewrite andb_true_iff, Nat.eqb_eq in H. destruct H as [_ H]. split; auto. cbn [List.length]. auto.
    - rewrite !andb_true_iff, Nat.eqb_eq in H. destruct H as [[N _] H]. split; [rewrite map_length; auto|]. intros E. unfold is_none in N. rewrite E in N. discriminate.
  Qed.
  Lemma shift_ok t J : In t (cs_irr cs) -> isec J -> sh_apply (it_shift t) J = Some (vadd (delta_of t) J).
  Proof.
    intros Ht [L N]. apply ck_table in Ht. unfold check_table in Ht. rewrite !andb_true_iff in Ht. destruct Ht as [[[[[[H _] _] _] _] _] _].
    unfold sh_apply, delta_of. destruct (it_shift t) as [|s l].
    - rewrite andb_true_iff in H. destruct H as [H _]. apply String.eqb_eq in H. rewrite (N H). reflexivity.
    - rewrite !andb_true_iff, Nat.eqb_eq in H. destruct H as [[_ P] H]. apply (plain_shift_apply (s :: l) 0); auto. congruence.
  Qed.
  Lemma table_rows t i1 ip e : In t (cs_irr cs) -> In (i1, ip, e) (it_rows t) -> (exists z, e = Some (cN z)) /\ moves cs t ip i1 = true.
  Proof.
    intros Ht Hr. apply ck_table in Ht. unfold check_table in Ht. rewrite !andb_true_iff in Ht. destruct Ht as [[_ H] _]. rewrite forallb_forall in H. apply H in Hr.
    destruct e as [[]|]; try discriminate. eauto.
  Qed.
  Lemma table_range t : In t (cs_irr cs) -> (Z.to_nat (it_ch t) < cs_channels cs)%nat /\ (Z.to_nat (it_fnr t) < per_channel cs)%nat /\ 0 <= it_ch t /\ 0 <= it_fnr t.
  Proof.
    intros Ht. apply ck_table in Ht. unfold check_table in Ht. rewrite !andb_true_iff, !Z.leb_le, !Z.ltb_lt in Ht. lia.
  Qed.
  (** Different tables of the same operator have different shifts. *)
  Lemma table_unique t t' : In t (cs_irr cs) -> In t' (cs_irr cs) -> it_ch t = it_ch t' -> it_fnr t = it_fnr t' -> delta_of t = delta_of t' -> t = t'.
  Proof.
    intros Ht Ht' E1 E2 E3. pose proof (ck_table t Ht) as H. unfold check_table in H. rewrite !andb_true_iff in H. destruct H as [_ H]. apply Nat.eqb_eq in H.
    assert (A : In t (filter (same_table t) (cs_irr cs))).
    { apply filter_In. split; auto. unfold same_table. rewrite !Z.eqb_refl. apply zlist_eqb_eq. reflexivity. }
    assert (B : In t' (filter (same_table t) (cs_irr cs))).
    { apply filter_In. split; auto. unfold same_table. rewrite E1, E2, !Z.eqb_refl. apply zlist_eqb_eq. auto. }
    destruct (filter (same_table t) (cs_irr cs)) as [|a [|b l]]; try discriminate. destruct A as [<-|[]]. destruct B as [<-|[]]. reflexivity.
  Qed.
  Lemma tables_nodup : NoDup (cs_irr cs).
  Proof.
    assert (G : forall l, (forall t, In t l -> Nat.eqb 1 (List.length (filter (same_table t) l)) = true) -> NoDup l).
    { intros l H. apply (NoDup_count_occ' (fun x y => _ : {x = y} + {x <> y})) || idtac.
      induction l as [|a l IH]; constructor.
      - intros Ha. specialize (H a (or_introl eq_refl)). apply Nat.eqb_eq in H. cbn [filter] in H.
        assert (R : same_table a a = true) by (unfold same_table; rewrite !Z.eqb_refl; apply zlist_eqb_eq; reflexivity). rewrite R in H. cbn [List.length] in H.
        assert (In a (filter (same_table a) l)) by (apply filter_In; auto). destruct (filter (same_table a) l); [contradiction|]. discriminate.
      - apply IH. intros t Ht. specialize (H t (or_intror Ht)). apply Nat.eqb_eq in H. apply Nat.eqb_eq. cbn [filter] in H. destruct (same_table t a) eqn:E; [|auto].
        cbn [List.length] in H. exfalso. assert (In t (filter (same_table t) l)).
        { apply filter_In. split; auto. unfold same_table. rewrite !Z.eqb_refl. apply zlist_eqb_eq. reflexivity. }
        destruct (filter (same_table t) l); [contradiction|]. discriminate. }
    apply G. intros t Ht. apply ck_table in Ht. unfold check_table in Ht. rewrite !andb_true_iff in Ht. apply Ht.
  Qed.
  (** i = t j for local states: the ancestors are connected by the operator. *)
  Lemma moves_spec t i j : moves cs t i j = true -> exists a b, i = Z.of_nat (S a) /\ j = Z.of_nat (S b) /\ (a < d)%nat /\ (b < d)%nat /\ Ind a = vadd (delta_of t) (Ind b).
  Proof.
    unfold moves, in_range. rewrite !andb_true_iff, !Z.leb_le, zlist_eqb_eq. fold d. intros [[Hi Hj] E]. unfold In_of in E.
    exists (Z.to_nat (i - 1)), (Z.to_nat (j - 1)). unfold Ind. repeat split; auto; lia.
  Qed.
  Lemma moves_anc t a b J : In t (cs_irr cs) -> (a < d)%nat -> (b < d)%nat -> Ind a = vadd (delta_of t) (Ind b) -> isec J ->
    sh_apply (it_shift t) (anc b J) = Some (anc a J).
  Proof.
    intros Ht Ha Hb E HJ. rewrite shift_ok by (auto using anc_sec). f_equal. unfold anc. rewrite E. apply vadd_assoc; apply sec_len; auto using delta_sec, Ind_sec.
  Qed.
  (** Selection rule for the operators of the new site: rows of a table. *)
  Lemma moves_child t a b J' : In t (cs_irr cs) -> (a < d)%nat -> (b < d)%nat -> Ind b = vadd (delta_of t) (Ind a) -> isec J' ->
    exists J, sh_apply (it_shift t) J' = Some J /\ isec J /\ anc a J = anc b J'.
  Proof.
    intros Ht Ha Hb E HJ. exists (vadd (delta_of t) J'). split; [apply shift_ok; auto|]. split; [apply vadd_sec; auto using delta_sec|].
    unfold anc. rewrite E. rewrite vadd_assoc by (apply sec_len; auto using delta_sec, Ind_sec). f_equal. apply vadd_comm.
  Qed.

  (** Lines. *)
  Lemma ck_lines : check_lines cs m = true.
  Proof. unfold check in Hck. rewrite !andb_true_iff in Hck. tauto. Qed.
  Lemma off_lines i j ch fnr n e : In (i, j, ch, fnr, n, e) (mo_off m) -> i <> j /\ exists t, In t (cs_irr cs) /\ it_ch t = ch /\ it_fnr t = fnr /\ moves cs t i j = true.
  Proof.
    intros H. pose proof ck_lines as G. unfold check_lines in G. rewrite !andb_true_iff in G. destruct G as [[G _] _]. rewrite forallb_forall in G. apply G in H.
    rewrite !andb_true_iff in H. destruct H as [[[H1 _] _] H2]. split; [intros ->; rewrite Z.eqb_refl in H1; discriminate|].
    apply existsb_exists in H2 as (t & Ht & H2). rewrite !andb_true_iff, !Z.eqb_eq in H2. exists t. tauto.
  Qed.
  Lemma diag_lines i ch n e : In (i, ch, n, e) (mo_diag m) -> in_range d i = true.
  Proof.
    intros H. pose proof ck_lines as G. unfold check_lines in G. rewrite !andb_true_iff in G. destruct G as [[_ G] _]. rewrite forallb_forall in G. apply G in H. exact H.
  Qed.
  Lemma dof_lines i j ch n e : In (i, j, ch, n, e) (mo_dof m) -> in_range d i = true /\ in_range d j = true /\ In_of cs i = In_of cs j.
  Proof.
    intros H. pose proof ck_lines as G. unfold check_lines in G. rewrite !andb_true_iff in G. destruct G as [_ G]. rewrite forallb_forall in G. apply G in H.
    rewrite !andb_true_iff, zlist_eqb_eq in H. tauto.
  Qed.
  (** Terms. *)
  Lemma ck_terms : check_terms cs se = true.
  Proof. unfold check in Hck. rewrite !andb_true_iff in Hck. tauto. Qed.
  Lemma hop_rows s t t' i1 ip z : In (s, t, t') (hops cs se) -> In (i1, ip, z) (rows_of t') -> moves cs t ip i1 = true.
  Proof.
    intros H Hr. pose proof ck_terms as G. unfold check_terms in G. rewrite !andb_true_iff in G. destruct G as [[G _] _]. rewrite forallb_forall in G. apply G in H.
    rewrite forallb_forall in H. exact (H _ Hr).
  Qed.
  Lemma pair_hop_rows w s t t' i1 ip z : In (w, s, t, t') (pair_hops cs) -> In (i1, ip, z) (rows_of t') -> moves cs t i1 ip = true.
  Proof.
    intros H Hr. pose proof ck_terms as G. unfold check_terms in G. rewrite !andb_true_iff in G. destruct G as [[_ G] _]. rewrite forallb_forall in G. apply G in H.
    rewrite forallb_forall in H. exact (H _ Hr).
  Qed.
  Lemma loc_keys i j s c f w : In ((i, j, s, c, f), w) (spec_loc cs se) -> in_range d j = true /\ In_of cs i = In_of cs j.
  Proof.
    intros H. pose proof ck_terms as G. unfold check_terms in G. rewrite !andb_true_iff in G. destruct G as [_ G]. rewrite forallb_forall in G. apply G in H.
    cbn [fst] in H. rewrite andb_true_iff, zlist_eqb_eq in H. exact H.
  Qed.
  Lemma pairs_in f t t' : In (t, t') (pairs cs f) -> In t (cs_irr cs) /\ In t' (cs_irr cs) /\ f t t' = true.
  Proof.
    unfold pairs. intros H. apply in_flat_map in H as (x & Hx & H). apply in_map_iff in H as (y & E & Hy). injection E as -> ->. apply filter_In in Hy. tauto.
  Qed.
  Lemma hops_in s t t' : In (s, t, t') (hops cs se) -> In t (cs_irr cs) /\ In t' (cs_irr cs).
  Proof.
    unfold hops. intros H. apply in_app_or in H as [H|H].
    - apply in_map_iff in H as (x & E & H). injection E as _ -> ->. auto.
    - destruct se; try contradiction.
      + apply in_app_or in H as [H|H]; apply in_map_iff in H as ([x y] & E & H); injection E as _ -> ->; apply pairs_in in H; tauto.
      + apply in_map_iff in H as ([x y] & E & H); injection E as _ -> ->; apply pairs_in in H; tauto.
  Qed.
  Lemma pair_hops_in w s t t' : In (w, s, t, t') (pair_hops cs) -> In t (cs_irr cs) /\ In t' (cs_irr cs).
  Proof.
    unfold pair_hops. destruct (String.eqb _ _); [|contradiction]. intros H.
    apply in_app_or in H as [H|H]; apply in_map_iff in H as ([x y] & E & H); injection E as _ _ -> ->; apply pairs_in in H; tauto.
  Qed.
  Lemma levels_in w s t : In (w, s, t) (levels cs se) -> In t (cs_irr cs).
  Proof. unfold levels. intros H. apply in_map_iff in H as (x & E & H). injection E as _ _ ->. auto. Qed.
  Lemma mixings_in s t t' : In (s, t, t') (mixings cs se) -> In t (cs_irr cs) /\ In t' (cs_irr cs).
  Proof. unfold mixings. destruct se; try contradiction; intros H; apply in_map_iff in H as ([x y] & E & H); injection E as _ -> ->; apply pairs_in in H; tauto. Qed.
  Lemma pairings_in s t t' : In (s, t, t') (pairings cs) -> In t (cs_irr cs) /\ In t' (cs_irr cs).
  Proof. unfold pairings. destruct (existsb _ _); [|contradiction]. intros H; apply in_map_iff in H as ([x y] & E & H); injection E as _ -> ->; apply pairs_in in H; tauto. Qed.
  (** Weights. *)
  Lemma ck_weights : exists a b c, prog_off cs m = Some a /\ prog_diag cs m = Some b /\ prog_dof cs m = Some c /\
    same_in_buckets d a (spec_off cs se (signs cs)) = true /\ same_in_buckets d (b ++ List.concat c) (spec_loc cs se) = true.
  Proof.
    assert (H : check_weights cs se m = true) by (unfold check in Hck; rewrite !andb_true_iff in Hck; tauto). unfold check_weights in H.
    destruct (prog_off cs m) as [a|]; [|discriminate]. destruct (prog_diag cs m) as [b|]; [|discriminate]. destruct (prog_dof cs m) as [c|]; [|discriminate].
    rewrite andb_true_iff in H. exists a, b, c. tauto.
  Qed.
  Lemma ck_car : check_car cs = true. Proof. unfold check in Hck. rewrite !andb_true_iff in Hck. tauto. Qed.
  Lemma ck_signs : check_signs cs = true. Proof. unfold check in Hck. rewrite !andb_true_iff in Hck. tauto. Qed.
End Facts.
