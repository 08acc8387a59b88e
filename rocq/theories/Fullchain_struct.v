(** The sectors of a step for the types considered: every ancestor contributes. *)
From Coq Require Import List ZArith Bool String Lia Permutation Sorted.
From Verif Require Import Base Invar_model Invar_spec Invar_proofs Symmetry_model Symmetry_spec Symmetry_tables Symmetry_proofs Symmetry_factor Symmetry_dim
  Subspaces_model Subspaces_proofs Subspaces_step Density_model Density_struct Hamilton_pos Coef_model Coef_tables Fullchain_terms Fullchain_check Fullchain_facts.
Import ListNotations.
Local Open Scope string_scope.
Local Open Scope list_scope.
Local Open Scope Z_scope.

Definition matches (cs : coef_set) (sh : shipped_table) : Prop :=
  sh_sym sh = cs_sym cs /\ sh_tab sh = cs_tab cs /\ sh_combs sh = List.length (tb_In (cs_tab cs)).

Ltac pick_shipped cs :=
  match eval cbv [shipped] in shipped with
  | context [?x :: _] =>
      let n := eval cbv in (sh_name x) in let c := eval cbv in (sh_channels x) in
      let n' := eval cbv in (cs_name cs) in let c' := eval cbv in (cs_channels cs) in
      unify n n'; unify c c'; exists x
  end.
Lemma coef_shipped cs se : In cs all_coef -> is_considered cs se = true -> exists sh, In sh shipped /\ matches cs sh.
Proof.
  intros H Hc.
  assert (Hs : existsb (is_considered cs) [Plain; Polarized; Pol2x2; Rungs] = true) by (apply existsb_exists; exists se; split; auto; destruct se; cbn; auto).
  clear Hc se. unfold all_coef in H. cbn [In] in H.
  repeat match type of H with _ \/ _ => destruct H as [H|H] end; try contradiction; subst cs; try (vm_compute in Hs; discriminate); clear Hs;
  match goal with |- exists sh, In sh shipped /\ matches ?c sh => pick_shipped c end; (split; [unfold shipped; cbn [In]; repeat (try (left; reflexivity); right)|split; [reflexivity|split; reflexivity]]).
Qed.

Lemma all_ones {A} (f : A -> Z) l : (forall x, In x l -> f x <= 1) -> zsum (map f l) = Z.of_nat (List.length l) -> forall x, In x l -> f x = 1.
Proof.
  assert (B : forall l, (forall x, In x l -> f x <= 1) -> zsum (map f l) <= Z.of_nat (List.length l)).
  { clear. induction l as [|a l IH]; intros H; [cbn; lia|]. cbn [map zsum fold_right List.length]. fold (zsum (map f l)). pose proof (H a (or_introl eq_refl)).
    specialize (IH (fun x Hx => H x (or_intror Hx))). lia. }
  induction l as [|a l IH]; intros H E x [].
  - subst a. cbn [map zsum fold_right List.length] in E. fold (zsum (map f l)) in E. pose proof (H x (or_introl eq_refl)). pose proof (B l (fun y Hy => H y (or_intror Hy))). lia.
  - apply IH; auto. intros y Hy; apply H; right; auto.
    cbn [map zsum fold_right List.length] in E. fold (zsum (map f l)) in E. pose proof (H a (or_introl eq_refl)). pose proof (B l (fun y Hy => H y (or_intror Hy))). lia.
Qed.
Lemma map_nth_seq {A B} (f : A -> B) (l : list A) (x : A) : map f l = map (fun i => f (nth i l x)) (seq 0 (List.length l)).
Proof.
  induction l as [|a l IH]; [reflexivity|]. cbn [List.length seq map]. f_equal. rewrite <- seq_shift, map_map. rewrite IH. reflexivity.
Qed.

Section Struct.
  Variables (cs : coef_set) (se : setting) (m : mode) (sh : shipped_table).
  Hypothesis Hck : check cs se m = true.
  Hypothesis Hsh : In sh shipped.
  Hypothesis Hma : matches cs sh.
  Let sy := sh_sym sh.
  Let tl := ts sy.
  Let t := sh_tab sh.
  Let d := List.length (tb_In (cs_tab cs)).
  Notation anc := (anc cs). Notation child := (child cs). Notation isec := (isec cs).

  Lemma m_sym : sh_sym sh = cs_sym cs. Proof. apply Hma. Qed.
  Lemma m_tab : sh_tab sh = cs_tab cs. Proof. apply Hma. Qed.
  Lemma m_combs : sh_combs sh = d. Proof. apply Hma. Qed.
  Lemma len_QN : List.length (tb_QN (cs_tab cs)) = d.
  Proof. rewrite <- m_tab, <- m_combs. apply (shipped_ok sh Hsh). Qed.
  Lemma degeneracy_one J : degeneracy (cs_sym cs) J = 1.
  Proof. destruct (ck_sym cs se m Hck) as [E _]. unfold degeneracy, mult. rewrite E. reflexivity. Qed.
  Lemma sec_adm J : isec J -> admissible (ts (cs_sym cs)) J.
  Proof. apply (isec_adm cs se m Hck). Qed.
  Lemma ancp_is i J : (i < d)%nat -> isec J -> ancp sh (Ind cs i) J = anc i J.
  Proof.
    intros Hi HJ. unfold ancp, Fullchain_facts.anc. rewrite m_sym. destruct (ck_sym cs se m Hck) as (_ & A & _). apply additive_comb; auto.
    - rewrite tl_length. apply (Ind_sec cs se m Hck i Hi).
    - rewrite tl_length. apply HJ.
  Qed.
  Lemma newp_is i J : (i < d)%nat -> isec J -> newp sh (Ind cs i) J = child i J.
  Proof.
    intros Hi HJ. unfold newp, Fullchain_facts.child. rewrite m_sym. destruct (ck_sym cs se m Hck) as (_ & A & _).
    rewrite additive_inv; auto; [|rewrite tl_length; apply (Ind_sec cs se m Hck i Hi)]. apply additive_comb; auto.
    - rewrite tl_length, vopp_length. apply (Ind_sec cs se m Hck i Hi).
    - rewrite tl_length. apply HJ.
  Qed.
  Lemma coupled_all i J q : (i < d)%nat -> isec J -> nth_error (tb_QN (cs_tab cs)) i = Some q ->
    Symmetry_spec.coupled (cs_sym cs) J (anc i J) q = true /\ is_allowed (cs_sym cs) J = true.
  Proof.
    intros Hi HJ Hq. assert (HA : isec (anc i J)) by (apply (anc_sec cs se m Hck); auto).
    assert (D := dim_conserved sh (anc i J) Hsh). rewrite m_sym, m_tab, m_combs in D. specialize (D (isec_multiplet cs se m Hck _ HA)).
    rewrite degeneracy_one, Z.mul_1_r in D.
    set (f := fun dq : invar * invar => received (cs_sym cs) (anc i J) (combp (ts (cs_sym cs)) (invp (ts (cs_sym cs)) (fst dq)) (anc i J)) (snd dq)) in D.
    assert (L : List.length (List.combine (tb_In (cs_tab cs)) (tb_QN (cs_tab cs))) = d) by (rewrite combine_length, len_QN; unfold d; lia).
    rewrite <- L in D. assert (O := all_ones f _ ltac:(intros x _; unfold f, received; rewrite degeneracy_one; destruct (_ && _); lia) D).
    specialize (O (Ind cs i, q)). unfold f in O. cbn [fst snd] in O.
    assert (X : In (Ind cs i, q) (List.combine (tb_In (cs_tab cs)) (tb_QN (cs_tab cs)))).
    { apply nth_error_In with (n := i). apply nth_combine; auto. unfold Ind. apply nth_error_nth'. exact Hi. }
    specialize (O X). pose proof (newp_is i (anc i J) Hi HA) as E. unfold newp in E. rewrite m_sym in E. rewrite E in O.
    rewrite (child_anc cs se m Hck) in O by auto. unfold received in O. rewrite degeneracy_one in O.
    destruct (is_allowed (cs_sym cs) J), (Symmetry_spec.coupled (cs_sym cs) J (anc i J) q); cbn in O; auto; lia.
  Qed.
  Lemma nth_QN i : (i < d)%nat -> exists q, nth_error (tb_QN (cs_tab cs)) i = Some q.
  Proof. intros Hi. destruct (nth_error (tb_QN (cs_tab cs)) i) eqn:E; [eauto|]. apply nth_error_None in E. rewrite len_QN in E. lia. Qed.
  Lemma allowed_all J : isec J -> is_allowed (cs_sym cs) J = true.
  Proof. intros HJ. destruct (ck_sym cs se m Hck) as (_ & _ & P & _). destruct (nth_QN 0 P) as [q Hq]. apply (coupled_all 0 J q); auto. Qed.

  Variable dp : sizes.
  Hypothesis Hnodup : NoDup (map fst dp).
  Hypothesis Hsec : forall J n, In (J, n) dp -> isec J /\ 0 <= n.
  Definition anclist (J : invar) : list invar := map (fun i => anc i J) (seq 0 d).
  Definition dimlist (J : invar) : list Z := map (fun i => size_p dp (anc i J)) (seq 0 d).
  Definition entry (J : invar) : invar * subdims := (J, {| sd_dims := dimlist J; sd_anc := anclist J |}).

  Lemma ancestors_is J : isec J -> ancestors (cs_sym cs) d (cs_tab cs) J = Ok (anclist J).
  Proof.
    intros HJ. destruct (shipped_ok sh Hsh) as (L1 & L2 & A1 & _). rewrite m_sym, m_tab, m_combs in *.
    rewrite (ancestors_pure (cs_sym cs) d (cs_tab cs) L1 L2 A1 J (sec_adm J HJ)). f_equal. unfold anclist.
    rewrite (map_nth_seq _ (tb_In (cs_tab cs)) []). apply map_ext_in. intros i Hi. apply in_seq in Hi.
    pose proof (ancp_is i J ltac:(unfold d; lia) HJ) as E. unfold ancp, Ind in E. rewrite m_sym in E. exact E.
  Qed.
  Lemma prev_adm' : Forall (admissible (ts (sh_sym sh))) (map fst dp).
  Proof. apply Forall_forall. intros J HJ. apply in_map_iff in HJ as ([K n] & <- & H). rewrite m_sym. apply sec_adm. apply Hsec in H. apply H. Qed.
  Lemma new_is : exists new, new_subspaces_all (cs_sym cs) d (cs_tab cs) (map fst dp) [] = Ok new /\ NoDup new /\
    (forall J, In J new <-> exists K i, In K (map fst dp) /\ (i < d)%nat /\ J = child i K) /\ forall J, In J new -> isec J.
  Proof.
    destruct (new_all_pure sh Hsh (map fst dp) prev_adm' [] ltac:(constructor) ltac:(constructor)) as (new & En & Hs & Ha & Hm).
    rewrite m_sym, m_tab, m_combs in *.
    assert (M : forall J, In J new <-> exists K i, In K (map fst dp) /\ (i < d)%nat /\ J = child i K).
    { intros J. rewrite Hm. split.
      - intros [[]|(K & x & HK & Hx & E & _)]. apply In_nth with (d := []) in Hx as (i & Hi & Ex). exists K, i. split; auto. split; auto.
        apply in_map_iff in HK as ([K' n] & EK & HK). cbn [fst] in EK. subst K'. rewrite E, <- Ex. apply newp_is; auto. apply Hsec in HK. apply HK.
      - intros (K & i & HK & Hi & ->). right. exists K, (Ind cs i). split; auto. apply in_map_iff in HK as ([K' n] & EK & HK). cbn [fst] in EK. subst K'.
        apply Hsec in HK as [HK _]. split; [apply nth_In; auto|]. split; [symmetry; apply newp_is; auto|]. apply allowed_all. apply (child_sec cs se m Hck); auto. }
    exists new. split; [exact En|]. split; [apply sorted_NoDup; auto|]. split; [exact M|].
    intros J HJ. apply M in HJ as (K & i & HK & Hi & ->). apply in_map_iff in HK as ([K' n] & EK & HK). cbn [fst] in EK. subst K'.
    apply (child_sec cs se m Hck); auto. apply Hsec in HK. apply HK.
  Qed.
  Lemma size_in A n : In (A, n) dp -> size_p dp A = n.
  Proof. intros H. unfold size_p. rewrite (find_key _ _ _ Hnodup H). reflexivity. Qed.

  (** A step that is set up at all has no sector with too many states. *)
  Lemma sizes_small st : mk_structure (cs_sym cs) d (cs_tab cs) dp = Ok st -> forall A n, In (A, n) dp -> 0 <= n <= 1000000.
  Proof.
    intros H A n HA. destruct new_is as (new & En & _ & M & S). unfold mk_structure in H. rewrite En in H. cbn [bind] in H.
    destruct (ck_sym cs se m Hck) as (_ & _ & P & _). assert (HsA : isec A) by (apply (Hsec _ _ HA)).
    set (J := child 0 A). assert (HJ : isec J) by (apply (child_sec cs se m Hck); auto).
    assert (HJn : In J new) by (apply M; exists A, 0%nat; split; [apply (in_map fst) in HA; exact HA|auto]).
    apply mapM_Ok_inv in H. assert (X : exists y, (let* anc := ancestors (cs_sym cs) d (cs_tab cs) J in let* dd := mk_subdims (cs_sym cs) d (cs_tab cs) dp J anc in Ok (J, dd)) = Ok y).
    { clear -H HJn. induction H; [contradiction|]. destruct HJn as [->|X]; eauto. }
    destruct X as [y X]. rewrite ancestors_is in X by auto. cbn [bind] in X. unfold mk_subdims in X.
    unfold anclist in X. change d with (List.length (tb_In (cs_tab cs))) in X at 2. fold d in P. destruct d as [|d'] eqn:Ed; [lia|]. fold d in X. rewrite Ed in X. cbn [seq map dims_of] in X.
    destruct (nth_QN 0) as [q Hq]; [lia|]. unfold QN_subspace in X. cbn [Nat.ltb Nat.leb my_assert bind] in X. rewrite Hq in X. cbn [bind] in X.
    assert (EA : anc 0 J = A) by (apply (anc_child cs se m Hck); auto; fold d; lia).
    destruct (coupled_all 0 J q ltac:(lia) HJ Hq) as [Ec _].
    assert (Et : triangle (cs_sym cs) J (anc 0 J) q = Ok true).
    { destruct (tri_total sh Hsh J (Ind cs 0) q) as [Et _].
      - rewrite m_sym. apply sec_adm; auto.
      - rewrite m_sym. apply sec_adm. apply (Ind_sec cs se m Hck). fold d; lia.
      - destruct (shipped_ok sh Hsh) as (_ & _ & _ & A2). rewrite Forall_forall in A2. rewrite m_tab in A2. apply A2. eapply nth_error_In; eauto.
      - rewrite ancp_is in Et by (auto; lia). rewrite m_sym in Et. rewrite Et, Ec. reflexivity. }
    rewrite Et, EA in X. cbn [bind orb] in X. unfold size_subspace in X. fold (size_p dp A) in X. rewrite (size_in _ _ HA) in X.
    destruct ((0 <=? n) && (n <=? 1000000)) eqn:E; [|discriminate]. apply andb_true_iff in E. rewrite !Z.leb_le in E. exact E.
  Qed.

  Hypothesis Hsmall : forall J n, In (J, n) dp -> 0 <= n <= 1000000.
  Lemma Hdp' : forall J n, In (J, n) dp -> multiplet (sh_sym sh) J /\ 0 <= n <= 1000000.
  Proof. intros J n H. split; [rewrite m_sym; apply (isec_multiplet cs se m Hck); apply (Hsec _ _ H)|eauto]. Qed.
  Lemma dims_is J : isec J -> dims_p sh dp J = dimlist J.
  Proof.
    intros HJ. unfold dims_p, dimlist. rewrite (map_nth_seq (dimf sh dp J) (List.combine (tb_In (sh_tab sh)) (tb_QN (sh_tab sh))) ([] : invar, [] : invar)). rewrite combine_length, m_tab, len_QN. fold d. rewrite Nat.min_id.
    apply map_ext_in. intros i Hi. apply in_seq in Hi. destruct (nth_QN i) as [q Hq]; [lia|].
    assert (E : nth i (List.combine (tb_In (cs_tab cs)) (tb_QN (cs_tab cs))) ([] : invar, [] : invar) = (Ind cs i, q)).
    { apply nth_error_nth. apply nth_combine; auto. apply nth_error_nth'. fold d; lia. }
    rewrite ?m_tab. unfold invar in *. rewrite E. unfold dimf. cbn [fst snd]. rewrite ancp_is by (auto; lia). rewrite m_sym. destruct (coupled_all i J q ltac:(lia) HJ Hq) as [-> _]. reflexivity.
  Qed.
  Lemma subdims_is J : isec J -> mk_subdims (cs_sym cs) d (cs_tab cs) dp J (anclist J) = Ok (snd (entry J)).
  Proof.
    intros HJ. destruct (subdims_pure sh Hsh dp Hdp' J) as (a & E1 & E2); [rewrite m_sym; apply sec_adm; auto|].
    rewrite m_sym, m_tab, m_combs in *. rewrite ancestors_is in E1 by auto. injection E1 as <-. rewrite E2, dims_is by auto. reflexivity.
  Qed.
  Lemma structure_is : exists new, mk_structure (cs_sym cs) d (cs_tab cs) dp = Ok (map entry new) /\ NoDup new /\
    (forall J, In J new <-> exists K i, In K (map fst dp) /\ (i < d)%nat /\ J = child i K) /\ forall J, In J new -> isec J.
  Proof.
    destruct new_is as (new & En & N & M & S). exists new. split; [|auto]. unfold mk_structure. rewrite En. cbn [bind]. apply mapM_ok.
    intros J HJ. rewrite ancestors_is by auto. cbn [bind]. rewrite subdims_is by auto. reflexivity.
  Qed.
  Lemma size_pos A : 0 < size_p dp A -> In (A, size_p dp A) dp.
  Proof. unfold size_p. destruct (find _ dp) as [[K n]|] eqn:E; [|lia]. apply find_some in E as [E1 E2]. cbn [fst] in E2. apply invar_eqb_eq in E2. subst. auto. Qed.
  Lemma size_nonneg A : 0 <= size_p dp A <= 1000000.
  Proof. apply (size_ok sh Hsh dp Hdp'). Qed.
  Lemma good_dims J : isec J -> good (dimlist J).
  Proof.
    intros HJ. rewrite <- dims_is by auto. pose proof (dims_p_bounds sh Hsh dp Hdp' J) as B. pose proof (combs_small sh Hsh) as CS.
    assert (L : List.length (dims_p sh dp J) = sh_combs sh) by (rewrite dims_is by auto; unfold dimlist; rewrite map_length, seq_length; symmetry; apply m_combs).
    split; [intros x Hx; apply B in Hx; lia|]. split.
    - pose proof (zsum_bound (dims_p sh dp J) 1000000 ltac:(lia) (fun x Hx => proj2 (B x Hx))) as Z. rewrite L in Z. change (2 ^ 31) with 2147483648. lia.
    - rewrite L. unfold two64. change (2 ^ 64) with 18446744073709551616. lia.
  Qed.
  Lemma total_is J : isec J -> dims_total (dimlist J) = zsum (dimlist J).
  Proof. intros HJ. rewrite <- dims_is by auto. apply (dims_p_total sh Hsh dp Hdp'). Qed.
  Lemma dimlist_length J : List.length (dimlist J) = d.
  Proof. unfold dimlist. rewrite map_length, seq_length. reflexivity. Qed.
  Lemma anclist_length J : List.length (anclist J) = d.
  Proof. unfold anclist. rewrite map_length, seq_length. reflexivity. Qed.
  Lemma nth_anclist J i : (i < d)%nat -> nth_error (anclist J) i = Some (anc i J).
  Proof. intros Hi. unfold anclist. rewrite nth_error_map, nth_error_nth' with (d := 0%nat) by (rewrite seq_length; auto). rewrite seq_nth by auto. reflexivity. Qed.
  Lemma nth_dimlist J i : (i < d)%nat -> nth i (dimlist J) 0 = size_p dp (anc i J).
  Proof.
    intros Hi. apply nth_error_nth. unfold dimlist. rewrite nth_error_map, nth_error_nth' with (d := 0%nat) by (rewrite seq_length; auto). rewrite seq_nth by auto. reflexivity.
  Qed.
  Lemma tasks_are st : mk_structure (cs_sym cs) d (cs_tab cs) dp = Ok st -> NoDup (task_list st) /\
    (forall J, In J (task_list st) <-> isec J /\ exists i, (i < d)%nat /\ 0 < size_p dp (anc i J)) /\
    (forall J, In J (task_list st) -> lookup st J = Some {| sd_dims := dimlist J; sd_anc := anclist J |} /\ 0 < zsum (dimlist J)).
  Proof.
    intros H. destruct structure_is as (new & E & N & M & S). rewrite E in H. injection H as <-.
    assert (K : map fst (map entry new) = new) by (rewrite map_map; apply map_id).
    assert (ND : NoDup (map fst (map entry new))) by (rewrite K; auto).
    destruct (task_list_spec _ ND) as (T1 & T2 & _). split; [exact T1|].
    assert (T : forall J, In J (task_list (map entry new)) <-> isec J /\ exists i, (i < d)%nat /\ 0 < size_p dp (anc i J)).
    { intros J. rewrite T2. split.
      - intros (dd & Hin & Hne). apply in_map_iff in Hin as (J' & EJ & Hin). injection EJ as -> <-. cbn [sd_dims] in Hne. pose proof (S _ Hin) as HJ.
        split; auto. rewrite total_is in Hne by auto.
        destruct (existsb (fun i => 0 <? size_p dp (anc i J)) (seq 0 d)) eqn:Ex.
        + apply existsb_exists in Ex as (i & Hi & Hp). apply in_seq in Hi. apply Z.ltb_lt in Hp. exists i. split; [lia|auto].
        + exfalso. apply Hne. apply zsum_map_zero. intros i Hi. pose proof (size_nonneg (anc i J)). destruct (0 <? size_p dp (anc i J)) eqn:Ep.
          * assert (existsb (fun i => 0 <? size_p dp (anc i J)) (seq 0 d) = true) by (apply existsb_exists; eauto). congruence.
          * apply Z.ltb_ge in Ep. lia.
      - intros (HJ & i & Hi & Hp). exists (snd (entry J)). split.
        + apply in_map_iff. exists J. split; [reflexivity|]. apply M. exists (anc i J), i. split; [apply size_pos in Hp; apply (in_map fst) in Hp; exact Hp|].
          split; auto. symmetry. apply (child_anc cs se m Hck); auto.
        + cbn [entry snd sd_dims]. rewrite total_is by auto. pose proof (firstn_le (dimlist J) (good_dims J HJ) (Datatypes.S i)).
          rewrite firstn_step in H. pose proof (firstn_nonneg (dimlist J) (good_dims J HJ) i). rewrite nth_dimlist in H by auto. lia. }
    split; [exact T|]. intros J HJ. pose proof (proj1 (T2 J) HJ) as (dd & Hin & Hne). assert (Hin' := Hin). apply in_map_iff in Hin as (J' & EJ & Hin). injection EJ as -> <-.
    split; [unfold lookup; rewrite (find_key _ _ _ ND Hin'); reflexivity|]. apply T in HJ as (HJ & i & Hi & Hp).
    pose proof (firstn_le (dimlist J) (good_dims J HJ) (Datatypes.S i)). rewrite firstn_step in H. pose proof (firstn_nonneg (dimlist J) (good_dims J HJ) i). rewrite nth_dimlist in H by auto. lia.
  Qed.
End Struct.
