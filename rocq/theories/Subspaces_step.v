(** C04: a whole NRG step conserves the number of states. *)
From Coq Require Import List ZArith Lia Bool String Permutation Sorted.
From Verif Require Import Base Invar_model Invar_spec Invar_proofs Symmetry_model Symmetry_spec Symmetry_tables
  Symmetry_proofs Symmetry_factor Symmetry_dim Subspaces_model Subspaces_proofs.
Import ListNotations.
Local Open Scope Z_scope.

Definition ltP (a b : invar) : Prop := invar_ltb a b = true.

Lemma set_insert_in x y s : In y (set_insert x s) <-> y = x \/ In y s.
Proof.
  induction s as [|z s IH]; cbn [set_insert].
  - simpl; intuition congruence.
  - destruct (invar_ltb x z) eqn:E1; [simpl; intuition congruence|].
    destruct (invar_ltb z x) eqn:E2.
    + cbn [In]. rewrite IH. tauto.
    + assert (x = z).
      { destruct (list_eq_dec Z.eq_dec x z); auto. destruct (invar_ltb_total x z n); congruence. }
      subst. simpl. intuition congruence.
Qed.

Lemma set_insert_sorted x s : StronglySorted ltP s -> StronglySorted ltP (set_insert x s).
Proof.
  induction s as [|z s IH]; cbn [set_insert]; intros Hs; [repeat constructor|].
  destruct (invar_ltb x z) eqn:E1.
  - constructor; auto. inversion Hs; subst. constructor; auto. eapply Forall_impl; [|eassumption].
    intros a Ha. eapply invar_ltb_trans; eauto.
  - destruct (invar_ltb z x) eqn:E2; auto. inversion Hs; subst. constructor; auto.
    apply Forall_forall. intros a Ha. apply set_insert_in in Ha as [->|Ha]; auto. rewrite Forall_forall in H2. auto.
Qed.

Lemma set_fold_in ne s y : In y (fold_left (fun s x => set_insert x s) ne s) <-> In y ne \/ In y s.
Proof.
  revert s; induction ne as [|x ne IH]; intros s; cbn [fold_left]; [simpl; tauto|].
  rewrite IH, set_insert_in. simpl. intuition congruence.
Qed.
Lemma set_fold_sorted ne s : StronglySorted ltP s -> StronglySorted ltP (fold_left (fun s x => set_insert x s) ne s).
Proof. revert s; induction ne; intros s Hs; cbn [fold_left]; auto. apply IHne. apply set_insert_sorted; auto. Qed.

Lemma sorted_NoDup s : StronglySorted ltP s -> NoDup s.
Proof.
  induction 1 as [|a l Hs IH Hf]; constructor; auto. intros Hin. rewrite Forall_forall in Hf. specialize (Hf _ Hin).
  unfold ltP in Hf. rewrite invar_ltb_irrefl in Hf. discriminate.
Qed.

Lemma filterM_ok {A} (f : A -> res bool) (g : A -> bool) l : (forall x, In x l -> f x = Ok (g x)) -> filterM f l = Ok (filter g l).
Proof. induction l; cbn [filterM filter]; intros H; auto. rewrite H by (left; auto). cbn [bind]. rewrite IHl by (intros; apply H; right; auto). cbn [bind]. destruct (g a); auto. Qed.

Definition size_p (dp : sizes) (J : invar) : Z := match find (fun p => invar_eqb (fst p) J) dp with Some (_, n) => n | None => 0 end.

Lemma size_p_sum dp A : NoDup (map fst dp) -> size_p dp A = zsum (map (fun p => if invar_eqb (fst p) A then snd p else 0) dp).
Proof.
  unfold size_p. induction dp as [|[J n] dp IH]; cbn [map fst snd find]; intros Hn; auto.
  inversion Hn; subst. change (zsum ((if invar_eqb J A then n else 0) :: ?l)) with ((if invar_eqb J A then n else 0) + zsum l).
  cbn [zsum fold_right]. fold (zsum (map (fun p : invar * Z => if invar_eqb (fst p) A then snd p else 0) dp)).
  destruct (invar_eqb J A) eqn:E.
  - apply invar_eqb_eq in E. subst. rewrite zsum_map_zero; [lia|]. intros [K m] Hin. cbn [fst snd].
    destruct (invar_eqb K A) eqn:E; auto. apply invar_eqb_eq in E. subst. exfalso. apply H1. apply (in_map fst) in Hin. exact Hin.
  - rewrite IH by auto. lia.
Qed.

  Lemma zsum_bound l b : 0 <= b -> (forall x, In x l -> x <= b) -> zsum l <= Z.of_nat (List.length l) * b.
  Proof.
    intros Hb; induction l as [|a l IH]; intros H; [cbn; lia|]. specialize (IH (fun x Hx => H x (or_intror Hx))).
    pose proof (H a (or_introl eq_refl)). cbn [zsum fold_right List.length]. fold (zsum l). lia.
  Qed.

Section Step.
  Variable sh : shipped_table.
  Hypothesis Hsh : In sh shipped.
  Let sy := sh_sym sh.
  Let tl := ts sy.
  Let t := sh_tab sh.
  Let combs := sh_combs sh.
  Variable dp : sizes.
  Hypothesis Hnodup : NoDup (map fst dp).
  Hypothesis Hdp : forall J n, In (J, n) dp -> multiplet sy J /\ 0 <= n <= 1000000.

  Let L1 : List.length (tb_In t) = combs. Proof. apply (shipped_ok sh Hsh). Qed.
  Let L2 : List.length (tb_QN t) = combs. Proof. apply (shipped_ok sh Hsh). Qed.
  Let A1 : Forall (admissible tl) (tb_In t). Proof. apply (shipped_ok sh Hsh). Qed.
  Let A2 : Forall (admissible tl) (tb_QN t). Proof. apply (shipped_ok sh Hsh). Qed.
  Let F : factorises sy. Proof. apply (shipped_fac sh Hsh). Qed.

  Definition newp (d J : invar) : invar := combp tl (invp tl d) J.
  Definition ancp (d J : invar) : invar := combp tl d J.

  Lemma newp_anc d J : admissible tl d -> admissible tl J -> newp d (ancp d J) = J.
  Proof. intros Hd HJ. apply duality_pure; auto using combp_adm. apply combp_adm; auto. Qed.
  Lemma anc_newp d J : admissible tl d -> admissible tl J -> ancp d (newp d J) = J.
  Proof. intros Hd HJ. apply (duality_pure tl d J (newp d J)); auto. apply combp_adm; auto. apply invp_adm; auto. Qed.

  Lemma newp_adm d J : admissible tl d -> admissible tl J -> admissible tl (newp d J).
  Proof. intros; apply combp_adm; auto. apply invp_adm; auto. Qed.

  Lemma size_ok A : size_subspace dp A = Ok (size_p dp A) /\ 0 <= size_p dp A <= 1000000.
  Proof.
    unfold size_subspace. fold (size_p dp A). assert (0 <= size_p dp A <= 1000000).
    { unfold size_p. destruct (find _ dp) as [[K n]|] eqn:E; [|lia]. apply find_some in E as [E _]. apply Hdp in E. tauto. }
    split; auto. replace ((0 <=? size_p dp A) && (size_p dp A <=? 1000000)) with true; auto.
    symmetry. apply andb_true_iff. rewrite !Z.leb_le. auto.
  Qed.

  Definition dimf (J : invar) (dq : invar * invar) : Z :=
    if coupled sy J (ancp (fst dq) J) (snd dq) then size_p dp (ancp (fst dq) J) else 0.
  Definition dims_p (J : invar) : list Z := map (dimf J) (List.combine (tb_In t) (tb_QN t)).

  Lemma tri_total J d q : admissible tl J -> admissible tl d -> admissible tl q ->
    triangle sy J (ancp d J) q = Ok (coupled sy J (ancp d J) q) /\
    (coupled sy J (ancp d J) q = true -> multiplet sy J /\ is_allowed sy J = true).
  Proof.
    intros HJ Hd Hq. destruct F as [F1 F2]. assert (HA : admissible tl (ancp d J)) by (apply combp_adm; auto).
    destruct (F1 d q (ancp d J) Hd Hq HA) as (ba & bt & m & E1 & E2 & E3 & E4 & _).
    fold tl in E1, E2, E3, E4. fold (newp d (ancp d J)) in E1, E2, E3, E4. rewrite newp_anc in * by auto.
    unfold coupled, is_allowed. rewrite E2, E1. cbn [val]. split; auto. intros Hb. destruct (E4 Hb); auto.
  Qed.

  Lemma dims_of_pure J : admissible tl J -> forall ds qs i,
    Forall (admissible tl) ds -> Forall (admissible tl) qs -> List.length ds = List.length qs ->
    (forall k q, nth_error qs k = Some q -> nth_error (tb_QN t) (i + k) = Some q) -> (i + List.length ds <= combs)%nat ->
    dims_of sy combs t dp J false i (map (fun d => ancp d J) ds) = Ok (map (dimf J) (List.combine ds qs)).
  Proof.
    intros HJ. induction ds as [|d ds IH]; intros [|q qs] i Hds Hqs Hl Hk Hi; cbn [List.length] in *; try discriminate; [reflexivity|].
    inversion Hds; subst. inversion Hqs; subst. cbn [map dims_of List.combine].
    assert (Eq : QN_subspace combs t i = Ok q).
    { unfold QN_subspace. replace (Nat.ltb i combs) with true by (symmetry; apply Nat.ltb_lt; lia). cbn [my_assert bind].
      specialize (Hk 0%nat q eq_refl). rewrite Nat.add_0_r in Hk. rewrite Hk. reflexivity. }
    rewrite Eq. cbn [bind]. destruct (tri_total J d q) as [Et _]; auto. rewrite Et. cbn [bind].
    rewrite (IH qs (S i)); auto; try lia.
    2:{ intros k q' Hq'. replace (S i + k)%nat with (i + S k)%nat by lia. apply Hk. exact Hq'. }
    unfold dimf at 2. cbn [fst snd]. rewrite orb_false_r. destruct (coupled sy J (ancp d J) q); [|reflexivity].
    destruct (size_ok (ancp d J)) as [-> _]. reflexivity.
  Qed.

  Lemma subdims_pure J : admissible tl J ->
    exists anc, ancestors sy combs t J = Ok anc /\ mk_subdims sy combs t dp J anc = Ok {| sd_dims := dims_p J; sd_anc := anc |}.
  Proof.
    intros HJ. eexists. split; [apply ancestors_pure; auto|]. unfold mk_subdims.
    change (fun d => combp (ts sy) d J) with (fun d => ancp d J).
    rewrite (dims_of_pure J HJ (tb_In t) (tb_QN t) 0); auto; try lia.
  Qed.

  Lemma dims_p_bounds J x : In x (dims_p J) -> 0 <= x <= 1000000.
  Proof. intros H. apply in_map_iff in H as (dq & <- & _). unfold dimf. destruct (coupled _ _ _ _); [|lia]. apply size_ok. Qed.

  Lemma combs_small : Z.of_nat combs <= 256.
  Proof.
    assert (E : forallb (fun sh => Z.of_nat (sh_combs sh) <=? 256) shipped = true) by (vm_compute; reflexivity).
    rewrite forallb_forall in E. specialize (E _ Hsh). apply Z.leb_le in E. exact E.
  Qed.


  Lemma dims_p_total J : dims_total (dims_p J) = zsum (dims_p J).
  Proof.
    apply dims_total_exact; [intros x Hx; apply dims_p_bounds in Hx; lia|].
    pose proof (zsum_bound (dims_p J) 1000000 ltac:(lia) (fun x Hx => proj2 (dims_p_bounds J x Hx))).
    assert (E : List.length (dims_p J) = combs) by (unfold dims_p; rewrite map_length, combine_length; lia).
    rewrite E in H. pose proof combs_small. change (2 ^ 31) with 2147483648. lia.
  Qed.

  (** The set of new sectors. *)
  Lemma allowed_ok d K : admissible tl d -> admissible tl K -> allowed sy (newp d K) = Ok (is_allowed sy (newp d K)).
  Proof.
    intros Hd HK. destruct F as [F1 _]. destruct (F1 d d K Hd Hd HK) as (ba & bt & m & E1 & _).
    fold tl in E1. fold (newp d K) in E1. unfold is_allowed. rewrite E1. reflexivity.
  Qed.

  Lemma new_all_pure prev : Forall (admissible tl) prev -> forall acc, StronglySorted ltP acc -> Forall (admissible tl) acc ->
    exists new, new_subspaces_all sy combs t prev acc = Ok new /\ StronglySorted ltP new /\ Forall (admissible tl) new /\
      forall J, In J new <-> In J acc \/ exists K d, In K prev /\ In d (tb_In t) /\ J = newp d K /\ is_allowed sy J = true.
  Proof.
    induction prev as [|K prev IH]; intros Hp acc Hs Ha.
    - exists acc. cbn. repeat split; auto. intros [H|(? & ? & [] & _)]; auto.
    - inversion Hp as [|? ? HK Hp']; subst. cbn [new_subspaces_all].
      rewrite new_subspaces_pure by auto. cbn [bind]. change (fun d => combp (ts sy) (invp (ts sy) d) K) with (fun d => newp d K).
      rewrite (filterM_ok _ (is_allowed sy)).
      2:{ intros x Hx. apply in_map_iff in Hx as (d & <- & Hd). rewrite Forall_forall in A1. apply allowed_ok; auto. }
      cbn [bind]. edestruct (IH Hp' (fold_left (fun s x => set_insert x s) (filter (is_allowed sy) (map (fun d => newp d K) (tb_In t))) acc))
        as (new & E & S & A & M).
      + apply set_fold_sorted; auto.
      + apply Forall_forall. intros x Hx. apply set_fold_in in Hx as [Hx|Hx]; [|rewrite Forall_forall in Ha; auto].
        apply filter_In in Hx as [Hx _]. apply in_map_iff in Hx as (d & <- & Hd). rewrite Forall_forall in A1. apply newp_adm; auto.
      + exists new. split; [exact E|]. split; [auto|]. split; [auto|]. intros J. rewrite M, set_fold_in. split.
        * intros [[H|H]|(K' & d & H1 & H2)]; auto.
          -- apply filter_In in H as [H H']. apply in_map_iff in H as (d & <- & Hd). right. exists K, d. split; [left; auto|]. auto.
          -- right. exists K', d. split; [right; auto|]. auto.
        * intros [H|(K' & d & [->|H1] & H2 & H3 & H4)]; auto.
          -- left. left. apply filter_In. split; auto. rewrite H3. apply in_map_iff. eauto.
          -- right. eauto 6.
  Qed.

  Lemma prev_adm : Forall (admissible tl) (map fst dp).
  Proof. apply Forall_forall. intros J HJ. apply in_map_iff in HJ as ([K n] & <- & H). apply Hdp in H. apply H. Qed.

  Definition weight (J : invar) (x : Z) : Z := degeneracy sy J * x.

  Lemma sum_single (new : list invar) (N : invar) (g : invar -> Z) : NoDup new ->
    zsum (map (fun J => if invar_eqb N J then g J else 0) new) = if in_dec (list_eq_dec Z.eq_dec) N new then g N else 0.
  Proof.
    induction 1 as [|J new Hn Hd IH]; [reflexivity|]. cbn [map zsum fold_right]. fold (zsum (map (fun J => if invar_eqb N J then g J else 0) new)).
    rewrite IH. destruct (invar_eqb N J) eqn:E.
    - apply invar_eqb_eq in E. subst N. destruct (in_dec (list_eq_dec Z.eq_dec) J new); [contradiction|]. destruct (in_dec (list_eq_dec Z.eq_dec) J (J :: new)); [lia|]. exfalso; apply n0; left; auto.
    - destruct (in_dec (list_eq_dec Z.eq_dec) N new), (in_dec (list_eq_dec Z.eq_dec) N (J :: new)); auto.
      + exfalso. apply n. right; auto.
      + exfalso. destruct i as [->|i]; auto. rewrite invar_eqb_refl in E. discriminate.
  Qed.

  Lemma step_sum new : NoDup new -> Forall (admissible tl) new ->
    (forall J, In J new <-> exists K d, In K (map fst dp) /\ In d (tb_In t) /\ J = newp d K /\ is_allowed sy J = true) ->
    zsum (map (fun J => weight J (zsum (dims_p J))) new) = Z.of_nat combs * zsum (map (fun p => weight (fst p) (snd p)) dp).
  Proof.
    intros Hnd Hadm Hmem.
    set (dqs := List.combine (tb_In t) (tb_QN t)).
    assert (Hdq : forall dq, In dq dqs -> admissible tl (fst dq) /\ admissible tl (snd dq) /\ In (fst dq) (tb_In t)).
    { intros [d q] H. pose proof (in_combine_l _ _ _ _ H). pose proof (in_combine_r _ _ _ _ H).
      rewrite Forall_forall in A1, A2. cbn [fst snd]. auto. }
    transitivity (zsum (map (fun J => zsum (map (fun dq => zsum (map (fun p => if invar_eqb (newp (fst dq) (fst p)) J
        then snd p * (if coupled sy J (fst p) (snd dq) then degeneracy sy J else 0) else 0) dp)) dqs)) new)).
    { apply zsum_map_ext. intros J HJ. rewrite Forall_forall in Hadm. pose proof (Hadm _ HJ) as HaJ.
      unfold weight, dims_p. rewrite <- zsum_map_mul. apply zsum_map_ext. intros dq Hdqin. destruct (Hdq _ Hdqin) as (Hd & Hq & _).
      unfold dimf. rewrite size_p_sum by auto.
      destruct (coupled sy J (ancp (fst dq) J) (snd dq)) eqn:EC.
      - rewrite <- zsum_map_mul. apply zsum_map_ext. intros [K n] Hp. cbn [fst snd]. assert (HK : admissible tl K) by (apply Hdp in Hp; apply Hp).
        destruct (invar_eqb K (ancp (fst dq) J)) eqn:E.
        + apply invar_eqb_eq in E. subst K. rewrite newp_anc by auto. rewrite invar_eqb_refl, EC. lia.
        + destruct (invar_eqb (newp (fst dq) K) J) eqn:E2; [|lia]. apply invar_eqb_eq in E2. subst J.
          rewrite anc_newp in E by auto. rewrite invar_eqb_refl in E. discriminate.
      - symmetry. rewrite Z.mul_0_r. apply zsum_map_zero. intros [K n] Hp. cbn [fst snd]. assert (HK : admissible tl K) by (apply Hdp in Hp; apply Hp).
        destruct (invar_eqb (newp (fst dq) K) J) eqn:E2; auto. apply invar_eqb_eq in E2. subst J. rewrite anc_newp in EC by auto.
        rewrite EC. lia. }
    transitivity (zsum (map (fun p => snd p * zsum (map (fun dq => received sy (fst p) (newp (fst dq) (fst p)) (snd dq)) dqs)) dp)).
    { rewrite zsum_swap. rewrite (zsum_map_ext _ (fun dq => zsum (map (fun p => snd p * received sy (fst p) (newp (fst dq) (fst p)) (snd dq)) dp))).
      - rewrite zsum_swap. apply zsum_map_ext. intros p _. rewrite zsum_map_mul. reflexivity.
      - intros dq Hdqin. destruct (Hdq _ Hdqin) as (Hd & Hq & Hin). rewrite zsum_swap. apply zsum_map_ext. intros [K n] Hp. cbn [fst snd].
        assert (HK : admissible tl K) by (apply Hdp in Hp; apply Hp).
        rewrite (sum_single new (newp (fst dq) K) (fun J => n * (if coupled sy J K (snd dq) then degeneracy sy J else 0))) by auto.
        unfold received. destruct (in_dec (list_eq_dec Z.eq_dec) (newp (fst dq) K) new) as [i|i].
        + apply Hmem in i as (K' & d' & _ & _ & _ & HA). rewrite HA. reflexivity.
        + replace (is_allowed sy (newp (fst dq) K)) with false; [cbn; lia|]. symmetry. apply not_true_is_false. intros HA. apply i. apply Hmem.
          exists K, (fst dq). split; [apply (in_map fst) in Hp; exact Hp|]. auto. }
    rewrite <- zsum_map_mul. apply zsum_map_ext. intros [K n] Hp. cbn [fst snd].
    pose proof (dim_conserved sh K Hsh (proj1 (Hdp _ _ Hp))) as D. fold sy tl t in D. fold dqs in D.
    change (fun dq => received sy K (combp tl (invp tl (fst dq)) K) (snd dq)) with (fun dq => received sy K (newp (fst dq) K) (snd dq)) in D.
    rewrite D. unfold weight. fold combs. lia.
  Qed.

  (** The step as a whole. *)
  Lemma structure_correct : exists st, mk_structure sy combs t dp = Ok st /\ NoDup (map fst st) /\
    (forall J d, In (J, d) st -> admissible tl J /\ dims_total (sd_dims d) = zsum (sd_dims d) /\
        List.length (sd_dims d) = combs /\ List.length (sd_anc d) = combs /\
        (forall x, In x (sd_dims d) -> 0 <= x) /\ (0 < zsum (sd_dims d) -> multiplet sy J)) /\
    zsum (map (fun p => degeneracy sy (fst p) * zsum (sd_dims (snd p))) st)
      = Z.of_nat combs * zsum (map (fun p => degeneracy sy (fst p) * snd p) dp) /\
    (forall J i A q n, admissible tl J -> ancestor sy combs t J i = Ok A -> nth_error (tb_QN t) i = Some q ->
        coupled sy J A q = true -> In (A, n) dp -> 0 < n ->
        exists d, In (J, d) st /\ nth_error (sd_dims d) i = Some n /\ nth_error (sd_anc d) i = Some A /\ In J (task_list st)).
  Proof.
    destruct (new_all_pure (map fst dp) prev_adm [] ltac:(constructor) ltac:(constructor)) as (new & En & Hs & Ha & Hm).
    assert (Hm' : forall J, In J new <-> exists K d, In K (map fst dp) /\ In d (tb_In t) /\ J = newp d K /\ is_allowed sy J = true).
    { intros J. rewrite Hm. split; [intros [[]|H]; exact H|auto]. }
    unfold mk_structure. rewrite En. cbn [bind].
    set (g := fun J => (J, {| sd_dims := dims_p J; sd_anc := map (fun d => ancp d J) (tb_In t) |})).
    rewrite (mapM_ok _ g).
    2:{ intros J HJ. rewrite Forall_forall in Ha. destruct (subdims_pure J (Ha _ HJ)) as (anc & E1 & E2). rewrite E1. cbn [bind]. rewrite E2. cbn [bind].
        rewrite ancestors_pure in E1 by auto. injection E1 as <-. reflexivity. }
    exists (map g new). split; [reflexivity|].
    assert (Hnd : NoDup new) by (apply sorted_NoDup; auto).
    assert (Hkeys : map fst (map g new) = new) by (rewrite map_map; cbn [fst]; apply map_id).
    assert (HND : NoDup (map fst (map g new))) by (rewrite Hkeys; auto).
    split; [exact HND|].
    split; [|split].
    - intros J d Hin. apply in_map_iff in Hin as (J' & E & Hin). injection E as -> <-. cbn [sd_dims sd_anc].
      rewrite Forall_forall in Ha. split; [auto|]. split; [apply dims_p_total|].
      split; [unfold dims_p; rewrite map_length, combine_length; lia|]. split; [rewrite map_length; auto|].
      split; [intros x Hx; apply dims_p_bounds in Hx; lia|].
      intros Hpos. destruct (existsb (fun dq => coupled sy J (ancp (fst dq) J) (snd dq)) (List.combine (tb_In t) (tb_QN t))) eqn:E.
      + apply existsb_exists in E as ([d q] & Hdq & E). cbn [fst snd] in E. rewrite Forall_forall in A1, A2.
        apply (tri_total J d q); auto. apply A1; eapply in_combine_l; eauto. apply A2; eapply in_combine_r; eauto.
      + exfalso. assert (zsum (dims_p J) = 0); [|lia]. apply zsum_map_zero. intros dq Hdq. unfold dimf.
        destruct (coupled sy J (ancp (fst dq) J) (snd dq)) eqn:E2; auto. exfalso.
        assert (X : existsb (fun dq => coupled sy J (ancp (fst dq) J) (snd dq)) (List.combine (tb_In t) (tb_QN t)) = true) by (apply existsb_exists; eauto).
        congruence.
    - rewrite map_map. cbn [fst snd sd_dims]. exact (step_sum new Hnd Ha Hm').
    - intros J i A q n HJ EA Eq Ec Hin Hpos.
      unfold ancestor in EA. destruct (my_assert (Nat.ltb i combs)) eqn:Eassert; cbn [bind] in EA; try discriminate.
      destruct (nth_error (tb_In t) i) as [d|] eqn:Ed; try discriminate.
      assert (Hd : admissible tl d) by (rewrite Forall_forall in A1; apply A1; eapply nth_error_In; eauto).
      assert (Hq : admissible tl q) by (rewrite Forall_forall in A2; apply A2; eapply nth_error_In; eauto).
      rewrite combine_pure in EA by auto. injection EA as EA. rewrite combp_comm in EA by auto. fold tl in EA. fold (ancp d J) in EA. subst A.
      destruct (tri_total J d q HJ Hd Hq) as [_ HT]. destruct (HT Ec) as [_ HA].
      assert (HJn : In J new).
      { apply Hm'. exists (ancp d J), d. split; [apply (in_map fst) in Hin; exact Hin|]. split; [eapply nth_error_In; eauto|].
        split; auto. symmetry. apply newp_anc; auto. }
      assert (Hnth : nth_error (dims_p J) i = Some n).
      { unfold dims_p. rewrite nth_error_map.
        assert (Edq : nth_error (List.combine (tb_In t) (tb_QN t)) i = Some (d, q)).
        { clear -Ed Eq. revert i Ed Eq. generalize (tb_In t) (tb_QN t). induction l as [|a l IH]; intros [|b l'] [|i]; cbn; intros; try discriminate; try congruence. apply IH; auto. }
        rewrite Edq. cbn [option_map]. unfold dimf. cbn [fst snd]. rewrite Ec. f_equal.
        unfold size_p. rewrite (find_key _ _ _ Hnodup Hin). reflexivity. }
      exists {| sd_dims := dims_p J; sd_anc := map (fun d => ancp d J) (tb_In t) |}.
      assert (Hst : In (J, {| sd_dims := dims_p J; sd_anc := map (fun d0 => ancp d0 J) (tb_In t) |}) (map g new)).
      { apply in_map_iff. exists J. split; auto. }
      split; [exact Hst|]. split; [exact Hnth|]. split; [cbn [sd_anc]; rewrite nth_error_map, Ed; reflexivity|].
      apply (task_list_spec _ HND). eexists. split; [exact Hst|]. cbn [sd_dims]. rewrite dims_p_total.
      assert (n <= zsum (dims_p J)); [|lia].
      assert (G : forall l k, (forall x, In x l -> 0 <= x) -> nth_error l k = Some n -> n <= zsum l).
      { clear. induction l as [|a l IH]; intros [|k] Hx E; cbn in E; try discriminate.
        - injection E as ->. cbn [zsum fold_right]. fold (zsum l). assert (0 <= zsum l) by (apply zsum_nonneg; intros; apply Hx; right; auto). lia.
        - cbn [zsum fold_right]. fold (zsum l). assert (0 <= a) by (apply Hx; left; auto). specialize (IH k (fun x H => Hx x (or_intror H)) E). lia. }
      eapply G; [|exact Hnth]. intros x Hx. apply dims_p_bounds in Hx. lia.
  Qed.
End Step.
