(** What the block structure of a step says about the sectors of the previous step (used for the density matrix). *)
From Coq Require Import List ZArith Lia Bool Permutation.
From Verif Require Import Base Invar_model Invar_spec Invar_proofs Symmetry_model Symmetry_spec Symmetry_tables Symmetry_proofs
  Symmetry_dim Subspaces_model Subspaces_spec Subspaces_proofs Subspaces_tasks Subspaces_step.
Import ListNotations.
Local Open Scope Z_scope.

Lemma mult_multiplet sh J : In sh shipped -> multiplet (sh_sym sh) J -> exists m, mult (sh_sym sh) J = Ok m /\ 1 <= m.
Proof. intros Hsh HJ. destruct (shipped_fac sh Hsh) as [_ F2]. destruct (F2 J HJ) as (_ & E & H & _). eauto. Qed.

(** The multiplicity of any sector reached from a multiplet can be computed. *)
Lemma mult_new sh d J : In sh shipped -> In d (tb_In (sh_tab sh)) -> admissible (ts (sh_sym sh)) J ->
  exists m, mult (sh_sym sh) (newp sh d J) = Ok m.
Proof.
  intros Hsh Hd HJ. destruct (shipped_fac sh Hsh) as [F1 _]. destruct (shipped_ok sh Hsh) as (_ & _ & A1 & _).
  rewrite Forall_forall in A1. destruct (F1 d d J (A1 _ Hd) (A1 _ Hd) HJ) as (ba & bt & m & E1 & E2 & E3 & _). exists m. exact E3.
Qed.

Lemma nth_combine {A B} (l : list A) (m : list B) i a b : nth_error l i = Some a -> nth_error m i = Some b ->
  nth_error (List.combine l m) i = Some (a, b).
Proof. revert m i; induction l as [|x l IH]; intros [|y m] [|i]; cbn; intros; try discriminate; try congruence. apply IH; auto. Qed.

Section Struct.
  Variable sh : shipped_table.
  Hypothesis Hsh : In sh shipped.
  Variable dp : sizes.
  Hypothesis Hnodup : NoDup (map fst dp).
  Hypothesis Hdp : forall J n, In (J, n) dp -> multiplet (sh_sym sh) J /\ 0 <= n <= 1000000.
  Variable st : structure.
  Hypothesis Hst : mk_structure (sh_sym sh) (sh_combs sh) (sh_tab sh) dp = Ok st.

  Lemma st_dims J d : In (J, d) st -> admissible (ts (sh_sym sh)) J /\ sd_dims d = dims_p sh dp J.
  Proof.
    intros Hin. destruct (structure_correct sh Hsh dp Hnodup Hdp) as (st' & E & _ & H & _). rewrite E in Hst. injection Hst as ->.
    assert (HJ : admissible (ts (sh_sym sh)) J) by (apply H in Hin; tauto). split; [exact HJ|].
    clear H. unfold mk_structure in E. destruct (new_subspaces_all _ _ _ _ _) as [new| |]; cbn [bind] in E; try discriminate.
    apply mapM_Ok_inv in E. clear - Hsh Hnodup Hdp E Hin HJ. induction E as [|x y l l' H E IH]; [destruct Hin|].
    destruct Hin as [->|Hin]; [|auto].
    destruct (ancestors _ _ _ x) as [anc| |] eqn:EA; cbn [bind] in H; try discriminate.
    destruct (mk_subdims _ _ _ _ x anc) as [d'| |] eqn:ED; cbn [bind] in H; try discriminate. injection H as -> ->.
    destruct (subdims_pure sh Hsh dp Hdp J HJ) as (anc' & EA' & ED').
    rewrite EA in EA'. injection EA' as <-. rewrite ED in ED'. injection ED' as ->. reflexivity.
  Qed.

  Lemma task_multiplet J : In J (task_list st) -> exists d, In (J, d) st /\ multiplet (sh_sym sh) J.
  Proof.
    intros Ht. destruct (structure_correct sh Hsh dp Hnodup Hdp) as (st' & E & Hn & H & _). rewrite E in Hst. injection Hst as ->.
    apply (task_list_spec st Hn) in Ht as (d & Hin & Hd). exists d. split; [exact Hin|].
    destruct (H _ _ Hin) as (_ & Eq & _ & _ & Hnn & HM). apply HM. pose proof (zsum_nonneg _ Hnn). lia.
  Qed.

  Lemma st_nodup : NoDup (map fst st).
  Proof. destruct (structure_correct sh Hsh dp Hnodup Hdp) as (st' & E & Hn & _). rewrite E in Hst. injection Hst as ->. exact Hn. Qed.

  (** Block i of sector J is absent or has the size of the sector it comes from. *)
  Lemma block_size J d i di : In (J, d) st -> nth_error (tb_In (sh_tab sh)) i = Some di ->
    exists n, nth_error (sd_dims d) i = Some n /\ (n = 0 \/ 0 < n /\ In (ancp sh di J, n) dp).
  Proof.
    intros Hin Ei. destruct (st_dims J d Hin) as [HJ ->].
    destruct (shipped_ok sh Hsh) as (L1 & L2 & _).
    assert (Hi : (i < List.length (tb_In (sh_tab sh)))%nat) by (apply nth_error_Some; congruence).
    destruct (nth_error (tb_QN (sh_tab sh)) i) as [q|] eqn:Eq.
    2:{ apply nth_error_None in Eq. lia. }
    unfold dims_p. rewrite nth_error_map, (nth_combine _ _ _ _ _ Ei Eq). cbn [option_map]. eexists. split; [reflexivity|].
    unfold dimf. cbn [fst snd]. destruct (coupled _ _ _ _); [|auto]. unfold size_p.
    destruct (find _ dp) as [[K n]|] eqn:Ef; [|auto]. apply find_some in Ef as [Hf Ek]. cbn [fst] in Ek. apply invar_eqb_eq in Ek. subst K.
    destruct (Hdp _ _ Hf) as [_ Hb]. destruct (Z.eq_dec n 0); [auto|]. right. split; [lia|exact Hf].
  Qed.
  Lemma block_size_from I n i di d : In (I, n) dp -> nth_error (tb_In (sh_tab sh)) i = Some di -> In (newp sh di I, d) st ->
    exists k, nth_error (sd_dims d) i = Some k /\ (k = 0 \/ k = n).
  Proof.
    intros Hi Ei Hin. destruct (block_size _ d i di Hin Ei) as (k & Ek & [->|[Hk Hin']]); exists k || exists 0; (split; [exact Ek|]); auto.
    right. destruct (shipped_ok sh Hsh) as (_ & _ & A1 & _).
    rewrite anc_newp in Hin'; auto.
    - eapply NoDup_keys_inj; eauto.
    - rewrite Forall_forall in A1. apply A1. eapply nth_error_In; eauto.
    - apply Hdp in Hi. apply Hi.
  Qed.
End Struct.
