(** C37: a chain of untruncated steps. *)
From Coq Require Import List ZArith Lia Bool Permutation Sorted.
From Verif Require Import Base Invar_model Invar_spec Invar_proofs Symmetry_model Symmetry_spec Symmetry_tables Symmetry_proofs
  Subspaces_model Subspaces_spec Subspaces_proofs Subspaces_tasks Subspaces_step.
Import ListNotations.
Local Open Scope Z_scope.

Lemma untruncated_total sh st dp1 : NoDup (map fst st) ->
  (forall J d, In (J, d) st -> dims_total (sd_dims d) = zsum (sd_dims d)) -> untruncated st dp1 ->
  total_states (sh_sym sh) dp1 = zsum (map (fun p => degeneracy (sh_sym sh) (fst p) * zsum (sd_dims (snd p))) st).
Proof.
  intros Hn Ht [Hn1 Hu]. unfold total_states.
  transitivity (zsum (map (fun p => degeneracy (sh_sym sh) (fst p) * zsum (sd_dims (snd p))) (filter (fun p => negb (zsum (sd_dims (snd p)) =? 0)) st))).
  - rewrite <- (map_map (fun p => (fst p, zsum (sd_dims (snd p)))) (fun p => degeneracy (sh_sym sh) (fst p) * snd p)).
    apply zsum_perm, Permutation_map, NoDup_Permutation.
    + eapply NoDup_map_inv. exact Hn1.
    + apply (NoDup_map_inv fst). rewrite map_map. cbn [fst]. apply NoDup_map_filter. auto.
    + intros [I n]. rewrite Hu, in_map_iff. split.
      * intros (d & Hin & Hk & ->). exists (I, d). split; [reflexivity|]. apply filter_In. split; auto. cbn [snd].
        apply (task_list_spec st Hn) in Hk as (d' & Hin' & Hd'). rewrite (NoDup_keys_inj st I d d' Hn Hin Hin'). rewrite (Ht _ _ Hin') in Hd'.
        apply negb_true_iff, Z.eqb_neq. auto.
      * intros ([I' d] & E & Hin). apply filter_In in Hin as [Hin Hd]. cbn [fst snd] in *. injection E as -> <-. exists d. split; auto. split; auto.
        apply (task_list_spec st Hn). exists d. split; auto. rewrite (Ht _ _ Hin). apply negb_true_iff, Z.eqb_neq in Hd. auto.
  - clear. induction st as [|[I d] st IH]; [reflexivity|]. cbn [filter snd]. destruct (zsum (sd_dims d) =? 0) eqn:E; cbn [negb map fst snd].
    + rewrite zsum_cons, IH. apply Z.eqb_eq in E. rewrite E. lia.
    + rewrite !zsum_cons, IH. reflexivity.
Qed.

Lemma chain_total sh n dp dp' : In sh shipped -> NoDup (map fst dp) -> (forall I k, In (I, k) dp -> multiplet (sh_sym sh) I) ->
  grows (sh_sym sh) (sh_combs sh) (sh_tab sh) n dp dp' ->
  NoDup (map fst dp') /\ (forall I k, In (I, k) dp' -> multiplet (sh_sym sh) I) /\
  total_states (sh_sym sh) dp' = Z.of_nat (sh_combs sh) ^ Z.of_nat n * total_states (sh_sym sh) dp.
Proof.
  intros Hsh Hn Hm G. induction G as [dp|n dp st dp1 dp2 Hb Hst Hu G IH].
  - split; auto. split; auto. rewrite Z.pow_0_r. lia.
  - destruct (structure_correct sh Hsh dp Hn) as (st' & E & Hnd & Hd & Hsum & _).
    { intros J k Hin. split; eauto. }
    rewrite E in Hst. injection Hst as ->. destruct IH as (I1 & I2 & I3).
    + apply Hu.
    + intros I k Hin. apply Hu in Hin as (d & Hin & Ht & ->). apply (Hd _ _ Hin).
      apply (task_list_spec st Hnd) in Ht as (d' & Hin' & Hne). rewrite (NoDup_keys_inj st I d d' Hnd Hin Hin') in *.
      destruct (Hd _ _ Hin') as (_ & Eq & _ & _ & Hnn & _). pose proof (zsum_nonneg _ Hnn). lia.
    + split; auto. split; auto. rewrite I3. rewrite (untruncated_total sh st dp1 Hnd); auto.
      * rewrite Hsum. fold (total_states (sh_sym sh) dp). rewrite Nat2Z.inj_succ, Z.pow_succ_r by lia. ring.
      * intros J d Hin. apply Hd in Hin. tauto.
Qed.
