(** Proofs about Steps_model. *)
From Coq Require Import List ZArith Lia.
From Verif Require Import Base Patch_model Steps_model Steps_spec.
Import ListNotations.
Local Open Scope Z_scope.

Section Loop.
  Variable p : sparams.
  Context {D : Type}.
  Variable iterate : step -> D -> res D.
  Variable calc0 : step -> D -> res D.
  Lemma next_nth n : step_next (nth_step n) = nth_step (S n).
  Proof. unfold step_next, nth_step. cbn [s_true s_ndx]. f_equal; lia. Qed.
  Lemma set_nth n : step_set (Z.of_nat n) = nth_step n.
  Proof. unfold step_set, nth_step. f_equal. lia. Qed.
  Lemma for_iff k n d r : (n + k = sp_Nmax p)%nat ->
    (nrg_for p iterate (nth_step n) d r <-> r = with_step (nth_step (sp_Nmax p)) (in_order (map (fun m => iterate (nth_step m)) (seq n k)) d)).
  Proof.
    revert n d. induction k as [|k IH]; intros n d Hk.
    - assert (E : step_end p (nth_step n) = true) by (unfold step_end; cbn; apply Nat.leb_le; lia). cbn. replace (sp_Nmax p) with n by lia. split; intros H.
      + inversion H; subst; congruence.
      + subst. now constructor.
    - assert (E : step_end p (nth_step n) = false) by (unfold step_end; cbn; apply Nat.leb_gt; lia). cbn [seq map in_order]. split; intros H.
      + inversion H as [|? ? d' ? ? Hi Hn|? ? ? Hi|? ? ? Hi]; subst; try congruence; rewrite Hi; auto. rewrite next_nth in Hn. apply IH in Hn; [auto|lia].
      + subst r. destruct (iterate (nth_step n) d) as [d'| |] eqn:Hi; [|now apply for_throw|now apply for_ub].
        apply (for_body _ _ _ _ d'); auto. rewrite next_nth. apply IH; [lia|auto].
  Qed.
  Hypothesis HN : (sp_Ninit p < sp_Nmax p)%nat.
  Lemma loop_iff d r : nrg_loop p iterate d r <->
    r = with_step (nth_step (sp_Nmax p - 1)) (in_order (map (fun m => iterate (nth_step m)) (seq (sp_Ninit p) (sp_Nmax p - sp_Ninit p))) d).
  Proof.
    assert (El : step_set (lastndx p) = nth_step (sp_Nmax p - 1)) by (rewrite <- set_nth; f_equal; unfold lastndx; lia).
    pose proof (fun r => for_iff (sp_Nmax p - sp_Ninit p) (sp_Ninit p) d r ltac:(lia)) as HF. unfold step_init in *.
    set (R := in_order _ d) in *. split; intros H.
    - inversion H as [s d' Hf|Hf|Hf]; subst; unfold step_init in Hf; rewrite set_nth in Hf; apply HF in Hf; destruct R; cbn in *; try discriminate; auto.
      injection Hf as _ ->. now rewrite El.
    - subst r. destruct R as [d'| |] eqn:ER; cbn.
      + rewrite <- El. apply (loop_ok _ _ _ (nth_step (sp_Nmax p))). unfold step_init. rewrite set_nth. now apply HF.
      + apply loop_throw. unfold step_init. rewrite set_nth. now apply HF.
      + apply loop_ub. unfold step_init. rewrite set_nth. now apply HF.
  Qed.
  Definition pre_step : step := {| s_true := Z.of_nat (sp_Ninit p) - 1; s_ndx := sp_Ninit p - 1 |}.
  Lemma run_iff nrg d r : run_steps p iterate calc0 nrg d r <->
    r = with_step (nth_step (sp_Nmax p - 1)) (in_order ((if (nrg && sp_calc0 p)%bool then [calc0 pre_step] else []) ++
          map (fun m => iterate (nth_step m)) (seq (sp_Ninit p) (sp_Nmax p - sp_Ninit p))) d).
  Proof.
    assert (Ep : step_set (Z.of_nat (sp_Ninit p) - 1) = pre_step) by (unfold step_set, pre_step; f_equal; lia).
    split; intros H.
    - inversion H as [d' r' Hc H0 Hl|Hc H0|Hc H0|r' Hc Hl]; subst; rewrite Hc; cbn [app in_order]; rewrite <- ?Ep, ?H0; auto; now apply loop_iff.
    - destruct (nrg && sp_calc0 p)%bool eqn:Hc; cbn [app in_order] in H.
      + rewrite <- Ep in H. destruct (calc0 _ d) as [d'| |] eqn:H0.
        * apply (run_pre _ _ _ _ _ d'); auto. now apply loop_iff.
        * subst. now apply run_pre_throw.
        * subst. now apply run_pre_ub.
      + apply run_direct; auto. now apply loop_iff.
  Qed.
End Loop.
Lemma flags p n : (sp_Ninit p <= n < sp_Nmax p)%nat -> (step_first p (nth_step n) = true <-> n = sp_Ninit p) /\ (step_last p (nth_step n) = true <-> n = (sp_Nmax p - 1)%nat).
Proof.
  intros H. unfold step_first, step_last, lastndx. cbn. split; [apply Nat.eqb_eq|]. rewrite Z.eqb_eq. lia.
Qed.
Lemma validate_iff p : validate_after_data_file p = if (sp_Ninit p <? sp_Nmax p)%nat then Ok tt else Throw.
Proof.
  unfold validate_after_data_file. destruct (Nat.eqb_spec (sp_Nmax p) 0) as [->|]; [reflexivity|]. destruct (Nat.leb_spec (sp_Nmax p) (sp_Ninit p)), (Nat.ltb_spec (sp_Ninit p) (sp_Nmax p)); auto; lia.
Qed.
(** Substeps: every pair of site and channel once, in order. *)
Lemma nm_row p N : forall k a, (a + k <= sp_channels p)%nat -> map (fun n => step_NM p (nth_step n)) (seq (N * sp_channels p + a) k) = map (fun M => (N, M)) (seq a k).
Proof.
  induction k as [|k IH]; intros a H; [reflexivity|]. cbn [seq map]. f_equal.
  - unfold step_NM. cbn [nth_step s_ndx]. replace ((N * sp_channels p + a) / sp_channels p)%nat with N by (rewrite Nat.add_comm, Nat.div_add, Nat.div_small; lia). f_equal. lia.
  - replace (S (N * sp_channels p + a)) with (N * sp_channels p + S a)%nat by lia. apply IH. lia.
Qed.
Lemma nm_all p Nmax0 : map (fun n => step_NM p (nth_step n)) (seq 0 (sp_channels p * Nmax0)) = list_prod (seq 0 Nmax0) (seq 0 (sp_channels p)).
Proof.
  assert (H : forall k a, map (fun n => step_NM p (nth_step n)) (seq (a * sp_channels p) (sp_channels p * k)) = list_prod (seq a k) (seq 0 (sp_channels p))).
  { induction k as [|k IH]; intros a; [rewrite Nat.mul_0_r; reflexivity|]. rewrite Nat.mul_succ_r, Nat.add_comm, seq_app, map_app. cbn [seq list_prod]. f_equal.
    - rewrite <- (Nat.add_0_r (a * sp_channels p)). apply nm_row. lia.
    - replace (a * sp_channels p + sp_channels p)%nat with (S a * sp_channels p)%nat by lia. apply IH. }
  exact (H Nmax0 0%nat).
Qed.
