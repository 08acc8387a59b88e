(** C06 in terms of the specification. *)
From Coq Require Import List ZArith Lia Bool Permutation Sorted.
From Verif Require Import Base Invar_model Invar_proofs Subspaces_model Subspaces_spec Subspaces_proofs.
Import ListNotations.
Local Open Scope Z_scope.

Lemma sane_total s I d : sane s -> In (I, d) s -> dims_total (sd_dims d) = zsum (sd_dims d) /\ 0 <= zsum (sd_dims d).
Proof. intros [_ H] Hin. destruct (H _ _ Hin). split; [apply dims_total_exact; auto|apply zsum_nonneg; auto]. Qed.

Lemma ss_impl_in {A} (R S : A -> A -> Prop) l : (forall x y, In x l -> In y l -> R x y -> S x y) -> StronglySorted R l -> StronglySorted S l.
Proof.
  intros H Hs. induction Hs as [|a l Hs IH Hf]; constructor.
  - apply IH. intros; apply H; auto; right; auto.
  - apply Forall_forall. intros x Hx. rewrite Forall_forall in Hf. apply H; auto; [left; auto|right; auto].
Qed.

Lemma task_list_sane s : sane s ->
  NoDup (task_list s) /\
  (forall I, In I (task_list s) <-> exists d, In (I, d) s /\ 0 < zsum (sd_dims d)) /\
  StronglySorted (before s) (task_list s) /\
  (forall s', Permutation s s' -> task_list s' = task_list s).
Proof.
  intros Hs. pose proof Hs as [Hn _]. destruct (task_list_spec s Hn) as (T1 & T2 & T3 & T4).
  assert (T2' : forall I, In I (task_list s) <-> exists d, In (I, d) s /\ 0 < zsum (sd_dims d)).
  { intros I. rewrite T2. split; intros (d & Hin & Hd); exists d; (split; [exact Hin|]); destruct (sane_total s I d Hs Hin) as [E P]; lia. }
  split; [auto|]. split; [exact T2'|]. split; [|exact T4].
  eapply ss_impl_in; [|exact T3]. intros I J HI HJ HR. apply T2' in HI as (dI & HI & _). apply T2' in HJ as (dJ & HJ & _).
  exists dI, dJ. split; [auto|]. split; [auto|]. unfold dim_in in HR. rewrite (find_key _ _ _ Hn HI), (find_key _ _ _ Hn HJ) in HR.
  destruct (sane_total s I dI Hs HI) as [EI PI]. destruct (sane_total s J dJ Hs HJ) as [EJ PJ]. rewrite EI, EJ in HR.
  pose proof (proj2 (proj2 Hs _ _ HI)). pose proof (proj2 (proj2 Hs _ _ HJ)).
  rewrite !to_size_id in HR by (unfold two64; change (2 ^ 31) with 2147483648 in *; change (2 ^ 64) with 18446744073709551616; lia). exact HR.
Qed.
