(** Positions of the blocks in a matrix, in terms of natural numbers. *)
From Coq Require Import List ZArith Lia Bool.
From Verif Require Import Base Invar_model Symmetry_model Subspaces_model Subspaces_proofs.
Import ListNotations.
Local Open Scope nat_scope.

Definition szn (d : list Z) (i : nat) : nat := Z.to_nat (nth i d 0%Z).
Definition offn (d : list Z) (i : nat) : nat := Z.to_nat (zsum (firstn i d)).
Definition good (d : list Z) : Prop := (forall x, In x d -> 0 <= x)%Z /\ (zsum d < 2 ^ 31)%Z /\ (Z.of_nat (length d) < two64)%Z.

Section Pos.
Variable d : list Z.
Hypothesis Hd : good d.

Lemma firstn_nonneg i : (0 <= zsum (firstn i d))%Z.
Proof. apply zsum_nonneg. intros x Hx. apply (proj1 Hd). rewrite <- (firstn_skipn i d). apply in_or_app. auto. Qed.
Lemma firstn_le i : (zsum (firstn i d) <= zsum d)%Z.
Proof.
  rewrite <- (firstn_skipn i d) at 2. rewrite zsum_app.
  assert (0 <= zsum (skipn i d))%Z; [|lia]. apply zsum_nonneg. intros x Hx. apply (proj1 Hd). rewrite <- (firstn_skipn i d). apply in_or_app. auto.
Qed.
Lemma sz_Z i : Z.of_nat (szn d i) = nth i d 0%Z.
Proof. unfold szn. rewrite Z2Nat.id; auto. destruct (nth_in_or_default i d 0%Z) as [H|H]; [apply (proj1 Hd); auto|rewrite H; lia]. Qed.
Lemma off_Z i : Z.of_nat (offn d i) = zsum (firstn i d).
Proof. unfold offn. rewrite Z2Nat.id; auto. apply firstn_nonneg. Qed.
Lemma firstn_step (l : list Z) i : zsum (firstn (S i) l) = (zsum (firstn i l) + nth i l 0)%Z.
Proof.
  revert i. induction l as [|x l IH]; intros [|i].
  - reflexivity.
  - reflexivity.
  - cbn. lia.
  - change (firstn (S (S i)) (x :: l)) with (x :: firstn (S i) l). change (firstn (S i) (x :: l)) with (x :: firstn i l).
    rewrite !zsum_cons, IH. cbn [nth]. lia.
Qed.
Lemma off_S i : offn d (S i) = offn d i + szn d i.
Proof. apply Nat2Z.inj. rewrite Nat2Z.inj_add, !off_Z, sz_Z. apply firstn_step. Qed.
Lemma off_mono i j : i < j -> offn d i + szn d i <= offn d j.
Proof. intros H. induction H; [rewrite off_S; lia|]. rewrite off_S. lia. Qed.
Lemma off_total i : i < length d -> offn d i + szn d i <= Z.to_nat (zsum d).
Proof.
  intros _. rewrite <- off_S. pose proof (firstn_le (S i)). pose proof (firstn_nonneg (S i)). unfold offn. lia.
Qed.
Lemma small i : (zsum (firstn i d) < two64)%Z.
Proof. pose proof (firstn_le i). destruct Hd as (_ & H1 & _). unfold two64. change (2 ^ 64)%Z with 18446744073709551616%Z. change (2 ^ 31)%Z with 2147483648%Z in H1. lia. Qed.

Lemma offset_ok i : i < length d -> offset d (Z.of_nat i) = Ok (Z.of_nat (offn d i)).
Proof.
  intros H. unfold offset. replace (Z.of_nat i <? Z.of_nat (length d))%Z with true by (symmetry; apply Z.ltb_lt; lia). cbn [my_assert bind].
  rewrite Nat2Z.id, accumulate_exact, off_Z; auto; [|apply small].
  intros x Hx. apply (proj1 Hd). rewrite <- (firstn_skipn i d). apply in_or_app. auto.
Qed.
Lemma rmax_ok i : i < length d -> rmax d (Z.of_nat i) = Ok (Z.of_nat (szn d i)).
Proof.
  intros H. destruct (nth_error d i) as [n|] eqn:E; [|apply nth_error_None in E; lia]. unfold rmax. replace (Z.of_nat i <? Z.of_nat (length d))%Z with true by (symmetry; apply Z.ltb_lt; lia). cbn [my_assert bind].
  rewrite Nat2Z.id, E, sz_Z, (nth_error_nth _ _ 0%Z E). reflexivity.
Qed.
Lemma view_ok i : i < length d -> view d (Z.of_nat i) = Ok (Z.of_nat (offn d i), Z.of_nat (offn d i + szn d i)).
Proof.
  intros H. unfold view. rewrite offset_ok, rmax_ok by auto. cbn [bind]. f_equal. f_equal. unfold to_size.
  rewrite Z.mod_small; [lia|]. rewrite <- Nat2Z.inj_add, <- off_S, off_Z. split; [apply firstn_nonneg|apply small].
Qed.
Lemma mma_index (i1 : Z) : (1 <= i1 <= Z.of_nat (length d))%Z -> to_size (i1 - 1) = (i1 - 1)%Z.
Proof. intros H. unfold to_size. apply Z.mod_small. destruct Hd as (_ & _ & H1). lia. Qed.

(** Which block a position belongs to. *)
Lemma pos_block i a j : a < szn d i -> (offn d j <= offn d i + a < offn d j + szn d j <-> i = j).
Proof.
  intros Ha. split; [|intros <-; lia]. intros H.
  destruct (Nat.lt_trichotomy i j) as [G|[G|G]]; auto; apply off_mono in G; lia.
Qed.
Lemma pos_le i a j b : a < szn d i -> b < szn d j -> (offn d i + a <= offn d j + b <-> i < j \/ (i = j /\ a <= b)).
Proof.
  intros Ha Hb. destruct (Nat.lt_trichotomy i j) as [G|[<-|G]].
  - pose proof (off_mono _ _ G). lia.
  - lia.
  - pose proof (off_mono _ _ G). lia.
Qed.
Lemma pos_eq i a j b : a < szn d i -> b < szn d j -> (offn d i + a = offn d j + b <-> i = j /\ a = b).
Proof.
  intros Ha Hb. destruct (Nat.lt_trichotomy i j) as [G|[<-|G]]; try (pose proof (off_mono _ _ G)); lia.
Qed.
Lemma pos_total i a : i < length d -> a < szn d i -> offn d i + a < Z.to_nat (zsum d).
Proof. intros H Ha. pose proof (off_total _ H). lia. Qed.
Lemma pos_all r : r < Z.to_nat (zsum d) -> exists i a, i < length d /\ a < szn d i /\ r = offn d i + a.
Proof.
  intros H.
  assert (G : forall k, r < offn d k -> exists i a, i < k /\ a < szn d i /\ r = offn d i + a).
  { induction k as [|k IH]; intros Hk; [unfold offn in Hk; cbn in Hk; lia|]. rewrite off_S in Hk.
    destruct (Nat.lt_ge_cases r (offn d k)) as [L|L].
    - destruct (IH L) as (i & a & Hi & Ha & E). exists i, a. split; [lia|auto].
    - exists k, (r - offn d k). split; [lia|]. split; lia. }
  destruct (G (length d)) as (i & a & Hi & Ha & E); [unfold offn; rewrite firstn_all; auto|]. eauto.
Qed.
End Pos.
