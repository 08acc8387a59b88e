(** The product that the tool forms is the matrix in the new bases. *)
From Coq Require Import List ZArith Reals Lia Lra.
From Verif Require Import Base Instantiate_model Instantiate_spec.
Import ListNotations.
Local Open Scope list_scope.

Lemma total_ext n f g : (forall k, (k < n)%nat -> f k = g k) -> total n f = total n g.
Proof. intros H. unfold total. f_equal. apply map_ext_in. intros k Hk. apply in_seq in Hk. apply H. lia. Qed.
Lemma total_scal n c f : total n (fun k => c * f k)%R = (c * total n f)%R.
Proof. unfold total. induction (seq 0 n) as [|x l IH]; cbn; [ring |]. rewrite IH. ring. Qed.
Lemma fold_seq {A} (l : list A) d (f : A -> R) : fold_right (fun x acc => (f x + acc)%R) 0%R l = total (List.length l) (fun k => f (nth k l d)).
Proof.
  unfold total. assert (G : forall s (g : nat -> R), (forall k, (k < List.length l)%nat -> g (s + k)%nat = f (nth k l d)) ->
    fold_right (fun x acc => (f x + acc)%R) 0%R l = fold_right Rplus 0%R (map g (seq s (List.length l)))).
  { induction l as [|x l IH]; intros s g H; cbn; [reflexivity |]. rewrite (IH (S s) g).
    - specialize (H 0%nat). cbn in H. rewrite Nat.add_0_r in H. rewrite H by lia. reflexivity.
    - intros k Hk. specialize (H (S k)). cbn in H. rewrite <- H by lia. f_equal. lia. }
  apply (G 0%nat). reflexivity.
Qed.
Section Mats.
  Variable top : R.
  Notation N := (real_num top).
  Lemma dot_total n a b : List.length a = n -> List.length b = n -> dot N a b = total n (fun k => nth k a 0 * nth k b 0)%R.
  Proof.
    intros Ha Hb. unfold dot. cbn [n_add n_mul n_zero real_num].
    rewrite (fold_seq (combine a b) (0%R, 0%R) (fun p => fst p * snd p)%R). rewrite combine_length, Ha, Hb, Nat.min_id. apply total_ext. intros k Hk.
    rewrite combine_nth by congruence. reflexivity.
  Qed.
  Lemma nth_column j b k : nth k (column N j b) 0%R = entry b k j.
  Proof.
    unfold column, entry. cbn [n_zero real_num]. revert k. induction b as [|r b IH]; intros [|k]; cbn; try reflexivity; [destruct j; reflexivity | destruct j; reflexivity |]. apply IH.
  Qed.
  Lemma column_length j b : List.length (column N j b) = List.length b.
  Proof. apply map_length. Qed.
  Lemma nth_map_seq {A} (f : nat -> A) n k d : (k < n)%nat -> nth k (map f (seq 0 n)) d = f k.
  Proof. intros H. rewrite (nth_indep _ d (f 0%nat)) by now rewrite map_length, seq_length. rewrite map_nth. rewrite seq_nth by assumption. reflexivity. Qed.
  Lemma map_list {A B} (f : A -> B) d l : map f l = map (fun k => f (nth k l d)) (seq 0 (List.length l)).
  Proof.
    induction l as [|x l IH]; cbn; [reflexivity |]. f_equal. rewrite <- seq_shift, map_map. exact IH.
  Qed.
  Lemma nth_in_shape r c m k : shape r c m -> (k < r)%nat -> List.length (nth k m []) = c.
  Proof. intros [H1 H2] Hk. apply H2. apply nth_In. lia. Qed.
  Lemma product_in_basis u m v : shape (List.length u) (List.length u) u -> shape (List.length u) (List.length v) m -> shape (List.length v) (List.length v) v ->
    mat_prod N u (mat_prod N m (mat_trans N (List.length v) v) (List.length v)) (List.length v) = in_basis u m v.
  Proof.
    intros Hu Hm Hv. unfold in_basis, table. unfold mat_prod at 1. rewrite (map_list _ [] u). apply map_ext_in. intros a Ha. apply in_seq in Ha.
    apply map_ext_in. intros b Hb. apply in_seq in Hb.
    rewrite (dot_total (List.length u)); [| apply (nth_in_shape (List.length u) _ _ _ Hu); lia |].
    2:{ rewrite column_length. unfold mat_prod. rewrite map_length. apply Hm. }
    apply total_ext. intros k Hk. rewrite nth_column. unfold entry at 1. unfold mat_prod. rewrite (map_list _ [] m). rewrite nth_map_seq by (destruct Hm as [-> _]; lia).
    rewrite nth_map_seq by lia. rewrite (dot_total (List.length v)); [| apply (nth_in_shape (List.length u) _ _ _ Hm); lia |].
    2:{ rewrite column_length. unfold mat_trans. now rewrite map_length, seq_length. }
    fold (entry u a k). rewrite <- total_scal. apply total_ext. intros l Hl. rewrite nth_column. unfold entry at 2. unfold mat_trans. rewrite nth_map_seq by lia. rewrite nth_column.
    fold (entry m k l). unfold entry. ring.
  Qed.
  Lemma in_basis_shape u m v : shape (List.length u) (List.length v) (in_basis u m v).
  Proof.
    unfold in_basis, table. split; [now rewrite map_length, seq_length |]. intros row H. apply in_map_iff in H as (a & <- & _). now rewrite map_length, seq_length.
  Qed.
End Mats.
