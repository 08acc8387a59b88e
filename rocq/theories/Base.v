(** Shared vocabulary of all model files: outcomes of C++ functions and finite sums. *)
From Coq Require Import List ZArith Lia Bool Permutation.
Import ListNotations.
Local Open Scope Z_scope.

(** Outcome of a C++ call: a value, a C++ exception (failed [my_assert], explicit [throw]; see
    /repo/c++/portabil.hpp, [my_assert] is active in every build), or undefined behaviour. *)
Inductive res (A : Type) : Type :=
| Ok (a : A)
| Throw
| UB.
Arguments Ok {A} a.
Arguments Throw {A}.
Arguments UB {A}.

Definition bind {A B} (r : res A) (f : A -> res B) : res B :=
  match r with Ok a => f a | Throw => Throw | UB => UB end.
Notation "'let*' x ':=' r 'in' k" := (bind r (fun x => k)) (at level 61, x pattern, r at next level, right associativity).

(** C++ evaluates a loop over a container in order and stops at the first exception. *)
Fixpoint mapM {A B} (f : A -> res B) (l : list A) : res (list B) :=
  match l with
  | [] => Ok []
  | x :: t => let* y := f x in let* ys := mapM f t in Ok (y :: ys)
  end.

Definition my_assert (b : bool) : res unit := if b then Ok tt else Throw.

(** Mathematical finite sum. *)
Definition zsum (l : list Z) : Z := fold_right Z.add 0 l.

Lemma zsum_cons x l : zsum (x :: l) = x + zsum l.
Proof. reflexivity. Qed.

Lemma zsum_app l1 l2 : zsum (l1 ++ l2) = zsum l1 + zsum l2.
Proof. induction l1; simpl; lia. Qed.

Lemma zsum_perm l1 l2 : Permutation l1 l2 -> zsum l1 = zsum l2.
Proof. induction 1; simpl in *; lia. Qed.

Lemma zsum_map_ext {A} (f g : A -> Z) l : (forall x, In x l -> f x = g x) -> zsum (map f l) = zsum (map g l).
Proof. intros H; induction l; simpl; auto. rewrite H by (left; auto). f_equal. apply IHl. intros; apply H; right; auto. Qed.

Lemma zsum_map_add {A} (f g : A -> Z) l : zsum (map (fun x => f x + g x) l) = zsum (map f l) + zsum (map g l).
Proof. induction l; simpl; lia. Qed.

Lemma zsum_map_mul {A} (c : Z) (f : A -> Z) l : zsum (map (fun x => c * f x) l) = c * zsum (map f l).
Proof. induction l; simpl; lia. Qed.

Lemma zsum_map_mul_r {A} (c : Z) (f : A -> Z) l : zsum (map (fun x => f x * c) l) = zsum (map f l) * c.
Proof. induction l; simpl; lia. Qed.

Lemma zsum_map_zero {A} (f : A -> Z) l : (forall x, In x l -> f x = 0) -> zsum (map f l) = 0.
Proof. intros H; induction l; simpl; auto. rewrite H by (left; auto). rewrite IHl; auto. intros; apply H; right; auto. Qed.

Lemma zsum_swap {A B} (f : A -> B -> Z) la lb :
  zsum (map (fun a => zsum (map (fun b => f a b) lb)) la) = zsum (map (fun b => zsum (map (fun a => f a b) la)) lb).
Proof.
  induction la; simpl.
  - symmetry. apply zsum_map_zero. auto.
  - rewrite IHla, <- zsum_map_add. reflexivity.
Qed.

Lemma zsum_nonneg l : (forall x, In x l -> 0 <= x) -> 0 <= zsum l.
Proof. induction l; simpl; intros; [lia|]. pose proof (H a (or_introl eq_refl)). assert (0 <= zsum l) by auto. lia. Qed.

Lemma zsum_le {A} (f g : A -> Z) l : (forall x, In x l -> f x <= g x) -> zsum (map f l) <= zsum (map g l).
Proof. induction l; simpl; intros; [lia|]. pose proof (H a (or_introl eq_refl)). assert (zsum (map f l) <= zsum (map g l)) by auto. lia. Qed.

Lemma mapM_ok {A B} (f : A -> res B) (g : A -> B) l : (forall x, In x l -> f x = Ok (g x)) -> mapM f l = Ok (map g l).
Proof. induction l; simpl; intros H; auto. rewrite H by auto. simpl. rewrite IHl; auto. Qed.

Lemma mapM_Ok_inv {A B} (f : A -> res B) l ys : mapM f l = Ok ys -> Forall2 (fun x y => f x = Ok y) l ys.
Proof.
  revert ys; induction l; simpl; intros ys H.
  - inversion H; constructor.
  - destruct (f a) eqn:E; simpl in H; try discriminate.
    destruct (mapM f l) eqn:E2; simpl in H; try discriminate. inversion H; subst. constructor; auto.
Qed.

Lemma mapM_Forall2 {A B} (f : A -> res B) l ys : Forall2 (fun x y => f x = Ok y) l ys -> mapM f l = Ok ys.
Proof. induction 1; simpl; auto. rewrite H. simpl. rewrite IHForall2. auto. Qed.
