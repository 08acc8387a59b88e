(** What C72 talks about. *)
From Coq Require Import List Reals Permutation Sorted.
From Verif Require Import Interp_spec.
Import ListNotations.
Local Open Scope R_scope.

Definition total (ys : list R) : R := fold_right Rplus 0 ys.
Definition mean (ys : list R) : R := total ys / INR (length ys).
(** Two abscissae that count as one. *)
Definition near (a x : R) : Prop := a = x \/ Rabs (a - x) < / 1000000 * Rabs a.
(** A common mesh of sets of abscissae: in order, of abscissae that occur, near each that occurs, and without neighbours that are near each other. *)
Definition common_mesh (xss : list (list R)) (m : list R) : Prop :=
  StronglySorted Rle m /\ (forall a, In a m -> exists xs, In xs xss /\ In a xs) /\ (forall xs x, In xs xss -> In x xs -> exists a, In a m /\ near a x) /\
  (forall l a b r, m = l ++ a :: b :: r -> a <> 0 -> ~ near a b).
(** The value at T of the column j of a block, whose lines may be in any order. *)
Definition column_value (j : nat) (b : list (R * list R)) (T y : R) : Prop :=
  exists v, Permutation v (map (fun p => (fst p, nth j (snd p) 0)) b) /\ increasing v /\ linear_interpolant v T y.
(** A block: not empty, so many values for each temperature, no temperature twice. *)
Definition good_block (columns : nat) (b : list (R * list R)) : Prop := b <> [] /\ Forall (fun p => length (snd p) = columns) b /\ NoDup (map fst b).
