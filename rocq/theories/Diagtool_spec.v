(** What C75 talks about. *)
From Coq Require Import List ZArith Reals.
Import ListNotations.
Local Open Scope R_scope.

Fixpoint sum (n : nat) (f : nat -> R) : R := match n with 0%nat => 0 | S k => sum k f + f k end.
Definition delta (i j : nat) : R := if Nat.eq_dec i j then 1 else 0.
(** Element (i, j) of a list of rows. *)
Definition entry (l : list (list R)) (i j : nat) : R := nth j (nth i l []) 0.
Definition square (n : nat) (l : list (list R)) : Prop := length l = n /\ Forall (fun r => length r = n) l.
(** The documented contract of dsyev with UPLO = 'L': only the elements A(i,j), i >= j, at place i + j*n of the array are used; they define a symmetric
    matrix; eigenvalue k belongs to the vector in places k*n ... k*n + n-1; the vectors are orthonormal and the eigenvalues ascend. *)
Definition lower (n : nat) (a : nat -> R) (i j : nat) : R := if Nat.leb j i then a (i + j * n)%nat else a (j + i * n)%nat.
Record dsyev_contract (dsyev : nat -> (nat -> R) -> option ((nat -> R) * (nat -> R))) : Prop := {
  ds_eigen : forall n a w z, dsyev n a = Some (w, z) -> forall k i, (k < n)%nat -> (i < n)%nat -> sum n (fun j => lower n a i j * z (j + k * n)%nat) = w k * z (i + k * n)%nat;
  ds_orthonormal : forall n a w z, dsyev n a = Some (w, z) -> forall k l, (k < n)%nat -> (l < n)%nat -> sum n (fun j => z (j + k * n)%nat * z (j + l * n)%nat) = delta k l;
  ds_ascending : forall n a w z, dsyev n a = Some (w, z) -> forall k l, (k <= l < n)%nat -> w k <= w l;
  ds_lower : forall n a b, (forall i j, (j <= i < n)%nat -> a (i + j * n)%nat = b (i + j * n)%nat) -> dsyev n a = dsyev n b }.
Definition symmetric (n : nat) (H : list (list R)) : Prop := forall i j, (i < n)%nat -> (j < n)%nat -> entry H i j = entry H j i.
(** Row k of U is an eigenvector of H for the eigenvalue w(k); the rows are orthonormal, the eigenvalues ascend. *)
Definition eigensystem (n : nat) (H : list (list R)) (w : list R) (U : list (list R)) : Prop :=
  length w = n /\ square n U /\
  (forall k i, (k < n)%nat -> (i < n)%nat -> sum n (fun j => entry H i j * entry U k j) = nth k w 0 * entry U k i) /\
  (forall k l, (k < n)%nat -> (l < n)%nat -> sum n (fun j => entry U k j * entry U l j) = delta k l) /\
  forall k l, (k <= l < n)%nat -> nth k w 0 <= nth l w 0.
(** The numbers of a text file: the rows that are not blank and not comments, every word a number. *)
From Verif Require Import Diagtool_model.
Inductive spells : list text_line -> list (list R) -> Prop :=
| sp_nil : spells [] []
| sp_skipped l rows : spells l rows -> spells (Skipped :: l) rows
| sp_row r l rows : r <> [] -> spells l rows -> spells (Words (map (fun x => ([x], false)) r) :: l) (r :: rows).
(** A matrix or its transpose. *)
Definition op (t : bool) (m : matrix) (i j : nat) : R := if t then m_el m j i else m_el m i j.
Definition op_rows (t : bool) (m : matrix) : nat := if t then m_cols m else m_rows m.
Definition op_cols (t : bool) (m : matrix) : nat := if t then m_rows m else m_cols m.
(** The same with words that are no numbers ([None]). *)
Inductive spells_words : list text_line -> list (list (option R)) -> Prop :=
| sw_nil : spells_words [] []
| sw_skipped l rows : spells_words l rows -> spells_words (Skipped :: l) rows
| sw_row r l rows : r <> [] -> spells_words l rows -> spells_words (Words (map (fun o : option R => match o with Some x => ([x], false) | None => ([], true) end) r) :: l) (r :: rows).
