(** What C74 talks about. *)
From Coq Require Import List ZArith Reals String Permutation Sorted.
Import ListNotations.
Local Open Scope R_scope.

(** Two energies that count as degenerate: equal, or both below the tolerance, or with a small difference relative to their sizes. *)
Definition degenerate (tol x y : R) : Prop := x = y \/ (Rabs x < tol /\ Rabs y < tol) \/ Rabs (x - y) < tol * (Rabs x + Rabs y).
(** All levels of a spectrum given by sectors. *)
Definition levels (diag : list (list Z * list R)) : list (R * list Z) := List.concat (map (fun s => map (fun e => (e, fst s)) (snd s)) diag).
(** Lexicographic order of quantum numbers. *)
Fixpoint qn_le (a b : list Z) : Prop :=
  match a, b with [], _ => True | _ :: _, [] => False | x :: a', y :: b' => (x < y)%Z \/ (x = y /\ qn_le a' b') end.
(** Ascending energies, and at equal energies ascending quantum numbers. *)
Definition listed (diag : list (list Z * list R)) (l : list (R * list Z)) : Prop :=
  Permutation l (levels diag) /\ StronglySorted (fun p q => fst p < fst q \/ (fst p = fst q /\ qn_le (snd p) (snd q))) l.
(** The number of levels written: n of them, or all, and then the rest of the last cluster; a cluster goes on from level to level. *)
Definition complete_clusters (n : nat) (tol : R) (l : list (R * list Z)) (len : nat) : Prop :=
  (Nat.min n (List.length l) <= len <= List.length l)%nat /\
  (forall k p q, (Nat.min n (List.length l) <= k < len)%nat -> nth_error l (k - 1) = Some p -> nth_error l k = Some q -> degenerate tol (fst q) (fst p)) /\
  (forall p q, nth_error l (len - 1) = Some p -> nth_error l len = Some q -> ~ degenerate tol (fst q) (fst p)).
Definition total (mult : list Z -> nat) (l : list (R * list Z)) : nat := list_sum (map (fun p => mult (snd p)) l).
(** Strings in order. *)
Definition ordered (l : list string) : Prop := Sorted (fun a b => String.leb a b = true) l.
(** A line with an energy, quantum numbers and a degeneracy describes a group: the energy of its first level, the names of the sectors in order, the
    number of states. *)
Definition describes (energy : R -> option R) (mult : list Z -> nat) (to_string : list Z -> string) (g : list (R * list Z)) (e : option R) (qn : list string) (d : nat) : Prop :=
  exists p t, g = p :: t /\ e = energy (fst p) /\ Permutation qn (map (fun r => to_string (snd r)) g) /\ ordered qn /\ d = total mult g.
