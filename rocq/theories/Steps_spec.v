(** What is claimed of the iteration. *)
From Coq Require Import List ZArith.
From Verif Require Import Base Patch_model Steps_model.
Import ListNotations.

(** Step number n of the chain. *)
Definition nth_step (n : nat) : step := {| s_true := Z.of_nat n; s_ndx := n |}.
(** Perform the given pieces of work one after the other; the first failure ends it. *)
Fixpoint in_order {D} (work : list (D -> res D)) (d : D) : res D :=
  match work with [] => Ok d | w :: l => match w d with Ok d' => in_order l d' | Throw => Throw | UB => UB end end.
Definition with_step {D} (s : step) (r : res D) : res (step * D) := match r with Ok d => Ok (s, d) | Throw => Throw | UB => UB end.
