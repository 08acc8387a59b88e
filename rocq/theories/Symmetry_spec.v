(** Specification vocabulary for sectors (multiplets). *)
From Coq Require Import List ZArith Bool String.
From Verif Require Import Base Invar_model Invar_spec Symmetry_model.
Import ListNotations.
Local Open Scope Z_scope.

(** A genuine multiplet: admissible quantum numbers and every multiplicity (2S+1, 2I+1, 2T+1) at least one. *)
Definition multiplet (sy : symmetry) (I : invar) : Prop :=
  admissible (ts sy) I /\
  forall k n x, In (k, n) (sy_mult sy) -> get (sy_sig sy) I n = Ok x -> 1 <= mult_factor k x.

(** Value of a model call that is known not to throw. *)
Definition val {A} (d : A) (r : res A) : A := match r with Ok a => a | _ => d end.
Definition degeneracy (sy : symmetry) (I : invar) : Z := val 0 (mult sy I).
Definition is_allowed (sy : symmetry) (I : invar) : bool := val false (allowed sy I).
Definition coupled (sy : symmetry) (I1 I2 I3 : invar) : bool := val false (triangle sy I1 I2 I3).

(** Number of physical states the sector [J] receives from the multiplet [I] through a local state transforming as [q]. *)
Definition received (sy : symmetry) (I J q : invar) : Z :=
  if is_allowed sy J && coupled sy J I q then degeneracy sy J else 0.

Definition sh_combs (sh : shipped_table) : nat := combs_of (sh_name sh) (sh_channels sh) false.
