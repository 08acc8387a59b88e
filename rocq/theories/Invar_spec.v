(** Specification vocabulary for quantum numbers (independent of the model's functions). *)
From Coq Require Import List ZArith.
From Verif Require Import Base Invar_model.
Import ListNotations.
Local Open Scope Z_scope.

(** A value a quantum number of the given kind can take. *)
Definition adm (t : qtype) (x : Z) : Prop :=
  match t with
  | Additive => True
  | Multiplicative => x = 1 \/ x = -1
  | Mod3 => x = 0 \/ x = 1 \/ x = 2
  end.

Definition admissible (ts : list qtype) (a : invar) : Prop := Forall2 adm ts a.

(** [z] is the composition of [x] and [y]: sum, product, or sum modulo three. *)
Definition composes (t : qtype) (x y z : Z) : Prop :=
  match t with
  | Additive => z = x + y
  | Multiplicative => z = x * y
  | Mod3 => 0 <= z < 3 /\ exists k, x + y = z + 3 * k
  end.

Inductive composes_all : list qtype -> invar -> invar -> invar -> Prop :=
| ca_nil : composes_all [] [] [] []
| ca_cons t ts x y z a b c : composes t x y z -> composes_all ts a b c -> composes_all (t :: ts) (x :: a) (y :: b) (z :: c).

(** The neutral element. *)
Definition unit1 (t : qtype) : Z := match t with Additive => 0 | Multiplicative => 1 | Mod3 => 0 end.
Definition unit_of (ts : list qtype) : invar := map unit1 ts.
