(** Specification of the selection rules: which group each quantum number of each symmetry type belongs to, and the
    Clebsch-Gordan rule of that group. Written from the meaning of the quantum numbers (manual and class comments), not from
    the model. *)
From Coq Require Import List ZArith String.
Import ListNotations.
Local Open Scope string_scope.
Local Open Scope Z_scope.

(** [SpinMult]: SU(2) labelled by the multiplicity 2S+1; [OrbL]: SO(3) labelled by T; [Charge]: U(1); [Parity]: Z2 with values
    +-1; [Three]: Z3 with values 0, 1, 2; [NoRule]: a label on which the class imposes no rule. *)
Inductive group := SpinMult | OrbL | Charge | Parity | Three | NoRule.

(** Representation [x1] occurs in the product of [x2] and [x3]. *)
Definition occurs (g : group) (x1 x2 x3 : Z) : Prop :=
  match g with
  | SpinMult => 1 <= x2 /\ 1 <= x3 /\ Z.abs (x2 - x3) + 1 <= x1 <= x2 + x3 - 1
  | OrbL => 0 <= x2 /\ 0 <= x3 /\ Z.abs (x2 - x3) <= x1 <= x2 + x3
  | Charge => x1 = x2 + x3
  | Parity => x1 = x2 * x3
  | Three => exists k, x2 + x3 = x1 + 3 * k
  | NoRule => True
  end.
Fixpoint occurs_all (gs : list group) (a1 a2 a3 : list Z) : Prop :=
  match gs, a1, a2, a3 with
  | [], [], [], [] => True
  | g :: gs', x1 :: a1', x2 :: a2', x3 :: a3' => occurs g x1 x2 x3 /\ occurs_all gs' a1' a2' a3'
  | _, _, _, _ => False
  end.

(** The groups, in the order of the quantum numbers of the symmetry type. *)
Definition groups_of (name : string) : option (list group) :=
  match name with
  | "DBLISOSZ" => Some [SpinMult; SpinMult; Charge]
  | "DBLQSZ" => Some [Charge; Charge; Charge]
  | "DBLSU2" => Some [SpinMult; SpinMult]
  | "ISO" | "ISO2" => Some [SpinMult; SpinMult]
  | "ISOLR" | "ISO2LR" => Some [SpinMult; SpinMult; Parity]
  | "ISOSZ" => Some [SpinMult; Charge]
  | "ISOSZLR" => Some [SpinMult; Charge; Parity]
  | "NONE" => Some [NoRule]
  | "P" => Some [Parity]
  | "PP" => Some [Parity; Parity]
  | "QJ" | "QS" => Some [Charge; SpinMult]
  | "QSC3" => Some [Charge; SpinMult; Three]
  | "QSLR" => Some [Charge; SpinMult; Parity]
  | "QST" => Some [Charge; SpinMult; OrbL]
  | "QSTZ" => Some [Charge; SpinMult; Charge]
  | "QSZ" => Some [Charge; Charge]
  | "QSZLR" => Some [Charge; Charge; Parity]
  | "QSZTZ" => Some [Charge; Charge; Charge]
  | "SL" => Some [NoRule]
  | "SL3" => Some [NoRule; NoRule; NoRule]
  | "SPSU2" => Some [SpinMult]
  | "SPSU2C3" => Some [SpinMult; Three]
  | "SPSU2LR" => Some [SpinMult; Parity]
  | "SPSU2T" => Some [SpinMult; OrbL]
  | "SPU1" => Some [Charge]
  | "SPU1LR" => Some [Charge; Parity]
  | "SU2" => Some [SpinMult]
  | "U1" => Some [Charge]
  | _ => None
  end.
