(** C79: what the timing report should say, in terms of the sections that were passed. *)
From Coq Require Import List ZArith Bool Ascii String Sorted.
From Verif Require Import Base Time_model.
Import ListNotations.
Local Open Scope list_scope.
Local Open Scope Z_scope.

(** A section: its name, when it was entered, when it was left. *)
Definition section := (string * Z * Z)%type.
Definition duration (x : section) : Z := let '(_, a, b) := x in b - a.
Definition title (x : section) : string := let '(n, _, _) := x in n.
Definition events (h : list section) : list event := flat_map (fun '(x, a, b) => [Enter x a; Leave b]) h.
(** The clock does not go back: from the time t on, and the last section has been left at u. *)
Inductive in_time : Z -> list section -> Z -> Prop :=
| T_none t u : t <= u -> in_time t [] u
| T_more t x a b h u : t <= a -> a <= b -> in_time b h u -> in_time t ((x, a, b) :: h) u.
Definition total (l : list Z) : Z := fold_right Z.add 0 l.
(** The time spent in the sections of a name. *)
Definition spent (h : list section) (x : string) : Z := total (map duration (filter (fun s => String.eqb (title s) x) h)).
Definition before (x y : string) : Prop := String.compare x y = Lt.
(** Groups of digits, separated by an apostrophe. *)
Fixpoint joined (g : list (list ascii)) : list ascii := match g with [] => [] | [w] => w | w :: t => w ++ "'"%char :: joined t end.
