(** Model of /repo/c++/output.hpp: the files annotated.dat (class Annotated) and custom, customfdm (class ExpvOutput), with my_fcmp of
    /repo/c++/numerics.hpp and the assignments of measure_singlet in /repo/c++/measurements.hpp.  The lines are data, the formatting of numbers
    is left out; real numbers without rounding. *)
From Coq Require Import List ZArith Reals Bool String.
From Verif Require Import Interp_model.
Import ListNotations.
Local Open Scope list_scope.
Local Open Scope R_scope.

(** boost::math::sign *)
Definition sign (x : R) : Z := if Rltb 0 x then 1%Z else if Rltb x 0 then (-1)%Z else 0%Z.
(** numerics.hpp:130-137 my_fcmp *)
Definition my_fcmp (x y epsilon : R) : Z :=
  if (Rleb x 0 && Rleb 0 x && Rleb y 0 && Rleb 0 y)%bool then 0%Z
  else if (Rltb (Rabs x) epsilon && Rltb (Rabs y) epsilon)%bool then 0%Z
  else if Rltb (Rabs (x - y)) (epsilon * (Rabs x + Rabs y)) then 0%Z
  else sign (x - y).

(** invar.hpp:81: std::vector<int> in lexicographic order *)
Fixpoint invar_ltb (a b : list Z) : bool :=
  match a, b with
  | _, [] => false
  | [], _ :: _ => true
  | x :: a', y :: b' => if Z.ltb x y then true else if Z.ltb y x then false else invar_ltb a' b'
  end.
Notation level := (R * list Z)%type.
(** std::pair's operator< *)
Definition level_ltb (p q : level) : bool := if Rltb (fst p) (fst q) then true else if Rltb (fst q) (fst p) then false else invar_ltb (snd p) (snd q).
(** ranges::sort; the order is total, so that the result is unique. *)
Fixpoint insert_by {A} (lt : A -> A -> bool) (x : A) (l : list A) : list A :=
  match l with [] => [x] | y :: t => if lt y x then y :: insert_by lt x t else x :: l end.
Definition sort_by {A} (lt : A -> A -> bool) (l : list A) : list A := fold_right (insert_by lt) [] l.

Record settings := { dumpannotated : nat; dumpgroups : bool; grouptol : R; dumpscaled : bool; dumpabs : bool; dumpEscale : R }.
(** output.hpp:67-69 scaled_energy; a division by zero gives no finite number. *)
Definition scaled_energy (P : settings) (scale total_energy : R) (e : R) : option R :=
  rdiv (e * (if dumpscaled P then 1 else scale) + (if dumpabs P then total_energy else 0)) (dumpEscale P).
(** One line of the file: a group of levels with its energy, quantum numbers and degeneracy, or a single level. *)
Inductive line := Group (e : option R) (qn : list string) (degeneracy : nat) | State (e : option R) (i : list Z).

Section Dump.
  Variables (P : settings) (scale total_energy : R).
  Variables (mult : list Z -> nat) (to_string : list Z -> string).
  (** output.hpp:97: the cluster of the last level goes on. *)
  Fixpoint further (last : R) (rest : list level) : nat :=
    match rest with [] => 0%nat | p :: t => if Z.eqb (my_fcmp (fst p) last (grouptol P)) 0 then S (further (fst p) t) else 0%nat end.
  (** output.hpp:95-97; seznam[len-1] exists since both numbers are positive. *)
  Definition dump_length (l : list level) : nat :=
    let len := Nat.min (List.length l) (dumpannotated P) in (len + further (fst (nth (len - 1) l (0%R, []))) (skipn len l))%nat.
  (** output.hpp:106-111: the levels of the group of the energy e0 *)
  Fixpoint group_of (e0 : R) (l : list level) : list level :=
    match l with [] => [] | p :: t => if Z.eqb (my_fcmp (fst p) e0 (grouptol P)) 0 then p :: group_of e0 t else [] end.
  Definition group_line (e0 : R) (g : list level) : line :=
    Group (scaled_energy P scale total_energy e0) (sort_by String.ltb (map (fun p => to_string (snd p)) g)) (fold_left Nat.add (map (fun p => mult (snd p)) g) 0%nat).
  (** output.hpp:101-116: the loop over the groups; the fuel is the number of levels, every turn uses at least one. *)
  Fixpoint dump_groups (fuel : nat) (l : list level) : list line :=
    match fuel, l with
    | S fuel', p :: _ => let g := group_of (fst p) l in group_line (fst p) g :: dump_groups fuel' (skipn (List.length g) l)
    | _, _ => []
    end.
  (** output.hpp:79-123 dump: nothing is written for dumpannotated = 0; otherwise these lines and an empty line. *)
  Definition dump (diag : list (list Z * list R)) : option (list line) :=
    if Nat.eqb (dumpannotated P) 0 then None
    else
      let seznam := sort_by level_ltb (flat_map (fun s => map (fun e => (e, fst s)) (snd s)) diag) in
      match seznam with
      | [] => Some []
      | _ =>
          let l := firstn (dump_length seznam) seznam in
          Some (if dumpgroups P then dump_groups (List.length l) l else map (fun p => State (scaled_energy P scale total_energy (fst p)) (snd p)) l)
      end.
End Dump.

(** ** custom, customfdm *)
Section Expv.
  Context {V : Type} (zero : V).
  (** std::map, operator[]: an absent key is added with the value zero. *)
  Fixpoint look (name : string) (m : list (string * V)) : option V :=
    match m with [] => None | (k, v) :: t => if String.eqb k name then Some v else look name t end.
  Fixpoint assign (name : string) (v : V) (m : list (string * V)) : list (string * V) :=
    match m with [] => [(name, v)] | (k, w) :: t => if String.eqb k name then (k, v) :: t else (k, w) :: assign name v t end.
  Definition subscript (name : string) (m : list (string * V)) : V * list (string * V) :=
    match look name m with Some v => (v, m) | None => (zero, assign name zero m) end.
  (** measurements.hpp:29-30, 42-43: the values of ops, then those of opsg *)
  Definition measure (ops opsg : list (string * V)) (m : list (string * V)) : list (string * V) :=
    fold_left (fun m p => assign (fst p) (snd p) m) opsg (fold_left (fun m p => assign (fst p) (snd p) m) ops m).
  (** output.hpp:149-151: the columns *)
  Definition fields_of (ops opsg : list (string * V)) : list string := map fst ops ++ map fst opsg.
  (** output.hpp:35-39 field_numbers, 41-45 field_names *)
  Definition field_numbers (fields : list string) : list nat := 1%nat :: map (fun ctr => (1 + ctr)%nat) (seq 1 (List.length fields)).
  Definition field_names (fields : list string) : list string := "T"%string :: fields.
  (** output.hpp:48-54 field_values: the label and the values, and the map after it *)
  Fixpoint field_values (fields : list string) (m : list (string * V)) : list V * list (string * V) :=
    match fields with [] => ([], m) | f :: t => let (v, m') := subscript f m in let (vs, m'') := field_values t m' in (v :: vs, m'') end.
  (** One measurement and its row. *)
  Definition custom_row (ops opsg m : list (string * V)) : list V * list (string * V) := field_values (fields_of ops opsg) (measure ops opsg m).
End Expv.
