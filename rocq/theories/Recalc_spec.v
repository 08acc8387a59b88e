(** Specification vocabulary for the transformation of singlet operators. *)
From Coq Require Import List ZArith Bool.
From Verif Require Import Base Invar_model Symmetry_model Symmetry_spec Subspaces_model Recalc_model.
Import ListNotations.
Local Open Scope Z_scope.

(** Contribution of local state [i] (0-based) with ancestor sector [A]: the eigenvector block and the old operator block,
    if the ancestor sector exists, has states and carries a block of the operator. *)
Definition singlet_term {M} (sy : symmetry) (cold : list ((invar * invar) * M)) (A : invar) (e : eig M) (s : subdims) (i : nat) : option (M * M) :=
  if is_allowed sy A then
    match nth_error (sd_dims s) i with
    | Some n => if n =? 0 then None else
                match map_find2 cold A A, nth_error (eg_blocks e) i with Some c, Some U => Some (U, c) | _, _ => None end
    | None => None
    end
  else None.

(** New block of a singlet operator in sector [I]: starting from zero, add U_i^dagger . O_(ancestor i) . U_i for every local state i. *)
Definition singlet_value {M C} (ops : matops M C) (one : C) (sy : symmetry) (combs : nat) (t : tables) (cold : list ((invar * invar) * M))
  (I : invar) (e : eig M) (s : subdims) : M :=
  let z := mo_zero ops (eg_nrstored e) (eg_nrstored e) in
  if eg_nrstored e =? 0 then z else
  fold_left (fun acc p => mo_transform ops acc one (fst p) (snd p) (fst p))
    (catSome (map (fun i => singlet_term sy cold (val [] (ancestor sy combs t I i)) e s i) (seq 0 combs))) z.

(** Contribution of one table entry to the new operator block between sectors [I1] and [Ip]: the coefficient, the eigenvector
    block of the bra, the old operator block and the eigenvector block of the ket; none if an ancestor sector is not allowed,
    a basis block is empty or the old operator has no block there. *)
Definition entry_term {M C} (sy : symmetry) (cold : list ((invar * invar) * M)) (e1 ep : eig M) (s1 sp : subdims) (r : recalc_entry C)
  : option (C * M * M * M) :=
  if is_allowed sy (re_IN1 r) && is_allowed sy (re_INp r) then
    match nth_error (sd_dims s1) (re_i1 r - 1), nth_error (sd_dims sp) (re_ip r - 1) with
    | Some n1, Some np =>
        if (n1 =? 0) || (np =? 0) then None else
        match map_find2 cold (re_IN1 r) (re_INp r), nth_error (eg_blocks e1) (re_i1 r - 1), nth_error (eg_blocks ep) (re_ip r - 1) with
        | Some c, Some U1, Some Up => Some (re_factor r, U1, c, Up)
        | _, _, _ => None
        end
    | _, _ => None
    end
  else None.
Definition general_value {M C} (ops : matops M C) (sy : symmetry) (cold : list ((invar * invar) * M)) (e1 ep : eig M) (s1 sp : subdims)
  (table : list (recalc_entry C)) : M :=
  let z := mo_zero ops (eg_nrstored e1) (eg_nrstored ep) in
  if (eg_nrstored e1 =? 0) || (eg_nrstored ep =? 0) then z else
  fold_left (fun acc q => match q with (f, U1, c, Up) => mo_transform ops acc f U1 c Up end)
    (catSome (map (entry_term sy cold e1 ep s1 sp) table)) z.

(** The table entry names local states that exist, and the sectors it names are the ancestors reached through them. *)
Definition in_range {C} (combs : nat) (r : recalc_entry C) : Prop := (1 <= re_i1 r <= combs)%nat /\ (1 <= re_ip r <= combs)%nat.
Definition names_ancestors {C} (sy : symmetry) (combs : nat) (t : tables) (I1 Ip : invar) (r : recalc_entry C) : Prop :=
  ancestor sy combs t I1 (re_i1 r - 1) = Ok (re_IN1 r) /\ ancestor sy combs t Ip (re_ip r - 1) = Ok (re_INp r).
