(** Model of the operator-transformation routines: /repo/c++/recalc.hpp [recalc_general] and /repo/c++/symmetry.hpp
    [recalc_singlet]. Matrices are an abstract type with the operations the code uses; the CUDA branch and logging are not
    modelled. *)
From Coq Require Import List ZArith Bool String.
From Verif Require Import Base Invar_model Symmetry_model Subspaces_model.
Import ListNotations.
Local Open Scope Z_scope.

(** The matrix operations used: [zero_matrix<S>(r, c)], [transform(cn, factor, U1, cold, Up)] (returning the updated
    accumulator) and [isfinite(factor)]. *)
Record matops (M C : Type) := { mo_zero : Z -> Z -> M; mo_transform : M -> C -> M -> M -> M -> M; mo_finite : C -> bool }.
Arguments mo_zero {M C}. Arguments mo_transform {M C}. Arguments mo_finite {M C}.

(** Eigen-decomposition of one sector as seen here: [getnrstored()] and the blocks U (one per local state). *)
Record eig (M : Type) := { eg_nrstored : Z; eg_blocks : list M }.
Arguments eg_nrstored {M}. Arguments eg_blocks {M}.

(** std::map::at *)
Definition map_at {V} (m : list (invar * V)) (I : invar) : res V :=
  match find (fun p => invar_eqb (fst p) I) m with Some (_, v) => Ok v | None => Throw end.
(** std::map<Twoinvar,Matrix>::find *)
Definition map_find2 {V} (m : list ((invar * invar) * V)) (I J : invar) : option V :=
  match find (fun p => invar_eqb (fst (fst p)) I && invar_eqb (snd (fst p)) J) m with Some (_, v) => Some v | None => None end.

(** eigen.hpp:243-246 - 1-based block access; the [assert] is compiled out in release builds, out of range is UB. *)
Definition block {M} (e : eig M) (i : nat) : res M :=
  match i with O => UB | S j => match nth_error (eg_blocks e) j with Some m => Ok m | None => UB end end.

(** symmetry.hpp [Recalc<S>]: i1, ip (1-based), IN1, INp, factor. *)
Record recalc_entry (C : Type) := { re_i1 : nat; re_ip : nat; re_IN1 : invar; re_INp : invar; re_factor : C }.
Arguments re_i1 {C}. Arguments re_ip {C}. Arguments re_IN1 {C}. Arguments re_INp {C}. Arguments re_factor {C}.

Section Recalc.
  Variables (M C : Type) (ops : matops M C) (sy : symmetry) (combs : nat) (t : tables).
  Variables (diag : list (invar * eig M)) (substruct : structure) (cold : list ((invar * invar) * M)).

  (** recalc.hpp:161-176 - body of the loop over the table. *)
  Definition recalc_step (I1 Ip : invar) (e1 ep : eig M) (s1 sp : subdims) (cn : M) (r : recalc_entry C) : res M :=
    let* _ := my_assert (Nat.leb 1 (re_i1 r)) in
    let* n := nr_combs combs t in
    let* _ := my_assert (Nat.leb (re_i1 r) n && Nat.leb 1 (re_ip r) && Nat.leb (re_ip r) n) in
    let* a1 := allowed sy (re_IN1 r) in
    if negb a1 then Ok cn else
    let* ap := allowed sy (re_INp r) in
    if negb ap then Ok cn else
    let* anc1 := ancestor sy combs t I1 (re_i1 r - 1) in
    let* _ := my_assert (invar_eqb (re_IN1 r) anc1) in
    let* ancp := ancestor sy combs t Ip (re_ip r - 1) in
    let* _ := my_assert (invar_eqb (re_INp r) ancp) in
    let* rmax1 := rmax (sd_dims s1) (Z.of_nat (re_i1 r - 1)) in
    let* rmaxp := rmax (sd_dims sp) (Z.of_nat (re_ip r - 1)) in
    if (rmax1 =? 0) || (rmaxp =? 0) then Ok cn else
    match map_find2 cold (re_IN1 r) (re_INp r) with
    | None => Ok cn
    | Some c =>
        let* _ := my_assert (mo_finite ops (re_factor r)) in
        let* U1 := block e1 (re_i1 r) in
        let* Up := block ep (re_ip r) in
        Ok (mo_transform ops cn (re_factor r) U1 c Up)
    end.

  Fixpoint recalc_loop (I1 Ip : invar) (e1 ep : eig M) (s1 sp : subdims) (cn : M) (table : list (recalc_entry C)) : res M :=
    match table with
    | [] => Ok cn
    | r :: table' => let* cn' := recalc_step I1 Ip e1 ep s1 sp cn r in recalc_loop I1 Ip e1 ep s1 sp cn' table'
    end.

  (** recalc.hpp:119-180 *)
  Definition recalc_general (I1 Ip : invar) (table : list (recalc_entry C)) (Iop : invar) : res (option M) :=
    let* tri := triangle sy I1 Ip Iop in
    if negb tri then Ok None else
    let* e1 := map_at diag I1 in
    let* ep := map_at diag Ip in
    let* s1 := map_at substruct I1 in
    let* sp := map_at substruct Ip in
    let cn := mo_zero ops (eg_nrstored e1) (eg_nrstored ep) in
    if (eg_nrstored e1 =? 0) || (eg_nrstored ep =? 0) then Ok (Some cn) else
    let* r := recalc_loop I1 Ip e1 ep s1 sp cn table in Ok (Some r).

  (** symmetry.hpp:201-217; [one] is the factor 1.0. *)
  Definition parity_of (I : invar) (parity : Z) : res invar :=
    if parity =? -1 then invert_parity (sy_sig sy) I else Ok I.
  Definition singlet_table (one : C) (I : invar) (parity : Z) : res (list (recalc_entry C)) :=
    let* n := nr_combs combs t in
    mapM (fun i => let* anc := ancestor sy combs t I i in
                   let* ancp := parity_of anc parity in
                   Ok {| re_i1 := i + 1; re_ip := i + 1; re_IN1 := anc; re_INp := ancp; re_factor := one |}) (seq 0 n).
  Definition singlet_block (one : C) (parity : Z) (I : invar) : res (option ((invar * invar) * M)) :=
    let* Ip := parity_of I parity in
    let* table := singlet_table one I parity in
    let* Iop := parity_of (sy_singlet sy) parity in
    let* nn := recalc_general I Ip table Iop in
    Ok (match nn with Some m => Some ((I, Ip), m) | None => None end).
  Fixpoint catSome {A} (l : list (option A)) : list A :=
    match l with [] => [] | Some a :: r => a :: catSome r | None :: r => catSome r end.
  Definition recalc_singlet (one : C) (parity : Z) : res (list ((invar * invar) * M)) :=
    let* _ := my_assert (if sy_islr sy then (parity =? 1) || (parity =? -1) else parity =? 1) in
    let* l := mapM (singlet_block one parity) (map fst diag) in Ok (catSome l).
End Recalc.
