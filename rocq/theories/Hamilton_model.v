(** Model of the construction of the Hamiltonian matrix of one sector: /repo/c++/matrix.hpp (offdiag_function,
    offdiag_function_impl, diag_function_impl, diag_offdiag_function), /repo/c++/core.hpp [hamiltonian] and
    /repo/c++/symmetry/sym-QJ-impl.hpp [offdiag_function_QJ].
    Scalars are the elements of an algebraically closed field with conjugation; a coefficient that is not a finite number
    (NaN, infinity) is [None].  Printing and the HDF5 dump are omitted. *)
From Coq Require Import List ZArith.
From mathcomp Require Import ssreflect ssrfun ssrbool eqtype ssrnat fintype bigop ssralg ssrnum.
From Verif Require Import Base Invar_model Symmetry_model Subspaces_model Density_model Recalc_model.
Import GRing.Theory Num.Theory.
Local Open Scope ring_scope.
Set Implicit Arguments.
Unset Strict Implicit.
Unset Printing Implicit Defensive.

Section Hamilton.
  Variable C : numClosedFieldType.

  (** operators.hpp: Opch = for every channel, for every extra index, a map from pairs of sectors to matrices. *)
  Definition opch_t := list (list (list ((invar * invar) * fmat C))).

  Definition inside (r : nat) (p : Z * Z) : bool := Z.leb (fst p) (Z.of_nat r) && Z.ltb (Z.of_nat r) (snd p).

  (** numerics_Eigen.hpp:147-151 submatrix followed by +=: the block of rows [rp] and columns [cp] is incremented; a range
      that exceeds the matrix is undefined behaviour. *)
  Definition add_sub (h : fmat C) (rp cp : Z * Z) (el : nat -> nat -> C) : res (fmat C) :=
    if Z.leb (snd rp) (Z.of_nat (f_rows h)) && Z.leb (snd cp) (Z.of_nat (f_cols h)) then
      Ok (Fmat (f_rows h) (f_cols h) (fun r c =>
        if inside r rp && inside c cp then f_el h r c + el (Nat.sub r (Z.to_nat (fst rp))) (Nat.sub c (Z.to_nat (fst cp))) else f_el h r c))
    else UB.

  (** h(r,r) += x for the rows of a range (boost::irange); UB outside the matrix. *)
  Definition add_diag (h : fmat C) (p : Z * Z) (x : C) : res (fmat C) :=
    if Z.leb (snd p) (Z.of_nat (f_rows h)) && Z.leb (snd p) (Z.of_nat (f_cols h)) then
      Ok (Fmat (f_rows h) (f_cols h) (fun r c => if inside r p && Nat.eqb r c then f_el h r c + x else f_el h r c))
    else UB.

  Section Calls.
  Variables (scale : C) (spin : nat) (d : list Z) (anc : list invar) (opch : opch_t).

  (** matrix.hpp:34-60 *)
  Definition offdiag_impl (i j : Z) (ch fnr : nat) (factor : option C) (h : fmat C) : res (fmat C) :=
    let n := Z.of_nat (List.length d) in
    let* _ := my_assert [&& Z.leb 1 i, Z.leb i n, Z.leb 1 j & Z.leb j n] in
    match factor with
    | None => Throw
    | Some x =>
        match List.nth_error opch ch with
        | None => UB
        | Some fs =>
            match List.nth_error fs fnr with
            | None => UB
            | Some m =>
                match List.nth_error anc (Z.to_nat (i - 1)), List.nth_error anc (Z.to_nat (j - 1)) with
                | Some Ii, Some Ij =>
                    match map_find2 m Ii Ij with
                    | None => Throw
                    | Some mat =>
                        let* ri := rmax d (i - 1) in
                        let* rj := rmax d (j - 1) in
                        let* _ := my_assert (Z.eqb ri (Z.of_nat (f_rows mat)) && Z.eqb rj (Z.of_nat (f_cols mat))) in
                        let y := x / scale in
                        let* pi := part_mma d i in
                        let* pj := part_mma d j in
                        if Z.ltb j i then add_sub h pj pi (fun a b => y^* * (f_el mat b a)^*)
                        else add_sub h pi pj (fun a b => y * f_el mat a b)
                    end
                | _, _ => UB
                end
            end
        end
    end.

  (** matrix.hpp:22-23: the macro; the factor is only evaluated when both blocks exist. *)
  Definition offdiag (i j : Z) (ch fnr : nat) (factor : option C) (h : fmat C) : res (fmat C) :=
    let* b := offdiag_contributes d i j in
    if b then offdiag_impl i j ch fnr factor h else Ok h.

  (** matrix.hpp:69-94: [f] is 1 for diag_function and 1/2 for diag_function_half; P.spin is the multiplicity. *)
  Definition diag_shift (i : Z) (number zeta f : C) (h : fmat C) : res (fmat C) :=
    let n := Z.of_nat (List.length d) in
    let* _ := my_assert (Z.leb 1 i && Z.leb i n) in
    let* v := view_mma d i in
    if Z.ltb (fst v) (snd v) then add_diag h v (zeta * (number - f * (spin%:R / 2%:R)) / scale) else Ok h.

  (** matrix.hpp:98-115 *)
  Definition diag_offdiag (i j : Z) (factor : C) (h : fmat C) : res (fmat C) :=
    let n := Z.of_nat (List.length d) in
    let* _ := my_assert [&& Z.leb 1 i, Z.leb i n, Z.leb 1 j & Z.leb j n] in
    if Z.ltb j i then Ok h else
    let* b1 := offset d (i - 1) in
    let* s1 := rmax d (i - 1) in
    let* b2 := offset d (j - 1) in
    let* s2 := rmax d (j - 1) in
    if ~~ (Z.ltb 0 s1 && Z.ltb 0 s2) then Ok h else
    let* _ := my_assert (Z.eqb s1 s2) in
    add_sub h (b1, to_size (b1 + s1)) (b2, to_size (b2 + s2)) (fun a b => if Nat.eqb a b then factor / scale else 0).

  (** sym-QJ-impl.hpp:86-94.  [In] is the 0-based list of ancestors while i and j count from 1: the sectors looked at are
      those of the next local state; past the end of the vector the behaviour is undefined. *)
  Definition offdiag_QJ (sy : symmetry) (Iop : nat -> invar) (i j : Z) (ch fnr : nat) (factor : option C) (h : fmat C) : res (fmat C) :=
    match List.nth_error anc (Z.to_nat i), List.nth_error anc (Z.to_nat j) with
    | Some I1, Some I2 =>
        let* tr := triangle sy I1 I2 (Iop ch) in
        if tr then offdiag i j ch fnr factor h else Ok h
    | _, _ => UB
    end.

  (** One line of a coefficient table. *)
  Inductive call :=
  | COffdiag (i j : Z) (ch fnr : nat) (factor : option C)
  | CDiag (i : Z) (number zeta f : C)
  | CDiagOff (i j : Z) (factor : C).

  Definition run_call (h : fmat C) (c : call) : res (fmat C) :=
    match c with
    | COffdiag i j ch fnr x => offdiag i j ch fnr x h
    | CDiag i number zeta f => diag_shift i number zeta f h
    | CDiagOff i j x => diag_offdiag i j x h
    end.
  (** make_matrix: the lines of the tables in order. *)
  Definition make_matrix (calls : list call) (h : fmat C) : res (fmat C) := foldM run_call calls h.
  End Calls.

  (** core.hpp:87-91: the diagonal.  [stp] is P.nrg_step_scale_factor(); an energy index past the end is undefined. *)
  Definition set_diag (h : fmat C) (r : nat) (x : C) : res (fmat C) :=
    if Nat.ltb r (f_rows h) && Nat.ltb r (f_cols h) then
      Ok (Fmat (f_rows h) (f_cols h) (fun a b => if Nat.eqb a r && Nat.eqb b r then x else f_el h a b))
    else UB.
  Definition diag_block (stp : C) (d : list Z) (anc : list invar) (prev : list (invar * (nat * list C))) (i : nat) (h : fmat C) : res (fmat C) :=
    let* v := view d (Z.of_nat i) in
    foldM (fun h k =>
      match List.nth_error anc i with
      | None => UB
      | Some A =>
          let* e := at_key prev A in
          match List.nth_error (snd e) k with
          | None => UB
          | Some x => set_diag h (Nat.add (Z.to_nat (fst v)) k) (stp * x)
          end
      end) (List.seq 0 (Z.to_nat (snd v - fst v))) h.

  (** core.hpp:77-104 [hamiltonian]; [prev] gives for every sector of the previous step the number of stored states and the
      (corrected) energies; [calls] are the lines executed by the symmetry's make_matrix. *)
  Definition hamiltonian (sy : symmetry) (combs : nat) (t : tables) (scale stp : C) (spin : nat) (prev : list (invar * (nat * list C)))
    (opch : opch_t) (I1 : invar) (calls : list call) : res (fmat C) :=
    let* anc := ancestors sy combs t I1 in
    let* sd := mk_subdims sy combs t (List.map (fun p => (fst p, Z.of_nat (fst (snd p)))) prev) I1 anc in
    let d := sd_dims sd in
    let* h := foldM (fun h i => diag_block stp d anc prev i h) (List.seq 0 combs) (zero_matrix C (Z.to_nat (to_size (dims_total d)))) in
    make_matrix scale spin d anc opch calls h.
End Hamilton.
Arguments COffdiag {C}. Arguments CDiag {C}. Arguments CDiagOff {C}.
