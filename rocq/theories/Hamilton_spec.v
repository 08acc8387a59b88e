(** Specification vocabulary for the Hamiltonian matrix of a sector.  A basis state is a pair (i, a): local state i of the
    added site (counted from 0) and state a of the ancestor sector reached through it; [d] lists the sizes of the blocks. *)
From Coq Require Import List ZArith.
From mathcomp Require Import ssreflect ssrfun ssrbool eqtype ssrnat fintype bigop ssralg ssrnum.
From Verif Require Import Base Invar_model Symmetry_model Subspaces_model Density_model Recalc_model Hamilton_model.
Import GRing.Theory Num.Theory.
Local Open Scope ring_scope.

(** Size of block i, and the row of the basis state (i, a): all earlier blocks come first. *)
Definition bsize (d : list Z) (i : nat) : nat := Z.to_nat (List.nth i d 0%Z).
Definition row (d : list Z) (i a : nat) : nat := Nat.add (Z.to_nat (zsum (List.firstn i d))) a.
(** [i1], counted from 1, names block [i]. *)
Definition names (i1 : Z) (i : nat) : bool := Z.eqb i1 (Z.of_nat (S i)).

Section Spec.
  Variable C : numClosedFieldType.

  (** Only the upper triangle is stored; the Hermitian matrix it stands for. *)
  Definition upper (h : fmat C) : Prop := forall r c, Nat.lt c r -> f_el h r c = 0.
  Definition completed (h : fmat C) (r c : nat) : C := if Nat.leb r c then f_el h r c else (f_el h c r)^*.

  Section Terms.
  Variables (scale : C) (spin : nat) (d : list Z) (anc : list invar) (opch : opch_t C).

  (** The matrix of operator (ch, fnr) between the ancestors of blocks i1 and j1 (counted from 1). *)
  Definition op_block (i1 j1 : Z) (ch fnr : nat) : option (fmat C) :=
    match List.nth_error opch ch with
    | Some fs => match List.nth_error fs fnr with
                 | Some m => match List.nth_error anc (Z.to_nat (i1 - 1)), List.nth_error anc (Z.to_nat (j1 - 1)) with
                             | Some Ii, Some Ij => map_find2 m Ii Ij
                             | _, _ => None
                             end
                 | None => None
                 end
    | None => None
    end.

  (** An operator given by its elements between basis states, and that operator plus its adjoint. *)
  Definition plus_adjoint (T : nat -> nat -> nat -> nat -> C) (i a j b : nat) : C := T i a j b + (T j b i a)^*.

  (** What one line of a table means: an operator on the basis states. *)
  Definition term (c : call C) : nat -> nat -> nat -> nat -> C :=
    match c with
    | COffdiag i1 j1 ch fnr x =>
        plus_adjoint (fun i a j b =>
          if names i1 i && names j1 j then
            match x, op_block i1 j1 ch fnr with Some y, Some m => y / scale * f_el m a b | _, _ => 0 end
          else 0)
    | CDiag i1 number zeta f =>
        fun i a j b => if [&& names i1 i, Nat.eqb i j & Nat.eqb a b] then zeta * (number - f * (spin%:R / 2%:R)) / scale else 0
    | CDiagOff i1 j1 x =>
        let T := fun i a j b => if [&& names i1 i, names j1 j & Nat.eqb a b] then x / scale else 0 in
        if Z.ltb i1 j1 then plus_adjoint T else if Z.eqb i1 j1 then T else fun _ _ _ _ => 0
    end.

  (** A line that can be carried out: it names existing blocks, two different ones for a hopping term, and if they are not
      empty the coefficient is a number and the operator has a block of the right size. *)
  Definition block_number (i1 : Z) : Prop := (1 <= i1 <= Z.of_nat (List.length d))%Z.
  Definition nonempty (i1 : Z) : Prop := Nat.lt 0 (bsize d (Z.to_nat (i1 - 1))).
  Definition acceptable (c : call C) : Prop :=
    match c with
    | COffdiag i1 j1 ch fnr x =>
        block_number i1 /\ block_number j1 /\ i1 <> j1 /\
        (nonempty i1 -> nonempty j1 ->
         (exists y, x = Some y) /\
         exists m, op_block i1 j1 ch fnr = Some m /\ f_rows m = bsize d (Z.to_nat (i1 - 1)) /\ f_cols m = bsize d (Z.to_nat (j1 - 1)))
    | CDiag i1 _ _ _ => block_number i1
    | CDiagOff i1 j1 _ =>
        block_number i1 /\ block_number j1 /\
        ((i1 <= j1)%Z -> nonempty i1 -> nonempty j1 -> bsize d (Z.to_nat (i1 - 1)) = bsize d (Z.to_nat (j1 - 1)))
    end.
  Definition sum_terms (calls : list (call C)) (i a j b : nat) : C :=
    List.fold_right (fun c s => term c i a j b + s) 0 calls.
  End Terms.

  (** Energy of state [a] of block [i] in the previous step. *)
  Definition old_energy (anc : list invar) (prev : list (invar * (nat * list C))) (i a : nat) : C :=
    match List.nth_error anc i with
    | Some A => match lookup prev A with Some e => List.nth a (snd e) 0 | None => 0 end
    | None => 0
    end.
  (** Spectra of the previous step: every energy that is counted as stored is there. *)
  Definition spectra (prev : list (invar * (nat * list C))) : Prop :=
    NoDup (List.map fst prev) /\
    forall A n e, List.In (A, (n, e)) prev -> Nat.le n (List.length e) /\ (Z.of_nat n <= 1000000)%Z.
End Spec.
