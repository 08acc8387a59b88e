(** What C65 talks about: the Hamiltonian of a Wilson chain as an operator on the product of the cluster's states and the local states of
    all added sites, and what it means that the data kept by an NRG run represent that operator.  Fullchain_terms.v lists the terms. *)
From Coq Require Import List ZArith String.
From mathcomp Require Import ssreflect ssrfun ssrbool eqtype ssrnat fintype bigop ssralg ssrnum.
From Verif Require Import Base Invar_model Symmetry_model Density_model Recalc_model Hamilton_model Linalg_model Linalg_spec Coef_model Coef_tables Fullchain_model Fullchain_terms.
Import ListNotations GRing.Theory Num.Theory.
Local Open Scope string_scope.
Local Open Scope list_scope.
Local Open Scope ring_scope.
Set Implicit Arguments.
Unset Strict Implicit.
Unset Printing Implicit Defensive.

Section Spec.
  Variable C : numClosedFieldType.

  (** ** Operators on the space with basis T *)
  Definition oper (T : finType) := T -> T -> C.
  Definition adj {T : finType} (A : oper T) : oper T := fun x y => (A y x)^*.
  Definition mulo {T : finType} (A B : oper T) : oper T := fun x y => \sum_z A x z * B z y.
  Definition addo {T : finType} (A B : oper T) : oper T := fun x y => A x y + B x y.
  Definition scale_by {T : finType} (c : C) (A : oper T) : oper T := fun x y => c * A x y.
  Definition unit_op {T : finType} : oper T := fun x y => if x == y then 1 else 0.
  Definition plus_hc {T : finType} (A : oper T) : oper T := addo A (adj A).
  Definition sum_of {T : finType} {E : Type} (l : list E) (f : E -> oper T) : oper T := fun x y => \sum_(e <- l) f e x y.
  Definition anti {T : finType} (A B : oper T) : oper T := addo (mulo A B) (mulo B A).
  (** Bras: u x is the amplitude <u|x>.  <u|A|v> and <u|v>. *)
  Definition elem {T : finType} (u : T -> C) (A : oper T) (v : T -> C) : C := \sum_x \sum_y u x * A x y * (v y)^*.
  Definition inner {T : finType} (u v : T -> C) : C := \sum_x u x * (v x)^*.

  (** An integer. *)
  Definition int_of (z : Z) : C :=
    match z with Z0 => 0 | Zpos p => (Pos.to_nat p)%:R | Zneg p => - (Pos.to_nat p)%:R end.

  (** ** The added site *)
  Section Site.
  Variables (cs : coef_set) (se : setting).
  Definition local_states : nat := List.length (tb_In (cs_tab cs)).
  Notation site := (ordinal_finType local_states).
  (** Creation operator of the table t: its rows are <i1| c^+ |ip>, local states counted from 1. *)
  Definition numbered (i : Z) (l : site) : bool := Z.eqb i (Z.of_nat (S l)).
  Definition create (t : irr_table) : oper site := fun l l' =>
    \sum_(r <- it_rows t) match r with (i1, ip, e) =>
      if numbered i1 l && numbered ip l' then match e with Some (cN z) => int_of z | _ => 0 end else 0 end.
  Definition occupation (t : irr_table) : oper site := mulo (create t) (adj (create t)).
  (** (-1)^(number of electrons) of a local state. *)
  Definition sign (l : site) : C := \prod_(t <- cs_irr cs) (1 - 2%:R * occupation t l l).

  (** ** One more site: the basis states of the longer chain are pairs *)
  Section Longer.
  Variable T : finType.
  Notation longer := (prod_finType T site).
  (** An even or an odd operator of the shorter chain, and an operator of the new site. *)
  Definition old_even (A : oper T) : oper longer := fun x y => if x.2 == y.2 then A x.1 y.1 else 0.
  Definition old_odd (A : oper T) : oper longer := fun x y => if x.2 == y.2 then sign x.2 * A x.1 y.1 else 0.
  Definition on_site (A : oper site) : oper longer := fun x y => if x.1 == y.1 then A x.2 y.2 else 0.

  Variable K : chain_coef C.
  (** Step N adds site N+1. *)
  Definition cval (N : nat) (s : csym) : C :=
    match s with
    | Xi c => cc_xi K N c | XiR c => cc_xiR K N c | Kappa c => cc_kappa K N c
    | Zeta c => cc_zeta K N.+1 c | ZetaR c => cc_zetaR K N.+1 c | Delta c => cc_delta K N.+1 c
    end.
  Definition site_part (N : nat) : oper site :=
    addo (sum_of (levels cs se) (fun e => match e with (z, s, t) =>
            scale_by (cval N s) (addo (occupation t) (scale_by (- (int_of z / 2%:R)) unit_op)) end))
   (addo (sum_of (mixings cs se) (fun e => match e with (s, t, t') => plus_hc (scale_by (cval N s) (mulo (create t) (adj (create t')))) end))
         (sum_of (pairings cs) (fun e => match e with (s, t, t') => plus_hc (scale_by (cval N s) (adj (mulo (create t) (create t')))) end))).
  (** The Hamiltonian of the longer chain; F t is the creation operator of orbital t on the last site of the shorter one. *)
  Definition next_H (N : nat) (H : oper T) (F : irr_table -> oper T) : oper longer :=
    addo (old_even H)
   (addo (sum_of (hops cs se) (fun e => match e with (s, t, t') =>
            plus_hc (scale_by (cval N s) (mulo (old_odd (F t)) (adj (on_site (create t'))))) end))
   (addo (sum_of (pair_hops cs) (fun e => match e with (z, s, t, t') =>
            plus_hc (scale_by (int_of z * cval N s) (mulo (old_odd (F t)) (on_site (create t')))) end))
         (on_site (site_part N)))).
  End Longer.

  (** The chain of n added sites. *)
  Fixpoint chain (T : finType) (n : nat) : finType :=
    match n with 0%nat => T | S n' => prod_finType (chain T n') site end.
  (** Its Hamiltonian and the creation operators of its last site: steps N0, N0+1, ... *)
  Fixpoint chain_ops (K : chain_coef C) (N0 : nat) (T : finType) (H : oper T) (F : irr_table -> oper T) (n : nat)
    : oper (chain T n) * (irr_table -> oper (chain T n)) :=
    match n return oper (chain T n) * (irr_table -> oper (chain T n)) with
    | 0%nat => (H, F)
    | S n' => let o := chain_ops K N0 H F n' in (next_H K (Nat.add N0 n') o.1 o.2, fun t => on_site (create t))
    end.

  (** ** What the data of a step represent *)
  (** Number of stored states and energies of a sector. *)
  Definition stored_states (st : nstate C) (J : invar) : nat := match lookup (ns_prev st) J with Some e => fst e | None => 0 end.
  Definition energy (st : nstate C) (J : invar) (r : nat) : C :=
    match lookup (ns_prev st) J with Some e => List.nth r (snd e) 0 | None => 0 end.
  (** Block of an operator of the last site between two sectors. *)
  Definition op_matrix (st : nstate C) (t : irr_table) (J J' : invar) : option (fmat C) :=
    match List.nth_error (ns_opch st) (Z.to_nat (it_ch t)) with
    | Some fs => match List.nth_error fs (Z.to_nat (it_fnr t)) with Some m => map_find2 m J J' | None => None end
    | None => None
    end.
  Definition same (J J' : invar) (r r' : nat) : bool := invar_eqb J J' && Nat.eqb r r'.
  (** The table's operator leads from sector J' to sector J. *)
  Definition leads (t : irr_table) (J' J : invar) : bool := match sh_apply (it_shift t) J' with Some J1 => invar_eqb J1 J | None => false end.
  (** Sectors: a list of integers, one for each quantum number (all types considered have additive ones); NONE has a single sector 0. *)
  Definition is_sector (J : invar) : Prop :=
    List.length J = List.length (sy_sig (cs_sym cs)) /\ (cs_name cs = "NONE" -> J = [0%Z]).

  (** The data are in order: different genuine sectors, an energy for every stored state, real energies, and the operators of the
      last site have a matrix of the right size wherever they can have elements. *)
  Definition in_order (st : nstate C) : Prop :=
    [/\ NoDup (List.map fst (ns_prev st)),
        forall J n e, List.In (J, (n, e)) (ns_prev st) -> is_sector J /\ Nat.le n (List.length e),
        forall J r, energy st J r \is Num.real /\ ns_total st \is Num.real &
        forall t J J', List.In t (cs_irr cs) -> leads t J' J -> Nat.lt 0 (stored_states st J) -> Nat.lt 0 (stored_states st J') ->
          exists m, op_matrix st t J J' = Some m /\ f_rows m = stored_states st J /\ f_cols m = stored_states st J'].

  (** u J r is the r-th stored state of sector J as a state of the system with basis T.  These states are orthonormal; energies and
      operator matrices hold all matrix elements of H and of the creation operators F t between them.  Energies are measured from
      [ns_total] in units of [sc]. *)
  Record represents (T : finType) (H : oper T) (F : irr_table -> oper T) (sc : C) (st : nstate C) (u : invar -> nat -> T -> C) : Prop := {
    rp_orth : forall J r J' r', Nat.lt r (stored_states st J) -> Nat.lt r' (stored_states st J') ->
      inner (u J r) (u J' r') = if same J J' r r' then 1 else 0;
    rp_energy : forall J r J' r', Nat.lt r (stored_states st J) -> Nat.lt r' (stored_states st J') ->
      elem (u J r) H (u J' r') = if same J J' r r' then sc * energy st J r + ns_total st else 0;
    rp_op : forall t J r J' r', List.In t (cs_irr cs) -> Nat.lt r (stored_states st J) -> Nat.lt r' (stored_states st J') ->
      elem (u J r) (F t) (u J' r') =
        if leads t J' J then match op_matrix st t J J' with Some m => f_el m r r' | None => 0 end else 0 }.
  (** The stored states span the whole space. *)
  Definition complete (T : finType) (st : nstate C) (u : invar -> nat -> T -> C) : Prop :=
    forall x y : T, \sum_(p <- ns_prev st) \sum_(r < fst (snd p)) (u (fst p) r x)^* * u (fst p) r y = if x == y then 1 else 0.
  End Site.

  (** ** The diagonaliser: C60 *)
  Definition diagonaliser (dia : fmat C -> res (raw_eigen C)) : Prop :=
    forall h e, dia h = Ok e -> f_cols h = f_rows h -> (0 < f_rows h)%N ->
      [/\ f_rows (r_vec e) = r_count e, f_cols (r_vec e) = f_rows h, (1 <= r_count e <= f_rows h)%N &
          lowest_eigenpairs (f_rows h) (hermitian (f_el h)) (r_count e) (r_val e) (f_el (r_vec e))].

  (** ** A run *)
  (** The three settings of P.polarized, P.pol2x2, P.rungs. *)
  Definition lines_for (cs : coef_set) (se : setting) : option mode :=
    match se with
    | Plain => lines cs false false false | Polarized => lines cs true false false
    | Pol2x2 => lines cs true true false | Rungs => lines cs false false true
    end.
  (** A symmetry type and setting considered here, with its lines. *)
  Definition applies (cs : coef_set) (se : setting) (mo : mode) : Prop :=
    List.In cs all_coef /\ List.In (cs_name cs, cs_channels cs, se) considered /\ lines_for cs se = Some mo.
  (** Real energies of the sites; positive scales with a constant ratio. *)
  Definition real_levels (cs : coef_set) (se : setting) (K : chain_coef C) : Prop :=
    forall N z s t, List.In (z, s, t) (levels cs se) -> cval K N s \is Num.real.
  Definition scales (scale : nat -> C) (stp : C) : Prop := forall N, 0 < scale N /\ scale N.+1 * stp = scale N.
  Definition run (K : chain_coef C) (cs : coef_set) (mo : mode) := nrg_run K (cs_channels cs) cs mo (multiplicity cs) (per_channel cs).
  (** Nothing is truncated: all eigenpairs are calculated and kept. *)
  Definition no_truncation (dia : fmat C -> res (raw_eigen C)) (keep : nat -> list (invar * raw_eigen C) -> invar -> nat) : Prop :=
    (forall N diag J e, lookup diag J = Some e -> keep N diag J = r_count e) /\ forall h e, dia h = Ok e -> r_count e = f_rows h.
  (** Some of the calculated states are kept, less than a million in each sector. *)
  Definition sensible (keep : nat -> list (invar * raw_eigen C) -> invar -> nat) : Prop :=
    (forall N diag J e, lookup diag J = Some e -> Nat.le (keep N diag J) (r_count e) /\ (Z.of_nat (keep N diag J) < 1000000)%Z) /\
    (forall N diag, diag <> [] -> (forall p, List.In p diag -> Nat.lt 0 (r_count (snd p))) -> exists J e, lookup diag J = Some e /\ Nat.lt 0 (keep N diag J)).

  (** ** Fermions *)
  (** A list of creation operators: all anticommute, and A^+ B + B A^+ is 1 for the same and 0 for different orbitals. *)
  Definition fermions {T : finType} (l : list (oper T)) : Prop :=
    forall i j A B x y, List.nth_error l i = Some A -> List.nth_error l j = Some B ->
      anti A B x y = 0 /\ anti (adj A) B x y = if Nat.eqb i j then unit_op x y else 0.
  (** The creation operators of the whole chain: those of the cluster, G, and of all added sites. *)
  Fixpoint all_orbitals (cs : coef_set) (T : finType) (G : list (oper T)) (n : nat) : list (oper (chain cs T n)) :=
    match n return list (oper (chain cs T n)) with
    | 0%nat => G
    | S n' => List.map (old_odd (cs := cs) (T := chain cs T n')) (all_orbitals cs G n') ++
              List.map (fun t => on_site (cs := cs) (T := chain cs T n') (create (cs := cs) t)) (cs_irr cs)
    end.
End Spec.
