(** Specification vocabulary: the terms of the Hamiltonian that one added site brings, for the symmetry types in which every table of
    the new site's operators stands for one creation operator (no multiplets). *)
From Coq Require Import List ZArith Bool String.
From Verif Require Import Base Symmetry_model Coef_model.
Import ListNotations.
Local Open Scope string_scope.
Local Open Scope list_scope.
Local Open Scope Z_scope.

(** Chain coefficients, with their index: hopping to the new site (xi, xiR between channels, kappa for pairs), energies of the new site
    (zeta, zetaR between channels, delta for pairs). *)
Inductive csym := Xi (slot : Z) | XiR (ch : Z) | Kappa (ch : Z) | Zeta (slot : Z) | ZetaR (ch : Z) | Delta (ch : Z).

(** Settings that select the lines of make_matrix. *)
Inductive setting := Plain | Polarized | Pol2x2 | Rungs.

Inductive spin := Up | Down | Spinless.
(** Spin of the electron that a table of recalc_irreduc creates: from the change of 2S_z if that is a quantum number, from the
    operator's index otherwise. *)
Definition spin_of (cs : coef_set) (t : irr_table) : spin :=
  if existsb (String.eqb (cs_name cs)) ["QSZ"; "DBLQSZ"; "SPU1"] then
    match List.last (it_shift t) (ShLin 0 1 0) with ShLin _ _ k => if Z.ltb 0 k then Up else Down | _ => Down end
  else if String.eqb (cs_name cs) "U1" then (if Z.eqb (it_fnr t) 0 then Up else Down)
  else if String.eqb (cs_name cs) "NONE" then (if Z.eqb (it_fnr t) 0 then Down else Up)
  else Spinless.
Definition is_spin (s s' : spin) : bool := match s, s' with Up, Up | Down, Down | Spinless, Spinless => true | _, _ => false end.

(** The combinations considered: symmetry type, channels, setting. *)
Definition considered : list (string * nat * setting) :=
  [("QSZ", 1%nat, Plain); ("QSZ", 1%nat, Polarized); ("QSZ", 2%nat, Plain); ("QSZ", 2%nat, Polarized); ("QSZ", 2%nat, Rungs);
   ("QSZ", 3%nat, Plain); ("QSZ", 3%nat, Polarized); ("DBLQSZ", 2%nat, Plain);
   ("U1", 1%nat, Polarized); ("U1", 2%nat, Polarized); ("U1", 3%nat, Polarized);
   ("U1", 1%nat, Pol2x2); ("U1", 2%nat, Pol2x2); ("U1", 3%nat, Pol2x2);
   ("NONE", 1%nat, Plain); ("NONE", 1%nat, Polarized); ("NONE", 2%nat, Plain); ("NONE", 2%nat, Polarized);
   ("SPU1", 1%nat, Plain); ("SPU1", 1%nat, Polarized); ("SPU1", 2%nat, Plain); ("SPU1", 2%nat, Polarized);
   ("SL", 1%nat, Plain); ("SL", 2%nat, Plain); ("SL", 3%nat, Plain); ("SL3", 3%nat, Plain)].

(** params.hpp:583: number of spin states of a conduction electron; params.hpp:575-581: number of f operators per channel. *)
Definition multiplicity (cs : coef_set) : nat := if existsb (String.eqb (cs_name cs)) ["SL"; "SL3"] then 1%nat else 2%nat.
Definition per_channel (cs : coef_set) : nat := if existsb (String.eqb (cs_name cs)) ["U1"] then 2%nat else if existsb (String.eqb (cs_name cs)) ["NONE"] then 4%nat else 1%nat.

Section Terms.
  Variables (cs : coef_set) (se : setting).
  Notation orbitals := (cs_irr cs).
  Let chs := Z.of_nat (cs_channels cs).
  Definition separate : bool := match se with Polarized | Pol2x2 => true | _ => false end.
  (** coef.hpp:143-156: spin-dependent chains: coefficients for spin down follow those for spin up. *)
  Definition slot (t : irr_table) : Z := it_ch t + (if separate && is_spin (spin_of cs t) Down then chs else 0).
  (** Pairs of orbitals. *)
  Definition pairs (f : irr_table -> irr_table -> bool) : list (irr_table * irr_table) :=
    flat_map (fun t => map (fun t' => (t, t')) (filter (f t) orbitals)) orbitals.
  Definition same_channel (t t' : irr_table) : bool := Z.eqb (it_ch t) (it_ch t').
  Definition up_down (t t' : irr_table) : bool := same_channel t t' && is_spin (spin_of cs t) Up && is_spin (spin_of cs t') Down.
  Definition down_up (t t' : irr_table) : bool := same_channel t t' && is_spin (spin_of cs t) Down && is_spin (spin_of cs t') Up.
  Definition other_channel (t t' : irr_table) : bool := negb (same_channel t t') && is_spin (spin_of cs t) (spin_of cs t').

  (** (s, t, t'): s f_t^+ c_t' + h.c., f_t of the last site of the shorter chain, c_t' of the new site. *)
  Definition hops : list (csym * irr_table * irr_table) :=
    map (fun t => (Xi (slot t), t, t)) orbitals ++
    match se with
    | Pol2x2 => map (fun p => (Xi (it_ch (fst p) + 2 * chs), fst p, snd p)) (pairs up_down) ++
                map (fun p => (Xi (it_ch (fst p) + 3 * chs), fst p, snd p)) (pairs down_up)
    | Rungs => map (fun p => (XiR (it_ch (fst p)), fst p, snd p)) (pairs other_channel)
    | _ => []
    end.
  (** (z, s, t, t'): z s f_t^+ c_t'^+ + h.c.; a singlet pair on the two sites. *)
  Definition pair_hops : list (Z * csym * irr_table * irr_table) :=
    if String.eqb (cs_name cs) "SPU1" then
      map (fun p => (1, Kappa (it_ch (fst p)), fst p, snd p)) (pairs up_down) ++
      map (fun p => (-1, Kappa (it_ch (fst p)), fst p, snd p)) (pairs down_up)
    else [].
  (** Energies: (z, s, t): s (c_t^+ c_t - z/2).  The zero of energy is half filling, but with NONE and spin-dependent chains it is
      one electron of each spin (sym-NONE-impl.hpp:79-81 uses diag_function where other types use diag_function_half). *)
  Definition levels : list (Z * csym * irr_table) :=
    map (fun t => (if String.eqb (cs_name cs) "NONE" && separate then 2 else 1, Zeta (slot t), t)) orbitals.
  (** (s, t, t'): s c_t^+ c_t' + h.c. *)
  Definition mixings : list (csym * irr_table * irr_table) :=
    match se with
    | Pol2x2 => map (fun p => (Zeta (it_ch (fst p) + 3 * chs), fst p, snd p)) (pairs down_up)
    | Rungs => map (fun p => (ZetaR (it_ch (snd p)), fst p, snd p)) (pairs (fun t t' => other_channel t t' && Z.ltb (it_ch t') (it_ch t)))
    | _ => []
    end.
  (** (s, t, t'): s (c_t^+ c_t'^+)^+ + h.c. *)
  Definition pairings : list (csym * irr_table * irr_table) :=
    if existsb (String.eqb (cs_name cs)) ["NONE"; "SPU1"] then
      map (fun p => (Delta (it_ch (fst p)), fst p, snd p)) (pairs up_down)
    else [].
End Terms.
