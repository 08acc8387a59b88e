(** What the coefficient tables are claimed to contain.  Sectors are lists of quantum numbers; "family i of sector I" is the
    set of states of I built from the i-th local state of the added site(s). *)
From Coq Require Import List ZArith Reals Bool String.
From Verif Require Import Base Invar_model Symmetry_model Coef_model.
Import ListNotations.
Local Open Scope string_scope.
Local Open Scope list_scope.
Local Open Scope Z_scope.

Definition yes (r : res bool) : bool := match r with Ok b => b | _ => false end.
Definition rsum (l : list R) : R := fold_right Rplus 0%R l.
(** Sum of values all of which must be defined. *)
Definition osum (l : list (option R)) : option R := option_map rsum (mapO (fun x => x) l).

Section Spec.
  Variable cs : coef_set.
  Notation sy := (cs_sym cs).
  Notation tab := (cs_tab cs).

  (** Kinds of quantum numbers: a multiplicity 2S+1 >= 1, an orbital momentum T >= 0, a parity, an angular momentum mod 3,
      or any integer. *)
  Definition is_kind (k : tri_kind) (n : string) : bool :=
    existsb (fun p => match fst p, k with TSU2, TSU2 | TSU2T, TSU2T => String.eqb (snd p) n | _, _ => false end) (sy_tri sy).
  Definition qn_ok (d : string * qtype) (x : Z) : Prop :=
    match snd d with
    | Multiplicative => x = 1 \/ x = -1
    | Mod3 => 0 <= x <= 2
    | Additive => if is_kind TSU2 (fst d) then 1 <= x else if is_kind TSU2T (fst d) then 0 <= x else True
    end.
  (** NONE has a single sector, 0. *)
  Definition sector (I : invar) : Prop := Forall2 qn_ok (sy_sig sy) I /\ (cs_name cs = "NONE" -> I = [0]).

  (** Sector of the smaller system that family i of sector I is built from, symmetry.hpp:88-94 (families are counted
      from 1). *)
  Definition built_from (I : invar) (i : Z) : option invar :=
    match ancestor sy (List.length (tb_In tab)) tab I (Z.to_nat (i - 1)) with Ok a => Some a | _ => None end.
  (** Family i of sector I can be non-empty, subspaces.hpp:20-35. *)
  Definition family (I : invar) (i : Z) : bool :=
    (1 <=? i) &&
    match built_from I i, nth_error (tb_QN tab) (Z.to_nat (i - 1)) with
    | Some a, Some q => yes (allowed sy a) && yes (triangle sy I a q)
    | _, _ => false
    end.

  (** The sector that a shift takes to I. *)
  Fixpoint unshift_from (n : nat) (l : list sh) (I : list Z) : option (list Z) :=
    match l, I with
    | [], [] => Some []
    | ShLin n' m k :: l', x :: I' =>
        if Nat.eqb n' n && ((m =? 1) || (m =? -1)) then option_map (cons (m * (x - k))) (unshift_from (S n) l' I') else None
    | ShMod3 n' k :: l', x :: I' => if Nat.eqb n' n then option_map (cons ((x - k) mod 3)) (unshift_from (S n) l' I') else None
    | _, _ => None
    end.
  Definition unshift (l : list sh) (I : list Z) : option (list Z) :=
    match l with [] => if forallb (Z.eqb 0) I then Some I else None | _ => unshift_from 0 l I end.

  (** Matrix elements <I1,i1||f||Ip,ip> of a recalc_irreduc table between two sectors, for the families present. *)
  Definition entries (nn : Z) (t : irr_table) (I1 Ip : invar) : option (list (Z * Z * R)) :=
    mapO (fun r => let '(i, k, f) := r in option_map (fun v => (i, k, v)) (obind f (ceval Ip nn)))
      (filter (fun r => let '(i, k, _) := r in family I1 i && family Ip k) (it_rows t)).
  Definition row {A} (es : list (Z * Z * A)) (i : Z) : list (Z * A) :=
    map (fun e => let '(_, k, v) := e in (k, v)) (filter (fun e => let '(i', _, _) := e in i' =? i) es).
  Definition transpose {A} (es : list (Z * Z * A)) : list (Z * Z * A) := map (fun e => let '(i, k, v) := e in (k, i, v)) es.
  (** sum over k of the products of the elements with the same k *)
  Definition dot (u v : list (Z * R)) : R :=
    rsum (map (fun p => rsum (map (fun q => if fst p =? fst q then snd p * snd q else 0)%R v)) u).

  (** An operator: channel and index, the block opch[ch][fnr]. *)
  Notation oper := (Z * Z)%type.
  Definition op_eqb (a b : oper) : bool := (fst a =? fst b) && (snd a =? snd b).
  Definition tables_of (a : oper) : list irr_table := filter (fun t => op_eqb (it_ch t, it_fnr t) a) (cs_irr cs).
  (** A block of reduced matrix elements between a sector I and another one, [bl_to]: (family of I, family of the other
      sector, element). *)
  Record block := mk_block { bl_to : invar; bl_el : list (Z * Z * R) }.
  Definition block_if (used : bool) (J : invar) (e : option (list (Z * Z * R))) : option (list block) :=
    if used then option_map (fun e => [mk_block J e]) e else Some [].
  Definition all_blocks {T} (f : T -> option (list block)) (l : list T) : option (list block) := option_map (@List.concat block) (mapO f l).

  (** Blocks of <I| f_a |Ip> of an operator of the new site, and of <I1| f_a |I> (transposed).  None: some element is not a
      number. *)
  Definition irr_below (nn : Z) (I : invar) (t : irr_table) : option (list block) :=
    obind (unshift (it_shift t) I) (fun Ip => block_if (yes (allowed sy Ip) && yes (coupled cs I Ip)) Ip (entries nn t I Ip)).
  Definition irr_above (nn : Z) (I : invar) (t : irr_table) : option (list block) :=
    obind (sh_apply (it_shift t) I) (fun I1 =>
      block_if (yes (allowed sy I1) && yes (coupled cs I1 I)) I1 (option_map transpose (entries nn t I1 I))).
  Definition f_below (nn : Z) (a : oper) (I : invar) : option (list block) := all_blocks (irr_below nn I) (tables_of a).
  Definition f_above (nn : Z) (a : oper) (I : invar) : option (list block) := all_blocks (irr_above nn I) (tables_of a).

  (** Sum over common sectors and families of the products of the elements, weighted. *)
  Definition invar_eqb (I J : invar) : bool := if list_eq_dec Z.eq_dec I J then true else false.
  Definition overlap (w : invar -> R) (B B' : list block) (i j : Z) : R :=
    rsum (map (fun b => rsum (map (fun b' =>
      if invar_eqb (bl_to b) (bl_to b') then w (bl_to b) * dot (row (bl_el b) i) (row (bl_el b') j) else 0)%R B')) B).
  Definition one (I : invar) : R := 1%R.
  Definition dim (I : invar) : R := match mult sy I with Ok d => IZR d | _ => 0%R end.

  (** <I,i| f_a f_b^+ |I,j>: sum over intermediate sectors Ip and families k. *)
  Definition down_up (nn : Z) (a b : oper) (I : invar) (i j : Z) : option R :=
    omap2 (fun B B' => overlap one B B' i j) (f_below nn a I) (f_below nn b I).
  (** mult(I) <I,i| f_b^+ f_a |I,j>: sum over intermediate sectors I1 and families k, weighted with mult(I1). *)
  Definition up_down (nn : Z) (a b : oper) (I : invar) (i j : Z) : option R :=
    omap2 (fun B B' => overlap dim B B' i j) (f_above nn b I) (f_above nn a I).
  (** Matrix elements of an operator of the smaller system in terms of its elements there (recalc_general, recalc.hpp:117-180):
      rows whose families and whose element of the smaller system exist. *)
  Definition linked (t : ten_table) (I1 : invar) (i : Z) (Ip : invar) (k : Z) : bool :=
    match built_from I1 i, built_from Ip k with Some A, Some B => yes (triangle sy A B (tt_iop t)) | _, _ => false end.
  Definition ten_entries (nn : Z) (t : ten_table) (I1 Ip : invar) : option (list (Z * Z * R)) :=
    mapO (fun r => let '(i, k, _, _, f) := r in option_map (fun v => (i, k, v)) (obind f (ceval I1 nn)))
      (filter (fun r => let '(i, k, _, _, _) := r in family I1 i && family Ip k && linked t I1 i Ip k) (tt_rows t)).
  Definition ten_below (nn : Z) (I : invar) (t : ten_table) : option (list block) :=
    obind (sh_apply (tt_shift t) I) (fun Ip => block_if (yes (allowed sy Ip) && yes (triangle sy I Ip (tt_iop t))) Ip (ten_entries nn t I Ip)).
  Definition ten_above (nn : Z) (I : invar) (t : ten_table) : option (list block) :=
    obind (unshift (tt_shift t) I) (fun I1 =>
      block_if (yes (allowed sy I1) && yes (triangle sy I1 I (tt_iop t))) I1 (option_map transpose (ten_entries nn t I1 I))).
  Definition op_tables (n : string) : list ten_table := filter (fun t => String.eqb (tt_name t) n) (cs_ten cs).
  Definition o_below (nn : Z) (n : string) (I : invar) : option (list block) := all_blocks (ten_below nn I) (op_tables n).
  Definition o_above (nn : Z) (n : string) (I : invar) : option (list block) := all_blocks (ten_above nn I) (op_tables n).

  Definition opers : list oper := map (fun t => (it_ch t, it_fnr t)) (cs_irr cs).
End Spec.

(** Number of components of the multiplet of creation operators that one reduced operator f stands for: 1 without spin
    symmetry in the type's labels that mixes spins, spin 2, spin times isospin 4, spin times orbital triplet 6.  In the types
    that only keep S_z the two spins are counted in one operator (tables of both shifts carry the same index). *)
Definition components (cs : coef_set) : Z :=
  if existsb (String.eqb (cs_name cs)) ["ISO"; "ISO2"; "ISOLR"; "ISO2LR"; "ISOSZ"; "ISOSZLR"; "DBLISOSZ"] then 4
  else if existsb (String.eqb (cs_name cs)) ["QST"; "QSTZ"; "QSZTZ"; "SPSU2T"] then 6
  else if existsb (String.eqb (cs_name cs)) ["NONE"; "P"; "PP"; "U1"; "SL"; "SL3"] then 1 else 2.
(** Types whose factors are decimal approximations of roots or complex; their tables are modelled without factors. *)
Definition translated (cs : coef_set) : bool := negb (existsb (String.eqb (cs_name cs)) ["QJ"; "QSC3"; "SPSU2C3"]).

(** Both families consist of the same states of the smaller system. *)
Definition same_states (cs : coef_set) (I : invar) (i : Z) (J : invar) (j : Z) : Prop :=
  exists A, built_from cs I i = Some A /\ built_from cs J j = Some A.
Definition family_index (cs : coef_set) (i : Z) : Prop := 1 <= i <= Z.of_nat (List.length (tb_In (cs_tab cs))).
(** All multiplicities and orbital momenta of a sector are at least c. *)
Definition spins_above (cs : coef_set) (c : Z) (I : invar) : Prop :=
  Forall2 (fun d x => snd d = Additive -> is_kind cs TSU2 (fst d) || is_kind cs TSU2T (fst d) = true -> c <= x) (sy_sig (cs_sym cs)) I.
(** A table of an operator is used between I1 and the sector it names: that is a sector, and the operator's label couples
    the two (recalc.hpp:128 leaves the block out otherwise). *)
Definition table_used (cs : coef_set) (t : ten_table) (I1 : invar) : Prop :=
  exists Ip, sh_apply (tt_shift t) I1 = Some Ip /\ List.length Ip = List.length (sy_sig (cs_sym cs)) /\
    triangle (cs_sym cs) I1 Ip (tt_iop t) = Ok true.
(** Operators whose tables carry a label that never couples. *)
Definition lost (cs : coef_set) (t : ten_table) : bool :=
  existsb (fun p => String.eqb (cs_name cs) (fst p) && String.eqb (tt_name t) (snd p))
    [("DBLSU2", "doublet"); ("SPSU2LR", "doublet"); ("SPSU2LR", "triplet"); ("SPSU2T", "doublet"); ("QSZTZ", "triplet");
     ("SPU1LR", "doublet"); ("SPU1LR", "triplet")].
