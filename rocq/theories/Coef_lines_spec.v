(** What the lines of make_matrix() and the tables of the smaller system's operators are claimed to contain. *)
From Coq Require Import List ZArith Reals Bool String.
From Verif Require Import Base Invar_model Symmetry_model Coef_model Coef_spec.
Import ListNotations.
Local Open Scope string_scope.
Local Open Scope list_scope.
Local Open Scope Z_scope.

Definition one_of (n : string) (l : list string) : bool := existsb (String.eqb n) l.

(** ** Corrected tables of the smaller system's operators.  Used below as a yardstick only. *)
(** A label that couples, where the table's own never does (C53_operator_labels_refuted). *)
Definition label (cs : coef_set) (t : ten_table) : list Z :=
  if lost cs t then
    if String.eqb (cs_name cs) "DBLSU2" then map (Z.max 1) (tt_iop t)
    else if String.eqb (cs_name cs) "QSZTZ" then [0; match nth_error (tt_shift t) 1 with Some (ShLin _ _ k) => - k | _ => 0 end; 0]
    else if String.eqb (tt_name t) "doublet" then [2; 1] else [3; 1]
  else tt_iop t.
(** Odd number of electrons in the k-th local state, for the types where a sign is missing (C58_anticommute_refuted). *)
Definition odd_state (cs : coef_set) (k : Z) : bool :=
  match nth_error (tb_QN (cs_tab cs)) (Z.to_nat (k - 1)) with
  | Some q => if String.eqb (cs_name cs) "P" then match q with p :: _ => p =? -1 | _ => false end
              else if String.eqb (cs_name cs) "ISOLR" then match q with _ :: s :: _ => Z.even s | _ => false end
              else false
  | None => false
  end.
Definition mend_table (cs : coef_set) (t : ten_table) : ten_table :=
  mk_ten (tt_name t) (tt_shift t) (label cs t)
    (map (fun r => let '(i, k, s1, sp, f) := r in
       (i, k, s1, sp, if String.eqb (tt_name t) "doublet" && odd_state cs k then option_map cO f else f)) (tt_rows t)).
Definition relabelled (cs : coef_set) : coef_set :=
  mk_coef (cs_name cs) (cs_channels cs) (cs_sym cs) (cs_tab cs) (cs_irr cs)
    (map (fun t => mk_ten (tt_name t) (tt_shift t) (label cs t) (tt_rows t)) (cs_ten cs)) (cs_modes cs).
(** The tables of the types with reflection symmetry are those of even operators.  An odd operator has the same reduced elements
    between sectors of opposite parity. *)
Fixpoint flip_last (l : list sh) : list sh :=
  match l with
  | [] => []
  | [ShLin n a k] => [ShLin n (- a) k]
  | s :: l' => s :: flip_last l'
  end.
Definition odd_table (t : ten_table) : ten_table :=
  mk_ten (tt_name t) (flip_last (tt_shift t)) (removelast (tt_iop t) ++ [- List.last (tt_iop t) 1]) (tt_rows t).
Definition reflects (cs : coef_set) : bool := one_of (cs_name cs) ["ISOLR"; "ISO2LR"; "ISOSZLR"; "QSLR"; "QSZLR"; "SPSU2LR"; "SPU1LR"].
Definition mended (cs : coef_set) : coef_set :=
  let l := map (mend_table cs) (cs_ten cs) in
  mk_coef (cs_name cs) (cs_channels cs) (cs_sym cs) (cs_tab cs) (cs_irr cs)
    (l ++ if reflects cs then map odd_table (filter (fun t => String.eqb (tt_name t) "doublet") l) else []) (cs_modes cs).

(** ** Lines *)
Section Lines.
  Variable cs : coef_set.

  (** qst_exception and spsu2t_exception, sym-QST-impl.hpp:113-124 and sym-SPSU2T-impl.hpp:87-100: the line is skipped (or its
      factor replaced by 0). *)
  Definition skips : list (Z * Z * nat * Z) :=
    if String.eqb (cs_name cs) "QST" then [(9, 34, 2%nat, 2); (17, 23, 2%nat, 1); (52, 58, 2%nat, 1)]
    else if String.eqb (cs_name cs) "SPSU2T" then [(46, 21, 1%nat, 1); (55, 27, 1%nat, 1); (5, 38, 1%nat, 2)]
    else [].
  Definition skipped (I : invar) (i j : Z) : bool :=
    existsb (fun s => let '(i', j', n, T) := s in (i =? i') && (j =? j') && match nth_error I n with Some x => x =? T | None => false end) skips.

  (** Values of lines (i, j, factor) in sector I: those between families that are present, matrix.hpp:22-24, 97-110. *)
  Definition line_values (nn : Z) (ls : list (Z * Z * option cexpr)) (I : invar) : option (list (Z * Z * R)) :=
    mapO (fun r => let '(i, j, f) := r in option_map (fun v => (i, j, v)) (obind f (ceval I nn)))
      (filter (fun r => let '(i, j, _) := r in family cs I i && family cs I j) (filter (fun r => let '(i, j, _) := r in negb (skipped I i j)) ls)).
  (** Sum of the lines at (i, j). *)
  Definition at_ij (es : list (Z * Z * R)) (i j : Z) : R := rsum (map (fun p => if fst p =? j then snd p else 0%R) (row es i)).

  Definition off_lines (m : mode) (n : string) (x : Z * Z) : list (Z * Z * option cexpr) :=
    map (fun l => let '(i, j, _, _, _, f) := l in (i, j, f))
      (filter (fun l => let '(_, _, c, g, n', _) := l in op_eqb (c, g) x && String.eqb n' n) (mo_off m)).
  Definition diag_lines (m : mode) (n : string) (c : Z) : list (Z * Z * option cexpr) :=
    map (fun l => let '(i, _, _, f) := l in (i, i, f))
      (filter (fun l => let '(_, c', n', _) := l in (c' =? c) && (String.eqb n' n || String.eqb n' (n ++ " half"))) (mo_diag m)).

  (** The operators of the new site: spin up in the types that do not mix spins. *)
  Definition spin_up (t : irr_table) : bool :=
    if one_of (cs_name cs) ["QSZ"; "SPU1"] then match rev (it_shift t) with ShLin _ _ k :: _ => k =? 1 | _ => false end
    else if String.eqb (cs_name cs) "U1" then it_fnr t =? 0
    else Z.odd (it_fnr t).
  Definition is_op (x : Z * Z) (t : irr_table) : bool := op_eqb (it_ch t, it_fnr t) x.
  (** Blocks of <I| f |Ip> of the tables selected. *)
  Definition f_sel (nn : Z) (sel : irr_table -> bool) (I : invar) : option (list block) := all_blocks (irr_below cs nn I) (filter sel (cs_irr cs)).

  (** ** Hopping.  The chain coefficients of a mode, and the operator of the new site that the one multiplies which an electron
      is annihilated (created) with when operator x of the last site creates (annihilates) one. *)
  Definition hopping_names (m : mode) : list string :=
    if one_of (mo_name m) ["default"; "nonpolarized"] then ["xi"]
    else if String.eqb (mo_name m) "polarized" then ["xiUP"; "xiDOWN"]
    else if String.eqb (mo_name m) "pol2x2" then ["xiUP"; "xiDOWN"; "xiUPDO"; "xiDOUP"]
    else if one_of (mo_name m) ["default rungs"; "nonpolarized rungs"] then ["xiR"]
    else [].
  Definition partner (n : string) (x : Z * Z) (t : irr_table) : bool :=
    if String.eqb n "xi" then is_op (if String.eqb (cs_name cs) "U1" then (fst x, 1 - snd x) else x) t
    else if String.eqb n "xiUP" then is_op x t && spin_up t
    else if String.eqb n "xiDOWN" then is_op x t && negb (spin_up t)
    else if String.eqb n "xiUPDO" then is_op (fst x, 1 - snd x) t && negb (spin_up t)
    else if String.eqb n "xiDOUP" then is_op (fst x, 1 - snd x) t && spin_up t
    else is_op (1 - fst x, snd x) t.
  (** The operators contain both creation and annihilation operators; then one product is the whole hopping term, and the lines
      give the elements above the diagonal. *)
  Definition both : bool := one_of (cs_name cs) ["DBLISOSZ"; "DBLSU2"; "ISO"; "ISO2"; "ISOLR"; "ISO2LR"; "ISOSZ"; "ISOSZLR"; "SU2"; "P"; "PP"].

  (** Sign of the hopping term: f o^+ = - o^+ f.  The overall sign is a convention. *)
  Definition minus (x : Z * Z) : bool := String.eqb (cs_name cs) "P" && Bool.eqb (2 <=? snd x) (Nat.eqb (cs_channels cs) 1).

  (** ** On-site energies *)
  Definition site_names (m : mode) : list string :=
    if one_of (mo_name m) ["default"; "nonpolarized"] then ["zeta"]
    else if one_of (mo_name m) ["polarized"; "pol2x2"] then ["zetaUP"; "zetaDOWN"]
    else [].
  (** Operators creating electrons in channel c (of the given spin). *)
  Definition creators (n : string) (c : Z) : list (irr_table -> bool) :=
    map (fun g t => is_op (c, g) t && (if String.eqb n "zeta" then true else Bool.eqb (spin_up t) (String.eqb n "zetaUP")))
      (filter (fun g => existsb (is_op (c, g)) (cs_irr cs)) [0; 1]).
  Definition number (nn : Z) (n : string) (c : Z) (I : invar) (i j : Z) : option R :=
    osum (map (fun sel => option_map (fun F => overlap one F F i j) (f_sel nn sel I)) (creators n c)).

  (** ** Products with operators of the smaller system *)
  (** Sets with tables of the smaller system's electron operators that can be used. *)
  Definition has_doublets : bool := existsb (fun t => String.eqb (tt_name t) "doublet") (cs_ten cs) && negb (String.eqb (cs_name cs) "SPU1LR").
  (** SL3 keeps the three charges apart, and its tables are those of operators that change the first. *)
  Definition served (x : Z * Z) : bool := if String.eqb (cs_name cs) "SL3" then fst x =? 0 else true.
  (** Sectors in which no factor of QST and SPSU2T has a zero divisor inside. *)
  Definition thresholds : list (nat * Z) :=
    if String.eqb (cs_name cs) "QST" then [(1%nat, 3); (2%nat, 3)] else if String.eqb (cs_name cs) "SPSU2T" then [(1%nat, 3)] else [].
  Definition regular (I : invar) : bool := forallb (fun p => match nth_error I (fst p) with Some x => snd p <=? x | None => true end) thresholds.
  (** <I,i| o f_x^+ |I,j>, and mult(I) <I,i| f_x^+ o |I,j>, o of the smaller system. *)
  Definition old_new (nn : Z) (x : Z * Z) (I : invar) (i j : Z) : option R :=
    omap2 (fun B B' => overlap one B B' i j) (o_below cs nn "doublet" I) (f_below cs nn x I).
  Definition new_old (nn : Z) (x : Z * Z) (I : invar) (i j : Z) : option R :=
    omap2 (fun B B' => overlap (dim cs) B B' i j) (f_above cs nn x I) (o_above cs nn "doublet" I).
  (** Types with isospin, whose sectors have no number of electrons: no on-site energies. *)
  Definition isospin : bool := one_of (cs_name cs) ["ISO"; "ISO2"; "ISOLR"; "ISO2LR"; "ISOSZ"; "ISOSZLR"; "SU2"; "DBLISOSZ"; "DBLSU2"].

  (** ** Operators of the smaller system *)
  (** Sum over all k in families built from X of <I,i||o||Ip,k> <I,j||o||Ip,k>. *)
  Definition via (X : invar) (b : block) (i : Z) : list (Z * R) :=
    filter (fun p => match built_from cs (bl_to b) (fst p) with Some Y => invar_eqb X Y | None => false end) (row (bl_el b) i).
  Definition through (X : invar) (B : list block) (i j : Z) : R := rsum (map (fun b => dot (via X b i) (row (bl_el b) j)) B).
  Definition op_names : list string := nodup string_dec (map tt_name (cs_ten cs)).
  (** Tables that are incomplete: SPU1LR gives sectors without parity, SPSU2 with three channels lacks a table (C57_refuted). *)
  Definition incomplete (n : string) : bool :=
    String.eqb (cs_name cs) "SPU1LR" || (String.eqb (cs_name cs) "SPSU2" && Nat.eqb (cs_channels cs) 3 && String.eqb n "triplet").
  (** Sectors with a factor that divides by zero inside: quantum number, from, to. *)
  Definition gaps (n : string) : list (nat * Z * Z) :=
    if String.eqb n "triplet" then
      if String.eqb (cs_name cs) "QS" && Nat.leb 3 (cs_channels cs) then [(1%nat, 2, 2)]
      else if String.eqb (cs_name cs) "QSTZ" then [(1%nat, 1, 2)]
      else if String.eqb (cs_name cs) "SPSU2T" then [(0%nat, 1, 2)] else []
    else if String.eqb n "doublet" then
      if String.eqb (cs_name cs) "QST" then [(1%nat, 1, 1)] else if String.eqb (cs_name cs) "SPSU2T" then [(1%nat, 0, 1)] else []
    else [].
  Definition gap (n : string) (I : invar) : bool :=
    existsb (fun g => let '(k, lo, hi) := g in match nth_error I k with Some x => (lo <=? x) && (x <=? hi) | None => false end) (gaps n).
End Lines.
