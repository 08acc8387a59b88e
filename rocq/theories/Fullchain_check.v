(** Computable conditions on the tables from which C65 follows.  Nothing here is part of a statement. *)
From Coq Require Import List ZArith Bool String.
From Verif Require Import Base Invar_model Symmetry_model Coef_model Coef_tables Fullchain_terms.
Import ListNotations.
Local Open Scope string_scope.
Local Open Scope list_scope.
Local Open Scope Z_scope.

Definition csym_eqb (a b : csym) : bool :=
  match a, b with Xi x, Xi y | XiR x, XiR y | Kappa x, Kappa y | Zeta x, Zeta y | ZetaR x, ZetaR y | Delta x, Delta y => Z.eqb x y | _, _ => false end.
(** Row i, column j, symbol, two more labels. *)
Notation wkey := (Z * Z * csym * Z * Z)%type.
Definition wkey_eqb (a b : wkey) : bool :=
  match a, b with (i, j, s, c, f), (i', j', s', c', f') =>
    if Z.eqb i i' then if Z.eqb j j' then if csym_eqb s s' then if Z.eqb c c' then Z.eqb f f' else false else false else false else false end.
Notation wlist := (list (wkey * Z)).
Definition krow (k : wkey) : Z := match k with (i, _, _, _, _) => i end.
Definition weight (k : wkey) (l : wlist) : Z := fold_right (fun p s => (if wkey_eqb (fst p) k then snd p else 0) + s) 0 l.
Definition same_weights (a b : wlist) : bool := forallb (fun p => weight (fst p) a =? weight (fst p) b) (a ++ b).
Definition bucket (i : Z) (l : wlist) : wlist := filter (fun p => Z.eqb (krow (fst p)) i) l.
Definition labels (n : nat) : list Z := map (fun k => Z.of_nat (S k)) (seq 0 n).
Definition in_range (n : nat) (i : Z) : bool := (1 <=? i) && (i <=? Z.of_nat n).
Definition same_in_buckets (n : nat) (a b : wlist) : bool :=
  forallb (fun p => in_range n (krow (fst p))) a && forallb (fun p => in_range n (krow (fst p))) b &&
  forallb (fun i => same_weights (bucket i a) (bucket i b)) (labels n).

(** Integer matrices as lists of entries. *)
Notation rows := (list (Z * Z * Z)).
Definition el (l : rows) (i j : Z) : Z := fold_right (fun r s => match r with (a, b, z) => if Z.eqb a i && Z.eqb b j then z else 0 end + s) 0 l.
Definition mul (a b : rows) : rows :=
  flat_map (fun r => flat_map (fun s => match r, s with (i, j, x), (k, l, y) => if Z.eqb j k then [(i, l, Z.mul x y)] else [] end) b) a.
Definition tr (a : rows) : rows := map (fun r => match r with (i, j, z) => (j, i, z) end) a.
Definition scal (c : Z) (a : rows) : rows := map (fun r => match r with (i, j, z) => (i, j, Z.mul c z) end) a.
Definition same_el (a b : rows) : bool := forallb (fun r => match r with (i, j, _) => el a i j =? el b i j end) (a ++ b).
Definition rows_of (t : irr_table) : rows := map (fun r => match r with (i, j, e) => (i, j, match e with Some (cN z) => z | _ => 0 end) end) (it_rows t).
Definition occ (t : irr_table) : rows := mul (rows_of t) (tr (rows_of t)).
Definition ident (n : nat) : rows := map (fun i => (i, i, 1)) (labels n).

(** Four times a constant. *)
Definition quad (e : option cexpr) : option Z :=
  match e with Some (cN z) => Some (4 * z) | Some (cQ n d) => match d with 1%positive => Some (4 * n) | 2%positive => Some (2 * n) | 4%positive => Some n | _ => None end | _ => None end.
Definition sym_of (chs : Z) (name : string) (ch : Z) : option csym :=
  if String.eqb name "xi" || String.eqb name "xiUP" then Some (Xi ch)
  else if String.eqb name "xiDOWN" then Some (Xi (ch + chs))
  else if String.eqb name "xiUPDO" then Some (Xi (ch + 2 * chs))
  else if String.eqb name "xiDOUP" then Some (Xi (ch + 3 * chs))
  else if String.eqb name "xiR" then Some (XiR ch)
  else if String.eqb name "kappa" then Some (Kappa ch)
  else if String.eqb name "zeta" || String.eqb name "zetaUP" || String.eqb name "zetaUP half" then Some (Zeta ch)
  else if String.eqb name "zetaDOWN" || String.eqb name "zetaDOWN half" then Some (Zeta (ch + chs))
  else if String.eqb name "zetaDOUP" then Some (Zeta (ch + 3 * chs))
  else if String.eqb name "zetaR" then Some (ZetaR ch)
  else if String.eqb name "2*delta" then Some (Delta ch) else None.
Definition twice (name : string) : Z := if String.eqb name "2*delta" then 2 else 1.
Definition is_half (n : string) : bool := String.eqb n "zetaUP half" || String.eqb n "zetaDOWN half".

Section Check.
  Variables (cs : coef_set) (se : setting) (m : mode).
  Let d := List.length (tb_In (cs_tab cs)).
  Let chs := Z.of_nat (cs_channels cs).

  (** The lines of the program. *)
  Definition prog_off : option wlist :=
    mapO (fun l : off_line => match l with (i, j, ch, fnr, n, e) => omap2 (fun s q => ((i, j, s, ch, fnr), q * twice n)) (sym_of chs n ch) (quad e) end) (mo_off m).
  Definition prog_diag : option wlist :=
    mapO (fun l : diag_line => match l with (i, ch, n, e) =>
      omap2 (fun s q => ((i, i, s, 0, 0), twice n * (q - (if is_half n then 1 else 2) * Z.of_nat (multiplicity cs)))) (sym_of chs n ch) (quad e) end) (mo_diag m).
  Definition prog_dof : option (list wlist) :=
    mapO (fun l : dof_line => match l with (i, j, ch, n, e) =>
      omap2 (fun s q => if i <? j then [((i, j, s, 0, 0), q * twice n); ((j, i, s, 1, 0), q * twice n)]
                        else if i =? j then [((i, j, s, 0, 0), q * twice n)] else []) (sym_of chs n ch) (quad e) end) (mo_dof m).

  (** The terms of the specification. *)
  Definition sgn_of (os : list rows) (i : Z) : Z := fold_right (fun o s => (1 - 2 * el o i i) * s) 1 os.
  Definition signs : list Z := let os := map occ (cs_irr cs) in map (sgn_of os) (labels d).
  Definition sg (ss : list Z) (i : Z) : Z := nth (Z.to_nat (i - 1)) ss 0.
  Definition spec_off (ss : list Z) : wlist :=
    flat_map (fun h : csym * irr_table * irr_table => match h with (s, t, t') =>
      map (fun r => match r with (i1, ip, z) => ((ip, i1, s, it_ch t, it_fnr t), 4 * (sg ss ip * z)) end) (rows_of t') end) (hops cs se) ++
    flat_map (fun h : Z * csym * irr_table * irr_table => match h with (w, s, t, t') =>
      map (fun r => match r with (i1, ip, z) => ((i1, ip, s, it_ch t, it_fnr t), 4 * (w * (sg ss i1 * z))) end) (rows_of t') end) (pair_hops cs).
  Definition hc_entries (s : csym) (l : rows) : wlist :=
    flat_map (fun r => match r with (i, j, z) => [((i, j, s, 0, 0), 4 * z); ((j, i, s, 1, 0), 4 * z)] end) l.
  Definition spec_loc : wlist :=
    flat_map (fun h : Z * csym * irr_table => match h with (w, s, t) =>
      map (fun r => match r with (i, j, z) => ((i, j, s, 0, 0), 4 * z) end) (occ t) ++ map (fun i => ((i, i, s, 0, 0), -2 * w)) (labels d) end) (levels cs se) ++
    flat_map (fun h : csym * irr_table * irr_table => match h with (s, t, t') => hc_entries s (mul (rows_of t) (tr (rows_of t'))) end) (mixings cs se) ++
    flat_map (fun h : csym * irr_table * irr_table => match h with (s, t, t') => hc_entries s (tr (mul (rows_of t) (rows_of t'))) end) (pairings cs).

  (** Change of the quantum numbers by a table. *)
  Definition delta_of (t : irr_table) : invar := match it_shift t with [] => [0] | l => map (fun s => match s with ShLin _ _ k => k | ShMod3 _ k => k end) l end.
  Definition vadd (a b : invar) : invar := map (fun p => fst p + snd p) (List.combine a b).
  Definition In_of (i : Z) : invar := nth (Z.to_nat (i - 1)) (tb_In (cs_tab cs)) [].
  Fixpoint zlist_eqb (a b : list Z) : bool := match a, b with [], [] => true | x :: a', y :: b' => Z.eqb x y && zlist_eqb a' b' | _, _ => false end.
  Fixpoint plain_shift (n : nat) (l : list sh) : bool :=
    match l with [] => true | ShLin n' k _ :: l' => Nat.eqb n' n && Z.eqb k 1 && plain_shift (S n) l' | _ => false end.
  Definition is_none : bool := String.eqb (cs_name cs) "NONE".

  (** i = t j: local state i is reached from j. *)
  Definition moves (t : irr_table) (i j : Z) : bool := in_range d i && in_range d j && zlist_eqb (In_of i) (vadd (delta_of t) (In_of j)).
  Definition same_table (t t' : irr_table) : bool := Z.eqb (it_ch t) (it_ch t') && Z.eqb (it_fnr t) (it_fnr t') && zlist_eqb (delta_of t) (delta_of t').

  Definition check_sym : bool :=
    match sy_mult (cs_sym cs) with [] => true | _ => false end &&
    forallb (fun p => match snd p with Additive => true | _ => false end) (sy_sig (cs_sym cs)) &&
    forallb (fun x => Nat.eqb (List.length x) (List.length (sy_sig (cs_sym cs))) && (negb is_none || zlist_eqb x [0])) (tb_In (cs_tab cs)) && Nat.ltb 0 d.
  Definition check_table (t : irr_table) : bool :=
    match it_shift t with
    | [] => is_none && Nat.eqb (List.length (sy_sig (cs_sym cs))) 1
    | l => negb is_none && plain_shift 0 l && Nat.eqb (List.length l) (List.length (sy_sig (cs_sym cs)))
    end &&
    (0 <=? it_ch t) && (it_ch t <? chs) && (0 <=? it_fnr t) && (it_fnr t <? Z.of_nat (per_channel cs)) &&
    forallb (fun r => match r with (i1, ip, e) => match e with Some (cN z) => moves t ip i1 | _ => false end end) (it_rows t) &&
    Nat.eqb 1 (List.length (filter (same_table t) (cs_irr cs))).
  Definition check_lines : bool :=
    forallb (fun l : off_line => match l with (i, j, ch, fnr, _, _) => negb (i =? j) && (0 <=? ch) && (0 <=? fnr) &&
      existsb (fun t => Z.eqb (it_ch t) ch && Z.eqb (it_fnr t) fnr && moves t i j) (cs_irr cs) end) (mo_off m) &&
    forallb (fun l : diag_line => match l with (i, _, _, _) => in_range d i end) (mo_diag m) &&
    forallb (fun l : dof_line => match l with (i, j, _, _, _) => in_range d i && in_range d j && zlist_eqb (In_of i) (In_of j) end) (mo_dof m).
  Definition check_terms : bool :=
    forallb (fun h : csym * irr_table * irr_table => match h with (_, t, t') => forallb (fun r => match r with (i1, ip, _) => moves t ip i1 end) (rows_of t') end) (hops cs se) &&
    forallb (fun h : Z * csym * irr_table * irr_table => match h with (_, _, t, t') => forallb (fun r => match r with (i1, ip, _) => moves t i1 ip end) (rows_of t') end) (pair_hops cs) &&
    forallb (fun p => match fst p with (i, j, _, _, _) => in_range d j && zlist_eqb (In_of i) (In_of j) end) spec_loc.
  Definition check_weights : bool :=
    match prog_off, prog_diag, prog_dof with
    | Some a, Some b, Some c => same_in_buckets d a (spec_off signs) && same_in_buckets d (b ++ List.concat c) spec_loc
    | _, _, _ => false
    end.
  (** Canonical anticommutation relations, and the operators change the sign. *)
  Definition check_car : bool :=
    let os := map rows_of (cs_irr cs) in
    let ps := List.combine (seq 0 (List.length os)) os in
    forallb (fun p => forallb (fun p' =>
      same_el (mul (snd p) (snd p') ++ mul (snd p') (snd p)) [] &&
      same_el (mul (tr (snd p)) (snd p') ++ mul (snd p') (tr (snd p))) (if Nat.eqb (fst p) (fst p') then ident d else [])) ps) ps.
  Definition check_signs : bool :=
    let ss := signs in
    forallb (fun s => Z.eqb (Z.mul s s) 1) ss &&
    forallb (fun t => forallb (fun r => match r with (i1, ip, _) => Z.eqb (sg ss i1 + sg ss ip) 0 end) (rows_of t)) (cs_irr cs).
  Definition check : bool := check_sym && forallb check_table (cs_irr cs) && check_lines && check_terms && check_weights && check_car && check_signs.
End Check.

Definition get_mode (cs : coef_set) (se : setting) : option mode :=
  let get n := find (fun m => String.eqb (mo_name m) n) (cs_modes cs) in
  match se with
  | Plain => match get "default" with Some m => Some m | None => get "nonpolarized" end
  | Polarized => get "polarized"
  | Pol2x2 => get "pol2x2"
  | Rungs => match get "nonpolarized", get "nonpolarized rungs" with
             | Some a, Some b => Some (mk_mode "rungs" (mo_off a ++ mo_off b) (mo_diag a ++ mo_diag b) (mo_dof a ++ mo_dof b)) | _, _ => None end
  end.
Definition setting_eqb (a b : setting) : bool := match a, b with Plain, Plain | Polarized, Polarized | Pol2x2, Pol2x2 | Rungs, Rungs => true | _, _ => false end.
Definition is_considered (cs : coef_set) (se : setting) : bool :=
  existsb (fun c => match c with (n, k, s) => String.eqb (cs_name cs) n && Nat.eqb (cs_channels cs) k && setting_eqb se s end) considered.
Definition check_all : bool :=
  forallb (fun cs => forallb (fun se => if is_considered cs se then match get_mode cs se with Some m => check cs se m | None => false end else true)
    [Plain; Polarized; Pol2x2; Rungs]) all_coef.
Lemma check_all_ok : check_all = true.
Proof. vm_cast_no_check (eq_refl true). Qed.
