(** Checks of the lines of make_matrix() and of the smaller system's operators in a symbolic sector.  Definitions only;
    soundness in Coef_check_sound.v. *)
From Coq Require Import List ZArith Reals Bool String.
From Verif Require Import Base Invar_model Symmetry_model Coef_model Coef_norm Coef_cert Coef_spec Coef_sector Coef_lines_spec.
Import ListNotations.
Local Open Scope string_scope.
Local Open Scope list_scope.
Local Open Scope Z_scope.

Notation erow := (Z * Z * option cexpr * option cert)%type.
Notation certs := (list (option cert)).

Definition fneg (v : fv) : fv := (fst v, sneg (snd v)).

Section Sets.
  Variable cs : coef_set.
  Notation sy := (cs_sym cs).

  (** which lines are skipped *)
  Fixpoint sskip (l : list (Z * Z * nat * Z)) (a : ssec) (i j : Z) : option bool :=
    match l with
    | [] => Some false
    | (i', j', n, T) :: l' =>
        if (i =? i') && (j =? j') then
          match nth_error a n with
          | Some (SFix z) => if z =? T then Some true else sskip l' a i j
          | Some (SGen _ c) => if T <? c then sskip l' a i j else None
          | Some (SAny _) => None
          | None => sskip l' a i j
          end
        else sskip l' a i j
    end.
  Fixpoint sselect (a : ssec) (rs : list erow) : option (list erow) :=
    match rs with
    | [] => Some []
    | (i, j, f, c) :: rs' => obind (sskip (skips cs) a i j) (fun x => option_map (fun r => if x then r else (i, j, f, c) :: r) (sselect a rs'))
    end.
  Definition slines (a : ssec) (fa : trie ssec) (rs : list erow) : option (list (Z * Z * fv)) :=
    obind (sselect a rs) (fun rs' => sentries rs' fa fa a).
  Definition srow (E : rows) (i : Z) : list (Z * fv) := map (fun p => (fst p, fneg (snd p))) (tfind E i).

  Notation below := (list (irr_table * certs * list sblk)).
  Definition of_sel (sel : irr_table -> bool) (l : below) : list sblk := List.concat (map snd (filter (fun d => sel (fst (fst d))) l)).

  (** hopping lines *)
  Definition off_rows (m : mode) (C : certs) (n : string) (x : Z * Z) : list erow :=
    map (fun d => let '((i, j, _, _, _, f), c) := d in (i, j, f, c))
      (filter (fun d => let '((_, _, c, g, n', _), _) := d in op_eqb (c, g) x && String.eqb n' n) (List.combine (mo_off m) C)).
  Definition hop_at (a : ssec) (fa : trie ssec) (L : below) (D : list sblk) (m : mode) (C : certs) (n : string) (x : Z * Z) : bool :=
    match slines a fa (off_rows m C n x), spairs D (of_sel (partner cs n x) L) with
    | Some E, Some P =>
        let E' := index E in
        (if both cs then forallb (fun e : Z * Z * fv => let '(i, j, _) := e in i <? j) E else true) &&
        forallb (fun i => vanish ((if minus cs x then tfind E' i else srow E' i) ++ sov unit_w (if both cs then i + 1 else 1) i P)) (true_ix cs fa)
    | _, _ => false
    end.
  (** on-site lines *)
  Definition diag_rows (m : mode) (C : certs) (n : string) (c : Z) : list erow :=
    map (fun d => let '((i, _, _, f), c) := d in (i, i, f, c))
      (filter (fun d => let '((_, c', n', _), _) := d in (c' =? c) && (String.eqb n' n || String.eqb n' (n ++ " half"))) (List.combine (mo_diag m) C)).
  Definition site_at (a : ssec) (fa : trie ssec) (L : below) (m : mode) (C : certs) (n : string) (c : Z) : bool :=
    match slines a fa (diag_rows m C n c), mapO (fun sel => let S := of_sel sel L in spairs S S) (creators cs n c) with
    | Some E, Some P =>
        let E' := index E in let P := List.concat P in
        forallb (fun i => vanish (srow E' i ++ sov unit_w 1 i P)) (true_ix cs fa)
    | _, _ => false
    end.
  (** operators of the smaller system anticommute with those of the new site *)
  Definition anti_at (fa : trie ssec) (m : msum) (L U : below) (D A : list sblk) (x : Z * Z) : bool :=
    match spairs D (of_op x L), spairs (of_op x U) A with
    | Some lo, Some up => forallb (fun i => vanish (sov m 1 i lo ++ sovw 1 i up)) (true_ix cs fa)
    | _, _ => false
    end.

  Definition sregular (a : ssec) : bool := forallb (fun p => match nth_error a (fst p) with Some (SFix z) => snd p <=? z | _ => true end) (thresholds cs).
  Definition lines_at (C T O G : list certs) (a : ssec) : bool :=
    match smult sy a, sfams cs a with
    | Some w, Some fa =>
        match sall (sirr_below cs a fa) (List.combine (cs_irr cs) C) with
        | Some L =>
            (if isospin cs then true else
             forallb (fun d : mode * certs => forallb (fun n => forallb (fun c => site_at a fa L (fst d) (snd d) n (Z.of_nat c)) (seq 0 (cs_channels cs)))
               (site_names (fst d))) (List.combine (cs_modes cs) G)) &&
            (if has_doublets cs && sregular a then
               match sall (sirr_above cs a fa) (List.combine (cs_irr cs) C), sall (sten_below cs a fa) (List.combine (op_tables cs "doublet") T),
                     sall (sten_above cs a fa) (List.combine (op_tables cs "doublet") T) with
               | Some U, Some D, Some A =>
                   let D := of_name "doublet" D in let A := of_name "doublet" A in
                   forallb (fun d : mode * certs => forallb (fun n => forallb (fun x => if served cs x then hop_at a fa L D (fst d) (snd d) n x else true) (ops cs))
                     (hopping_names (fst d))) (List.combine (cs_modes cs) O) &&
                   forallb (anti_at fa w L U D A) (ops cs)
               | _, _, _ => false
               end
             else true)
        | None => false
        end
    | _, _ => false
    end.
End Sets.

Definition kinds_of (cs : coef_set) : list (option nat) :=
  snd (fold_left (fun st d => let '(v, l) := st in
    if match snd d with Additive => is_kind cs TSU2 (fst d) || is_kind cs TSU2T (fst d) | _ => false end then (S v, l ++ [Some v]) else (v, l ++ [None]))
    (sy_sig (cs_sym cs)) (O, [])).
Definition ten_certs_of (cs : coef_set) (n : string) : list certs :=
  map (fun t => map (fun r : Z * Z * list sh * list sh * option cexpr => obind (snd r) (make_cert (kinds_of cs))) (tt_rows t)) (op_tables cs n).
Definition off_certs_of (cs : coef_set) : list certs :=
  map (fun m => map (fun l : off_line => obind (snd l) (make_cert (kinds_of cs))) (mo_off m)) (cs_modes cs).
Definition diag_certs_of (cs : coef_set) : list certs :=
  map (fun m => map (fun l : diag_line => obind (snd l) (make_cert (kinds_of cs))) (mo_diag m)) (cs_modes cs).


Definition off_short (l : off_line) : Z * Z * option cexpr := let '(i, j, _, _, _, f) := l in (i, j, f).
Definition diag_short (l : diag_line) : Z * Z * option cexpr := let '(i, _, _, f) := l in (i, i, f).
Definition lines_certs_ok (cs : coef_set) (C T O G : list certs) : bool :=
  certs_ok cs C &&
  all2 (fun t c => cert_rows (map (fun r => let '(i, k, _, _, f) := r in (i, k, f)) (tt_rows t)) c) (op_tables cs "doublet") T &&
  all2 (fun m c => cert_rows (map off_short (mo_off m)) c) (cs_modes cs) O &&
  all2 (fun m c => cert_rows (map diag_short (mo_diag m)) c) (cs_modes cs) G.
