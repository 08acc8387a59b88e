(** Check that the tables of the smaller system's operators preserve norms, in a symbolic sector.  Definitions only; soundness in
    Coef_iso_sound.v. *)
From Coq Require Import List ZArith Reals Bool String.
From Verif Require Import Base Invar_model Symmetry_model Coef_model Coef_norm Coef_cert Coef_spec Coef_sector Coef_lines_spec Coef_check.
Import ListNotations.
Local Open Scope string_scope.
Local Open Scope list_scope.
Local Open Scope Z_scope.

Section Sets.
  Variable cs : coef_set.

  Definition with_fams (D : list sblk) : option (list (trie ssec * sblk)) := mapO (fun b => option_map (fun f => (f, b)) (sfams cs (sb_to b))) D.
  Fixpoint svia (X : ssec) (f : trie ssec) (u : list (Z * fv)) : option (list (Z * fv)) :=
    match u with
    | [] => Some []
    | p :: u' => match has f (fst p) with
                 | Some Y => obind (ssec_eqb X Y) (fun x => option_map (fun r => if x then p :: r else r) (svia X f u'))
                 | None => None
                 end
    end.
  Fixpoint sthrough (X : ssec) (D : list (trie ssec * sblk)) (i : Z) : option (list (Z * fv)) :=
    match D with
    | [] => Some []
    | (f, b) :: D' => omap2 (fun u r => prods unit_w 1 u (sb_col b) ++ r) (svia X f (tfind (sb_row b) i)) (sthrough X D' i)
    end.
  Definition minus_one : fv := (false, [(pconst (-1), [])]).
  Definition iso_t (D : list (trie ssec * sblk)) (i : Z) (A : ssec) (t : ten_table) : bool :=
    match sshift (tt_shift t) A with
    | Some X => match tblock cs t A X X with
                | Some true => match sthrough X D i with Some l => vanish ((i, minus_one) :: l) | None => false end
                | Some false => true
                | None => false
                end
    | None => false
    end.
  Definition sgap (n : string) (a : ssec) : bool :=
    existsb (fun g => let '(k, lo, hi) := g in match nth_error a k with Some (SFix z) => (lo <=? z) && (z <=? hi) | _ => false end) (gaps cs n).
  Definition iso_at (n : string) (T : list certs) (a : ssec) : bool :=
    sgap n a ||
    match sfams cs a with
    | Some fa =>
        match sall (sten_below cs a fa) (List.combine (op_tables cs n) T) with
        | Some D =>
            match with_fams (of_name n D) with
            | Some D' => forallb (fun i => match has fa i with Some A => forallb (iso_t D' i A) (op_tables cs n) | None => true end) (true_ix cs fa)
            | None => false
            end
        | None => false
        end
    | None => false
    end.
End Sets.

Definition iso_certs_ok (cs : coef_set) (n : string) (T : list certs) : bool :=
  all2 (fun t c => cert_rows (map (fun r => let '(i, k, _, _, f) := r in (i, k, f)) (tt_rows t)) c) (op_tables cs n) T.
Definition reach (n : string) : Z := if String.eqb n "doublet" then 2 else 3.
Definition run_iso (cs : coef_set) (n : string) (T : list certs) : bool :=
  iso_certs_ok cs n T && forallb (iso_at cs n T) (shapes cs (Z.of_nat (cs_channels cs) + reach n)).
