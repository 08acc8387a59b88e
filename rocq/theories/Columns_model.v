(** Model of the rows of the file "td": /repo/c++/outfield.hpp (Outfield, Allfields, TD), /repo/c++/stats.hpp:60-66,
    /repo/c++/measurements.hpp:168-187 (calculate_TD), /repo/c++/symmetry.hpp:127-129 (calculate_Z) and the calculate_TD
    members of the symmetry classes (tables in Columns_tables.v).  Formatting of numbers is not modelled: a field holds
    either nothing (empty string) or a number. *)
From Coq Require Import List ZArith Reals String.
From Verif Require Import Base Invar_model Symmetry_model Thermo_model.
Import ListNotations.
Local Open Scope string_scope.
Local Open Scope R_scope.

(** What is multiplied by sumZ and accumulated over the sectors: q; q*q; SZ(q); pow(SZ(q),2); (q*q-1)/12; q*(q+1)/3. *)
Inductive term := TQ (n : string) | TQ2 (n : string) | TSz (n : string) | TSz2 (n : string) | TCas (n : string) | TOrb (n : string).
(** invar.hpp:25 *)
Definition SZ (x : Z) : R := (IZR x - 1) / 2.
Definition term_value (sg : signature) (J : invar) (t : term) : res R :=
  match t with
  | TQ n => let* x := get sg J n in Ok (IZR x)
  | TQ2 n => let* x := get sg J n in Ok (IZR x * IZR x)
  | TSz n => let* x := get sg J n in Ok (SZ x)
  | TSz2 n => let* x := get sg J n in Ok (SZ x ^ 2)
  | TCas n => let* x := get sg J n in Ok (IZR (x * x - 1) / 12)
  | TOrb n => let* x := get sg J n in Ok (IZR x * IZR (x + 1) / 3)
  end.

(** The value given to td.set: tr/Z; 4*tr/Z; tr2/Z - (tr1/Z)^2. *)
Inductive column := CMean (t : term) | CMean4 (t : term) | CVar (t2 t1 : term).
(** tc_fields: argument td_fields of the constructor; tc_sets: the td.set calls at the end of calculate_TD, in order. *)
Record td_columns := { tc_fields : list string; tc_sets : list (string * column) }.

Section Row.
  Variables (sy : symmetry) (factor : R) (diag : list (invar * list R)).
  (** symmetry.hpp:127-129 *)
  Definition calculate_Z (J : invar) (v : list R) : res R :=
    let* m := mult sy J in Ok (IZR m * accumulate (fun x => exp (- factor * x)) v).
  Definition trace_term (t : term) : res R :=
    let* l := mapM (fun p => let* z := calculate_Z (fst p) (snd p) in let* x := term_value (sy_sig sy) (fst p) t in Ok (z * x)) diag in
    Ok (accumulate (fun x => x) l).
  Definition column_value (Z : R) (c : column) : res R :=
    match c with
    | CMean t => let* x := trace_term t in Ok (x / Z)
    | CMean4 t => let* x := trace_term t in Ok (4 * x / Z)
    | CVar t2 t1 => let* x2 := trace_term t2 in let* x1 := trace_term t1 in Ok (x2 / Z - (x1 / Z) ^ 2)
    end.

  Definition fields := list (string * option R).
  (** outfield.hpp:66-73 Allfields::set: the first field with this name. *)
  Fixpoint set_field (desc : string) (x : R) (fs : fields) : res fields :=
    match fs with
    | [] => Throw
    | (d, o) :: fs' => if String.eqb d desc then Ok ((d, Some x) :: fs') else let* r := set_field desc x fs' in Ok ((d, o) :: r)
    end.
  Fixpoint set_all (l : list (string * R)) (fs : fields) : res fields :=
    match l with [] => Ok fs | (d, x) :: l' => let* fs' := set_field d x fs in set_all l' fs' end.

  (** outfield.hpp:95-98, 46-49; stats.hpp:65: the symmetry-specific names go after the first one. *)
  Definition header (tc : td_columns) : list string := ["T"] ++ tc_fields tc ++ ["<E>"; "<E^2>"; "C"; "F"; "S"].

  (** measurements.hpp:168-187.  [fs] is the state left by the previous row. *)
  Definition td_row (tc : td_columns) (Teff : R) (fs : fields) : res fields :=
    let* _ := mapM (fun p => mult sy (fst p)) diag in
    let r := calculate_TD (fun J => match mult sy J with Ok m => m | _ => 0%Z end) diag factor in
    let* fs1 := set_all [("T", Teff); ("<E>", td_E r); ("<E^2>", td_E2 r); ("C", td_C r); ("F", td_F r); ("S", td_S r)] fs in
    let* vals := mapM (fun c => let* v := column_value (td_Z r) (snd c) in Ok (fst c, v)) (tc_sets tc) in
    set_all vals fs1.
End Row.
