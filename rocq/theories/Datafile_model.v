(** Model of the reading of the data file: /repo/c++/read-input.hpp (InputData, read_data_header), basicio.hpp:142-183 (read_one,
    read_std_vector), eigen.hpp:466-475 (DiagInfo from a stream), operators.hpp:31-42, 174-188 (MatrixElements and Opch from a stream),
    numerics_Eigen.hpp:83-91 (read_matrix), coef.hpp:22-24, 96-99, misc.hpp:145-160 (skip_comments), params.hpp:561-588, invar.hpp:68-77.
    A stream is the text that has not been read yet.  A failure of a stream always ends in an exception in the modelled code (read_one
    tests it at once), except at the end of the blocks.  The conversion of digits to numbers (operator>> of the library) is an argument:
    it takes a number from the beginning of a text and returns the rest.  Symmetry classes, the tridiagonalisation and messages are omitted. *)
From Coq Require Import List ZArith Ascii String Bool.
From Verif Require Import Base Oprecalc_model.
Import ListNotations.
Local Open Scope string_scope.
Local Open Scope list_scope.

Definition newline : ascii := "010"%char.
Definition tab : ascii := "009"%char.

(** operator>> skips isspace characters. *)
Fixpoint skip_ws (s : string) : string := match s with String c s' => if blank c then skip_ws s' else s | "" => "" end.
(** std::getline: the text before the newline and the rest after it; [None] in the second place: the end of the file came first. *)
Fixpoint getline (s : string) : string * option string :=
  match s with
  | "" => ("", None)
  | String c s' => if Ascii.eqb c newline then ("", Some s') else let (l, r) := getline s' in (String c l, r)
  end.
Definition rest_of (r : option string) : string := match r with Some s => s | None => "" end.

(** misc.hpp:145-160 skip_comments. *)
Fixpoint skip_comments_aux (in_comment : bool) (s : string) : string :=
  match s with
  | "" => ""
  | String c s' =>
      if in_comment then skip_comments_aux (negb (Ascii.eqb c newline)) s'
      else if (Ascii.eqb c " " || Ascii.eqb c tab || Ascii.eqb c newline)%bool then skip_comments_aux false s'
      else if Ascii.eqb c "#" then skip_comments_aux true s'
      else s
  end.
Definition skip_comments (s : string) : string := skip_comments_aux false s.

(** A parser returns the value and the rest of the text. *)
Notation parser A := (string -> res (A * string)).
(** basicio.hpp:142-150. *)
Definition read_one {A} (scan : string -> option (A * string)) : parser A := fun s => match scan (skip_ws s) with Some p => Ok p | None => Throw end.
Fixpoint read_n {A} (n : nat) (p : parser A) : parser (list A) :=
  fun s => match n with 0%nat => Ok ([], s) | S n' => let* (x, s1) := p s in let* (l, s2) := read_n n' p s1 in Ok (x :: l, s2) end.
(** operator>> of a char. *)
Definition scan_char (s : string) : option (ascii * string) := match s with "" => None | String c s' => Some (c, s') end.

(** Invar: the quantum numbers. *)
Notation invar := (list Z).
Definition invar_eqb (x y : invar) : bool := if list_eq_dec Z.eq_dec x y then true else false.
Definition key_eqb (x y : invar * invar) : bool := (invar_eqb (fst x) (fst y) && invar_eqb (snd x) (snd y))%bool.
(** std::map: operator[] followed by an assignment. *)
Fixpoint map_set {K A} (eqb : K -> K -> bool) (k : K) (v : A) (m : list (K * A)) : list (K * A) :=
  match m with [] => [(k, v)] | (k', v') :: m' => if eqb k' k then (k', v) :: m' else (k', v') :: map_set eqb k v m' end.
Definition map_get {K A} (eqb : K -> K -> bool) (k : K) (m : list (K * A)) : option A := option_map snd (find (fun p => eqb (fst p) k) m).

(** ** Header, read-input.hpp:31-51 *)
Record data_header := { h_symtype : string; h_channels : nat; h_Nmax : nat; h_nsubs : nat }.
(** The text after the last blank or tab, if there is any: find_last_of and substr. *)
Fixpoint has_sep (s : string) : bool := match s with "" => false | String c s' => (Ascii.eqb c " " || Ascii.eqb c tab || has_sep s')%bool end.
Fixpoint after_last (s : string) : string :=
  match s with "" => "" | String c s' => if has_sep s' then after_last s' else if (Ascii.eqb c " " || Ascii.eqb c tab)%bool then s' else s end.
(** std::string::find *)
Fixpoint begins (p s : string) : bool :=
  match p, s with "", _ => true | String c p', String d s' => (Ascii.eqb c d && begins p' s')%bool | _, _ => false end.
Fixpoint occurs (p s : string) : bool := (begins p s || match s with "" => false | String _ s' => occurs p s' end)%bool.
(** line.find("symtype", 1): from the second character on. *)
Definition symtype_of_line (line old : string) : string :=
  if match line with "" => false | String _ l => occurs "symtype" l end then
    if has_sep line then (if String.eqb (after_last line) "" then old else after_last line) else old
  else old.
Definition ignore_newline (s : string) : string := match s with String c s' => if Ascii.eqb c newline then s' else s | "" => "" end.

Section Data.
  (** R: double (energies); V: matrix elements and coefficients. *)
  Variables (R V : Type) (scan_nat : string -> option (nat * string)) (scan_int : string -> option (Z * string))
    (scan_R : string -> option (R * string)) (scan_V : string -> option (V * string)) (finite : V -> bool) (rescale : R -> R).

  (** read-input.hpp:31-49.  dataversion = -1: [None].  Fuel: every round reads a '#'. *)
  Fixpoint read_header_lines (fuel : nat) (sym : string) (version : option Z) (s : string) : res (string * option Z * string) :=
    match s with
    | String "#" s1 =>
        match fuel with
        | 0%nat => UB
        | S fuel' =>
            match s1 with
            | String "!" s2 => let* (v, s3) := read_one scan_int s2 in read_header_lines fuel' sym (Some v) (ignore_newline s3)
            | _ => let (line, r) := getline s1 in read_header_lines fuel' (symtype_of_line line sym) version (ignore_newline (rest_of r))
            end
        end
    | _ => Ok (sym, version, s)
    end.
  Definition read_data_header : parser data_header := fun s =>
    let* (x, s1) := read_header_lines (String.length s) "" None s in
    let (sym, version) := x in
    let* _ := my_assert (match version with Some v => Z.eqb v 9 | None => false end) in
    let* (ch, s2) := read_one scan_nat s1 in
    let* (nmax, s3) := read_one scan_nat s2 in
    let* (nsubs, s4) := read_one scan_nat s3 in
    Ok ({| h_symtype := sym; h_channels := ch; h_Nmax := nmax; h_nsubs := nsubs |}, s4).

  (** The parameters that matter here: P.symtype, polarized, pol2x2; invdim is set by the symmetry class. *)
  Record dparams := { q_symtype : string; q_polarized : bool; q_pol2x2 : bool; q_rescaled : bool; q_invdim : nat }.
  (** params.hpp:566-574. *)
  Definition coefchannels (Q : dparams) (channels : nat) : nat := (if q_pol2x2 Q then 4 else if q_polarized Q then 2 else 1) * channels.
  (** params.hpp:575-581. *)
  Definition perchannel (sym : string) : nat :=
    if (String.eqb sym "U1" || String.eqb sym "SU2" || String.eqb sym "DBLSU2")%bool then 2
    else if (String.eqb sym "NONE" || String.eqb sym "P" || String.eqb sym "PP")%bool then 4
    else 1.

  (** invar.hpp:68-77 *)
  Definition read_invar (Q : dparams) : parser invar := read_n (q_invdim Q) (read_one scan_int).
  (** basicio.hpp:168-183 *)
  Definition read_std_vector {A} (scan : string -> option (A * string)) (nr_is_max_index : bool) : parser (list A) := fun s =>
    let* (nr, s1) := read_one scan_nat s in read_n (if nr_is_max_index then nr + 1 else nr)%nat (read_one scan) s1.

  (** eigen.hpp:466-475; [q_rescaled] = data_has_rescaled_energies || absolute. *)
  Fixpoint read_subspaces (Q : dparams) (nsubs : nat) (d : list (invar * list R)) : parser (list (invar * list R)) := fun s =>
    match nsubs with
    | 0%nat => Ok (d, s)
    | S n =>
        let* (i, s1) := read_invar Q s in
        let* (energies, s2) := read_std_vector scan_R false s1 in
        read_subspaces Q n (map_set invar_eqb i (if q_rescaled Q then energies else map rescale energies) d) s2
    end.
  Definition read_diag (Q : dparams) (nsubs : nat) : parser (list (invar * list R)) := fun s =>
    let* (d, s1) := read_subspaces Q nsubs [] (skip_comments s) in
    let* _ := my_assert (Nat.eqb (List.length d) nsubs) in Ok (d, s1).

  (** numerics_Eigen.hpp:83-91: by rows; a value that is not finite ends the program. *)
  Definition read_element : parser V := fun s => let* (x, s1) := read_one scan_V s in let* _ := my_assert (finite x) in Ok (x, s1).
  Definition read_matrix (size1 size2 : nat) : parser (list (list V)) := read_n size1 (read_n size2 read_element).

  (** operators.hpp:31-42 *)
  Notation elements := (list ((invar * invar) * list (list V))).
  Fixpoint read_pairs (Q : dparams) (d : list (invar * list R)) (nf : nat) (m : elements) : parser elements := fun s =>
    match nf with
    | 0%nat => Ok (m, s)
    | S n =>
        let* (i1, s1) := read_invar Q s in
        let* (i2, s2) := read_invar Q s1 in
        match map_get invar_eqb i1 d, map_get invar_eqb i2 d with
        | Some e1, Some e2 =>
            let* (x, s3) := read_matrix (List.length e1) (List.length e2) s2 in read_pairs Q d n (map_set key_eqb (i1, i2) x m) s3
        | _, _ => Throw
        end
    end.
  Definition read_elements (Q : dparams) (d : list (invar * list R)) : parser elements := fun s =>
    let* (nf, s1) := read_one scan_nat s in
    let* (m, s2) := read_pairs Q d nf [] s1 in
    let* _ := my_assert (Nat.eqb (List.length m) nf) in Ok (m, s2).

  (** operators.hpp:174-188; the two numbers after the letter are not used. *)
  Definition read_f (Q : dparams) (d : list (invar * list R)) : parser elements := fun s =>
    let* (ch, s1) := read_one scan_char s in
    let* (_, s2) := read_one scan_nat s1 in
    let* (_, s3) := read_one scan_nat s2 in
    let* _ := my_assert (Ascii.eqb ch "f") in
    read_elements Q d s3.
  Definition read_opch (Q : dparams) (d : list (invar * list R)) (channels per : nat) : parser (list (list elements)) := fun s =>
    read_n channels (read_n per (read_f Q d)) (skip_comments s).

  (** ** Blocks, read-input.hpp:70-131.  CHAIN_COEF is not defined in the standard build. *)
  Record blocks := Blocks {
    b_gs : option R;  (** 0 if there is no such block *)
    b_ops : operators elements;
    b_xi : list (list V); b_zeta : list (list V); b_delta : list (list V); b_kappa : list (list V); b_xiR : list (list V); b_zetaR : list (list V);
    b_ep : list (list V); b_em : list (list V); b_u0p : list (list V); b_u0m : list (list V) }.
  Definition no_blocks : blocks := Blocks None (Operators elements [] [] [] [] [] [] []) [] [] [] [] [] [] [] [] [] [].
  Definition with_gs (b : blocks) (x : R) : blocks :=
    Blocks (Some x) (b_ops b) (b_xi b) (b_zeta b) (b_delta b) (b_kappa b) (b_xiR b) (b_zetaR b) (b_ep b) (b_em b) (b_u0p b) (b_u0m b).
  Definition with_ops (b : blocks) (x : operators elements) : blocks :=
    Blocks (b_gs b) x (b_xi b) (b_zeta b) (b_delta b) (b_kappa b) (b_xiR b) (b_zetaR b) (b_ep b) (b_em b) (b_u0p b) (b_u0m b).
  Definition with_z (b : blocks) (x y : list (list V)) : blocks :=
    Blocks (b_gs b) (b_ops b) x y (b_delta b) (b_kappa b) (b_xiR b) (b_zetaR b) (b_ep b) (b_em b) (b_u0p b) (b_u0m b).
  Definition with_Z (b : blocks) (x y : list (list V)) : blocks :=
    Blocks (b_gs b) (b_ops b) (b_xi b) (b_zeta b) x y (b_xiR b) (b_zetaR b) (b_ep b) (b_em b) (b_u0p b) (b_u0m b).
  Definition with_X (b : blocks) (x y : list (list V)) : blocks :=
    Blocks (b_gs b) (b_ops b) (b_xi b) (b_zeta b) (b_delta b) (b_kappa b) x y (b_ep b) (b_em b) (b_u0p b) (b_u0m b).
  Definition with_T (b : blocks) (x y z w : list (list V)) : blocks :=
    Blocks (b_gs b) (b_ops b) (b_xi b) (b_zeta b) (b_delta b) (b_kappa b) (b_xiR b) (b_zetaR b) x y z w.
  Definition set_op (t : optype) (n : string) (m : elements) (o : operators elements) : operators elements :=
    let f t' l := if optype_eqb t t' then map_set String.eqb n m l else l in
    Operators elements (f Ts (o_s _ o)) (f Tp (o_p _ o)) (f Tg (o_g _ o)) (f Td (o_d _ o)) (f Tt (o_t _ o)) (f Tot (o_ot _ o)) (f Tq (o_q _ o)).
  Definition op_letter (c : ascii) : option optype :=
    match c with "s" => Some Ts | "p" => Some Tp | "g" => Some Tg | "d" => Some Td | "t" => Some Tt | "o" => Some Tot | "q" => Some Tq | _ => None end%char.

  (** coef.hpp:96-99: a table for every channel; the number that is given is the last index. *)
  Definition read_tables (n : nat) : parser (list (list V)) := read_n n (read_std_vector scan_V true).

  (** The loop ends when the end of the file was met, also when it was met in the line of the letter.  Fuel: every round reads a letter. *)
  Fixpoint read_blocks (fuel : nat) (Q : dparams) (d : list (invar * list R)) (nc : nat) (b : blocks) (s : string) : res blocks :=
    match skip_ws s with
    | "" => Ok b
    | String ch s0 =>
        match getline s0 with
        | (_, None) => Ok b
        | (opname, Some s1) =>
            match fuel with
            | 0%nat => UB
            | S fuel' =>
                let continue := read_blocks fuel' Q d nc in
                if Ascii.eqb ch "#" then continue b s1
                else if Ascii.eqb ch "e" then let* (x, s2) := read_one scan_R s1 in continue (with_gs b x) s2
                else match op_letter ch with
                     | Some t => let* (m, s2) := read_elements Q d s1 in continue (with_ops b (set_op t opname m (b_ops b))) s2
                     | None =>
                         if Ascii.eqb ch "z" then let* (x, s2) := read_tables nc s1 in let* (y, s3) := read_tables nc s2 in continue (with_z b x y) s3
                         else if Ascii.eqb ch "Z" then let* (x, s2) := read_tables nc s1 in let* (y, s3) := read_tables nc s2 in continue (with_Z b x y) s3
                         else if Ascii.eqb ch "X" then let* (x, s2) := read_tables nc s1 in let* (y, s3) := read_tables nc s2 in continue (with_X b x y) s3
                         else if Ascii.eqb ch "T" then
                           let* (x, s2) := read_tables nc s1 in let* (y, s3) := read_tables nc s2 in
                           let* (z, s4) := read_tables nc s3 in let* (w, s5) := read_tables nc s4 in continue (with_T b x y z w) s5
                         else Throw
                     end
            end
        end
    end.

  (** read-input.hpp:55-57: the length of the table of the first channel has to agree. *)
  Definition check_length (b : blocks) (Nmax : nat) : res unit :=
    match b_xi b with
    | [] => Throw
    | [] :: _ => Throw
    | (_ :: l) :: _ => my_assert (Nat.eqb (List.length l) Nmax)
    end.

  (** read-input.hpp:133-146, 152-155; parameter tri other than "cpp". *)
  Record data := { d_diag : list (invar * list R); d_opch : list (list elements); d_blocks : blocks; d_Nmax : nat; d_channels : nat }.
  Definition read_data (Q : dparams) (s : string) : res data :=
    let* (h, s1) := read_data_header s in
    let* _ := my_assert (String.eqb (h_symtype h) (q_symtype Q)) in
    let* _ := my_assert (Nat.leb 1 (h_channels h)) in
    let* (d, s2) := read_diag Q (h_nsubs h) s1 in
    let* (f, s3) := read_opch Q d (h_channels h) (perchannel (h_symtype h)) s2 in
    let* b := read_blocks (String.length s3) Q d (coefchannels Q (h_channels h)) no_blocks s3 in
    let* _ := check_length b (h_Nmax h) in
    Ok {| d_diag := d; d_opch := f; d_blocks := b; d_Nmax := h_Nmax h; d_channels := h_channels h |}.
End Data.
