(** Model of the tool that makes the data file from a template: /repo/tools/instantiate/instantiate.cc (run_full_instantiation).
    Messages and temporary files are omitted.  Arguments of the model: the arithmetic, the scanners of the library, the text of the
    numbers that are written, the template files (resolve_template_file, read_text_file), the evaluator of matrices (C34), LAPACK's dsyev
    (C60), the Wilson chain coefficients (nrgchain), the parameters.  The header of the template and the data file that is produced are
    texts, and the produced text is read again with the model of the reader of the data file (C64). *)
From Coq Require Import List ZArith Ascii String Bool.
From Verif Require Import Base Oprecalc_model Datafile_model.
Import ListNotations.
Local Open Scope string_scope.
Local Open Scope list_scope.

(** 81-86 trim *)
Fixpoint rtrim (s : string) : string :=
  match s with "" => "" | String c s' => match rtrim s' with "" => if blank c then "" else String c "" | r => String c r end end.
Definition trim (s : string) : string := rtrim (skip_ws s).
(** The lines that std::getline returns one after the other. *)
Fixpoint lines_of (s : string) : list string :=
  match s with
  | "" => []
  | String c s' => if Ascii.eqb c newline then "" :: lines_of s' else match lines_of s' with [] => [String c ""] | l :: ls => String c l :: ls end
  end.
(** operator>> of a std::string. *)
Fixpoint take_word (s : string) : string * string :=
  match s with "" => ("", "") | String c s' => if blank c then ("", s) else let (w, r) := take_word s' in (String c w, r) end.
Definition next_word (s : string) : string * string := take_word (skip_ws s).

(** The double arithmetic that is used; [n_big x]: |x| > 1e-14; [n_top]: std::numeric_limits<double>::max(). *)
Record num (V : Type) := Num {
  n_zero : V; n_one : V; n_top : V; n_add : V -> V -> V; n_sub : V -> V -> V; n_mul : V -> V -> V; n_div : V -> V -> V;
  n_lt : V -> V -> bool; n_eq : V -> V -> bool; n_big : V -> bool }.
Arguments n_zero {V}. Arguments n_one {V}. Arguments n_top {V}. Arguments n_add {V}. Arguments n_sub {V}. Arguments n_mul {V}.
Arguments n_div {V}. Arguments n_lt {V}. Arguments n_eq {V}. Arguments n_big {V}.

(** The text of a matrix with the given elements in its lines; write_matrix without the choice of the elements. *)
Fixpoint row_text (ws : list string) : string :=
  match ws with [] => "" | [w] => w | w :: ws' => (w ++ " " ++ row_text ws')%string end.
Definition line (s : string) : string := (s ++ String newline "")%string.

Section Instantiate.
  Context {V : Type} (N : num V).
  Variables (scan_nat : string -> option (nat * string)) (scan_int : string -> option (Z * string)) (scan_V : string -> option (V * string))
    (strtod : string -> option V) (* 394-400 parse_double_value *)
    (finite : V -> bool) (rescale : V -> V)
    (show_nat : nat -> string) (show18 show16 : V -> string)
    (template_file : string -> res string)
    (evaluate : string -> res (nat * nat * list (list V))) (* rows, columns, elements *)
    (dsyev : list (list V) -> res (list V * list (list V))).

  (** *** Matrices: matrix_prod, trans (numerics_Eigen.hpp:36, 161-166). *)
  Definition dot (a b : list V) : V := fold_right (fun p acc => n_add N (n_mul N (fst p) (snd p)) acc) (n_zero N) (combine a b).
  Definition column (j : nat) (b : list (list V)) : list V := map (fun row => nth j row (n_zero N)) b.
  Definition mat_trans (cols : nat) (b : list (list V)) : list (list V) := map (fun j => column j b) (seq 0 cols).
  (** [cols]: the number of columns of b. *)
  Definition mat_prod (a b : list (list V)) (cols : nat) : list (list V) := map (fun row => map (fun j => dot row (column j b)) (seq 0 cols)) a.

  (** *** Reading the template: what is left of the lines, scale_factor (-1 at the beginning: [None]), and data_buffer, to which comments are
      copied. *)
  Record st := St { s_lines : list string; s_scale : option V; s_out : string }.
  (** 271-280 scale_from_comment.  A number that cannot be read is zero, and its inverse is not a finite number. *)
  Definition scale_from_comment (s : string) : option V :=
    let (hash, s1) := next_word s in
    let (keyword, s2) := next_word s1 in
    if (String.eqb hash "#" && String.eqb keyword "SCALE")%bool then
      Some (n_div N (n_one N) (match scan_V (skip_ws s2) with Some (x, _) => x | None => n_zero N end))
    else None.
  (** 286-299 next_data_line *)
  Fixpoint next_line (ls : list string) (scale : option V) (out : string) : option string * st :=
    match ls with
    | [] => (None, St [] scale out)
    | l :: ls' =>
        let stripped := trim l in
        match stripped with
        | "" => next_line ls' scale out
        | String c _ =>
            if Ascii.eqb c "#" then next_line ls' (match scale_from_comment stripped with Some x => Some x | None => scale end) (out ++ line l)%string
            else (Some stripped, St ls' scale out)
        end
    end.
  Definition next_data_line (s : st) : option string * st := next_line (s_lines s) (s_scale s) (s_out s).
  Definition need_line (s : st) : res (string * st) := match next_data_line s with (Some l, s') => Ok (l, s') | (None, _) => Throw end.
  (** 301-304 factor *)
  Definition factor (s : st) : res V := match s_scale s with Some x => if n_lt N (n_zero N) x then Ok x else Throw | None => Throw end.
  Definition write (t : string) (s : st) : st := St (s_lines s) (s_scale s) (s_out s ++ t)%string.

  (** 382-392 parse_size_t_value *)
  Definition parse_size (text : string) : res nat :=
    let s := trim text in
    match s with
    | "" => Throw
    | String c _ => if (Ascii.eqb c "-" || Ascii.eqb c "+")%bool then Throw
                    else match scan_nat s with Some (n, r) => if String.eqb (trim r) "" then Ok n else Throw | None => Throw end
    end.
  (** 355-366, 368-380 parse_invar_line, parse_invar_pair_line; [invdim] quantum numbers. *)
  Definition parse_invar (invdim : nat) (text : string) : res (list Z) :=
    let* (i, r) := read_n invdim (read_one scan_int) text in
    if String.eqb (fst (next_word r)) "" then Ok i else Throw.
  Definition parse_invar_pair (invdim : nat) (text : string) : res (list Z * list Z) :=
    let* (i, r) := read_n invdim (read_one scan_int) text in
    let* (j, r') := read_n invdim (read_one scan_int) r in
    if String.eqb (fst (next_word r')) "" then Ok (i, j) else Throw.
  (** 421-429 read_template_header *)
  Definition read_header (s : st) : res ((nat * nat * nat) * st) :=
    let* (l, s1) := need_line s in
    let* (channels, r1) := read_one scan_nat l in
    let* (sites, r2) := read_one scan_nat r1 in
    let* (subspaces, _) := read_one scan_nat r2 in
    Ok ((channels, sites, subspaces), s1).
  (** Evaluation of a template file, 477-479 and 526-530. *)
  Definition evaluate_file (name : string) (rows cols : nat) : res (list (list V)) :=
    let* text := template_file name in
    let* m := evaluate text in
    let '(r, c, x) := m in
    if (Nat.eqb r rows && Nat.eqb c cols)%bool then Ok x else Throw.

  (** 317-323 SeedSubspace: eigenvalues are multiplied by the factor. *)
  Record seed := Seed { e_line : string; e_qn : list Z; e_dim : nat; e_val : list V; e_vec : list (list V) }.
  (** 456-506 read_seed_data.  std::min(a, b) is b if b < a, otherwise a. *)
  Definition read_seed (invdim : nat) (first : bool) (f : V) (done : list seed) (s : st) : res (seed * V * st) :=
    let (qn_line, s1) := next_data_line s in
    let (size_line, s2) := next_data_line s1 in
    let (diag_line, s3) := next_data_line s2 in
    match qn_line, size_line, diag_line with
    | Some q, Some z, Some d =>
        let* f := (if first then factor s3 else Ok f) in
        let* qn := parse_invar invdim q in
        let* dim := parse_size z in
        let* _ := my_assert (negb (Nat.eqb dim 0)) in
        let (keyword, r) := next_word d in
        let (file, _) := next_word r in
        let* _ := my_assert (String.eqb keyword "DIAG" && negb (String.eqb file ""))%bool in
        let* m := evaluate_file file dim dim in
        let* (val, vec) := dsyev m in
        let* _ := my_assert (negb (existsb (fun e => invar_eqb (e_qn e) qn) done)) in
        Ok (Seed q qn dim (map (fun x => n_mul N x f) val) vec, f, s3)
    | _, _, _ => Throw
    end.
  Definition smaller (a b : V) : V := if n_lt N b a then b else a.
  Fixpoint read_seeds (invdim n : nat) (first : bool) (f : V) (smallest : V) (done : list seed) (s : st) : res ((V * V * list seed) * st) :=
    match n with
    | 0%nat => Ok ((f, smallest, done), s)
    | S n' =>
        let* (x, s1) := read_seed invdim first f done s in
        let (e, f1) := x in
        read_seeds invdim n' false f1 (match e_val e with [] => smallest | v :: _ => smaller smallest v end) (done ++ [e]) s1
    end.
  Record seeds := Seeds { g_factor : V; g_smallest : V; g_list : list seed }.
  Definition read_seed_data (invdim n : nat) (s : st) : res (seeds * st) :=
    let* (x, s1) := read_seeds invdim n true (n_one N) (n_top N) [] s in
    let '(f, smallest, l) := x in
    let* _ := my_assert (negb (match l with [] => true | _ => n_eq N smallest (n_top N) end)) in
    Ok (Seeds f smallest l, s1).
  Definition ground_energy (g : seeds) : V := n_div N (g_smallest g) (g_factor g).

  (** 508-519 write_seed_energy_block *)
  Definition seed_text (smallest : V) (e : seed) : string :=
    (line (e_line e) ++ line (show_nat (e_dim e)) ++ line (row_text (map (fun x => show18 (n_sub N x smallest)) (e_val e))))%string.
  Definition energy_block (g : seeds) : string := String.concat "" (map (seed_text (g_smallest g)) (g_list g)).

  (** 431-442 parse_inline_matrix, 257-263 fields *)
  Definition parse_row (cols : nat) (s : string) : res (list V) :=
    let ws := words "" s in
    if Nat.eqb (List.length ws) cols then mapM (fun w => match strtod w with Some x => Ok x | None => Throw end) ws else Throw.
  (** 521-541 read_operator_matrix *)
  Fixpoint more_lines (n : nat) (s : st) : res (list string * st) :=
    match n with 0%nat => Ok ([], s) | S n' => let* (l, s1) := need_line s in let* (ls, s2) := more_lines n' s1 in Ok (l :: ls, s2) end.
  Definition read_operator_matrix (first_line : string) (rows cols : nat) (s : st) : res (list (list V) * st) :=
    match first_line with
    | String "o" _ => let* x := evaluate_file first_line rows cols in Ok (x, s)
    | _ => let* (ls, s1) := more_lines (rows - 1) s in let* x := mapM (parse_row cols) (first_line :: ls) in Ok (x, s1)
    end.
  (** 543-580 read_matrix_block *)
  Definition find_seed (g : seeds) (i : list Z) : option seed := find (fun e => invar_eqb (e_qn e) i) (g_list g).
  Definition read_element_block (invdim : nat) (g : seeds) (s : st) : res ((string * list (list V)) * st) :=
    let* (q, s1) := need_line s in
    let* (i, j) := parse_invar_pair invdim q in
    match find_seed g i, find_seed g j with
    | Some e1, Some e2 =>
        let* (l, s2) := need_line s1 in
        let* (m, s3) := read_operator_matrix l (e_dim e1) (e_dim e2) s2 in
        let intermediate := mat_prod m (mat_trans (e_dim e2) (e_vec e2)) (e_dim e2) in
        let transformed := mat_prod (e_vec e1) intermediate (e_dim e2) in
        Ok ((q, transformed), s3)
    | _, _ => Throw
    end.
  Fixpoint read_elements_n (n invdim : nat) (g : seeds) (s : st) : res (list (string * list (list V)) * st) :=
    match n with 0%nat => Ok ([], s) | S n' => let* (x, s1) := read_element_block invdim g s in let* (l, s2) := read_elements_n n' invdim g s1 in Ok (x :: l, s2) end.
  Definition read_matrix_block (invdim : nat) (g : seeds) (s : st) : res (list (string * list (list V)) * st) :=
    let* (c, s1) := need_line s in
    let* n := parse_size c in
    read_elements_n n invdim g s1.
  (** 444-454, 582-589 write_matrix, write_matrix_block *)
  Definition written (x : V) : V := if n_big N x then x else n_zero N.
  Definition matrix_text (m : list (list V)) : string := String.concat "" (map (fun row => line (row_text (map (fun x => show18 (written x)) row))) m).
  Definition block_text (header : string) (l : list (string * list (list V))) : string :=
    (line header ++ line (show_nat (List.length l)) ++ String.concat "" (map (fun p => (line (fst p) ++ matrix_text (snd p))%string) l))%string.
  (** 591-594 is_operator_block *)
  Definition is_operator_block (c : ascii) : bool := existsb (Ascii.eqb c) ["s"; "p"; "d"; "v"; "t"; "o"; "g"; "q"]%char.

  (** 596-637 process_template_tail; [nf]: the number of Wilson blocks so far, [has]: has_ground_energy.  Fuel: every round reads a line. *)
  Fixpoint tail_loop (fuel invdim expected : nat) (g : seeds) (nf : nat) (has : bool) (s : st) : res st :=
    match next_data_line s with
    | (None, s1) => if (Nat.eqb nf expected && has)%bool then Ok s1 else Throw
    | (Some l, s1) =>
        match fuel, l with
        | 0%nat, _ | _, "" => UB
        | S fuel', String c _ =>
            if Ascii.eqb c "f" then
              let* _ := my_assert (Nat.leb (S nf) expected) in
              let* (b, s2) := read_matrix_block invdim g s1 in
              tail_loop fuel' invdim expected g (S nf) has (write (block_text l b) s2)
            else if String.eqb l "e" then
              let* (_, s2) := need_line s1 in
              tail_loop fuel' invdim expected g nf true (write (line "e" ++ line (show18 (ground_energy g)))%string s2)
            else if (Ascii.eqb c "z" || Ascii.eqb c "Z" || Ascii.eqb c "T")%bool then
              if (Nat.eqb nf expected && has)%bool then Ok s1 else Throw
            else if is_operator_block c then
              let* (b, s2) := read_matrix_block invdim g s1 in
              tail_loop fuel' invdim expected g nf has (write (block_text l b) s2)
            else Throw
        end
    end.

  (** 639-653 write_coefficient_table, write_z_coefficients *)
  Definition table_text (values : list V) (max_index : nat) : res string :=
    if Nat.leb (List.length values) max_index then Throw
    else Ok (line (show_nat max_index) ++ String.concat "" (map (fun x => line (show16 x)) (firstn (S max_index) values)))%string.
  (** The chains: a list of (xi, zeta). *)
  Definition z_text (wilson : list (list V * list V)) (nc max_index : nat) : res string :=
    let* _ := my_assert (Nat.eqb (List.length wilson) nc) in
    let* xs := mapM (fun c => table_text (fst c) max_index) wilson in
    let* zs := mapM (fun c => table_text (snd c) max_index) wilson in
    Ok (line "z" ++ String.concat "" xs ++ String.concat "" zs)%string.

  (** 716-756 run_full_instantiation: the contents of the file data and the ground state energy that is printed.  [Q]: the parameters as the
      reader of the data file sees them. *)
  Definition instantiate (Q : dparams) (nmax : nat) (wilson : list (list V * list V)) (template : string) : res (string * V) :=
    let* _ := my_assert (Nat.eqb (List.length wilson) 1) in
    let* _ := my_assert (negb (q_polarized Q)) in
    let* (h, s1) := read_header (St (lines_of template) None "") in
    let '(channels, _, subspaces) := h in
    let* _ := my_assert (Nat.eqb channels 1) in
    let s2 := write (line (show_nat channels ++ " " ++ show_nat nmax ++ " " ++ show_nat subspaces)%string) s1 in
    let* (g, s3) := read_seed_data (q_invdim Q) subspaces s2 in
    let s4 := write (energy_block g) s3 in
    let* s5 := tail_loop (List.length (s_lines s4)) (q_invdim Q) (channels * perchannel (q_symtype Q)) g 0 false s4 in
    let* z := z_text wilson (coefchannels Q channels) nmax in
    let out := (s_out s5 ++ z)%string in
    let* _ := read_data V V scan_nat scan_int scan_V scan_V finite rescale Q out in
    Ok (out, ground_energy g).
End Instantiate.
