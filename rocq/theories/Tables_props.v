(** C71: what the tools read from tables in text files. *)
From Coq Require Import List ZArith Ascii String Bool Lia Permutation Sorted.
From Verif Require Import Base Oprecalc_model Oprecalc_spec Datafile_model Datafile_spec Datafile_aux Tables_model Tables_spec Tables_proofs Tables_lines Tables_aux.
Import ListNotations.
Local Open Scope string_scope.
Local Open Scope list_scope.

(** kk, integ, intavg: a table with comments at the top is read completely. *)
Theorem C71_columns_read (V : Type) (scan : string -> option (V * string)) (finite : V -> bool) : scan "" = None -> forall l s rest,
  table_text V scan l s rest -> Forall (finite_pair finite) l -> all_blank rest -> read_pairs_A V scan finite s = Ok l.
Proof. exact (A_complete V scan finite). Qed.
Print Assumptions C71_columns_read.
Example C71_columns_read_nonvacuous : read_pairs_A Z scan_signed any (first_rows ++ String newline "") = Ok [(1, 10); (2, 20)]%Z.
Proof. apply (C71_columns_read Z scan_signed any eq_refl _ _ (String newline "")); [apply first_text; right; eexists _, _; split; reflexivity | repeat constructor | repeat constructor]. Qed.

Theorem C71_intavg_two_points (V : Type) (scan : string -> option (V * string)) (finite : V -> bool) : scan "" = None -> forall l s rest,
  table_text V scan l s rest -> Forall (finite_pair finite) l -> all_blank rest -> load_intavg V scan finite s = if Nat.ltb (List.length l) 2 then Throw else Ok l.
Proof. exact (intavg_two V scan finite). Qed.
Print Assumptions C71_intavg_two_points.

(** A value that is not finite ends the program. *)
Theorem C71_not_finite (V : Type) (scan : string -> option (V * string)) (finite : V -> bool) l x y l' s rest :
  table_text V scan (l ++ (x, y) :: l') s rest -> Forall (finite_pair finite) l -> ~ finite_pair finite (x, y) -> read_pairs_A V scan finite s = Throw.
Proof. exact (A_not_finite V scan finite l x y l' s rest). Qed.
Print Assumptions C71_not_finite.
Example C71_not_finite_nonvacuous : read_pairs_A Z scan_signed (fun v => Z.ltb v 20) (first_rows ++ "") = Throw.
Proof.
  apply (C71_not_finite Z scan_signed (fun v => Z.ltb v 20) [(1, 10)]%Z 2%Z 20%Z [] _ ""); [apply first_text; now left | repeat constructor | intros [_ H]; discriminate].
Qed.

(** Not so with a comment, or anything else that is not a number, after the first row: the rest of the file is not read, and no error is reported. *)
Theorem C71_comment_inside_refuted (V : Type) (scan : string -> option (V * string)) (finite : V -> bool) l s rest :
  table_text V scan l s rest -> l <> [] -> Forall (finite_pair finite) l -> not_a_number scan rest -> read_pairs_A V scan finite s = Ok l.
Proof. exact (A_lost V scan finite l s rest). Qed.
Print Assumptions C71_comment_inside_refuted.
Example C71_comment_inside_nonvacuous : rows_text Z scan_signed [(1, 10); (2, 20); (3, 30)]%Z with_comment "" /\ read_pairs_A Z scan_signed any with_comment = Ok [(1, 10); (2, 20)]%Z.
Proof.
  split; [exact with_comment_rows |]. apply (C71_comment_inside_refuted Z scan_signed any _ _ (String newline ("# more" \n "3 30" \n ""))); [apply first_text; right; eexists _, _; split; reflexivity | discriminate | repeat constructor |].
  exists (String newline ""), "#"%char, (" more" \n "3 30" \n ""). repeat split. repeat constructor.
Qed.

(** resample and broaden: comments may be anywhere; an error is reported if there is anything else. *)
Theorem C71_readtable (V : Type) (scan : string -> option (V * string)) (finite : V -> bool) l s rest :
  rows_text V scan l s rest -> Forall (finite_pair finite) l -> nothing_left rest -> readtable V scan finite s = Ok l.
Proof. exact (B_complete V scan finite l s rest). Qed.
Print Assumptions C71_readtable.
Example C71_readtable_nonvacuous : readtable Z scan_signed any with_comment = Ok [(1, 10); (2, 20); (3, 30)]%Z.
Proof. apply (C71_readtable Z scan_signed any _ _ ""); [exact with_comment_rows | repeat constructor | now left]. Qed.

Theorem C71_readtable_junk (V : Type) (scan : string -> option (V * string)) (finite : V -> bool) l s rest :
  rows_text V scan l s rest -> Forall (finite_pair finite) l -> not_a_number scan rest -> ~ is_comment (skip_ws rest) -> readtable V scan finite s = Throw.
Proof. exact (B_junk V scan finite l s rest). Qed.
Print Assumptions C71_readtable_junk.

Theorem C71_readtable_odd (V : Type) (scan : string -> option (V * string)) (finite : V -> bool) : scan "" = None -> forall l s rest x w mid,
  rows_text V scan l s rest -> Forall (finite_pair finite) l -> number V scan x w -> joined [w] rest mid -> not_a_number scan mid \/ all_blank mid -> readtable V scan finite s = Throw.
Proof. exact (B_odd V scan finite). Qed.
Print Assumptions C71_readtable_odd.

Theorem C71_readtable_not_finite (V : Type) (scan : string -> option (V * string)) (finite : V -> bool) l x y l' s rest :
  rows_text V scan (l ++ (x, y) :: l') s rest -> Forall (finite_pair finite) l -> ~ finite_pair finite (x, y) -> readtable V scan finite s = Throw.
Proof. exact (B_not_finite V scan finite l x y l' s rest). Qed.
Print Assumptions C71_readtable_not_finite.
Example C71_readtable_not_finite_nonvacuous : readtable Z scan_signed (fun v => Z.ltb v 25) with_comment = Throw.
Proof. apply (C71_readtable_not_finite Z scan_signed (fun v => Z.ltb v 25) [(1, 10); (2, 20)]%Z 3%Z 30%Z [] _ ""); [exact with_comment_rows | repeat constructor | intros [_ H]; discriminate]. Qed.

(** What one tool writes the others read. *)
Theorem C71_written_read (V : Type) (scan : string -> option (V * string)) (finite : V -> bool) : scan "" = None -> forall (show : V -> string) l,
  Forall (shown scan show) l -> Forall (finite_pair finite) l -> readtable V scan finite (writetable V show l) = Ok l /\ read_pairs_A V scan finite (writetable V show l) = Ok l.
Proof. exact (written_read V scan finite). Qed.
Print Assumptions C71_written_read.

(** adapt and nrgchain: every line that is not empty and does not start with "#" is a row; what is behind the second number is ignored. *)
Theorem C71_rows (V : Type) (atof : string -> V) ls s l :
  text_lines ls s -> Forall2 (row_of V atof) (filter data_line ls) l -> l <> [] -> load_pairs V atof s = Ok l.
Proof. exact (load_pairs_ok V atof ls s l). Qed.
Print Assumptions C71_rows.
Example C71_rows_nonvacuous : load_pairs Z atof_Z rho_text = Ok rho_table.
Proof. apply (C71_rows Z atof_Z rho_lines); [exact rho_has | exact rho_rows | discriminate]. Qed.

(** A row with fewer than two words, and a file without rows, end the program; together with the theorem above, nothing else does. *)
Theorem C71_rows_bad (V : Type) (atof : string -> V) ls s :
  text_lines ls s -> (exists l ws, In l ls /\ l <> "" /\ ~ is_comment l /\ fields ws l /\ (List.length ws < 2)%nat) \/ (forall l, In l ls -> l = "" \/ is_comment l) ->
  load_pairs V atof s = Throw.
Proof. exact (load_pairs_bad V atof ls s). Qed.
Print Assumptions C71_rows_bad.

(** Every text has lines and every line has words. *)
Theorem C71_lines_exist s : exists ls, text_lines ls s.
Proof. exact (lines_exist s). Qed.
Theorem C71_fields_exist l : exists ws, fields ws l.
Proof. exact (fields_exist l). Qed.
Print Assumptions C71_lines_exist.
Print Assumptions C71_fields_exist.

Theorem C71_values (V : Type) (atof : string -> V) ls s : text_lines ls s -> load_values V atof s = map atof (filter data_line ls).
Proof. exact (load_values_ok V atof ls s). Qed.
Print Assumptions C71_values.

(** The half of the hybridisation function on one side of zero: these rows and no others, with positive abscissas in increasing order. *)
Theorem C71_halves (V : Type) (atof : string -> V) zero lt neg : strict_order V lt -> forall ls s l positive, text_lines ls s -> Forall2 (row_of V atof) (filter data_line ls) l ->
  (forall p, In p l -> on_side V lt zero positive (fst p) = true -> lt (snd p) zero = false) -> (exists p, In p l /\ on_side V lt zero positive (fst p) = true) ->
  exists r, load_rho V atof zero lt neg positive s = Ok r /\ StronglySorted (before V lt) r /\
    Permutation r (map (fun p => ((if positive then fst p else neg (fst p)), snd p)) (filter (fun p => on_side V lt zero positive (fst p)) l)).
Proof. exact (halves_form V atof zero lt neg). Qed.
Print Assumptions C71_halves.
Example C71_halves_nonvacuous : exists r, load_rho Z atof_Z 0%Z Z.ltb Z.opp false rho_text = Ok r /\ StronglySorted (before Z Z.ltb) r /\ Permutation r [(2, 4); (1, 3)]%Z.
Proof.
  apply (C71_halves Z atof_Z 0%Z Z.ltb Z.opp Z_order rho_lines rho_text rho_table false rho_has rho_rows).
  - intros p Hp _. repeat (destruct Hp as [<- | Hp]; [reflexivity |]). destruct Hp.
  - exists (-2, 4)%Z. split; [now left | reflexivity].
Qed.

Theorem C71_halves_bad (V : Type) (atof : string -> V) zero lt neg : forall ls s l positive, text_lines ls s -> Forall2 (row_of V atof) (filter data_line ls) l ->
  (exists p, In p l /\ on_side V lt zero positive (fst p) = true /\ lt (snd p) zero = true) \/ (forall p, In p l -> on_side V lt zero positive (fst p) = false) ->
  load_rho V atof zero lt neg positive s = Throw.
Proof. exact (halves_bad V atof zero lt neg). Qed.
Print Assumptions C71_halves_bad.

(** A comment that is indented becomes a row of zeros. *)
Theorem C71_indented_comment_refuted : load_pairs Z atof_Z ("1 5" \n " # not used" \n "3 6") = Ok [(1, 5); (0, 0); (3, 6)]%Z.
Proof. exact indented_row. Qed.
Print Assumptions C71_indented_comment_refuted.

(** tdavg: the blocks between comment lines. *)
Theorem C71_blocks (V : Type) (atof : string -> V) n ls s bs blocks columns : (0 < n)%nat -> text_lines ls s -> line_blocks ls bs -> Forall2 (Forall2 (row_values V atof)) bs blocks ->
  Forall (Forall (fun p => List.length (snd p) = n)) blocks -> columns = 0%nat \/ columns = n -> blocks <> [] -> load_blocks V atof columns s = Ok (blocks, n).
Proof. exact (load_blocks_ok V atof n ls s bs blocks columns). Qed.
Print Assumptions C71_blocks.
Example C71_blocks_nonvacuous : load_blocks Z atof_Z 0 td_text = Ok (td_blocks, 1%nat).
Proof. apply (C71_blocks Z atof_Z 1 td_lines _ _ _ _ ltac:(lia) td_has td_split td_rows td_widths (or_introl eq_refl)). discriminate. Qed.

(** After the first file all rows have the same number of columns. *)
Theorem C71_blocks_width (V : Type) (atof : string -> V) columns s blocks c : load_blocks V atof columns s = Ok (blocks, c) -> columns <> 0%nat ->
  c = columns /\ Forall (Forall (fun p => List.length (snd p) = columns)) blocks.
Proof. exact (load_width V atof columns s blocks c). Qed.
Print Assumptions C71_blocks_width.

(** In the first file not: a first row without values is accepted, and then rows with two. *)
Theorem C71_single_column_refuted : exists s blocks, load_blocks Z atof_Z 0 s = Ok (blocks, 2%nat) /\ exists b p, In b blocks /\ In p b /\ snd p = [].
Proof. exists short_first, [[(1, []); (2, [20; 200])]]%Z. split; [exact short_loaded |]. exists [(1, []); (2, [20; 200])]%Z, (1%Z, []). split; [now left |]. split; [now left | reflexivity]. Qed.
Print Assumptions C71_single_column_refuted.
