(** Examples for C71. *)
From Coq Require Import List ZArith Ascii String Bool Lia Permutation Sorted.
From Verif Require Import Base Oprecalc_model Oprecalc_spec Oprecalc_words Datafile_model Datafile_spec Datafile_parse Datafile_read Datafile_check Datafile_aux Tables_model Tables_spec Tables_proofs Tables_lines.
Import ListNotations.
Local Open Scope string_scope.
Local Open Scope list_scope.
Local Open Scope Z_scope.

Notation "a \n b" := (a ++ String newline b)%string (at level 62, right associativity).
(** atof: the number at the beginning, or zero. *)
Definition atof_Z (s : string) : Z := match scan_signed (skip_ws s) with Some (v, _) => v | None => 0 end.
Lemma Z_order : strict_order Z Z.ltb.
Proof.
  split; [exact Z.ltb_irrefl |]. split; [intros x y z; rewrite !Z.ltb_lt; lia | intros x y; rewrite !Z.ltb_ge; lia].
Qed.
Definition any (_ : Z) : bool := true.
Ltac num := split; [apply shows_signed; [discriminate | reflexivity | reflexivity] | cbn; discriminate].
Notation line_of := line_ok.

(** A comment inside a table. *)
Definition first_rows : string := "# energies" \n "1 10" \n " 2  20".
Definition with_comment : string := (first_rows \n "# more" \n "3 30" \n "")%string.
Lemma first_text rest : starts_blank rest -> table_text Z scan_signed [(1, 10); (2, 20)] (first_rows ++ rest)%string rest.
Proof.
  intros Hr. exists ("# energies" \n ""), (("1 10" \n " 2  20") ++ rest)%string, ["1"; "10"; "2"; "20"]. split; [reflexivity |]. split; [apply (co_line " energies" ""); [now apply line_of | constructor] |].
  split; [repeat (apply pw_cons; [num | num |]); constructor |].
  apply (j_cons "" "1"); [constructor | right; eexists _, _; split; reflexivity |]. apply (j_cons " " "10"); [repeat constructor | right; eexists _, _; split; reflexivity |].
  apply (j_cons (String newline " ") "2"); [repeat constructor | right; eexists _, _; split; reflexivity |]. apply (j_cons "  " "20"); [repeat constructor | assumption |]. constructor.
Qed.
Lemma comment_lost : read_pairs_A Z scan_signed any with_comment = Ok [(1, 10); (2, 20)] /\ readtable Z scan_signed any with_comment = Ok [(1, 10); (2, 20); (3, 30)].
Proof. split; vm_compute; reflexivity. Qed.
Lemma no_hash t : scan_signed (String "#" t) = None.
Proof. reflexivity. Qed.

Lemma with_comment_rows : rows_text Z scan_signed [(1, 10); (2, 20); (3, 30)] with_comment "".
Proof.
  apply (rt_row Z scan_signed ("# energies" \n "") 1 10 _ "1" "10" _ (String newline (" 2  20" \n "# more" \n "3 30" \n ""))); [apply (f_comment " energies"); [now apply line_of | constructor] | num | num | |].
  { apply (j_cons "" "1"); [constructor | right; eexists _, _; split; reflexivity |]. apply (j_cons " " "10"); [repeat constructor | right; eexists _, _; split; reflexivity |]. constructor. }
  apply (rt_row Z scan_signed (String newline "") 2 20 _ "2" "20" _ (String newline ("# more" \n "3 30" \n ""))); [apply f_space; [cbn; tauto | constructor] | num | num | |].
  { apply (j_cons " " "2"); [repeat constructor | right; eexists _, _; split; reflexivity |]. apply (j_cons "  " "20"); [repeat constructor | right; eexists _, _; split; reflexivity |]. constructor. }
  apply (rt_row Z scan_signed (String newline ("# more" \n "")) 3 30 _ "3" "30" _ (String newline "")); [apply f_space; [cbn; tauto |]; apply (f_comment " more"); [now apply line_of | constructor] | num | num | |].
  { apply (j_cons "" "3"); [constructor | right; eexists _, _; split; reflexivity |]. apply (j_cons " " "30"); [repeat constructor | right; eexists _, _; split; reflexivity |]. constructor. }
  apply (rt_end Z scan_signed (String newline "") ""). apply f_space; [cbn; tauto | constructor].
Qed.

(** The hybridisation function on both sides of zero. *)
Definition rho_lines : list string := ["# rho"; "-2 4"; ""; "1 5 # fifth"; "-1 3"; "0 7"; "3 6"].
Definition rho_text : string := "# rho" \n "-2 4" \n "" \n "1 5 # fifth" \n "-1 3" \n "0 7" \n "3 6".
Lemma rho_has : text_lines rho_lines rho_text.
Proof. repeat (apply tl_line; [now apply line_of |]). apply tl_last; [now apply line_of | discriminate]. Qed.
Definition rho_table : list (Z * Z) := [(-2, 4); (1, 5); (-1, 3); (0, 7); (3, 6)].
Lemma fields_by ws l : split_fields l = ws -> fields ws l.
Proof. intros <-. destruct (fields_exist l) as (ws & H). now rewrite (split_ok ws l H). Qed.
Lemma rho_rows : Forall2 (row_of Z atof_Z) (filter data_line rho_lines) rho_table.
Proof.
  repeat (apply Forall2_cons; [eexists _, _, _; split; [apply fields_by; vm_compute; reflexivity | vm_compute; reflexivity] |]). constructor.
Qed.
Lemma rho_halves : load_rho Z atof_Z 0 Z.ltb Z.opp true rho_text = Ok [(1, 5); (3, 6)] /\ load_rho Z atof_Z 0 Z.ltb Z.opp false rho_text = Ok [(1, 3); (2, 4)].
Proof. split; vm_compute; reflexivity. Qed.
(** A comment that does not start in the first column is taken for a row of zeros. *)
Definition indented : string := "1 5" \n " # not used" \n "3 6".
Lemma indented_row : load_pairs Z atof_Z indented = Ok [(1, 5); (0, 0); (3, 6)].
Proof. vm_compute. reflexivity. Qed.

(** Blocks. *)
Definition td_lines : list string := ["# T S"; "1 10"; "2 20"; "# z=2"; "# T S"; "1 11"; "2 21"; "3 31"].
Definition td_text : string := "# T S" \n "1 10" \n "2 20" \n "# z=2" \n "# T S" \n "1 11" \n "2 21" \n "3 31" \n "".
Definition td_blocks : list (list (Z * list Z)) := [[(1, [10]); (2, [20])]; [(1, [11]); (2, [21]); (3, [31])]].
Lemma td_has : text_lines td_lines td_text.
Proof. repeat (apply tl_line; [now apply line_of |]). constructor. Qed.
Lemma td_split : line_blocks td_lines [["1 10"; "2 20"]; ["1 11"; "2 21"; "3 31"]].
Proof.
  apply lb_comment; [reflexivity |]. apply (lb_block ["1 10"; "2 20"] ["# z=2"; "# T S"; "1 11"; "2 21"; "3 31"]); [discriminate | repeat (constructor; [cbn; discriminate |]); constructor | right; eexists _, _; split; [reflexivity | reflexivity] |].
  apply lb_comment; [reflexivity |]. apply lb_comment; [reflexivity |]. apply (lb_block ["1 11"; "2 21"; "3 31"] []); [discriminate | repeat (constructor; [cbn; discriminate |]); constructor | now left | constructor].
Qed.
Lemma td_rows : Forall2 (Forall2 (row_values Z atof_Z)) [["1 10"; "2 20"]; ["1 11"; "2 21"; "3 31"]] td_blocks.
Proof.
  repeat (apply Forall2_cons; [repeat (apply Forall2_cons; [eexists _, _; split; [apply fields_by; vm_compute; reflexivity | vm_compute; reflexivity] |]); constructor |]). constructor.
Qed.
Lemma td_widths : Forall (Forall (fun p : Z * list Z => List.length (snd p) = 1%nat)) td_blocks.
Proof. repeat (constructor; [repeat (constructor; [reflexivity |]); constructor |]). constructor. Qed.
(** A first line with the temperature only. *)
Definition short_first : string := "1" \n "2 20 200" \n "".
Lemma short_loaded : load_blocks Z atof_Z 0 short_first = Ok ([[(1, []); (2, [20; 200])]], 2%nat).
Proof. vm_compute. reflexivity. Qed.
