(** Property theorems C69 and C70: the parameter file and the files of the tool that makes the data file. *)
From Coq Require Import List Bool Ascii String.
From Verif Require Import Base Params_model Params_spec Params_proofs Params_read Params_forms Params_aux Sections_model Sections_spec Sections_proofs Sections_aux.
Import ListNotations.
Local Open Scope list_scope.

(** The tool takes the last assignment of a keyword in all blocks of a name. *)
Theorem C69_blocks : forall f ls name kv, has_lines f ls -> closed_headers ls -> name <> [] -> in_blocks name false ls kv ->
  exists s, parse_param_sections (Some f) = Ok s /\ forall k v, section_value s name k = Some v <-> last_assignment kv k v.
Proof. exact sections_read. Qed.
Print Assumptions C69_blocks.

(** Every file has lines, and every list of lines has settings in the blocks of a name. *)
Theorem C69_every_file : (forall f, exists ls, has_lines f ls) /\ forall name ls, exists kv, in_blocks name false ls kv.
Proof. exact (conj every_file (fun name ls => in_blocks_exist name ls false)). Qed.
Print Assumptions C69_every_file.

(** The tool and the program agree about a block that occurs once, with each keyword once. *)
Theorem C69_agree : forall f before h body after name kv, has_lines f (before ++ h :: body ++ after) -> closed_headers (before ++ h :: body ++ after) -> name <> [] ->
  (forall l, In l before -> ~ header name l) -> header name h -> settings body kv -> NoDup (map fst kv) ->
  (after = [] \/ exists l u, after = l :: u /\ means l NewBlock) -> (forall l, In l after -> ~ header name l) ->
  exists m s, parser (Some f) name = Ok m /\ parse_param_sections (Some f) = Ok s /\ forall k, section_value s name k = find k m.
Proof. exact sections_agree. Qed.
Print Assumptions C69_agree.

(** They disagree about a block that occurs twice: the program takes the first, the tool adds the settings of the second. *)
Theorem C69_repeated_block_refuted : exists m s, parser (Some twice) (str "extra") = Ok m /\ parse_param_sections (Some twice) = Ok s /\
  find (str "U") m = Some (str "1") /\ section_value s (str "extra") (str "U") = Some (str "5") /\ find (str "V") m = None /\ section_value s (str "extra") (str "V") = Some (str "3").
Proof. exact twice_differ. Qed.
Print Assumptions C69_repeated_block_refuted.

(** They disagree about a line with an open bracket: it ends the block for the program only. *)
Theorem C69_open_header_refuted : exists m s, parser (Some unclosed) (str "extra") = Ok m /\ parse_param_sections (Some unclosed) = Ok s /\
  find (str "V") m = None /\ section_value s (str "extra") (str "V") = Some (str "2").
Proof. exact unclosed_differ. Qed.
Print Assumptions C69_open_header_refuted.

(** They disagree about a keyword given twice: an error for the program, the last value for the tool. *)
Theorem C69_repeated_keyword_refuted : exists s, parser (Some doubled) (str "extra") = Throw /\ parse_param_sections (Some doubled) = Ok s /\ section_value s (str "extra") (str "U") = Some (str "2").
Proof. exact doubled_differ. Qed.
Print Assumptions C69_repeated_keyword_refuted.

(** The hypotheses hold in examples. *)
Example C69_example : has_lines twice twice_lines /\ closed_headers twice_lines /\ in_blocks (str "extra") false twice_lines [(str "U", str "1"); (str "U", str "5"); (str "V", str "3")].
Proof. exact (conj twice_has (conj twice_closed twice_in)). Qed.
Example C69_example_agree : has_lines file ([str "# input"] ++ str "[param]" :: file_body ++ [str "[extra]"; str "U=0.5"]) /\ closed_headers ([str "# input"] ++ str "[param]" :: file_body ++ [str "[extra]"; str "U=0.5"]) /\
  settings file_body file_settings /\ NoDup (map fst file_settings).
Proof. exact (conj file_has (conj file_closed (conj file_settings_ok file_nodup))). Qed.

(** A run leaves all files as they are that are neither the data file nor temporary. *)
Theorem C70_kept : forall param compute d f ls name, lookup param d = Some (File f) -> has_lines f ls -> name <> str "data" -> ~ temporary param (block_of ls) name ->
  lookup name (fst (run_full param compute d)) = lookup name d.
Proof. exact kept_form. Qed.
Print Assumptions C70_kept.

(** Afterwards no temporary file exists. *)
Theorem C70_gone : forall param compute (d : list (text * entry)) f ls name, NoDup (map fst d) -> lookup param d = Some (File f) -> has_lines f ls -> temporary param (block_of ls) name ->
  forall c, lookup name (fst (run_full param compute d)) <> Some (File c).
Proof. exact gone_form. Qed.
Print Assumptions C70_gone.

(** The data file is complete after a success and as it was after a failure. *)
Theorem C70_data : forall param compute d f, lookup param d = Some (File f) -> exists s, parse_param_sections (Some f) = Ok s /\
  (forall t, compute s d = Ok t -> (forall e, lookup (str "data") d <> Some (Directory e)) ->
    snd (run_full param compute d) = true /\ lookup (str "data") (fst (run_full param compute d)) = Some (File t)) /\
  ((forall t, compute s d <> Ok t) \/ (exists e, lookup (str "data") d = Some (Directory e)) -> snd (run_full param compute d) = false /\ lookup (str "data") (fst (run_full param compute d)) = lookup (str "data") d).
Proof. exact data_form. Qed.
Print Assumptions C70_data.

(** Without a parameter file nothing changes. *)
Theorem C70_no_parameters : forall param compute d, (forall f, lookup param d <> Some (File f)) -> run_full param compute d = (d, false).
Proof. exact absent_form. Qed.
Print Assumptions C70_no_parameters.

(** Files are removed that the tool has not written: a matrix it was given, so that a second run fails. *)
Theorem C70_inputs_removed_refuted : lookup (str "ham.backup") some_folder = Some (File (str "h")) /\
  let r := run_full (str "param") needs_matrix some_folder in
  snd r = true /\ lookup (str "ham.backup") (fst r) = None /\ snd (run_full (str "param") needs_matrix (fst r)) = false.
Proof. exact inputs_removed. Qed.
Print Assumptions C70_inputs_removed_refuted.

(** The parameter file as well, if it is called param.dmft. *)
Theorem C70_parameters_removed_refuted : let d := [(str "param.dmft", File file)] in
  lookup (str "param.dmft") (fst (run_full (str "param.dmft") (fun _ _ => Ok (str "x")) d)) = None /\ snd (run_full (str "param.dmft") (fun _ _ => Ok (str "x")) d) = true.
Proof. exact parameters_removed. Qed.
Print Assumptions C70_parameters_removed_refuted.

(** The hypotheses hold in an example. *)
Example C70_example : lookup (str "param") some_folder = Some (File file) /\ has_lines file file_lines /\ NoDup (map fst some_folder) /\
  ~ temporary (str "param") (block_of file_lines) (str "notes.txt") /\ temporary (str "param") (block_of file_lines) (str "param.extra") /\
  run_full (str "param") needs_matrix some_folder = ([(str "param", File file); (str "notes.txt", File (str "n")); (str "ham.d", Directory false); (str "data", File (str "h"))], true).
Proof. exact (conj eq_refl (conj file_has (conj some_folder_names (conj some_folder_notes (conj some_folder_extra some_folder_run))))). Qed.
