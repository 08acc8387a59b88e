(** Property theorems C26: parameter files. *)
From Coq Require Import List Ascii String.
From Verif Require Import Base Params_model Params_spec Params_proofs Params_read Params_forms Params_aux.
Import ListNotations.
Local Open Scope list_scope.

(** The theorems below cover all files: each has lines, each line has exactly one meaning, and either no line starts the block or
    the block has settings. *)
Theorem C26_every_file : forall name f,
  (exists ls, has_lines f ls /\ ((forall l, In l ls -> ~ header name l) \/ exists body kv, block name ls body /\ settings body kv)) /\
  (forall l, exists m, means l m /\ forall m', means l m' -> m' = m).
Proof. exact (fun name f => conj (coverage name f) (fun l => ex_intro _ (classify l) (conj (means_total l) (fun m' H => eq_sym (classify_ok l m' H))))). Qed.
Print Assumptions C26_every_file.

(** The reader of a block returns its settings, and throws if a keyword is assigned twice. *)
Theorem C26_block : forall f ls name body kv, has_lines f ls -> block name ls body -> settings body kv ->
  (NoDup (map fst kv) -> parser (Some f) name = Ok kv) /\ (~ NoDup (map fst kv) -> parser (Some f) name = Throw).
Proof. exact block_form. Qed.
Print Assumptions C26_block.

(** Every known keyword gets the value of its unique assignment or keeps its default; unknown keywords are reported; the block
    [extra] is kept as it is. *)
Theorem C26_values : forall (V : Type) (all : list (param V)) f ls name body kv ex, NoDup (map (@keyword V) all) ->
  has_lines f ls -> block name ls body -> settings body kv -> NoDup (map fst kv) ->
  (forall p s, In p all -> In (keyword p, s) kv -> from_string p s <> None) ->
  ((forall l, In l ls -> ~ header (list_ascii_of_string "extra") l) /\ ex = [] \/
   exists body', block (list_ascii_of_string "extra") ls body' /\ settings body' ex /\ NoDup (map fst ex)) ->
  exists r, construct_params all (Some f) name = Ok r /\
    Forall2 (fun p q => keyword q = keyword p /\
      ((exists s v, In (keyword p, s) kv /\ from_string p s = Some v /\ data q = v /\ is_default q = false) \/
       (~ In (keyword p) (map fst kv) /\ q = p))) all (values r) /\
    (forall k s, In (k, s) (unused r) <-> In (k, s) kv /\ ~ In k (map (@keyword V) all)) /\
    extra_params r = ex.
Proof. exact @values_form. Qed.
Print Assumptions C26_values.

(** A missing file, a missing block, a repeated keyword and a value that cannot be converted are errors. *)
Theorem C26_rejected : forall (V : Type) (all : list (param V)) f ls name, NoDup (map (@keyword V) all) -> has_lines f ls ->
  (construct_params all None name = Throw) /\
  ((forall l, In l ls -> ~ header name l) -> construct_params all (Some f) name = Throw) /\
  (forall body kv, block name ls body -> settings body kv ->
    ~ NoDup (map fst kv) \/ (exists p s, In p all /\ In (keyword p, s) kv /\ from_string p s = None) ->
    construct_params all (Some f) name = Throw).
Proof. exact @rejected_form. Qed.
Print Assumptions C26_rejected.

(** Blank lines, comments and other lines without an assignment can be inserted anywhere. *)
Theorem C26_comments : forall f f' a l b name, has_lines f (a ++ l :: b) -> has_lines f' (a ++ b) -> means l Nothing ->
  parser (Some f) name = parser (Some f') name.
Proof. exact has_insert. Qed.
Print Assumptions C26_comments.

(** The words for true and false. *)
Theorem C26_truth_values : forall s, trimmed s ->
  (bool_from_string s = Some true <-> says_true s) /\ (bool_from_string s = Some false <-> says_false s).
Proof. exact bool_form. Qed.
Print Assumptions C26_truth_values.

(** The tools take the last assignment in the block. *)
Theorem C26_tools : forall f before body after kv, has_lines f (before ++ str "[param]" :: body ++ after) -> ~ In (str "[param]") before ->
  settings body kv -> (after = [] \/ exists l u, after = l :: u /\ means l NewBlock) ->
  exists m, tools_params f = Ok m /\ forall k v, find k m = Some v <-> last_assignment kv k v.
Proof. exact tools_form. Qed.
Print Assumptions C26_tools.

(** The tools and the main program read the same settings if the header is written exactly and no keyword is repeated. *)
Theorem C26_tools_agree : forall f before body after kv, has_lines f (before ++ str "[param]" :: body ++ after) ->
  (forall l, In l before -> ~ header (str "param") l) ->
  settings body kv -> (after = [] \/ exists l u, after = l :: u /\ means l NewBlock) -> NoDup (map fst kv) ->
  exists m m', parser (Some f) (str "param") = Ok m /\ tools_params f = Ok m' /\ forall k, find k m = find k m'.
Proof. exact agree_form. Qed.
Print Assumptions C26_tools_agree.

(** Otherwise they do not: without an exact header the tools use their defaults for everything, without any message, and they take
    every other word for true as false. *)
Theorem C26_tools_agree_refuted :
  (forall f ls, has_lines f ls -> ~ In (str "[param]") ls -> tools_params f = Ok []) /\
  (forall m k v def, find k m = Some v -> trimmed v ->
    (Pbool m k def = true <-> v = str "true") /\
    (says_false v -> Pbool m k def = false) /\
    (says_true v -> v <> str "true" -> bool_from_string v = Some true /\ Pbool m k def = false)).
Proof. exact (conj tools_silent_form tools_bool_form). Qed.
Print Assumptions C26_tools_agree_refuted.

Example C26_example : has_lines file file_lines /\ block (str "param") file_lines file_body /\ settings file_body file_settings /\ NoDup (map fst file_settings).
Proof. exact (conj file_has (conj file_block (conj file_settings_ok file_nodup))). Qed.
Example C26_example_read : construct_params params2 (Some file) (str "param") =
  Ok {| values := [{| keyword := str "Lambda"; from_string := Some; data := str "3  # three"; is_default := false |}; tp "z" "1"];
        unused := [(str "keep", str "100"); (str "colour", str "red")]; extra_params := [(str "U", str "0.5")] |}.
Proof. exact params2_read. Qed.
(** The same file of another operating system. *)
Example C26_example_dos : has_lines dos dos_lines /\ ~ In (str "[param]") dos_lines /\
  parser (Some dos) (str "param") = Ok [(str "Lambda", str "4")] /\ tools_params dos = Ok [].
Proof. exact (conj dos_has (conj dos_exact dos_read)). Qed.
