(** Examples for C69 and C70. *)
From Coq Require Import List Bool Ascii String.
From Verif Require Import Base Params_model Params_spec Params_proofs Params_read Params_forms Params_aux Sections_model Sections_spec Sections_proofs.
Import ListNotations.
Local Open Scope list_scope.

Lemma file_closed : closed_headers file_lines.
Proof.
  intros l H G. apply classify_ok in G. unfold file_lines in H. simpl in H.
  repeat (destruct H as [<- | H]; [first [discriminate | exists (str "param"); now apply section_name_iff | exists (str "extra"); now apply section_name_iff] |]). destruct H.
Qed.
Lemma in_blocks_by name ls : forall b kv,
  (fix go (b : bool) (ls : list (list ascii)) : list (list ascii * list ascii) := match ls with [] => [] | l :: t =>
     match classify l with Nothing => go b t | NewBlock => go (text_eqb (str "[" ++ name ++ str "]") (strip_whitespace l)) t | Setting k v => if b then (k, v) :: go b t else go b t end end) b ls = kv ->
  in_blocks name b ls kv.
Proof.
  induction ls as [|l ls IH]; intros b kv E; [subst; constructor |]. destruct (classify l) as [| | k v] eqn:C; apply means_iff in C.
  - apply ib_nothing; auto.
  - destruct (text_eqb (str "[" ++ name ++ str "]") (strip_whitespace l)) eqn:H.
    + apply header_iff in H. apply ib_begin; auto.
    + apply ib_other; auto. intros G. apply header_iff in G. congruence.
  - destruct b; [subst kv; apply ib_inside; auto | apply (ib_outside name l ls k v); auto].
Qed.
Lemma file_in_param : in_blocks (str "param") false file_lines file_settings.
Proof. apply in_blocks_by. vm_compute. reflexivity. Qed.
Lemma file_read : exists s, parse_param_sections (Some file) = Ok s /\ section_value s (str "param") (str "keep") = Some (str "100") /\ section_value s (str "extra") (str "U") = Some (str "0.5") /\
  section_value s (str "extra") (str "keep") = None.
Proof. eexists. split; [vm_compute; reflexivity |]. vm_compute. auto. Qed.

(** Two blocks of the same name. *)
Definition twice_lines : list (list ascii) := map str ["[extra]"; "U=1"; "[param]"; "Nmax=2"; "[extra]"; "U=5"; "V=3"]%string.
Definition twice : list ascii := unlines twice_lines.
Lemma twice_has : has_lines twice twice_lines.
Proof. split; [|now left]. intros l H. apply no_nl. revert l H. apply forallb_forall. vm_compute. reflexivity. Qed.
Lemma twice_closed : closed_headers twice_lines.
Proof.
  intros l H G. apply classify_ok in G. unfold twice_lines in H. simpl in H.
  repeat (destruct H as [<- | H]; [first [discriminate | exists (str "param"); now apply section_name_iff | exists (str "extra"); now apply section_name_iff] |]). destruct H.
Qed.
Lemma twice_in : in_blocks (str "extra") false twice_lines [(str "U", str "1"); (str "U", str "5"); (str "V", str "3")].
Proof. apply in_blocks_by. vm_compute. reflexivity. Qed.
Theorem twice_differ : exists m s, parser (Some twice) (str "extra") = Ok m /\ parse_param_sections (Some twice) = Ok s /\
  find (str "U") m = Some (str "1") /\ section_value s (str "extra") (str "U") = Some (str "5") /\ find (str "V") m = None /\ section_value s (str "extra") (str "V") = Some (str "3").
Proof. eexists _, _. split; [vm_compute; reflexivity |]. split; [vm_compute; reflexivity |]. vm_compute. auto. Qed.
(** A line with a bracket that is not closed. *)
Definition unclosed : list ascii := unlines (map str ["[extra]"; "U=1"; "[old"; "V=2"]%string).
Theorem unclosed_differ : exists m s, parser (Some unclosed) (str "extra") = Ok m /\ parse_param_sections (Some unclosed) = Ok s /\
  find (str "V") m = None /\ section_value s (str "extra") (str "V") = Some (str "2").
Proof. eexists _, _. split; [vm_compute; reflexivity |]. split; [vm_compute; reflexivity |]. vm_compute. auto. Qed.
(** A setting given twice in a block. *)
Definition doubled : list ascii := unlines (map str ["[extra]"; "U=1"; "U=2"]%string).
Theorem doubled_differ : exists s, parser (Some doubled) (str "extra") = Throw /\ parse_param_sections (Some doubled) = Ok s /\ section_value s (str "extra") (str "U") = Some (str "2").
Proof. eexists. split; [vm_compute; reflexivity |]. split; [vm_compute; reflexivity |]. vm_compute. reflexivity. Qed.

(** A directory. *)
Definition some_folder : list (text * entry) :=
  [(str "param", File file); (str "notes.txt", File (str "n")); (str "ham.backup", File (str "h")); (str "param.extra", File (str "x")); (str "ham.d", Directory false); (str "vec", Directory true)].
(** A computation that needs the matrix in the current directory, as the search for template files permits. *)
Definition needs_matrix (s : sections) (d : list (text * entry)) : res text := match read_file (str "ham.backup") d with Some c => Ok c | None => Throw end.
Lemma some_folder_names : NoDup (map fst some_folder).
Proof. unfold some_folder. simpl. repeat (constructor; [simpl; intuition discriminate |]). constructor. Qed.
Lemma some_folder_notes : ~ temporary (str "param") (block_of file_lines) (str "notes.txt").
Proof.
  intros [H | [(s & _ & H) | [(t & H) | (t & H)]]]; try discriminate. simpl in H. repeat (destruct H as [H | H]; [discriminate |]). exact H.
Qed.
Lemma some_folder_extra : temporary (str "param") (block_of file_lines) (str "param.extra").
Proof.
  right. left. exists (str "extra"). split; [| reflexivity]. split; [discriminate |]. exists (str "[extra]"). split; [| now apply section_name_iff]. unfold file_lines. simpl. tauto.
Qed.
Lemma some_folder_run : run_full (str "param") needs_matrix some_folder = ([(str "param", File file); (str "notes.txt", File (str "n")); (str "ham.d", Directory false); (str "data", File (str "h"))], true).
Proof. vm_compute. reflexivity. Qed.
(** A file that no run of the tool has written is removed, and a second run fails. *)
Theorem inputs_removed : lookup (str "ham.backup") some_folder = Some (File (str "h")) /\
  let r := run_full (str "param") needs_matrix some_folder in
  snd r = true /\ lookup (str "ham.backup") (fst r) = None /\ snd (run_full (str "param") needs_matrix (fst r)) = false.
Proof. vm_compute. auto. Qed.
(** So is the parameter file, if it has a certain name. *)
Theorem parameters_removed : let d := [(str "param.dmft", File file)] in
  lookup (str "param.dmft") (fst (run_full (str "param.dmft") (fun _ _ => Ok (str "x")) d)) = None /\ snd (run_full (str "param.dmft") (fun _ _ => Ok (str "x")) d) = true.
Proof. vm_compute. auto. Qed.
