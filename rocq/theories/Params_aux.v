(** Examples for C26. *)
From Coq Require Import List ZArith Bool Ascii String Lia.
From Verif Require Import Base Params_model Params_spec Params_proofs Params_read Params_forms.
Import ListNotations.
Local Open Scope list_scope.

Definition file_lines : list (list ascii) :=
  [str "# input"; str "[param]"; str " Lambda = 3  # three"; []; str "  # keep=5"; str "keep=100"; str "junk"; str "colour= red"; str "[extra]"; str "U=0.5"].
Definition file_body : list (list ascii) := [str " Lambda = 3  # three"; []; str "  # keep=5"; str "keep=100"; str "junk"; str "colour= red"].
Definition file_settings : list (list ascii * list ascii) := [(str "Lambda", str "3  # three"); (str "keep", str "100"); (str "colour", str "red")].
Definition file : list ascii := unlines file_lines.

Lemma no_nl (l : list ascii) : forallb (fun c => negb (Ascii.eqb c newline)) l = true -> ~ In end_of_line l.
Proof. intros H G. rewrite forallb_forall in H. specialize (H _ G). discriminate. Qed.
Lemma file_has : has_lines file file_lines.
Proof.
  split; [|now left]. intros l H. apply no_nl. revert l H. apply forallb_forall. vm_compute. reflexivity.
Qed.
Lemma settings_by body : forall kv,
  (fix go (b : list (list ascii)) : option (list (list ascii * list ascii)) := match b with [] => Some [] | l :: t =>
     match classify l, go t with Nothing, Some r => Some r | Setting k v, Some r => Some ((k, v) :: r) | _, _ => None end end) body = Some kv ->
  settings body kv.
Proof.
  induction body as [|l b IH]; intros kv E.
  - injection E; intros; subst. constructor.
  - destruct (classify l) eqn:C.
    + match type of E with match ?x with _ => _ end = _ => destruct x as [r|] eqn:G end; [|discriminate]. injection E; intros; subst.
      apply skip_line; [now apply means_iff|]. now apply IH.
    + discriminate.
    + match type of E with match ?x with _ => _ end = _ => destruct x as [r|] eqn:G end; [|discriminate]. injection E; intros; subst.
      apply add_line; [now apply means_iff|]. now apply IH.
Qed.
Lemma file_settings_ok : settings file_body file_settings.
Proof. apply settings_by. vm_compute. reflexivity. Qed.
Lemma file_block : block (str "param") file_lines file_body.
Proof.
  exists [str "# input"], (str "[param]"), [str "[extra]"; str "U=0.5"]. split; [reflexivity|]. split.
  - intros l [<-|[]] H. apply header_visible in H. vm_compute in H. discriminate.
  - split; [apply exact_header|]. split; [exact (settings_not_new _ _ file_settings_ok)|]. right. exists (str "[extra]"), [str "U=0.5"]. split; [reflexivity|].
    now apply means_iff.
Qed.
Lemma file_nodup : NoDup (map fst file_settings).
Proof. simpl. repeat constructor; simpl; intuition discriminate. Qed.
Lemma file_parsed : parser (Some file) (str "param") = Ok file_settings.
Proof. vm_compute. reflexivity. Qed.

(** Two parameters of the type text. *)
Definition tp (k d : string) : param (list ascii) := {| keyword := str k; from_string := Some; data := str d; is_default := true |}.
Definition params2 := [tp "Lambda" "2"; tp "z" "1"].
Lemma params2_read : construct_params params2 (Some file) (str "param") =
  Ok {| values := [{| keyword := str "Lambda"; from_string := Some; data := str "3  # three"; is_default := false |}; tp "z" "1"];
        unused := [(str "keep", str "100"); (str "colour", str "red")]; extra_params := [(str "U", str "0.5")] |}.
Proof. vm_compute. reflexivity. Qed.

(** A file with carriage returns. *)
Definition dos_lines : list (list ascii) := [str "[param]" ++ ["013"%char]; str "Lambda=4" ++ ["013"%char]].
Definition dos : list ascii := unlines dos_lines.
Lemma dos_has : has_lines dos dos_lines.
Proof. split; [|now left]. intros l H. apply no_nl. revert l H. apply forallb_forall. vm_compute. reflexivity. Qed.
Lemma dos_exact : ~ In (str "[param]") dos_lines.
Proof. simpl. intuition discriminate. Qed.
Lemma dos_read : parser (Some dos) (str "param") = Ok [(str "Lambda", str "4")] /\ tools_params dos = Ok [].
Proof. split; vm_compute; reflexivity. Qed.
