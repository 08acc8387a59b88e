(** Model of the handling of the parameter file and of the files in the current directory by /repo/tools/instantiate/instantiate.cc
    (parse_param_sections, write_param_section_files, cleanup_instantiation_temporaries, run_full_instantiation).  Streams, texts and maps as in
    Params_model.  The computation of the data file (C68) is an argument. *)
From Coq Require Import List ZArith Bool Ascii String.
From Verif Require Import Base Params_model.
Import ListNotations.
Local Open Scope list_scope.

(** operator[] of a std::map from texts, with the update of the entry. *)
Fixpoint update {A} (k : text) (d : A) (f : A -> A) (m : list (text * A)) : list (text * A) :=
  match m with [] => [(k, f d)] | (a, v) :: t => if text_eqb a k then (a, f v) :: t else (a, v) :: update k d f t end.
Fixpoint lookup {A} (k : text) (m : list (text * A)) : option A :=
  match m with [] => None | (a, v) :: t => if text_eqb a k then Some v else lookup k t end.
(** 107-110 ParamSections *)
Record sections := { s_lines : list (text * list text); s_values : list (text * smap) }.
(** 121-123: [stripped.size() >= 2 && stripped.front() == '[' && stripped.back() == ']'], stripped.substr(1, stripped.size() - 2) *)
Definition section_name (stripped : text) : option text :=
  match stripped with
  | c :: (d :: t) as r => if Ascii.eqb c "[" && Ascii.eqb (last r d) "]" then Some (removelast r) else None
  | _ => None
  end.
(** 112-133 parse_param_sections; trim is strip_whitespace. *)
Fixpoint sections_loop (fuel : nat) (F : istream) (section : text) (S0 : sections) : res sections :=
  match fuel with
  | O => UB
  | S k =>
    let '(line, F) := getline F in
    if failb F then Ok S0 else
    let stripped := strip_whitespace line in
    let section := match section_name stripped with Some n => n | None => section end in
    match section with
    | [] => sections_loop k F section S0
    | _ =>
      let S1 := {| s_lines := update section [] (fun l => l ++ [line]) (s_lines S0); s_values := s_values S0 |} in
      match stripped with
      | [] => sections_loop k F section S1
      | c :: _ =>
        if Ascii.eqb c "#" || Ascii.eqb c "[" then sections_loop k F section S1 else
        match split_eq stripped with
        | None => sections_loop k F section S1
        | Some (a, b) =>
          sections_loop k F section {| s_lines := s_lines S1;
            s_values := update section [] (insert_or_assign (strip_whitespace a) (strip_whitespace b)) (s_values S1) |}
        end
      end
    end
  end.
Definition parse_param_sections (file : option text) : res sections :=
  match file with
  | None => Throw
  | Some f => let F := open_text f in sections_loop (enough F) F [] {| s_lines := []; s_values := [] |}
  end.
(** sections.values.find(section), then find(key): 402-408 param_value and 655-658 *)
Definition section_value (s : sections) (section key : text) : option text :=
  match lookup section (s_values s) with Some m => find key m | None => None end.

(** * Files *)
(** The current directory; a directory in it is empty or not. *)
Inductive entry := File (contents : text) | Directory (empty : bool).
Notation folder := (list (text * entry)).
(** 143-146 remove_file_noexcept: std::filesystem::remove also removes an empty directory, and fails for others. *)
Definition remove_file (name : text) (d : folder) : folder :=
  match lookup name d with
  | Some (Directory false) | None => d
  | _ => filter (fun p => negb (text_eqb (fst p) name)) d
  end.
Fixpoint prefix (p s : text) : bool :=
  match p, s with [], _ => true | c :: p', d :: s' => Ascii.eqb c d && prefix p' s' | _, _ => false end.
(** 148-158 remove_prefixed_files_noexcept.  The order in which the directory is listed does not matter. *)
Definition remove_prefixed (p : text) (d : folder) : folder :=
  filter (fun x => negb (prefix (p ++ str ".") (fst x) && match snd x with File _ => true | Directory _ => false end)) d.
(** 160-172 cleanup_instantiation_temporaries *)
Definition temporaries : list text :=
  map str ["xi.dat"; "zeta.dat"; "theta.dat"; "xi1.dat"; "zeta1.dat"; "theta1.dat"; "val"; "vec"; "mat"; "mat.res"; "ham"; "param.param"; "param.dmft";
           "param.extra"; "solverlog"; "solverlogneg"]%string.
Definition cleanup (param : text) (s : sections) (d : folder) : folder :=
  let d := fold_left (fun d n => remove_file n d) temporaries d in
  let d := fold_left (fun d x => remove_file (param ++ str "." ++ fst x) d) (s_lines s) d in
  remove_prefixed (str "ham") (remove_prefixed (str "vec") d).
(** std::ofstream: a file is created or overwritten; a directory of that name is an error. *)
Definition write_file (name contents : text) (d : folder) : res folder :=
  match lookup name d with Some (Directory _) => Throw | _ => Ok (update name (File []) (fun _ => File contents) d) end.
Definition read_file (name : text) (d : folder) : option text := match lookup name d with Some (File c) => Some c | _ => None end.
(** 716-756 run_full_instantiation without --generate-temporaries.  [compute]: everything between the reading of the parameter file and the
    writing of the data file, which reads files but writes none; the destructor of the guard acts in any case.  Returned: the directory, and
    whether the tool reports success. *)
Definition run_full (param : text) (compute : sections -> folder -> res text) (d : folder) : folder * bool :=
  match parse_param_sections (read_file param d) with
  | Ok s =>
    match compute s d with
    | Ok data => match write_file (str "data") data d with Ok d' => (cleanup param s d', true) | _ => (cleanup param s d, false) end
    | _ => (cleanup param s d, false)
    end
  | _ => (d, false)
  end.
