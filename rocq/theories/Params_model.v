(** Model of the reading of parameter files: /repo/c++/misc.hpp (nextline, parse_block, find_block, parser),
    /repo/c++/basicio.hpp (strip_whitespace, from_string<bool>), /repo/c++/params.hpp (param, constructor of Params) and of the
    reader of the tools, /repo/tools/common/parser.hpp with /repo/tools/adapt/parser.hpp and /repo/tools/nrgchain/parser.h.
    A std::string is a list of characters.  Messages on the terminal are omitted except for the list of unused settings. *)
From Coq Require Import List ZArith Bool Ascii String.
From Verif Require Import Base.
Import ListNotations.
Local Open Scope list_scope.

Notation text := (list ascii).
Definition str (s : string) : text := list_ascii_of_string s.
Definition newline : ascii := "010"%char.

Fixpoint text_eqb (a b : text) : bool :=
  match a, b with [], [] => true | x :: s, y :: t => Ascii.eqb x y && text_eqb s t | _, _ => false end.

(** std::isspace in the C locale; also the characters of the literal in tools/common/parser.hpp:10-12. *)
Definition isspace (c : ascii) : bool := let n := nat_of_ascii c in Nat.eqb n 32 || (Nat.leb 9 n && Nat.leb n 13).

(** * Streams *)

(** An input stream: the characters not yet read, eofbit and failbit. [bool(F)] is [negb (failb F)]. *)
Record istream := { rest : text; eofb : bool; failb : bool }.
Definition open_text (s : text) : istream := {| rest := s; eofb := false; failb := false |}.

(** The characters up to the next newline, those after it, and whether there was one. *)
Fixpoint take_line (s : text) : text * text * bool :=
  match s with
  | [] => ([], [], false)
  | c :: t => if Ascii.eqb c newline then ([], t, true) else let '(l, r, d) := take_line t in (c :: l, r, d)
  end.
(** std::getline(F, line): nothing is read and failbit is set unless the stream is good; reaching the end of the file sets eofbit,
    and failbit too if no character was extracted. *)
Definition getline (F : istream) : text * istream :=
  if eofb F || failb F then ([], {| rest := rest F; eofb := eofb F; failb := true |}) else
  let '(l, r, d) := take_line (rest F) in
  (l, {| rest := r; eofb := negb d; failb := negb d && (match l with [] => true | _ => false end) |}).

(** * c++/misc.hpp *)

(** basicio.hpp:28-31 *)
Fixpoint strip_leading_whitespace (s : text) : text :=
  match s with [] => [] | c :: t => if isspace c then strip_leading_whitespace t else s end.
(** basicio.hpp:33-41 *)
Definition strip_trailing_whitespace (s : text) : text := rev (strip_leading_whitespace (rev s)).
(** basicio.hpp:43-45; also trim_whitespace, tools/common/parser.hpp:9-14 *)
Definition strip_whitespace (s : text) : text := strip_trailing_whitespace (strip_leading_whitespace s).
(** basicio.hpp:137-140 *)
Definition is_blank_or_comment_line (s : text) : bool :=
  match strip_leading_whitespace s with [] => true | c :: _ => Ascii.eqb c "#" end.

(** misc.hpp:80-89 nextline. [fuel]: number of iterations; running out of it is a distinct outcome, [UB]. *)
Fixpoint nextline (fuel : nat) (F : istream) : res (option text * istream) :=
  match fuel with
  | O => UB
  | S k =>
    if failb F then Ok (None, F) else
    let '(line, F) := getline F in
    if failb F then Ok (None, F) else
    if is_blank_or_comment_line line then nextline k F else Ok (Some line, F)
  end.
(** Every line takes at least one character, so this many iterations are enough. *)
Definition enough (F : istream) : nat := List.length (rest F) + 3.

(** line.find_first_of('='), line.substr(0, pos), line.substr(pos + 1). *)
Fixpoint split_eq (s : text) : option (text * text) :=
  match s with
  | [] => None
  | c :: t => if Ascii.eqb c "=" then Some ([], t) else match split_eq t with Some (a, b) => Some (c :: a, b) | None => None end
  end.

(** std::map<std::string, std::string>: pairs with distinct keys, in the order of insertion (the order of the keys is only used
    to print). *)
Notation smap := (list (text * text)).
Fixpoint find (k : text) (m : smap) : option text :=
  match m with [] => None | (a, v) :: t => if text_eqb a k then Some v else find k t end.
Definition count (k : text) (m : smap) : nat := match find k m with Some _ => 1 | None => 0 end.
Definition erase (k : text) (m : smap) : smap := filter (fun p => negb (text_eqb (fst p) k)) m.
(** insert_or_assign *)
Fixpoint insert_or_assign (k v : text) (m : smap) : smap :=
  match m with [] => [(k, v)] | (a, w) :: t => if text_eqb a k then (a, v) :: t else (a, w) :: insert_or_assign k v t end.

Definition starts (c : ascii) (s : text) : bool := match s with [] => false | d :: _ => Ascii.eqb d c end.

(** misc.hpp:93-111 parse_block *)
Fixpoint parse_block (fuel : nat) (F : istream) (m : smap) : res (smap * istream) :=
  match fuel with
  | O => UB
  | S k =>
    if failb F then Ok (m, F) else
    let* (l, F) := nextline (enough F) F in
    match l with
    | None => parse_block k F m
    | Some l =>
      let line := strip_whitespace l in
      if starts "[" line then Ok (m, F) else
      match split_eq line with
      | None => parse_block k F m
      | Some (a, b) =>
        let keyword := strip_whitespace a in
        let value := strip_whitespace b in
        if negb (Nat.eqb (count keyword m) 0) then Throw else parse_block k F (m ++ [(keyword, value)])
      end
    end
  end.

(** misc.hpp:114-123 find_block, after F.clear() and F.seekg(0). *)
Fixpoint find_block_loop (fuel : nat) (F : istream) (target : text) : res (bool * istream) :=
  match fuel with
  | O => UB
  | S k =>
    if failb F then Ok (false, F) else
    let* (l, F) := nextline (enough F) F in
    match l with
    | Some l => if text_eqb target (strip_whitespace l) then Ok (true, F) else find_block_loop k F target
    | None => find_block_loop k F target
    end
  end.
Definition find_block (file : text) (s : text) : res (bool * istream) :=
  let F := open_text file in find_block_loop (enough F) F (str "[" ++ s ++ str "]").

(** misc.hpp:126-131 parser: from the contents of the file; [None] if the file cannot be opened. *)
Definition parser (file : option text) (block : text) : res smap :=
  match file with
  | None => Throw
  | Some f =>
    let* (found, F) := find_block f block in
    if found then let* (m, _) := parse_block (enough F) F [] in Ok m else Throw
  end.

(** * c++/params.hpp *)

(** basicio.hpp:56-64 from_string<bool>; strcasecmp compares up to upper and lower case. *)
Definition lower (c : ascii) : ascii := let n := nat_of_ascii c in if Nat.leb 65 n && Nat.leb n 90 then ascii_of_nat (n + 32) else c.
Definition strcasecmp0 (a b : text) : bool := text_eqb (map lower a) (map lower b).
Definition bool_from_string (s : text) : option bool :=
  let t := strip_whitespace s in
  if text_eqb t (str "1") then Some true
  else if text_eqb t (str "0") then Some false
  else if strcasecmp0 t (str "true") || strcasecmp0 t (str "yes") then Some true
  else if strcasecmp0 t (str "false") || strcasecmp0 t (str "no") then Some false
  else None.

Section Params.
(** The values of all types of parameters. *)
Context {V : Type}.
(** params.hpp:59-92: a parameter with its conversion from_string<T> ([None]: the exception "Lexical cast failed"; external code
    for numbers). *)
Record param := { keyword : text; from_string : text -> option V; data : V; is_default : bool }.
(** params.hpp:86-89 *)
Definition set_str (p : param) (s : text) : res param :=
  match from_string p s with
  | None => Throw
  | Some v => Ok {| keyword := keyword p; from_string := from_string p; data := v; is_default := false |}
  end.

(** params.hpp:675-681 *)
Fixpoint set_all (all : list param) (m : smap) : res (list param * smap) :=
  match all with
  | [] => Ok ([], m)
  | i :: t =>
    if Nat.eqb (count (keyword i) m) 1 then
      match find (keyword i) m with
      | None => UB
      | Some s =>
        let* i' := set_str i s in
        let* (l, m') := set_all t (erase (keyword i) m) in
        Ok (i' :: l, m')
      end
    else let* (l, m') := set_all t m in Ok (i :: l, m')
  end.

(** params.hpp:667-698: the parameters, the settings reported as unused, extra_params; before validate(). *)
Record parsed := { values : list param; unused : smap; extra_params : smap }.
Definition construct_params (all : list param) (file : option text) (block : text) : res parsed :=
  let* m := parser file block in
  let* (l, m) := set_all all m in
  match file with
  | None => Throw
  | Some f =>
    let* (found, F) := find_block f (str "extra") in
    let* ex := if found then let* (e, _) := parse_block (enough F) F [] in Ok e else Ok [] in
    Ok {| values := l; unused := m; extra_params := ex |}
  end.
End Params.
Arguments param : clear implicits.
Arguments parsed : clear implicits.

(** * tools/common/parser.hpp *)

(** parser.hpp:16-26 *)
Fixpoint tools_find_loop (fuel : nat) (F : istream) (target : text) : res (bool * istream) :=
  match fuel with
  | O => UB
  | S k =>
    if failb F then Ok (negb (failb F), F) else
    let '(line, F) := getline F in
    if negb (failb F) && text_eqb target line then Ok (negb (failb F), F) else tools_find_loop k F target
  end.
Definition tools_find_block (file : text) (name : text) : res (bool * istream) :=
  let F := open_text file in tools_find_loop (enough F) F (str "[" ++ name ++ str "]").

(** parser.hpp:28-44 parse_key_value_block *)
Fixpoint tools_parse (fuel : nat) (F : istream) (m : smap) : res smap :=
  match fuel with
  | O => UB
  | S k =>
    if failb F then Ok m else
    let '(line, F) := getline F in
    if failb F then Ok m else
    let line := strip_whitespace line in
    match line with
    | [] => tools_parse k F m
    | c :: _ =>
      if Ascii.eqb c "[" then Ok m else
      if Ascii.eqb c "#" then tools_parse k F m else
      match split_eq line with
      | None => tools_parse k F m
      | Some (a, b) => tools_parse k F (insert_or_assign (strip_whitespace a) (strip_whitespace b) m)
      end
    end
  end.

(** adapt/parser.hpp:20-24 and nrgchain/parser.h:29-34, which read block [param] *)
Definition tools_params (file : text) : res smap :=
  let* (found, F) := tools_find_block file (str "param") in
  if found then tools_parse (enough F) F [] else Ok [].

(** common/parser.hpp:46-51 get_or_default and the conversion of Pbool (adapt/parser.hpp:35-37, nrgchain/parser.h:25-27) *)
Definition get_or_default {T} (m : smap) (k : text) (def : T) (convert : text -> T) : T :=
  match find k m with Some v => convert v | None => def end.
Definition Pbool (m : smap) (k : text) (def : bool) : bool := get_or_default m k def (fun v => text_eqb v (str "true")).
