(** Model of the tool matrix: the scanner /repo/tools/matrix/matrix.ll and the parser /repo/tools/matrix/parser.yy.
    The input is one text (the files of the command line, or the standard input).  Options, the loading of the chain coefficients
    and messages are omitted.  The parser that Bison generates is modelled as a machine that shifts and reduces, with the
    decisions of the generated tables (parser.cc:526-620): a state with a single reduction reduces without looking at the next
    token, and a state reduces by default when the next token cannot be shifted. *)
From Coq Require Import List ZArith Bool Ascii String.
From Verif Require Import Base Params_model Template_model.
Import ListNotations.
Local Open Scope list_scope.

(** * The scanner *)

(** matrix.ll:34-39, the words with a token of their own. *)
Inductive key := KGamma | KXi | KZeta | KDelta | KKappa | KV.
(** A token. [TCh] is a character that stands for itself; [TEnd] the end of the input (matrix.ll:87-103) or a dollar sign (105);
    [TMismatch] the exit of line 112; [TShell] and [TInclude] the commands ! (49-55) and parse (40-46), after which the model
    does not follow the program. *)
Inductive tok := TNum (w : text) | TInt (w : text) | TName (x : text) | TKey (k : key) | TCh (c : ascii)
| TEnd | TMismatch | TShell | TInclude.

Definition word (w : text) : tok :=
  if text_eqb w (str "gammaPolCh") then TKey KGamma else if text_eqb w (str "coefxi") then TKey KXi else
  if text_eqb w (str "coefzeta") then TKey KZeta else if text_eqb w (str "coefdelta") then TKey KDelta else
  if text_eqb w (str "coefkappa") then TKey KKappa else if text_eqb w (str "coefV") then TKey KV else TName w.
(** The rest of the line, [^\n]* *)
Fixpoint drop_line (s : text) : text := match s with [] => [] | c :: t => if Ascii.eqb c newline then s else drop_line t end.
(** 57-70, the longest number. A one-digit number may have an exponent after e, any other only after a decimal point. *)
Definition scan_number (s : text) : tok * text :=
  let '(a, r) := span isdigit s in
  let plain := match a with
    | [d] => if Ascii.eqb d "0" then (TInt a, r) else
        let '(x, w) := exponent "e" "e" r in match x with [] => (TInt a, r) | _ => (TNum (a ++ x), w) end
    | _ => (TInt a, r)
    end in
  match r with
  | c :: u => if Ascii.eqb c "." then
        let '(b, v) := span isdigit u in let '(x, w) := exponent "e" "E" v in (TNum (a ++ c :: b ++ x), w)
      else plain
  | [] => plain
  end.
(** 75: the text after an opening bracket is a name and a closing bracket. *)
Definition section_rest (t : text) : option text :=
  match t with
  | c :: _ => if isalpha c then match span idchar t with (_, d :: r) => if Ascii.eqb d "]" then Some r else None | _ => None end else None
  | [] => None
  end.
(** 77: a name, an equals sign and a letter. *)
Definition text_follows (r : text) : bool :=
  match r with e :: d :: _ => Ascii.eqb e "=" && isalpha d | _ => false end.
Definition blank (c : ascii) : bool := Ascii.eqb c " " || Ascii.eqb c "009".

(** The tokens of a text; [bol]: the beginning of a line; [k]: the number of open braces; [n] bounds the number of tokens and
    pieces of ignored text. *)
Fixpoint lex (n : nat) (bol : bool) (k : nat) (s : text) {struct n} : list tok :=
  match n with O => [] | S n =>
    match s with
    | [] => [TEnd]
    | c :: t =>
      if Ascii.eqb c newline then match k with O => TCh c :: lex n true k t | _ => lex n true k t end else (* 119-125 *)
      if bol && Ascii.eqb c "#" then lex n false k (drop_line t) else (* 32 *)
      if bol && Ascii.eqb c "!" then [TShell] else
      if blank c then lex n false k t else (* 73 *)
      if isalpha c then
        let '(w, r) := span idchar s in
        if text_follows r then lex n false k (drop_line r) else
        if text_eqb w (str "parse") then [TInclude] else word w :: lex n false k r (* 83-88 *)
      else if isdigit c || Ascii.eqb c "." then let '(t, r) := scan_number s in t :: lex n false k r
      else if Ascii.eqb c "[" then match section_rest t with Some r => lex n false k r | None => TCh c :: lex n false k t end
      else if Ascii.eqb c "$" then [TEnd]
      else if Ascii.eqb c "{" then TCh c :: lex n false (S k) t (* 107-109 *)
      else if Ascii.eqb c "}" then match k with O => [TMismatch] | S k => TCh c :: lex n false k t end (* 111-117 *)
      else TCh c :: lex n false k t (* 126 *)
    end
  end.
Definition tokens (s : text) : list tok := lex (S (List.length s)) true 0 s.

(** * The parser *)
Section Parser.
Context {V : Type} (A : arith V) (zero : V) (of_int : Z -> V) (fmt : V -> text) (prefix : text).

(** parser.yy:232-237, the coefficients of the chain: one element for each channel; [coupling] is V[0]. *)
Record chain := { theta : V; xi : list V; zeta : list V; delta : list V; kappa : list V }.
Context (chains : list chain) (coupling : option (list (list V))).

(** matrix.h:3-7, parser.yy:176-195: the table of symbols. *)
Record entry := { name : text; func : option (V -> V); value : V }.
Definition NSYMS : nat := 200.
Definition find_sym (sy : list entry) (x : text) : option entry := List.find (fun e => text_eqb (name e) x) sy.
Definition symlook (sy : list entry) (x : text) : option (list entry) :=
  match find_sym sy x with
  | Some _ => Some sy
  | None => if Nat.ltb (List.length sy) NSYMS then Some (sy ++ [{| name := x; func := None; value := zero |}]) else None
  end.
(** 101: the value of a name; 58: assignment. *)
Definition value_in (sy : list entry) (x : text) : V := match find_sym sy x with Some e => value e | None => zero end.
Definition assign (sy : list entry) (x : text) (v : V) : list entry :=
  map (fun e => if text_eqb (name e) x then {| name := name e; func := func e; value := v |} else e) sy.
(** 102-117: a call; a name that is not a function gives zero, with a message. *)
Definition call (sy : list entry) (x : text) (v : V) : V :=
  match find_sym sy x with Some e => match func e with Some f => f v | None => zero end | None => zero end.
(** 358-361, main: the functions known at the start. *)
Definition start_table : list entry :=
  map (fun p => {| name := fst p; func := Some (snd p); value := zero |})
    [(str "Sqrt", a_sqrt A); (str "sqrt", a_sqrt A); (str "exp", a_exp A); (str "log", a_log A)].

(** matrix.ll:58 atoi of a text of digits: undefined behaviour outside the range of an int. *)
Definition digits_value (w : text) : Z := fold_left (fun z c => 10 * z + (Z.of_nat (nat_of_ascii c) - 48))%Z w 0%Z.
Definition atoi (w : text) : res Z := let z := digits_value w in if (z <=? 2147483647)%Z then Ok z else UB.

(** 466-513: the coefficients. An assertion that fails is [Throw]. The channel is counted from 1, the site from 0. *)
Definition channel (ch : Z) : res chain :=
  if (1 <=? ch)%Z && (ch <=? Z.of_nat (List.length chains))%Z then
    match nth_error chains (Z.to_nat (ch - 1)) with Some c => Ok c | None => UB end
  else Throw.
Definition element {B} (l : list B) (i : Z) : res B :=
  if (i <? Z.of_nat (List.length l))%Z then match nth_error l (Z.to_nat i) with Some x => Ok x | None => UB end else Throw.
Definition gammapolch (ch : Z) : res V := let* c := channel ch in Ok (a_sqrt A (a_div A (theta c) (a_pi A))).
Definition coefV (i j : Z) : res V :=
  match coupling with
  | None => UB
  | Some m => let* _ := my_assert (1 <=? i)%Z in let* r := element m (i - 1) in let* _ := my_assert (1 <=? j)%Z in element r (j - 1)
  end.
Definition coef (k : key) (i j : Z) : res V :=
  match k with
  | KGamma => UB (* not produced by the grammar *)
  | KXi => let* c := channel i in element (xi c) j
  | KZeta => let* c := channel i in element (zeta c) j
  | KDelta => let* c := channel i in element (delta c) j
  | KKappa => let* c := channel i in element (kappa c) j
  | KV => coefV i j
  end.
(** 91-95: division by zero gives a message; the value of the production is then the one that the parser put there before the
    action, which is that of the first symbol (parser.cc:1322), that is, the dividend. *)
Definition divide (x y : V) : V := if a_is_zero A y then x else a_div A x y.

(** 375-402 dump_vector, dump_matrix (an empty pointer prints nothing but the newline, or nothing at all) *)
Fixpoint dump_items (l : list V) : text :=
  match l with [] => [] | [v] => fmt v | v :: t => fmt v ++ " "%char :: dump_items t end.
Definition dump_vector (l : list V) : text := dump_items l ++ [newline].
Fixpoint dump_matrix (m : list (list V)) : text :=
  match m with [] => [] | [r] => dump_vector r | r :: t => dump_vector r ++ prefix ++ dump_matrix t end.

(** The stack of the parser; the last symbol is first. Below the symbols shown lies the list of statements. *)
Inductive sym := SCh (c : ascii) | SNum (w : text) | SInt (w : text) | SName (x : text) | SKey (k : key)
| SE (v : V) | SEL (l : list V) | SVec (l : list V) | SVL (m : list (list V)) | SMat (m : list (list V)) | SStmt.
Record state := { stack : list sym; table : list entry; output : text; begun : bool }.
Definition with_stack (s : state) (st : list sym) : state := {| stack := st; table := table s; output := output s; begun := begun s |}.
Definition print (s : state) (w : text) : state := {| stack := [SStmt]; table := table s; output := output s ++ prefix ++ w; begun := begun s |}.
Definition is (c d : ascii) : bool := Ascii.eqb c d.

(** Below an integer: it is the index of a coefficient (121-126). *)
Definition index_place (st : list sym) : bool :=
  match st with
  | SCh _ :: SKey _ :: _ => true
  | SCh _ :: SInt _ :: _ => true
  | _ => false
  end.
(** Reductions made without looking at the next token. *)
Definition reduce_expr (s : state) (b : V) (st : list sym) : option state :=
  match st with
  | SCh c :: SE a :: st' =>
      if is c "*" then Some (with_stack s (SE (a_mul A a b) :: st')) else
      if is c "/" then Some (with_stack s (SE (divide a b) :: st')) else None
  | SCh c :: st' => if is c "-" then Some (with_stack s (SE (a_neg A b) :: st')) else None
  | _ => None
  end.
Definition reduce_close (s : state) (c : ascii) (st : list sym) : option (res state) :=
  if is c ")" then
    match st with
    | SE v :: SCh _ :: SName f :: st' => Some (Ok (with_stack s (SE (call (table s) f v) :: st')))
    | SE v :: SCh _ :: st' => Some (Ok (with_stack s (SE v :: st')))
    | _ => None
    end
  else if is c "]" then
    match st with
    | SE v :: SCh _ :: SName f :: st' => Some (Ok (with_stack s (SE (call (table s) f v) :: st')))
    | SInt j :: SCh _ :: SInt i :: SCh _ :: SKey k :: st' =>
        Some (let* x := atoi i in let* y := atoi j in let* v := coef k x y in Ok (with_stack s (SE v :: st')))
    | SInt i :: SCh _ :: SKey k :: st' => Some (let* x := atoi i in let* v := gammapolch x in Ok (with_stack s (SE v :: st')))
    | _ => None
    end
  else if is c "}" then
    match st with
    | SEL l :: SCh _ :: st' => Some (Ok (with_stack s (SVec l :: st')))
    | SVL m :: SCh _ :: st' => Some (Ok (with_stack s (SMat m :: st')))
    | SCh d :: SCh e :: st' => if is d "}" then Some (Ok (with_stack s (SMat [] :: tl st'))) else
        if is e "{" then None else Some (Ok (with_stack s (SVec [] :: SCh e :: st')))
    | SCh d :: st' => Some (Ok (with_stack s (SVec [] :: st')))
    | _ => None
    end
  else None.
Definition reduce (s : state) : option (res state) :=
  match stack s with
  | SNum w :: st => Some (Ok (with_stack s (SE (a_strtod A w) :: st)))
  | SInt w :: st => if index_place st then None else Some (let* z := atoi w in Ok (with_stack s (SE (of_int z) :: st)))
  | SE b :: st => option_map Ok (reduce_expr s b st)
  | SCh c :: st => reduce_close s c st
  | SEL l :: SCh c :: SE v :: st => Some (Ok (with_stack s (SEL (v :: l) :: st)))
  | SVL m :: SCh c :: SVec l :: st => Some (Ok (with_stack s (SVL (l :: m) :: st)))
  | [SVec l] => Some (Ok (print s (dump_vector l)))
  | [SMat m] => Some (Ok (print s (dump_matrix m)))
  | _ => None
  end.

(** Decisions that depend on the next token. *)
Inductive action := Shift | Reduce (s : state) | Next (* the end of a statement *) | Error.
Definition tis (t : tok) (c : ascii) : bool := match t with TCh d => Ascii.eqb d c | _ => false end.
Definition tmul (t : tok) : bool := tis t "*" || tis t "/".
Definition top (t : tok) : bool := tmul t || tis t "+" || tis t "-".
Definition starts (t : tok) : bool :=
  match t with TNum _ | TInt _ | TName _ | TKey _ => true | TCh c => is c "-" || is c "(" | _ => false end.
Definition shift_if (b : bool) : action := if b then Shift else Error.
Definition or_reduce (b : bool) (s : state) : action := if b then Shift else Reduce s.
Definition act_expr (s : state) (v : V) (st : list sym) (t : tok) : action :=
  match st with
  | [] => or_reduce (top t) (print s (fmt v ++ [newline]))
  | [SCh _; SName x] as l =>
      if match l with SCh c :: _ => is c "=" | _ => false end then
        or_reduce (top t) {| stack := [SStmt]; table := assign (table s) x v; output := output s; begun := begun s |}
      else shift_if (top t || tis t (match l with SCh c :: _ => if is c "(" then ")" else "]" | _ => ")" end))
  | SCh c :: SE a :: st' =>
      if is c "+" then or_reduce (tmul t) (with_stack s (SE (a_add A a v) :: st')) else
      if is c "-" then or_reduce (tmul t) (with_stack s (SE (a_sub A a v) :: st')) else
      or_reduce (top t || tis t ",") (with_stack s (SEL [v] :: st))
  | SCh c :: _ =>
      if is c "(" then shift_if (top t || tis t ")") else
      if is c "[" then shift_if (top t || tis t "]") else
      or_reduce (top t || tis t ",") (with_stack s (SEL [v] :: st))
  | _ => Error
  end.
Definition act_char (s : state) (c : ascii) (st : list sym) (t : tok) : action :=
  if is c "{" then
    match st with [] => shift_if (starts t || tis t "{" || tis t "}") | _ => shift_if (starts t || tis t "}") end
  else if is c "}" then
    match st with
    | SCh _ :: st' => or_reduce (tis t "}") (with_stack s (SVec [] :: st'))
    | _ => Error
    end
  else if is c "[" then
    match st with SKey _ :: _ => shift_if (match t with TInt _ => true | _ => false end) | _ => shift_if (starts t) end
  else if is c "," then
    match st with
    | SInt _ :: _ => shift_if (match t with TInt _ => true | _ => false end)
    | SVec _ :: _ => shift_if (tis t "{")
    | _ => shift_if (starts t)
    end
  else shift_if (starts t).
Definition act (s : state) (t : tok) : action :=
  match stack s with
  | [] => if tis t newline then Next else shift_if (starts t || tis t "{")
  | [SStmt] => if tis t newline then Next else Error
  | SName x :: st =>
      or_reduce (tis t "(" || tis t "[" || (tis t "=" && match st with [] => true | _ => false end))
        (with_stack s (SE (value_in (table s) x) :: st))
  | SE v :: st => act_expr s v st t
  | SKey _ :: _ => shift_if (tis t "[")
  | SInt _ :: SCh _ :: SKey KGamma :: _ => shift_if (tis t "]")
  | SInt _ :: SCh _ :: SKey _ :: _ => shift_if (tis t ",")
  | SInt _ :: _ => shift_if (tis t "]")
  | SEL _ :: _ => shift_if (tis t "}")
  | SVec l :: st => or_reduce (tis t ",") (with_stack s (SVL [l] :: st))
  | SVL _ :: _ => shift_if (tis t "}")
  | SCh c :: st => act_char s c st t
  | _ => Error
  end.

(** The symbol of a token; a name is looked up in the table (matrix.ll:84). The scanner does it when it reads the token, the model
    when the parser shifts it. *)
Definition push (s : state) (t : tok) : option state :=
  match t with
  | TNum w => Some (with_stack s (SNum w :: stack s))
  | TInt w => Some (with_stack s (SInt w :: stack s))
  | TKey k => Some (with_stack s (SKey k :: stack s))
  | TCh c => Some (with_stack s (SCh c :: stack s))
  | TName x => match symlook (table s) x with
      | Some sy => Some {| stack := SName x :: stack s; table := sy; output := output s; begun := begun s |}
      | None => None
      end
  | _ => None
  end.

(** How the program ends. A syntax error ends yyparse, and main ignores its result (368): the exit status is 0 as after
    [Finished]. [Exit] is exit(1), [Abort] a failed assertion. *)
Inductive ending := Finished | Syntax | Exit | Abort | Undefined | Shell | Include.
Definition next_state (s : state) : state := {| stack := []; table := table s; output := output s; begun := true |}.
Definition step (s : state) (ts : list tok) : (state * list tok) + ending :=
  match reduce s with
  | Some (Ok s') => inl (s', ts)
  | Some Throw => inr Abort
  | Some UB => inr Undefined
  | None =>
    match ts with
    | [] => inr Undefined (* the scanner always gives a last token *)
    | TMismatch :: _ => inr Exit
    | TShell :: _ => inr Shell
    | TInclude :: _ => inr Include
    | t :: ts' =>
        match t, stack s, begun s with
        | TEnd, [], true => inr Finished
        | _, _, _ =>
          match act s t with
          | Shift => match push s t with Some s' => inl (s', ts') | None => inr Exit end
          | Reduce s' => inl (s', ts)
          | Next => inl (next_state s, ts')
          | Error => inr Syntax
          end
        end
    end
  end.
Fixpoint run (n : nat) (s : state) (ts : list tok) : option (text * ending) :=
  match n with O => None | S n =>
    match step s ts with inl (s', ts') => run n s' ts' | inr e => Some (output s, e) end
  end.
Definition initial : state := {| stack := []; table := start_table; output := []; begun := false |}.
(** The tool on the text s writes the text [fst o] and ends with [snd o]. *)
Definition tool (s : text) (o : text * ending) : Prop := exists n, run n initial (tokens s) = Some o.
End Parser.
