(** Model of the evaluator of matrix templates, /repo/tools/instantiate/matrix_evaluator.hpp.
    The input is the list of characters not yet read; line and column numbers and the wording of messages are omitted.
    Arithmetic is an argument ([interp]), so that the theorems hold for doubles as well as for real numbers. *)
From Coq Require Import List ZArith Bool Ascii String.
From Verif Require Import Base Params_model.
Import ListNotations.
Local Open Scope list_scope.

(** ctype.h in the C locale. *)
Definition between (a b : nat) (c : ascii) : bool := Nat.leb a (nat_of_ascii c) && Nat.leb (nat_of_ascii c) b.
Definition isdigit : ascii -> bool := between 48 57.
Definition isalpha (c : ascii) : bool := between 65 90 c || between 97 122 c.
Definition isalnum (c : ascii) : bool := isalpha c || isdigit c.
Definition isxdigit (c : ascii) : bool := isdigit c || between 65 70 c || between 97 102 c.

(** matrix_evaluator.hpp:65-71 skip_ignored: white space, and comments up to the end of the line. (The newline that ends a comment
    is white space and is skipped in the next round.) *)
Fixpoint skip_ignored (s : text) : text :=
  match s with
  | [] => []
  | c :: t => if isspace c then skip_ignored t else if Ascii.eqb c "#" then skip_comment t else s
  end
with skip_comment (s : text) : text :=
  match s with
  | [] => []
  | c :: t => if Ascii.eqb c newline then skip_ignored t else skip_comment t
  end.
(** 73-78 consume: the position moves past the ignored text even when the character is not there. [peek] gives a null character at
    the end of the input, which is never the expected one. *)
Definition consume (c : ascii) (s : text) : bool * text :=
  match skip_ignored s with
  | d :: t => if Ascii.eqb d c then (true, t) else (false, d :: t)
  | [] => (false, [])
  end.
(** 84-87 starts_identifier *)
Definition starts_identifier (s : text) : bool :=
  match s with [] => false | c :: _ => isalpha c || Ascii.eqb c "_" end.
(** The longest prefix of characters satisfying p, and the rest. *)
Fixpoint span (p : ascii -> bool) (s : text) : text * text :=
  match s with
  | [] => ([], [])
  | c :: t => if p c then let '(a, b) := span p t in (c :: a, b) else ([], s)
  end.
Definition idchar (c : ascii) : bool := isalnum c || Ascii.eqb c "_".
(** 89-99 parse_identifier, after the tests made by its only caller (171-178). *)
Definition parse_identifier (s : text) : text * text := span idchar s.

(** The text accepted by std::strtod (C11 7.22.1.3): the longest prefix that is a decimal or hexadecimal floating constant.
    Leading white space, signs, and words (inf, nan) are not included: parse_number (101-110) is reached only through parse_unary
    and parse_primary, which have dealt with those characters. *)
Definition mantissa (p : ascii -> bool) (s : text) : option (text * text) :=
  let '(a, t) := span p s in
  match t with
  | c :: u => if Ascii.eqb c "." then
        let '(b, v) := span p u in
        match a, b with [], [] => None | _, _ => Some (a ++ c :: b, v) end
      else match a with [] => None | _ => Some (a, t) end
  | [] => match a with [] => None | _ => Some (a, t) end
  end.
Definition exponent (e E : ascii) (s : text) : text * text :=
  match s with
  | c :: t => if Ascii.eqb c e || Ascii.eqb c E then
        let '(sign, u) := match t with g :: u => if Ascii.eqb g "+" || Ascii.eqb g "-" then ([g], u) else ([], t) | [] => ([], t) end in
        let '(d, v) := span isdigit u in
        match d with [] => ([], s) | _ => (c :: sign ++ d, v) end
      else ([], s)
  | [] => ([], [])
  end.
Definition take_decimal (s : text) : option (text * text) :=
  match mantissa isdigit s with
  | Some (m, t) => let '(x, u) := exponent "e" "E" t in Some (m ++ x, u)
  | None => None
  end.
Definition take_number (s : text) : option (text * text) :=
  match s with
  | z :: x :: t => if Ascii.eqb z "0" && (Ascii.eqb x "x" || Ascii.eqb x "X") then
        match mantissa isxdigit t with
        | Some (m, u) => let '(e, v) := exponent "p" "P" u in Some (z :: x :: m ++ e, v)
        | None => take_decimal s
        end
      else take_decimal s
  | _ => take_decimal s
  end.

(** Meaning of the elements of a template: numbers, variables, functions and operators.  Each may fail. *)
Record interp (V : Type) := {
  i_num : text -> res V;
  i_var : text -> res V;
  i_call : text -> list V -> res V;
  i_neg : V -> V;
  i_add : V -> V -> V;
  i_sub : V -> V -> V;
  i_mul : V -> V -> V;
  i_div : V -> V -> res V
}.
Arguments i_num {V}. Arguments i_var {V}. Arguments i_call {V}. Arguments i_neg {V}. Arguments i_add {V}. Arguments i_sub {V}.
Arguments i_mul {V}. Arguments i_div {V}.

(** Result of a recursive function run with a bound on the depth of recursion: None when the bound is exceeded. *)
Notation run A := (option (res A)).
Definition rbind {A B} (r : run A) (f : A -> run B) : run B :=
  match r with Some (Ok a) => f a | Some Throw => Some Throw | Some UB => Some UB | None => None end.
Notation "'let?' x ':=' r 'in' k" := (rbind r (fun x => k)) (at level 61, x pattern, r at next level, right associativity).

Section Parser.
Context {V : Type} (M : interp V).

(** 101-110 parse_number *)
Definition parse_number (s : text) : res (V * text) :=
  match take_number (skip_ignored s) with
  | None => Throw
  | Some (w, t) => let* v := i_num M w in Ok (v, t)
  end.

Fixpoint parse_expression (n : nat) (s : text) {struct n} : run (V * text) := (* 210-221, the loop is [sum_loop] *)
  match n with O => None | S n =>
    let? (v, s) := parse_product n s in sum_loop n v s
  end
with sum_loop (n : nat) (v : V) (s : text) {struct n} : run (V * text) :=
  match n with O => None | S n =>
    match consume "+" s with
    | (true, s) => let? (w, s) := parse_product n s in sum_loop n (i_add M v w) s
    | (false, s) => match consume "-" s with
        | (true, s) => let? (w, s) := parse_product n s in sum_loop n (i_sub M v w) s
        | (false, s) => Some (Ok (v, s))
        end
    end
  end
with parse_product (n : nat) (s : text) {struct n} : run (V * text) := (* 195-208, the loop is [product_loop] *)
  match n with O => None | S n =>
    let? (v, s) := parse_unary n s in product_loop n v s
  end
with product_loop (n : nat) (v : V) (s : text) {struct n} : run (V * text) :=
  match n with O => None | S n =>
    match consume "*" s with
    | (true, s) => let? (w, s) := parse_unary n s in product_loop n (i_mul M v w) s
    | (false, s) => match consume "/" s with
        | (true, s) => let? (w, s) := parse_unary n s in let? q := Some (i_div M v w) in product_loop n q s
        | (false, s) => Some (Ok (v, s))
        end
    end
  end
with parse_unary (n : nat) (s : text) {struct n} : run (V * text) := (* 188-193 *)
  match n with O => None | S n =>
    match consume "+" (skip_ignored s) with
    | (true, s) => parse_unary n s
    | (false, s) => match consume "-" s with
        | (true, s) => let? (v, s) := parse_unary n s in Some (Ok (i_neg M v, s))
        | (false, s) => parse_primary n s
        end
    end
  end
with parse_primary (n : nat) (s : text) {struct n} : run (V * text) := (* 171-186 *)
  match n with O => None | S n =>
    match consume "(" (skip_ignored s) with
    | (true, s) => let? (v, s) := parse_expression n s in
        match consume ")" s with (true, s) => Some (Ok (v, s)) | (false, _) => Some Throw end
    | (false, s) =>
        if starts_identifier s then
          let '(name, s) := parse_identifier s in
          match consume "(" s with
          | (true, s) => let? (args, s) := parse_arguments n ")" s in let? v := Some (i_call M name args) in Some (Ok (v, s))
          | (false, s) => match consume "[" s with
              | (true, s) => let? (args, s) := parse_arguments n "]" s in let? v := Some (i_call M name args) in Some (Ok (v, s))
              | (false, s) => let? v := Some (i_var M name) in Some (Ok (v, s))
              end
          end
        else Some (parse_number s)
    end
  end
with parse_arguments (n : nat) (closing : ascii) (s : text) {struct n} : run (list V * text) := (* 160-169 *)
  match n with O => None | S n =>
    match consume closing (skip_ignored s) with
    | (true, s) => Some (Ok ([], s))
    | (false, s) => argument_loop n closing s
    end
  end
with argument_loop (n : nat) (closing : ascii) (s : text) {struct n} : run (list V * text) :=
  match n with O => None | S n =>
    let? (v, s) := parse_expression n s in
    match consume closing s with
    | (true, s) => Some (Ok ([v], s))
    | (false, s) => match consume "," s with
        | (true, s) => let? (vs, s) := argument_loop n closing s in Some (Ok (v :: vs, s))
        | (false, _) => Some Throw
        end
    end
  end.

(** 29-36 Value *)
Inductive value := VScalar (x : V) | VList (items : list value).

(** 223-235 parse_value *)
Fixpoint parse_value (n : nat) (s : text) {struct n} : run (value * text) :=
  match n with O => None | S n =>
    match consume "{" (skip_ignored s) with
    | (false, s) => let? (v, s) := parse_expression n s in Some (Ok (VScalar v, s))
    | (true, s) => match consume "}" (skip_ignored s) with
        | (true, s) => Some (Ok (VList [], s))
        | (false, s) => let? (vs, s) := item_loop n s in Some (Ok (VList vs, s))
        end
    end
  end
with item_loop (n : nat) (s : text) {struct n} : run (list value * text) :=
  match n with O => None | S n =>
    let? (v, s) := parse_value n s in
    match consume "}" s with
    | (true, s) => Some (Ok ([v], s))
    | (false, s) => match consume "," s with
        | (true, s) => let? (vs, s) := item_loop n s in Some (Ok (v :: vs, s))
        | (false, _) => Some Throw
        end
    end
  end.

(** A matrix: numbers of rows and columns, and the rows. *)
Record matrix := { m_rows : nat; m_cols : nat; m_elements : list (list V) }.
(** 237-240 scalar *)
Definition scalar (v : value) : res V := match v with VScalar x => Ok x | VList _ => Throw end.
(** 242-265 to_matrix *)
Definition to_matrix (v : value) : res matrix :=
  match v with
  | VScalar x => Ok {| m_rows := 1; m_cols := 1; m_elements := [[x]] |}
  | VList [] => Ok {| m_rows := 0; m_cols := 0; m_elements := [] |}
  | VList (VScalar x :: t) =>
      let* row := mapM scalar (VScalar x :: t) in Ok {| m_rows := 1; m_cols := List.length (VScalar x :: t); m_elements := [row] |}
  | VList (VList first :: t) =>
      let cols := List.length first in
      let* rows := mapM (fun r => match r with
        | VScalar _ => Throw
        | VList items => if Nat.eqb (List.length items) cols then mapM scalar items else Throw
        end) (VList first :: t) in
      Ok {| m_rows := List.length (VList first :: t); m_cols := cols; m_elements := rows |}
  end.

(** 267-280 reject_shell_escapes: lines are split at newlines. *)
Fixpoint lines_of (s : text) : list text :=
  match s with
  | [] => [[]]
  | c :: t => if Ascii.eqb c newline then [] :: lines_of t else
      match lines_of t with l :: ls => (c :: l) :: ls | [] => [[c]] end
  end.
Definition isblank (c : ascii) : bool := Ascii.eqb c " " || Ascii.eqb c "009" || Ascii.eqb c "013".
Definition shell_escape (line : text) : bool :=
  match snd (span isblank line) with c :: _ => Ascii.eqb c "!" | [] => false end.
Definition reject_shell_escapes (s : text) : res unit := if existsb shell_escape (lines_of s) then Throw else Ok tt.

(** 285-296 evaluate_matrix, with a bound n on the depth of recursion. *)
Definition evaluate_bounded (n : nat) (s : text) : run matrix :=
  let? _ := Some (reject_shell_escapes s) in
  let? (v, s) := parse_value n s in
  match skip_ignored s with [] => Some (to_matrix v) | _ => Some Throw end.
(** The bound used: theorem C34_depth shows that it is never reached and that the result does not depend on it. *)
Definition evaluate_matrix (s : text) : res matrix :=
  match evaluate_bounded (8 * List.length s + 16) s with Some r => r | None => UB end.

End Parser.
Arguments VScalar {V}. Arguments VList {V}. Arguments m_rows {V}. Arguments m_cols {V}. Arguments m_elements {V}.
Arguments Build_matrix {V}.

(** * The interpretation used by the program *)

(** Arithmetic: [a_strtod] converts the text of a number, [a_integral] is integral_argument (131-136): the nearest integer, an
    error when the number is not integral to 1e-12, undefined behaviour when it does not fit an int or is not a number. *)
Record arith (V : Type) := {
  a_strtod : text -> V; a_finite : V -> bool; a_pi : V;
  a_sqrt : V -> V; a_exp : V -> V; a_log : V -> V;
  a_neg : V -> V; a_add : V -> V -> V; a_sub : V -> V -> V; a_mul : V -> V -> V; a_div : V -> V -> V;
  a_is_zero : V -> bool; a_integral : V -> res Z
}.
Arguments a_strtod {V}. Arguments a_finite {V}. Arguments a_pi {V}. Arguments a_sqrt {V}. Arguments a_exp {V}. Arguments a_log {V}.
Arguments a_neg {V}. Arguments a_add {V}. Arguments a_sub {V}. Arguments a_mul {V}. Arguments a_div {V}. Arguments a_is_zero {V}.
Arguments a_integral {V}.
(** nrgchain.hpp WilsonChannel; 22-25 MatrixEvalContext *)
Record channel_data (V : Type) := { c_xi : list V; c_zeta : list V; c_theta : V }.
Arguments c_xi {V}. Arguments c_zeta {V}. Arguments c_theta {V}.
Record context (V : Type) := { variables : list (text * V); channels : list (channel_data V) }.
Arguments variables {V}. Arguments channels {V}.

Section Context.
Context {V : Type} (A : arith V) (X : context V).

(** 108: a number outside the range of doubles is an error. *)
Definition number_value (w : text) : res V := let v := a_strtod A w in if a_finite A v then Ok v else Throw.
(** 112-117 lookup_variable, and the test of 182. *)
Definition lookup_variable (name : text) : res V :=
  if text_eqb name (str "parse") then Throw else
  if text_eqb name (str "Pi") || text_eqb name (str "pi") then Ok (a_pi A) else
  match List.find (fun p => text_eqb (fst p) name) (variables X) with Some p => Ok (snd p) | None => Throw end.
(** 119-123 channel *)
Definition channel (ch : Z) : res (channel_data V) :=
  if (ch <? 1)%Z || (Z.of_nat (List.length (channels X)) <? ch)%Z then Throw else
  match nth_error (channels X) (Z.to_nat (ch - 1)) with Some c => Ok c | None => UB end.
(** 125-129 coefficient *)
Definition coefficient (values : list V) (index : Z) : res V :=
  if (index <? 0)%Z || (Z.of_nat (List.length values) <=? index)%Z then Throw else
  match nth_error values (Z.to_nat index) with Some x => Ok x | None => UB end.
(** 138-158 call_function *)
Definition call_function (name : text) (args : list V) : res V :=
  match args with
  | [x] =>
      if text_eqb name (str "Sqrt") || text_eqb name (str "sqrt") then Ok (a_sqrt A x) else
      if text_eqb name (str "exp") then Ok (a_exp A x) else
      if text_eqb name (str "log") then Ok (a_log A x) else
      if text_eqb name (str "Conjugate") then Ok x else
      if text_eqb name (str "gammaPolCh") then
        let* ch := a_integral A x in let* c := channel ch in Ok (a_sqrt A (a_div A (c_theta c) (a_pi A)))
      else Throw
  | [x; y] =>
      if text_eqb name (str "coefxi") then
        let* ch := a_integral A x in let* idx := a_integral A y in let* c := channel ch in coefficient (c_xi c) idx else
      if text_eqb name (str "coefzeta") then
        let* ch := a_integral A x in let* idx := a_integral A y in let* c := channel ch in coefficient (c_zeta c) idx
      else Throw
  | _ => Throw
  end.
(** 202: division by zero is an error. *)
Definition divide (x y : V) : res V := if a_is_zero A y then Throw else Ok (a_div A x y).
Definition program : interp V := {|
  i_num := number_value; i_var := lookup_variable; i_call := call_function; i_neg := a_neg A;
  i_add := a_add A; i_sub := a_sub A; i_mul := a_mul A; i_div := divide |}.
End Context.
