(** Specification for C34: the language of matrix templates, its syntax trees and their meaning. *)
From Coq Require Import List ZArith Bool Ascii String.
From Verif Require Import Base Params_model Template_model.
Import ListNotations.
Local Open Scope list_scope.

(** * Tokens *)
Definition all_are (p : ascii -> bool) (w : text) : Prop := Forall (fun c => p c = true) w.
(** White space and comments. *)
Inductive ignorable : text -> Prop :=
| Ig_nil : ignorable []
| Ig_space c w : isspace c = true -> ignorable w -> ignorable (c :: w)
| Ig_comment c w : ~ In newline c -> ignorable w -> ignorable ("#"%char :: c ++ newline :: w).
(** At the end of the text a comment need not be ended by a newline. *)
Definition trailing (w : text) : Prop := exists i c, ignorable i /\ ~ In newline c /\ (w = i \/ w = i ++ "#"%char :: c).
Definition identifier (w : text) : Prop :=
  exists c t, w = c :: t /\ (isalpha c = true \/ c = "_"%char) /\ Forall (fun d => isalnum d = true \/ d = "_"%char) t.
(** Numbers: digits with an optional point and an optional exponent. *)
Definition digits_with_point (p : ascii -> bool) (w : text) : Prop :=
  (w <> [] /\ all_are p w) \/ exists a b, w = a ++ "."%char :: b /\ a ++ b <> [] /\ all_are p a /\ all_are p b.
Definition exponent_part (e E : ascii) (w : text) : Prop :=
  w = [] \/ exists c s d, w = c :: s ++ d /\ (c = e \/ c = E) /\ (s = [] \/ s = ["+"%char] \/ s = ["-"%char]) /\ d <> [] /\ all_are isdigit d.
Definition decimal (w : text) : Prop := exists m x, w = m ++ x /\ digits_with_point isdigit m /\ exponent_part "e" "E" x.
Definition hexadecimal (w : text) : Prop := exists c m x, w = "0"%char :: c :: m ++ x /\ (c = "x"%char \/ c = "X"%char) /\
  digits_with_point isxdigit m /\ exponent_part "p" "P" x.
Definition number (w : text) : Prop := decimal w \/ hexadecimal w.

(** * Syntax trees *)
Inductive expr :=
| Num (w : text) | Var (x : text) | Call (f : text) (args : list expr)
| Pos (e : expr) | Neg (e : expr)
| Add (a b : expr) | Sub (a b : expr) | Mul (a b : expr) | Div (a b : expr).
Inductive tree := Scalar (e : expr) | Items (l : list tree).

(** * The grammar. [Expression w e]: the text w is an expression with the syntax tree e. Left-associative + - and * /, the latter
      binding more strongly, signs binding more strongly still. *)
Inductive Primary : text -> expr -> Prop :=
| P_paren i w j e : ignorable i -> Expression w e -> ignorable j -> Primary (i ++ "("%char :: w ++ j ++ [")"%char]) e
| P_call i f j o c w l : ignorable i -> identifier f -> ignorable j ->
    ((o, c) = ("("%char, ")"%char) \/ (o, c) = ("["%char, "]"%char)) -> Arguments_ w l -> Primary (i ++ f ++ j ++ o :: w ++ [c]) (Call f l)
| P_var i x : ignorable i -> identifier x -> Primary (i ++ x) (Var x)
| P_num i w : ignorable i -> number w -> Primary (i ++ w) (Num w)
with Unary : text -> expr -> Prop :=
| U_primary w e : Primary w e -> Unary w e
| U_pos i w e : ignorable i -> Unary w e -> Unary (i ++ "+"%char :: w) (Pos e)
| U_neg i w e : ignorable i -> Unary w e -> Unary (i ++ "-"%char :: w) (Neg e)
with Product : text -> expr -> Prop :=
| R_unary w e : Unary w e -> Product w e
| R_mul v a i w b : Product v a -> ignorable i -> Unary w b -> Product (v ++ i ++ "*"%char :: w) (Mul a b)
| R_div v a i w b : Product v a -> ignorable i -> Unary w b -> Product (v ++ i ++ "/"%char :: w) (Div a b)
with Expression : text -> expr -> Prop :=
| E_product w e : Product w e -> Expression w e
| E_add v a i w b : Expression v a -> ignorable i -> Product w b -> Expression (v ++ i ++ "+"%char :: w) (Add a b)
| E_sub v a i w b : Expression v a -> ignorable i -> Product w b -> Expression (v ++ i ++ "-"%char :: w) (Sub a b)
with Arguments_ : text -> list expr -> Prop :=
| A_none i : ignorable i -> Arguments_ i []
| A_some w l : Arguments1 w l -> Arguments_ w l
with Arguments1 : text -> list expr -> Prop :=
| A_one w e i : Expression w e -> ignorable i -> Arguments1 (w ++ i) [e]
| A_more w e i v l : Expression w e -> ignorable i -> Arguments1 v l -> Arguments1 (w ++ i ++ ","%char :: v) (e :: l).

Inductive Value : text -> tree -> Prop :=
| V_scalar w e : Expression w e -> Value w (Scalar e)
| V_empty i j : ignorable i -> ignorable j -> Value (i ++ "{"%char :: j ++ ["}"%char]) (Items [])
| V_list i w l : ignorable i -> Values w l -> Value (i ++ "{"%char :: w ++ ["}"%char]) (Items l)
with Values : text -> list tree -> Prop :=
| L_one w e i : Value w e -> ignorable i -> Values (w ++ i) [e]
| L_more w e i v l : Value w e -> ignorable i -> Values v l -> Values (w ++ i ++ ","%char :: v) (e :: l).

Definition Template (s : text) (t : tree) : Prop := exists w z, s = w ++ z /\ Value w t /\ trailing z.

(** * Meaning *)
Section Meaning.
Context {V : Type} (M : interp V).
(** Subexpressions are evaluated from left to right; the first failure is the result. *)
Fixpoint eval (e : expr) : res V :=
  match e with
  | Num w => i_num M w
  | Var x => i_var M x
  | Call f l => let* vs := (fix evals l := match l with [] => Ok [] | e :: t => let* v := eval e in let* vs := evals t in Ok (v :: vs) end) l in
      i_call M f vs
  | Pos e => eval e
  | Neg e => let* v := eval e in Ok (i_neg M v)
  | Add a b => let* x := eval a in let* y := eval b in Ok (i_add M x y)
  | Sub a b => let* x := eval a in let* y := eval b in Ok (i_sub M x y)
  | Mul a b => let* x := eval a in let* y := eval b in Ok (i_mul M x y)
  | Div a b => let* x := eval a in let* y := eval b in i_div M x y
  end.
Definition row_of (t : tree) : option (list expr) :=
  match t with
  | Scalar _ => None
  | Items l => fold_right (fun t o => match t, o with Scalar e, Some es => Some (e :: es) | _, _ => None end) (Some []) l
  end.
(** The rows of expressions denoted by a tree: a number, a row, or rows of equal length. *)
Definition rows_of (t : tree) : option (list (list expr)) :=
  match t with
  | Scalar e => Some [[e]]
  | Items [] => Some []
  | Items (Scalar e :: l) => match row_of t with Some r => Some [r] | None => None end
  | Items (Items l0 :: l) =>
      let rs := map row_of (Items l0 :: l) in
      if forallb (fun o => match o with Some r => Nat.eqb (List.length r) (List.length l0) | None => false end) rs
      then Some (map (fun o => match o with Some r => r | None => [] end) rs) else None
  end.
Definition columns_of (t : tree) : nat :=
  match t with Scalar _ => 1 | Items [] => 0 | Items (Scalar e :: l) => S (List.length l) | Items (Items l0 :: _) => List.length l0 end.
(** The expressions of a tree in the order of the text. *)
Fixpoint leaves (t : tree) : list expr :=
  match t with
  | Scalar e => [e]
  | Items l => (fix all l := match l with [] => [] | t :: r => leaves t ++ all r end) l
  end.
(** The matrix denoted by a tree: every expression is evaluated in turn, then the shape is checked. *)
Definition denote (t : tree) : res (matrix (V := V)) :=
  let* _ := mapM eval (leaves t) in
  match rows_of t with
  | None => Throw
  | Some rows => let* m := mapM (mapM eval) rows in Ok (Build_matrix (List.length rows) (columns_of t) m)
  end.
End Meaning.

(** * Printing with the fewest parentheses *)
Fixpoint show_at (level : nat) (e : expr) : text :=
  let par (p : nat) (w : text) := if Nat.ltb p level then "("%char :: w ++ [")"%char] else w in
  match e with
  | Num w => w
  | Var x => x
  | Call f l => f ++ "["%char :: (fix shows l := match l with [] => [] | [e] => show_at 0 e | e :: t => show_at 0 e ++ ","%char :: shows t end) l ++ ["]"%char]
  | Pos e => par 2 ("+"%char :: show_at 2 e)
  | Neg e => par 2 ("-"%char :: show_at 2 e)
  | Add a b => par 0 (show_at 0 a ++ "+"%char :: show_at 1 b)
  | Sub a b => par 0 (show_at 0 a ++ "-"%char :: show_at 1 b)
  | Mul a b => par 1 (show_at 1 a ++ "*"%char :: show_at 2 b)
  | Div a b => par 1 (show_at 1 a ++ "/"%char :: show_at 2 b)
  end.
Definition show : expr -> text := show_at 0.
(** Trees whose names and numbers are names and numbers. *)
Inductive proper : expr -> Prop :=
| Pr_num w : number w -> proper (Num w)
| Pr_var x : identifier x -> proper (Var x)
| Pr_call f l : identifier f -> Forall proper l -> proper (Call f l)
| Pr_pos e : proper e -> proper (Pos e)
| Pr_neg e : proper e -> proper (Neg e)
| Pr_add a b : proper a -> proper b -> proper (Add a b)
| Pr_sub a b : proper a -> proper b -> proper (Sub a b)
| Pr_mul a b : proper a -> proper b -> proper (Mul a b)
| Pr_div a b : proper a -> proper b -> proper (Div a b).

(** * The vocabulary of the program *)
Section Vocabulary.
Context {V : Type} (A : arith V) (X : context V).
(** Channel number ch, counted from 1. *)
Definition channel_at (ch : Z) (c : channel_data V) : Prop := exists l r, channels X = l ++ c :: r /\ ch = (Z.of_nat (List.length l) + 1)%Z.
(** Element number i, counted from 0. *)
Definition element_at (xs : list V) (i : Z) (x : V) : Prop := exists l r, xs = l ++ x :: r /\ i = Z.of_nat (List.length l).
(** [value_of e v]: the expression e has the value v. *)
Inductive value_of : expr -> V -> Prop :=
| Vl_num w : a_finite A (a_strtod A w) = true -> value_of (Num w) (a_strtod A w)
| Vl_Pi : value_of (Var (str "Pi")) (a_pi A)
| Vl_pi : value_of (Var (str "pi")) (a_pi A)
| Vl_var x v : x <> str "Pi" -> x <> str "pi" -> x <> str "parse" -> In (x, v) (variables X) -> value_of (Var x) v
| Vl_pos e v : value_of e v -> value_of (Pos e) v
| Vl_neg e v : value_of e v -> value_of (Neg e) (a_neg A v)
| Vl_add a b v w : value_of a v -> value_of b w -> value_of (Add a b) (a_add A v w)
| Vl_sub a b v w : value_of a v -> value_of b w -> value_of (Sub a b) (a_sub A v w)
| Vl_mul a b v w : value_of a v -> value_of b w -> value_of (Mul a b) (a_mul A v w)
| Vl_div a b v w : value_of a v -> value_of b w -> a_is_zero A w = false -> value_of (Div a b) (a_div A v w)
| Vl_sqrt f e v : In f [str "Sqrt"; str "sqrt"] -> value_of e v -> value_of (Call f [e]) (a_sqrt A v)
| Vl_exp e v : value_of e v -> value_of (Call (str "exp") [e]) (a_exp A v)
| Vl_log e v : value_of e v -> value_of (Call (str "log") [e]) (a_log A v)
| Vl_conj e v : value_of e v -> value_of (Call (str "Conjugate") [e]) v
| Vl_gamma e v ch c : value_of e v -> a_integral A v = Ok ch -> channel_at ch c ->
    value_of (Call (str "gammaPolCh") [e]) (a_sqrt A (a_div A (c_theta c) (a_pi A)))
| Vl_xi e1 e2 v1 v2 ch i c x : value_of e1 v1 -> value_of e2 v2 -> a_integral A v1 = Ok ch -> a_integral A v2 = Ok i ->
    channel_at ch c -> element_at (c_xi c) i x -> value_of (Call (str "coefxi") [e1; e2]) x
| Vl_zeta e1 e2 v1 v2 ch i c x : value_of e1 v1 -> value_of e2 v2 -> a_integral A v1 = Ok ch -> a_integral A v2 = Ok i ->
    channel_at ch c -> element_at (c_zeta c) i x -> value_of (Call (str "coefzeta") [e1; e2]) x.
End Vocabulary.
