(** Specification for C78: what the lines of an input of the tool matrix mean.  Expressions and their text are those of the
    specification of C34 ([expr], [show]: fewest parentheses). *)
From Coq Require Import List ZArith Bool Ascii String.
From Verif Require Import Base Params_model Template_model Template_spec Mtool_model.
Import ListNotations.
Local Open Scope list_scope.

(** * Texts *)
(** Names begin with a letter; some words are reserved. *)
Definition reserved : list text := map str ["gammaPolCh"; "coefxi"; "coefzeta"; "coefdelta"; "coefkappa"; "coefV"; "parse"]%string.
Definition name_text (w : text) : Prop := exists c t, w = c :: t /\ isalpha c = true /\ all_are idchar t.
Definition free_name (w : text) : Prop := name_text w /\ ~ In w reserved.
Definition digits (w : text) : Prop := w <> [] /\ all_are isdigit w.
(** Numbers with a decimal point, and one digit with an exponent. *)
Definition pointed (w : text) : Prop := exists a b x, w = a ++ "."%char :: b ++ x /\ all_are isdigit a /\ all_are isdigit b /\ exponent_part "e" "E" x.
Definition one_digit (w : text) : Prop := exists d x, w = d :: x /\ isdigit d = true /\ d <> "0"%char /\ x <> [] /\ exponent_part "e" "e" x.
Inductive decimal_value : text -> Z -> Prop :=
| Dv_nil : decimal_value [] 0
| Dv_digit w z c : decimal_value w z -> decimal_value (w ++ [c]) (10 * z + (Z.of_nat (nat_of_ascii c) - 48)).
Definition index (w : text) (i : Z) : Prop := digits w /\ decimal_value w i /\ (i <= 2147483647)%Z.

(** Expressions that the scanner can read: no sign +, no call of a function on a single name (it is taken for the heading of a
    section, see C78_heading_refuted), coefficients with written indices. *)
Inductive readable : expr -> Prop :=
| Rd_digits w : digits w -> readable (Num w)
| Rd_pointed w : pointed w -> readable (Num w)
| Rd_one w : one_digit w -> readable (Num w)
| Rd_var x : free_name x -> readable (Var x)
| Rd_call f e : free_name f -> readable e -> (forall x, e <> Var x) -> readable (Call f [e])
| Rd_gamma i : digits i -> readable (Call (str "gammaPolCh") [Num i])
| Rd_coef f i j : In f (map str ["coefxi"; "coefzeta"; "coefdelta"; "coefkappa"; "coefV"]%string) -> digits i -> digits j -> readable (Call f [Num i; Num j])
| Rd_neg e : readable e -> readable (Neg e)
| Rd_add a b : readable a -> readable b -> readable (Add a b)
| Rd_sub a b : readable a -> readable b -> readable (Sub a b)
| Rd_mul a b : readable a -> readable b -> readable (Mul a b)
| Rd_div a b : readable a -> readable b -> readable (Div a b).

(** * Values *)
Section Values.
Context {V : Type} (A : arith V) (of_int : Z -> V) (chains : list (@chain V)) (coupling : list (list V)).
Definition nth_is {B} (l : list B) (i : Z) (x : B) : Prop := exists a b, l = a ++ x :: b /\ i = Z.of_nat (List.length a).
(** [denotes env e v]: with the variables [env] the expression e has the value v. Channels count from 1, sites from 0, the rows and
    columns of the coupling from 1. *)
Inductive denotes (env : text -> V) : expr -> V -> Prop :=
| D_int w i : index w i -> denotes env (Num w) (of_int i)
| D_pointed w : pointed w -> denotes env (Num w) (a_strtod A w)
| D_one w : one_digit w -> denotes env (Num w) (a_strtod A w)
| D_var x : denotes env (Var x) (env x)
| D_sqrt f e v : In f [str "Sqrt"; str "sqrt"] -> denotes env e v -> denotes env (Call f [e]) (a_sqrt A v)
| D_exp e v : denotes env e v -> denotes env (Call (str "exp") [e]) (a_exp A v)
| D_log e v : denotes env e v -> denotes env (Call (str "log") [e]) (a_log A v)
| D_neg e v : denotes env e v -> denotes env (Neg e) (a_neg A v)
| D_add a b v w : denotes env a v -> denotes env b w -> denotes env (Add a b) (a_add A v w)
| D_sub a b v w : denotes env a v -> denotes env b w -> denotes env (Sub a b) (a_sub A v w)
| D_mul a b v w : denotes env a v -> denotes env b w -> denotes env (Mul a b) (a_mul A v w)
| D_div a b v w : denotes env a v -> denotes env b w -> a_is_zero A w = false -> denotes env (Div a b) (a_div A v w)
| D_gamma w i c : index w i -> nth_is chains (i - 1) c -> denotes env (Call (str "gammaPolCh") [Num w]) (a_sqrt A (a_div A (theta c) (a_pi A)))
| D_xi w u i j c x : index w i -> index u j -> nth_is chains (i - 1) c -> nth_is (xi c) j x -> denotes env (Call (str "coefxi") [Num w; Num u]) x
| D_zeta w u i j c x : index w i -> index u j -> nth_is chains (i - 1) c -> nth_is (zeta c) j x -> denotes env (Call (str "coefzeta") [Num w; Num u]) x
| D_delta w u i j c x : index w i -> index u j -> nth_is chains (i - 1) c -> nth_is (delta c) j x -> denotes env (Call (str "coefdelta") [Num w; Num u]) x
| D_kappa w u i j c x : index w i -> index u j -> nth_is chains (i - 1) c -> nth_is (kappa c) j x -> denotes env (Call (str "coefkappa") [Num w; Num u]) x
| D_V w u i j r x : index w i -> index u j -> nth_is coupling (i - 1) r -> nth_is r (j - 1) x -> denotes env (Call (str "coefV") [Num w; Num u]) x.

(** * Lines *)
Inductive line :=
| Value_ (e : expr)                            (* an expression *)
| Set_ (x gap : text) (e : expr)               (* x = e *)
| Row_ (es : list expr)                        (* {a,b,c} *)
| Rows_ (gap : text) (rows : list (list expr)) (* {{a,b},{c,d}}, possibly on several lines *)
| Remark (w : text)                            (* # w *)
| Heading (x : text)                           (* [x] *)
| Words (x w : text)                           (* x=w with a text w *)
| Empty.
Definition concat_with (sep : text) : list text -> text :=
  fix go l := match l with [] => [] | [w] => w | w :: t => w ++ sep ++ go t end.
Definition row_text (es : list expr) : text := "{"%char :: concat_with [","%char] (map show es) ++ ["}"%char].
Definition line_text (l : line) : text :=
  match l with
  | Value_ e => show e
  | Set_ x gap e => x ++ gap ++ "="%char :: gap ++ show e
  | Row_ es => row_text es
  | Rows_ gap rows => "{"%char :: concat_with (","%char :: gap) (map row_text rows) ++ ["}"%char]
  | Remark w => "#"%char :: w
  | Heading x => "["%char :: x ++ ["]"%char]
  | Words x w => x ++ "="%char :: w
  | Empty => []
  end.
Definition input_text (p : list line) : text := flat_map (fun l => line_text l ++ [newline]) p.
Definition starts_with_letter (w : text) : Prop := exists c t, w = c :: t /\ isalpha c = true.
Definition proper_line (l : line) : Prop :=
  match l with
  | Value_ e => readable e
  | Set_ x gap e => free_name x /\ readable e /\ Forall (fun c => c = " "%char \/ c = "009"%char) gap /\ (gap <> [] \/ ~ starts_with_letter (show e))
  | Row_ es => Forall readable es
  | Rows_ gap rows => Forall (Forall readable) rows /\ rows <> [] /\ rows <> [[]] /\ Forall (fun c => c = " "%char \/ c = "009"%char \/ c = newline) gap
  | Remark w => ~ In newline w
  | Heading x => name_text x
  | Words x w => name_text x /\ starts_with_letter w /\ ~ In newline w
  | Empty => True
  end.
(** The output: every row on a line of its own that begins with the prefix, the numbers separated by spaces. *)
Context (fmt : V -> text) (prefix : text).
Definition shown (r : list V) : text := prefix ++ concat_with [" "%char] (map fmt r) ++ [newline].
Definition update (env : text -> V) (x : text) (v : V) : text -> V := fun y => if text_eqb y x then v else env y.
(** [effect env l env' out]: the line l changes the variables from env to env' and writes out. *)
Inductive effect (env : text -> V) : line -> (text -> V) -> text -> Prop :=
| Ef_value e v : denotes env e v -> effect env (Value_ e) env (shown [v])
| Ef_set x gap e v : denotes env e v -> effect env (Set_ x gap e) (update env x v) []
| Ef_row es vs : Forall2 (denotes env) es vs -> effect env (Row_ es) env (shown vs)
| Ef_rows gap rows vss : Forall2 (Forall2 (denotes env)) rows vss -> effect env (Rows_ gap rows) env (flat_map shown vss)
| Ef_remark w : effect env (Remark w) env []
| Ef_heading x : effect env (Heading x) env []
| Ef_words x w : effect env (Words x w) env []
| Ef_empty : effect env Empty env [].
Inductive effects : (text -> V) -> list line -> (text -> V) -> text -> Prop :=
| Es_nil env : effects env [] env []
| Es_cons env l env' o p env'' o' : effect env l env' o -> effects env' p env'' o' -> effects env (l :: p) env'' (o ++ o').
End Values.

(** The names that a line uses. *)
Fixpoint expr_names (e : expr) : list text :=
  match e with
  | Num _ => []
  | Var x => [x]
  | Call f l => f :: (fix all l := match l with [] => [] | e :: t => expr_names e ++ all t end) l
  | Pos e | Neg e => expr_names e
  | Add a b | Sub a b | Mul a b | Div a b => expr_names a ++ expr_names b
  end.
Definition line_names (l : line) : list text :=
  match l with
  | Value_ e => expr_names e
  | Set_ x _ e => x :: expr_names e
  | Row_ es => flat_map expr_names es
  | Rows_ _ rows => flat_map (flat_map expr_names) rows
  | _ => []
  end.
