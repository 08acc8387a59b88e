(** Second specification for C78: the sequences of tokens that the tool matrix reads, with their values. *)
From Coq Require Import List ZArith Bool Ascii String.
From Verif Require Import Base Params_model Template_model Template_spec Mtool_model Mtool_spec.
Import ListNotations.
Local Open Scope char_scope.
Local Open Scope list_scope.

Section Grammar.
Context {V : Type} (A : arith V) (zero : V) (of_int : Z -> V) (chains : list (@chain V)) (coupling : option (list (list V))) (fmt : V -> text) (prefix : text).
(** The functions; a call of any other name is zero. *)
Inductive applied : text -> V -> V -> Prop :=
| Ap_sqrt f v : In f [str "Sqrt"; str "sqrt"] -> applied f v (a_sqrt A v)
| Ap_exp v : applied (str "exp") v (a_exp A v)
| Ap_log v : applied (str "log") v (a_log A v)
| Ap_other f v : ~ In f (map str ["Sqrt"; "sqrt"; "exp"; "log"]%string) -> applied f v zero.
Definition numeral (w : text) (i : Z) : Prop := decimal_value w i /\ (i <= 2147483647)%Z.
Inductive coefficient : key -> Z -> Z -> V -> Prop :=
| Co_xi i j c x : nth_is chains (i - 1) c -> nth_is (xi c) j x -> coefficient KXi i j x
| Co_zeta i j c x : nth_is chains (i - 1) c -> nth_is (zeta c) j x -> coefficient KZeta i j x
| Co_delta i j c x : nth_is chains (i - 1) c -> nth_is (delta c) j x -> coefficient KDelta i j x
| Co_kappa i j c x : nth_is chains (i - 1) c -> nth_is (kappa c) j x -> coefficient KKappa i j x
| Co_V m i j r x : coupling = Some m -> nth_is m (i - 1) r -> nth_is r (j - 1) x -> coefficient KV i j x.
(** Sums of terms, terms of factors: a minus sign binds most strongly; the quotient by zero is the dividend. *)
Inductive level := Sum | Term | Factor.
Inductive means (env : text -> V) : level -> list tok -> V -> Prop :=
| G_num w : means env Factor [TNum w] (a_strtod A w)
| G_int w i : numeral w i -> means env Factor [TInt w] (of_int i)
| G_name x : means env Factor [TName x] (env x)
| G_call f o c ts v u : (o = "(" /\ c = ")" \/ o = "[" /\ c = "]") -> means env Sum ts v -> applied f v u -> means env Factor (TName f :: TCh o :: ts ++ [TCh c]) u
| G_paren ts v : means env Sum ts v -> means env Factor (TCh "(" :: ts ++ [TCh ")"]) v
| G_gamma w i c : numeral w i -> nth_is chains (i - 1) c -> means env Factor [TKey KGamma; TCh "["; TInt w; TCh "]"] (a_sqrt A (a_div A (theta c) (a_pi A)))
| G_coef k w u i j x : numeral w i -> numeral u j -> coefficient k i j x -> means env Factor [TKey k; TCh "["; TInt w; TCh ","; TInt u; TCh "]"] x
| G_neg ts v : means env Factor ts v -> means env Factor (TCh "-" :: ts) (a_neg A v)
| G_factor ts v : means env Factor ts v -> means env Term ts v
| G_mul ts us v w : means env Term ts v -> means env Factor us w -> means env Term (ts ++ TCh "*" :: us) (a_mul A v w)
| G_div ts us v w : means env Term ts v -> means env Factor us w -> a_is_zero A w = false -> means env Term (ts ++ TCh "/" :: us) (a_div A v w)
| G_div_zero ts us v w : means env Term ts v -> means env Factor us w -> a_is_zero A w = true -> means env Term (ts ++ TCh "/" :: us) v
| G_term ts v : means env Term ts v -> means env Sum ts v
| G_add ts us v w : means env Sum ts v -> means env Term us w -> means env Sum (ts ++ TCh "+" :: us) (a_add A v w)
| G_sub ts us v w : means env Sum ts v -> means env Term us w -> means env Sum (ts ++ TCh "-" :: us) (a_sub A v w).
Inductive items (env : text -> V) : list tok -> list V -> Prop :=
| It_one ts v : means env Sum ts v -> items env ts [v]
| It_more ts v us vs : means env Sum ts v -> items env us vs -> items env (ts ++ TCh "," :: us) (v :: vs).
Inductive row (env : text -> V) : list tok -> list V -> Prop :=
| Row_none : row env [TCh "{"; TCh "}"] []
| Row_some ts vs : items env ts vs -> row env (TCh "{" :: ts ++ [TCh "}"]) vs.
Inductive rows (env : text -> V) : list tok -> list (list V) -> Prop :=
| Rw_one ts r : row env ts r -> rows env ts [r]
| Rw_more ts r us m : row env ts r -> rows env us m -> rows env (ts ++ TCh "," :: us) (r :: m).
(** A statement: the tokens of a line, the variables before and after it and what is written. *)
Inductive statement (env : text -> V) : list tok -> (text -> V) -> text -> Prop :=
| S_empty : statement env [] env []
| S_value ts v : means env Sum ts v -> statement env ts env (shown fmt prefix [v])
| S_set x ts v : means env Sum ts v -> statement env (TName x :: TCh "=" :: ts) (update env x v) []
| S_row ts r : row env ts r -> statement env ts env (shown fmt prefix r)
| S_rows ts m : rows env ts m -> m <> [[]] -> statement env (TCh "{" :: ts ++ [TCh "}"]) env (flat_map (shown fmt prefix) m)
| S_blank : statement env [TCh "{"; TCh "{"; TCh "}"; TCh "}"] env prefix.
(** Lines, each ended by a newline; all variables are zero before the first one. *)
Inductive lines : list tok -> (text -> V) -> text -> Prop :=
| Ln_none : lines [] (fun _ => zero) []
| Ln_more w env o ts env' o' : lines w env o -> statement env ts env' o' -> lines (w ++ ts ++ [TCh newline]) env' (o ++ o').
End Grammar.
