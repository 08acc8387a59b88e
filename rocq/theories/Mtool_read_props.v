(** Property theorems C78, continued: what the tool matrix reads. *)
From Coq Require Import List ZArith QArith Bool Ascii String Lia.
From Verif Require Import Base Params_model Template_model Template_spec Template_aux Mtool_model Mtool_spec Mtool_gram Mtool_sound Mtool_complete Mtool_late Mtool_aux.
Import ListNotations.
Local Open Scope list_scope.

(** If the tool reads an input to its end, the tokens up to the end are lines of the grammar (assignments, expressions with the usual
    precedence, rows and matrices, or nothing, each before a newline), and the output is what these lines mean. *)
Theorem C78_reads : forall (V : Type) (A : arith V) (zero : V) (of_int : Z -> V) (fmt : V -> text) (prefix : text) (chains : list (@chain V)) (coupling : option (list (list V))) (s o : text),
  tool A zero of_int fmt prefix chains coupling s (o, Finished) ->
  exists w r env, tokens s = w ++ TEnd :: r /\ w <> [] /\ lines A zero of_int chains coupling fmt prefix w env o.
Proof. exact @read_all. Qed.
Print Assumptions C78_reads.
Example C78_reads_nonvacuous :
  tool rational nought integer fraction equals [channel_1] (Some []) (str "x=3" ++ newline :: str "{{x/0,-x*2},{}}  " ++ newline :: str "$#") (str "= 3/1 -6/1" ++ newline :: str "= " ++ [newline], Finished).
Proof. exists 60%nat; vm_compute; reflexivity. Qed.

(** Conversely the tool reads every input whose tokens are lines of the grammar, if they use at most 196 names. *)
Theorem C78_accepts : forall (V : Type) (A : arith V) (zero : V) (of_int : Z -> V) (fmt : V -> text) (prefix : text) (chains : list (@chain V)) (coupling : option (list (list V)))
  (names : list text) s w r env o, (List.length names <= 196)%nat -> (forall x, In (TName x) w -> In x names) -> tokens s = w ++ TEnd :: r -> w <> [] ->
  lines A zero of_int chains coupling fmt prefix w env o -> tool A zero of_int fmt prefix chains coupling s (o, Finished).
Proof. exact @read_lines. Qed.
Print Assumptions C78_accepts.
(** Such tokens have one output. *)
Theorem C78_one_reading : forall (V : Type) (A : arith V) (zero : V) (of_int : Z -> V) (fmt : V -> text) (prefix : text) (chains : list (@chain V)) (coupling : option (list (list V)))
  (names : list text) w env o env' o', (List.length names <= 196)%nat -> (forall x, In (TName x) w -> In x names) ->
  lines A zero of_int chains coupling fmt prefix w env o -> lines A zero of_int chains coupling fmt prefix w env' o' -> o = o'.
Proof. exact @one_reading. Qed.
Print Assumptions C78_one_reading.
Example C78_accepts_nonvacuous : exists w env, tokens (str "x=3" ++ newline :: str "4-x-f(x)" ++ [newline]) = w ++ [TEnd] /\ w <> [] /\ (forall x, In (TName x) w -> In x [str "x"; str "f"]) /\
  lines rational nought integer [channel_1] None fraction equals w env (str "= 1/1" ++ [newline]).
Proof.
  assert (N : forall c, (48 <= nat_of_ascii c <= 57)%nat -> numeral [c] (10 * 0 + (Z.of_nat (nat_of_ascii c) - 48))) by (intros c H; split; [apply (Dv_digit [] 0 c); constructor|lia]).
  exists (([] ++ [TName (str "x"); TCh "="; TInt (str "3")] ++ [TCh newline]) ++ ((([TInt (str "4")] ++ TCh "-" :: [TName (str "x")]) ++ TCh "-" :: [TName (str "f"); TCh "("; TName (str "x"); TCh ")"]) ++ [TCh newline])).
  eexists. split; [vm_compute; reflexivity|]. split; [discriminate|]. split; [cbn; intros x H; repeat destruct H as [H|H]; try discriminate; try contradiction; injection H as <-; tauto|].
  assert (E : str "= 1/1" ++ [newline] = ([] ++ []) ++ shown fraction equals [a_sub rational (a_sub rational (integer 4) (integer 3)) nought]) by (vm_compute; reflexivity). rewrite E. clear E.
  eapply Ln_more; [eapply Ln_more; [apply Ln_none|apply S_set, G_term, G_factor, G_int; apply (N "3"%char); cbn; lia]|].
  assert (X : forall env v, env (str "x") = v -> means rational nought integer [channel_1] None env Factor [TName (str "x")] v) by (intros env v <-; apply G_name).
  apply S_value. apply G_sub.
  - apply G_sub; [apply G_term, G_factor, G_int; apply (N "4"%char); cbn; lia|]. apply G_factor. apply X. vm_compute. reflexivity.
  - apply G_factor. apply (G_call _ _ _ _ _ _ (str "f") "("%char ")"%char [TName (str "x")] (integer 3)); [auto|apply G_term, G_factor; apply X; vm_compute; reflexivity|].
    apply Ap_other. cbn. intros H. repeat destruct H as [H|H]; try discriminate; contradiction.
Qed.

(** However a run ends, what it has written is the output of the lines before the place where it ended, and possibly of a complete
    statement there. *)
Theorem C78_prefix : forall (V : Type) (A : arith V) (zero : V) (of_int : Z -> V) (fmt : V -> text) (prefix : text) (chains : list (@chain V)) (coupling : option (list (list V))) (s o : text) (e : ending),
  tool A zero of_int fmt prefix chains coupling s (o, e) ->
  exists w u r env o1 env' o2, tokens s = w ++ u ++ r /\ lines A zero of_int chains coupling fmt prefix w env o1 /\ o = o1 ++ o2 /\
    (statement A zero of_int chains coupling fmt prefix env u env' o2 \/ o2 = []).
Proof. exact @read_prefix. Qed.
Print Assumptions C78_prefix.
Example C78_prefix_nonvacuous : tool rational nought integer fraction equals [channel_1] (Some []) (str "1+2" ++ newline :: str "{3} 4" ++ [newline]) (str "= 3/1" ++ newline :: str "= 3/1" ++ [newline], Syntax) /\
  tool rational nought integer fraction equals [channel_1] (Some []) (str "1+2" ++ newline :: str "coefxi[2,0]" ++ [newline]) (str "= 3/1" ++ [newline], Abort).
Proof. split; exists 60%nat; vm_compute; reflexivity. Qed.

(** Finding: the rest of the line after a name between brackets is read: f[x]+e has the value of the variable f plus that of e. *)
Theorem C78_heading_sum_refuted : forall (V : Type) (A : arith V) (zero : V) (of_int : Z -> V) (chains : list (@chain V)) (coupling : list (list V)) (fmt : V -> text) (prefix : text)
  (names : list text) p env o f x e v, (List.length names <= 196)%nat -> (forall y, In y (f :: flat_map line_names p ++ expr_names e) -> In y reserved \/ In y names) ->
  Forall proper_line p -> effects A of_int chains coupling fmt prefix (fun _ => zero) p env o -> free_name f -> free_name x -> readable e -> denotes A of_int chains coupling env e v ->
  tool A zero of_int fmt prefix chains (Some coupling) (input_text p ++ show (Add (Call f [Var x]) e) ++ [newline]) (o ++ shown fmt prefix [a_add A (env f) v], Finished).
Proof. exact @heading_in_sum. Qed.
Print Assumptions C78_heading_sum_refuted.
Example C78_heading_sum_nonvacuous : show (Add (Call (str "Sqrt") [Var (str "U")]) (n_ "5")) = str "Sqrt[U]+5" /\
  tool rational nought integer fraction equals [channel_1] (Some []) (str "U=4" ++ newline :: str "Sqrt[U]+5" ++ [newline]) (str "= 5/1" ++ [newline], Finished).
Proof. split; [vm_compute; reflexivity|]. exists 60%nat. vm_compute. reflexivity. Qed.

(** Finding: a comment sign is one only at the beginning of a line: after a row it ends the run. *)
Theorem C78_comment_refuted : forall (V : Type) (A : arith V) (zero : V) (of_int : Z -> V) (chains : list (@chain V)) (coupling : list (list V)) (fmt : V -> text) (prefix : text)
  (names : list text) p env o es vs, (List.length names <= 196)%nat -> (forall y, In y (flat_map line_names p ++ flat_map expr_names es) -> In y reserved \/ In y names) ->
  Forall proper_line p -> effects A of_int chains coupling fmt prefix (fun _ => zero) p env o -> Forall readable es -> Forall2 (denotes A of_int chains coupling env) es vs ->
  tool A zero of_int fmt prefix chains (Some coupling) (input_text p ++ row_text es ++ str " #" ++ [newline]) (o ++ shown fmt prefix vs, Syntax).
Proof. exact @comment_error. Qed.
Print Assumptions C78_comment_refuted.
Example C78_comment_nonvacuous : row_text [n_ "5"; Neg (Var (str "U"))] = str "{5,-U}" /\
  tool rational nought integer fraction equals [channel_1] (Some []) (str "U=4" ++ newline :: str "{5,-U} #" ++ [newline]) (str "= 5/1 -4/1" ++ [newline], Syntax).
Proof. split; [vm_compute; reflexivity|]. exists 60%nat. vm_compute. reflexivity. Qed.
