(** Property theorems C78: the tool matrix. *)
From Coq Require Import List ZArith QArith Bool Ascii String Lia.
From Verif Require Import Base Params_model Template_model Template_spec Template_aux Mtool_model Mtool_spec Mtool_parse Mtool_lines Mtool_proofs Mtool_more Mtool_aux.
Import ListNotations.
Local Open Scope list_scope.

(** An input made of assignments, expressions, rows, matrices and ignored lines gives, line by line, the values that the lines denote
    with the variables assigned so far (a name that has not been assigned is zero), and the tool reads it to the end. At most 196
    names are used, besides the four functions. *)
Theorem C78_values : forall (V : Type) (A : arith V) (zero : V) (of_int : Z -> V) (chains : list (@chain V)) (coupling : list (list V)) (fmt : V -> text) (prefix : text)
  (names : list text) (p : list line) (env : text -> V) (o : text),
  (List.length names <= 196)%nat -> (forall x, In x (flat_map line_names p) -> In x reserved \/ In x names) -> p <> [] -> Forall proper_line p ->
  effects A of_int chains coupling fmt prefix (fun _ => zero) p env o ->
  tool A zero of_int fmt prefix chains (Some coupling) (input_text p) (o, Finished).
Proof. exact @program_ok. Qed.
Print Assumptions C78_values.
Example C78_values_nonvacuous :
  (List.length input_names <= 196)%nat /\ (forall x, In x (flat_map line_names input) -> In x reserved \/ In x input_names) /\ input <> [] /\ Forall proper_line input /\
  (exists env, effects rational integer [channel_1] [] fraction equals (fun _ => nought) input env result) /\
  run rational nought integer fraction equals [channel_1] (Some []) 200 (initial rational nought) (tokens (input_text input)) = Some (result, Finished).
Proof.
  assert (D : forall c, isdigit c = true -> digits [c]) by (intros c H; split; [discriminate|constructor; auto]).
  assert (F : pointed (str "0.5")) by (exists ["0"%char], ["5"%char], []; split; [reflexivity|]; split; [repeat constructor|]; split; [repeat constructor|left; reflexivity]).
  assert (J : forall c, isdigit c = true -> index [c] (10 * 0 + (Z.of_nat (nat_of_ascii c) - 48))).
  { intros c H. split; [auto|]. split; [apply (Dv_digit [] 0 c); constructor|]. assert (nat_of_ascii c <= 57)%nat; [|lia].
    unfold isdigit, between in H. apply andb_prop in H as [_ H]. apply Nat.leb_le in H. auto. }
  assert (N : forall w, In w (map str ["U"; "V_1"; "unknown"; "Sqrt"]%string) -> free_name w).
  { intros w H. cbn [map In] in H. repeat destruct H as [<-|H]; try contradiction; (split; [eexists _, _; split; [reflexivity|]; split; [reflexivity|]; repeat constructor|]);
    cbn; intros G; repeat destruct G as [G|G]; try discriminate; contradiction. }
  assert (M : forall w, In w (map str ["param"; "name"]%string) -> name_text w).
  { intros w H. cbn [map In] in H. repeat destruct H as [<-|H]; try contradiction; (eexists _, _; split; [reflexivity|]; split; [reflexivity|]; repeat constructor). }
  split; [cbn; lia|]. split; [cbn; tauto|]. split; [discriminate|]. split; [|split; [|vm_compute; reflexivity]].
  - unfold input, n_. repeat match goal with |- Forall proper_line _ => constructor end; cbn [proper_line]; auto.
    + intros H. cbn in H. repeat destruct H as [H|H]; try discriminate; contradiction.
    + apply M. cbn. tauto.
    + split; [apply M; cbn; tauto|]. split; [exists "t"%char, (str "ext"); split; reflexivity|]. intros H. cbn in H. repeat destruct H as [H|H]; try discriminate; contradiction.
    + split; [apply N; cbn; tauto|]. split; [apply Rd_pointed; auto|]. split; [constructor|]. right. intros (c & t & E & H). injection E as <- _. discriminate.
    + split; [apply N; cbn; tauto|]. split; [apply Rd_mul; [apply Rd_var; apply N; cbn; tauto|apply Rd_digits; apply D; reflexivity]|]. split; [repeat constructor; cbn; tauto|]. left. discriminate.
    + repeat first [apply N; cbn; tauto | apply D; reflexivity | apply Rd_div | apply Rd_sub | apply Rd_neg | apply Rd_var | apply Rd_digits].
    + split; [|split; [discriminate|split; [discriminate|repeat constructor; tauto]]].
      repeat first [apply Forall_cons | apply Forall_nil | apply N; cbn; tauto | apply D; reflexivity | apply Rd_neg | apply Rd_var | apply Rd_add | apply Rd_digits | discriminate
        | apply Rd_coef; [cbn; tauto| |] | apply Rd_call].
  - assert (E : exists env o, effects rational integer [channel_1] [] fraction equals (fun _ => nought) input env o /\ o = result).
    2: { destruct E as (env & o & E & ->). exists env. exact E. }
    eexists _, _. split.
    + unfold input, n_. eapply Es_cons; [apply Ef_remark|]. eapply Es_cons; [apply Ef_heading|]. eapply Es_cons; [apply Ef_words|]. eapply Es_cons; [apply Ef_empty|].
      eapply Es_cons; [apply Ef_set; apply D_pointed; exact F|]. eapply Es_cons; [apply Ef_set; apply D_mul; [apply D_var|apply D_int; apply J; reflexivity]|].
      eapply Es_cons; [apply Ef_value; apply D_div; [apply D_sub; [apply D_int; apply J; reflexivity|apply D_sub; apply D_int; apply J; reflexivity]|apply D_neg; apply D_var|vm_compute; reflexivity]|].
      eapply Es_cons; [apply Ef_rows; repeat first [apply Forall2_cons | apply Forall2_nil]|].
      * apply D_var.
      * apply D_neg. apply D_var.
      * eapply D_xi; [apply J; reflexivity|apply J; reflexivity|exists [], []; split; reflexivity|exists [q 1 2], []; split; reflexivity].
      * apply D_sqrt; [cbn; tauto|]. apply D_add; [apply D_var|apply D_int; apply J; reflexivity].
      * eapply Es_cons; [apply Ef_row; apply Forall2_nil|]. apply Es_nil.
    + vm_compute. reflexivity.
Qed.

(** Every text is read in finitely many steps, with one result. *)
Theorem C78_ends : forall (V : Type) (A : arith V) (zero : V) (of_int : Z -> V) (fmt : V -> text) (prefix : text) (chains : list (@chain V)) (coupling : option (list (list V))) (s : text),
  exists o, tool A zero of_int fmt prefix chains coupling s o /\ forall o', tool A zero of_int fmt prefix chains coupling s o' -> o' = o.
Proof. exact @tool_ends_once. Qed.
Print Assumptions C78_ends.
Example C78_ends_nonvacuous :
  run rational nought integer fraction equals [channel_1] (Some []) 50 (initial rational nought) (tokens (str "1+(2" ++ [newline])) = Some ([], Syntax) /\
  run rational nought integer fraction equals [channel_1] (Some []) 50 (initial rational nought) (tokens (str "1}" ++ [newline])) = Some ([], Exit) /\
  run rational nought integer fraction equals [channel_1] (Some []) 50 (initial rational nought) (tokens (str "{1}}" ++ [newline])) = Some (str "= 1/1" ++ [newline], Exit) /\
  run rational nought integer fraction equals [channel_1] (Some []) 50 (initial rational nought) (tokens (str "coefxi[1,2]" ++ [newline])) = Some ([], Abort).
Proof. repeat split; vm_compute; reflexivity. Qed.

(** Finding: a quotient whose divisor is zero has the value of its dividend. *)
Theorem C78_division_refuted : forall (V : Type) (A : arith V) (zero : V) (of_int : Z -> V) (chains : list (@chain V)) (coupling : list (list V)) (fmt : V -> text) (prefix : text)
  (names : list text) p env o a b v w, (List.length names <= 196)%nat ->
  (forall x, In x (flat_map line_names p ++ expr_names (Div a b)) -> In x reserved \/ In x names) ->
  Forall proper_line p -> effects A of_int chains coupling fmt prefix (fun _ => zero) p env o ->
  readable a -> readable b -> denotes A of_int chains coupling env a v -> denotes A of_int chains coupling env b w -> a_is_zero A w = true ->
  tool A zero of_int fmt prefix chains (Some coupling) (input_text p ++ show (Div a b) ++ [newline]) (o ++ shown fmt prefix [v], Finished).
Proof. exact @division_by_zero. Qed.
Print Assumptions C78_division_refuted.
Example C78_division_nonvacuous : readable (Var (str "x")) /\ denotes rational integer [channel_1] [] (fun _ => nought) (Var (str "x")) nought /\ a_is_zero rational nought = true /\
  run rational nought integer fraction equals [channel_1] (Some []) 50 (initial rational nought) (tokens (str "3/(1-1)" ++ [newline])) = Some (str "= 3/1" ++ [newline], Finished).
Proof.
  split; [constructor; split; [exists "x"%char, []; repeat split; constructor|cbn; intros G; repeat destruct G as [G|G]; try discriminate; contradiction]|].
  split; [apply D_var|]. split; [reflexivity|vm_compute; reflexivity].
Qed.

(** Finding: the argument of a function, if it is a name between brackets, is taken for the heading of a section: f[x] has the value of the variable f,
    which is zero if f is a function. *)
Theorem C78_heading_refuted : forall (V : Type) (A : arith V) (zero : V) (of_int : Z -> V) (chains : list (@chain V)) (coupling : list (list V)) (fmt : V -> text) (prefix : text)
  (names : list text) p env o f x, (List.length names <= 196)%nat -> (forall y, In y (f :: flat_map line_names p) -> In y reserved \/ In y names) ->
  Forall proper_line p -> effects A of_int chains coupling fmt prefix (fun _ => zero) p env o -> free_name f -> free_name x ->
  tool A zero of_int fmt prefix chains (Some coupling) (input_text p ++ show (Call f [Var x]) ++ [newline]) (o ++ shown fmt prefix [env f], Finished).
Proof. exact @heading_swallowed. Qed.
Print Assumptions C78_heading_refuted.
Example C78_heading_nonvacuous : show (Call (str "Sqrt") [Var (str "U")]) = str "Sqrt[U]" /\
  run rational nought integer fraction equals [channel_1] (Some []) 50 (initial rational nought) (tokens (str "U=4" ++ newline :: str "Sqrt[U]" ++ newline :: str "Sqrt(U)" ++ [newline])) =
    Some (str "= 0/1" ++ newline :: str "= 2/1" ++ [newline], Finished).
Proof. split; vm_compute; reflexivity. Qed.

(** Finding: an exponent after more than one digit and without a decimal point is not read: the tool writes the digits before it and ends
    (with exit status 0) at the syntax error. *)
Theorem C78_exponent_refuted : forall (V : Type) (A : arith V) (zero : V) (of_int : Z -> V) (chains : list (@chain V)) (coupling : list (list V)) (fmt : V -> text) (prefix : text)
  (names : list text) p env o, (List.length names <= 196)%nat -> (forall y, In y (flat_map line_names p) -> In y reserved \/ In y names) ->
  Forall proper_line p -> effects A of_int chains coupling fmt prefix (fun _ => zero) p env o ->
  tool A zero of_int fmt prefix chains (Some coupling) (input_text p ++ str "10e-3" ++ [newline]) (o ++ shown fmt prefix [of_int 10%Z], Syntax).
Proof. exact @exponent_error. Qed.
Print Assumptions C78_exponent_refuted.
Example C78_exponent_nonvacuous : number (str "10e-3") /\
  run rational nought integer fraction equals [channel_1] (Some []) 50 (initial rational nought) (tokens (str "10e-3" ++ [newline])) = Some (str "= 10/1" ++ [newline], Syntax).
Proof.
  split; [|vm_compute; reflexivity]. left. exists (str "10"), (str "e-3"). split; [reflexivity|]. split; [left; split; [discriminate|repeat constructor]|].
  right. exists "e"%char, ["-"%char], ["3"%char]. split; [reflexivity|]. split; [left; reflexivity|]. split; [right; right; reflexivity|]. split; [discriminate|repeat constructor].
Qed.

(** Finding: a matrix with one empty row writes the prefix without a newline. *)
Theorem C78_empty_refuted : forall (V : Type) (A : arith V) (zero : V) (of_int : Z -> V) (chains : list (@chain V)) (coupling : list (list V)) (fmt : V -> text) (prefix : text)
  (names : list text) p env o, (List.length names <= 196)%nat -> (forall y, In y (flat_map line_names p) -> In y reserved \/ In y names) ->
  Forall proper_line p -> effects A of_int chains coupling fmt prefix (fun _ => zero) p env o ->
  tool A zero of_int fmt prefix chains (Some coupling) (input_text p ++ str "{{}}" ++ [newline]) (o ++ prefix, Finished).
Proof. exact @empty_matrix. Qed.
Print Assumptions C78_empty_refuted.
Example C78_empty_nonvacuous :
  run rational nought integer fraction equals [channel_1] (Some []) 50 (initial rational nought) (tokens (str "{{}}" ++ newline :: str "{{},{}}" ++ [newline])) =
    Some (str "= = " ++ newline :: str "= " ++ [newline], Finished).
Proof. vm_compute. reflexivity. Qed.
