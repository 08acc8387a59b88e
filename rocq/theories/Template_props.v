(** Property theorems C34: matrix templates. *)
From Coq Require Import List ZArith QArith Bool Ascii String Lia.
From Verif Require Import Base Params_model Template_model Template_spec Template_lex Template_values Template_safe Template_words Template_aux.
Import ListNotations.
Local Open Scope list_scope.

(** A text of the grammar evaluates to the matrix it denotes; it fails exactly when that fails. *)
Theorem C34_accepts : forall (V : Type) (M : interp V) s t, Template s t -> evaluate_matrix M s = denote M t.
Proof. exact @accepts. Qed.
Print Assumptions C34_accepts.

(** Any other text is rejected: whatever is accepted is in the grammar and has the value that the grammar gives it. *)
Theorem C34_rejects : forall (V : Type) (M : interp V) s m, evaluate_matrix M s = Ok m -> exists t, Template s t /\ denote M t = Ok m.
Proof. exact @rejects. Qed.
Print Assumptions C34_rejects.
Example C34_grammar_nonvacuous :
  evaluate_matrix (program rational ctx) template = Ok (Build_matrix 2 3 [[q 7 1; q 1 2; q 2 1]; [q 1 2; q (-3) 2; q 1 1]]) /\
  (exists t, Template template t) /\
  evaluate_matrix (program rational ctx) (str "{{1,2},{3}}") = Throw /\ evaluate_matrix (program rational ctx) (str "1+") = Throw /\
  evaluate_matrix (program rational ctx) (str "1/(2-2)") = Throw /\ evaluate_matrix (program rational ctx) (newline :: str " !date") = Throw.
Proof.
  assert (E : evaluate_matrix (program rational ctx) template = Ok (Build_matrix 2 3 [[q 7 1; q 1 2; q 2 1]; [q 1 2; q (-3) 2; q 1 1]])) by (vm_compute; reflexivity).
  split; [exact E|]. split; [destruct (rejects _ _ _ E) as (t & H & _); exists t; exact H|]. repeat split; vm_compute; reflexivity.
Qed.

(** The recursion ends: the result does not depend on the bound on its depth once that exceeds a multiple of the length. *)
Theorem C34_depth : forall (V : Type) (M : interp V) s n, (8 * List.length s + 16 <= n)%nat -> evaluate_bounded M n s = Some (evaluate_matrix M s).
Proof. exact @bound_irrelevant. Qed.
Print Assumptions C34_depth.
Example C34_depth_nonvacuous : (8 * List.length (str "(1)") + 16 <= 40)%nat /\ evaluate_bounded (program rational ctx) 40 (str "(1)") = Some (Ok (Build_matrix 1 1 [[q 1 1]])).
Proof. split; [cbn; lia|vm_compute; reflexivity]. Qed.

(** An expression printed with the fewest parentheses evaluates to the value of the expression. *)
Theorem C34_prints : forall (V : Type) (M : interp V) e, proper e -> evaluate_matrix M (show e) = let* v := eval M e in Ok (Build_matrix 1 1 [[v]]).
Proof. exact @prints. Qed.
Print Assumptions C34_prints.
Example C34_prints_nonvacuous : proper sample /\ show sample = str "(1-(2-3))/(4*5)-coefxi[--1,1]" /\ eval (program rational ctx) sample = Ok (q (-7) 30).
Proof.
  split; [|split; vm_compute; reflexivity].
  assert (N : forall c, isdigit c = true -> proper (Num [c])).
  { intros c H. constructor. left. exists [c], []. split; [reflexivity|]. split; [left; split; [discriminate|repeat constructor; exact H]|left; reflexivity]. }
  assert (K : identifier (str "coefxi")).
  { exists "c"%char, (str "oefxi"). split; [reflexivity|]. split; [left; reflexivity|]. repeat constructor; left; reflexivity. }
  unfold sample, n_. repeat first [apply N; reflexivity | exact K | apply Pr_sub | apply Pr_div | apply Pr_mul | apply Pr_call | apply Pr_neg | apply Forall_cons | apply Forall_nil].
Qed.

(** In the program an expression evaluates to v exactly when v is its value: names are parameters of the model, channels count from
    1 and coefficients from 0, a divisor is not zero. *)
Theorem C34_values : forall (V : Type) (A : arith V) (X : context V), NoDup (map fst (variables X)) ->
  forall e v, eval (program A X) e = Ok v <-> value_of A X e v.
Proof. exact @words. Qed.
Print Assumptions C34_values.
Example C34_values_nonvacuous : NoDup (map fst (variables ctx)) /\ value_of rational ctx sample (q (-7) 30).
Proof.
  assert (N : NoDup (map fst (variables ctx))) by (repeat constructor; intros []). split; [exact N|].
  apply (words rational ctx N sample). vm_compute. reflexivity.
Qed.

(** The only undefined behaviour is in the conversion of an index to an int. *)
Theorem C34_defined : forall (V : Type) (A : arith V) (X : context V) s, (forall v, a_integral A v <> UB) -> evaluate_matrix (program A X) s <> UB.
Proof. exact @program_defined. Qed.
Print Assumptions C34_defined.
Example C34_defined_nonvacuous : (forall v, a_integral safe_rational v <> UB) /\ evaluate_matrix (program safe_rational ctx) (str "coefxi[sqrt(-1),1]") = Throw.
Proof. split; [intros [[n [d|d|]]|]; discriminate|vm_compute; reflexivity]. Qed.

(** Finding: an index that is not a number passes the test for integrality and is converted. *)
Theorem C34_index_refuted : forall (V : Type) (A : arith V) (X : context V),
  a_finite A (a_strtod A (str "1")) = true -> a_integral A (a_sqrt A (a_neg A (a_strtod A (str "1")))) = UB ->
  evaluate_matrix (program A X) (str "coefxi[sqrt(-1),1]") = UB.
Proof. exact @nan_index. Qed.
Print Assumptions C34_index_refuted.
Example C34_index_nonvacuous : a_finite rational (a_strtod rational (str "1")) = true /\ a_integral rational (a_sqrt rational (a_neg rational (a_strtod rational (str "1")))) = UB.
Proof. split; reflexivity. Qed.
