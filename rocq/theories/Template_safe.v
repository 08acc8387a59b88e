(** C34: where undefined behaviour can come from. *)
From Coq Require Import List ZArith Bool Ascii String Lia.
From Verif Require Import Base Params_model Template_model Template_spec Template_lex Template_proofs Template_complete Template_values.
Import ListNotations.
Local Open Scope list_scope.

Section U.
Context {V : Type} (M : interp V).
Hypothesis Hnum : forall w, i_num M w <> UB.
Hypothesis Hvar : forall x, i_var M x <> UB.
Hypothesis Hcall : forall f l, i_call M f l <> UB.
Hypothesis Hdiv : forall x y, i_div M x y <> UB.
Notation len := (@List.length ascii).

Lemma number_safe s : parse_number M s <> UB.
Proof. unfold parse_number. destruct (take_number (skip_ignored s)) as [[w t]|]; [|discriminate]. specialize (Hnum w). destruct (i_num M w); cbn [bind]; congruence. Qed.
Ltac crunch1 :=
  match goal with
  | H : Some ?a = Some ?b |- _ => apply some_inj in H
  | H : Ok (_, _) = Ok (_, _) |- _ => inversion H; subst; clear H
  | H : Some _ = None |- _ => discriminate H
  | H : None = Some _ |- _ => discriminate H
  | H : Throw = Ok _ |- _ => discriminate H
  | H : UB = Ok _ |- _ => discriminate H
  | H : Throw = UB |- _ => discriminate H
  | H : rbind (Some ?x) _ = _ |- _ => let E := fresh "E" in destruct x as [?| |] eqn:E; cbn [rbind] in H
  | H : rbind ?x _ = _ |- _ => let E := fresh "E" in destruct x as [[[? ?]| |]|] eqn:E; cbn [rbind] in H
  | H : (match consume ?c ?s with _ => _ end) = _ |- _ => let E := fresh "E" in destruct (consume c s) as [[] ?] eqn:E
  | H : (match ?x with Ok _ => _ | Throw => _ | UB => _ end) = _ |- _ => let E := fresh "E" in destruct x as [?| |] eqn:E
  | H : (if starts_identifier ?s then _ else _) = _ |- _ => let E := fresh "E" in destruct (starts_identifier s) eqn:E
  | H : (let '(_, _) := parse_identifier ?s in _) = _ |- _ => let E := fresh "E" in destruct (parse_identifier s) as [? ?] eqn:E
  end.
Ltac fin := repeat (crunch1; subst); try discriminate; try match goal with
  | E : i_div M _ _ = UB |- _ => eapply Hdiv; eassumption
  | E : i_call M _ _ = UB |- _ => eapply Hcall; eassumption
  | E : i_var M _ = UB |- _ => eapply Hvar; eassumption
  | E : parse_number M _ = UB |- _ => eapply number_safe; eassumption
  | E : _ = Some UB, J : forall s, _ <> Some UB |- _ => eapply J; eassumption
  | E : _ = Some UB, J : forall v s, _ <> Some UB |- _ => eapply J; eassumption
  end.
Lemma safe n :
  (forall s, parse_expression M n s <> Some UB) /\ (forall v s, sum_loop M n v s <> Some UB) /\ (forall s, parse_product M n s <> Some UB) /\
  (forall v s, product_loop M n v s <> Some UB) /\ (forall s, parse_unary M n s <> Some UB) /\ (forall s, parse_primary M n s <> Some UB) /\
  (forall c s, parse_arguments M n c s <> Some UB) /\ (forall c s, argument_loop M n c s <> Some UB).
Proof.
  induction n as [|n (I1 & I2 & I3 & I4 & I5 & I6 & I7 & I8)]; [repeat split; intros; discriminate|].
  repeat match goal with |- _ /\ _ => split end; intros.
  - rewrite PE_S. intros H. fin.
  - rewrite SL_S. intros H. fin.
  - rewrite PP_S. intros H. fin.
  - rewrite PL_S. intros H. fin.
  - rewrite PU_S. intros H. fin.
  - rewrite PM_S. intros H. fin.
  - rewrite PA_S. intros H. fin.
  - rewrite AL_S. intros H. fin.
Qed.
Lemma vsafe n : (forall s, parse_value M n s <> Some UB) /\ (forall s, item_loop M n s <> Some UB).
Proof.
  induction n as [|n [I1 I2]]; [split; discriminate|]. split; intros s H.
  - destruct (safe n) as (I3 & _). rewrite PV_S in H. fin.
  - rewrite IL_S in H. fin.
Qed.
Lemma scalars_safe (l : list (value (V := V))) : mapM scalar l <> UB.
Proof. induction l as [|x l IH]; [discriminate|]. cbn [mapM]. destruct x; cbn [scalar bind]; [|discriminate]. destruct (mapM scalar l); cbn [bind]; congruence. Qed.
Lemma mapM_safe {A B} (f : A -> res B) l : (forall x, f x <> UB) -> mapM f l <> UB.
Proof. intros H. induction l as [|x l IH]; [discriminate|]. cbn [mapM]. specialize (H x). destruct (f x); cbn [bind]; try congruence. destruct (mapM f l); cbn [bind]; congruence. Qed.
Lemma to_matrix_safe (v : value (V := V)) : to_matrix v <> UB.
Proof.
  destruct v as [x|[|[x|k] l]]; cbn [to_matrix]; try discriminate.
  - unfold to_matrix. pose proof (scalars_safe (VScalar x :: l)). destruct (mapM scalar (VScalar x :: l)); cbn [bind]; congruence.
  - cbn zeta. match goal with |- (let* _ := ?x in _) <> _ => assert (x <> UB); [|destruct x; cbn [bind]; congruence] end.
    apply mapM_safe. intros [x|items]; [discriminate|]. destruct (Nat.eqb _ _); [apply scalars_safe|discriminate].
Qed.
Theorem defined s : evaluate_matrix M s <> UB.
Proof.
  unfold evaluate_matrix, evaluate_bounded. assert (R : reject_shell_escapes s <> UB) by (unfold reject_shell_escapes; destruct (existsb _ _); discriminate).
  destruct (reject_shell_escapes s); cbn [rbind]; try congruence. pose proof (proj1 (venough M (8 * len s + 16)) s ltac:(lia)) as E. pose proof (proj1 (vsafe (8 * len s + 16)) s) as S.
  destruct (parse_value M (8 * len s + 16) s) as [[[v r]| |]|]; cbn [rbind]; try congruence. destruct (skip_ignored r); [apply to_matrix_safe|discriminate].
Qed.
End U.

Theorem program_defined {V} (A : arith V) (X : context V) s : (forall v, a_integral A v <> UB) -> evaluate_matrix (program A X) s <> UB.
Proof.
  intros HI. assert (HC : forall ch, channel X ch <> UB).
  { intros ch. unfold channel. destruct ((ch <? 1)%Z || (Z.of_nat (List.length (channels X)) <? ch)%Z) eqn:E; [discriminate|]. apply orb_false_elim in E as [E1 E2]. apply Z.ltb_ge in E1, E2.
    destruct (nth_error (channels X) (Z.to_nat (ch - 1))) eqn:N; [discriminate|]. apply nth_error_None in N. lia. }
  assert (HO : forall l i, coefficient (V := V) l i <> UB).
  { intros l i. unfold coefficient. destruct ((i <? 0)%Z || (Z.of_nat (List.length l) <=? i)%Z) eqn:E; [discriminate|]. apply orb_false_elim in E as [E1 E2]. apply Z.ltb_ge in E1. apply Z.leb_gt in E2.
    destruct (nth_error l (Z.to_nat i)) eqn:N; [discriminate|]. apply nth_error_None in N. lia. }
  apply defined.
  - intros w. cbn [i_num program]. unfold number_value. destruct (a_finite A _); discriminate.
  - intros x. cbn [i_var program]. unfold lookup_variable. destruct (text_eqb x (str "parse")); [discriminate|]. destruct (_ || _); [discriminate|]. destruct (List.find _ _); discriminate.
  - intros f l. cbn [i_call program]. unfold call_function. destruct l as [|x [|y [|z l]]]; try discriminate.
    + destruct (_ || _); [discriminate|]. destruct (text_eqb f (str "exp")); [discriminate|]. destruct (text_eqb f (str "log")); [discriminate|]. destruct (text_eqb f (str "Conjugate")); [discriminate|].
      destruct (text_eqb f (str "gammaPolCh")); [|discriminate]. specialize (HI x). destruct (a_integral A x); cbn [bind]; try congruence. match goal with |- context [channel X ?z] => specialize (HC z); destruct (channel X z) end; cbn [bind]; congruence.
    + pose proof (HI x). pose proof (HI y). destruct (text_eqb f (str "coefxi")); [|destruct (text_eqb f (str "coefzeta")); [|discriminate]].
      * destruct (a_integral A x); cbn [bind]; try congruence. destruct (a_integral A y); cbn [bind]; try congruence. match goal with |- context [channel X ?z] => specialize (HC z); destruct (channel X z) end; cbn [bind]; first [congruence|apply HO].
      * destruct (a_integral A x); cbn [bind]; try congruence. destruct (a_integral A y); cbn [bind]; try congruence. match goal with |- context [channel X ?z] => specialize (HC z); destruct (channel X z) end; cbn [bind]; first [congruence|apply HO].
  - intros x y. cbn [i_div program]. unfold divide. destruct (a_is_zero A y); discriminate.
Qed.
(** An argument that is not a number is converted to an int. *)
Theorem nan_index {V} (A : arith V) (X : context V) :
  a_finite A (a_strtod A (str "1")) = true -> a_integral A (a_sqrt A (a_neg A (a_strtod A (str "1")))) = UB ->
  evaluate_matrix (program A X) (str "coefxi[sqrt(-1),1]") = UB.
Proof.
  intros HF HI.
  set (e := Call (str "coefxi") [Call (str "sqrt") [Neg (Num (str "1"))]; Num (str "1")]).
  assert (T : Template (str "coefxi[sqrt(-1),1]") (Scalar e)).
  { assert (Ig : ignorable []) by constructor.
    assert (N1 : forall i, i = @nil ascii -> Primary (str "1") (Num (str "1"))).
    { intros i _. apply (P_num []); [auto|]. left. exists (str "1"), []. split; [reflexivity|]. split; [left; split; [discriminate|repeat constructor]|left; auto]. }
    specialize (N1 _ eq_refl).
    assert (ID : forall c t, isalpha c = true -> forallb isalnum t = true -> identifier (c :: t)).
    { intros c t Hc Ht. exists c, t. split; [auto|]. split; [auto|]. rewrite forallb_forall in Ht. apply Forall_forall. intros d Hd. left. auto. }
    assert (Up : forall w x, Primary w x -> Expression w x) by (intros; apply E_product, R_unary, U_primary; auto).
    assert (A1 : Arguments_ (str "-1") [Neg (Num (str "1"))]).
    { apply A_some. apply (A_one (str "-1") _ []); [|auto]. apply E_product, R_unary. apply (U_neg [] (str "1")); [auto|]. apply U_primary. auto. }
    assert (S1 : Primary (str "sqrt(-1)") (Call (str "sqrt") [Neg (Num (str "1"))])).
    { refine (P_call [] (str "sqrt") [] "("%char ")"%char (str "-1") _ Ig _ Ig (or_introl eq_refl) A1). apply ID; reflexivity. }
    exists (str "coefxi[sqrt(-1),1]"), []. split; [reflexivity|]. split; [|exists [], []; repeat split; auto]. apply V_scalar, Up.
    refine (P_call [] (str "coefxi") [] "["%char "]"%char (str "sqrt(-1),1") _ Ig _ Ig (or_intror eq_refl) _); [apply ID; reflexivity|].
    apply A_some. refine (A_more (str "sqrt(-1)") _ [] (str "1") _ _ Ig _); [apply Up; auto|]. apply (A_one (str "1") _ []); auto. }
  rewrite (accepts _ _ _ T). unfold denote. cbn [leaves mapM eval e].
  change (i_num (program A X) (str "1")) with (number_value A (str "1")). unfold number_value. rewrite HF. cbn [bind].
  change (i_neg (program A X) (a_strtod A (str "1"))) with (a_neg A (a_strtod A (str "1"))).
  change (i_call (program A X) (str "sqrt") [a_neg A (a_strtod A (str "1"))]) with (Ok (a_sqrt A (a_neg A (a_strtod A (str "1"))))). cbn [bind].
  match goal with |- context [i_call (program A X) (str "coefxi") [?a; ?b]] => change (i_call (program A X) (str "coefxi") [a; b]) with
    (let* ch := a_integral A a in let* idx := a_integral A b in let* c := channel X ch in coefficient (c_xi c) idx) end.
  rewrite HI. reflexivity.
Qed.
