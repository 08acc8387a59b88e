(** C78: findings, and the end of every run. *)
From Coq Require Import List ZArith Bool Ascii String Lia.
From Verif Require Import Base Params_model Template_model Template_spec Template_lex Template_words Mtool_model Mtool_spec Mtool_lex Mtool_parse Mtool_lines Mtool_proofs.
Import ListNotations.
Local Open Scope list_scope.

(** * Every run ends *)
Section T.
Context {V : Type} (A : arith V) (zero : V) (of_int : Z -> V) (fmt : V -> text) (prefix : text) (chains : list (@chain V)) (coupling : option (list (list V))).
Notation sym := (@sym V).
Notation reduce := (reduce A zero of_int fmt prefix chains coupling).
Notation act := (act A zero fmt prefix).
Notation step := (step A zero of_int fmt prefix chains coupling).
Notation run := (run A zero of_int fmt prefix chains coupling).
Notation tool := (tool A zero of_int fmt prefix chains coupling).
Definition weight (x : sym) : nat :=
  match x with SCh _ => 3 | SNum _ | SInt _ | SName _ | SKey _ => 4 | SE _ => 3 | SEL _ => 2 | SVec _ => 2 | SVL _ => 1 | SMat _ => 1 | SStmt => 0 end.
Fixpoint total (st : list sym) : nat := match st with [] => 0 | x :: t => weight x + total t end.
Ltac split_matches := repeat match goal with
  | H : context [match ?x with _ => _ end] |- _ => destruct x eqn:?; try discriminate
  end.
Lemma total_tl (st : list sym) : total (tl st) <= total st.
Proof. destruct st; cbn [tl total]; lia. Qed.
Lemma reduce_less s s' : reduce s = Some (Ok s') -> total (stack s') < total (stack s).
Proof.
  destruct s as [st sy out b]. unfold Mtool_model.reduce. cbn [stack]. intros H.
  destruct st as [|x st]; [discriminate|]. destruct x as [c|w|w|x|k|v|l|l|m|m|].
  - unfold reduce_close in H. destruct (is c ")"); [|destruct (is c "]"); [|destruct (is c "}"); [|discriminate]]].
    + split_matches; injection H as <-; cbn [stack with_stack total weight]; lia.
    + split_matches; injection H as H; repeat match type of H with context [bind ?x _] => destruct x; cbn [bind] in H; try discriminate end;
      try (injection H as H); subst; cbn [stack with_stack total weight]; lia.
    + split_matches; injection H as <-; cbn [stack with_stack total weight]; try lia.
      all: match goal with |- context [total (tl ?u)] => assert (G := total_tl u); cbn [total weight] in *; lia end.
  - injection H as <-. cbn [stack with_stack total weight]. lia.
  - destruct (index_place st); [discriminate|]. destruct (atoi w) as [z| |]; cbn [bind] in H; try discriminate. injection H as <-. cbn [stack with_stack total weight]. lia.
  - discriminate.
  - discriminate.
  - unfold reduce_expr in H. split_matches; injection H as <-; cbn [stack with_stack total weight]; lia.
  - split_matches; injection H as <-; cbn [stack with_stack total weight]; lia.
  - split_matches; injection H as <-; cbn [stack with_stack print total weight]; lia.
  - split_matches; injection H as <-; cbn [stack with_stack total weight]; lia.
  - split_matches; injection H as <-; cbn [stack print total weight]; lia.
  - discriminate.
Qed.
Lemma or_reduce_is (b : bool) (s s' : @state V) : or_reduce b s = Reduce s' -> s' = s.
Proof. destruct b; cbn; intros H; [discriminate|]. injection H as <-. reflexivity. Qed.
Lemma shift_if_not (b : bool) (s' : @state V) : shift_if b <> Reduce s'.
Proof. destruct b; discriminate. Qed.
Lemma act_less s t s' : act s t = Reduce s' -> total (stack s') < total (stack s).
Proof.
  destruct s as [st sy out b]. unfold Mtool_model.act. cbn [stack table]. intros H.
  destruct st as [|x st]. { destruct (tis t newline); [discriminate|]. exfalso. apply (shift_if_not _ _ H). }
  destruct x as [c|w|w|x|k|v|l|l|m|m|].
  - unfold act_char in H. destruct (is c "{"); [destruct st; exfalso; apply (shift_if_not _ _ H)|]. destruct (is c "}").
    + destruct st as [|[]]; try discriminate. apply or_reduce_is in H. subst. cbn [stack with_stack total weight]. lia.
    + destruct (is c "["); [destruct st as [|[]]; exfalso; apply (shift_if_not _ _ H)|]. destruct (is c ","); [destruct st as [|[]]; exfalso; apply (shift_if_not _ _ H)|]. exfalso; apply (shift_if_not _ _ H).
  - discriminate.
  - destruct st as [|[] st]; try (exfalso; apply (shift_if_not _ _ H)). destruct st as [|[] st]; try (exfalso; apply (shift_if_not _ _ H)). destruct k; exfalso; apply (shift_if_not _ _ H).
  - apply or_reduce_is in H. subst. cbn [stack with_stack total weight]. lia.
  - exfalso; apply (shift_if_not _ _ H).
  - unfold act_expr in H. split_matches;
      first [exfalso; apply (shift_if_not _ _ H) | apply or_reduce_is in H; subst; cbn [stack with_stack print total weight]; lia].
  - exfalso; apply (shift_if_not _ _ H).
  - apply or_reduce_is in H. subst. cbn [stack with_stack total weight]. lia.
  - exfalso; apply (shift_if_not _ _ H).
  - discriminate.
  - destruct st; [|discriminate]. destruct (tis t newline); discriminate.
Qed.
Lemma push_less s t s' : push zero s t = Some s' -> total (stack s') <= total (stack s) + 4.
Proof.
  destruct s as [st sy out b]. destruct t; cbn [push]; intros H; try discriminate; try (injection H as <-; cbn [stack with_stack total weight]; lia).
  destruct (symlook _ _ _); [|discriminate]. injection H as <-. cbn [stack total weight]. lia.
Qed.
Definition left (s : @state V) (ts : list tok) : nat := 5 * List.length ts + total (stack s).
Lemma step_less s ts s' ts' : step s ts = inl (s', ts') -> left s' ts' < left s ts.
Proof.
  unfold Mtool_model.step, left. destruct (reduce s) as [[s1| |]|] eqn:R; try discriminate.
  - intros H. injection H as <- <-. apply reduce_less in R. lia.
  - destruct ts as [|t ts]; [discriminate|]. intros H.
    assert (G : match act s t with
      | Shift => match push zero s t with Some s' => inl (s', ts) | None => inr Exit end
      | Reduce s' => inl (s', t :: ts) | Next => inl (next_state s, ts) | Error => inr Syntax end = @inl _ ending (s', ts')).
    { destruct t; try exact H; try discriminate. destruct (stack s); [destruct (begun s); [discriminate|]|]; exact H. }
    clear H. destruct (act s t) as [|s1| |] eqn:E.
    + destruct (push zero s t) as [s1|] eqn:P; [|discriminate]. injection G as <- <-. apply push_less in P. cbn [List.length]. lia.
    + injection G as <- <-. apply act_less in E. lia.
    + injection G as <- <-. cbn [next_state stack total List.length]. lia.
    + discriminate.
Qed.
Lemma run_ends n : forall s ts, left s ts < n -> exists o, run n s ts = Some o.
Proof.
  induction n as [|n IH]; intros s ts H; [lia|]. cbn [Mtool_model.run]. destruct (step s ts) as [[s' ts']|e] eqn:E; [|eauto]. apply IH. apply step_less in E. lia.
Qed.
Theorem tool_ends s : exists o, tool s o.
Proof. destruct (run_ends (S (left (initial A zero) (tokens s))) (initial A zero) (tokens s) ltac:(lia)) as [o H]. exists o. eexists. exact H. Qed.
Lemma run_more n : forall m s ts o, run n s ts = Some o -> n <= m -> run m s ts = Some o.
Proof.
  induction n as [|n IH]; intros m s ts o H Hm; [discriminate|]. destruct m as [|m]; [lia|]. cbn [Mtool_model.run] in *.
  destruct (step s ts) as [[s' ts']|e]; auto. apply IH; auto; lia.
Qed.
Theorem tool_one s o o' : tool s o -> tool s o' -> o = o'.
Proof.
  intros [n H] [m G]. apply (run_more n (n + m)) in H; [|lia]. apply (run_more m (n + m)) in G; [|lia]. congruence.
Qed.
Theorem tool_ends_once s : exists o, tool s o /\ forall o', tool s o' -> o' = o.
Proof. destruct (tool_ends s) as [o H]. exists o. split; auto. intros o' H'. apply (tool_one s); auto. Qed.
End T.

(** * Findings *)
Section F.
Context {V : Type} (A : arith V) (zero : V) (of_int : Z -> V) (chains : list (@chain V)) (coupling : list (list V)) (fmt : V -> text) (prefix : text).
Notation ev := (ev A zero of_int chains (Some coupling)).
Notation denotes := (denotes A of_int chains coupling).
Notation star := (star A zero of_int fmt prefix chains (Some coupling)).
Notation tool := (tool A zero of_int fmt prefix chains (Some coupling)).
Notation effects := (effects A of_int chains coupling fmt prefix).
Notation mk := (@Build_state V).
Notation step := (step A zero of_int fmt prefix chains (Some coupling)).

Lemma tokens_after p s ts : Forall proper_line p -> (forall n, List.length s < n -> lex n true 0 s = ts) -> tokens (input_text p ++ s) = input_toks p ++ ts.
Proof.
  intros H Hs.
  assert (G : LX true 0 (input_text p ++ s) (input_toks p) true 0 s).
  { clear Hs. revert s. induction H as [|l p H1 H2 IH]; intros r; [apply LX_nil|]. unfold input_text, input_toks in *. cbn [flat_map].
    rewrite <- (app_assoc (line_text l ++ [newline])), <- (app_assoc (line_text l)). cbn [app]. eapply LX_app; [apply lex_line; auto|]. apply IH. }
  unfold tokens. destruct (G (S (List.length (input_text p ++ s))) ltac:(lia)) as (m & Hm & ->). rewrite Hs; auto.
Qed.
Lemma after_ok (names : list text) p env o s ts out e : List.length names <= 196 -> (forall x, In x (flat_map line_names p) -> In x reserved \/ In x names) ->
  Forall proper_line p -> effects (fun _ => zero) p env o -> (forall n, List.length s < n -> lex n true 0 s = ts) ->
  (forall sy b, good_table A zero (fnames ++ names) [] env sy -> exists c, star (mk [] sy o b, ts) c /\ step (fst c) (snd c) = inr e /\ output (fst c) = out) ->
  tool (input_text p ++ s) (out, e).
Proof.
  intros HL HN HP HE Hs Hc. set (L := fnames ++ names) in *. assert (LN : List.length L <= NSYMS) by (unfold L; rewrite app_length; change (List.length fnames) with 4; unfold NSYMS; lia).
  destruct (lines_ok A zero of_int chains coupling fmt prefix L p (fun _ => zero) env o LN HP) with (sy := start_table A zero) (out := @nil ascii) (b := false) (r := ts) as (sy & T & S); auto.
  { intros x Hx. destruct (HN x Hx); [auto|]. right. apply in_or_app. auto. }
  { apply start_ok. apply incl_appl. apply incl_refl. }
  destruct (Hc sy (match p with [] => false | _ => true end) T) as (c & C1 & C2 & C3).
  unfold Mtool_model.tool. rewrite (tokens_after p s ts HP Hs).
  destruct (star_run A zero of_int fmt prefix chains (Some coupling) _ _ (star_trans _ _ _ _ _ _ _ _ _ _ S C1) e C2) as (n & Hn).
  exists n. rewrite C3 in Hn. exact Hn.
Qed.
Lemma lex_one_line s ts : LX true 0 (s ++ [newline]) ts false 0 [newline] -> forall n, List.length (s ++ [newline]) < n -> lex n true 0 (s ++ [newline]) = ts ++ [TCh newline; TEnd].
Proof.
  intros H n Hn. destruct (H n Hn) as (m & Hm & ->). cbn [List.length] in Hm. destruct m as [|[|m]]; [lia|lia|]. reflexivity.
Qed.
Lemma end_ok sy out e : e = Finished -> step (mk [] sy out true) [TEnd] = inr e.
Proof. intros ->. reflexivity. Qed.

Theorem division_by_zero (names : list text) p env o a b v w : List.length names <= 196 ->
  (forall x, In x (flat_map line_names p ++ expr_names (Div a b)) -> In x reserved \/ In x names) ->
  Forall proper_line p -> effects (fun _ => zero) p env o ->
  readable a -> readable b -> denotes env a v -> denotes env b w -> a_is_zero A w = true ->
  tool (input_text p ++ show (Div a b) ++ [newline]) (o ++ shown fmt prefix [v], Finished).
Proof.
  intros HL HN HP HE Ra Rb Da Db Z.
  apply (after_ok names p env o (show (Div a b) ++ [newline]) (toks_at 0 (Div a b) ++ [TCh newline; TEnd])); auto.
  - intros x Hx. apply HN. apply in_or_app. auto.
  - apply lex_one_line. apply lex_expr; [constructor; auto|apply delim_cons; cbn; tauto].
  - intros sy bb T. assert (LN : List.length (fnames ++ names) <= NSYMS) by (rewrite app_length; change (List.length fnames) with 4; unfold NSYMS; lia).
    destruct (value_line A zero of_int fmt prefix chains (Some coupling) (fnames ++ names) LN env (Div a b) v) with (sy := sy) (out := o) (b := bb) (r := [TEnd]) as (sy' & T' & S); auto.
    + constructor; auto.
    + intros x Hx. destruct (HN x); [apply in_or_app; auto|auto|]. right. apply in_or_app. auto.
    + cbn [Mtool_parse.ev]. rewrite (denotes_ev A zero of_int chains coupling env a v Da), (denotes_ev A zero of_int chains coupling env b w Db). cbn [bind]. unfold Mtool_model.divide. rewrite Z. reflexivity.
    + eexists. split; [exact S|]. split; [apply end_ok; reflexivity|reflexivity].
Qed.
Theorem heading_swallowed (names : list text) p env o f x : List.length names <= 196 ->
  (forall y, In y (f :: flat_map line_names p) -> In y reserved \/ In y names) ->
  Forall proper_line p -> effects (fun _ => zero) p env o -> free_name f -> free_name x ->
  tool (input_text p ++ show (Call f [Var x]) ++ [newline]) (o ++ shown fmt prefix [env f], Finished).
Proof.
  intros HL HN HP HE Hf Hx. cbn [show show_at].
  apply (after_ok names p env o ((f ++ "["%char :: x ++ ["]"%char]) ++ [newline]) ([TName f] ++ [TCh newline; TEnd])); auto.
  - intros y Hy. apply HN. right; auto.
  - apply lex_one_line. rewrite <- (word_free f Hf). rewrite <- app_assoc. cbn [app]. apply LX_cons with (b1 := false) (k1 := 0) (r := "["%char :: (x ++ ["]"%char]) ++ [newline]).
    + apply bracket_word; [apply Hf|apply free_parse; auto].
    + intros n Hn. destruct n as [|n]; [lia|]. exists n. cbn [app List.length] in *. split; [rewrite !app_length in Hn; cbn [List.length] in *; lia|].
      cbn [lex]. change (Ascii.eqb "[" newline) with false. change (false && Ascii.eqb "[" "#") with false. change (false && Ascii.eqb "[" "!") with false.
      change (blank "[") with false. change (isalpha "[") with false. change (isdigit "[" || Ascii.eqb "[" ".") with false. change (Ascii.eqb "[" "[") with true. cbn iota.
      rewrite <- app_assoc. cbn [app]. destruct Hx as [Hx _]. assert (S1 := span_name x ("]"%char :: [newline]) Hx ltac:(intros c t E; injection E as <- _; reflexivity)).
      destruct Hx as (c & t & -> & Hc & _). cbn [app] in *. unfold section_rest. rewrite Hc, S1. change (Ascii.eqb "]" "]") with true. reflexivity.
  - intros sy bb T. assert (LN : List.length (fnames ++ names) <= NSYMS) by (rewrite app_length; change (List.length fnames) with 4; unfold NSYMS; lia).
    destruct (value_line A zero of_int fmt prefix chains (Some coupling) (fnames ++ names) LN env (Var f) (env f)) with (sy := sy) (out := o) (b := bb) (r := [TEnd]) as (sy' & T' & S); auto.
    + constructor; auto.
    + intros y [<-|[]]. destruct (HN f); [left; auto|auto|]. right. apply in_or_app. auto.
    + cbn [toks_at] in S. rewrite (word_free f Hf) in S. eexists. split; [exact S|]. split; [apply end_ok; reflexivity|reflexivity].
Qed.
(** A number with more than one digit, without a point and with an exponent. *)
Theorem exponent_error (names : list text) p env o : List.length names <= 196 ->
  (forall y, In y (flat_map line_names p) -> In y reserved \/ In y names) ->
  Forall proper_line p -> effects (fun _ => zero) p env o ->
  tool (input_text p ++ str "10e-3" ++ [newline]) (o ++ shown fmt prefix [of_int 10], Syntax).
Proof.
  intros HL HN HP HE. apply (after_ok names p env o (str "10e-3" ++ [newline]) [TInt (str "10"); TName (str "e"); TCh "-"; TInt (str "3"); TCh newline; TEnd]); auto.
  - intros n Hn. cbn [app str list_ascii_of_string List.length] in Hn. do 7 (destruct n as [|n]; [lia|]). reflexivity.
  - intros sy b T. eexists. split; [|split].
    + eapply star_step; [reflexivity|]. eapply star_step; [reflexivity|]. eapply star_step; [reflexivity|]. apply star_refl.
    + reflexivity.
    + reflexivity.
Qed.
(** A matrix without elements. *)
Theorem empty_matrix (names : list text) p env o : List.length names <= 196 ->
  (forall y, In y (flat_map line_names p) -> In y reserved \/ In y names) ->
  Forall proper_line p -> effects (fun _ => zero) p env o ->
  tool (input_text p ++ str "{{}}" ++ [newline]) (o ++ prefix, Finished).
Proof.
  intros HL HN HP HE. apply (after_ok names p env o (str "{{}}" ++ [newline]) [TCh "{"; TCh "{"; TCh "}"; TCh "}"; TCh newline; TEnd]); auto.
  - intros n Hn. cbn [app str list_ascii_of_string List.length] in Hn. do 6 (destruct n as [|n]; [lia|]). reflexivity.
  - intros sy b T. exists (mk [] sy (o ++ prefix ++ []) true, [TEnd]). split; [|split; [reflexivity|cbn [fst output]; rewrite app_nil_r; reflexivity]].
    do 4 (eapply star_step; [reflexivity|]). eapply star_step; [reflexivity|]. eapply star_step; [reflexivity|]. apply next_ok. auto.
Qed.
End F.
