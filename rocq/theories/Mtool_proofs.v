(** C78: whole inputs. *)
From Coq Require Import List ZArith Bool Ascii String Lia.
From Verif Require Import Base Params_model Template_model Template_spec Template_lex Template_words Mtool_model Mtool_spec Mtool_lex Mtool_parse Mtool_lines.
Import ListNotations.
Local Open Scope list_scope.

Lemma f2_impl {B C} (P Q : B -> C -> Prop) l m : (forall a b, P a b -> Q a b) -> Forall2 P l m -> Forall2 Q l m.
Proof. intros H. induction 1; constructor; auto. Qed.
Section V.
Context {V : Type} (A : arith V) (zero : V) (of_int : Z -> V) (chains : list (@chain V)) (coupling : list (list V)).
Notation ev := (ev A zero of_int chains (Some coupling)).
Notation denotes := (denotes A of_int chains coupling).

Lemma digits_value_ok w i : decimal_value w i -> digits_value w = i.
Proof. induction 1 as [|w z c H IH]; [reflexivity|]. unfold digits_value in *. rewrite fold_left_app. cbn [fold_left]. rewrite IH. reflexivity. Qed.
Lemma index_atoi w i : index w i -> atoi w = Ok i.
Proof. intros (_ & H1 & H2). unfold atoi. rewrite (digits_value_ok w i H1). destruct (Z.leb_spec i 2147483647); [reflexivity|lia]. Qed.
Lemma nth_channel i c : nth_is chains (i - 1) c -> Mtool_model.channel chains i = Ok c.
Proof.
  intros (a & b & -> & H). unfold Mtool_model.channel. rewrite app_length. cbn [List.length].
  destruct (Z.leb_spec 1 i); [|lia]. destruct (Z.leb_spec i (Z.of_nat (List.length a + S (List.length b)))); [|lia]. cbn [andb].
  replace (Z.to_nat (i - 1)) with (List.length a) by lia. rewrite nth_error_app2, Nat.sub_diag by lia. reflexivity.
Qed.
Lemma nth_element {B} (l : list B) i x : nth_is l i x -> element l i = Ok x.
Proof.
  intros (a & b & -> & ->). unfold element. rewrite app_length. cbn [List.length]. destruct (Z.ltb_spec (Z.of_nat (List.length a)) (Z.of_nat (List.length a + S (List.length b)))); [|lia].
  rewrite Nat2Z.id, nth_error_app2, Nat.sub_diag by lia. reflexivity.
Qed.
Lemma denotes_ev env e v : denotes env e v -> ev env e = Ok v.
Proof.
  induction 1 as [w i H|w H|w H|x|f e v Hf H IH|e v H IH|e v H IH|e v H IH|a b v w Ha IHa Hb IHb|a b v w Ha IHa Hb IHb|a b v w Ha IHa Hb IHb|a b v w Ha IHa Hb IHb Hz
    |w i c Hi Hc|w u i j c x Hi Hj Hc Hx|w u i j c x Hi Hj Hc Hx|w u i j c x Hi Hj Hc Hx|w u i j c x Hi Hj Hc Hx|w u i j r x Hi Hj Hr Hx].
  - cbn [Mtool_parse.ev]. assert (E := num_tok_digits w (proj1 H)). unfold num_tok in E. destruct (forallb isdigit w); [|discriminate]. rewrite (index_atoi w i H). reflexivity.
  - cbn [Mtool_parse.ev]. assert (E := num_tok_pointed w H). unfold num_tok in E. destruct (forallb isdigit w); [discriminate|]. reflexivity.
  - cbn [Mtool_parse.ev]. assert (E := num_tok_one w H). unfold num_tok in E. destruct (forallb isdigit w); [discriminate|]. reflexivity.
  - reflexivity.
  - assert (E : ev env (Call f [e]) = let* v := ev env e in Ok (a_sqrt A v)) by (destruct Hf as [<-|[<-|[]]]; destruct e; reflexivity). rewrite E, IH. reflexivity.
  - assert (E : ev env (Call (str "exp") [e]) = let* v := ev env e in Ok (a_exp A v)) by (destruct e; reflexivity). rewrite E, IH. reflexivity.
  - assert (E : ev env (Call (str "log") [e]) = let* v := ev env e in Ok (a_log A v)) by (destruct e; reflexivity). rewrite E, IH. reflexivity.
  - cbn [Mtool_parse.ev]. rewrite IH. reflexivity.
  - cbn [Mtool_parse.ev]. rewrite IHa, IHb. reflexivity.
  - cbn [Mtool_parse.ev]. rewrite IHa, IHb. reflexivity.
  - cbn [Mtool_parse.ev]. rewrite IHa, IHb. reflexivity.
  - cbn [Mtool_parse.ev]. rewrite IHa, IHb. cbn [bind]. unfold divide. rewrite Hz. reflexivity.
  - change (ev env (Call (str "gammaPolCh") [Num w])) with (let* x := atoi w in gammapolch A chains x). rewrite (index_atoi w i Hi). cbn [bind]. unfold gammapolch. rewrite (nth_channel i c Hc). reflexivity.
  - change (ev env (Call (str "coefxi") [Num w; Num u])) with (let* x := atoi w in let* y := atoi u in coef chains (Some coupling) KXi x y).
    rewrite (index_atoi w i Hi), (index_atoi u j Hj). cbn [bind coef]. rewrite (nth_channel i c Hc). cbn [bind]. apply nth_element. auto.
  - change (ev env (Call (str "coefzeta") [Num w; Num u])) with (let* x := atoi w in let* y := atoi u in coef chains (Some coupling) KZeta x y).
    rewrite (index_atoi w i Hi), (index_atoi u j Hj). cbn [bind coef]. rewrite (nth_channel i c Hc). cbn [bind]. apply nth_element. auto.
  - change (ev env (Call (str "coefdelta") [Num w; Num u])) with (let* x := atoi w in let* y := atoi u in coef chains (Some coupling) KDelta x y).
    rewrite (index_atoi w i Hi), (index_atoi u j Hj). cbn [bind coef]. rewrite (nth_channel i c Hc). cbn [bind]. apply nth_element. auto.
  - change (ev env (Call (str "coefkappa") [Num w; Num u])) with (let* x := atoi w in let* y := atoi u in coef chains (Some coupling) KKappa x y).
    rewrite (index_atoi w i Hi), (index_atoi u j Hj). cbn [bind coef]. rewrite (nth_channel i c Hc). cbn [bind]. apply nth_element. auto.
  - change (ev env (Call (str "coefV") [Num w; Num u])) with (let* x := atoi w in let* y := atoi u in coef chains (Some coupling) KV x y).
    rewrite (index_atoi w i Hi), (index_atoi u j Hj). cbn [bind coef]. unfold coefV. assert (P1 : (1 <= i)%Z) by (destruct Hr as (a & b & _ & E); lia). assert (P2 : (1 <= j)%Z) by (destruct Hx as (a & b & _ & E); lia).
    destruct (Z.leb_spec 1 i); [|lia]. cbn [my_assert bind]. rewrite (nth_element _ _ _ Hr). cbn [bind]. destruct (Z.leb_spec 1 j); [|lia]. cbn [my_assert bind]. apply nth_element. auto.
Qed.

Context (fmt : V -> text) (prefix : text).
Notation star := (star A zero of_int fmt prefix chains (Some coupling)).
Notation tool := (tool A zero of_int fmt prefix chains (Some coupling)).
Notation effect := (effect A of_int chains coupling fmt prefix).
Notation effects := (effects A of_int chains coupling fmt prefix).
Notation mk := (@Build_state V).

Lemma line_ok L env l env' o : List.length L <= NSYMS -> proper_line l -> names_ok L (line_names l) -> effect env l env' o ->
  forall sy out b r, good_table A zero L [] env sy ->
  exists sy', good_table A zero L [] env' sy' /\ star (mk [] sy out b, line_toks l ++ TCh newline :: r) (mk [] sy' (out ++ o) true, r).
Proof.
  intros LN HP HN HE. destruct HE as [e v D|x gap e v D|es vs D|gap rows vss D|w|x|x w|]; intros sy out b r T; cbn [line_toks line_names proper_line] in *.
  - apply (value_line A zero of_int fmt prefix chains (Some coupling) L LN); auto. apply denotes_ev; auto.
  - destruct HP as (P1 & P2 & _). rewrite app_nil_r. apply (set_line A zero of_int fmt prefix chains (Some coupling) L LN); auto.
    + apply (free_in L x (x :: expr_names e)); cbn; auto.
    + intros y Hy. apply HN. right; auto.
    + apply denotes_ev; auto.
  - apply (row_line A zero of_int fmt prefix chains (Some coupling) L LN); auto. apply (f2_impl _ _ _ _ (denotes_ev env) D).
  - destruct HP as (P1 & P2 & P3 & _). apply (rows_line A zero of_int fmt prefix chains (Some coupling) L LN env rows vss); auto.
    refine (f2_impl _ _ _ _ _ D). intros es vs. apply (f2_impl _ _ _ _ (denotes_ev env)).
  - rewrite app_nil_r. exists sy. split; auto. apply next_ok. auto.
  - rewrite app_nil_r. exists sy. split; auto. apply next_ok. auto.
  - rewrite app_nil_r. exists sy. split; auto. apply next_ok. auto.
  - rewrite app_nil_r. exists sy. split; auto. apply next_ok. auto.
Qed.
Definition input_toks (p : list line) : list tok := flat_map (fun l => line_toks l ++ [TCh newline]) p.
Lemma lex_input p : Forall proper_line p -> LX true 0 (input_text p) (input_toks p) true 0 [].
Proof.
  assert (G : forall r, Forall proper_line p -> LX true 0 (input_text p ++ r) (input_toks p) true 0 r).
  { induction p as [|l p IH]; intros r H; [apply LX_nil|]. inversion H as [|? ? H1 H2]; subst. unfold input_text, input_toks in *. cbn [flat_map].
    rewrite <- (app_assoc (line_text l ++ [newline])), <- (app_assoc (line_text l)). cbn [app].
    eapply LX_app; [apply lex_line; auto|]. apply IH; auto. }
  intros H. specialize (G [] H). rewrite app_nil_r in G. exact G.
Qed.
Lemma tokens_input p : Forall proper_line p -> tokens (input_text p) = input_toks p ++ [TEnd].
Proof. intros H. unfold tokens. destruct (lex_input p H (S (List.length (input_text p))) ltac:(lia)) as (m & Hm & ->). cbn [List.length] in Hm. destruct m; [lia|]. reflexivity. Qed.
Lemma lines_ok L p env env' o : List.length L <= NSYMS -> Forall proper_line p -> names_ok L (flat_map line_names p) -> effects env p env' o ->
  forall sy out b r, good_table A zero L [] env sy ->
  exists sy', good_table A zero L [] env' sy' /\ star (mk [] sy out b, input_toks p ++ r) (mk [] sy' (out ++ o) (match p with [] => b | _ => true end), r).
Proof.
  intros LN HP HN HE. revert HP HN. induction HE as [env|env l env1 o1 p env2 o2 E1 E2 IH]; intros HP HN sy out b r T.
  - exists sy. split; auto. rewrite app_nil_r. apply star_refl.
  - inversion HP as [|? ? P1 P2]; subst. cbn [flat_map] in HN. apply names_ok_app in HN as [N1 N2]. unfold input_toks. cbn [flat_map]. rewrite <- !app_assoc. cbn [app].
    destruct (line_ok L env l env1 o1 LN P1 N1 E1 sy out b (input_toks p ++ r) T) as (sy1 & T1 & S1).
    destruct (IH P2 N2 sy1 (out ++ o1) true r T1) as (sy2 & T2 & S2). exists sy2. split; auto. eapply star_trans; [exact S1|]. rewrite app_assoc. destruct p; exact S2.
Qed.
Definition fnames : list text := map str ["Sqrt"; "sqrt"; "exp"; "log"]%string.
Lemma start_ok L : incl fnames L -> good_table A zero L [] (fun _ => zero) (start_table A zero).
Proof.
  intros H. split; [|split; [|split; [|split]]].
  - repeat constructor; cbn; intros G; repeat destruct G as [G|G]; try discriminate; contradiction.
  - exact H.
  - intros x. unfold value_in, find_sym, start_table. cbn [map List.find name fst snd]. repeat match goal with |- context [text_eqb ?a x] => destruct (text_eqb a x) end; reflexivity.
  - reflexivity.
  - intros x [].
Qed.
Theorem program_ok (names : list text) p env o : List.length names <= 196 -> (forall x, In x (flat_map line_names p) -> In x reserved \/ In x names) ->
  p <> [] -> Forall proper_line p -> effects (fun _ => zero) p env o -> tool (input_text p) (o, Finished).
Proof.
  intros HL HN Hne HP HE. set (L := fnames ++ names). assert (LN : List.length L <= NSYMS) by (unfold L; rewrite app_length; change (List.length fnames) with 4; unfold NSYMS; lia).
  destruct (lines_ok L p (fun _ => zero) env o LN HP) with (sy := start_table A zero) (out := @nil ascii) (b := false) (r := [TEnd]) as (sy & T & S); auto.
  { intros x Hx. destruct (HN x Hx); [auto|]. right. apply in_or_app. auto. }
  { apply start_ok. apply incl_appl. apply incl_refl. }
  unfold Mtool_model.tool. rewrite (tokens_input p HP).
  destruct (star_run A zero of_int fmt prefix chains (Some coupling) _ _ S Finished) as (n & Hn).
  - destruct p; [contradiction|]. reflexivity.
  - exists n. exact Hn.
Qed.
End V.
