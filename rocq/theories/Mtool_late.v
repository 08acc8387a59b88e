(** C78: a heading or a comment sign after the beginning of a line; the grammar has one reading. *)
From Coq Require Import List ZArith Bool Ascii String Lia.
From Verif Require Import Base Params_model Template_model Template_spec Template_lex Template_words Mtool_model Mtool_spec Mtool_lex Mtool_parse Mtool_lines Mtool_proofs Mtool_more Mtool_gram Mtool_complete.
Import ListNotations.
Local Open Scope list_scope.

Lemma LX_heading k x r : name_text x -> LX false k ("["%char :: x ++ "]"%char :: r) [] false k r.
Proof.
  intros Hx n Hn. destruct n as [|n]; [lia|]. exists n. cbn [app List.length] in *. rewrite app_length in Hn. cbn [List.length] in Hn. split; [lia|].
  cbn [lex]. change (Ascii.eqb "[" newline) with false. change (false && Ascii.eqb "[" "#") with false. change (false && Ascii.eqb "[" "!") with false.
  change (blank "[") with false. change (isalpha "[") with false. change (isdigit "[" || Ascii.eqb "[" ".") with false. change (Ascii.eqb "[" "[") with true. cbn iota.
  assert (S1 := span_name x ("]"%char :: r) Hx ltac:(intros c t E; injection E as <- _; reflexivity)).
  destruct Hx as (c & t & -> & Hc & _). cbn [app] in *. unfold section_rest. rewrite Hc, S1. change (Ascii.eqb "]" "]") with true. reflexivity.
Qed.
Section F.
Context {V : Type} (A : arith V) (zero : V) (of_int : Z -> V) (chains : list (@chain V)) (coupling : list (list V)) (fmt : V -> text) (prefix : text).
Notation denotes := (denotes A of_int chains coupling).
Notation star := (star A zero of_int fmt prefix chains (Some coupling)).
Notation tool := (tool A zero of_int fmt prefix chains (Some coupling)).
Notation effects := (effects A of_int chains coupling fmt prefix).
Notation mk := (@Build_state V).
Theorem heading_in_sum (names : list text) p env o f x e v : List.length names <= 196 ->
  (forall y, In y (f :: flat_map line_names p ++ expr_names e) -> In y reserved \/ In y names) ->
  Forall proper_line p -> effects (fun _ => zero) p env o -> free_name f -> free_name x -> readable e -> denotes env e v ->
  tool (input_text p ++ show (Add (Call f [Var x]) e) ++ [newline]) (o ++ shown fmt prefix [a_add A (env f) v], Finished).
Proof.
  intros HL HN HP HE Hf Hx Re De.
  assert (Sh : show (Add (Call f [Var x]) e) = f ++ "["%char :: x ++ "]"%char :: "+"%char :: show_at 1 e).
  { change (show (Add (Call f [Var x]) e)) with ((f ++ "["%char :: x ++ ["]"%char]) ++ "+"%char :: show_at 1 e). rewrite <- !app_assoc. cbn [app]. rewrite <- !app_assoc. reflexivity. }
  rewrite Sh.
  apply (after_ok A zero of_int chains coupling fmt prefix names p env o ((f ++ "["%char :: x ++ "]"%char :: "+"%char :: show_at 1 e) ++ [newline]) (toks_at 0 (Add (Var f) e) ++ [TCh newline; TEnd])); auto.
  - intros y Hy. apply HN. right. apply in_or_app. auto.
  - apply lex_one_line. rewrite <- app_assoc. cbn [app]. rewrite <- app_assoc. cbn [app].
    apply LX_cons with (b1 := false) (k1 := 0) (r := "["%char :: x ++ "]"%char :: "+"%char :: show_at 1 e ++ [newline]).
    + apply bracket_word; [apply Hf|apply free_parse; auto].
    + eapply LX_skip; [apply LX_heading; apply Hx|]. cbn [app].
      apply LX_cons with (b1 := false) (k1 := 0) (r := show_at 1 e ++ [newline]); [apply LX_char; cbn; tauto|]. apply lex_expr; [auto|apply delim_cons; cbn; tauto].
  - intros sy bb T. assert (LN : List.length (fnames ++ names) <= NSYMS) by (rewrite app_length; change (List.length fnames) with 4; unfold NSYMS; lia).
    destruct (value_line A zero of_int fmt prefix chains (Some coupling) (fnames ++ names) LN env (Add (Var f) e) (a_add A (env f) v)) with (sy := sy) (out := o) (b := bb) (r := [TEnd]) as (sy' & T' & S); auto.
    + constructor; [constructor|]; auto.
    + intros y Hy. destruct (HN y); [|auto|right; apply in_or_app; auto]. cbn [expr_names app] in Hy. destruct Hy as [->|Hy]; [left; auto|]. right. apply in_or_app. auto.
    + cbn [Mtool_parse.ev bind]. rewrite (denotes_ev A zero of_int chains coupling env e v De). reflexivity.
    + eexists. split; [exact S|]. split; [apply end_ok; reflexivity|reflexivity].
Qed.
Theorem comment_error (names : list text) p env o es vs : List.length names <= 196 ->
  (forall y, In y (flat_map line_names p ++ flat_map expr_names es) -> In y reserved \/ In y names) ->
  Forall proper_line p -> effects (fun _ => zero) p env o -> Forall readable es -> Forall2 (denotes env) es vs ->
  tool (input_text p ++ row_text es ++ str " #" ++ [newline]) (o ++ shown fmt prefix vs, Syntax).
Proof.
  intros HL HN HP HE Re De.
  apply (after_ok A zero of_int chains coupling fmt prefix names p env o (row_text es ++ str " #" ++ [newline]) (row_toks es ++ [TCh "#"; TCh newline; TEnd])); auto.
  - intros y Hy. apply HN. apply in_or_app. auto.
  - intros n Hn. destruct (LX_row true 0 es (str " #" ++ [newline]) Re n Hn) as (m & Hm & ->). cbn [app str list_ascii_of_string List.length] in Hm. do 4 (destruct m as [|m]; [lia|]). reflexivity.
  - intros sy bb T. assert (LN : List.length (fnames ++ names) <= NSYMS) by (rewrite app_length; change (List.length fnames) with 4; unfold NSYMS; lia).
    destruct es as [|e es].
    + inversion De; subst. exists (mk [SStmt] sy (o ++ shown fmt prefix []) bb, [TCh "#"; TCh newline; TEnd]). split; [|split; reflexivity]. rewrite <- dump_vector_ok.
      unfold row_toks. cbn [map sep_toks app]. do 2 (eapply star_step; [reflexivity|]). eapply star_step; [reflexivity|]. apply star_one. reflexivity.
    + destruct (items_ok A zero of_int fmt prefix chains (Some coupling) (fnames ++ names) LN [] env (e :: es) vs Re) with (st := [@SCh V "{"]) (sy := sy) (out := o) (b := bb) (r := [TCh "#"; TCh newline; TEnd]) as (sy' & T' & S); auto.
      * intros y Hy. destruct (HN y); [apply in_or_app; auto|auto|]. right. apply in_or_app. auto.
      * apply (f2_impl _ _ _ _ (denotes_ev A zero of_int chains coupling env) De).
      * discriminate.
      * left. exists []. split; [auto|left; auto].
      * exists (mk [SStmt] sy' (o ++ shown fmt prefix vs) bb, [TCh "#"; TCh newline; TEnd]). split; [|split; reflexivity]. rewrite <- dump_vector_ok.
        unfold row_toks. cbn [app]. rewrite <- app_assoc. cbn [app]. eapply star_step; [reflexivity|]. eapply star_trans; [exact S|].
        eapply star_step; [reflexivity|]. eapply star_step; [reflexivity|]. apply star_one. reflexivity.
Qed.
End F.
Theorem one_reading {V : Type} (A : arith V) (zero : V) (of_int : Z -> V) (fmt : V -> text) (prefix : text) (chains : list (@chain V)) (coupling : option (list (list V)))
  (names : list text) w env o env' o' : List.length names <= 196 -> (forall x, In (TName x) w -> In x names) ->
  lines A zero of_int chains coupling fmt prefix w env o -> lines A zero of_int chains coupling fmt prefix w env' o' -> o = o'.
Proof.
  intros HL HN H H'. destruct w as [|t w].
  { assert (G : forall e u, lines A zero of_int chains coupling fmt prefix [] e u -> u = []).
    { intros e u G. inversion G as [|w1 e1 o1 ts e2 o2 G1 G2 E]; [reflexivity|]. exfalso. destruct w1; [destruct ts|]; discriminate E. }
    rewrite (G _ _ H), (G _ _ H'). reflexivity. }
  set (L := fnames ++ names). assert (LN : List.length L <= NSYMS) by (unfold L; rewrite app_length; change (List.length fnames) with 4; unfold NSYMS; lia).
  assert (R : forall e u, lines A zero of_int chains coupling fmt prefix (t :: w) e u -> exists n, run A zero of_int fmt prefix chains coupling n (initial A zero) ((t :: w) ++ [TEnd]) = Some (u, Finished)).
  { intros e u G. destruct (lines_read A zero of_int fmt prefix chains coupling L LN _ _ _ G) with (r := [TEnd]) as (sy & T & S).
    { intros x Hx. apply in_or_app. right. auto. } { apply incl_appl. apply incl_refl. }
    destruct (star_run A zero of_int fmt prefix chains coupling _ _ S Finished) as (n & Hn); [reflexivity|]. exists n. exact Hn. }
  destruct (R _ _ H) as [n E]. destruct (R _ _ H') as [m E'].
  apply (run_more A zero of_int fmt prefix chains coupling n (n + m)) in E; [|lia]. apply (run_more A zero of_int fmt prefix chains coupling m (n + m)) in E'; [|lia]. congruence.
Qed.
