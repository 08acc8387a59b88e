(** C78: what the tool matrix reads is what the grammar describes. *)
From Coq Require Import List ZArith Bool Ascii String Lia.
From Verif Require Import Base Params_model Template_model Template_spec Template_lex Template_words Mtool_model Mtool_spec Mtool_parse Mtool_lines Mtool_gram.
Import ListNotations.
Local Open Scope char_scope.
Local Open Scope list_scope.

(** * Integers *)
Lemma value_digits w : decimal_value w (digits_value w).
Proof.
  induction w as [|c w IH] using rev_ind; [constructor|]. unfold digits_value in *. rewrite fold_left_app. cbn [fold_left]. constructor. exact IH.
Qed.
Lemma atoi_numeral w i : atoi w = Ok i -> numeral w i.
Proof. unfold atoi. destruct (Z.leb_spec (digits_value w) 2147483647); intros E; [|discriminate]. injection E as <-. split; [apply value_digits|auto]. Qed.
Definition whole (t : tok) : Prop := match t with TInt w => all_are isdigit w | _ => True end.
Lemma fold_nonneg w : all_are isdigit w -> forall z, (0 <= z)%Z -> (0 <= fold_left (fun z c => 10 * z + (Z.of_nat (nat_of_ascii c) - 48))%Z w z)%Z.
Proof.
  induction 1 as [|c w H _ IH]; intros z Hz; cbn [fold_left]; [auto|]. apply IH.
  unfold isdigit, between in H. apply andb_prop in H as [H _]. apply Nat.leb_le in H. change (nat_of_ascii "0") with 48%nat in H. lia.
Qed.
Lemma atoi_nonneg w i : all_are isdigit w -> atoi w = Ok i -> (0 <= i)%Z.
Proof.
  intros H E. unfold atoi in E. destruct (digits_value w <=? 2147483647)%Z; [|discriminate]. injection E as <-. apply fold_nonneg; [auto|lia].
Qed.
Lemma scan_whole s t r : scan_number s = (t, r) -> whole t.
Proof.
  unfold scan_number. destruct (span isdigit s) as [a b] eqn:E. apply span_spec in E as (_ & H & _).
  assert (P : forall t r, (match a with [d] => if Ascii.eqb d "0" then (TInt a, b) else let '(x, w) := exponent "e" "e" b in match x with [] => (TInt a, b) | _ => (TNum (a ++ x), w) end | _ => (TInt a, b) end) = (t, r) -> whole t).
  { intros t' r' G. destruct a as [|d [|]]; try (injection G as <- <-; exact H). destruct (Ascii.eqb d "0"); [injection G as <- <-; exact H|].
    destruct (exponent "e" "e" b) as [[|] ?]; injection G as <- <-; [exact H|exact Logic.I]. }
  destruct b as [|c u]; [apply P|]. destruct (Ascii.eqb c "."); [|apply P]. destruct (span isdigit u) as [x v]. destruct (exponent "e" "E" v). intros G. injection G as <- <-. exact Logic.I.
Qed.
Lemma word_whole w : whole (word w).
Proof. unfold word. repeat match goal with |- context [text_eqb ?a ?b] => destruct (text_eqb a b) end; exact Logic.I. Qed.
Lemma lex_whole n : forall b k s, Forall whole (lex n b k s).
Proof.
  induction n as [|n IH]; intros b k s; cbn [lex]; [constructor|]. destruct s as [|c t]; [repeat constructor|].
  assert (O : forall t l, whole t -> Forall whole l -> Forall whole (t :: l)) by (intros; constructor; auto).
  repeat match goal with
  | |- context [if ?x then _ else _] => destruct x
  | |- context [match k with _ => _ end] => destruct k
  | |- context [section_rest ?x] => destruct (section_rest x)
  | |- context [span ?p ?x] => destruct (span p x)
  | |- context [scan_number ?x] => let E := fresh in destruct (scan_number x) eqn:E; apply scan_whole in E
  end; auto; try (repeat constructor; fail); try (apply O; [exact Logic.I|auto]); try (apply O; auto; apply word_whole).
Qed.

Section S.
Context {V : Type} (A : arith V) (zero : V) (of_int : Z -> V) (fmt : V -> text) (prefix : text) (chains : list (@chain V)) (coupling : option (list (list V))).
Notation sym := (@sym V).
Notation state := (@state V).
Notation reduce := (reduce A zero of_int fmt prefix chains coupling).
Notation act := (act A zero fmt prefix).
Notation step := (step A zero of_int fmt prefix chains coupling).
Notation run := (run A zero of_int fmt prefix chains coupling).
Notation tool := (tool A zero of_int fmt prefix chains coupling).
Notation means := (means A zero of_int chains coupling).
Notation items := (items A zero of_int chains coupling).
Notation row := (row A zero of_int chains coupling).
Notation rows := (rows A zero of_int chains coupling).
Notation statement := (statement A zero of_int chains coupling fmt prefix).
Notation lines := (lines A zero of_int chains coupling fmt prefix).
Notation applied := (applied A zero).
Notation coefficient := (coefficient chains coupling).

Lemma channel_nth i c : channel chains i = Ok c -> nth_is chains (i - 1) c.
Proof.
  unfold channel. destruct (Z.leb_spec 1 i); [|discriminate]. destruct (_ <=? _)%Z; [|discriminate]. cbn [andb].
  destruct (nth_error chains (Z.to_nat (i - 1))) eqn:E; [|discriminate]. intros G. injection G as <-. apply nth_error_split in E as (l1 & l2 & -> & L). exists l1, l2. split; [auto|lia].
Qed.
Lemma element_nth {B} (l : list B) i x : (0 <= i)%Z -> element l i = Ok x -> nth_is l i x.
Proof.
  intros H. unfold element. destruct (_ <? _)%Z; [|discriminate]. destruct (nth_error l (Z.to_nat i)) eqn:E; [|discriminate]. intros G. injection G as <-.
  apply nth_error_split in E as (l1 & l2 & -> & L). exists l1, l2. split; [auto|lia].
Qed.
Lemma coef_nth k i j x : (0 <= j)%Z -> coef chains coupling k i j = Ok x -> coefficient k i j x.
Proof.
  intros Hj. destruct k; cbn [coef]; intros H; [discriminate| | | | |].
  1-4: apply bind_ok2 in H as (c & H1 & H2); apply channel_nth in H1; apply element_nth in H2; auto; econstructor; eauto.
  unfold coefV in H. destruct coupling as [m|] eqn:E; [|discriminate]. unfold my_assert in H. destruct (Z.leb_spec 1 i); [|discriminate]. cbn [bind] in H.
  apply bind_ok2 in H as (r & H1 & H2). destruct (Z.leb_spec 1 j); [|discriminate]. cbn [bind] in H2.
  apply element_nth in H1; [|lia]. apply element_nth in H2; [|lia]. econstructor; eauto.
Qed.

(** * The table *)
Definition known (sy : list (@entry V)) (x : text) : Prop := find_sym sy x <> None.
Definition fits (sy : list (@entry V)) (env : text -> V) : Prop :=
  (forall x, value_in zero sy x = env x) /\ (forall f v, applied f v (call zero sy f v)).
Lemma start_fits : fits (start_table A zero) (fun _ => zero).
Proof.
  split; intros x.
  - unfold value_in, find_sym, start_table. cbn [map List.find name fst snd]. repeat match goal with |- context [text_eqb ?a x] => destruct (text_eqb a x) end; reflexivity.
  - intros v. unfold call, find_sym, start_table. cbn [map List.find name fst snd].
    destruct (text_eqb (str "Sqrt") x) eqn:E1; [apply text_eqb_eq in E1; subst; apply Ap_sqrt; cbn; tauto|].
    destruct (text_eqb (str "sqrt") x) eqn:E2; [apply text_eqb_eq in E2; subst; apply Ap_sqrt; cbn; tauto|].
    destruct (text_eqb (str "exp") x) eqn:E3; [apply text_eqb_eq in E3; subst; apply Ap_exp|].
    destruct (text_eqb (str "log") x) eqn:E4; [apply text_eqb_eq in E4; subst; apply Ap_log|].
    apply Ap_other. intros H. cbn [map In] in H. repeat destruct H as [<-|H]; try contradiction; rewrite (proj2 (text_eqb_eq _ _) eq_refl) in *; discriminate.
Qed.
Lemma symlook_fits sy x sy' env : fits sy env -> symlook zero sy x = Some sy' -> fits sy' env /\ known sy' x /\ (forall y, known sy y -> known sy' y).
Proof.
  intros [H1 H2] E. unfold symlook in E. destruct (find_sym sy x) as [e|] eqn:F.
  - injection E as <-. split; [split; auto|]. split; [unfold known; rewrite F; discriminate|auto].
  - destruct (Nat.ltb _ _); [|discriminate]. injection E as <-. split; [split|split].
    + intros y. rewrite <- H1. unfold value_in. rewrite find_app. destruct (find_sym sy y); [reflexivity|]. cbn [name]. destruct (text_eqb x y); reflexivity.
    + intros f v. specialize (H2 f v). unfold call in *. rewrite find_app. destruct (find_sym sy f); [exact H2|]. cbn [name]. destruct (text_eqb x f); exact H2.
    + unfold known. rewrite find_app, F. cbn [name]. rewrite (proj2 (text_eqb_eq x x) eq_refl). discriminate.
    + intros y K. unfold known in *. rewrite find_app. destruct (find_sym sy y); [discriminate|congruence].
Qed.
Lemma assign_fits sy x v env : fits sy env -> known sy x -> fits (assign sy x v) (update env x v).
Proof.
  intros [H1 H2] K. split.
  - intros y. unfold value_in, update. rewrite find_assign. specialize (H1 y). unfold value_in in H1. unfold known in K.
    destruct (find_sym sy y) as [e|] eqn:E.
    + assert (N : name e = y) by (unfold find_sym in E; apply find_some in E as [_ E]; apply text_eqb_eq in E; auto). rewrite N.
      destruct (text_eqb y x); [reflexivity|auto].
    + destruct (text_eqb y x) eqn:F; [|auto]. apply text_eqb_eq in F. subst. congruence.
  - intros f w. specialize (H2 f w). unfold call in *. rewrite find_assign. destruct (find_sym sy f) as [e|]; [|auto]. destruct (text_eqb (name e) x); exact H2.
Qed.

(** * The stack *)
Notation mk st sy out b := {| stack := st; table := sy; output := out; begun := b |}.
Definition next_not (c : ascii) (ts : list tok) : Prop := match ts with t :: _ => tis t c = false | [] => True end.
Definition next_weak (ts : list tok) : Prop := match ts with t :: _ => tmul t = false | [] => True end.
(** Rows of a matrix that have been read, an open row of a matrix, a place for an expression of some level. *)
Inductive rplace (env : text -> V) : list sym -> list tok -> Prop :=
| R_first : rplace env [SCh "{"] [TCh "{"]
| R_next st w r u : rplace env st w -> row env u r -> rplace env (SCh "," :: SVec r :: st) (w ++ u ++ [TCh ","]).
Definition place env (st : list sym) (w : list tok) : Prop := st = [] /\ w = [] \/ rplace env st w.
Inductive ictx (env : text -> V) : list sym -> list tok -> Prop :=
| I_first st w : place env st w -> ictx env (SCh "{" :: st) (w ++ [TCh "{"])
| I_next st w v u : ictx env st w -> means env Sum u v -> ictx env (SCh "," :: SE v :: st) (w ++ u ++ [TCh ","]).
Inductive ctx (K : text -> Prop) (env : text -> V) : level -> list sym -> list tok -> Prop :=
| C_top : ctx K env Sum [] []
| C_set x : K x -> ctx K env Sum [SCh "="; SName x] [TName x; TCh "="]
| C_paren lv st w : ctx K env lv st w -> ctx K env Sum (SCh "(" :: st) (w ++ [TCh "("])
| C_call lv st w f o : ctx K env lv st w -> o = "(" \/ o = "[" -> ctx K env Sum (SCh o :: SName f :: st) (w ++ [TName f; TCh o])
| C_neg lv st w : ctx K env lv st w -> ctx K env Factor (SCh "-" :: st) (w ++ [TCh "-"])
| C_mul lv st w a u o : ctx K env lv st w -> lv <> Factor -> means env Term u a -> o = "*" \/ o = "/" -> ctx K env Factor (SCh o :: SE a :: st) (w ++ u ++ [TCh o])
| C_add st w a u o : ctx K env Sum st w -> means env Sum u a -> o = "+" \/ o = "-" -> ctx K env Term (SCh o :: SE a :: st) (w ++ u ++ [TCh o])
| C_item st w : ictx env st w -> ctx K env Sum st w.
Definition at_level env (lv : level) (u : list tok) (v : V) (ts : list tok) : Prop :=
  match lv with Sum => means env Term u v \/ means env Sum u v /\ next_weak ts | _ => means env lv u v end.
Inductive Inv (K : text -> Prop) (env : text -> V) : list sym -> list tok -> list tok -> Prop :=
| V_ctx lv st w ts : ctx K env lv st w -> Inv K env st w ts
| V_next st w r u ts : rplace env st w -> row env u r -> Inv K env (SCh "," :: SVec r :: st) (w ++ u ++ [TCh ","]) ts
| V_num lv st w n ts : ctx K env lv st w -> Inv K env (SNum n :: st) (w ++ [TNum n]) ts
| V_int lv st w n ts : ctx K env lv st w -> Inv K env (SInt n :: st) (w ++ [TInt n]) ts
| V_name lv st w x ts : ctx K env lv st w -> K x -> Inv K env (SName x :: st) (w ++ [TName x]) ts
| V_expr lv st w v u ts : ctx K env lv st w -> at_level env lv u v ts -> Inv K env (SE v :: st) (w ++ u) ts
| V_paren lv st w v u ts : ctx K env lv st w -> means env Sum u v -> Inv K env (SCh ")" :: SE v :: SCh "(" :: st) (w ++ TCh "(" :: u ++ [TCh ")"]) ts
| V_call lv st w f o c v u ts : ctx K env lv st w -> o = "(" /\ c = ")" \/ o = "[" /\ c = "]" -> means env Sum u v ->
    Inv K env (SCh c :: SE v :: SCh o :: SName f :: st) (w ++ TName f :: TCh o :: u ++ [TCh c]) ts
| V_key lv st w k ts : ctx K env lv st w -> Inv K env (SKey k :: st) (w ++ [TKey k]) ts
| V_key1 lv st w k ts : ctx K env lv st w -> Inv K env (SCh "[" :: SKey k :: st) (w ++ [TKey k; TCh "["]) ts
| V_key2 lv st w k i ts : ctx K env lv st w -> Inv K env (SInt i :: SCh "[" :: SKey k :: st) (w ++ [TKey k; TCh "["; TInt i]) ts
| V_gamma lv st w i ts : ctx K env lv st w -> Inv K env (SCh "]" :: SInt i :: SCh "[" :: SKey KGamma :: st) (w ++ [TKey KGamma; TCh "["; TInt i; TCh "]"]) ts
| V_key3 lv st w k i ts : ctx K env lv st w -> k <> KGamma -> Inv K env (SCh "," :: SInt i :: SCh "[" :: SKey k :: st) (w ++ [TKey k; TCh "["; TInt i; TCh ","]) ts
| V_key4 lv st w k i j ts : ctx K env lv st w -> k <> KGamma -> all_are isdigit j ->
    Inv K env (SInt j :: SCh "," :: SInt i :: SCh "[" :: SKey k :: st) (w ++ [TKey k; TCh "["; TInt i; TCh ","; TInt j]) ts
| V_key5 lv st w k i j ts : ctx K env lv st w -> k <> KGamma -> all_are isdigit j ->
    Inv K env (SCh "]" :: SInt j :: SCh "," :: SInt i :: SCh "[" :: SKey k :: st) (w ++ [TKey k; TCh "["; TInt i; TCh ","; TInt j; TCh "]"]) ts
| V_items st w u l ts : ictx env st w -> items env u l -> Inv K env (SEL l :: st) (w ++ u) ts
| V_close st w u l ts : place env st w -> items env u l -> Inv K env (SCh "}" :: SEL l :: SCh "{" :: st) (w ++ TCh "{" :: u ++ [TCh "}"]) ts
| V_none st w ts : place env st w -> Inv K env (SCh "}" :: SCh "{" :: st) (w ++ [TCh "{"; TCh "}"]) ts
| V_blank ts : Inv K env [SCh "}"; SCh "}"; SCh "{"; SCh "{"] [TCh "{"; TCh "{"; TCh "}"; TCh "}"] ts
| V_vec st w u r ts : place env st w -> row env u r -> (r = [] -> st = [SCh "{"] -> next_not "}" ts) -> Inv K env (SVec r :: st) (w ++ u) ts
| V_rows st w u m ts : rplace env st w -> rows env u m -> (m = [[]] -> st = [SCh "{"] -> next_not "}" ts) -> Inv K env (SVL m :: st) (w ++ u) ts
| V_end u m ts : rows env u m -> m <> [[]] -> Inv K env [SCh "}"; SVL m; SCh "{"] (TCh "{" :: u ++ [TCh "}"]) ts
| V_mat u m ts : rows env u m -> m <> [[]] -> Inv K env [SMat m] (TCh "{" :: u ++ [TCh "}"]) ts
| V_mat0 ts : Inv K env [SMat []] [TCh "{"; TCh "{"; TCh "}"; TCh "}"] ts.

Lemma ctx_mono (K K' : text -> Prop) env lv st w : (forall x, K x -> K' x) -> ctx K env lv st w -> ctx K' env lv st w.
Proof. intros H. induction 1; econstructor; eauto. Qed.
Definition chars (st : list sym) : Prop := st = [] \/ exists c st', st = SCh c :: st'.
Lemma rplace_chars env st w : rplace env st w -> exists c st', st = SCh c :: st' /\ (c = "{" /\ st' = [] \/ c = "," /\ exists r st'', st' = SVec r :: st'').
Proof. destruct 1; eexists _, _; (split; [reflexivity|]); [left|right]; eauto. Qed.
Lemma ctx_chars K env lv st w : ctx K env lv st w -> chars st.
Proof. destruct 1 as [| | | | | | |st w H]; [left; reflexivity|right; eauto ..|]. destruct H; right; eauto. Qed.
Lemma ctx_index K env lv st w : ctx K env lv st w -> index_place st = false.
Proof.
  assert (P : forall c st, chars st -> index_place (@SCh V c :: st) = false) by (intros c st' [->|(d & st'' & ->)]; reflexivity).
  destruct 1 as [| |? ? ? H| |? ? ? H| | |st w H]; try reflexivity; try (apply P; eapply ctx_chars; eauto).
  destruct H as [? ? H|]; [|reflexivity]. apply P. destruct H as [[-> _]|H]; [left; reflexivity|]. destruct (rplace_chars _ _ _ H) as (c & st' & -> & _). right. eauto.
Qed.
Lemma ctx_none K env lv st w sy out b : ctx K env lv st w -> reduce (mk st sy out b) = None.
Proof.
  destruct 1 as [| | | ? ? ? ? ? ? [->| ->] | | ? ? ? ? ? ? ? ? ? [->| ->] | ? ? ? ? ? ? ? [->| ->] |st w H]; try reflexivity. destruct H; reflexivity.
Qed.
Lemma level_factor env lv u v ts : means env Factor u v -> at_level env lv u v ts.
Proof. intros H. destruct lv; cbn; [left|..]; auto; apply G_factor; auto. Qed.
Lemma level_term env lv u v ts : lv <> Factor -> means env Term u v -> at_level env lv u v ts.
Proof. intros N H. destruct lv; cbn; [left|..]; auto. congruence. Qed.
Lemma level_sum env lv u v ts : at_level env lv u v ts -> means env Sum u v.
Proof. destruct lv; cbn; intros H; [destruct H as [H|[H _]]; [apply G_term|]; exact H|apply G_term; exact H|apply G_term, G_factor; exact H]. Qed.

Definition outcome K env (s s' : state) (w ts : list tok) : Prop :=
  (exists st', s' = with_stack s st' /\ Inv K env st' w ts) \/
  (exists env' o', statement env w env' o' /\ stack s' = [SStmt] /\ output s' = output s ++ o' /\ fits (table s') env' /\ begun s' = begun s).
Ltac stay := left; eexists; split; [reflexivity|].
Lemma Inv_eq K env st w w' ts : Inv K env st w ts -> w = w' -> Inv K env st w' ts.
Proof. intros H <-. exact H. Qed.
Ltac assoc := repeat first [rewrite <- app_assoc | progress cbn [app]]; reflexivity.
Lemma reduce_ok K env st w ts : Inv K env st w ts -> forall sy out b s', fits sy env -> reduce (mk st sy out b) = Some (Ok s') -> outcome K env (mk st sy out b) s' w ts.
Proof.
  destruct 1 as [lv st w ts C|st w r u ts R Hr|lv st w n ts C|lv st w n ts C|lv st w x ts C Kx|lv st w v u ts C L|lv st w v u ts C M|lv st w f o c v u ts C D M
    |lv st w k ts C|lv st w k ts C|lv st w k i ts C|lv st w i ts C|lv st w k i ts C N|lv st w k i j ts C N J|lv st w k i j ts C N J
    |st w u l ts P M|st w u l ts P M|st w ts P|ts|st w u r ts P M X|st w u m ts P M X|u m ts M X|u m ts M X|ts]; intros sy out b s' F E.
  - rewrite (ctx_none _ _ _ _ _ _ _ _ C) in E. discriminate.
  - discriminate.
  - injection E as <-. stay. eapply V_expr; [exact C|]. apply level_factor. constructor.
  - cbn [Mtool_model.reduce stack] in E. unfold Mtool_model.reduce in E. cbn [stack] in E. rewrite (ctx_index _ _ _ _ _ C) in E. injection E as E. apply bind_ok2 in E as (z & E1 & E2). injection E2 as <-.
    stay. eapply V_expr; [exact C|]. apply level_factor. constructor. apply atoi_numeral. auto.
  - discriminate.
  - unfold Mtool_model.reduce in E. cbn [stack] in E.
    assert (P : forall c st', chars st' -> (is c "*" = false -> is c "/" = false -> is c "-" = false) -> reduce_expr A (mk (SE v :: SCh c :: st') sy out b) v (SCh c :: st') = None).
    { intros c st' [->|(d & st'' & ->)] G; unfold reduce_expr; destruct (is c "-") eqn:Q; auto; exfalso; unfold is in Q; apply Ascii.eqb_eq in Q; subst c; cbn in G; specialize (G eq_refl eq_refl); discriminate. }
    revert P L E. destruct C as [|x Kx|lv st w C|lv st w f o C D|lv st w C|lv st w a t o C N Ma D|st w a t o C Ma D|st w C]; intros P L E.
    + discriminate.
    + discriminate.
    + rewrite P in E; [discriminate|eapply ctx_chars; eauto|reflexivity].
    + destruct D as [-> | ->]; discriminate.
    + assert (E' : s' = with_stack (mk (SE v :: SCh "-" :: st) sy out b) (SE (a_neg A v) :: st)).
      { destruct (ctx_chars _ _ _ _ _ C) as [->|(c & st' & ->)]; cbn in E; injection E as <-; reflexivity. }
      subst s'. stay. rewrite <- app_assoc. eapply V_expr; [exact C|]. apply level_factor. cbn [app]. apply G_neg. exact L.
    + cbn [at_level] in L. unfold reduce_expr in E. rewrite <- !app_assoc. destruct D as [-> | ->]; cbn in E; injection E as <-; stay; cbn [app]; (eapply V_expr; [exact C|]); apply level_term; auto.
      * apply G_mul; auto.
      * unfold divide. destruct (a_is_zero A v) eqn:Z; [eapply G_div_zero; eauto|apply G_div; auto].
    + destruct D as [-> | ->]; discriminate.
    + destruct C as [st w C|st w v' u' C M]; [|discriminate]. rewrite P in E; [discriminate| |reflexivity].
      destruct C as [[-> _]|H]; [left; reflexivity|]. destruct (rplace_chars _ _ _ H) as (c & st' & -> & _). right. eauto.
  - assert (E' : s' = with_stack (mk (SCh ")" :: SE v :: SCh "(" :: st) sy out b) (SE v :: st)).
    { destruct (ctx_chars _ _ _ _ _ C) as [->|(c & st' & ->)]; cbn in E; injection E as <-; reflexivity. }
    subst s'. stay. eapply V_expr; [exact C|]. apply level_factor. apply G_paren. exact M.
  - destruct D as [[-> ->]|[-> ->]]; injection E as <-; stay; (eapply V_expr; [exact C|]); apply level_factor; (eapply G_call; [|exact M|apply F]); auto.
  - discriminate.
  - discriminate.
  - discriminate.
  - cbn in E. injection E as E. apply bind_ok2 in E as (z & E1 & E2). apply bind_ok2 in E2 as (x & E2 & E3). injection E3 as <-. unfold gammapolch in E2. apply bind_ok2 in E2 as (c & E2 & E3). injection E3 as <-.
    stay. eapply V_expr; [exact C|]. apply level_factor. econstructor; [apply atoi_numeral; eauto|apply channel_nth; auto].
  - discriminate.
  - discriminate.
  - cbn in E. injection E as E. apply bind_ok2 in E as (z & E1 & E2). apply bind_ok2 in E2 as (y & E2 & E3). apply bind_ok2 in E3 as (x & E3 & E4). injection E4 as <-.
    stay. eapply V_expr; [exact C|]. apply level_factor. econstructor; [apply atoi_numeral; eauto|apply atoi_numeral; eauto|apply coef_nth; auto]. eapply atoi_nonneg; eauto.
  - revert E. destruct P as [st w P|st w v u' P M']; intros E; [destruct P as [[-> _]|P]; [discriminate|]; destruct P; discriminate|]. injection E as <-. stay. eapply Inv_eq; [eapply V_items; [exact P|apply It_more; [exact M'|exact M]]|assoc].
  - injection E as <-. stay. eapply V_vec; [exact P|apply Row_some; exact M|]. intros ->. inversion M.
  - destruct P as [[-> ->]|P].
    + injection E as <-. stay. eapply (V_vec _ _ [] []); [left; auto|apply Row_none|]. discriminate.
    + destruct P as [|st w r u P Hr]; [discriminate|]. injection E as <-. stay. eapply V_vec; [right; apply R_next; eauto|apply Row_none|]. discriminate.
  - injection E as <-. stay. apply V_mat0.
  - destruct P as [[-> ->]|P].
    + injection E as <-. right. exists env, (shown fmt prefix r). split; [apply S_row; exact M|]. split; [reflexivity|]. split; [|split; [exact F|reflexivity]]. cbn [output print]. rewrite dump_vector_ok. reflexivity.
    + destruct P; discriminate.
  - destruct P as [|st w r t P Hr]; [discriminate|]. injection E as <-. stay. eapply Inv_eq; [eapply V_rows; [exact P|apply Rw_more; [exact Hr|exact M]|]|assoc]. intros Q. exfalso. inversion M; subst; discriminate.
  - injection E as <-. stay. apply V_mat; auto.
  - injection E as <-. right. exists env, (flat_map (shown fmt prefix) m). split; [apply S_rows; auto|]. split; [reflexivity|]. split; [|split; [exact F|reflexivity]]. cbn [output print]. rewrite dump_matrix_ok; [reflexivity|]. inversion M; discriminate.
  - injection E as <-. right. exists env, prefix. split; [apply S_blank|]. split; [reflexivity|]. split; [|split; [exact F|reflexivity]]. cbn [output print dump_matrix]. rewrite app_nil_r. reflexivity.
Qed.

Lemma or_reduce_inv b (s s' : state) : or_reduce b s = Reduce s' -> b = false /\ s' = s.
Proof. destruct b; cbn; intros H; [discriminate|]. injection H as <-. auto. Qed.
Lemma shift_if_inv b (s' : state) : shift_if b = Reduce s' -> False.
Proof. destruct b; discriminate. Qed.
Lemma place_chars env st w : place env st w -> chars st.
Proof. intros [[-> _]|H]; [left; reflexivity|]. destruct (rplace_chars _ _ _ H) as (c & st' & -> & _). right. eauto. Qed.
Lemma item_expr env st w s v t : ictx env st w -> act_expr A fmt prefix s v st t = or_reduce (top t || tis t ",") (with_stack s (SEL [v] :: st)).
Proof.
  destruct 1 as [st w P|st w v' u P M]; [|reflexivity]. destruct (place_chars _ _ _ P) as [->|(c & st' & ->)]; unfold act_expr; cbn -[or_reduce]; reflexivity.
Qed.
Lemma act_ok K env st w t ts : Inv K env st w (t :: ts) -> forall sy out b s', (forall x, K x -> known sy x) -> fits sy env -> reduce (mk st sy out b) = None -> act (mk st sy out b) t = Reduce s' -> outcome K env (mk st sy out b) s' w (t :: ts).
Proof.
  intros H. remember (t :: ts) as rest eqn:Q. revert Q.
  destruct H as [lv st w rest C|st w r u rest R Hr|lv st w n rest C|lv st w n rest C|lv st w x rest C Kx|lv st w v u rest C L|lv st w v u rest C M|lv st w f o c v u rest C D M
    |lv st w k rest C|lv st w k rest C|lv st w k i rest C|lv st w i rest C|lv st w k i rest C N|lv st w k i j rest C N J|lv st w k i j rest C N J
    |st w u l rest P M|st w u l rest P M|st w rest P|rest|st w u r rest P M X|st w u m rest P M X|u m rest M X|u m rest M X|rest]; intros Q sy out b s' HK F Z E; unfold Mtool_model.act in E; cbn [stack] in E; subst rest.
  - exfalso. destruct C as [|x Kx|lv st w C|lv st w f o C D|lv st w C|lv st w a u o C N Ma D|st w a u o C Ma D|st w C].
    + destruct (tis t newline); [discriminate|]. apply (shift_if_inv _ _ E).
    + apply (shift_if_inv _ _ E).
    + apply (shift_if_inv _ _ E).
    + destruct D as [-> | ->]; apply (shift_if_inv _ _ E).
    + apply (shift_if_inv _ _ E).
    + destruct D as [-> | ->]; apply (shift_if_inv _ _ E).
    + destruct D as [-> | ->]; apply (shift_if_inv _ _ E).
    + destruct C as [st w P|st w v u P M]; [|apply (shift_if_inv _ _ E)]. cbn in E. destruct st; apply (shift_if_inv _ _ E).
  - exfalso. apply (shift_if_inv _ _ E).
  - discriminate.
  - exfalso. assert (I := ctx_index _ _ _ _ _ C). destruct (ctx_chars _ _ _ _ _ C) as [->|(c & st' & ->)]; [apply (shift_if_inv _ _ E)|].
    destruct st' as [|[] st']; try discriminate I; apply (shift_if_inv _ _ E).
  - apply or_reduce_inv in E as [_ ->]. stay. eapply V_expr; [exact C|]. apply level_factor. rewrite (proj1 F). constructor.
  - assert (S := level_sum _ _ _ _ _ L). revert L E S Z. destruct C as [|x Kx|lv st w C|lv st w f o C D|lv st w C|lv st w a u' o C N Ma D|st w a u' o C Ma D|st w C]; intros L E S Z.
    + apply or_reduce_inv in E as [_ ->]. right. exists env, (shown fmt prefix [v]). split; [apply S_value; exact S|]. repeat split; try apply F.
    + apply or_reduce_inv in E as [_ ->]. right. exists (update env x v), []. split; [apply S_set; exact S|]. split; [reflexivity|]. split; [cbn [output]; rewrite app_nil_r; reflexivity|]. split; [|reflexivity].
      cbn [table]. apply assign_fits; auto.
    + exfalso. destruct (ctx_chars _ _ _ _ _ C) as [->|(c & st' & ->)]; apply (shift_if_inv _ _ E).
    + exfalso. destruct D as [-> | ->]; unfold act_expr in E; destruct st; apply (shift_if_inv _ _ E).
    + exfalso. destruct (ctx_chars _ _ _ _ _ C) as [->|(c & st' & ->)]; discriminate.
    + exfalso. destruct D as [-> | ->]; discriminate.
    + assert (W : means env Term u v) by exact L.
      destruct D as [-> | ->]; apply or_reduce_inv in E as [T ->]; stay; (eapply Inv_eq; [eapply V_expr; [exact C|right; split; [first [apply G_add|apply G_sub]; [exact Ma|exact W]|exact T]]|assoc]).
    + rewrite (item_expr _ _ _ _ _ _ C) in E. apply or_reduce_inv in E as [_ ->]. stay. eapply V_items; [exact C|]. apply It_one. exact S.
  - exfalso. apply (shift_if_inv _ _ E).
  - exfalso. destruct D as [[-> ->]|[-> ->]]; apply (shift_if_inv _ _ E).
  - exfalso. apply (shift_if_inv _ _ E).
  - exfalso. apply (shift_if_inv _ _ E).
  - exfalso. destruct k; apply (shift_if_inv _ _ E).
  - exfalso. apply (shift_if_inv _ _ E).
  - exfalso. apply (shift_if_inv _ _ E).
  - exfalso. apply (shift_if_inv _ _ E).
  - exfalso. apply (shift_if_inv _ _ E).
  - exfalso. apply (shift_if_inv _ _ E).
  - discriminate.
  - apply or_reduce_inv in E as [T ->]. stay. eapply V_vec; [exact P|apply Row_none|]. intros _ _. exact T.
  - discriminate.
  - destruct P as [[-> ->]|P]; [discriminate|]. apply or_reduce_inv in E as [T ->]. stay. eapply V_rows; [exact P|apply Rw_one; exact M|]. intros G. injection G as ->. auto.
  - exfalso. apply (shift_if_inv _ _ E).
  - discriminate.
  - discriminate.
  - discriminate.
Qed.

Lemma tis_eq t c : tis t c = true -> t = TCh c.
Proof. destruct t; cbn; try discriminate. intros H. apply Ascii.eqb_eq in H. subst. reflexivity. Qed.
Lemma shifted (b : bool) : @shift_if V b = Shift -> b = true.
Proof. destruct b; auto; discriminate. Qed.
Lemma or_shifted (b : bool) (s : state) : or_reduce b s = Shift -> b = true.
Proof. destruct b; auto; discriminate. Qed.
Lemma starts_ok (K K' : text -> Prop) env lv st w t ts sy out b s' : ctx K env lv st w -> starts t = true -> push zero (mk st sy out b) t = Some s' -> (forall x, K x -> K' x) ->
  (forall x, t = TName x -> K' x) -> Inv K' env (stack s') (w ++ [t]) ts.
Proof.
  intros C S E H N. apply (ctx_mono _ _ _ _ _ _ H) in C. destruct t as [n|n|x|k|c| | | |]; try discriminate; cbn [push] in E; try (injection E as <-; cbn [stack with_stack]; first [eapply V_num|eapply V_int|eapply V_key]; exact C).
  - cbn [table] in E. destruct (symlook zero sy x) eqn:L; [|discriminate]. injection E as <-. cbn [stack]. eapply V_name; [exact C|auto].
  - injection E as <-. cbn [stack with_stack]. cbn in S. unfold is in S. apply orb_prop in S as [S|S]; apply Ascii.eqb_eq in S; subst c; eapply V_ctx; econstructor; eauto.
Qed.
Ltac become T := apply tis_eq in T; subst.
Lemma bracket_shift K env lv st w f o c v u t ts : ctx K env lv st w -> (o = "(" /\ c = ")" \/ o = "[" /\ c = "]") -> means env Sum u v -> t = TCh c ->
  Inv K env (SCh c :: SE v :: SCh o :: SName f :: st) (((w ++ [TName f; TCh o]) ++ u) ++ [t]) ts.
Proof. intros C D M ->. eapply Inv_eq; [eapply V_call; [exact C|exact D|exact M]|assoc]. Qed.
(** An operator after an expression. *)
Lemma operator_ok K env lv st w v u t ts sy out b s' : ctx K env lv st w -> at_level env lv u v (t :: ts) -> reduce (mk (SE v :: st) sy out b) = None -> top t = true ->
  (lv = Term -> tmul t = true) -> push zero (mk (SE v :: st) sy out b) t = Some s' -> Inv K env (stack s') ((w ++ u) ++ [t]) ts.
Proof.
  intros C L Z T W E. assert (NF : lv <> Factor).
  { intros ->. inversion C as [| | | |? st' w' C' |? st' w' a u' o C' N Ma D| |]; subst; [|destruct D as [-> | ->]; discriminate]. destruct (ctx_chars _ _ _ _ _ C') as [->|(c & st'' & ->)]; discriminate. }
  assert (S := level_sum _ _ _ _ _ L).
  assert (X : exists c, t = TCh c /\ s' = with_stack (mk (SE v :: st) sy out b) (SCh c :: SE v :: st)).
  { destruct t; try discriminate. exists c. split; [reflexivity|]. injection E as <-. reflexivity. }
  destruct X as (c & -> & ->). cbn [stack with_stack]. destruct (tmul (TCh c)) eqn:Q.
  - assert (Mt : means env Term u v) by (destruct lv; cbn in L; [destruct L as [L|[_ L]]; [exact L|cbn in L; congruence]|exact L|congruence]).
    eapply Inv_eq; [eapply V_ctx; eapply C_mul; [exact C|exact NF|exact Mt|]|assoc]. unfold tmul in Q. apply orb_prop in Q as [Q|Q]; become Q; [left|right]; congruence.
  - assert (lv = Sum) by (destruct lv; [reflexivity|discriminate (W eq_refl)|congruence]). subst lv. unfold top in T. rewrite Q in T. cbn [orb] in T.
    eapply Inv_eq; [eapply V_ctx; eapply C_add; [exact C|exact S|]|assoc]. apply orb_prop in T as [T|T]; become T; [left|right]; congruence.
Qed.

Lemma push_ok env st sy out b t s' : push zero (mk st sy out b) t = Some s' -> fits sy env ->
  fits (table s') env /\ (forall y, known sy y -> known (table s') y) /\ (forall x, t = TName x -> known (table s') x) /\ output s' = out /\ begun s' = b.
Proof.
  intros E F. destruct t as [n|n|x|k|c| | | |]; try discriminate; cbn [push] in E; try (injection E as <-; cbn; repeat split; auto; try apply F; discriminate).
  cbn [table] in E. destruct (symlook zero sy x) as [sy'|] eqn:L; [|discriminate]. injection E as <-. cbn [table output begun].
  destruct (symlook_fits _ _ _ _ F L) as (H1 & H2 & H3). split; [auto|]. split; [auto|]. split; [|auto]. intros y G. injection G as <-. auto.
Qed.
Ltac turn T E := become T; injection E as <-; cbn [stack table with_stack].
Lemma shift_ok env st w t ts sy out b s' : Inv (known sy) env st w (t :: ts) -> fits sy env -> whole t -> reduce (mk st sy out b) = None -> act (mk st sy out b) t = Shift ->
  push zero (mk st sy out b) t = Some s' -> Inv (known (table s')) env (stack s') (w ++ [t]) ts.
Proof.
  intros H F Wt. destruct (push zero (mk st sy out b) t) as [s1|] eqn:E0; [|discriminate]. intros Z S E. injection E as ->.
  destruct (push_ok env _ _ _ _ _ _ E0 F) as (_ & Kmono & Kname & _). rename E0 into E. unfold Mtool_model.act in S. cbn [stack] in S.
  assert (ST : forall lv st w, ctx (known sy) env lv st w -> starts t = true -> push zero (mk st sy out b) t = Some s' -> Inv (known (table s')) env (stack s') (w ++ [t]) ts)
    by (intros; eapply starts_ok; eauto).
  remember (t :: ts) as rest eqn:Q. revert Q E Z S. 
  destruct H as [lv st w rest C|st w r u rest R Hr|lv st w n rest C|lv st w n rest C|lv st w x rest C Kx|lv st w v u rest C L|lv st w v u rest C M|lv st w f o c v u rest C D M
    |lv st w k rest C|lv st w k rest C|lv st w k i rest C|lv st w i rest C|lv st w k i rest C N|lv st w k i j rest C N J|lv st w k i j rest C N J
    |st w u l rest P M|st w u l rest P M|st w rest P|rest|st w u r rest P M X|st w u m rest P M X|u m rest M X|u m rest M X|rest]; intros Q E Z S; subst rest; cbn [stack] in S.
  - assert (G : starts t = true -> Inv (known (table s')) env (stack s') (w ++ [t]) ts) by (intros; eapply ST; eauto).
    destruct C as [|x Kx|lv st w C|lv st w f o C D|lv st w C|lv st w a u o C N Ma D|st w a u o C Ma D|st w C].
    + destruct (tis t newline); [discriminate|]. apply shifted in S. apply orb_prop in S as [S|S]; [auto|]. turn S E. eapply V_ctx, C_item. apply (I_first env [] []). left. auto.
    + apply shifted in S. auto.
    + apply shifted in S. auto.
    + destruct D as [-> | ->]; apply shifted in S; auto.
    + apply shifted in S. auto.
    + destruct D as [-> | ->]; apply shifted in S; auto.
    + destruct D as [-> | ->]; apply shifted in S; auto.
    + destruct C as [st w P|st w v u P M]; [|apply shifted in S; auto]. cbn in S. destruct P as [[-> ->]|P].
      * apply shifted in S. apply orb_prop in S as [S|S]; [apply orb_prop in S as [S|S]; [auto|]|].
        -- turn S E. eapply V_ctx, C_item. apply (I_first env [SCh "{"] [TCh "{"]). right. constructor.
        -- turn S E. apply (V_none _ _ [] []). left. auto.
      * destruct (rplace_chars _ _ _ P) as (c & st' & Est & _). rewrite Est in S. apply shifted in S. apply orb_prop in S as [S|S]; [auto|].
        turn S E. eapply Inv_eq; [eapply V_none; right; exact P|assoc].
  - apply shifted in S. turn S E. eapply V_ctx, C_item, I_first. right. apply R_next; auto.
  - discriminate.
  - exfalso. unfold Mtool_model.reduce in Z. cbn [stack] in Z. rewrite (ctx_index _ _ _ _ _ C) in Z. discriminate.
  - apply or_shifted in S. apply orb_prop in S as [S|S].
    + apply orb_prop in S as [S|S]; turn S E; (eapply Inv_eq; [eapply V_ctx, C_call; [exact C|auto]|assoc]).
    + apply andb_prop in S as [S S']. destruct st as [|]; [|discriminate]. turn S E. assert (w = []).
      { inversion C as [| | | | | | |? ? I0]; [reflexivity|inversion I0]. }
      subst w. eapply V_ctx, C_set. exact Kx.
  - assert (G : top t = true -> (lv = Term -> tmul t = true) -> Inv (known (table s')) env (stack s') ((w ++ u) ++ [t]) ts).
    { intros T W. assert (X : table s' = sy). { destruct t; try discriminate. injection E as <-. reflexivity. } rewrite X. eapply operator_ok; eauto. }
    assert (Su := level_sum _ _ _ _ _ L).
    assert (G0 : forall c, tis t c = true -> s' = with_stack (mk (SE v :: st) sy out b) (SCh c :: SE v :: st)).
    { intros c T. apply tis_eq in T. rewrite T in E. injection E as <-. reflexivity. }
    revert G G0 L Z S. destruct C as [|x Kx|lv st w C|lv st w f o C D|lv st w C|lv st w a u' o C N Ma D|st w a u' o C Ma D|st w C]; intros G G0 L Z S.
    + apply or_shifted in S. apply G; [auto|discriminate].
    + apply or_shifted in S. apply G; [auto|discriminate].
    + assert (S' : top t || tis t ")" = true) by (destruct (ctx_chars _ _ _ _ _ C) as [->|(c & st' & ->)]; apply shifted in S; exact S).
      apply orb_prop in S' as [S'|S']; [apply G; [auto|discriminate]|]. rewrite (G0 _ S'). become S'. cbn [stack table with_stack].
      eapply Inv_eq; [eapply V_paren; [exact C|exact Su]|assoc].
    + assert (S' : top t = true \/ exists c, (o = "(" /\ c = ")" \/ o = "[" /\ c = "]") /\ tis t c = true).
      { destruct D as [-> | ->]; unfold act_expr in S; destruct st; apply shifted in S; apply orb_prop in S as [S|S]; eauto 6. }
      destruct S' as [S'|(c & Dc & S')]; [apply G; [auto|discriminate]|]. rewrite (G0 _ S'). cbn [stack table with_stack]. apply tis_eq in S'.
      eapply bracket_shift; eauto.
    + exfalso. destruct (ctx_chars _ _ _ _ _ C) as [->|(c & st' & ->)]; discriminate.
    + exfalso. destruct D as [-> | ->]; discriminate.
    + destruct D as [-> | ->]; apply or_shifted in S; (apply G; [unfold top; rewrite S; reflexivity|auto]).
    + rewrite (item_expr _ _ _ _ _ _ C) in S. apply or_shifted in S. apply orb_prop in S as [S|S]; [apply G; [auto|discriminate]|].
      rewrite (G0 _ S). become S. cbn [stack table with_stack]. eapply Inv_eq; [eapply V_ctx, C_item, I_next; [exact C|exact Su]|assoc].
  - exfalso. destruct (ctx_chars _ _ _ _ _ C) as [->|(c & st' & ->)]; discriminate.
  - exfalso. destruct D as [[-> ->]|[-> ->]]; discriminate.
  - apply shifted in S. turn S E. eapply Inv_eq; [eapply V_key1; exact C|assoc].
  - apply shifted in S. destruct t as [n|n|x|k'|c| | | |]; try discriminate. injection E as <-. cbn [stack table with_stack]. eapply Inv_eq; [eapply V_key2; exact C|assoc].
  - destruct k; apply shifted in S; turn S E; (eapply Inv_eq; [first [eapply V_gamma; exact C|eapply V_key3; [exact C|discriminate]]|assoc]).
  - discriminate.
  - apply shifted in S. destruct t as [n|n|x|k'|c| | | |]; try discriminate. injection E as <-. cbn [stack table with_stack]. eapply Inv_eq; [eapply V_key4; [exact C|exact N|exact Wt]|assoc].
  - apply shifted in S. turn S E. eapply Inv_eq; [eapply V_key5; [exact C|exact N|exact J]|assoc].
  - discriminate.
  - apply shifted in S. turn S E. revert Z. destruct P as [st w P|st w v u' P M']; intros Z; [|discriminate]. eapply Inv_eq; [eapply V_close; [exact P|exact M]|assoc].
  - discriminate.
  - apply or_shifted in S. turn S E. destruct P as [[-> ->]|P]; [discriminate|]. destruct P as [|st w r u P Hr]; [|discriminate]. apply V_blank.
  - discriminate.
  - apply or_shifted in S. turn S E. destruct P as [[-> ->]|P]; [discriminate|]. eapply Inv_eq; [eapply V_next; [exact P|exact M]|assoc].
  - apply shifted in S. turn S E. revert X Z. destruct P as [|st w r t P Hr]; intros X Z; [|discriminate]. eapply Inv_eq; [eapply V_end; [exact M|]|assoc].
    intros G. specialize (X G eq_refl). discriminate.
  - discriminate.
  - discriminate.
  - discriminate.
Qed.

(** * Runs *)
Definition reading (all : list tok) (s : state) (ts : list tok) : Prop :=
  exists before w env o, all = before ++ w ++ ts /\ lines before env o /\ (begun s = true -> before <> []) /\
  ((Inv (known (table s)) env (stack s) w ts /\ output s = o /\ fits (table s) env) \/
   (exists env' o', statement env w env' o' /\ stack s = [SStmt] /\ output s = o ++ o' /\ fits (table s) env')).
Lemma step_ok all s ts s' ts' : reading all s ts -> Forall whole ts -> step s ts = inl (s', ts') -> reading all s' ts' /\ Forall whole ts'.
Proof.
  intros (before & w & env & o & Ha & Hl & Hb & H) W E. destruct s as [st sy out b]. cbn [stack table output begun] in *. unfold Mtool_model.step in E. destruct H as [(HI & Ho & F)|(env' & o' & Hs & Hst & Ho & F)].
  - assert (OUT : forall s1, outcome (known sy) env (mk st sy out b) s1 w ts -> reading all s1 ts).
    { intros s1 [(st' & -> & G)|(env' & o' & G1 & G2 & G3 & G4 & G5)]; exists before, w, env, o; (split; [exact Ha|split; [exact Hl|]]).
      - split; [exact Hb|]. left. cbn [stack table output with_stack]. auto.
      - rewrite G5. split; [exact Hb|]. right. exists env', o'. cbn [output] in G3. subst o. auto. }
    destruct (reduce (mk st sy out b)) as [[s1| |]|] eqn:R; try discriminate.
    + injection E as <- <-. split; [|auto]. apply OUT. eapply reduce_ok; eauto.
    + destruct ts as [|t ts]; [discriminate|].
      assert (E' : match act (mk st sy out b) t with
          | Shift => match push zero (mk st sy out b) t with Some s1 => inl (s1, ts) | None => inr Exit end
          | Reduce s1 => inl (s1, t :: ts) | Next => inl (next_state (mk st sy out b), ts) | Error => inr Syntax end = inl (s', ts')).
      { destruct t; try discriminate; try exact E. cbn [stack begun] in E. destruct st; [destruct b|]; try discriminate; exact E. }
      clear E. destruct (act (mk st sy out b) t) as [|s1| |] eqn:T; [| | |discriminate].
      * destruct (push zero (mk st sy out b) t) as [s1|] eqn:P; [|discriminate]. injection E' as <- <-. split; [|inversion W; auto].
        destruct (push_ok env _ _ _ _ _ _ P F) as (F' & _ & _ & Po & Pb). exists before, (w ++ [t]), env, o. split; [rewrite Ha, <- app_assoc; reflexivity|]. split; [exact Hl|]. rewrite Pb. split; [exact Hb|].
        left. split; [|split; [congruence|exact F']]. eapply shift_ok; eauto. inversion W; auto.
      * injection E' as <- <-. split; [|auto]. apply OUT. eapply act_ok; eauto.
      * injection E' as <- <-. split; [|inversion W; auto]. assert (N : st = [] /\ w = [] /\ t = TCh newline).
        { unfold Mtool_model.act in T. cbn [stack] in T. destruct st as [|x st].
          - split; [reflexivity|]. split.
            + inversion HI as [? ? ? ? C| | | | | | | | | | | | | | | | | | | | | | |]. inversion C as [| | | | | | |? ? I0]; [reflexivity|inversion I0].
            + destruct (tis t newline) eqn:Q; [apply tis_eq in Q; exact Q|]. destruct (starts t || tis t "{"); discriminate.
          - exfalso. assert (Sh : forall b0, @shift_if V b0 <> Next) by (intros []; discriminate). assert (Or : forall b0 (s0 : state), or_reduce b0 s0 <> Next) by (intros [] ?; discriminate).
            destruct x; try (apply (Or _ _ T)); try (apply (Sh _ T)); try discriminate.
            + unfold act_char in T. repeat match type of T with context [if ?x then _ else _] => destruct x | context [match ?x with [] => _ | _ => _ end] => destruct x | context [match ?x with SCh _ => _ | _ => _ end] => destruct x end;
              first [apply (Or _ _ T)|apply (Sh _ T)|discriminate].
            + repeat match type of T with context [match ?x with [] => _ | _ => _ end] => destruct x | context [match ?x with SCh _ => _ | _ => _ end] => destruct x | context [match ?x with KGamma => _ | _ => _ end] => destruct x end;
              apply (Sh _ T).
            + unfold act_expr in T. repeat match type of T with context [if ?x then _ else _] => destruct x | context [match ?x with [] => _ | _ => _ end] => destruct x | context [match ?x with SCh _ => _ | _ => _ end] => destruct x end;
              first [apply (Or _ _ T)|apply (Sh _ T)|discriminate].
            + inversion HI as [? ? ? ? C| | | | | | | | | | | | | | | | | | | | | | |]. destruct (ctx_chars _ _ _ _ _ C) as [?|(? & ? & ?)]; discriminate. }
        destruct N as (-> & -> & ->). exists (before ++ [] ++ [TCh newline]), [], env, (o ++ []). split; [rewrite Ha, <- !app_assoc; reflexivity|]. split; [econstructor; [exact Hl|constructor]|].
        split; [intros _; destruct before; discriminate|]. left. cbn [stack table output next_state]. split; [eapply V_ctx; constructor|]. split; [rewrite app_nil_r; exact Ho|exact F].
  - subst st. cbn [Mtool_model.reduce stack] in E. destruct ts as [|t ts]; [discriminate|].
    assert (E' : tis t newline = true /\ s' = next_state (mk [SStmt] sy out b) /\ ts' = ts).
    { destruct t; try discriminate; cbn in E; try discriminate. destruct (Ascii.eqb c newline) eqn:Q; [|discriminate]. injection E as <- <-. cbn. auto. }
    destruct E' as (T & -> & ->). apply tis_eq in T. rewrite T in Ha. split; [|inversion W; auto].
    exists (before ++ w ++ [TCh newline]), [], env', (o ++ o'). split; [rewrite Ha, <- !app_assoc; reflexivity|]. split; [econstructor; eauto|].
    split; [intros _; destruct before; [destruct w|]; discriminate|]. left. cbn [stack table output next_state]. split; [eapply V_ctx; constructor|]. auto.
Qed.

Lemma run_ok all n : forall s ts o e, reading all s ts -> Forall whole ts -> run n s ts = Some (o, e) -> exists s' ts', reading all s' ts' /\ step s' ts' = inr e /\ output s' = o.
Proof.
  induction n as [|n IH]; intros s ts o e R W E; [discriminate|]. cbn [Mtool_model.run] in E. destruct (step s ts) as [[s' ts']|e'] eqn:S.
  - destruct (step_ok _ _ _ _ _ R W S) as [R' W']. eapply IH; eauto.
  - injection E as <- <-. eauto.
Qed.
Lemma start_reading ts : reading ts (initial A zero) ts.
Proof.
  exists [], [], (fun _ => zero), []. split; [reflexivity|]. split; [constructor|]. split; [discriminate|]. left. split; [eapply V_ctx; constructor|]. split; [reflexivity|apply start_fits].
Qed.
(** Whatever the end, the lines before it have been read as the grammar says; a last statement may have been read without the end of its line. *)
Theorem read_prefix s o e : tool s (o, e) -> exists w u r env o1 env' o2,
  tokens s = w ++ u ++ r /\ lines w env o1 /\ o = o1 ++ o2 /\ (statement env u env' o2 \/ o2 = []).
Proof.
  intros (n & E). destruct (run_ok (tokens s) _ _ _ _ _ (start_reading _) (lex_whole _ _ _ _) E) as (s' & ts & (before & w & env & o1 & Ha & Hl & _ & H) & _ & Ho).
  destruct H as [(_ & H & _)|(env' & o2 & H1 & _ & H2 & _)].
  - exists before, w, ts, env, o1, env, []. rewrite app_nil_r. split; [auto|]. split; [auto|]. split; [congruence|auto].
  - exists before, w, ts, env, o1, env', o2. split; [auto|]. split; [auto|]. split; [congruence|auto].
Qed.
(** An input that is read to its end consists of lines of the grammar. *)
Theorem read_all s o : tool s (o, Finished) -> exists w r env, tokens s = w ++ TEnd :: r /\ w <> [] /\ lines w env o.
Proof.
  intros (n & E). destruct (run_ok (tokens s) _ _ _ _ _ (start_reading _) (lex_whole _ _ _ _) E) as ([st sy out b] & ts & (before & w & env & o1 & Ha & Hl & Hb & H) & S & Ho).
  cbn [stack table output begun] in *. unfold Mtool_model.step in S. destruct (reduce (mk st sy out b)) as [[| |]|]; try discriminate. destruct ts as [|t ts]; [discriminate|].
  assert (G : t = TEnd /\ st = [] /\ b = true).
  { assert (N : forall t', match act (mk st sy out b) t' with Shift => match push zero (mk st sy out b) t' with Some s1 => inl (s1, ts) | None => inr Exit end
        | Reduce s1 => inl (s1, t' :: ts) | Next => inl (next_state (mk st sy out b), ts) | Error => inr Syntax end = @inr (state * list tok) _ Finished -> False).
    { intros t'. destruct (act (mk st sy out b) t'); try discriminate. destruct (push zero (mk st sy out b) t'); discriminate. }
    destruct t; try discriminate; try (exfalso; exact (N _ S)). cbn [stack begun] in S. destruct st; [destruct b; [auto|]|]; exfalso; exact (N TEnd S). }
  destruct G as (-> & -> & ->). destruct H as [(HI & Hout & _)|(? & ? & _ & H & _)]; [|discriminate].
  assert (w = []) by (inversion HI as [? ? ? ? C| | | | | | | | | | | | | | | | | | | | | | |]; inversion C as [| | | | | | |? ? I0]; [reflexivity|inversion I0]). subst w.
  exists before, ts, env. split; [exact Ha|]. split; [auto|]. congruence.
Qed.
End S.
