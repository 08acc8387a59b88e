(** C78: the lines of an input. *)
From Coq Require Import List ZArith Bool Ascii String Lia.
From Verif Require Import Base Params_model Template_model Template_spec Template_lex Template_words Mtool_model Mtool_spec Mtool_lex Mtool_parse.
Import ListNotations.
Local Open Scope list_scope.

(** * The scanner *)
Fixpoint sep_toks (l : list (list tok)) : list tok := match l with [] => [] | [w] => w | w :: t => w ++ TCh "," :: sep_toks t end.
Definition row_toks (es : list expr) : list tok := TCh "{" :: sep_toks (map (toks_at 0) es) ++ [TCh "}"].
Definition line_toks (l : line) : list tok :=
  match l with
  | Value_ e => toks_at 0 e
  | Set_ x _ e => TName x :: TCh "=" :: toks_at 0 e
  | Row_ es => row_toks es
  | Rows_ _ rows => TCh "{" :: sep_toks (map row_toks rows) ++ [TCh "}"]
  | _ => []
  end.
Lemma LX_items k es r : Forall readable es -> delim r -> LX false k (concat_with [","%char] (map show es) ++ r) (sep_toks (map (toks_at 0) es)) false k r.
Proof.
  induction es as [|e es IH]; intros H Hr; [apply LX_nil|]. inversion H as [|? ? H1 H2]; subst. destruct es as [|e' es].
  - apply lex_expr; auto.
  - change (concat_with [","%char] (map show (e :: e' :: es))) with (show e ++ [","%char] ++ concat_with [","%char] (map show (e' :: es))).
    change (sep_toks (map (toks_at 0) (e :: e' :: es))) with (toks_at 0 e ++ TCh "," :: sep_toks (map (toks_at 0) (e' :: es))).
    rewrite <- app_assoc. cbn [app]. apply LX_app with (b1 := false) (k1 := k) (r := ","%char :: concat_with [","%char] (map show (e' :: es)) ++ r); [apply lex_expr; auto; delim_now|].
    apply LX_cons with (b1 := false) (k1 := k) (r := concat_with [","%char] (map show (e' :: es)) ++ r); [apply LX_char; simple_now|]. apply IH; auto.
Qed.
Lemma LX_row b k es r : Forall readable es -> LX b k (row_text es ++ r) (row_toks es) false k r.
Proof.
  intros H. unfold row_text, row_toks. cbn [app]. rewrite <- app_assoc. cbn [app].
  apply LX_cons with (b1 := false) (k1 := S k) (r := concat_with [","%char] (map show es) ++ "}"%char :: r); [apply LX_open|].
  apply LX_app with (b1 := false) (k1 := S k) (r := "}"%char :: r); [apply LX_items; auto; delim_now|apply LX_close].
Qed.
Lemma LX_gap_in gap : Forall (fun c => c = " "%char \/ c = "009"%char \/ c = newline) gap -> forall b k r, exists b', LX b (S k) (gap ++ r) [] b' (S k) r.
Proof.
  induction 1 as [|c gap Hc H IH]; intros b k r; [exists b; apply LX_nil|]. cbn [app]. destruct Hc as [->|[->| ->]].
  - destruct (IH false k r) as [b' Hb]. exists b'. eapply LX_skip; [apply LX_blank; auto|exact Hb].
  - destruct (IH false k r) as [b' Hb]. exists b'. eapply LX_skip; [apply LX_blank; auto|exact Hb].
  - destruct (IH true k r) as [b' Hb]. exists b'. eapply LX_skip; [apply LX_newline_in|exact Hb].
Qed.
Lemma LX_gap gap : Forall (fun c => c = " "%char \/ c = "009"%char) gap -> forall k r, LX false k (gap ++ r) [] false k r.
Proof. induction 1 as [|c gap Hc H IH]; intros k r; [apply LX_nil|]. cbn [app]. eapply LX_skip; [apply LX_blank; auto|apply IH]. Qed.
Lemma LX_rows gap rows k r : Forall (fun c => c = " "%char \/ c = "009"%char \/ c = newline) gap -> Forall (Forall readable) rows -> rows <> [] ->
  forall b, LX b (S k) (concat_with (","%char :: gap) (map row_text rows) ++ r) (sep_toks (map row_toks rows)) false (S k) r.
Proof.
  intros G. induction rows as [|es rows IH]; intros H Hne b; [contradiction|]. inversion H as [|? ? H1 H2]; subst. destruct rows as [|es' rows].
  - apply LX_row; auto.
  - change (concat_with (","%char :: gap) (map row_text (es :: es' :: rows))) with (row_text es ++ (","%char :: gap) ++ concat_with (","%char :: gap) (map row_text (es' :: rows))).
    change (sep_toks (map row_toks (es :: es' :: rows))) with (row_toks es ++ TCh "," :: sep_toks (map row_toks (es' :: rows))).
    rewrite <- app_assoc. cbn [app]. rewrite <- app_assoc. set (u := concat_with (","%char :: gap) (map row_text (es' :: rows)) ++ r).
    apply LX_app with (b1 := false) (k1 := S k) (r := ","%char :: gap ++ u); [apply LX_row; auto|].
    apply LX_cons with (b1 := false) (k1 := S k) (r := gap ++ u); [apply LX_char; simple_now|].
    destruct (LX_gap_in gap G false k u) as [b' Hb]. eapply LX_skip; [exact Hb|]. apply IH; auto. discriminate.
Qed.
Lemma drop_line_ok w r : ~ In newline w -> drop_line (w ++ newline :: r) = newline :: r.
Proof. induction w as [|c w IH]; intros H; cbn [app drop_line]; [reflexivity|]. destruct (Ascii.eqb_spec c newline) as [->|_]; [exfalso; apply H; left; auto|]. apply IH. intros G. apply H. right; auto. Qed.
Theorem lex_line l r : proper_line l -> LX true 0 (line_text l ++ newline :: r) (line_toks l ++ [TCh newline]) true 0 r.
Proof.
  assert (NL : delim (newline :: r)) by (apply delim_cons; cbn; tauto).
  intros H. assert (exists b, LX true 0 (line_text l ++ newline :: r) (line_toks l) b 0 (newline :: r)) as [b Hb].
  2: { eapply LX_app; [exact Hb|apply LX_newline]. }
  destruct l as [e|x gap e|es|gap rows|w|x|x w|]; cbn [proper_line line_text line_toks] in *.
  - exists false. apply lex_expr; auto.
  - destruct H as (H1 & H2 & H3 & H4). exists false. rewrite <- app_assoc. cbn [app]. rewrite <- app_assoc. cbn [app]. rewrite <- app_assoc.
    rewrite <- (word_free x H1). set (u := show e ++ newline :: r).
    apply LX_cons with (b1 := false) (k1 := 0) (r := gap ++ "="%char :: gap ++ u).
    { apply LX_word; [apply H1| | |apply free_parse; auto].
      - intros c t E. destruct gap as [|d gap]; [injection E as <- _; reflexivity|]. injection E as <- _. inversion H3 as [|? ? H5 _]; subst. destruct H5 as [->| ->]; reflexivity.
      - destruct gap as [|d gap]; cbn [app].
        + destruct H4 as [H4|H4]; [contradiction|]. unfold u, text_follows. destruct (show e) as [|d s] eqn:Es; [reflexivity|]. cbn [app].
          destruct (isalpha d) eqn:D; [exfalso; apply H4; exists d, s; auto|]. apply andb_false_r.
        + unfold text_follows. inversion H3 as [|? ? H5 _]; subst. destruct (gap ++ "="%char :: d :: gap ++ u) eqn:Eg; [destruct gap; discriminate|]. destruct H5 as [->| ->]; reflexivity. }
    eapply LX_skip; [apply LX_gap; auto|]. apply LX_cons with (b1 := false) (k1 := 0) (r := gap ++ u); [apply LX_char; simple_now|].
    eapply LX_skip; [apply LX_gap; auto|]. apply lex_expr; auto.
  - exists false. apply LX_row; auto.
  - destruct H as (H1 & H2 & H3 & H4). exists false. cbn [app]. rewrite <- app_assoc. cbn [app]. set (u := "}"%char :: newline :: r).
    apply LX_cons with (b1 := false) (k1 := 1) (r := concat_with (","%char :: gap) (map row_text rows) ++ u); [apply LX_open|].
    apply LX_app with (b1 := false) (k1 := 1) (r := u); [apply LX_rows; auto|apply LX_close].
  - exists false. intros n Hn. destruct n as [|n]; [lia|]. exists n. split; [cbn [app List.length] in *; rewrite app_length in Hn; cbn [List.length] in Hn; lia|].
    cbn [app lex]. change (Ascii.eqb "#" newline) with false. change (true && Ascii.eqb "#" "#") with true. cbn iota. rewrite drop_line_ok; auto.
  - exists false. intros n Hn. destruct n as [|n]; [lia|]. exists n. cbn [app List.length] in *. split; [rewrite !app_length in Hn; cbn [List.length] in *; lia|].
    cbn [lex]. change (Ascii.eqb "[" newline) with false. change (true && Ascii.eqb "[" "#") with false. change (true && Ascii.eqb "[" "!") with false.
    change (blank "[") with false. change (isalpha "[") with false. change (isdigit "[" || Ascii.eqb "[" ".") with false. change (Ascii.eqb "[" "[") with true. cbn iota.
    rewrite <- app_assoc. cbn [app]. assert (S1 := span_name x ("]"%char :: newline :: r) H ltac:(intros c t E; injection E as <- _; reflexivity)).
    destruct H as (c & t & -> & Hc & _). cbn [app] in *. unfold section_rest. rewrite Hc, S1. change (Ascii.eqb "]" "]") with true. reflexivity.
  - destruct H as (H1 & (d & s & -> & Hd) & H3). exists false. intros n Hn. destruct n as [|n]; [lia|]. exists n.
    rewrite <- app_assoc. cbn [app]. assert (S1 := span_name x ("="%char :: d :: s ++ newline :: r) H1 ltac:(intros c t E; injection E as <- _; reflexivity)).
    split; [rewrite <- app_assoc in Hn; rewrite app_length in Hn; cbn [app List.length] in *; rewrite app_length in Hn; cbn [List.length] in *; lia|].
    destruct H1 as (c & t & -> & Hc & _). destruct (alpha_facts c Hc) as (F1 & F2 & F3 & F4 & _). cbn [app] in *. cbn [lex]. rewrite F1, F2, F3, !andb_false_r, F4, Hc, S1.
    assert (text_follows ("="%char :: d :: s ++ newline :: r) = true) as -> by (unfold text_follows; rewrite Hd; reflexivity).
    change ("="%char :: d :: s ++ newline :: r) with (("="%char :: d :: s) ++ newline :: r). rewrite drop_line_ok; auto. intros [E|G]; [discriminate|auto].
  - exists true. apply LX_nil.
Qed.

(** * The parser *)
Section P.
Context {V : Type} (A : arith V) (zero : V) (of_int : Z -> V) (fmt : V -> text) (prefix : text) (chains : list (@chain V)) (coupling : option (list (list V))).
Notation reduce := (reduce A zero of_int fmt prefix chains coupling).
Notation act := (act A zero fmt prefix).
Notation step := (step A zero of_int fmt prefix chains coupling).
Notation star := (star A zero of_int fmt prefix chains coupling).
Notation ev := (ev A zero of_int chains coupling).
Notation sym := (@sym V).
Notation mk := (@Build_state V).
Context (L : list text) (LN : List.length L <= NSYMS).
Notation table_ok K := (good_table A zero L K).
Notation parses K := (parses A zero of_int fmt prefix chains coupling L K).

Ltac shift1 := eapply star_step; [apply shift_step; [|reflexivity|exact Logic.I|reflexivity]|].
Definition below (st : list sym) : Prop := st = [] \/ st = [SCh "{"] \/ exists l m, st = SCh "," :: SVec l :: m.
Definition listy (st : list sym) : Prop := (exists st', st = SCh "{" :: st' /\ below st') \/ exists a st', st = SCh "," :: SE a :: st'.
Lemma listy_opens st : listy st -> opens 0 st.
Proof. intros [(st' & -> & [->|[->|(l & m & ->)]])|(a & st' & ->)]; constructor; exact Logic.I. Qed.
Lemma names_ok_flat {B} (f : B -> list text) x l : names_ok L (flat_map f (x :: l)) -> names_ok L (f x) /\ names_ok L (flat_map f l).
Proof. intros H. cbn [flat_map] in H. apply names_ok_app in H. auto. Qed.

Lemma items_ok K env es vs : Forall readable es -> names_ok L (flat_map expr_names es) -> Forall2 (fun e v => ev env e = Ok v) es vs -> es <> [] ->
  forall st sy out b r, listy st -> table_ok K env sy ->
  exists sy', table_ok K env sy' /\ star (mk st sy out b, sep_toks (map (toks_at 0) es) ++ TCh "}" :: r) (mk (SEL vs :: st) sy' out b, TCh "}" :: r).
Proof.
  intros HR HN H. revert HR HN. induction H as [|e v es vs He H IH]; intros HR HN Hne st sy out b r Hst T; [contradiction|].
  inversion HR as [|? ? R1 R2]; subst. apply names_ok_flat in HN as [N1 N2].
  assert (P := parse_expr A zero of_int fmt prefix chains coupling L LN K env e R1 N1 v He 0 ltac:(lia)).
  destruct es as [|e' es].
  - inversion H; subst. destruct (P st sy out b (TCh "}" :: r) T (listy_opens st Hst)) as (sy' & T' & S).
    { apply follow_cons; [cbn; tauto|discriminate|discriminate]. }
    exists sy'. split; auto. eapply star_trans; [exact S|]. apply star_one.
    destruct Hst as [(st' & -> & [->|[->|(l & m & ->)]])|(a & st' & ->)]; apply act_reduce_step; try exact Logic.I; reflexivity.
  - change (sep_toks (map (toks_at 0) (e :: e' :: es))) with (toks_at 0 e ++ TCh "," :: sep_toks (map (toks_at 0) (e' :: es))). rewrite <- app_assoc. cbn [app].
    set (u := sep_toks (map (toks_at 0) (e' :: es))) in *.
    destruct (P st sy out b (TCh "," :: u ++ TCh "}" :: r) T (listy_opens st Hst)) as (sy1 & T1 & S1).
    { apply follow_cons; [cbn; tauto|discriminate|discriminate]. }
    destruct (IH R2 N2 ltac:(discriminate) (SCh "," :: SE v :: st) sy1 out b r) as (sy2 & T2 & S2); [right; eauto|auto|].
    exists sy2. split; auto. eapply star_trans; [exact S1|].
    eapply star_step; [|eapply star_trans; [exact S2|apply star_one; apply reduce_step; reflexivity]].
    destruct Hst as [(st' & -> & [->|[->|(l & m & ->)]])|(a & st' & ->)]; apply shift_step; try exact Logic.I; reflexivity.
Qed.
(** A row; an empty row that is alone between braces is another matter. *)
Lemma row_ok K env es vs : Forall readable es -> names_ok L (flat_map expr_names es) -> Forall2 (fun e v => ev env e = Ok v) es vs ->
  forall st sy out b c r, below st -> table_ok K env sy -> In c [","; "}"; newline]%char -> (es = [] -> st = [SCh "{"] -> c = ","%char) ->
  exists sy', table_ok K env sy' /\ star (mk st sy out b, row_toks es ++ TCh c :: r) (mk (SVec vs :: st) sy' out b, TCh c :: r).
Proof.
  intros HR HN H st sy out b c r Hst T Hc Hx. unfold row_toks. cbn [app]. rewrite <- app_assoc. cbn [app].
  assert (S0 : forall ts, star (mk st sy out b, TCh "{" :: ts) (mk (SCh "{" :: st) sy out b, ts)).
  { intros ts. apply star_one. destruct Hst as [->|[->|(l & m & ->)]]; apply shift_step; try exact Logic.I; reflexivity. }
  destruct es as [|e es].
  - inversion H; subst. exists sy. split; auto. cbn [map sep_toks app]. eapply star_trans; [apply S0|].
    assert (S1 : step (mk (SCh "{" :: st) sy out b) (TCh "}" :: TCh c :: r) = inl (mk (SCh "}" :: SCh "{" :: st) sy out b, TCh c :: r)).
    { destruct Hst as [->|[->|(l & m & ->)]]; apply shift_step; try exact Logic.I; reflexivity. }
    eapply star_step; [exact S1|]. apply star_one. destruct Hst as [->|[->|(l & m & ->)]].
    + apply reduce_step. reflexivity.
    + rewrite (Hx eq_refl eq_refl). apply act_reduce_step; try exact Logic.I; reflexivity.
    + apply reduce_step. reflexivity.
  - destruct (items_ok K env (e :: es) vs HR HN H ltac:(discriminate) (SCh "{" :: st) sy out b (TCh c :: r)) as (sy' & T' & S); [left; eauto|auto|].
    exists sy'. split; auto. eapply star_trans; [apply S0|]. eapply star_trans; [exact S|]. shift1; [destruct Hst as [->|[->|(l & m & ->)]]; reflexivity|]. apply star_one. apply reduce_step. reflexivity.
Qed.
Lemma rows_ok K env rows vss : Forall (Forall readable) rows -> names_ok L (flat_map (flat_map expr_names) rows) -> Forall2 (Forall2 (fun e v => ev env e = Ok v)) rows vss -> rows <> [] ->
  forall st sy out b r, (st = [SCh "{"] /\ rows <> [[]] \/ exists l m, st = SCh "," :: SVec l :: m) -> table_ok K env sy ->
  exists sy', table_ok K env sy' /\ star (mk st sy out b, sep_toks (map row_toks rows) ++ TCh "}" :: r) (mk (SVL vss :: st) sy' out b, TCh "}" :: r).
Proof.
  intros HR HN H. revert HR HN. induction H as [|es vs rows vss He H IH]; intros HR HN Hne st sy out b r Hst T; [contradiction|].
  inversion HR as [|? ? R1 R2]; subst. apply names_ok_flat in HN as [N1 N2].
  assert (B : below st) by (destruct Hst as [[-> _]|(l & m & ->)]; [right; left; auto|right; right; eauto]).
  destruct rows as [|es' rows].
  - inversion H; subst. destruct (row_ok K env es vs R1 N1 He st sy out b "}" r B T) as (sy' & T' & S); [cbn; tauto|intros -> ->; destruct Hst as [[_ Hst]|(l & m & Hst)]; [contradiction|discriminate]|].
    exists sy'. split; auto. eapply star_trans; [exact S|]. apply star_one.
    destruct Hst as [[-> _]|(l & m & ->)]; apply act_reduce_step; try exact Logic.I; reflexivity.
  - change (sep_toks (map row_toks (es :: es' :: rows))) with (row_toks es ++ TCh "," :: sep_toks (map row_toks (es' :: rows))). rewrite <- app_assoc. cbn [app].
    set (u := sep_toks (map row_toks (es' :: rows))) in *.
    destruct (row_ok K env es vs R1 N1 He st sy out b "," (u ++ TCh "}" :: r) B T) as (sy1 & T1 & S1); [cbn; tauto|auto|].
    destruct (IH R2 N2 ltac:(discriminate) (SCh "," :: SVec vs :: st) sy1 out b r) as (sy2 & T2 & S2); [right; eauto|auto|].
    exists sy2. split; auto. eapply star_trans; [exact S1|].
    eapply star_step; [|eapply star_trans; [exact S2|apply star_one; apply reduce_step; reflexivity]].
    destruct Hst as [[-> _]|(l & m & ->)]; apply shift_step; try exact Logic.I; reflexivity.
Qed.

Lemma dump_items_ok l : dump_items fmt l = concat_with [" "%char] (map fmt l).
Proof. induction l as [|v [|w l] IH]; [reflexivity|reflexivity|]. change (dump_items fmt (v :: w :: l)) with (fmt v ++ " "%char :: dump_items fmt (w :: l)). rewrite IH. reflexivity. Qed.
Lemma dump_vector_ok l : prefix ++ dump_vector fmt l = shown fmt prefix l.
Proof. unfold dump_vector, shown. rewrite dump_items_ok. reflexivity. Qed.
Lemma dump_matrix_ok m : m <> [] -> prefix ++ dump_matrix fmt prefix m = flat_map (shown fmt prefix) m.
Proof.
  induction m as [|r [|r' m] IH]; intros H; [contradiction|cbn [dump_matrix flat_map]; rewrite app_nil_r; apply dump_vector_ok|].
  change (dump_matrix fmt prefix (r :: r' :: m)) with (dump_vector fmt r ++ prefix ++ dump_matrix fmt prefix (r' :: m)). rewrite IH by discriminate.
  cbn [flat_map]. rewrite <- (dump_vector_ok r), <- !app_assoc. reflexivity.
Qed.
Lemma next_ok st sy out b r : st = [] \/ st = [SStmt] -> star (mk st sy out b, TCh newline :: r) (mk [] sy out true, r).
Proof. intros H. apply star_one. destruct H as [->| ->]; destruct b; reflexivity. Qed.
Lemma value_line env e v : readable e -> names_ok L (expr_names e) -> ev env e = Ok v -> forall sy out b r, table_ok [] env sy ->
  exists sy', table_ok [] env sy' /\ star (mk [] sy out b, toks_at 0 e ++ TCh newline :: r) (mk [] sy' (out ++ shown fmt prefix [v]) true, r).
Proof.
  intros R N E sy out b r T. destruct (parse_expr A zero of_int fmt prefix chains coupling L LN [] env e R N v E 0 ltac:(lia) [] sy out b (TCh newline :: r) T) as (sy' & T' & S).
  { constructor. } { apply follow_cons; [cbn; tauto|discriminate|discriminate]. }
  exists sy'. split; auto. eapply star_trans; [exact S|]. eapply star_step; [apply act_reduce_step; try exact Logic.I; reflexivity|].
  apply next_ok. auto.
Qed.
Lemma table_weaken K env sy : table_ok K env sy -> table_ok [] env sy.
Proof. intros (H1 & H2 & H3 & H4 & _). repeat split; auto. intros x []. Qed.
Lemma set_line env x e v : free_name x -> In x L -> readable e -> names_ok L (expr_names e) -> ev env e = Ok v -> forall sy out b r, table_ok [] env sy ->
  exists sy', table_ok [] (update env x v) sy' /\ star (mk [] sy out b, TName x :: TCh "=" :: toks_at 0 e ++ TCh newline :: r) (mk [] sy' out true, r).
Proof.
  intros Hx HL R N E sy out b r T.
  destruct (shift_name A zero of_int fmt prefix chains coupling L LN [] env 0 [] sy out b x (TCh "=" :: toks_at 0 e ++ TCh newline :: r) T HL ltac:(constructor)) as (sy1 & T1 & S1 & I1).
  assert (T1' : table_ok [x] env sy1) by (destruct T1 as (? & ? & ? & ? & _); repeat split; auto; intros y [<-|[]]; auto).
  destruct (parse_expr A zero of_int fmt prefix chains coupling L LN [x] env e R N v E 0 ltac:(lia) [SCh "="; SName x] sy1 out b (TCh newline :: r) T1') as (sy2 & T2 & S2).
  { constructor. } { apply follow_cons; [cbn; tauto|discriminate|discriminate]. }
  exists (assign sy2 x v). split.
  - apply (assign_ok A zero L [] env); [apply (table_weaken [x]); auto|]. destruct T2 as (_ & _ & _ & _ & T2). apply T2. left; auto.
  - eapply star_step; [exact S1|]. shift1; [reflexivity|]. eapply star_trans; [exact S2|].
    eapply star_step; [apply act_reduce_step; try exact Logic.I; reflexivity|]. apply next_ok. auto.
Qed.
Lemma row_line env es vs : Forall readable es -> names_ok L (flat_map expr_names es) -> Forall2 (fun e v => ev env e = Ok v) es vs -> forall sy out b r, table_ok [] env sy ->
  exists sy', table_ok [] env sy' /\ star (mk [] sy out b, row_toks es ++ TCh newline :: r) (mk [] sy' (out ++ shown fmt prefix vs) true, r).
Proof.
  intros R N E sy out b r T. destruct (row_ok [] env es vs R N E [] sy out b newline r) as (sy' & T' & S); [left; auto|auto|cbn; tauto|discriminate|].
  exists sy'. split; auto. eapply star_trans; [exact S|]. rewrite <- dump_vector_ok. eapply star_step; [apply reduce_step; reflexivity|]. apply next_ok. auto.
Qed.
Lemma rows_line env rows vss : Forall (Forall readable) rows -> names_ok L (flat_map (flat_map expr_names) rows) -> Forall2 (Forall2 (fun e v => ev env e = Ok v)) rows vss -> rows <> [] -> rows <> [[]] ->
  forall sy out b r, table_ok [] env sy ->
  exists sy', table_ok [] env sy' /\ star (mk [] sy out b, (TCh "{" :: sep_toks (map row_toks rows) ++ [TCh "}"]) ++ TCh newline :: r) (mk [] sy' (out ++ flat_map (shown fmt prefix) vss) true, r).
Proof.
  intros R N E H1 H2 sy out b r T. cbn [app]. rewrite <- app_assoc. cbn [app].
  destruct (rows_ok [] env rows vss R N E H1 [SCh "{"] sy out b (TCh newline :: r)) as (sy' & T' & S); [left; auto|auto|].
  exists sy'. split; auto. shift1; [reflexivity|]. eapply star_trans; [exact S|]. shift1; [reflexivity|]. eapply star_step; [apply reduce_step; reflexivity|].
  rewrite <- dump_matrix_ok; [|inversion E; subst; [contradiction|discriminate]]. eapply star_step; [apply reduce_step; reflexivity|]. apply next_ok. auto.
Qed.
End P.
