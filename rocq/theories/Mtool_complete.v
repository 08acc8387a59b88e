(** C78: the tool matrix reads every sequence of lines of the grammar. *)
From Coq Require Import List ZArith Bool Ascii String Lia.
From Verif Require Import Base Params_model Template_model Template_spec Template_lex Template_words Mtool_model Mtool_spec Mtool_lex Mtool_parse Mtool_lines Mtool_proofs Mtool_gram.
Import ListNotations.
Local Open Scope char_scope.
Local Open Scope list_scope.

Lemma numeral_atoi w i : numeral w i -> atoi w = Ok i.
Proof. intros (H1 & H2). unfold atoi. rewrite (digits_value_ok w i H1). destruct (Z.leb_spec i 2147483647); [reflexivity|lia]. Qed.
Section C.
Context {V : Type} (A : arith V) (zero : V) (of_int : Z -> V) (fmt : V -> text) (prefix : text) (chains : list (@chain V)) (coupling : option (list (list V))).
Notation reduce := (reduce A zero of_int fmt prefix chains coupling).
Notation act := (act A zero fmt prefix).
Notation step := (step A zero of_int fmt prefix chains coupling).
Notation star := (star A zero of_int fmt prefix chains coupling).
Notation tool := (tool A zero of_int fmt prefix chains coupling).
Notation means := (means A zero of_int chains coupling).
Notation items := (items A zero of_int chains coupling).
Notation row := (row A zero of_int chains coupling).
Notation rows := (rows A zero of_int chains coupling).
Notation statement := (statement A zero of_int chains coupling fmt prefix).
Notation lines := (lines A zero of_int chains coupling fmt prefix).
Notation sym := (@sym V).
Notation mk := (@Build_state V).
Context (L : list text) (LN : List.length L <= NSYMS).
Notation table_ok K := (good_table A zero L K).
Notation parses K := (parses A zero of_int fmt prefix chains coupling L K).
Definition named (ts : list tok) : Prop := forall x, In (TName x) ts -> In x L.
Ltac shift1 := eapply star_step; [apply shift_step; [|reflexivity|exact Logic.I|reflexivity]|].
Lemma named_app a b : named (a ++ b) -> named a /\ named b.
Proof. intros H. split; intros x Hx; apply H; apply in_or_app; auto. Qed.
Lemma named_cons t a : named (t :: a) -> named a.
Proof. intros H x Hx. apply H. right. exact Hx. Qed.
Lemma applied_fn f v u : applied A zero f v u -> u = match fn A zero f with Some g => g v | None => zero end.
Proof.
  intros H. unfold fn, func_in. destruct H as [f v [<-|[<-|[]]]|v|v|f v N]; try reflexivity.
  unfold find_sym, start_table. cbn [map List.find name fst snd].
  repeat match goal with |- context [text_eqb ?a f] => let E := fresh in destruct (text_eqb a f) eqn:E; [exfalso; apply text_eqb_eq in E; apply N; subst f; cbn; tauto|] end. reflexivity.
Qed.
Lemma nth_channel i c : nth_is chains (i - 1) c -> channel chains i = Ok c.
Proof.
  intros (a & b & E & Hi). unfold channel. rewrite E, app_length. cbn [List.length]. destruct (Z.leb_spec 1 i); [|lia]. destruct (Z.leb_spec i (Z.of_nat (List.length a + S (List.length b)))); [|lia].
  cbn [andb]. rewrite Hi, Nat2Z.id, nth_error_app2, Nat.sub_diag by lia. reflexivity.
Qed.
Lemma nth_element {B} (l : list B) i x : nth_is l i x -> element l i = Ok x.
Proof.
  intros (a & b & -> & ->). unfold element. rewrite app_length. cbn [List.length]. destruct (Z.ltb_spec (Z.of_nat (List.length a)) (Z.of_nat (List.length a + S (List.length b)))); [|lia].
  rewrite Nat2Z.id, nth_error_app2, Nat.sub_diag by lia. reflexivity.
Qed.
Lemma nth_pos {B} (l : list B) i x : nth_is l i x -> (0 <= i)%Z.
Proof. intros (a & b & _ & ->). lia. Qed.
Lemma coefficient_coef k i j x : coefficient chains coupling k i j x -> k <> KGamma /\ coef chains coupling k i j = Ok x.
Proof.
  intros H. split; [destruct H; discriminate|]. destruct H as [i j c x H1 H2|i j c x H1 H2|i j c x H1 H2|i j c x H1 H2|m i j r x E H1 H2]; cbn [coef].
  1-4: rewrite (nth_channel _ _ H1); cbn [bind]; apply nth_element; auto.
  unfold coefV. rewrite E. assert (G1 := nth_pos _ _ _ H1). assert (G2 := nth_pos _ _ _ H2). unfold my_assert. destruct (Z.leb_spec 1 i); [|lia]. destruct (Z.leb_spec 1 j); [|lia].
  cbn [bind]. rewrite (nth_element _ _ _ H1). cbn [bind]. apply nth_element. auto.
Qed.
Lemma weaken K env ts v p q : p <= 2 -> q <= p -> parses K env ts v p -> parses K env ts v q.
Proof. intros Hp Hq H. assert (G := par_ok A zero of_int fmt prefix chains coupling L LN K env ts v p Hp H q ltac:(lia)). destruct (Nat.ltb_spec p q); [lia|exact G]. Qed.
Definition height (lv : level) : nat := match lv with Sum => 0 | Term => 1 | Factor => 2 end.
Lemma call_paren K env p f ts v : In f L -> parses K env ts v 0 -> parses K env (TName f :: TCh "(" :: ts ++ [TCh ")"]) (match fn A zero f with Some g => g v | None => zero end) p.
Proof.
  intros Hf H st sy out b r T O F. cbn [app]. rewrite <- app_assoc. cbn [app].
  destruct (shift_name A zero of_int fmt prefix chains coupling L LN K env p st sy out b f (TCh "(" :: ts ++ TCh ")" :: r) T Hf O) as (sy1 & T1 & S1 & _).
  destruct (H (SCh "(" :: SName f :: st) sy1 out b (TCh ")" :: r) T1) as (sy2 & T2 & S2); [constructor; exact Logic.I|apply follow_cons; [cbn; tauto|discriminate|discriminate]|].
  exists sy2. split; auto. eapply star_step; [exact S1|]. shift1; [reflexivity|]. eapply star_trans; [exact S2|].
  eapply star_step; [apply shift_close; exact Logic.I|]. apply star_one. apply reduce_step.
  rewrite <- (call_ok A zero L K env sy2 f v T2). reflexivity.
Qed.
Lemma tok_parses K env p t v : (exists w, t = TNum w /\ v = a_strtod A w) \/ (exists w i, t = TInt w /\ atoi w = Ok i /\ v = of_int i) -> parses K env [t] v p.
Proof.
  intros H st sy out b r T O F. exists sy. split; auto. cbn [app]. destruct H as [(w & -> & ->)|(w & i & -> & Hi & ->)];
    (eapply star_step; [apply shift_step; [apply (opens_reduce A zero of_int fmt prefix chains coupling p); auto|apply (opens_start A zero fmt prefix p); auto|exact Logic.I|reflexivity]|]); apply star_one; apply reduce_step.
  - reflexivity.
  - unfold Mtool_model.reduce. cbn [stack with_stack]. rewrite (opens_index p) by auto. rewrite Hi. reflexivity.
Qed.
Lemma means_parses K env lv ts v : means env lv ts v -> named ts -> parses K env ts v (height lv).
Proof.
  induction 1 as [w|w i N|x|f o c ts v u D M IH Ap|ts v M IH|w i c N C|k w u i j x N1 N2 C|ts v M IH|ts v M IH|ts us v w M1 IH1 M2 IH2|ts us v w M1 IH1 M2 IH2 Z|ts us v w M1 IH1 M2 IH2 Z|ts v M IH|ts us v w M1 IH1 M2 IH2|ts us v w M1 IH1 M2 IH2]; intros Hn; cbn [height] in *.
  - apply tok_parses. left. eauto.
  - apply tok_parses. right. exists w, i. auto using numeral_atoi.
  - apply var_ok; auto. apply Hn. left. reflexivity.
  - rewrite (applied_fn _ _ _ Ap). assert (Hf : In f L) by (apply Hn; left; reflexivity). do 2 apply named_cons in Hn. apply named_app in Hn as [Hn _].
    destruct D as [[-> ->]|[-> ->]]; [apply call_paren|apply call_parses]; auto.
  - apply named_cons, named_app in Hn as [Hn _]. apply (par_ok A zero of_int fmt prefix chains coupling L LN K env ts v 0 ltac:(lia) (IH Hn) 2 ltac:(lia)).
  - apply gamma_parses. rewrite (numeral_atoi _ _ N). cbn [bind]. unfold gammapolch. rewrite (nth_channel _ _ C). reflexivity.
  - destruct (coefficient_coef _ _ _ _ C) as [G1 G2]. apply coef_parses; [auto|]. rewrite (numeral_atoi _ _ N1), (numeral_atoi _ _ N2). exact G2.
  - apply neg_ok. apply IH. eapply named_cons; eauto.
  - apply (weaken K env ts v 2 1); auto.
  - apply named_app in Hn as [H1 H2]. apply named_cons in H2. apply (mul_ok A zero of_int fmt prefix chains coupling L LN K env ts v us w "*" (a_mul A)); auto.
  - apply named_app in Hn as [H1 H2]. apply named_cons in H2. assert (G : divide A v w = a_div A v w) by (unfold divide; rewrite Z; reflexivity). rewrite <- G. apply (mul_ok A zero of_int fmt prefix chains coupling L LN K env ts v us w "/" (divide A)); auto.
  - apply named_app in Hn as [H1 H2]. apply named_cons in H2. assert (G : divide A v w = v) by (unfold divide; rewrite Z; reflexivity). rewrite <- G. apply (mul_ok A zero of_int fmt prefix chains coupling L LN K env ts v us w "/" (divide A)); auto.
  - apply (weaken K env ts v 1 0); auto.
  - apply named_app in Hn as [H1 H2]. apply named_cons in H2. apply (add_ok A zero of_int fmt prefix chains coupling L LN K env ts v us w "+" (a_add A)); auto.
  - apply named_app in Hn as [H1 H2]. apply named_cons in H2. apply (add_ok A zero of_int fmt prefix chains coupling L LN K env ts v us w "-" (a_sub A)); auto.
Qed.

Lemma items_parse K env ts vs : items env ts vs -> named ts -> forall st sy out b r, listy st -> table_ok K env sy ->
  exists sy', table_ok K env sy' /\ star (mk st sy out b, ts ++ TCh "}" :: r) (mk (SEL vs :: st) sy' out b, TCh "}" :: r).
Proof.
  induction 1 as [ts v M|ts v us vs M I IH]; intros Hn st sy out b r Hst T.
  - destruct (means_parses K env _ _ _ M Hn st sy out b (TCh "}" :: r) T (listy_opens st Hst)) as (sy' & T' & S).
    { apply follow_cons; [cbn; tauto|discriminate|discriminate]. }
    exists sy'. split; auto. eapply star_trans; [exact S|]. apply star_one.
    destruct Hst as [(st' & -> & [->|[->|(l & m & ->)]])|(a & st' & ->)]; apply act_reduce_step; try exact Logic.I; reflexivity.
  - apply named_app in Hn as [N1 N2]. apply named_cons in N2. rewrite <- app_assoc. cbn [app].
    destruct (means_parses K env _ _ _ M N1 st sy out b (TCh "," :: us ++ TCh "}" :: r) T (listy_opens st Hst)) as (sy1 & T1 & S1).
    { apply follow_cons; [cbn; tauto|discriminate|discriminate]. }
    destruct (IH N2 (SCh "," :: SE v :: st) sy1 out b r) as (sy2 & T2 & S2); [right; eauto|auto|].
    exists sy2. split; auto. eapply star_trans; [exact S1|].
    eapply star_step; [|eapply star_trans; [exact S2|apply star_one; apply reduce_step; reflexivity]].
    destruct Hst as [(st' & -> & [->|[->|(l & m & ->)]])|(a & st' & ->)]; apply shift_step; try exact Logic.I; reflexivity.
Qed.
Lemma row_parse K env ts r0 : row env ts r0 -> named ts ->
  forall st sy out b c r, below st -> table_ok K env sy -> In c [","; "}"; newline] -> (r0 = [] -> st = [SCh "{"] -> c = ",") ->
  exists sy', table_ok K env sy' /\ star (mk st sy out b, ts ++ TCh c :: r) (mk (SVec r0 :: st) sy' out b, TCh c :: r).
Proof.
  intros H Hn st sy out b c r Hst T Hc Hx.
  assert (S0 : forall ts, star (mk st sy out b, TCh "{" :: ts) (mk (SCh "{" :: st) sy out b, ts)).
  { intros ts'. apply star_one. destruct Hst as [->|[->|(l & m & ->)]]; apply shift_step; try exact Logic.I; reflexivity. }
  destruct H as [|ts vs I].
  - exists sy. split; auto. cbn [app]. eapply star_trans; [apply S0|].
    assert (S1 : step (mk (SCh "{" :: st) sy out b) (TCh "}" :: TCh c :: r) = inl (mk (SCh "}" :: SCh "{" :: st) sy out b, TCh c :: r)).
    { destruct Hst as [->|[->|(l & m & ->)]]; apply shift_step; try exact Logic.I; reflexivity. }
    eapply star_step; [exact S1|]. apply star_one. destruct Hst as [->|[->|(l & m & ->)]].
    + apply reduce_step. reflexivity.
    + rewrite (Hx eq_refl eq_refl). apply act_reduce_step; try exact Logic.I; reflexivity.
    + apply reduce_step. reflexivity.
  - apply named_cons, named_app in Hn as [Hn _]. cbn [app]. rewrite <- app_assoc. cbn [app].
    destruct (items_parse K env _ _ I Hn (SCh "{" :: st) sy out b (TCh c :: r)) as (sy' & T' & S); [left; eauto|auto|].
    exists sy'. split; auto. eapply star_trans; [apply S0|]. eapply star_trans; [exact S|]. shift1; [destruct Hst as [->|[->|(l & m & ->)]]; reflexivity|]. apply star_one. apply reduce_step. reflexivity.
Qed.
Lemma rows_parse K env ts m0 : rows env ts m0 -> named ts ->
  forall st sy out b r, (st = [SCh "{"] /\ m0 <> [[]] \/ exists l m, st = SCh "," :: SVec l :: m) -> table_ok K env sy ->
  exists sy', table_ok K env sy' /\ star (mk st sy out b, ts ++ TCh "}" :: r) (mk (SVL m0 :: st) sy' out b, TCh "}" :: r).
Proof.
  induction 1 as [ts r0 R|ts r0 us m0 R Rs IH]; intros Hn st sy out b r Hst T;
    (assert (B : below st) by (destruct Hst as [[-> _]|(l & m & ->)]; [right; left; auto|right; right; eauto])).
  - destruct (row_parse K env _ _ R Hn st sy out b "}" r B T) as (sy' & T' & S); [cbn; tauto|intros -> ->; destruct Hst as [[_ Hst]|(l & m & Hst)]; [congruence|discriminate]|].
    exists sy'. split; auto. eapply star_trans; [exact S|]. apply star_one.
    destruct Hst as [[-> _]|(l & m & ->)]; apply act_reduce_step; try exact Logic.I; reflexivity.
  - apply named_app in Hn as [N1 N2]. apply named_cons in N2. rewrite <- app_assoc. cbn [app].
    destruct (row_parse K env _ _ R N1 st sy out b "," (us ++ TCh "}" :: r) B T) as (sy1 & T1 & S1); [cbn; tauto|auto|].
    destruct (IH N2 (SCh "," :: SVec r0 :: st) sy1 out b r) as (sy2 & T2 & S2); [right; eauto|auto|].
    exists sy2. split; auto. eapply star_trans; [exact S1|].
    eapply star_step; [|eapply star_trans; [exact S2|apply star_one; apply reduce_step; reflexivity]].
    destruct Hst as [[-> _]|(l & m & ->)]; apply shift_step; try exact Logic.I; reflexivity.
Qed.
Lemma statement_read env ts env' o : statement env ts env' o -> named ts -> forall sy out b r, table_ok [] env sy ->
  exists sy', table_ok [] env' sy' /\ star (mk [] sy out b, ts ++ TCh newline :: r) (mk [] sy' (out ++ o) true, r).
Proof.
  assert (NX := next_ok A zero of_int fmt prefix chains coupling).
  intros H Hn sy out b r T. destruct H as [|ts v M|x ts v M|ts r0 R|ts m R Hm|].
  - exists sy. split; auto. rewrite app_nil_r. apply NX. auto.
  - destruct (means_parses [] env _ _ _ M Hn [] sy out b (TCh newline :: r) T) as (sy' & T' & S); [constructor|apply follow_cons; [cbn; tauto|discriminate|discriminate]|].
    exists sy'. split; auto. eapply star_trans; [exact S|]. eapply star_step; [apply act_reduce_step; try exact Logic.I; reflexivity|]. apply NX. auto.
  - assert (Hx : In x L) by (apply Hn; left; reflexivity). do 2 apply named_cons in Hn. cbn [app].
    destruct (shift_name A zero of_int fmt prefix chains coupling L LN [] env 0 [] sy out b x (TCh "=" :: ts ++ TCh newline :: r) T Hx ltac:(constructor)) as (sy1 & T1 & S1 & I1).
    assert (T1' : table_ok [x] env sy1) by (destruct T1 as (? & ? & ? & ? & _); repeat split; auto; intros y [<-|[]]; auto).
    destruct (means_parses [x] env _ _ _ M Hn [SCh "="; SName x] sy1 out b (TCh newline :: r) T1') as (sy2 & T2 & S2); [constructor|apply follow_cons; [cbn; tauto|discriminate|discriminate]|].
    exists (assign sy2 x v). split.
    + apply (assign_ok A zero L [] env); [destruct T2 as (? & ? & ? & ? & _); repeat split; auto; intros y []|]. destruct T2 as (_ & _ & _ & _ & T2). apply T2. left; auto.
    + rewrite app_nil_r. eapply star_step; [exact S1|]. shift1; [reflexivity|]. eapply star_trans; [exact S2|].
      eapply star_step; [apply act_reduce_step; try exact Logic.I; reflexivity|]. apply NX. auto.
  - destruct (row_parse [] env _ _ R Hn [] sy out b newline r) as (sy' & T' & S); [left; auto|auto|cbn; tauto|discriminate|].
    exists sy'. split; auto. eapply star_trans; [exact S|]. rewrite <- dump_vector_ok. eapply star_step; [apply reduce_step; reflexivity|]. apply NX. auto.
  - apply named_cons, named_app in Hn as [Hn _]. cbn [app]. rewrite <- app_assoc. cbn [app].
    destruct (rows_parse [] env _ _ R Hn [SCh "{"] sy out b (TCh newline :: r)) as (sy' & T' & S); [left; auto|auto|].
    exists sy'. split; auto. shift1; [reflexivity|]. eapply star_trans; [exact S|]. shift1; [reflexivity|]. eapply star_step; [apply reduce_step; reflexivity|].
    rewrite <- dump_matrix_ok; [|inversion R; discriminate]. eapply star_step; [apply reduce_step; reflexivity|]. apply NX. auto.
  - exists sy. split; auto. cbn [app]. do 4 (shift1; [reflexivity|]). eapply star_step; [apply reduce_step; reflexivity|]. eapply star_step; [apply reduce_step; reflexivity|].
    assert (G : out ++ prefix = out ++ prefix ++ []) by (rewrite app_nil_r; reflexivity). rewrite G. apply NX. auto.
Qed.
Lemma lines_read w env o : lines w env o -> named w -> incl fnames L -> forall r, exists sy,
  table_ok [] env sy /\ star (initial A zero, w ++ r) (mk [] sy o (match w with [] => false | _ => true end), r).
Proof.
  intros H Hn Hf. induction H as [|w env o ts env' o' H IH St]; intros r.
  - exists (start_table A zero). split; [apply start_ok; auto|apply star_refl].
  - apply named_app in Hn as [N1 N2]. apply named_app in N2 as [N2 _]. destruct (IH N1 (ts ++ [TCh newline] ++ r)) as (sy & T & S).
    destruct (statement_read _ _ _ _ St N2 sy o (match w with [] => false | _ => true end) r T) as (sy' & T' & S').
    exists sy'. split; auto. rewrite <- !app_assoc. eapply star_trans; [exact S|].
    assert (G : match w ++ ts ++ [TCh newline] with [] => false | _ => true end = true) by (destruct w; [destruct ts|]; reflexivity). rewrite G. exact S'.
Qed.
End C.

Theorem read_lines {V : Type} (A : arith V) (zero : V) (of_int : Z -> V) (fmt : V -> text) (prefix : text) (chains : list (@chain V)) (coupling : option (list (list V)))
  (names : list text) s w r env o : List.length names <= 196 -> (forall x, In (TName x) w -> In x names) -> tokens s = w ++ TEnd :: r -> w <> [] ->
  lines A zero of_int chains coupling fmt prefix w env o -> tool A zero of_int fmt prefix chains coupling s (o, Finished).
Proof.
  intros HL HN E Hw H. set (L := fnames ++ names). assert (LN : List.length L <= NSYMS) by (unfold L; rewrite app_length; change (List.length fnames) with 4; unfold NSYMS; lia).
  destruct (lines_read A zero of_int fmt prefix chains coupling L LN w env o H) with (r := TEnd :: r) as (sy & T & S).
  { intros x Hx. apply in_or_app. right. auto. } { apply incl_appl. apply incl_refl. }
  unfold tool. rewrite E. destruct (star_run A zero of_int fmt prefix chains coupling _ _ S Finished) as (n & Hn); [destruct w; [contradiction|]; reflexivity|]. exists n. exact Hn.
Qed.
