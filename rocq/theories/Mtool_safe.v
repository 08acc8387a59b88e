(** C78: the tool matrix does nothing undefined if its integers fit into an int. *)
From Coq Require Import List ZArith Bool Ascii String Lia.
From Verif Require Import Base Params_model Template_model Template_words Mtool_model Mtool_spec Mtool_proofs Mtool_sound Mtool_flex Mtool_flex_main Mtool_names.
Import ListNotations.
Local Open Scope char_scope.
Local Open Scope list_scope.

(** * The last token *)
Lemma halt_last i a x t : nth_error rules i = Some (a, x, Halt t) -> ~ shiftable t.
Proof. intros H. apply nth_error_In in H. cbn in H. repeat destruct H as [H|H]; try discriminate H; try contradiction; injection H as <- <- <-; cbn; auto. Qed.
Lemma scanned_last b k s ts : scanned b k s ts -> exists t, In t ts /\ ~ shiftable t.
Proof.
  induction 1 as [b k|b k i d w r ts C P|b k i d w r ts k' ts' C P H (t & I & N)].
  - exists TEnd. cbn. auto.
  - destruct C as (_ & (a & x & r' & Hn & _) & _). destruct d; cbn [perform] in P; try discriminate P.
    + injection P as <-. exists t. split; [left; auto|apply (halt_last i a x), Hn].
    + destruct k; [|discriminate]. injection P as <-. exists TMismatch. cbn. auto.
    + destruct k; discriminate.
  - exists t. split; auto. apply in_or_app. auto.
Qed.
Lemma tokens_last s : exists t, In t (tokens s) /\ ~ shiftable t.
Proof. apply (scanned_last true 0 s). apply tokens_flex. reflexivity. Qed.

Section Safe.
Context {V : Type} (A : arith V) (zero : V) (of_int : Z -> V) (fmt : V -> text) (prefix : text) (chains : list (@chain V)) (m : list (list V)).
Notation state := (@state V).
Notation sym := (@sym V).
Notation reduce := (reduce A zero of_int fmt prefix chains (Some m)).
Notation act := (act A zero fmt prefix).

Definition fits (w : text) : Prop := exists i, index w i.
Lemma fits_atoi w : fits w -> exists i, atoi w = Ok i /\ (0 <= i)%Z.
Proof. intros [i H]. assert (E := index_atoi w i H). exists i. split; auto. destruct H as ((_ & D) & _). apply (atoi_nonneg w i D E). Qed.
Lemma element_safe {B} (l : list B) i : (0 <= i)%Z -> element l i <> UB.
Proof.
  intros P. unfold element. destruct (Z.ltb_spec i (Z.of_nat (List.length l))); [|discriminate]. destruct (nth_error l (Z.to_nat i)) eqn:E; [discriminate|].
  apply nth_error_None in E. lia.
Qed.
Lemma channel_safe i : channel chains i <> UB.
Proof.
  unfold channel. destruct (Z.leb_spec 1 i); [|discriminate]. destruct (Z.leb_spec i (Z.of_nat (List.length chains))); [|discriminate]. cbn [andb].
  destruct (nth_error chains (Z.to_nat (i - 1))) eqn:E; [discriminate|]. apply nth_error_None in E. lia.
Qed.
Lemma gamma_safe i : gammapolch A chains i <> UB.
Proof. unfold gammapolch, bind. assert (G := channel_safe i). destruct (channel chains i); congruence. Qed.
Lemma coef_safe k i j : k <> KGamma -> (0 <= j)%Z -> coef chains (Some m) k i j <> UB.
Proof.
  intros K P. assert (G := channel_safe i). destruct k; [contradiction| | | | |]; cbn [coef]; try (unfold bind; destruct (channel chains i); try congruence; apply element_safe; auto).
  unfold coefV, bind, my_assert. destruct (Z.leb_spec 1 i); [|discriminate]. assert (E := element_safe m (i - 1) ltac:(lia)). destruct (element m (i - 1)); try congruence.
  destruct (Z.leb_spec 1 j); [|discriminate]. apply element_safe. lia.
Qed.

(** * The stack: its integers fit, and after gammaPolCh[ there is one index, at once reduced *)
Definition one_index (st : list sym) : Prop := forall u c i d st', st = u ++ SCh c :: SInt i :: SCh d :: SKey KGamma :: st' -> u = [] /\ c = "]".
Definition sound (st : list sym) : Prop := (forall w, In (SInt w) st -> fits w) /\ one_index st.
Definition plain (x : sym) : Prop := match x with SCh _ | SInt _ => False | _ => True end.
Lemma sound_put st y v x st' : sound st -> st = y :: v ++ st' -> plain x -> sound (x :: st').
Proof.
  intros [F O] -> P. split.
  - intros w [->|I]; [destruct P|]. apply F. right. apply in_or_app. auto.
  - intros [|z u] c i d r E; [injection E as -> _; destruct P|]. injection E as _ ->. destruct (O ((y :: v) ++ u) c i d r) as [D _]; [cbn; rewrite <- app_assoc; reflexivity|discriminate].
Qed.
Lemma sound_nil : sound []. Proof. split; [intros w []|]. intros [|z u] c i d r E; discriminate. Qed.
Lemma sound_stmt : sound [SStmt]. Proof. split; [intros w [H|[]]; discriminate|]. intros [|z [|z' u]] c i d r E; discriminate. Qed.
Ltac put S := match goal with
  | E : stack _ = ?y :: ?st |- sound (_ :: ?st) => apply (sound_put _ y [] _ st S E); exact I
  | E : stack _ = ?y :: ?a :: ?st |- sound (_ :: ?st) => apply (sound_put _ y [a] _ st S E); exact I
  | E : stack _ = ?y :: ?a :: ?b :: ?st |- sound (_ :: ?st) => apply (sound_put _ y [a; b] _ st S E); exact I
  | E : stack _ = ?y :: ?a :: ?b :: ?c :: ?st |- sound (_ :: ?st) => apply (sound_put _ y [a; b; c] _ st S E); exact I
  | E : stack _ = ?y :: ?a :: ?b :: ?c :: ?d :: ?st |- sound (_ :: ?st) => apply (sound_put _ y [a; b; c; d] _ st S E); exact I
  | E : stack _ = ?y :: ?a :: ?b :: ?c :: ?d :: ?e :: ?st |- sound (_ :: ?st) => apply (sound_put _ y [a; b; c; d; e] _ st S E); exact I
  end.
Ltac parts E := repeat (match type of E with context [match ?y with _ => _ end] => destruct y eqn:? end; try discriminate E).
Lemma reduce_sound (s : state) : sound (stack s) -> match reduce s with Some (Ok s') => sound (stack s') | Some UB => False | _ => True end.
Proof.
  intros S. assert (F := proj1 S). assert (O := proj2 S). unfold Mtool_model.reduce. destruct (stack s) as [|x st] eqn:E; [exact I|]. rewrite <- E in S.
  destruct x; try exact I.
  - unfold reduce_close. destruct (is c ")") eqn:C1; [|destruct (is c "]") eqn:C2; [|destruct (is c "}") eqn:C3; [|exact I]]].
    + destruct st as [|[] [|[] [|[] st]]]; try exact I; cbn [stack with_stack]; put S.
    + destruct st as [|x1 [|x2 [|x3 st]]]; try exact I; try (destruct x1; exact I); try (destruct x1, x2; exact I).
      destruct x1; try exact I; destruct x2; try exact I; destruct x3; try exact I.
      * destruct st as [|x4 [|x5 st]]; try exact I; try (destruct x4; exact I). destruct x4; try exact I. destruct x5; try exact I.
        destruct (fits_atoi w) as (j & Ej & Pj); [apply F; cbn; auto|]. destruct (fits_atoi w0) as (i & Ei & Pi); [apply F; cbn; auto 6|].
        rewrite Ei, Ej. cbn [bind]. assert (K : k <> KGamma).
        { intros ->. destruct (O [SCh c; SInt w] c0 w0 c1 st eq_refl) as [D _]. discriminate. }
        assert (G := coef_safe k i j K Pj). destruct (coef chains (Some m) k i j); cbn [bind]; auto. cbn [stack with_stack]. put S.
      * destruct (fits_atoi w) as (j & Ej & Pj); [apply F; cbn; auto|]. rewrite Ej. cbn [bind].
        assert (G := gamma_safe j). destruct (gammapolch A chains j); cbn [bind]; auto. cbn [stack with_stack]. put S.
      * cbn [stack with_stack]. put S.
    + destruct st as [|x1 [|x2 st]]; try exact I; try (destruct x1; try exact I; cbn [stack with_stack]; put S).
      destruct x1; try exact I; try (destruct x2; try exact I; cbn [stack with_stack]; put S).
      destruct x2; cbn [stack with_stack]; try put S. destruct (is c0 "}"); [|destruct (is c1 "{"); [exact I|]]; cbn [stack with_stack]; [|put S].
      destruct st as [|z st]; cbn [tl]; put S.
  - cbn [stack with_stack]. put S.
  - destruct (index_place st); [exact I|]. destruct (fits_atoi w) as (j & Ej & Pj); [apply F; cbn; auto|]. rewrite Ej. cbn [bind stack with_stack]. put S.
  - unfold reduce_expr. destruct st as [|x1 st]; [exact I|]. destruct x1; try exact I. destruct st as [|x2 st].
    + destruct (is c "-"); cbn; [put S|exact I].
    + destruct x2; cbn [option_map]; try (destruct (is c "-"); cbn [option_map stack with_stack]; [put S|exact I]).
      destruct (is c "*"); [|destruct (is c "/")]; cbn [option_map stack with_stack]; try exact I; put S.
  - destruct st as [|[] [|[] st]]; try exact I; cbn [stack with_stack]; put S.
  - destruct st as [|x1 st]; [cbn [stack print]; apply sound_stmt|]. destruct x1; exact I.
  - destruct st as [|[] [|[] st]]; try exact I; cbn [stack with_stack]; put S.
  - destruct st as [|x1 st]; [cbn [stack print]; apply sound_stmt|]. destruct x1; exact I.
Qed.
Lemma act_sound (s s' : state) t : sound (stack s) -> act s t = Reduce s' -> sound (stack s').
Proof.
  intros S R. unfold Mtool_model.act, act_expr, act_char, or_reduce, shift_if in R. destruct (stack s) as [|x st] eqn:E; [parts R|]. rewrite <- E in S.
  destruct x; parts R; try discriminate R; injection R as <-; cbn [stack with_stack print]; try apply sound_stmt; subst; put S.
Qed.
Lemma push_sound (s s' : state) t : sound (stack s) -> reduce s = None -> act s t = Shift -> push zero s t = Some s' -> (forall w, t = TInt w -> fits w) -> sound (stack s').
Proof.
  intros [F O] R Ac P T. assert (Q : exists x, stack s' = x :: stack s /\ (forall w, x = SInt w -> t = TInt w) /\ (forall c, x = SCh c -> t = TCh c)).
  { destruct t; cbn [push] in P; try discriminate P; try (injection P as <-; eexists; split; [reflexivity|]; split; intros; congruence).
    destruct (symlook zero (table s) x); [|discriminate]. injection P as <-. eexists. split; [reflexivity|]. split; intros; discriminate. }
  destruct Q as (x & -> & Q1 & Q2). split.
  - intros w [->|I]; auto.
  - intros [|z u] c i d r E.
    + injection E as -> E. split; auto. rewrite (Q2 c eq_refl) in Ac. unfold Mtool_model.act in Ac. rewrite E in Ac. cbn [shift_if tis] in Ac. unfold shift_if in Ac.
      destruct (Ascii.eqb c "]") eqn:B; [|discriminate]. apply Ascii.eqb_eq in B. exact B.
    + injection E as _ E. exfalso. destruct (O u c i d r E) as [-> ->]. unfold Mtool_model.reduce in R. rewrite E in R. discriminate R.
Qed.
Lemma run_safe n : forall (s : state) ts o, sound (stack s) -> (forall w, In (TInt w) ts -> fits w) -> (exists t, In t ts /\ ~ shiftable t) ->
  run A zero of_int fmt prefix chains (Some m) n s ts <> Some (o, Undefined).
Proof.
  induction n as [|n IH]; intros s ts o S T L R; [discriminate|]. cbn [Mtool_model.run] in R. unfold step in R. assert (Rs := reduce_sound s S).
  destruct (reduce s) as [[s'| |]|] eqn:Rd; [apply (IH s' ts o); auto|discriminate|contradiction|]. clear Rs.
  destruct ts as [|t ts]; [destruct L as (t & [] & _)|].
  assert (T' : forall w, In (TInt w) ts -> fits w) by (intros w I; apply T; right; auto).
  assert (L' : shiftable t -> exists t, In t ts /\ ~ shiftable t) by (intros Sh; destruct L as (t' & [->|I] & N); [contradiction|eauto]).
  assert (Act : match act s t with
      | Shift => match push zero s t with Some s' => run A zero of_int fmt prefix chains (Some m) n s' ts | None => Some (output s, Exit) end
      | Reduce s' => run A zero of_int fmt prefix chains (Some m) n s' (t :: ts) | Next => run A zero of_int fmt prefix chains (Some m) n (next_state s) ts
      | Error => Some (output s, Syntax) end <> Some (o, Undefined)).
  { destruct (act s t) as [|s'| |] eqn:Ac.
    - assert (Sh := act_shift A zero fmt prefix s t Ac). destruct (push zero s t) as [s'|] eqn:P; [|discriminate]. apply IH; auto.
      apply (push_sound s s' t); auto. intros w ->. apply T. left. auto.
    - apply IH; auto. apply (act_sound s s' t); auto.
    - apply IH; auto; [apply sound_nil|]. apply L'. unfold Mtool_model.act, act_expr, act_char, or_reduce, shift_if in Ac. destruct t; try exact I; cbn [tis] in Ac; parts Ac.
    - discriminate. }
  apply Act. revert R. destruct t; try (intros R; discriminate R).
  1-5: destruct (act s _) as [|s'| |]; auto; destruct (push zero s _); auto.
  destruct (stack s) eqn:?, (begun s) eqn:?; try (intros R; discriminate R); (destruct (act s TEnd) as [|s'| |]; auto; destruct (push zero s TEnd); auto).
Qed.
Theorem nothing_undefined s o e : (forall w, In (TInt w) (tokens s) -> exists i, index w i) -> tool A zero of_int fmt prefix chains (Some m) s (o, e) -> e <> Undefined.
Proof. intros T [n R] ->. apply (run_safe n (initial A zero) (tokens s) o sound_nil T (tokens_last s) R). Qed.
End Safe.
