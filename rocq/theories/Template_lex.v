(** Lexical lemmas for C34. *)
From Coq Require Import List ZArith Bool Ascii String Lia.
From Verif Require Import Base Params_model Template_model Template_spec.
Import ListNotations.
Local Open Scope list_scope.

Lemma eqb_ascii a b : Ascii.eqb a b = true -> a = b. Proof. apply Ascii.eqb_eq. Qed.

(** ** Ignored text *)
Definition solid (c : ascii) : Prop := isspace c = false /\ c <> "#"%char.
Lemma skip_cons c t : solid c -> skip_ignored (c :: t) = c :: t.
Proof. intros [H1 H2]. simpl. rewrite H1. destruct (Ascii.eqb_spec c "#"); [contradiction|auto]. Qed.
Lemma skip_both s : (forall c t, skip_ignored s = c :: t -> solid c) /\ (forall c t, skip_comment s = c :: t -> solid c).
Proof.
  induction s as [|a s [IH1 IH2]]; simpl; [split; discriminate|]. split; intros c t.
  - destruct (isspace a) eqn:E; [apply IH1|]. destruct (Ascii.eqb_spec a "#"); [apply IH2|]. intros H. injection H as <- <-. split; auto.
  - destruct (Ascii.eqb a newline); eauto.
Qed.
Lemma skip_solid s c t : skip_ignored s = c :: t -> solid c.
Proof. apply (proj1 (skip_both s)). Qed.
Lemma skip_idem s : skip_ignored (skip_ignored s) = skip_ignored s.
Proof. destruct (skip_ignored s) eqn:E; [reflexivity|]. apply skip_cons. eapply skip_solid; eauto. Qed.
Lemma skip_comment_app c s : ~ In newline c -> skip_comment (c ++ newline :: s) = skip_ignored s.
Proof.
  induction c as [|a c IH]; intros H.
  - reflexivity.
  - cbn [app skip_comment]. destruct (Ascii.eqb_spec a newline); [subst; exfalso; apply H; left; auto|]. apply IH. intros Hc; apply H; right; auto.
Qed.
Lemma skip_comment_end c : ~ In newline c -> skip_comment c = [].
Proof.
  induction c as [|a c IH]; intros H; [reflexivity|]. cbn [skip_comment].
  destruct (Ascii.eqb_spec a newline); [subst; exfalso; apply H; left; auto|]. apply IH. intros Hc; apply H; right; auto.
Qed.
Lemma skip_hash s : skip_ignored ("#"%char :: s) = skip_comment s.
Proof. reflexivity. Qed.
Lemma skip_app i s : ignorable i -> skip_ignored (i ++ s) = skip_ignored s.
Proof.
  induction 1; [reflexivity| |].
  - cbn [app skip_ignored]. rewrite H. auto.
  - cbn [app]. rewrite skip_hash, <- app_assoc. cbn [app]. rewrite skip_comment_app; auto.
Qed.
Lemma skip_split s : (exists i, s = i ++ skip_ignored s /\ ((ignorable i) \/ (skip_ignored s = [] /\ trailing i))) /\
  (exists c r, s = c ++ r /\ ~ In newline c /\ ((r = [] /\ skip_comment s = []) \/ exists u i, r = newline :: u /\ u = i ++ skip_comment s /\ (ignorable i \/ (skip_comment s = [] /\ trailing i)))).
Proof.
  induction s as [|a s [IH1 IH2]].
  - split; [exists []; split; [auto|left; constructor]|exists [], []; repeat split; auto].
  - split.
    + cbn [skip_ignored]. destruct (isspace a) eqn:E.
      * destruct IH1 as (i & H & [Hi|[H1 H2]]).
        -- exists (a :: i). split; [cbn [app]; congruence|left; constructor; auto].
        -- exists (a :: i). split; [cbn [app]; congruence|]. right; split; auto. destruct H2 as (j & c & Hj & Hc & Hd).
           exists (a :: j), c. split; [constructor; auto|]. split; [auto|]. destruct Hd as [->| ->]; [left|right]; reflexivity.
      * destruct (Ascii.eqb_spec a "#") as [->|Hn]; [|exists []; split; [auto|left; constructor]].
        destruct IH2 as (c & r & H & Hc & [[-> Hr]|(u & i & -> & Hu & Hi)]).
        -- exists ("#"%char :: s). rewrite Hr, app_nil_r. split; [auto|]. right. split; auto. exists [], c. split; [constructor|]. split; auto.
           right. rewrite H, app_nil_r. reflexivity.
        -- exists ("#"%char :: c ++ newline :: i). split.
           ++ cbn [app]. f_equal. rewrite <- app_assoc. cbn [app]. congruence.
           ++ destruct Hi as [Hi|[H1 (j & d & Hj & Hd & He)]]; [left; apply Ig_comment; auto|right; split; auto].
              exists ("#"%char :: c ++ newline :: j), d. split; [apply Ig_comment; auto|]. split; auto.
              destruct He as [->| ->]; [left; auto|right]. cbn [app]. rewrite <- app_assoc. reflexivity.
    + cbn [skip_comment]. destruct (Ascii.eqb_spec a newline) as [->|Hn].
      * exists [], (newline :: s). split; [auto|]. split; [auto|]. right. destruct IH1 as (i & H & Hi). exists s, i. auto.
      * destruct IH2 as (c & r & H & Hc & Hd). exists (a :: c), r. split; [cbn [app]; congruence|]. split; [intros [?|?]; auto|].
        destruct Hd as [[-> Hr]|Hd]; [left; auto|right; auto].
Qed.
Lemma skip_front s c t : skip_ignored s = c :: t -> exists i, ignorable i /\ s = i ++ c :: t.
Proof. intros H. destruct (proj1 (skip_split s)) as (i & E & [Hi|[H1 _]]); [|congruence]. exists i. rewrite H in E. auto. Qed.
Lemma skip_none s : skip_ignored s = [] -> trailing s.
Proof.
  intros H. destruct (proj1 (skip_split s)) as (i & E & [Hi|[_ Ht]]); rewrite H, app_nil_r in E; subst; auto.
  exists i, []. split; auto.
Qed.
Lemma trailing_skip z : trailing z -> skip_ignored z = [].
Proof.
  intros (i & c & Hi & Hc & [->| ->]); [rewrite <- (app_nil_r i)|]; rewrite (skip_app _ _ Hi); [reflexivity|]. rewrite skip_hash. apply skip_comment_end; auto.
Qed.
Lemma skip_length s : (List.length (skip_ignored s) <= List.length s)%nat.
Proof. destruct (proj1 (skip_split s)) as (i & E & _). rewrite E at 2. rewrite app_length. lia. Qed.
Lemma ignorable_app i j : ignorable i -> ignorable j -> ignorable (i ++ j).
Proof. induction 1; intros Hj; cbn [app]; auto; [constructor; auto|]. rewrite <- app_assoc. cbn [app]. apply Ig_comment; auto. Qed.

(** ** consume *)
Lemma consume_skip c s : consume c (skip_ignored s) = consume c s.
Proof. unfold consume. rewrite skip_idem. auto. Qed.
Lemma consume_true c s t : consume c s = (true, t) -> exists i, ignorable i /\ s = i ++ c :: t.
Proof.
  unfold consume. destruct (skip_ignored s) as [|d u] eqn:E; [discriminate|]. destruct (Ascii.eqb_spec d c) as [->|]; [|discriminate].
  intros H. injection H as <-. apply skip_front; auto.
Qed.
Lemma consume_false c s t : consume c s = (false, t) -> t = skip_ignored s /\ (forall u, skip_ignored s <> c :: u).
Proof.
  unfold consume. destruct (skip_ignored s) as [|d u] eqn:E; [intros H; injection H as <-; split; [auto|discriminate]|].
  destruct (Ascii.eqb_spec d c) as [->|]; [discriminate|]. intros H. injection H as <-. split; auto. intros v Hv. congruence.
Qed.
Lemma consume_hit c s t : skip_ignored s = c :: t -> consume c s = (true, t).
Proof. intros H. unfold consume. rewrite H, Ascii.eqb_refl. auto. Qed.
Lemma consume_miss c s : (forall u, skip_ignored s <> c :: u) -> consume c s = (false, skip_ignored s).
Proof.
  intros H. unfold consume. destruct (skip_ignored s) as [|d u]; auto. destruct (Ascii.eqb_spec d c); [subst; exfalso; eapply H; eauto|auto].
Qed.
Lemma consume_hit' c i t : ignorable i -> solid c -> consume c (i ++ c :: t) = (true, t).
Proof. intros Hi Hc. apply consume_hit. rewrite skip_app by auto. apply skip_cons; auto. Qed.
Lemma consume_length c s b t : consume c s = (b, t) -> (List.length t + (if b then 1 else 0) <= List.length s)%nat.
Proof.
  unfold consume. pose proof (skip_length s) as L. destruct (skip_ignored s) as [|d u]; [intros H; injection H as <- <-; simpl; lia|].
  destruct (Ascii.eqb d c); intros H; injection H as <- <-; simpl in *; lia.
Qed.

(** ** span *)
Lemma span_spec p s : forall a b, span p s = (a, b) -> s = a ++ b /\ all_are p a /\ (forall c t, b = c :: t -> p c = false).
Proof.
  induction s as [|x s IH]; simpl; intros a b H.
  - injection H as <- <-. split; [auto|]. split; [constructor|discriminate].
  - destruct (p x) eqn:E.
    + destruct (span p s) as [a' b'] eqn:E'. injection H as <- <-. destruct (IH _ _ eq_refl) as (H1 & H2 & H3).
      split; [simpl; congruence|]. split; [constructor; auto|auto].
    + injection H as <- <-. split; [auto|]. split; [constructor|]. intros c t Hc. injection Hc as <- <-. auto.
Qed.
Lemma span_app p a b : all_are p a -> (forall c t, b = c :: t -> p c = false) -> span p (a ++ b) = (a, b).
Proof.
  induction 1; intros Hb; simpl.
  - destruct b as [|c t]; [auto|]. simpl. rewrite (Hb c t eq_refl). auto.
  - rewrite H, (IHForall Hb). auto.
Qed.

(** ** Numbers *)
Lemma mantissa_sound p s m t : p "."%char = false -> mantissa p s = Some (m, t) -> s = m ++ t /\ digits_with_point p m.
Proof.
  intros Hp. unfold mantissa. destruct (span p s) as [a u] eqn:E. destruct (span_spec _ _ _ _ E) as (H1 & H2 & H3).
  assert (HA : match a with [] => None | _ => Some (a, u) end = Some (m, t) -> s = m ++ t /\ digits_with_point p m).
  { destruct a; [discriminate|]. intros H. injection H as <- <-. split; auto. left. split; [discriminate|auto]. }
  destruct u as [|c v]; [exact HA|]. destruct (Ascii.eqb_spec c ".") as [->|]; [|exact HA].
  destruct (span p v) as [b w] eqn:Ev. destruct (span_spec _ _ _ _ Ev) as (G1 & G2 & G3). intros H.
  assert (Hne : a ++ b <> [] /\ m = a ++ "."%char :: b /\ t = w).
  { destruct a; [destruct b; [discriminate|]|]; injection H as <- <-; (split; [discriminate|split; reflexivity]). }
  destruct Hne as (N1 & -> & ->). split; [rewrite <- app_assoc; cbn [app]; congruence|]. right. exists a, b. auto.
Qed.
Lemma mantissa_complete p m t : p "."%char = false -> digits_with_point p m -> (forall c u, t = c :: u -> p c = false /\ c <> "."%char) -> mantissa p (m ++ t) = Some (m, t).
Proof.
  intros Hp Hm Ht. assert (Hf : forall c u, t = c :: u -> p c = false) by (intros c u H; apply (Ht c u H)). destruct Hm as [[Hn Ha]|(a & b & -> & Hn & Ha & Hb)].
  - unfold mantissa. rewrite (span_app _ _ _ Ha Hf). destruct t as [|c u]; [destruct m; [contradiction|auto]|].
    destruct (Ascii.eqb_spec c "."); [exfalso; eapply (proj2 (Ht c u eq_refl)); auto|]. destruct m; [contradiction|auto].
  - unfold mantissa. rewrite <- app_assoc. cbn [app]. rewrite (span_app p a ("."%char :: b ++ t)); [|auto|intros c u H; injection H as <- <-; auto].
    rewrite Ascii.eqb_refl. rewrite (span_app _ _ _ Hb Hf). destruct a; [destruct b; [contradiction|]|]; reflexivity.
Qed.
Lemma exponent_sound e E s x t : exponent e E s = (x, t) -> s = x ++ t /\ exponent_part e E x.
Proof.
  unfold exponent. destruct s as [|c s]; [intros H; injection H as <- <-; split; [auto|left; auto]|].
  destruct (Ascii.eqb c e || Ascii.eqb c E) eqn:Ec; [|intros H; injection H as <- <-; split; [auto|left; auto]].
  assert (Hc : c = e \/ c = E). { apply orb_prop in Ec. destruct Ec as [Ec|Ec]; apply eqb_ascii in Ec; auto. }
  set (q := match s with [] => _ | _ => _ end). assert (Hq : exists sg u, q = (sg, u) /\ s = sg ++ u /\ (sg = [] \/ sg = ["+"%char] \/ sg = ["-"%char])).
  { unfold q. destruct s as [|g u]; [exists [], []; auto|]. destruct (Ascii.eqb g "+" || Ascii.eqb g "-") eqn:Eg; [|exists [], (g :: u); auto].
    apply orb_prop in Eg. exists [g], u. split; [auto|]. split; [auto|]. destruct Eg as [Eg|Eg]; apply eqb_ascii in Eg; subst; auto. }
  destruct Hq as (sg & u & Eq & Hs & Hsg). rewrite Eq. destruct (span isdigit u) as [d v] eqn:Ed. destruct (span_spec _ _ _ _ Ed) as (H1 & H2 & H3).
  destruct d as [|d0 d1] eqn:Edd; intros H; injection H as <- <-; [split; [auto|left; auto]|].
  split; [cbn [app]; rewrite <- app_assoc; congruence|]. right. exists c, sg, (d0 :: d1). repeat split; auto. discriminate.
Qed.
Lemma exponent_complete e E x t : exponent_part e E x -> (forall c u, t = c :: u -> isdigit c = false /\ c <> e /\ c <> E) -> exponent e E (x ++ t) = (x, t).
Proof.
  intros [->|(c & sg & d & -> & Hc & Hs & Hn & Hd)] Ht.
  - cbn [app]. unfold exponent. destruct t as [|c u]; auto. destruct (Ht c u eq_refl) as (H1 & H2 & H3).
    destruct (Ascii.eqb_spec c e); [contradiction|]. destruct (Ascii.eqb_spec c E); [contradiction|]. auto.
  - cbn [app]. unfold exponent. replace (Ascii.eqb c e || Ascii.eqb c E) with true.
    2: { symmetry. apply orb_true_iff. destruct Hc as [->| ->]; [left|right]; apply Ascii.eqb_refl. }
    rewrite <- app_assoc. assert (Hf : forall c u, t = c :: u -> isdigit c = false) by (intros a u H; apply (Ht a u H)).
    destruct Hs as [->|[->| ->]]; cbn [app].
    + destruct d as [|d0 d1]; [contradiction|]. cbn [app]. inversion Hd as [|? ? D0 D1]; subst.
      assert (Eg : Ascii.eqb d0 "+" || Ascii.eqb d0 "-" = false).
      { destruct (Ascii.eqb_spec d0 "+"); [subst; discriminate|]. destruct (Ascii.eqb_spec d0 "-"); [subst; discriminate|]. auto. }
      rewrite Eg. change (d0 :: d1 ++ t) with ((d0 :: d1) ++ t). rewrite (span_app _ _ _ Hd Hf). reflexivity.
    + cbn [orb]. change (Ascii.eqb "+" "+") with true. cbn [orb]. rewrite (span_app _ _ _ Hd Hf). destruct d; [contradiction|reflexivity].
    + change (Ascii.eqb "-" "+" || Ascii.eqb "-" "-") with true. cbn iota. rewrite (span_app _ _ _ Hd Hf). destruct d; [contradiction|reflexivity].
Qed.
(** A character that cannot continue a number or a name. *)
Definition stops (c : ascii) : Prop := isalnum c = false /\ c <> "."%char /\ c <> "_"%char.
Definition boundary (t : text) : Prop := forall c u, t = c :: u -> stops c.
Lemma stops_digit c : stops c -> isdigit c = false /\ isxdigit c = false /\ c <> "e"%char /\ c <> "E"%char /\ c <> "p"%char /\ c <> "P"%char /\ c <> "x"%char /\ c <> "X"%char.
Proof.
  intros [H _]. unfold isalnum in H. apply orb_false_iff in H. destruct H as [H1 H2]. split; [auto|]. split.
  - unfold isxdigit. rewrite H2. unfold isalpha in H1. apply orb_false_iff in H1. destruct H1 as [H1 H3]. unfold between in *.
    apply orb_false_iff. split; [apply orb_false_iff; split; auto|]; apply andb_false_iff; apply andb_false_iff in H1; apply andb_false_iff in H3;
    rewrite !Nat.leb_gt in *; lia.
  - repeat split; intros ->; discriminate.
Qed.
Lemma take_decimal_sound s w t : take_decimal s = Some (w, t) -> s = w ++ t /\ decimal w.
Proof.
  unfold take_decimal. destruct (mantissa isdigit s) as [[m u]|] eqn:E; [|discriminate]. destruct (exponent "e" "E" u) as [x v] eqn:Ex.
  intros H. injection H as <- <-. destruct (mantissa_sound isdigit _ _ _ eq_refl E) as [H1 H2]. destruct (exponent_sound _ _ _ _ _ Ex) as [H3 H4].
  split; [rewrite <- app_assoc; congruence|]. exists m, x. auto.
Qed.
Lemma take_number_sound s w t : take_number s = Some (w, t) -> s = w ++ t /\ number w.
Proof.
  assert (HD : take_decimal s = Some (w, t) -> s = w ++ t /\ number w). { intros H. destruct (take_decimal_sound _ _ _ H). split; [auto|left; auto]. }
  unfold take_number. destruct s as [|z [|x r]]; try exact HD. destruct (Ascii.eqb z "0" && (Ascii.eqb x "x" || Ascii.eqb x "X")) eqn:E; [|exact HD].
  destruct (mantissa isxdigit r) as [[m u]|] eqn:Em; [|exact HD]. destruct (exponent "p" "P" u) as [e v] eqn:Ee. intros H. injection H as <- <-.
  destruct (mantissa_sound isxdigit _ _ _ eq_refl Em) as [H1 H2]. destruct (exponent_sound _ _ _ _ _ Ee) as [H3 H4].
  apply andb_prop in E. destruct E as [E1 E2]. apply eqb_ascii in E1. subst z.
  split; [cbn [app]; rewrite <- app_assoc; congruence|]. right. exists x, m, e. repeat split; auto.
  apply orb_prop in E2. destruct E2 as [E2|E2]; apply eqb_ascii in E2; auto.
Qed.
Lemma exponent_head e E x t c u : exponent_part e E x -> x ++ t = c :: u -> (c = e \/ c = E) \/ t = c :: u.
Proof. intros [->|(k & s & d & -> & Hk & _)] H; [right; auto|]. cbn [app] in H. injection H as <- _. auto. Qed.
Lemma take_decimal_complete w t : decimal w -> boundary t -> take_decimal (w ++ t) = Some (w, t).
Proof.
  intros (m & x & -> & Hm & Hx) Ht. unfold take_decimal. rewrite <- app_assoc. rewrite mantissa_complete; [|reflexivity|auto|].
  - rewrite exponent_complete; [reflexivity|auto|]. intros c u H. destruct (stops_digit c (Ht c u H)) as (S1 & S2 & S3 & S4 & _). auto.
  - intros c u H. destruct (exponent_head _ _ _ _ _ _ Hx H) as [[->| ->]|H']; [split; [reflexivity|discriminate]..|].
    destruct (stops_digit c (Ht c u H')) as (S1 & _). split; auto. apply (Ht c u H').
Qed.
Lemma take_number_complete w t : number w -> boundary t -> take_number (w ++ t) = Some (w, t).
Proof.
  intros [H|(c & m & x & -> & Hc & Hm & Hx)] Ht.
  - assert (HD := take_decimal_complete _ _ H Ht). unfold take_number. destruct (w ++ t) as [|z [|y r]] eqn:E; try exact HD.
    destruct (Ascii.eqb z "0" && (Ascii.eqb y "x" || Ascii.eqb y "X")) eqn:E2; [|exact HD]. exfalso.
    apply andb_prop in E2. destruct E2 as [E1 E2]. apply eqb_ascii in E1. subst z.
    assert (Hy : y = "x"%char \/ y = "X"%char) by (apply orb_prop in E2; destruct E2 as [E2|E2]; apply eqb_ascii in E2; auto). clear E2.
    destruct H as (m & x & -> & Hm & Hx). rewrite <- app_assoc in E.
    assert (Hyt : forall u, t <> y :: u). { intros u ->. destruct (stops_digit y (Ht y u eq_refl)) as (_ & _ & _ & _ & _ & _ & S1 & S2). destruct Hy; auto. }
    assert (Hxt : forall u, x ++ t <> y :: u).
    { intros u Hu. destruct (exponent_head _ _ _ _ _ _ Hx Hu) as [[Q|Q]|Q]; [destruct Hy; subst; discriminate..|]. eapply Hyt; eauto. }
    assert (Hd : isdigit y = false /\ y <> "."%char) by (destruct Hy; subst; split; [reflexivity|discriminate|reflexivity|discriminate]).
    destruct Hm as [[Hn Ha]|(a & b & -> & Hn & Ha & Hb)].
    + destruct m as [|m0 [|m1 m']]; [contradiction| |]; cbn [app] in E; [injection E as E0 E; eapply Hxt; eauto|].
      injection E as E0 E1 E2. subst. inversion Ha as [|? ? _ Ha']; subst. inversion Ha' as [|? ? D _]; subst. destruct Hd; congruence.
    + rewrite <- app_assoc in E. destruct a as [|a0 [|a1 a']]; cbn [app] in E; [discriminate E| |].
      * injection E as E0 E1 E2. subst. destruct Hd; auto.
      * injection E as E0 E1 E2. subst. inversion Ha as [|? ? _ Ha']; subst. inversion Ha' as [|? ? D _]; subst. destruct Hd; congruence.
  - cbn [app]. unfold take_number. replace (Ascii.eqb "0" "0" && (Ascii.eqb c "x" || Ascii.eqb c "X")) with true by (destruct Hc; subst; reflexivity).
    rewrite <- app_assoc. rewrite mantissa_complete; [|reflexivity|auto|].
    + rewrite exponent_complete; [reflexivity|auto|]. intros y u H. destruct (stops_digit y (Ht y u H)) as (S1 & S2 & S3 & S4 & S5 & S6 & _). auto.
    + intros y u H. destruct (exponent_head _ _ _ _ _ _ Hx H) as [[->| ->]|H']; [split; [reflexivity|discriminate]..|].
      destruct (stops_digit y (Ht y u H')) as (_ & S2 & _). split; auto. apply (Ht y u H').
Qed.
(** The first character of a number is a digit or a point. *)
Lemma digits_head p m x c t : digits_with_point p m -> m ++ x = c :: t -> p c = true \/ c = "."%char.
Proof.
  intros [[Hn Ha]|(a & b & -> & Hn & Ha & Hb)] H.
  - destruct m; [contradiction|]. cbn [app] in H. injection H as <- _. inversion Ha; auto.
  - rewrite <- app_assoc in H. destruct a; cbn [app] in H; injection H as <- _; auto. inversion Ha; auto.
Qed.
Lemma number_head w r : number w -> exists c t, w ++ r = c :: t /\ (isdigit c = true \/ c = "."%char).
Proof.
  intros [(m & x & -> & Hm & Hx)|(c & m & x & -> & _)].
  - assert (Hne : m <> []). { destruct Hm as [[Hn _]|(a & b & -> & _)]; auto. intros Hm. destruct a; discriminate. }
    destruct m as [|m0 m']; [contradiction|]. exists m0, ((m' ++ x) ++ r). split; [reflexivity|]. exact (digits_head isdigit (m0 :: m') [] m0 (m' ++ []) Hm eq_refl).
  - do 2 eexists. split; [reflexivity|left; reflexivity].
Qed.
Lemma digit_solid c : isdigit c = true \/ c = "."%char -> solid c /\ isalpha c = false /\ c <> "_"%char /\ c <> "("%char /\ c <> "+"%char /\ c <> "-"%char /\ c <> "{"%char /\ c <> "!"%char.
Proof.
  intros [H| ->]; [|repeat split; try reflexivity; try discriminate]. unfold isdigit, between in H. apply andb_prop in H. destruct H as [H1 H2].
  apply Nat.leb_le in H1. apply Nat.leb_le in H2. split; [split|split].
  - unfold isspace. destruct (Nat.eqb_spec (nat_of_ascii c) 32); [lia|]. replace (Nat.leb (nat_of_ascii c) 13) with false by (symmetry; apply Nat.leb_gt; lia). rewrite andb_false_r. auto.
  - intros ->. cbv in H1. lia.
  - unfold isalpha, between. apply orb_false_iff. split; apply andb_false_iff; left; apply Nat.leb_gt; lia.
  - repeat split; intros ->; cbv in H1, H2; lia.
Qed.
(** ** Names *)
Lemma idchar_iff c : idchar c = true <-> isalnum c = true \/ c = "_"%char.
Proof. unfold idchar. rewrite orb_true_iff, Ascii.eqb_eq. tauto. Qed.
Lemma alpha_alnum c : isalpha c = true -> isalnum c = true.
Proof. intros H. unfold isalnum. rewrite H. auto. Qed.
Lemma identifier_sound s f t : starts_identifier s = true -> parse_identifier s = (f, t) -> s = f ++ t /\ identifier f.
Proof.
  intros H1 H2. destruct (span_spec _ _ _ _ H2) as (E & Ha & _). split; auto. destruct s as [|c s]; [discriminate|]. cbn [starts_identifier] in H1.
  apply orb_prop in H1. rewrite Ascii.eqb_eq in H1.
  destruct f as [|c' f']. { exfalso. unfold parse_identifier in H2. cbn [span] in H2. replace (idchar c) with true in H2. destruct (span idchar s); discriminate.
    symmetry. apply idchar_iff. destruct H1; [left; apply alpha_alnum|right]; auto. }
  cbn [app] in E. injection E as <- _. exists c, f'. split; auto. split; auto. inversion Ha; subst. eapply Forall_impl; [|eauto]. intros a. apply idchar_iff.
Qed.
Lemma identifier_complete f t : identifier f -> boundary t -> starts_identifier (f ++ t) = true /\ parse_identifier (f ++ t) = (f, t).
Proof.
  intros (c & u & -> & Hc & Hu) Ht. split.
  - cbn [app starts_identifier]. apply orb_true_iff. rewrite Ascii.eqb_eq. auto.
  - apply span_app.
    + constructor; [apply idchar_iff; destruct Hc; [left; apply alpha_alnum|right]; auto|]. eapply Forall_impl; [|eauto]. intros a. apply idchar_iff.
    + intros d v Hd. destruct (Ht d v Hd) as (S1 & _ & S2). destruct (idchar d) eqn:E; auto. apply idchar_iff in E. destruct E; congruence.
Qed.
Lemma alpha_solid c : isalpha c = true \/ c = "_"%char -> solid c /\ c <> "("%char /\ c <> "+"%char /\ c <> "-"%char /\ c <> "{"%char /\ c <> "!"%char.
Proof.
  intros [H| ->]; [|repeat split; try reflexivity; try discriminate].
  assert (Hn : (65 <= nat_of_ascii c)%nat).
  { unfold isalpha, between in H. apply orb_prop in H. destruct H as [H|H]; apply andb_prop in H; destruct H as [H _]; apply Nat.leb_le in H; lia. }
  split; [split|].
  - unfold isspace. destruct (Nat.eqb_spec (nat_of_ascii c) 32); [lia|]. replace (Nat.leb (nat_of_ascii c) 13) with false by (symmetry; apply Nat.leb_gt; lia). rewrite andb_false_r. auto.
  - intros ->. cbv in Hn. lia.
  - repeat split; intros ->; first [discriminate H | cbv in Hn; lia].
Qed.
