(** Proofs for C26. *)
From Coq Require Import List ZArith Bool Ascii String Lia.
From Verif Require Import Base Params_model Params_spec.
Import ListNotations.
Local Open Scope list_scope.

(** * Characters and texts *)
Lemma text_eqb_iff a b : text_eqb a b = true <-> a = b.
Proof.
  revert b; induction a as [|x a IH]; intros [|y b]; simpl; split; try easy.
  - intros H. apply andb_prop in H as [H1 H2]. apply Ascii.eqb_eq in H1. apply IH in H2. congruence.
  - intros [= -> ->]. rewrite Ascii.eqb_refl. now apply IH.
Qed.
Lemma text_eqb_refl a : text_eqb a a = true. Proof. now apply text_eqb_iff. Qed.
Lemma text_eqb_false a b : text_eqb a b = false <-> a <> b.
Proof. rewrite <- text_eqb_iff. destruct (text_eqb a b); split; congruence. Qed.
Lemma text_dec (a b : text) : {a = b} + {a <> b}.
Proof. destruct (text_eqb a b) eqn:E; [left; now apply text_eqb_iff|right; now apply text_eqb_false]. Qed.

Lemma isspace_iff c : isspace c = true <-> white c.
Proof.
  unfold isspace, white. cbn [In]. cbv zeta. generalize (nat_of_ascii c). intros n.
  rewrite orb_true_iff, andb_true_iff, Nat.eqb_eq, !Nat.leb_le. split; intros; lia.
Qed.
Lemma isspace_false c : isspace c = false <-> ~ white c.
Proof. rewrite <- isspace_iff. destruct (isspace c); split; congruence. Qed.

Lemma blank_app a b : blank (a ++ b) <-> blank a /\ blank b.
Proof.
  unfold blank. split; [intros H; split; intros c Hc; apply H, in_app_iff; auto|]. intros [H1 H2] c [Hc|Hc]%in_app_iff; auto.
Qed.
Lemma blank_nil : blank []. Proof. intros c []. Qed.
Lemma blank_cons c a : blank (c :: a) <-> white c /\ blank a.
Proof. unfold blank; simpl. split; [intros H; split; auto|]. intros [H1 H2] d [<-|Hd]; auto. Qed.
Lemma blank_rev a : blank (rev a) <-> blank a.
Proof. unfold blank. split; intros H c Hc; apply H. now apply in_rev in Hc. now apply in_rev. Qed.

(** * Stripping *)
Lemma lead_blank w s : blank w -> strip_leading_whitespace (w ++ s) = strip_leading_whitespace s.
Proof.
  induction w as [|c w IH]; simpl; [auto|]. intros H. apply blank_cons in H as [H1 H2].
  apply isspace_iff in H1. rewrite H1. auto.
Qed.
Lemma lead_stop c s : ~ white c -> strip_leading_whitespace (c :: s) = c :: s.
Proof. intros H. simpl. apply isspace_false in H. now rewrite H. Qed.
Lemma lead_all w : blank w -> strip_leading_whitespace w = [].
Proof. intros H. rewrite <- (app_nil_r w). now rewrite lead_blank. Qed.
Lemma lead_spec s : exists w, blank w /\ s = w ++ strip_leading_whitespace s /\ forall c t, strip_leading_whitespace s = c :: t -> ~ white c.
Proof.
  induction s as [|c s IH]; simpl.
  - exists []. split; [apply blank_nil|]. split; [auto|]. discriminate.
  - destruct (isspace c) eqn:E.
    + destruct IH as (w & H1 & H2 & H3). exists (c :: w). split; [|split].
      * apply blank_cons. split; [now apply isspace_iff|auto].
      * simpl. now rewrite <- H2.
      * auto.
    + exists []. split; [apply blank_nil|]. split; [auto|]. intros d t [= <- <-]. now apply isspace_false.
Qed.

Lemma strip_unique w1 t w2 : blank w1 -> trimmed t -> blank w2 -> strip_whitespace (w1 ++ t ++ w2) = t.
Proof.
  intros H1 [H2 H3] H4. unfold strip_whitespace, strip_trailing_whitespace. rewrite lead_blank by auto.
  destruct t as [|c t].
  - simpl. rewrite (lead_all w2) by auto. reflexivity.
  - change ((c :: t) ++ w2) with (c :: t ++ w2). rewrite lead_stop by (eapply H2; reflexivity).
    change (c :: t ++ w2) with ((c :: t) ++ w2). rewrite rev_app_distr, lead_blank by (now apply blank_rev).
    destruct (exists_last (l := c :: t)) as (t' & d & Ht); [discriminate|].
    rewrite Ht. rewrite rev_unit, lead_stop by (eapply H3; exact Ht).
    simpl. now rewrite rev_involutive.
Qed.
Lemma strip_spec s : exists w1 w2, blank w1 /\ blank w2 /\ s = w1 ++ strip_whitespace s ++ w2 /\ trimmed (strip_whitespace s).
Proof.
  unfold strip_whitespace, strip_trailing_whitespace.
  destruct (lead_spec s) as (w1 & H1 & H2 & H3). set (s1 := strip_leading_whitespace s) in *.
  destruct (lead_spec (rev s1)) as (w2 & H4 & H5 & H6). set (s2 := strip_leading_whitespace (rev s1)) in *.
  assert (Hs : s1 = rev s2 ++ rev w2) by (rewrite <- rev_app_distr, <- H5; now rewrite rev_involutive).
  exists w1, (rev w2). split; [auto|]. split; [now apply blank_rev|]. split; [now rewrite <- Hs|]. split.
  - intros c t E. apply (H3 c (t ++ rev w2)). now rewrite Hs, E.
  - intros c t E. apply (H6 c (rev t)). rewrite <- (rev_involutive s2), E, rev_app_distr. reflexivity.
Qed.
Lemma trimmed_nil : trimmed []. Proof. split; intros c t H; [discriminate|]. destruct t; discriminate. Qed.

(** * Lines *)
Definition classify (l : text) : meaning :=
  let line := strip_whitespace l in
  match line with
  | [] => Nothing
  | c :: _ =>
    if Ascii.eqb c "#" then Nothing else if Ascii.eqb c "[" then NewBlock else
    match split_eq line with None => Nothing | Some (a, b) => Setting (strip_whitespace a) (strip_whitespace b) end
  end.

Lemma split_none s : split_eq s = None <-> ~ In "="%char s.
Proof.
  induction s as [|c s IH]; simpl; [intuition congruence|]. destruct (Ascii.eqb c "=") eqn:E.
  - apply Ascii.eqb_eq in E. subst. split; [discriminate|intros H; elim H; now left].
  - apply Ascii.eqb_neq in E. destruct (split_eq s) as [[a b]|].
    + split; [discriminate|]. intros H. elim H. right. destruct (in_dec Ascii.ascii_dec "="%char s) as [i|i]; [auto|]. apply IH in i. discriminate.
    + split; [|auto]. intros _ [H|H]; [congruence|]. now apply IH in H.
Qed.
Lemma split_some s a b : split_eq s = Some (a, b) <-> s = a ++ "="%char :: b /\ ~ In "="%char a.
Proof.
  revert a; induction s as [|c s IH]; intros a; simpl.
  - split; [discriminate|]. intros [H _]. destruct a; discriminate.
  - destruct (Ascii.eqb c "=") eqn:E.
    + apply Ascii.eqb_eq in E. subst. split.
      * intros [= <- <-]. split; [auto|easy].
      * intros [H1 H2]. destruct a as [|d a]; simpl in H1; injection H1; intros; subst; [auto|]. elim H2. now left.
    + apply Ascii.eqb_neq in E. destruct (split_eq s) as [[a' b']|] eqn:Es.
      * split.
        -- intros [= <- <-]. destruct (proj1 (IH a') eq_refl) as [-> H]. split; [auto|]. intros [H1|H1]; [congruence|auto].
        -- intros [H1 H2]. destruct a as [|d a]; simpl in H1; injection H1; intros; subst; [congruence|].
           assert (G : Some (a', b') = Some (a, b)) by (apply IH; split; [auto|]; intros G; apply H2; now right).
           injection G; intros; subst; reflexivity.
      * split; [discriminate|]. intros [H1 H2]. destruct a as [|d a]; simpl in H1; injection H1; intros; subst; [congruence|].
        exfalso. assert (G : None = Some (a, b)); [|discriminate]. apply IH. split; [auto|]. intros G; apply H2; now right.
Qed.

(** A text with white space around it that starts with a visible character. *)
Lemma strip_visible w c t : blank w -> ~ white c -> exists t' w2, blank w2 /\ t = t' ++ w2 /\ strip_whitespace (w ++ c :: t) = c :: t'.
Proof.
  intros Hw Hc. destruct (strip_spec (c :: t)) as (w1 & w2 & H1 & H2 & H3 & H4).
  assert (E : strip_whitespace (w ++ c :: t) = strip_whitespace (c :: t)).
  { rewrite H3 at 1. rewrite app_assoc. rewrite strip_unique; auto. now apply blank_app. }
  rewrite E. destruct w1 as [|d w1].
  - simpl in H3. destruct (strip_whitespace (c :: t)) as [|d t'] eqn:Es; simpl in H3.
    + subst w2. apply blank_cons in H2 as [H2 _]. contradiction.
    + injection H3. intros. subst. exists t', w2. auto.
  - simpl in H3. injection H3. intros. subst. apply blank_cons in H1 as [H1 _]. contradiction.
Qed.

Lemma not_white_hash : ~ white "#"%char. Proof. unfold white; simpl. vm_compute. intuition discriminate. Qed.
Lemma not_white_bra : ~ white "["%char. Proof. unfold white; simpl. vm_compute. intuition discriminate. Qed.
Lemma not_white_ket : ~ white "]"%char. Proof. unfold white; simpl. vm_compute. intuition discriminate. Qed.
Lemma not_white_eq : ~ white "="%char. Proof. unfold white; simpl. vm_compute. intuition discriminate. Qed.
Lemma blank_no_eq w : blank w -> ~ In "="%char w.
Proof. intros H Hi. now apply not_white_eq, H. Qed.
Lemma trimmed_blank w : trimmed w -> blank w -> w = [].
Proof. intros [H _] Hb. destruct w as [|c w]; [auto|]. exfalso. apply (H c w eq_refl), Hb. now left. Qed.
Lemma trimmed_mid k w v : trimmed k -> k <> [] -> trimmed v -> v <> [] -> trimmed (k ++ w ++ v).
Proof.
  intros [H1 H2] Hk [H3 H4] Hv. split.
  - intros c t E. destruct k as [|d k]; [easy|]. simpl in E. injection E. intros; subst. eapply H1; reflexivity.
  - intros c t E. destruct (exists_last (l := v)) as (v' & d & ->); [auto|].
    rewrite !app_assoc in E. apply app_inj_tail in E as [_ <-]. eapply H4; reflexivity.
Qed.
Lemma trimmed_snoc k w c : trimmed k -> k <> [] -> ~ white c -> trimmed (k ++ w ++ [c]).
Proof.
  intros. apply trimmed_mid; auto; [|easy]. split; intros d t E.
  - injection E; intros; subst; auto.
  - destruct t as [|x t]; simpl in E; [injection E; intros; subst; auto|]. destruct t; discriminate.
Qed.
Lemma trimmed_cons c w v : ~ white c -> trimmed v -> v <> [] -> trimmed (c :: w ++ v).
Proof.
  intros. apply (trimmed_mid [c] w v); auto; [|easy]. split; intros d t E.
  - injection E; intros; subst; auto.
  - destruct t as [|x t]; simpl in E; [injection E; intros; subst; auto|]. destruct t; discriminate.
Qed.
Lemma trimmed_one c : ~ white c -> trimmed [c].
Proof.
  intros. split; intros d t E.
  - injection E; intros; subst; auto.
  - destruct t as [|x t]; simpl in E; [injection E; intros; subst; auto|]. destruct t; discriminate.
Qed.

Lemma classify_ok l x : means l x -> classify l = x.
Proof.
  unfold classify. destruct 1 as [s H|w t H|w t H|w c t H Hc H1 H2 H3 H4|w1 k w2 w3 v w4 H1 H2 H3 H4 Hk Hv Hn N1 N2].
  - assert (E : strip_whitespace s = []).
    { rewrite <- (app_nil_r s). apply (strip_unique s [] []); auto using trimmed_nil, blank_nil. }
    now rewrite E.
  - destruct (strip_visible w "#" t H not_white_hash) as (t' & w2 & _ & _ & ->). reflexivity.
  - destruct (strip_visible w "[" t H not_white_bra) as (t' & w2 & _ & _ & ->). reflexivity.
  - destruct (strip_visible w c t H Hc) as (t' & w2 & Hw & Ht & E). rewrite E.
    apply Ascii.eqb_neq in H1, H2. rewrite H1, H2.
    assert (Hs : split_eq (c :: t') = None).
    { apply split_none. intros [G|G]; [congruence|]. apply H4. rewrite Ht. apply in_app_iff. now left. }
    now rewrite Hs.
  - set (core := match v with [] => match k with [] => ["="%char] | _ => k ++ w2 ++ ["="%char] end
                 | _ => match k with [] => "="%char :: w3 ++ v | _ => k ++ (w2 ++ "="%char :: w3) ++ v end end).
    assert (E : strip_whitespace (w1 ++ k ++ w2 ++ "="%char :: w3 ++ v ++ w4) = core).
    { destruct v as [|cv v], k as [|ck k]; subst core; simpl.
      - rewrite app_assoc. change ("="%char :: w3 ++ w4) with (["="%char] ++ w3 ++ w4). apply strip_unique; try now apply blank_app.
        apply trimmed_one, not_white_eq.
      - replace (ck :: k ++ w2 ++ "="%char :: w3 ++ w4) with ((ck :: k ++ w2 ++ ["="%char]) ++ w3 ++ w4) by (simpl; now rewrite <- !app_assoc).
        apply strip_unique; auto; [|now apply blank_app]. apply (trimmed_snoc (ck :: k) w2 "="); [auto|easy|apply not_white_eq].
      - rewrite app_assoc. replace ("="%char :: w3 ++ cv :: v ++ w4) with (("="%char :: w3 ++ cv :: v) ++ w4) by (simpl; now rewrite <- !app_assoc).
        apply strip_unique; auto; [now apply blank_app|]. apply trimmed_cons; [apply not_white_eq|auto|easy].
      - replace (ck :: k ++ w2 ++ "="%char :: w3 ++ cv :: v ++ w4) with ((ck :: k ++ (w2 ++ "="%char :: w3) ++ cv :: v) ++ w4)
          by (repeat (simpl; rewrite <- ?app_assoc); reflexivity).
        apply strip_unique; auto. apply (trimmed_mid (ck :: k) (w2 ++ "="%char :: w3) (cv :: v)); auto; easy. }
    rewrite E.
    assert (Hc : exists a b, core = a ++ "="%char :: b /\ ~ In "="%char a /\ strip_whitespace a = k /\ strip_whitespace b = v).
    { assert (Kk : k <> [] -> ~ In "="%char (k ++ w2)) by (intros _ G; apply in_app_iff in G as [G|G]; [auto|now apply (blank_no_eq w2)]).
      assert (Ks : strip_whitespace (k ++ w2) = k) by (apply (strip_unique [] k w2); auto using blank_nil).
      assert (Vs : strip_whitespace (w3 ++ v) = v).
      { rewrite <- (app_nil_r (w3 ++ v)), <- app_assoc. apply (strip_unique w3 v []); auto using blank_nil. }
      subst core. destruct v as [|cv v], k as [|ck k].
      - exists [], []. auto.
      - exists ((ck :: k) ++ w2), []. split; [now rewrite <- app_assoc|]. split; [apply Kk; easy|]. auto.
      - exists [], (w3 ++ cv :: v). auto.
      - exists ((ck :: k) ++ w2), (w3 ++ cv :: v). split; [simpl; now rewrite <- !app_assoc|]. split; [apply Kk; easy|]. auto. }
    destruct Hc as (a & b & Hab & Ha & Hka & Hvb).
    assert (Hs : split_eq core = Some (a, b)) by (apply split_some; auto).
    assert (Hf : exists c t, core = c :: t /\ c <> "#"%char /\ c <> "["%char).
    { subst core. destruct k as [|ck k].
      - destruct v; simpl; eexists; eexists; (split; [reflexivity|]); split; discriminate.
      - destruct v; simpl; eexists; eexists; (split; [reflexivity|]); split; intros ->; [eapply N1|eapply N2|eapply N1|eapply N2]; reflexivity. }
    destruct Hf as (c & t & Hct & Hh & Hb). apply Ascii.eqb_neq in Hh, Hb.
    destruct core as [|c0 t0]; [discriminate|]. injection Hct. intros; subst. rewrite Hh, Hb, Hs. reflexivity.
Qed.

Lemma means_total l : means l (classify l).
Proof.
  unfold classify. destruct (strip_spec l) as (w1 & w2 & H1 & H2 & H3 & H4).
  destruct (strip_whitespace l) as [|c t] eqn:E.
  - rewrite H3. apply blank_line. now apply blank_app.
  - assert (Hc : ~ white c) by (eapply (proj1 H4); reflexivity).
    destruct (Ascii.eqb c "#") eqn:E1; [apply Ascii.eqb_eq in E1; rewrite H3, E1; simpl; now apply comment_line|].
    destruct (Ascii.eqb c "[") eqn:E2; [apply Ascii.eqb_eq in E2; rewrite H3, E2; simpl; now apply block_line|].
    apply Ascii.eqb_neq in E1, E2.
    destruct (split_eq (c :: t)) as [[a b]|] eqn:Es.
    + apply split_some in Es as [Hab Ha].
      destruct (strip_spec a) as (u1 & u2 & K1 & K2 & K3 & K4). destruct (strip_spec b) as (x1 & x2 & L1 & L2 & L3 & L4).
      assert (Ek : forall d r, strip_whitespace a = d :: r -> u1 = [] /\ d = c).
      { intros d r Ed. rewrite Ed in K3. destruct a as [|a0 a']; [now destruct u1|]. simpl in Hab. injection Hab. intros _ <-.
        destruct u1 as [|u u1]; simpl in K3; injection K3; intros; subst; auto. apply blank_cons in K1 as [K1 _]. contradiction. }
      remember (strip_whitespace a) as ka. remember (strip_whitespace b) as kb.
      rewrite H3, Hab, K3, L3.
      replace (w1 ++ ((u1 ++ ka ++ u2) ++ "="%char :: x1 ++ kb ++ x2) ++ w2)
        with ((w1 ++ u1) ++ ka ++ u2 ++ "="%char :: x1 ++ kb ++ (x2 ++ w2))
        by (rewrite <- !app_assoc; simpl; now rewrite <- !app_assoc).
      apply setting_line; auto; try now apply blank_app.
      * intros G. apply Ha. rewrite K3. apply in_app_iff; right. apply in_app_iff; now left.
      * intros r Er. destruct (Ek _ _ Er) as [_ G]. congruence.
      * intros r Er. destruct (Ek _ _ Er) as [_ G]. congruence.
    + apply split_none in Es. rewrite H3. simpl. apply other_line; auto.
      * intros ->. apply Es. now left.
      * intros G. apply in_app_iff in G as [G|G]; [apply Es; now right|now apply (blank_no_eq w2)].
Qed.
Lemma means_iff l x : means l x <-> classify l = x.
Proof. split; [apply classify_ok|]. intros <-. apply means_total. Qed.

Lemma header_iff name l : text_eqb (str "[" ++ name ++ str "]") (strip_whitespace l) = true <-> header name l.
Proof.
  rewrite text_eqb_iff. simpl. split.
  - intros E. destruct (strip_spec l) as (w1 & w2 & H1 & H2 & H3 & H4). rewrite <- E in H3. exists w1, w2. split; [auto|]. split; [auto|].
    rewrite H3. simpl. now rewrite <- app_assoc.
  - intros (w1 & w2 & H1 & H2 & ->).
    replace (w1 ++ "["%char :: name ++ "]"%char :: w2) with (w1 ++ ("["%char :: name ++ ["]"%char]) ++ w2)
      by (simpl; now rewrite <- app_assoc).
    symmetry. apply strip_unique; auto. apply trimmed_cons; [apply not_white_bra|apply trimmed_one, not_white_ket|easy].
Qed.
Lemma header_visible name l : header name l -> is_blank_or_comment_line l = false.
Proof.
  intros (w1 & w2 & H1 & H2 & ->). unfold is_blank_or_comment_line. rewrite lead_blank by auto.
  rewrite lead_stop by apply not_white_bra. reflexivity.
Qed.
Lemma ignored_iff l : is_blank_or_comment_line l = true <-> match strip_whitespace l with [] => True | c :: _ => c = "#"%char end.
Proof.
  unfold is_blank_or_comment_line. destruct (strip_spec l) as (w1 & w2 & H1 & H2 & H3 & H4).
  rewrite H3 at 1. rewrite lead_blank by auto. destruct (strip_whitespace l) as [|c t].
  - simpl. rewrite lead_all by auto. easy.
  - simpl app. rewrite lead_stop by (eapply (proj1 H4); reflexivity). apply Ascii.eqb_eq.
Qed.
