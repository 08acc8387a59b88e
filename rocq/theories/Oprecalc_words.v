(** Words of a string. *)
From Coq Require Import List ZArith Ascii String Bool Lia.
From Verif Require Import Base Oprecalc_model Oprecalc_spec.
Import ListNotations.
Local Open Scope string_scope.

Lemma app_nil_r s : s ++ "" = s.
Proof. induction s as [|c s IH]; cbn; [reflexivity | now rewrite IH]. Qed.
Lemma app_ass a b c : (a ++ b) ++ c = a ++ (b ++ c).
Proof. induction a as [|x a IH]; cbn; [reflexivity | now rewrite IH]. Qed.
Lemma app_cons_r w c s : (w ++ String c "") ++ s = w ++ String c s.
Proof. now rewrite app_ass. Qed.
Lemma app_nil_inv a b : a ++ b = "" -> a = "" /\ b = "".
Proof. destruct a; cbn; [auto | discriminate]. Qed.
Lemma app_inv_head a b c : a ++ b = a ++ c -> b = c.
Proof. induction a as [|x a IH]; cbn; intros H; [assumption |]. injection H. assumption. Qed.

Definition black (c : ascii) : Prop := blank c = false.
Lemma all_app p a b : all_chars p (a ++ b) <-> all_chars p a /\ all_chars p b.
Proof.
  induction a as [|c a IH]; cbn.
  - split; [intros H; split; [constructor | assumption] | tauto].
  - split.
    + intros H. inversion H; subst. apply IH in H3. split; [constructor |]; tauto.
    + intros [H1 H2]. inversion H1; subst. constructor; [assumption | apply IH; tauto].
Qed.
Lemma black_ends a : all_chars black a -> ends_blank a -> a = "".
Proof.
  intros H [E | (s & c & -> & Hc)]; [assumption |].
  apply all_app in H as [_ H]. inversion H; subst. unfold black in *. congruence.
Qed.

(** A string of black characters followed by a blank (or nothing) is determined. *)
Lemma black_prefix x y b s :
  all_chars black x -> all_chars black y -> starts_blank b -> starts_blank s -> x ++ b = y ++ s -> x = y /\ b = s.
Proof.
  intros Hx. revert y. induction Hx as [|c x Hc Hx IH]; intros y Hy Hb Hs E.
  - destruct Hy as [|d y Hd Hy]; [now split |].
    cbn in E. subst b. destruct Hb as [Hb | (c & s' & E & Hc)]; [discriminate |]. injection E as -> ->. unfold black in Hd. congruence.
  - destruct Hy as [|d y Hd Hy].
    + cbn in E. subst s. destruct Hs as [Hs | (e & s' & E & He)]; [discriminate |]. injection E as -> E. unfold black in Hc. congruence.
    + cbn in E. injection E as -> E. destruct (IH y Hy Hb Hs E) as [-> ->]. now split.
Qed.

(** Splitting at a blank. *)
Lemma split_at w c s a r : w ++ String c s = a ++ r -> (exists t, w = a ++ t /\ r = t ++ String c s) \/ (exists a', a = w ++ String c a' /\ s = a' ++ r).
Proof.
  revert a. induction w as [|d w IH]; intros a E.
  - destruct a as [|e a]; cbn in E.
    + left. exists "". now split.
    + injection E as -> ->. right. exists a. now split.
  - destruct a as [|e a]; cbn in E.
    + left. exists (String d w). now split.
    + injection E as -> E. destruct (IH a E) as [(t & -> & ->) | (a' & -> & ->)].
      * left. exists t. now split.
      * right. exists a'. now split.
Qed.
Lemma ends_tail w c a : ends_blank (w ++ String c a) -> ends_blank a.
Proof.
  intros [E | (s & d & E & Hd)].
  - destruct w; discriminate.
  - destruct (string_dec a "") as [-> | Ha]; [now left |].
    right. revert a Ha E. revert s. induction w as [|e w IH]; intros s a Ha E.
    + cbn in E. destruct s as [|f s]; cbn in E.
      * injection E as -> ->. now contradiction Ha.
      * injection E as -> ->. now exists s, d.
    + cbn in E. destruct s as [|f s]; cbn in E.
      * injection E as -> E. destruct w; discriminate.
      * injection E as -> E. exact (IH s a Ha E).
Qed.

Lemma words_in s : forall w x, all_chars black w -> In x (words w s) <-> word_of (w ++ s) x.
Proof.
  induction s as [|c s IH]; intros w x Hw; cbn [words].
  - rewrite app_nil_r. destruct (String.eqb_spec w "") as [-> | Hne].
    + split; [intros [] |]. intros (Hx & _ & a & b & E & _). symmetry in E. apply app_nil_inv in E as [_ E]. apply app_nil_inv in E as [E _]. contradiction.
    + cbn [In]. split.
      * intros [<- | []]. split; [assumption |]. split; [assumption |]. exists "", "". cbn. rewrite app_nil_r. repeat split; now left.
      * intros (Hx & Bx & a & b & E & Ea & Eb). left. subst w. apply all_app in Hw as [Wa Wr]. apply all_app in Wr as [_ Wb].
        rewrite (black_ends a Wa Ea). cbn. destruct Eb as [-> | (d & b' & -> & Hd)]; [apply app_nil_r |].
        inversion Wb; subst. unfold black in *. congruence.
  - destruct (blank c) eqn:Bc.
    + rewrite in_app_iff, (IH "" x (ac_nil _)). cbn [append]. split.
      * intros [H | (Hx & Bx & a & b & -> & Ea & Eb)].
        -- destruct (String.eqb_spec w "") as [_ | Hne]; [contradiction |]. destruct H as [<- | []].
           split; [assumption |]. split; [assumption |]. exists "", (String c s). repeat split; [now left | right; now exists c, s].
        -- split; [assumption |]. split; [assumption |]. exists (w ++ String c a), b. rewrite app_ass. cbn. repeat split; [| assumption].
           right. destruct Ea as [-> | (a' & d & -> & Hd)]; [exists w, c; now split |]. exists (w ++ String c a'), d. rewrite app_ass. now split.
      * intros (Hx & Bx & a & b & E & Ea & Eb). destruct (split_at _ _ _ _ _ E) as [(t & -> & E2) | (a' & -> & ->)].
        -- left. apply all_app in Hw as [Wa Wt]. rewrite (black_ends a Wa Ea). cbn.
           destruct (black_prefix x t b (String c s) Bx Wt Eb) as [-> _]; [right; now exists c, s | assumption |].
           destruct (String.eqb_spec t "") as [-> | _]; [now contradiction Hx | now left].
        -- right. split; [assumption |]. split; [assumption |]. exists a', b. repeat split; [| assumption]. now apply ends_tail in Ea.
    + rewrite IH.
      * now rewrite app_cons_r.
      * apply all_app. split; [assumption |]. repeat constructor. assumption.
Qed.

Lemma token_find_iff s x : token_find s x = true <-> word_of s x.
Proof.
  unfold token_find. rewrite existsb_exists. rewrite <- (words_in s "" x (ac_nil _)). split.
  - intros (y & H & E). apply String.eqb_eq in E as ->. assumption.
  - intros H. exists x. split; [assumption | apply String.eqb_refl].
Qed.
Lemma no_words s : word_of "" s -> False.
Proof. intros (Hx & _ & a & b & E & _). symmetry in E. apply app_nil_inv in E as [_ E]. apply app_nil_inv in E as [E _]. contradiction. Qed.
