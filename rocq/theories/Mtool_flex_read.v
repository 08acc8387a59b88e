(** C78: the scanner of the model makes the choices of flex (continued). *)
From Coq Require Import List ZArith Bool Ascii String Lia.
From Verif Require Import Base Params_model Template_model Template_spec Template_lex Template_words Mtool_model Mtool_spec Mtool_lex Mtool_flex Mtool_flex_proofs.
Import ListNotations.
Local Open Scope list_scope.

(** * The rules that can apply, by the first character *)
Lemma words_name j w : nth_error words j = Some w -> name_text w.
Proof.
  intros H. apply nth_error_In in H. unfold words in H. cbn [map In] in H.
  repeat destruct H as [<-|H]; try contradiction; cbv -[name_text]; eexists; eexists; (split; [reflexivity|]); split; try reflexivity; repeat constructor.
Qed.
Lemma digits_head w c v : digits w -> w = c :: v -> isdigit c = true.
Proof. intros [_ H] ->. inversion H; auto. Qed.
Lemma pointed_head w c v : pointed w -> w = c :: v -> isdigit c || Ascii.eqb c "." = true.
Proof.
  intros (a & b & x & -> & Ha & _) E. destruct a as [|a0 a]; cbn [app] in E; injection E as <- _; [reflexivity|]. inversion Ha; subst. rewrite H1. reflexivity.
Qed.
Definition place (b : bool) (c : ascii) : nat :=
  if Ascii.eqb c newline then 19 else if b && Ascii.eqb c "!" then 8 else if blank c then 12 else
  if Ascii.eqb c "$" then 16 else if Ascii.eqb c "{" then 17 else if Ascii.eqb c "}" then 18 else 20.
Lemma place_le b c : place b c <= 20.
Proof. unfold place. repeat match goal with |- context [if ?x then _ else _] => destruct x end; lia. Qed.
Lemma shape_single b j u r c t : shape b j u -> u ++ r = c :: t -> isalpha c = false -> isdigit c || Ascii.eqb c "." = false -> c <> "["%char ->
  b && Ascii.eqb c "#" = false -> u = [c] /\ place b c <= j.
Proof.
  intros S E A D B H. destruct S as [v Hb Hv|j w Hw|Hb|w Hw|w Hw|w Hw|w Hw|c0 Hc|n Hn|n d v Hn Hd Hv|n Hn| | | | |c0 Hc]; cbn [app] in E.
  - injection E as <- _. rewrite Hb in H. discriminate.
  - destruct (words_name _ _ Hw) as (x & y & -> & Hx & _). cbn [app] in E. injection E as <- _. congruence.
  - injection E as <- _. split; auto. rewrite Hb. reflexivity.
  - destruct w as [|x w]; [destruct Hw; contradiction|]. cbn [app] in E. injection E as <- _. rewrite (digits_head _ _ _ Hw eq_refl) in D. discriminate.
  - destruct Hw as (x & w' & -> & Hx & _). cbn [app] in E. injection E as <- _. rewrite Hx in D. discriminate.
  - destruct w as [|x w]; [destruct Hw; contradiction|]. cbn [app] in E. injection E as <- _. rewrite (digits_head _ _ _ Hw eq_refl) in D. discriminate.
  - destruct w as [|x w]; [destruct Hw as (a & b' & x & Ex & _); destruct a; discriminate|]. cbn [app] in E. injection E as <- _. rewrite (pointed_head _ _ _ Hw eq_refl) in D. discriminate.
  - injection E as -> _. split; auto. unfold place. destruct (Ascii.eqb c newline) eqn:X; [apply Ascii.eqb_eq in X; subst; discriminate|].
    rewrite Hc. destruct (b && Ascii.eqb c "!"); lia.
  - injection E as <- _. contradiction.
  - destruct Hn as (x & y & -> & Hx & _). cbn [app] in E. injection E as <- _. congruence.
  - destruct Hn as (x & y & -> & Hx & _). cbn [app] in E. injection E as <- _. congruence.
  - injection E as <- _. split; auto. destruct b; cbv; lia.
  - injection E as <- _. split; auto. destruct b; cbv; lia.
  - injection E as <- _. split; auto. destruct b; cbv; lia.
  - injection E as <- _. split; auto.
  - injection E as -> _. split; auto. apply place_le.
Qed.
Lemma shape_alpha b j u r c t : shape b j u -> u ++ r = c :: t -> isalpha c = true ->
  (exists i, j = S i /\ nth_error words i = Some u) \/ (j = 14 /\ exists n d v, u = n ++ "="%char :: d :: v /\ name_text n /\ isalpha d = true /\ all_are not_newline v) \/
  (j = 15 /\ name_text u) \/ (j = 20 /\ u = [c]).
Proof.
  intros S E A. destruct (alpha_facts c A) as (F1 & F2 & F3 & F4 & F5 & F6 & F7 & F8 & F9).
  destruct S as [v Hb Hv|j w Hw|Hb|w Hw|w Hw|w Hw|w Hw|c0 Hc|n Hn|n d v Hn Hd Hv|n Hn| | | | |c0 Hc]; cbn [app] in E.
  - injection E as <- _. discriminate.
  - left. eauto.
  - injection E as <- _. discriminate.
  - destruct w as [|x w]; [destruct Hw; contradiction|]. cbn [app] in E. injection E as <- _. rewrite (digits_head _ _ _ Hw eq_refl) in F5. discriminate.
  - destruct Hw as (x & w' & -> & Hx & _). cbn [app] in E. injection E as <- _. congruence.
  - destruct w as [|x w]; [destruct Hw; contradiction|]. cbn [app] in E. injection E as <- _. rewrite (digits_head _ _ _ Hw eq_refl) in F5. discriminate.
  - destruct w as [|x w]; [destruct Hw as (a & b' & x & Ex & _); destruct a; discriminate|]. cbn [app] in E. injection E as <- _.
    assert (G := pointed_head _ _ _ Hw eq_refl). rewrite F5, F6 in G. discriminate.
  - injection E as -> _. congruence.
  - injection E as <- _. discriminate.
  - right. left. split; auto. exists n, d, v. auto.
  - right. right. left. auto.
  - injection E as <- _. discriminate.
  - injection E as <- _. discriminate.
  - injection E as <- _. discriminate.
  - injection E as <- _. discriminate.
  - injection E as -> _. right. right. right. auto.
Qed.
Lemma shape_number b j u r c t : shape b j u -> u ++ r = c :: t -> isdigit c || Ascii.eqb c "." = true ->
  (9 <= j /\ digits u) \/ (j = 10 /\ one_digit u) \/ (j = 11 /\ pointed u) \/ (j = 20 /\ u = [c]).
Proof.
  intros S E A. destruct (number_facts c A) as (F1 & F2 & F3 & F4 & F5).
  destruct S as [v Hb Hv|j w Hw|Hb|w Hw|w Hw|w Hw|w Hw|c0 Hc|n Hn|n d v Hn Hd Hv|n Hn| | | | |c0 Hc]; cbn [app] in E.
  - injection E as <- _. discriminate.
  - destruct (words_name _ _ Hw) as (x & y & -> & Hx & _). cbn [app] in E. injection E as <- _. congruence.
  - injection E as <- _. discriminate.
  - left. auto.
  - right. left. auto.
  - left. split; [lia|auto].
  - right. right. left. auto.
  - injection E as -> _. congruence.
  - injection E as <- _. discriminate.
  - destruct Hn as (x & y & -> & Hx & _). cbn [app] in E. injection E as <- _. congruence.
  - destruct Hn as (x & y & -> & Hx & _). cbn [app] in E. injection E as <- _. congruence.
  - injection E as <- _. discriminate.
  - injection E as <- _. discriminate.
  - injection E as <- _. discriminate.
  - injection E as <- _. discriminate.
  - injection E as -> _. right. right. right. auto.
Qed.
Lemma shape_bracket b j u r t : shape b j u -> u ++ r = "["%char :: t -> (j = 13 /\ exists n, name_text n /\ u = "["%char :: n ++ ["]"%char]) \/ (j = 20 /\ u = ["["%char]).
Proof.
  intros S E. destruct S as [v Hb Hv|j w Hw|Hb|w Hw|w Hw|w Hw|w Hw|c0 Hc|n Hn|n d v Hn Hd Hv|n Hn| | | | |c0 Hc]; cbn [app] in E; try discriminate.
  - destruct (words_name _ _ Hw) as (x & y & -> & Hx & _). cbn [app] in E. injection E as -> _. discriminate.
  - destruct w as [|x w]; [destruct Hw; contradiction|]. cbn [app] in E. injection E as -> _. assert (G := digits_head _ _ _ Hw eq_refl). discriminate.
  - destruct Hw as (x & w' & -> & Hx & _). cbn [app] in E. injection E as -> _. discriminate.
  - destruct w as [|x w]; [destruct Hw; contradiction|]. cbn [app] in E. injection E as -> _. assert (G := digits_head _ _ _ Hw eq_refl). discriminate.
  - destruct w as [|x w]; [destruct Hw as (a & b' & x & Ex & _); destruct a; discriminate|]. cbn [app] in E. injection E as -> _.
    assert (G := pointed_head _ _ _ Hw eq_refl). discriminate.
  - injection E as -> _. discriminate.
  - left. split; auto. exists n. auto.
  - destruct Hn as (x & y & -> & Hx & _). cbn [app] in E. injection E as -> _. discriminate.
  - destruct Hn as (x & y & -> & Hx & _). cbn [app] in E. injection E as -> _. discriminate.
  - injection E as -> _. auto.
Qed.
Lemma shape_comment b j u r t : shape b j u -> u ++ r = "#"%char :: t -> (j = 0 /\ exists v, all_are not_newline v /\ u = "#"%char :: v) \/ (j = 20 /\ u = ["#"%char]).
Proof.
  intros S E. destruct S as [v Hb Hv|j w Hw|Hb|w Hw|w Hw|w Hw|w Hw|c0 Hc|n Hn|n d v Hn Hd Hv|n Hn| | | | |c0 Hc]; cbn [app] in E; try discriminate.
  - left. eauto.
  - destruct (words_name _ _ Hw) as (x & y & -> & Hx & _). cbn [app] in E. injection E as -> _. discriminate.
  - destruct w as [|x w]; [destruct Hw; contradiction|]. cbn [app] in E. injection E as -> _. assert (G := digits_head _ _ _ Hw eq_refl). discriminate.
  - destruct Hw as (x & w' & -> & Hx & _). cbn [app] in E. injection E as -> _. discriminate.
  - destruct w as [|x w]; [destruct Hw; contradiction|]. cbn [app] in E. injection E as -> _. assert (G := digits_head _ _ _ Hw eq_refl). discriminate.
  - destruct w as [|x w]; [destruct Hw as (a & b' & x & Ex & _); destruct a; discriminate|]. cbn [app] in E. injection E as -> _.
    assert (G := pointed_head _ _ _ Hw eq_refl). discriminate.
  - injection E as -> _. discriminate.
  - destruct Hn as (x & y & -> & Hx & _). cbn [app] in E. injection E as -> _. discriminate.
  - destruct Hn as (x & y & -> & Hx & _). cbn [app] in E. injection E as -> _. discriminate.
  - injection E as -> _. auto.
Qed.

(** * The choices *)
Definition best (b : bool) (s : text) (i : nat) (w : text) : Prop :=
  forall j u r, shape b j u -> s = u ++ r -> List.length u < List.length w \/ (List.length u = List.length w /\ i <= j).
Lemma make_chosen b w r i a x d : w <> [] -> nth_error rules i = Some (a, x, d) -> (a = true -> b = true) -> lang x w -> best b (w ++ r) i w -> chosen b (w ++ r) i d w.
Proof.
  intros N R A L B. split; auto. split; [exists a, x, r; auto|]. intros j e u C. assert (S := candidate_shape _ _ _ _ _ C). destruct C as (a' & x' & q & _ & _ & _ & E). apply (B j u q S E).
Qed.
Lemma single_best b c t i : isalpha c = false -> isdigit c || Ascii.eqb c "." = false -> c <> "["%char -> b && Ascii.eqb c "#" = false -> i = place b c -> best b ([c] ++ t) i [c].
Proof. intros A D B H -> j u r S E. destruct (shape_single b j u r c t S (eq_sym E) A D B H) as [-> L]. right. auto. Qed.
Lemma flat_start w : all_are not_newline w -> at_line_start w = false.
Proof.
  unfold at_line_start. intros H. assert (G : not_newline (List.last w " "%char) = true).
  { induction H as [|c w Hc Hw IH]; [reflexivity|]. cbn [List.last]. destruct w; auto. }
  unfold not_newline in G. apply negb_true_iff in G. exact G.
Qed.
Lemma id_flat c : idchar c = true -> not_newline c = true.
Proof. all_chars c; intros H; try discriminate H; reflexivity. Qed.
Lemma digit_flat c : isdigit c = true -> not_newline c = true.
Proof. all_chars c; intros H; try discriminate H; reflexivity. Qed.
Lemma are_weaken (p q : ascii -> bool) w : (forall c, p c = true -> q c = true) -> all_are p w -> all_are q w.
Proof. intros H. apply Forall_impl. auto. Qed.
Lemma name_id n : name_text n -> all_are idchar n.
Proof. intros (c & t & -> & Hc & Ht). constructor; auto. apply (alpha_facts c Hc). Qed.
Lemma exponent_flat e E x : not_newline e = true -> not_newline E = true -> exponent_part e E x -> all_are not_newline x.
Proof.
  intros He HE [->|(c & sg & d & -> & Hc & Hs & D1 & D2)]; [constructor|]. constructor; [destruct Hc; subst; auto|].
  apply Forall_app. split; [destruct Hs as [->|[->| ->]]; repeat constructor|apply (are_weaken isdigit); auto; apply digit_flat].
Qed.
Lemma drop_line_spec s : exists v, s = v ++ drop_line s /\ all_are not_newline v /\ (forall c t, drop_line s = c :: t -> not_newline c = false).
Proof.
  induction s as [|c s (v & E & V & D)]; [exists []; repeat split; [constructor|discriminate]|]. cbn [drop_line].
  destruct (Ascii.eqb c newline) eqn:H.
  - exists []. repeat split; [constructor|]. intros c' t' X. injection X as <- <-. unfold not_newline. rewrite H. reflexivity.
  - exists (c :: v). repeat split; auto; [cbn [app]; congruence|]. constructor; auto. unfold not_newline. rewrite H. reflexivity.
Qed.
