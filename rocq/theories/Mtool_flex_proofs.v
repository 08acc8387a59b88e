(** C78: the scanner of the model makes the choices of flex. *)
From Coq Require Import List ZArith Bool Ascii String Lia.
From Verif Require Import Base Params_model Template_model Template_spec Template_lex Template_words Mtool_model Mtool_spec Mtool_lex Mtool_flex.
Import ListNotations.
Local Open Scope list_scope.

(** * Uniqueness *)
Lemma app_same_length {B} (a b c d : list B) : a ++ b = c ++ d -> List.length a = List.length c -> a = c /\ b = d.
Proof.
  revert c. induction a as [|x a IH]; intros [|y c] E L; cbn in L; try discriminate; [auto|].
  cbn in E. injection E as -> E. injection L as L. destruct (IH c E L) as [-> ->]. auto.
Qed.
Lemma chosen_unique b s i d w j e u : chosen b s i d w -> chosen b s j e u -> w = u /\ d = e.
Proof.
  intros (_ & C & M) (_ & C' & M'). assert (M1 := M _ _ _ C'). assert (M2 := M' _ _ _ C).
  assert (i = j) by lia. subst j. assert (L : List.length w = List.length u) by lia.
  destruct C as (a & x & r & N & _ & _ & E), C' as (a' & x' & r' & N' & _ & _ & E').
  rewrite N in N'. injection N' as <- <- <-. split; auto. rewrite E in E'. apply (app_same_length _ _ _ _ E' L).
Qed.
Lemma scanned_unique b k s ts : scanned b k s ts -> forall ts', scanned b k s ts' -> ts = ts'.
Proof.
  induction 1 as [b k|b k i d w r ts C P|b k i d w r ts k' ts' C P S IH]; intros ts0 S0.
  - remember [] as s eqn:Es. destruct S0 as [b k|b k i d w r ts C P|b k i d w r ts k' ts' C P S]; auto;
      destruct C as (N & _); destruct w; try contradiction; discriminate.
  - remember (w ++ r) as s eqn:Es. destruct S0 as [b k|b k j e u q ts1 C' P'|b k j e u q ts1 k' ts' C' P' S'].
    + destruct C as (N & _); destruct w; try contradiction; discriminate.
    + destruct (chosen_unique _ _ _ _ _ _ _ _ C C') as [-> ->]. rewrite P in P'. injection P' as <-. auto.
    + destruct (chosen_unique _ _ _ _ _ _ _ _ C C') as [-> ->]. rewrite P in P'. discriminate.
  - remember (w ++ r) as s eqn:Es. destruct S0 as [b k|b k j e u q ts1 C' P'|b k j e u q ts1 k1 ts2 C' P' S'].
    + destruct C as (N & _); destruct w; try contradiction; discriminate.
    + destruct (chosen_unique _ _ _ _ _ _ _ _ C C') as [-> ->]. rewrite P in P'. discriminate.
    + destruct (chosen_unique _ _ _ _ _ _ _ _ C C') as [-> ->]. rewrite P in P'. injection P' as <- <-.
      apply app_inv_head in Es. subst r. f_equal. auto.
Qed.

(** * The texts of the rules *)
Definition words : list text := map str ["gammaPolCh"; "coefxi"; "coefzeta"; "coefdelta"; "coefkappa"; "coefV"; "parse"]%string.
Inductive shape (b : bool) : nat -> text -> Prop :=
| Sh_comment v : b = true -> all_are not_newline v -> shape b 0 ("#"%char :: v)
| Sh_key j w : nth_error words j = Some w -> shape b (S j) w
| Sh_bang : b = true -> shape b 8 ["!"%char]
| Sh_int w : digits w -> shape b 9 w
| Sh_one w : one_digit w -> shape b 10 w
| Sh_dig w : digits w -> shape b 11 w
| Sh_pt w : pointed w -> shape b 11 w
| Sh_blank c : blank c = true -> shape b 12 [c]
| Sh_section n : name_text n -> shape b 13 ("["%char :: n ++ ["]"%char])
| Sh_text n d v : name_text n -> isalpha d = true -> all_are not_newline v -> shape b 14 (n ++ "="%char :: d :: v)
| Sh_name n : name_text n -> shape b 15 n
| Sh_dollar : shape b 16 ["$"%char]
| Sh_open : shape b 17 ["{"%char]
| Sh_close : shape b 18 ["}"%char]
| Sh_line : shape b 19 [newline]
| Sh_any c : not_newline c = true -> shape b 20 [c].
Lemma lang_name n : lang alphaname n <-> name_text n.
Proof.
  split.
  - intros (u & v & -> & (c & -> & Hc) & H). exists c, v. auto.
  - intros (c & t & -> & Hc & Ht). exists [c], t. repeat split; auto. exists c. auto.
Qed.
Lemma lang_digits n : lang some_digits n <-> digits n.
Proof.
  split.
  - intros (u & v & -> & (c & -> & Hc) & H). split; [discriminate|]. constructor; auto.
  - intros [H1 H2]. destruct n as [|c n]; [contradiction|]. inversion H2; subst. exists [c], n. repeat split; auto. exists c. auto.
Qed.
Lemma lang_exponent e E l x : (forall c, oneof l c = true <-> c = e \/ c = E) -> (lang (exponent_rx l) x <-> (x <> [] /\ exponent_part e E x)).
Proof.
  intros L. split.
  - intros (u & v & -> & (c & -> & Hc) & sg & d & -> & Hs & Hd). apply lang_digits in Hd. destruct Hd as [D1 D2].
    split; [discriminate|]. right. exists c, sg, d. repeat split; auto. { apply L. auto. }
    destruct Hs as [->|(g & -> & Hg)]; auto. unfold oneof in Hg. cbn [existsb] in Hg. rewrite orb_false_r in Hg. apply orb_prop in Hg.
    destruct Hg as [Hg|Hg]; apply Ascii.eqb_eq in Hg; subst; auto.
  - intros [N [->|(c & sg & d & -> & Hc & Hs & D1 & D2)]]; [contradiction|].
    exists [c], (sg ++ d). split; [reflexivity|]. split; [exists c; split; auto; apply L; auto|].
    exists sg, d. split; [reflexivity|]. split; [|apply lang_digits; split; auto].
    destruct Hs as [->|[->| ->]]; [left; auto|right; eexists; split; [reflexivity|reflexivity]|right; eexists; split; [reflexivity|reflexivity]].
Qed.
Lemma oneof_e c : oneof ["e"%char] c = true <-> c = "e"%char \/ c = "e"%char.
Proof. unfold oneof. cbn [existsb]. rewrite orb_false_r, Ascii.eqb_eq. tauto. Qed.
Lemma oneof_eE c : oneof ["e"; "E"]%char c = true <-> c = "e"%char \/ c = "E"%char.
Proof. unfold oneof. cbn [existsb]. rewrite orb_false_r, orb_true_iff, !Ascii.eqb_eq. tauto. Qed.
Definition rx_one : rx := Cat (One (fun c => isdigit c && negb (Ascii.eqb c "0"))) (exponent_rx ["e"%char]).
Definition rx_number : rx := Alt some_digits (Cat (Cat (Many isdigit) (Cat (Word (str ".")) (Many isdigit))) (Opt (exponent_rx ["e"; "E"]%char))).
Lemma lang_one w : lang rx_one w <-> one_digit w.
Proof.
  split.
  - intros (u & v & -> & (c & -> & Hc) & H). apply (lang_exponent _ _ _ _ oneof_e) in H. destruct H as [N X]. apply andb_prop in Hc. destruct Hc as [C1 C2].
    exists c, v. repeat split; auto. intros ->. discriminate.
  - intros (d & x & -> & H1 & H2 & H3 & H4). exists [d], x. split; [reflexivity|]. split; [exists d; split; auto|apply (lang_exponent _ _ _ _ oneof_e); auto].
    rewrite H1. cbn [andb]. apply negb_true_iff, Ascii.eqb_neq. auto.
Qed.
Lemma lang_number w : lang rx_number w <-> digits w \/ pointed w.
Proof.
  unfold rx_number. cbn [lang]. change (lang some_digits w) with (lang some_digits w). split.
  - intros [H|(u & x & -> & (a & v & -> & Ha & p & b & -> & -> & Hb) & Hx)]; [left; apply lang_digits; auto|]. right.
    exists a, b, x. split; [cbn; rewrite <- app_assoc; reflexivity|]. repeat split; auto.
    destruct Hx as [->|Hx]; [left; auto|]. apply (lang_exponent _ _ _ _ oneof_eE) in Hx. tauto.
  - intros [H|(a & b & x & -> & Ha & Hb & Hx)]; [left; apply lang_digits; auto|]. right. exists (a ++ "."%char :: b), x.
    split; [rewrite <- app_assoc; reflexivity|]. split.
    + exists a, ("."%char :: b). repeat split; auto. exists ["."%char], b. repeat split; auto.
    + destruct x as [|c x]; [left; auto|right]. apply (lang_exponent _ _ _ _ oneof_eE). split; [discriminate|auto].
Qed.
Ltac each_rule j N n := match n with O => idtac | S ?m => destruct j as [|j]; [cbn [nth_error] in N; injection N as <- <- <-|each_rule j N m] end.
Lemma candidate_shape b s j d u : candidate b s j d u -> shape b j u.
Proof.
  intros (a & x & r & N & A & L & E). clear E s r. unfold rules in N.
  each_rule j N 21; [..|destruct j; discriminate N].
  - destruct L as (p & v & -> & -> & H). apply (Sh_comment b v); auto.
  - cbn [lang] in L; subst u; apply Sh_key; reflexivity.
  - cbn [lang] in L; subst u; apply Sh_key; reflexivity.
  - cbn [lang] in L; subst u; apply Sh_key; reflexivity.
  - cbn [lang] in L; subst u; apply Sh_key; reflexivity.
  - cbn [lang] in L; subst u; apply Sh_key; reflexivity.
  - cbn [lang] in L; subst u; apply Sh_key; reflexivity.
  - cbn [lang] in L; subst u; apply Sh_key; reflexivity.
  - cbn [lang] in L; subst u. apply Sh_bang. auto.
  - apply Sh_int, lang_digits, L.
  - apply Sh_one, lang_one, L.
  - apply lang_number in L. destruct L; [apply Sh_dig|apply Sh_pt]; auto.
  - destruct L as (c & -> & H). apply Sh_blank. unfold oneof in H. cbn [existsb] in H. rewrite orb_false_r in H. exact H.
  - destruct L as (p & v & -> & -> & n & q & -> & Hn & ->). apply Sh_section, lang_name, Hn.
  - destruct L as (n & v0 & -> & Hn & p & q & -> & -> & o & v & -> & (c & -> & Hc) & Hv). apply Sh_text; auto. apply lang_name, Hn.
  - apply Sh_name, lang_name, L.
  - cbn [lang] in L; subst u. apply Sh_dollar.
  - cbn [lang] in L; subst u. apply Sh_open.
  - cbn [lang] in L; subst u. apply Sh_close.
  - cbn [lang] in L; subst u. apply Sh_line.
  - destruct L as (c & -> & H). apply Sh_any, H.
Qed.

(** * Longest pieces *)
Lemma longest p (u v a b : text) : all_are p u -> u ++ v = a ++ b -> (forall c t, b = c :: t -> p c = false) -> List.length u <= List.length a.
Proof.
  revert u. induction a as [|x a IH]; intros u U E B.
  - destruct u as [|y u]; [auto|]. cbn [app] in E. inversion U; subst. assert (X := B y (u ++ v) eq_refl). congruence.
  - destruct u as [|y u]; [cbn; lia|]. cbn [app] in E. injection E as -> E. inversion U; subst. cbn [List.length]. assert (G := IH u H2 E B). lia.
Qed.
Lemma exactly p (u v a b : text) c t : all_are p u -> v = c :: t -> p c = false -> all_are p a -> u ++ v = a ++ b -> (forall c t, b = c :: t -> p c = false) -> u = a /\ v = b.
Proof.
  intros U -> C A E B. apply app_same_length; auto. apply Nat.le_antisymm; [apply (longest p u (c :: t) a b); auto|].
  apply (longest p a b u (c :: t)); auto. intros c' t' X. injection X as <- <-. auto.
Qed.
Lemma exponent_longest e E s x t x' t' : exponent e E s = (x, t) -> s = x' ++ t' -> exponent_part e E x' -> List.length x' <= List.length x.
Proof.
  intros H -> [->|(c & sg & d & -> & Hc & Hs & D1 & D2)]; [cbn; lia|].
  cbn [app exponent] in H. assert (Ascii.eqb c e || Ascii.eqb c E = true) as K by (destruct Hc as [->| ->]; rewrite Ascii.eqb_refl; auto; apply orb_true_r).
  rewrite K in H. rewrite <- app_assoc in H. destruct d as [|d0 d]; [contradiction|].
  assert (D0 : isdigit d0 = true) by (inversion D2; auto).
  assert (F : Ascii.eqb d0 "+" || Ascii.eqb d0 "-" = false) by (clear - D0; all_chars d0; try discriminate D0; reflexivity).
  destruct (span isdigit ((d0 :: d) ++ t')) as [a b] eqn:Sp. destruct (span_spec _ _ _ _ Sp) as (S1 & S2 & S3).
  assert (L := longest isdigit (d0 :: d) t' a b D2 S1 S3).
  destruct a as [|a0 a]; [cbn in L; lia|].
  destruct Hs as [->|[->| ->]]; cbn [app] in *.
  - rewrite F, Sp in H. injection H as <- <-. cbn [List.length app] in *. lia.
  - change (Ascii.eqb "+" "+" || Ascii.eqb "+" "-") with true in H. cbn iota in H. rewrite Sp in H. injection H as <- <-. cbn [List.length app] in *. lia.
  - change (Ascii.eqb "-" "+" || Ascii.eqb "-" "-") with true in H. cbn iota in H. rewrite Sp in H. injection H as <- <-. cbn [List.length app] in *. lia.
Qed.
