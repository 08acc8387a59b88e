(** Proofs for C71. *)
From Coq Require Import List ZArith Ascii String Bool Lia Permutation Sorted.
From Verif Require Import Base Oprecalc_model Oprecalc_spec Oprecalc_words Datafile_model Datafile_spec Datafile_parse Datafile_read Datafile_check Tables_model Tables_spec.
Import ListNotations.
Local Open Scope string_scope.
Local Open Scope list_scope.

Lemma joined_shorter w ws s rest : w <> "" -> joined (w :: ws) s rest -> (String.length rest < String.length s)%nat.
Proof.
  intros Hw H. inversion H as [|b w' ws' s' r Hb Hs Hj]; subst. apply joined_length in Hj. rewrite !length_app. destruct w; [contradiction |]. cbn. lia.
Qed.
Lemma comment_form l : is_comment l -> exists t, l = String "#" t.
Proof. destruct l as [|c t]; [intros [] |]. intros H. cbn in H. subst c. now exists t. Qed.
Lemma comment_dec l : {is_comment l} + {~ is_comment l}.
Proof. destruct l as [|c t]; [right; intros [] |]. destruct (Ascii.ascii_dec c "#") as [-> | H]; [left; reflexivity | right; exact H]. Qed.
Lemma hash_match {A} (s : string) (a b : A) : match s with String "#" _ => a | _ => b end = if comment_dec s then a else b.
Proof.
  destruct (comment_dec s) as [H | H].
  - apply comment_form in H as (t & ->). reflexivity.
  - destruct s as [|c t]; [reflexivity |]. destruct c as [[] [] [] [] [] [] [] []]; try reflexivity. elim H. reflexivity.
Qed.
Lemma one_hash t : one_line t -> one_line (String "#" t).
Proof. intros H. constructor; [discriminate | exact H]. Qed.
Lemma getline_end t : one_line t -> getline t = (t, None).
Proof. induction 1 as [|c t Hc Ht IH]; cbn; [reflexivity |]. apply Ascii.eqb_neq in Hc. now rewrite Hc, IH. Qed.
Lemma getline_nl t s : one_line t -> getline (t ++ String newline s)%string = (t, Some s).
Proof. induction 1 as [|c t Hc Ht IH]; cbn; [reflexivity |]. apply Ascii.eqb_neq in Hc. now rewrite Hc, IH. Qed.

Section Pairs.
  Variables (V : Type) (scan : string -> option (V * string)) (finite : V -> bool).
  Hypothesis scan_empty : scan "" = None.
  Notation number := (number V scan). Notation pair_words := (pair_words V scan). Notation rows_text := (rows_text V scan). Notation table_text := (table_text V scan).
  Notation read_loop := (read_loop V scan finite). Notation readtable_loop := (readtable_loop V scan finite).

  Lemma read_loop_step fuel s : read_loop (S fuel) s =
    if comment_dec s then read_loop fuel (rest_of (snd (getline s))) else
    match scan (skip_ws s) with
    | None => Ok []
    | Some (x, s1) => match scan (skip_ws s1) with
        | None => Ok []
        | Some (y, s2) => let* _ := my_assert (finite x && finite y)%bool in let* l := read_loop fuel s2 in Ok ((x, y) :: l) end end.
  Proof. cbn [Tables_model.read_loop]. apply hash_match. Qed.
  Lemma number_scan v w b s : number v w -> all_blank b -> starts_blank s -> scan (skip_ws (b ++ w ++ s)%string) = Some (v, s).
  Proof. intros ((Hw & Hb & Hs & _) & _) Hbl Hst. rewrite skip_blank, skip_black by assumption. now apply Hs. Qed.
  Lemma word_no_comment v w b s : number v w -> all_blank b -> ~ is_comment (b ++ w ++ s)%string.
  Proof.
    intros ((Hw & _ & _ & _) & Hc) Hb. destruct Hb as [|c b Hb _]; cbn.
    - destruct w as [|c w]; [contradiction | exact Hc].
    - intros ->. discriminate.
  Qed.
  (** A stops at the rest if it is not a number. *)
  Definition stops (s : string) : Prop := ~ is_comment s /\ scan (skip_ws s) = None.
  Notation finite_pair := (finite_pair finite).
  Lemma loop_pairs l ws : pair_words l ws -> forall body rest fuel, joined ws body rest -> Forall finite_pair l -> stops rest -> (String.length body < fuel)%nat -> read_loop fuel body = Ok l.
  Proof.
    induction 1 as [|x y l w1 w2 ws H1 H2 H IH]; intros body rest fuel Hj Hf Hs Hk; destruct fuel as [|fuel]; try lia; rewrite read_loop_step.
    - inversion Hj; subst. destruct Hs as [Hc Hs]. destruct (comment_dec rest); [contradiction |]. now rewrite Hs.
    - inversion Hf as [|? ? [F1 F2] Hf']; subst. cbn in F1, F2.
      assert (Hlen : exists mid, joined [w1; w2] body mid /\ joined ws mid rest) by (change (w1 :: w2 :: ws) with ([w1; w2] ++ ws) in Hj; apply joined_app in Hj; exact Hj).
      destruct Hlen as (mid & Hm & Hr). pose proof (joined_shorter w1 [w2] body mid (proj1 (proj1 H1)) Hm) as Hlt.
      inversion Hm as [|b1 w1' ws1 s1 r1 Hb1 Hs1 Hj1]; subst. inversion Hj1 as [|b2 w2' ws2 s2 r2 Hb2 Hs2 Hj2]; subst. inversion Hj2; subst.
      destruct (comment_dec (b1 ++ w1 ++ b2 ++ w2 ++ mid)%string) as [Hc | _]; [exfalso; revert Hc; now apply (word_no_comment x) |].
      rewrite (number_scan x) by assumption. rewrite (number_scan y) by assumption. rewrite F1, F2. cbn [andb my_assert bind]. rewrite (IH mid rest) by (try assumption; lia). reflexivity.
  Qed.
  Lemma loop_comments c : comments c -> forall fuel body, (String.length (c ++ body)%string < fuel)%nat -> exists fuel', (String.length body < fuel')%nat /\ read_loop fuel (c ++ body)%string = read_loop fuel' body.
  Proof.
    induction 1 as [|t c Ht Hc IH]; intros fuel body Hk; [exists fuel; auto |]. destruct fuel as [|fuel]; [lia |]. rewrite read_loop_step. cbn [append] in *. rewrite app_ass in *. cbn [append] in *.
    change (String "#" (t ++ String newline (c ++ body)))%string with (String "#" t ++ String newline (c ++ body))%string in *. rewrite getline_nl by now apply one_hash. cbn [snd rest_of].
    destruct (comment_dec _) as [_ | N]; [| elim N; reflexivity]. apply IH. rewrite length_app in Hk. cbn in Hk. lia.
  Qed.
  Theorem A_stops l s rest : table_text l s rest -> Forall finite_pair l -> stops rest -> read_pairs_A V scan finite s = Ok l.
  Proof.
    intros (c & body & ws & -> & Hc & Hw & Hj) Hf Hs. unfold read_pairs_A. destruct (loop_comments c Hc (S (String.length (c ++ body)%string)) body) as (fuel & Hk & ->); [lia |].
    now apply (loop_pairs l ws Hw body rest).
  Qed.
  Lemma blank_stops s : all_blank s -> stops s.
  Proof. intros H. split; [intros Hc; destruct H as [|c s Hb _]; [exact Hc | cbn in Hc; subst; discriminate] |]. rewrite skip_all by assumption. exact scan_empty. Qed.
  Theorem A_complete l s rest : table_text l s rest -> Forall finite_pair l -> all_blank rest -> read_pairs_A V scan finite s = Ok l.
  Proof. intros H1 H2 H3. apply (A_stops l s rest); auto using blank_stops. Qed.
  (** After a pair, a comment ends the table. *)
  Lemma joined_starts ws s rest : ws <> [] -> joined ws s rest -> starts_blank rest.
  Proof.
    intros Hn Hj. induction Hj as [|b w ws s rest Hb Hs Hj IH]; [contradiction |]. destruct ws as [|w' ws]; [inversion Hj; subst; exact Hs |]. apply IH. discriminate.
  Qed.
  Theorem A_lost l s rest : table_text l s rest -> l <> [] -> Forall finite_pair l -> not_a_number scan rest -> read_pairs_A V scan finite s = Ok l.
  Proof.
    intros H Hn Hf (b & c & t & -> & Hb & Hc & Hs). apply (A_stops l s _ H Hf). split.
    - destruct H as (c0 & body & ws & _ & _ & Hw & Hj). assert (Hws : ws <> []) by (destruct Hw; [contradiction | discriminate]). pose proof (joined_starts ws _ _ Hws Hj) as Hst.
      intros Hcm. apply comment_form in Hcm as (u & E). rewrite E in Hst. destruct Hst as [Hst | (d & u' & E' & Hd)]; [discriminate |]. injection E' as <- <-. discriminate.
    - rewrite skip_blank by assumption. cbn [skip_ws]. now rewrite Hc.
  Qed.
  (** A value that is not finite ends the program. *)
  Theorem A_not_finite l x y l' s rest : table_text (l ++ (x, y) :: l') s rest -> Forall finite_pair l -> ~ finite_pair (x, y) -> read_pairs_A V scan finite s = Throw.
  Proof.
    intros (c & body & ws & -> & Hc & Hw & Hj) Hf Hn. unfold read_pairs_A. destruct (loop_comments c Hc (S (String.length (c ++ body)%string)) body) as (fuel & Hk & ->); [lia |]. clear Hc c.
    revert ws body rest fuel Hw Hj Hk. induction Hf as [|[x' y'] l [F1 F2] Hf IH]; intros ws body rest fuel Hw Hj Hk; cbn [app] in Hw; inversion Hw as [|x0 y0 l0 w1 w2 ws0 N1 N2 Hw0]; subst; destruct fuel as [|fuel]; try lia; rewrite read_loop_step;
      change (w1 :: w2 :: ws0) with ([w1; w2] ++ ws0) in Hj; apply joined_app in Hj as (mid & Hm & Hr); pose proof (joined_shorter w1 [w2] body mid (proj1 (proj1 N1)) Hm) as Hlt;
      inversion Hm as [|b1 w1' ws1 s1 r1 Hb1 Hs1 Hj1]; subst; inversion Hj1 as [|b2 w2' ws2 s2 r2 Hb2 Hs2 Hj2]; subst; inversion Hj2; subst;
      (destruct (comment_dec (b1 ++ w1 ++ b2 ++ w2 ++ mid)%string) as [Hcm | _]; [exfalso; revert Hcm; eapply word_no_comment; eassumption |]).
    - rewrite (number_scan x), (number_scan y) by assumption. replace (finite x && finite y)%bool with false; [reflexivity |]. symmetry. apply andb_false_iff. unfold Tables_spec.finite_pair in Hn. cbn in Hn.
      destruct (finite x), (finite y); auto. elim Hn. auto.
    - rewrite (number_scan x'), (number_scan y') by assumption. cbn in F1, F2. rewrite F1, F2. cbn [andb my_assert bind]. rewrite (IH ws0 mid rest fuel) by (try assumption; lia). reflexivity.
  Qed.

  (** ** B *)
  Lemma skip_filler_any f s : filler f -> skip_comments (f ++ s)%string = skip_comments s.
  Proof.
    unfold skip_comments. induction 1 as [|c f Hc Hf IH|t f Ht Hf IH]; [reflexivity | |].
    - cbn. destruct Hc as [<- | [<- | [<- | []]]]; exact IH.
    - cbn [append skip_comments_aux]. change (("#" =? " ")%char || ("#" =? tab)%char || ("#" =? newline)%char)%bool with false. cbn iota.
      change (("#" =? "#")%char) with true. cbn iota. rewrite app_ass. cbn [append]. induction Ht as [|c t Hc Ht IHt]; cbn; [exact IH |]. apply Ascii.eqb_neq in Hc. now rewrite Hc.
  Qed.
  Lemma skip_to_word b c t : all_blank b -> blank c = false -> c <> "#"%char -> exists b', all_blank b' /\ skip_comments (b ++ String c t)%string = (b' ++ String c t)%string.
  Proof.
    intros Hb Hc Hh. unfold skip_comments. induction Hb as [|d b Hd Hb IH].
    - exists "". split; [constructor |]. cbn. replace (Ascii.eqb c " " || Ascii.eqb c tab || Ascii.eqb c newline)%bool with false.
      + apply Ascii.eqb_neq in Hh. now rewrite Hh.
      + symmetry. rewrite !orb_false_iff, !Ascii.eqb_neq. repeat split; intros ->; discriminate.
    - cbn [append skip_comments_aux]. destruct (Ascii.eqb d " " || Ascii.eqb d tab || Ascii.eqb d newline)%bool; [exact IH |].
      destruct (Ascii.eqb_spec d "#") as [-> | _]; [discriminate |]. exists (String d b). split; [now constructor | reflexivity].
  Qed.
  Lemma number_first v w : number v w -> exists c t, w = String c t /\ blank c = false /\ c <> "#"%char.
  Proof. intros ((Hw & Hb & _ & _) & Hc). destruct w as [|c t]; [contradiction |]. exists c, t. split; [reflexivity |]. split; [now inversion Hb | exact Hc]. Qed.
  Lemma rows_loop l s rest : rows_text l s rest -> Forall finite_pair l -> forall r, (forall fuel, (String.length rest < fuel)%nat -> readtable_loop fuel rest = r) ->
    forall fuel, (String.length s < fuel)%nat -> readtable_loop fuel s = let* k := r in Ok (l ++ k).
  Proof.
    intros H Hf r Hr. induction H as [f rest Hfi|f x y l w1 w2 s mid rest Hfi N1 N2 Hj H IH]; intros fuel Hk.
    - assert (E : readtable_loop fuel (f ++ rest)%string = readtable_loop fuel rest) by (destruct fuel; [lia |]; cbn [Tables_model.readtable_loop]; now rewrite skip_filler_any).
      rewrite E, Hr by (rewrite length_app in Hk; lia). destruct r; reflexivity.
    - inversion Hf as [|? ? [F1 F2] Hf']; subst. cbn in F1, F2. destruct fuel as [|fuel]; [lia |]. cbn [Tables_model.readtable_loop]. rewrite skip_filler_any by assumption.
      pose proof (joined_shorter w1 [w2] s mid (proj1 (proj1 N1)) Hj) as Hlt. rewrite length_app in Hk.
      inversion Hj as [|b1 w1' ws1 s1 r1 Hb1 Hs1 Hj1]; subst. inversion Hj1 as [|b2 w2' ws2 s2 r2 Hb2 Hs2 Hj2]; subst. inversion Hj2; subst.
      destruct (number_first x w1 N1) as (c & t & Ew & Hc & Hh).
      destruct (skip_to_word b1 c (t ++ b2 ++ w2 ++ mid) Hb1 Hc Hh) as (b' & Hb' & Es).
      replace (skip_comments (b1 ++ w1 ++ b2 ++ w2 ++ mid)%string) with (b' ++ w1 ++ b2 ++ w2 ++ mid)%string by (rewrite Ew; symmetry; exact Es).
      destruct (b' ++ w1 ++ b2 ++ w2 ++ mid)%string as [|d u] eqn:Eu; [apply app_nil_inv in Eu as [_ Eu]; rewrite Ew in Eu; discriminate |]. rewrite <- Eu.
      unfold read_one at 1. rewrite (number_scan x) by assumption. cbn [bind]. unfold read_one at 1. rewrite (number_scan y) by assumption. cbn [bind]. rewrite F1, F2. cbn [andb my_assert bind].
      rewrite IH by (try assumption; lia). destruct r; reflexivity.
  Qed.
  Lemma rows_read l s rest r : rows_text l s rest -> Forall finite_pair l -> (forall fuel, (String.length rest < fuel)%nat -> readtable_loop fuel rest = r) -> readtable V scan finite s = let* k := r in Ok (l ++ k).
  Proof. intros H Hf Hr. unfold readtable. apply (rows_loop l s rest H Hf r Hr). lia. Qed.
  Lemma skip_in_comment t : one_line t -> skip_comments_aux true t = "".
  Proof. induction 1 as [|c t Hc Ht IH]; cbn; [reflexivity |]. apply Ascii.eqb_neq in Hc. now rewrite Hc. Qed.
  Theorem B_complete l s rest : rows_text l s rest -> Forall finite_pair l -> nothing_left rest -> readtable V scan finite s = Ok l.
  Proof.
    intros H Hf Hn. rewrite (rows_read l s rest (Ok []) H Hf).
    - cbn [bind]. now rewrite List.app_nil_r.
    - intros [|fuel] Hk; [lia |]. cbn [Tables_model.readtable_loop]. destruct Hn as [-> | (t & -> & Ht)]; [reflexivity |]. unfold skip_comments. cbn [skip_comments_aux].
      change (("#" =? " ")%char || ("#" =? tab)%char || ("#" =? newline)%char)%bool with false. change (("#" =? "#")%char) with true. cbn iota. now rewrite skip_in_comment.
  Qed.
  (** Anything else is an error. *)
  Theorem B_junk l s rest : rows_text l s rest -> Forall finite_pair l -> not_a_number scan rest -> ~ is_comment (skip_ws rest) -> readtable V scan finite s = Throw.
  Proof.
    intros H Hf (b & c & t & -> & Hb & Hc & Hs) Hh. rewrite skip_blank in Hh by assumption. cbn [skip_ws] in Hh. rewrite Hc in Hh. cbn in Hh.
    rewrite (rows_read l s _ Throw H Hf); [reflexivity |]. intros [|fuel] Hk; [lia |]. cbn [Tables_model.readtable_loop]. destruct (skip_to_word b c t Hb Hc Hh) as (b' & Hb' & ->).
    destruct (b' ++ String c t)%string as [|d u] eqn:Eu; [apply app_nil_inv in Eu as [_ Eu]; discriminate |]. rewrite <- Eu. unfold read_one. rewrite skip_blank by assumption. cbn [skip_ws]. rewrite Hc, Hs. reflexivity.
  Qed.
  Theorem B_odd l s rest x w mid : rows_text l s rest -> Forall finite_pair l -> number x w -> joined [w] rest mid -> not_a_number scan mid \/ all_blank mid -> readtable V scan finite s = Throw.
  Proof.
    intros H Hf N Hj Hm. rewrite (rows_read l s _ Throw H Hf); [reflexivity |]. intros [|fuel] Hk; [lia |]. cbn [Tables_model.readtable_loop].
    inversion Hj as [|b1 w1' ws1 s1 r1 Hb1 Hs1 Hj1]; subst. inversion Hj1; subst. destruct (number_first x w N) as (c & t & Ew & Hc & Hh).
    destruct (skip_to_word b1 c (t ++ mid) Hb1 Hc Hh) as (b' & Hb' & Es). replace (skip_comments (b1 ++ w ++ mid)%string) with (b' ++ w ++ mid)%string by (rewrite Ew; symmetry; exact Es).
    destruct (b' ++ w ++ mid)%string as [|d u] eqn:Eu; [apply app_nil_inv in Eu as [_ Eu]; rewrite Ew in Eu; discriminate |]. rewrite <- Eu.
    unfold read_one at 1. rewrite (number_scan x) by assumption. cbn [bind]. unfold read_one at 1. destruct Hm as [(b & c' & t' & -> & Hb & Hc' & Hs') | Hm].
    - rewrite skip_blank by assumption. cbn [skip_ws]. now rewrite Hc', Hs'.
    - now rewrite skip_all, scan_empty.
  Qed.

  Lemma rows_split l r s rest : rows_text (l ++ r) s rest -> exists mid, rows_text l s mid /\ rows_text r mid rest.
  Proof.
    revert s. induction l as [|[x y] l IH]; intros s H.
    - exists s. split; [apply (rt_end V scan "" s); constructor | exact H].
    - cbn in H. inversion H as [|f x0 y0 l0 w1 w2 s0 mid rest0 Hf N1 N2 Hj Hr]; subst. destruct (IH _ Hr) as (m & M1 & M2). exists m. split; [| assumption]. now apply (rt_row V scan f x y l w1 w2 s0 mid).
  Qed.
  Theorem B_not_finite l x y l' s rest : rows_text (l ++ (x, y) :: l') s rest -> Forall finite_pair l -> ~ finite_pair (x, y) -> readtable V scan finite s = Throw.
  Proof.
    intros H Hf Hn. apply rows_split in H as (mid & H1 & H2). rewrite (rows_read l s mid Throw H1 Hf); [reflexivity |]. intros [|fuel] Hk; [lia |].
    inversion H2 as [|f x0 y0 l0 w1 w2 s0 mid' rest0 Hfi N1 N2 Hj Hr]; subst. cbn [Tables_model.readtable_loop]. rewrite skip_filler_any by assumption.
    inversion Hj as [|b1 w1' ws1 s1 r1 Hb1 Hs1 Hj1]; subst. inversion Hj1 as [|b2 w2' ws2 s2 r2 Hb2 Hs2 Hj2]; subst. inversion Hj2; subst.
    destruct (number_first x w1 N1) as (c & t & Ew & Hc & Hh).
    destruct (skip_to_word b1 c (t ++ b2 ++ w2 ++ mid') Hb1 Hc Hh) as (b' & Hb' & Es).
    replace (skip_comments (b1 ++ w1 ++ b2 ++ w2 ++ mid')%string) with (b' ++ w1 ++ b2 ++ w2 ++ mid')%string by (rewrite Ew; symmetry; exact Es).
    destruct (b' ++ w1 ++ b2 ++ w2 ++ mid')%string as [|d u] eqn:Eu; [apply app_nil_inv in Eu as [_ Eu]; rewrite Ew in Eu; discriminate |]. rewrite <- Eu.
    unfold read_one at 1. rewrite (number_scan x) by assumption. cbn [bind]. unfold read_one at 1. rewrite (number_scan y) by assumption. cbn [bind].
    replace (finite x && finite y)%bool with false; [reflexivity |]. symmetry. apply not_true_iff_false. rewrite andb_true_iff. exact Hn.
  Qed.
  (** intavg needs two points. *)
  Theorem intavg_two l s rest : table_text l s rest -> Forall finite_pair l -> all_blank rest -> load_intavg V scan finite s = if Nat.ltb (List.length l) 2 then Throw else Ok l.
  Proof. intros H1 H2 H3. unfold load_intavg. now rewrite (A_complete l s rest). Qed.

  (** ** What was written is read *)
  Variable show : V -> string.
  Lemma concat_cons a l : String.concat "" (a :: l) = (a ++ String.concat "" l)%string.
  Proof. destruct l; cbn; [now rewrite app_nil_r | reflexivity]. Qed.
  Lemma write_cons x y l : writetable V show ((x, y) :: l) = (show x ++ String " " (show y ++ String newline (writetable V show l)))%string.
  Proof. unfold writetable. cbn [map]. rewrite concat_cons. cbn [fst snd append]. rewrite !app_ass. cbn [append]. rewrite !app_ass. reflexivity. Qed.
  Notation shown := (shown scan show).
  Lemma write_rows l : Forall shown l -> rows_text l (writetable V show l) "".
  Proof.
    assert (G : Forall shown l -> forall f, filler f -> rows_text l (f ++ writetable V show l)%string "").
    { induction 1 as [|[x y] l [H1 H2] H IH]; intros f Hf; [apply (rt_end V scan f ""); assumption |]. rewrite write_cons.
      apply (rt_row V scan f x y l (show x) (show y) _ (String newline (writetable V show l)) ""); auto.
      - apply (j_cons "" (show x) [show y]); [constructor | right; eexists _, _; split; reflexivity |]. apply (j_cons " " (show y) []); [repeat constructor | right; eexists _, _; split; reflexivity |]. constructor.
      - apply (IH (String newline "")). apply f_space; [cbn; tauto | constructor]. }
    intros H. apply (G H ""). constructor.
  Qed.
  Lemma write_table l : Forall shown l -> exists rest, table_text l (writetable V show l) rest /\ all_blank rest.
  Proof.
    assert (G : Forall shown l -> forall b, all_blank b -> exists ws rest, pair_words l ws /\ joined ws (b ++ writetable V show l)%string rest /\ all_blank rest).
    { induction 1 as [|[x y] l [H1 H2] H IH]; intros b Hb.
      - exists [], b. split; [constructor |]. cbn. rewrite app_nil_r. split; [constructor | assumption].
      - destruct (IH (String newline "") ltac:(repeat constructor)) as (ws & rest & W1 & W2 & W3). exists (show x :: show y :: ws), rest. split; [now constructor |]. split; [| assumption]. rewrite write_cons.
        apply (j_cons b (show x)); [assumption | right; eexists _, _; split; reflexivity |]. apply (j_cons " " (show y)); [repeat constructor | right; eexists _, _; split; reflexivity |]. exact W2. }
    intros H. destruct (G H "" ltac:(constructor)) as (ws & rest & H1 & H2 & H3). exists rest. split; [| assumption]. exists "", (writetable V show l), ws. repeat split; auto. constructor.
  Qed.
  Theorem written_read l : Forall shown l -> Forall finite_pair l -> readtable V scan finite (writetable V show l) = Ok l /\ read_pairs_A V scan finite (writetable V show l) = Ok l.
  Proof.
    intros H Hf. split; [apply (B_complete l _ "" (write_rows l H) Hf); now left |]. destruct (write_table l H) as (rest & H1 & H2). now apply (A_complete l _ rest).
  Qed.
End Pairs.
