(** C78: the scanner of the model makes the choices of flex (end). *)
From Coq Require Import List ZArith Bool Ascii String Lia.
From Verif Require Import Base Params_model Template_model Template_spec Template_lex Template_words Mtool_model Mtool_spec Mtool_lex Mtool_flex Mtool_flex_proofs Mtool_flex_read.
Import ListNotations.
Local Open Scope list_scope.

(** * Numbers *)
Definition x_int : rx := some_digits.
Lemma e_not_digit c : c = "e"%char \/ c = "E"%char -> isdigit c = false.
Proof. intros [->| ->]; reflexivity. Qed.
Lemma exponent_starts e E x r : x <> [] -> exponent_part e E x -> exists c t, x ++ r = c :: t /\ (c = e \/ c = E).
Proof. intros N [->|(c & sg & d & -> & Hc & _)]; [contradiction|]. exists c, ((sg ++ d) ++ r). auto. Qed.
Lemma number_chosen b s c t tk r : s = c :: t -> isdigit c || Ascii.eqb c "." = true -> scan_number s = (tk, r) ->
  exists i f w, s = w ++ r /\ chosen b s i (Give f) w /\ f w = tk /\ all_are not_newline w.
Proof.
  intros Es Hc H. unfold scan_number in H. destruct (span isdigit s) as [a r0] eqn:Sp. destruct (span_spec _ _ _ _ Sp) as (E0 & A & R0).
  assert (A' : all_are not_newline a) by (apply (are_weaken isdigit); auto; apply digit_flat).
  assert (Dig : forall u q, digits u -> s = u ++ q -> List.length u <= List.length a).
  { intros u q [_ U] E. apply (longest isdigit u q a r0); auto. congruence. }
  assert (One1 : forall u q, one_digit u -> s = u ++ q -> exists d x, u = d :: x /\ a = [d] /\ d <> "0"%char /\ x <> [] /\ exponent_part "e" "e" x /\ r0 = x ++ q).
  { intros u q (d & x & -> & Hd & Hz & Hx & Hp) E. destruct (exponent_starts _ _ x q Hx Hp) as (e & t' & Ee & He).
    assert (G : [d] = a /\ x ++ q = r0).
    { apply (exactly isdigit [d] (x ++ q) a r0 e t'); auto; [repeat constructor; auto|apply e_not_digit; tauto|]. rewrite <- E0, E. reflexivity. }
    destruct G as [<- <-]. exists d, x. repeat split; auto. }
  assert (Pt : forall u q, pointed u -> s = u ++ q -> exists b' x, u = a ++ "."%char :: b' ++ x /\ all_are isdigit b' /\ exponent_part "e" "E" x /\ r0 = "."%char :: b' ++ x ++ q).
  { intros u q (a' & b' & x & -> & Ha & Hb & Hx) E.
    assert (G : a' = a /\ "."%char :: b' ++ x ++ q = r0).
    { apply (exactly isdigit a' ("."%char :: b' ++ x ++ q) a r0 "."%char (b' ++ x ++ q)); auto. rewrite <- E0, E, <- app_assoc. cbn [app]. rewrite <- app_assoc. reflexivity. }
    destruct G as [-> <-]. exists b', x. repeat split; auto. }
  assert (Plain : (forall u q, pointed u -> s = u ++ q -> False) -> a <> [] ->
    match a with
    | [d] => if Ascii.eqb d "0" then (TInt a, r0) else
        let '(x, w) := exponent "e" "e" r0 in match x with [] => (TInt a, r0) | _ => (TNum (a ++ x), w) end
    | _ => (TInt a, r0)
    end = (tk, r) -> exists i f w, s = w ++ r /\ chosen b s i (Give f) w /\ f w = tk /\ all_are not_newline w).
  { intros NP Na P.
    assert (Int : (forall u q, one_digit u -> s = u ++ q -> False) -> (TInt a, r0) = (tk, r) ->
      exists i f w, s = w ++ r /\ chosen b s i (Give f) w /\ f w = tk /\ all_are not_newline w).
    { intros NO X. injection X as <- <-. exists 9, TInt, a. split; auto. split; [|auto]. rewrite E0.
      apply (make_chosen b a r0 9 false some_digits); auto; try discriminate; [apply lang_digits; split; auto|].
      intros j u q S E. rewrite <- E0 in E. rewrite Es in E. destruct (shape_number b j u q c t S (eq_sym E) Hc) as [[J D]|[[J D]|[[J D]|[J ->]]]]; rewrite <- Es in E.
      - assert (G := Dig u q D E). lia.
      - destruct (NO u q D E).
      - destruct (NP u q D E).
      - destruct a as [|? [|]]; [contradiction|right; cbn; lia|left; cbn; lia]. }
    destruct a as [|d [|d2 a2]]; [contradiction| |].
    - destruct (Ascii.eqb d "0") eqn:Z.
      + apply Int; auto. intros u q D E. destruct (One1 u q D E) as (d' & x & -> & Ed & Nz & _). injection Ed as <-. apply Ascii.eqb_eq in Z. contradiction.
      + destruct (exponent "e" "e" r0) as [x w] eqn:X. destruct (exponent_sound _ _ _ _ _ X) as [X1 X2]. destruct x as [|x0 x].
        * apply Int; auto. intros u q D E. destruct (One1 u q D E) as (d' & x' & -> & Ed & Nz & Nx & Hx & Er).
          assert (L := exponent_longest _ _ _ _ _ x' q X Er Hx). destruct x'; [contradiction|cbn in L; lia].
        * injection P as <- <-. exists 10, TNum, ([d] ++ x0 :: x). split; [rewrite E0, X1; reflexivity|].
          assert (Dd : isdigit d = true) by (inversion A; auto).
          assert (Od : one_digit ([d] ++ x0 :: x)). { exists d, (x0 :: x). repeat split; auto; try discriminate. apply Ascii.eqb_neq. auto. }
          split; [|split; [reflexivity|]].
          { rewrite E0, X1, app_assoc. apply (make_chosen b _ w 10 false rx_one); auto; try discriminate; [apply lang_one; auto|].
            intros j u q S E. rewrite <- app_assoc, <- X1, <- E0, Es in E. destruct (shape_number b j u q c t S (eq_sym E) Hc) as [[J D]|[[J D]|[[J D]|[J ->]]]]; rewrite <- Es in E.
            - assert (G := Dig u q D E). left. cbn [List.length app] in *. lia.
            - destruct (One1 u q D E) as (d' & x' & -> & Ed & Nz & Nx & Hx & Er).
              assert (L := exponent_longest _ _ _ _ _ x' q X Er Hx). cbn [List.length app] in *. lia.
            - destruct (NP u q D E).
            - left. cbn [List.length app] in *. lia. }
          { apply Forall_app. split; auto. apply (exponent_flat "e" "e"); auto. }
    - apply Int; auto. intros u q D E. destruct (One1 u q D E) as (d' & x & -> & Ed & _). discriminate. }
  destruct r0 as [|p u0].
  - apply Plain; auto.
    + intros u q D E. destruct (Pt u q D E) as (b' & x & _ & _ & _ & X). discriminate.
    + intros ->. rewrite app_nil_l in E0. congruence.
  - destruct (Ascii.eqb p ".") eqn:Hp.
    + apply Ascii.eqb_eq in Hp. subst p. destruct (span isdigit u0) as [b1 v] eqn:Sp1. destruct (span_spec _ _ _ _ Sp1) as (E1 & B1 & R1).
      destruct (exponent "e" "E" v) as [x w] eqn:X. destruct (exponent_sound _ _ _ _ _ X) as [X1 X2]. injection H as <- <-.
      exists 11, TNum, (a ++ "."%char :: b1 ++ x). assert (Es' : s = (a ++ "."%char :: b1 ++ x) ++ w) by (rewrite E0, E1, X1, <- app_assoc; cbn [app]; rewrite <- app_assoc; reflexivity).
      split; auto. split; [|split; [reflexivity|]].
      { rewrite Es' at 1. apply (make_chosen b _ w 11 false rx_number); auto; try discriminate; [destruct a; discriminate|apply lang_number; right; exists a, b1, x; auto|].
        intros j u q S E. rewrite <- Es', Es in E. destruct (shape_number b j u q c t S (eq_sym E) Hc) as [[J D]|[[J D]|[[J D]|[J ->]]]]; rewrite <- Es in E.
        - assert (G := Dig u q D E). left. rewrite !app_length. cbn [List.length]. lia.
        - destruct (One1 u q D E) as (d' & x' & -> & Ed & Nz & Nx & Hx & Er). destruct (exponent_starts _ _ x' q Nx Hx) as (e & t' & Ee & He).
          rewrite Ee in Er. injection Er as <- _. destruct He; discriminate.
        - destruct (Pt u q D E) as (b' & x' & -> & Hb & Hx & Er). injection Er as Er.
          assert (L : List.length (b' ++ x') <= List.length (b1 ++ x)).
          { destruct x' as [|e0 x'].
            - rewrite app_nil_r, app_length. assert (G := longest isdigit b' ([] ++ q) b1 v Hb). rewrite <- E1 in G. specialize (G (eq_sym Er) R1). lia.
            - destruct (exponent_starts _ _ (e0 :: x') q ltac:(discriminate) Hx) as (e & t' & Ee & He).
              assert (G : b' = b1 /\ (e0 :: x') ++ q = v).
              { apply (exactly isdigit b' ((e0 :: x') ++ q) b1 v e t'); auto; [apply e_not_digit; auto|congruence]. }
              destruct G as [-> <-]. assert (L := exponent_longest _ _ _ _ _ (e0 :: x') q X eq_refl Hx). rewrite !app_length. lia. }
          rewrite !(app_length a). cbn [List.length]. lia.
        - rewrite app_length. cbn [List.length]. lia. }
      { apply Forall_app. split; auto. constructor; [reflexivity|]. apply Forall_app. split; [apply (are_weaken isdigit); auto; apply digit_flat|apply (exponent_flat "e" "E"); auto]. }
    + apply Plain; auto.
      * intros u q D E. destruct (Pt u q D E) as (b' & x & _ & _ & _ & Y). injection Y as -> _. discriminate.
      * intros ->. cbn [app] in E0. rewrite Es in E0. injection E0 as -> _. rewrite Hp, orb_false_r in Hc. rewrite (R0 p u0 eq_refl) in Hc. discriminate.
Qed.

(** * Words *)
Definition deed_of (w : text) : nat * deed :=
  if text_eqb w (str "gammaPolCh") then (1, Give (fun _ => TKey KGamma)) else if text_eqb w (str "coefxi") then (2, Give (fun _ => TKey KXi)) else
  if text_eqb w (str "coefzeta") then (3, Give (fun _ => TKey KZeta)) else if text_eqb w (str "coefdelta") then (4, Give (fun _ => TKey KDelta)) else
  if text_eqb w (str "coefkappa") then (5, Give (fun _ => TKey KKappa)) else if text_eqb w (str "coefV") then (6, Give (fun _ => TKey KV)) else
  if text_eqb w (str "parse") then (7, Halt TInclude) else (15, Give TName).
Lemma deed_word w k : w <> str "parse" -> perform (snd (deed_of w)) w k = ([word w], Some k).
Proof.
  intros N. unfold deed_of, word. rewrite (proj2 (text_eqb_neq _ _) N).
  repeat match goal with |- context [if text_eqb w ?x then _ else _] => destruct (text_eqb w x); [reflexivity|] end. reflexivity.
Qed.
Lemma deed_rule w : name_text w -> exists x, nth_error rules (fst (deed_of w)) = Some (false, x, snd (deed_of w)) /\ lang x w.
Proof.
  intros N. unfold deed_of.
  repeat match goal with |- context [if text_eqb w ?x then _ else _] => let H := fresh in destruct (text_eqb w x) eqn:H; [apply text_eqb_eq in H; eexists; split; [reflexivity|exact H]|] end.
  eexists. split; [reflexivity|]. apply lang_name, N.
Qed.
Lemma deed_first w i : nth_error words i = Some w -> fst (deed_of w) <= S i.
Proof.
  intros H. assert (I7 : i < 7) by (apply (proj1 (nth_error_Some words i)); congruence).
  do 7 (destruct i as [|i]; [cbn in H; injection H as <-; vm_compute; lia|]). lia.
Qed.
Lemma deed_least w : fst (deed_of w) <= 15.
Proof. unfold deed_of. repeat match goal with |- context [if ?x then _ else _] => destruct x end; cbn; lia. Qed.
Lemma word_chosen b c t w r : isalpha c = true -> c :: t = w ++ r -> name_text w -> (forall c t, r = c :: t -> idchar c = false) -> text_follows r = false ->
  chosen b (w ++ r) (fst (deed_of w)) (snd (deed_of w)) w.
Proof.
  intros A E N R F. destruct (deed_rule w N) as (x & X1 & X2). assert (Nw : w <> []) by (destruct N as (? & ? & -> & _); discriminate).
  apply (make_chosen b w r (fst (deed_of w)) false x); auto; [discriminate|].
  assert (Lw : forall u q, name_text u -> w ++ r = u ++ q -> List.length u <= List.length w).
  { intros u q U Eu. apply (longest idchar u q w r); auto. apply name_id; auto. }
  intros j u q S Eu. rewrite <- E in Eu. destruct (shape_alpha b j u q c t S (eq_sym Eu) A) as [(i & -> & Hi)|[(-> & n & d & v & -> & Hn & Hd & Hv)|[[-> Hu]|[-> ->]]]]; rewrite E in Eu.
  - assert (G := Lw u q (words_name _ _ Hi) Eu). destruct (Nat.eq_dec (List.length u) (List.length w)) as [L|L]; [|lia].
    destruct (app_same_length w r u q Eu (eq_sym L)) as [-> _]. right. split; auto. apply deed_first; auto.
  - rewrite <- app_assoc in Eu. cbn [app] in Eu. assert (G : n = w /\ "="%char :: d :: v ++ q = r).
    { apply (exactly idchar n ("="%char :: d :: v ++ q) w r "="%char (d :: v ++ q)); auto using name_id. }
    destruct G as [_ <-]. cbn [text_follows] in F. rewrite Ascii.eqb_refl, Hd in F. discriminate.
  - assert (G := Lw u q Hu Eu). assert (G2 := deed_least w). lia.
  - assert (G2 := deed_least w). destruct w; [contradiction|cbn; lia].
Qed.
Lemma text_chosen b c t w e d r : isalpha c = true -> c :: t = w ++ e :: d :: r -> name_text w -> Ascii.eqb e "=" && isalpha d = true ->
  exists v, e :: d :: r = v ++ drop_line (e :: d :: r) /\ chosen b (w ++ e :: d :: r) 14 Ignore (w ++ v) /\ all_are not_newline (w ++ v).
Proof.
  intros A E N H. apply andb_prop in H. destruct H as [He Hd]. apply Ascii.eqb_eq in He. subst e.
  assert (Dn : Ascii.eqb d newline = false) by (apply (alpha_facts d Hd)).
  destruct (drop_line_spec r) as (v & Er & V & D). assert (DL : drop_line ("="%char :: d :: r) = drop_line r) by (cbn [drop_line]; rewrite Dn; reflexivity).
  exists ("="%char :: d :: v). rewrite DL. split; [cbn [app]; congruence|]. split.
  - assert (Ea : w ++ "="%char :: d :: r = (w ++ "="%char :: d :: v) ++ drop_line r) by (rewrite <- app_assoc; cbn [app]; congruence).
    rewrite Ea. assert (Nw : w ++ "="%char :: d :: v <> []) by (destruct w; discriminate).
    refine (make_chosen b _ _ 14 false _ Ignore Nw eq_refl _ _ _); [discriminate| |].
    { exists w, ("="%char :: d :: v). split; [reflexivity|]. split; [apply lang_name; auto|]. exists ["="%char], (d :: v). split; [reflexivity|]. split; [reflexivity|].
      exists [d], v. split; [reflexivity|]. split; [exists d; auto|exact V]. }
    intros j u q S Eu. rewrite <- Ea, <- E in Eu.
    assert (Lw : forall u q, name_text u -> w ++ "="%char :: d :: r = u ++ q -> List.length u <= List.length w).
    { intros u' q' U Eu'. apply (longest idchar u' q' w ("="%char :: d :: r)); auto; [apply name_id; auto|]. intros c' t' X. injection X as <- _. reflexivity. }
    rewrite app_length. cbn [List.length].
    destruct (shape_alpha b j u q c t S (eq_sym Eu) A) as [(i & -> & Hi)|[(-> & n & d' & v' & -> & Hn & Hd' & Hv)|[[-> Hu]|[-> ->]]]]; rewrite E in Eu.
    + assert (G := Lw u q (words_name _ _ Hi) Eu). lia.
    + rewrite <- app_assoc in Eu. cbn [app] in Eu. assert (G : n = w /\ "="%char :: d' :: v' ++ q = "="%char :: d :: r).
      { apply (exactly idchar n ("="%char :: d' :: v' ++ q) w ("="%char :: d :: r) "="%char (d' :: v' ++ q)); auto using name_id. intros c' t' X. injection X as <- _. reflexivity. }
      destruct G as [-> G]. injection G as -> G. assert (L := longest not_newline v' q v (drop_line r) Hv). rewrite G in L. specialize (L Er D).
      rewrite app_length. cbn [List.length]. lia.
    + assert (G := Lw u q Hu Eu). lia.
    + destruct w; [destruct N as (? & ? & ? & _); discriminate|]. cbn. lia.
  - apply Forall_app. split; [apply (are_weaken idchar); [apply id_flat|apply name_id; auto]|]. constructor; [reflexivity|]. constructor; auto.
    unfold not_newline. rewrite Dn. reflexivity.
Qed.

(** * Brackets *)
Lemma section_some t r : section_rest t = Some r -> exists n, name_text n /\ t = n ++ "]"%char :: r.
Proof.
  unfold section_rest. destruct t as [|c t]; [discriminate|]. destruct (isalpha c) eqn:A; [|discriminate].
  destruct (span idchar (c :: t)) as [n q] eqn:Sp. destruct (span_spec _ _ _ _ Sp) as (E & N & _). destruct q as [|d q]; [discriminate|].
  destruct (Ascii.eqb d "]") eqn:D; [|discriminate]. apply Ascii.eqb_eq in D. subst d. intros X. injection X as ->. exists n.
  destruct n as [|n0 n]; cbn [app] in E; [injection E as -> _; discriminate|]. injection E as <- E. split; [|cbn [app]; congruence]. exists c, n. repeat split; auto. inversion N; auto.
Qed.
Lemma section_name n r : name_text n -> section_rest (n ++ "]"%char :: r) = Some r.
Proof.
  intros N. assert (Sp := span_name n ("]"%char :: r) N). destruct N as (c & t & -> & Hc & Ht). unfold section_rest. cbn [app] in *. rewrite Hc, Sp; [reflexivity|].
  intros c' t' X. injection X as <- _. reflexivity.
Qed.

(** * Every text *)
Lemma lex_scanned n : forall b k s, List.length s < n -> scanned b k s (lex n b k s).
Proof.
  induction n as [|n IH]; [lia|]. intros b k s Hn. destruct s as [|c t]; [constructor|]. cbn [List.length] in Hn.
  assert (One1 : isalpha c = false -> isdigit c || Ascii.eqb c "." = false -> c <> "["%char -> b && Ascii.eqb c "#" = false ->
    forall i x a d, i = place b c -> nth_error rules i = Some (a, x, d) -> (a = true -> b = true) -> lang x [c] -> chosen b ([c] ++ t) i d [c]).
  { intros A D B H i x a d I R An L. apply (make_chosen b [c] t i a x d); auto; [discriminate|]. apply single_best; auto. }
  assert (More : forall i d ts k' ts', chosen b ([c] ++ t) i d [c] -> perform d [c] k = (ts, Some k') -> scanned (at_line_start [c]) k' t ts' -> scanned b k (c :: t) (ts ++ ts')).
  { intros i d ts k' ts' C P S. exact (Sc_more b k i d [c] t ts k' ts' C P S). }
  assert (Stop : forall i d ts, chosen b ([c] ++ t) i d [c] -> perform d [c] k = (ts, None) -> scanned b k (c :: t) ts).
  { intros i d ts C P. exact (Sc_stop b k i d [c] t ts C P). }
  assert (Lt : List.length t < n) by lia.
  cbn [lex]. destruct (Ascii.eqb c newline) eqn:Hnl.
  { apply Ascii.eqb_eq in Hnl. subst c. assert (C : chosen b ([newline] ++ t) 19 Line [newline]).
    { apply (One1 eq_refl eq_refl ltac:(discriminate) ltac:(destruct b; reflexivity) 19 (Word [newline]) false Line); auto; try discriminate; reflexivity. }
    destruct k as [|k].
    - apply (More 19 Line [TCh newline] 0 _ C eq_refl). apply IH. auto.
    - apply (More 19 Line [] (S k) _ C eq_refl). apply IH. auto. }
  destruct (b && Ascii.eqb c "#") eqn:Hc.
  { apply andb_prop in Hc. destruct Hc as [Hb Hc]. apply Ascii.eqb_eq in Hc. subst c b. clear One1 More Stop.
    destruct (drop_line_spec t) as (v & E & V & D).
    assert (Ea : "#"%char :: t = ("#"%char :: v) ++ drop_line t) by (cbn [app]; congruence).
    assert (C : chosen true (("#"%char :: v) ++ drop_line t) 0 Ignore ("#"%char :: v)).
    { refine (make_chosen true _ _ 0 true _ Ignore _ eq_refl _ _ _); auto; [discriminate| |].
      - exists ["#"%char], v. repeat split; auto.
      - intros j u q S Eu. rewrite <- Ea in Eu. destruct (shape_comment true j u q t S (eq_sym Eu)) as [[-> (v' & V' & ->)]|[-> ->]].
        + cbn [app] in Eu. injection Eu as Eu. assert (L := longest not_newline v' q v (drop_line t) V'). rewrite <- Eu in L. specialize (L E D). cbn [List.length]. lia.
        + cbn [List.length]. lia. }
    rewrite Ea. apply (Sc_more true k 0 Ignore _ _ [] k _ C eq_refl). rewrite flat_start by (constructor; auto). apply IH.
    assert (G := f_equal (@List.length ascii) E). rewrite app_length in G. lia. }
  destruct (b && Ascii.eqb c "!") eqn:Hx.
  { apply andb_prop in Hx. destruct Hx as [Hb Hx]. apply Ascii.eqb_eq in Hx. subst c b.
    apply (Stop 8 (Halt TShell)); [|reflexivity]. apply (One1 eq_refl eq_refl ltac:(discriminate) eq_refl 8 (Word (str "!")) true); auto; reflexivity. }
  assert (Fl : at_line_start [c] = false) by exact Hnl.
  destruct (blank c) eqn:Hbl.
  { assert (C : chosen b ([c] ++ t) 12 Ignore [c]).
    { apply (One1) with (x := One (oneof [" "; "009"]%char)) (a := false); auto; try discriminate.
      - clear - Hbl. all_chars c; try discriminate Hbl; reflexivity.
      - clear - Hbl. all_chars c; try discriminate Hbl; reflexivity.
      - intros ->. discriminate.
      - unfold place. rewrite Hnl, Hx, Hbl. reflexivity.
      - exists c. split; auto. unfold oneof. cbn [existsb]. rewrite orb_false_r. exact Hbl. }
    apply (More 12 Ignore [] k _ C eq_refl). rewrite Fl. apply IH. auto. }
  destruct (isalpha c) eqn:Hal.
  { clear One1 More Stop. destruct (span idchar (c :: t)) as [w r] eqn:Sp. destruct (span_spec _ _ _ _ Sp) as (E & W & R).
    assert (N : name_text w).
    { destruct w as [|c' w]; cbn [app] in E.
      - assert (G := R c t (eq_sym E)). destruct (alpha_facts c Hal) as (_ & _ & _ & _ & _ & _ & X & _). congruence.
      - injection E as <- _. exists c, w. repeat split; auto. inversion W; auto. }
    assert (Lr : List.length r < n).
    { assert (G := f_equal (@List.length ascii) E). cbn [List.length] in G. rewrite app_length in G. destruct w; [destruct N as (? & ? & ? & _); discriminate|]. cbn [List.length] in G. lia. }
    destruct (text_follows r) eqn:T.
    - unfold text_follows in T. destruct r as [|e [|d r]]; try discriminate. destruct (text_chosen b c t w e d r Hal E N T) as (v & Ev & C & V).
      rewrite E, Ev at 1. rewrite app_assoc. rewrite Ev in C at 1. rewrite app_assoc in C. apply (Sc_more b k 14 Ignore (w ++ v) _ [] k _ C eq_refl). rewrite (flat_start _ V). apply IH.
      assert (G := f_equal (@List.length ascii) Ev). rewrite app_length in G. lia.
    - assert (C := word_chosen b c t w r Hal E N R T). rewrite E. destruct (text_eqb w (str "parse")) eqn:P.
      + apply text_eqb_eq in P. subst w. apply (Sc_stop b k 7 (Halt TInclude) _ r _ C eq_refl).
      + apply text_eqb_neq in P. apply (Sc_more b k _ _ w r [word w] k _ C (deed_word w k P)).
        rewrite flat_start by (apply (are_weaken idchar); [apply id_flat|apply name_id; auto]). apply IH; auto. }
  destruct (isdigit c || Ascii.eqb c ".") eqn:Hd.
  { clear One1 More Stop. destruct (scan_number (c :: t)) as [tk r] eqn:Sn. destruct (number_chosen b (c :: t) c t tk r eq_refl Hd Sn) as (i & f & w & E & C & F & W).
    assert (Nw := proj1 C). rewrite E in C. rewrite E. apply (Sc_more b k i (Give f) w r [tk] k _ C); [cbn; rewrite F; reflexivity|]. rewrite (flat_start _ W). apply IH.
    assert (G := f_equal (@List.length ascii) E). cbn [List.length] in G. rewrite app_length in G. destruct w; [contradiction|]. cbn [List.length] in G. lia. }
  destruct (Ascii.eqb c "[") eqn:Hbr.
  { apply Ascii.eqb_eq in Hbr. subst c. clear One1. destruct (section_rest t) as [r|] eqn:Se.
    - destruct (section_some _ _ Se) as (m & Hm & ->). clear More Stop.
      assert (Ea : "["%char :: m ++ "]"%char :: r = ("["%char :: m ++ ["]"%char]) ++ r) by (cbn [app]; rewrite <- app_assoc; reflexivity).
      assert (C : chosen b (("["%char :: m ++ ["]"%char]) ++ r) 13 Ignore ("["%char :: m ++ ["]"%char])).
      { refine (make_chosen b _ _ 13 false _ Ignore _ eq_refl _ _ _); try discriminate.
        - exists ["["%char], (m ++ ["]"%char]). split; [reflexivity|]. split; [reflexivity|]. exists m, ["]"%char]. split; [reflexivity|]. split; [apply lang_name; auto|reflexivity].
        - intros j u q S Eu. rewrite <- Ea in Eu. destruct (shape_bracket b j u q _ S (eq_sym Eu)) as [[-> (m' & Hm' & ->)]|[-> ->]].
          + cbn [app] in Eu. injection Eu as Eu. rewrite <- app_assoc in Eu. cbn [app] in Eu.
            assert (G : m' = m /\ "]"%char :: q = "]"%char :: r).
            { apply (exactly idchar m' ("]"%char :: q) m ("]"%char :: r) "]"%char q); auto using name_id. intros c' t' X. injection X as <- _. reflexivity. }
            destruct G as [-> _]. right. auto.
          + cbn [List.length]. rewrite app_length. cbn [List.length]. lia. }
      rewrite Ea. apply (Sc_more b k 13 Ignore _ r [] k _ C eq_refl). rewrite flat_start.
      + apply IH. rewrite app_length in Lt. cbn [List.length] in Lt. lia.
      + constructor; [reflexivity|]. apply Forall_app. split; [apply (are_weaken idchar); [apply id_flat|apply name_id; auto]|repeat constructor].
    - assert (C : chosen b (["["%char] ++ t) 20 (Give first_char) ["["%char]).
      { refine (make_chosen b _ _ 20 false _ (Give first_char) _ eq_refl _ _ _); try discriminate; [exists "["%char; auto|].
        intros j u q S Eu. cbn [app] in Eu. destruct (shape_bracket b j u q t S (eq_sym Eu)) as [[-> (m' & Hm' & ->)]|[-> ->]]; [|right; auto].
        cbn [app] in Eu. injection Eu as Eu. rewrite <- app_assoc in Eu. cbn [app] in Eu. rewrite Eu, (section_name _ _ Hm') in Se. discriminate. }
      apply (More 20 (Give first_char) [TCh "["] k _ C eq_refl). rewrite Fl. apply IH. auto. }
  assert (Nb : c <> "["%char) by (apply Ascii.eqb_neq; auto).
  destruct (Ascii.eqb c "$") eqn:H1.
  { apply (Stop 16 (Halt TEnd)); [|reflexivity]. apply (One1 eq_refl eq_refl Nb eq_refl 16 (Word (str "$")) false); auto; try discriminate.
    - unfold place. rewrite Hnl, Hx, Hbl, H1. reflexivity.
    - apply Ascii.eqb_eq in H1. subst c. reflexivity. }
  destruct (Ascii.eqb c "{") eqn:H2.
  { assert (C : chosen b ([c] ++ t) 17 Brace [c]).
    { apply (One1 eq_refl eq_refl Nb eq_refl 17 (Word (str "{")) false); auto; try discriminate.
      - unfold place. rewrite Hnl, Hx, Hbl, H1, H2. reflexivity.
      - apply Ascii.eqb_eq in H2. subst c. reflexivity. }
    apply (More 17 Brace [TCh c] (S k) _ C eq_refl). rewrite Fl. apply IH. auto. }
  destruct (Ascii.eqb c "}") eqn:H3.
  { assert (C : chosen b ([c] ++ t) 18 Unbrace [c]).
    { apply (One1 eq_refl eq_refl Nb eq_refl 18 (Word (str "}")) false); auto; try discriminate.
      - unfold place. rewrite Hnl, Hx, Hbl, H1, H2, H3. reflexivity.
      - apply Ascii.eqb_eq in H3. subst c. reflexivity. }
    destruct k as [|k]; [apply (Stop 18 Unbrace _ C eq_refl)|]. apply (More 18 Unbrace [TCh c] k _ C eq_refl). rewrite Fl. apply IH. auto. }
  assert (C : chosen b ([c] ++ t) 20 (Give first_char) [c]).
  { apply (One1 eq_refl eq_refl Nb eq_refl 20 (One not_newline) false); auto; try discriminate.
    - unfold place. rewrite Hnl, Hx, Hbl, H1, H2, H3. reflexivity.
    - exists c. split; auto. unfold not_newline. rewrite Hnl. reflexivity. }
  apply (More 20 (Give first_char) [TCh c] k _ C eq_refl). rewrite Fl. apply IH. auto.
Qed.
Theorem tokens_flex s ts : scanned true 0 s ts <-> ts = tokens s.
Proof.
  split.
  - intros H. apply (scanned_unique true 0 s ts H). apply lex_scanned. auto.
  - intros ->. apply lex_scanned. auto.
Qed.
