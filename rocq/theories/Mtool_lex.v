(** C78: the scanner on the text of an expression. *)
From Coq Require Import List ZArith Bool Ascii String Lia.
From Verif Require Import Base Params_model Template_model Template_spec Template_lex Template_words Mtool_model Mtool_spec.
Import ListNotations.
Local Open Scope list_scope.

Ltac all_chars c := destruct c as [[] [] [] [] [] [] [] []].
Lemma alpha_facts c : isalpha c = true -> Ascii.eqb c newline = false /\ Ascii.eqb c "#" = false /\ Ascii.eqb c "!" = false /\ blank c = false /\
  isdigit c = false /\ Ascii.eqb c "." = false /\ idchar c = true /\ Ascii.eqb c "[" = false /\ Ascii.eqb c "]" = false.
Proof. all_chars c; intros H; try discriminate H; repeat split; reflexivity. Qed.
Lemma number_facts c : isdigit c || Ascii.eqb c "." = true -> Ascii.eqb c newline = false /\ Ascii.eqb c "#" = false /\ Ascii.eqb c "!" = false /\
  blank c = false /\ isalpha c = false.
Proof. all_chars c; intros H; try discriminate H; repeat split; reflexivity. Qed.

(** Characters that may follow an expression. *)
Definition delims : list ascii := ["+"; "-"; "*"; "/"; ")"; "]"; ","; "}"; newline]%char.
Definition delim (r : text) : Prop := exists c t, r = c :: t /\ In c delims.
Lemma delim_facts c : In c delims -> idchar c = false /\ isdigit c = false /\ Ascii.eqb c "." = false /\ Ascii.eqb c "=" = false /\
  Ascii.eqb c "e" = false /\ Ascii.eqb c "E" = false.
Proof. unfold delims. cbn [In]. intros H. repeat destruct H as [<-|H]; try contradiction; repeat split; reflexivity. Qed.
Lemma delim_cons c t : In c delims -> delim (c :: t).
Proof. intros H. exists c, t. auto. Qed.

(** [LX b k s ts b' k' r]: from s the scanner gives the tokens ts and goes on with r. *)
Definition LX (b : bool) (k : nat) (s : text) (ts : list tok) (b' : bool) (k' : nat) (r : text) : Prop :=
  forall n, List.length s < n -> exists m, List.length r < m /\ lex n b k s = ts ++ lex m b' k' r.
Lemma LX_nil b k s : LX b k s [] b k s.
Proof. intros n H. exists n. auto. Qed.
Lemma LX_app b k s ts b1 k1 r ts1 b2 k2 q : LX b k s ts b1 k1 r -> LX b1 k1 r ts1 b2 k2 q -> LX b k s (ts ++ ts1) b2 k2 q.
Proof. intros H G n Hn. destruct (H n Hn) as (m & Hm & ->). destruct (G m Hm) as (p & Hp & ->). exists p. rewrite app_assoc. auto. Qed.
Lemma LX_cons b k s t b1 k1 r ts1 b2 k2 q : LX b k s [t] b1 k1 r -> LX b1 k1 r ts1 b2 k2 q -> LX b k s (t :: ts1) b2 k2 q.
Proof. apply (LX_app b k s [t]). Qed.
Lemma LX_skip b k s b1 k1 r ts1 b2 k2 q : LX b k s [] b1 k1 r -> LX b1 k1 r ts1 b2 k2 q -> LX b k s ts1 b2 k2 q.
Proof. apply (LX_app b k s []). Qed.

(** Single characters. *)
Definition simple (c : ascii) : Prop := In c ["+"; "-"; "*"; "/"; "("; ")"; "]"; ","; "="]%char.
Lemma LX_char b k c r : simple c -> LX b k (c :: r) [TCh c] false k r.
Proof.
  intros H n Hn. destruct n as [|n]; [cbn in Hn; lia|]. exists n. split; [cbn [List.length] in Hn; lia|].
  unfold simple in H. cbn [In] in H. repeat destruct H as [<-|H]; try contradiction; destruct b; reflexivity.
Qed.
Lemma LX_open b k r : LX b k ("{"%char :: r) [TCh "{"] false (S k) r.
Proof. intros n Hn. destruct n as [|n]; [cbn in Hn; lia|]. exists n. split; [cbn [List.length] in Hn; lia|]. destruct b; reflexivity. Qed.
Lemma LX_close b k r : LX b (S k) ("}"%char :: r) [TCh "}"] false k r.
Proof. intros n Hn. destruct n as [|n]; [cbn in Hn; lia|]. exists n. split; [cbn [List.length] in Hn; lia|]. destruct b; reflexivity. Qed.
Lemma LX_newline b r : LX b 0 (newline :: r) [TCh newline] true 0 r.
Proof. intros n Hn. destruct n as [|n]; [cbn in Hn; lia|]. exists n. split; [cbn [List.length] in Hn; lia|]. reflexivity. Qed.
Lemma LX_newline_in b k r : LX b (S k) (newline :: r) [] true (S k) r.
Proof. intros n Hn. destruct n as [|n]; [cbn in Hn; lia|]. exists n. split; [cbn [List.length] in Hn; lia|]. reflexivity. Qed.
Lemma LX_blank b k c r : c = " "%char \/ c = "009"%char -> LX b k (c :: r) [] false k r.
Proof. intros H n Hn. destruct n as [|n]; [cbn in Hn; lia|]. exists n. split; [cbn [List.length] in Hn; lia|]. destruct H as [->| ->]; destruct b; reflexivity. Qed.
Lemma LX_bracket b k r : section_rest r = None -> LX b k ("["%char :: r) [TCh "["] false k r.
Proof.
  intros H n Hn. destruct n as [|n]; [cbn in Hn; lia|]. exists n. split; [cbn [List.length] in Hn; lia|].
  cbn [lex app]. change (Ascii.eqb "[" newline) with false. change (Ascii.eqb "[" "#") with false. change (Ascii.eqb "[" "!") with false.
  rewrite !andb_false_r. change (blank "[") with false. change (isalpha "[") with false. change (isdigit "[" || Ascii.eqb "[" ".") with false.
  change (Ascii.eqb "[" "[") with true. cbn iota. rewrite H. reflexivity.
Qed.

Lemma not_idchar_rest r : (r = [] \/ exists c t, r = c :: t /\ idchar c = false) -> forall c t, r = c :: t -> idchar c = false.
Proof. intros [->|(c & t & -> & H)] c' t' E; [discriminate|]. injection E as <- <-. auto. Qed.
Lemma span_name w r : name_text w -> (forall c t, r = c :: t -> idchar c = false) -> span idchar (w ++ r) = (w, r).
Proof.
  intros (c & t & -> & Hc & Ht) H. apply span_app; auto. constructor; auto. destruct (alpha_facts c Hc) as (_ & _ & _ & _ & _ & _ & G & _). auto.
Qed.
Lemma LX_word b k w r : name_text w -> (forall c t, r = c :: t -> idchar c = false) -> text_follows r = false -> w <> str "parse" ->
  LX b k (w ++ r) [word w] false k r.
Proof.
  intros Hw Hr Hf Hp n Hn. destruct n as [|n]; [lia|]. assert (S1 := span_name w r Hw Hr). destruct Hw as (c & t & -> & Hc & Ht).
  exists n. split; [cbn [app List.length] in Hn; rewrite app_length in Hn; lia|].
  destruct (alpha_facts c Hc) as (F1 & F2 & F3 & F4 & F5 & F6 & F7 & F8 & F9).
  cbn [app] in *. cbn [lex]. rewrite F1, F2, F3, !andb_false_r, F4, Hc, S1, Hf. cbn iota. rewrite (proj2 (text_eqb_neq _ _) Hp). reflexivity.
Qed.

(** Numbers. *)
Lemma exponent_none e E r : (forall c t, r = c :: t -> Ascii.eqb c e = false /\ Ascii.eqb c E = false) -> exponent e E r = ([], r).
Proof. intros H. destruct r as [|c t]; auto. cbn [exponent]. destruct (H c t eq_refl) as [-> ->]. reflexivity. Qed.
Lemma exponent_some e E x r : x <> [] -> exponent_part e E x -> (forall c t, r = c :: t -> isdigit c = false) -> exponent e E (x ++ r) = (x, r).
Proof.
  intros Hx [->|(c & s & d & -> & Hc & Hs & Hd & Hdd)] Hr; [contradiction|]. cbn [app exponent].
  assert (Ascii.eqb c e || Ascii.eqb c E = true) as -> by (destruct Hc as [->| ->]; rewrite Ascii.eqb_refl; auto; apply orb_true_r).
  rewrite <- app_assoc. destruct d as [|d0 d1]; [contradiction|].
  assert (Sp : span isdigit ((d0 :: d1) ++ r) = (d0 :: d1, r)) by (apply span_app; auto).
  assert (D0 : isdigit d0 = true) by (inversion Hdd; auto).
  destruct Hs as [->|[->| ->]]; cbn [app] in *.
  - assert (Ascii.eqb d0 "+" || Ascii.eqb d0 "-" = false) as -> by (clear - D0; all_chars d0; try discriminate D0; reflexivity). rewrite Sp. reflexivity.
  - change (Ascii.eqb "+" "+" || Ascii.eqb "+" "-") with true. cbn iota. rewrite Sp. reflexivity.
  - change (Ascii.eqb "-" "+" || Ascii.eqb "-" "-") with true. cbn iota. rewrite Sp. reflexivity.
Qed.
Definition ends (r : text) : Prop := forall c t, r = c :: t -> isdigit c = false /\ Ascii.eqb c "." = false /\ Ascii.eqb c "e" = false /\ Ascii.eqb c "E" = false.
Lemma delim_ends r : delim r -> ends r.
Proof. intros (c & t & -> & H) c' t' E. injection E as <- <-. destruct (delim_facts c H) as (? & ? & ? & ? & ? & ?). auto. Qed.
Lemma scan_digits w r : digits w -> ends r -> scan_number (w ++ r) = (TInt w, r).
Proof.
  intros [Hw Hd] Hr. unfold scan_number. rewrite (span_app _ w r Hd) by (intros c t E; apply (Hr c t E)).
  assert (P : match w with
    | [d] => if Ascii.eqb d "0" then (TInt w, r) else let '(x, w') := exponent "e" "e" r in match x with [] => (TInt w, r) | _ => (TNum (w ++ x), w') end
    | _ => (TInt w, r) end = (TInt w, r)).
  { destruct w as [|d [|? ?]]; auto. destruct (Ascii.eqb d "0"); auto. rewrite exponent_none; auto. intros c t E. destruct (Hr c t E) as (_ & _ & -> & _). auto. }
  destruct r as [|c u]; auto. destruct (Hr c u eq_refl) as (_ & -> & _). exact P.
Qed.
Lemma scan_pointed w r : pointed w -> ends r -> scan_number (w ++ r) = (TNum w, r).
Proof.
  intros (a & b & x & -> & Ha & Hb & Hx) Hr. unfold scan_number. rewrite <- app_assoc. cbn [app]. rewrite <- app_assoc.
  rewrite (span_app _ a ("."%char :: b ++ x ++ r) Ha) by (intros c t E; injection E as <- _; reflexivity). rewrite Ascii.eqb_refl.
  rewrite (span_app _ b (x ++ r) Hb).
  - destruct x as [|c x]. { cbn [app]. rewrite exponent_none; auto. intros c t E. destruct (Hr c t E) as (_ & _ & -> & ->). auto. }
    rewrite (exponent_some "e" "E" (c :: x) r); auto; [discriminate|]. intros d t E. apply (Hr d t E).
  - intros c t E. destruct x as [|d x]; [cbn [app] in E; apply (Hr c t E)|]. cbn [app] in E. injection E as <- _.
    destruct Hx as [|(c' & s & d' & E & Hc & _)]; [discriminate|]. injection E as <- _. destruct Hc as [->| ->]; reflexivity.
Qed.
Lemma scan_one w r : one_digit w -> ends r -> scan_number (w ++ r) = (TNum w, r).
Proof.
  intros (d & x & -> & Hd & Hz & Hx & Hp) Hr. unfold scan_number. cbn [app]. change (d :: x ++ r) with ([d] ++ (x ++ r)).
  assert (X : exists c y, x = c :: y /\ c = "e"%char).
  { destruct Hp as [|(c & s & d' & -> & Hc & _)]; [contradiction|]. exists c, (s ++ d'). split; auto. destruct Hc; auto. }
  destruct X as (c & y & E & ->).
  rewrite (span_app _ [d] (x ++ r)); [|constructor; auto|intros c' t E'; rewrite E in E'; injection E' as <- _; reflexivity].
  rewrite (exponent_some "e" "e" x r); auto; [|intros c' t E'; apply (Hr c' t E')].
  assert (Ascii.eqb d "0" = false) as -> by (apply Ascii.eqb_neq; auto).
  rewrite E. cbn [app]. change (Ascii.eqb "e" ".") with false. reflexivity.
Qed.
Lemma LX_number b k c w r t : isdigit c || Ascii.eqb c "." = true -> scan_number ((c :: w) ++ r) = (t, r) -> LX b k ((c :: w) ++ r) [t] false k r.
Proof.
  intros Hc Hs n Hn. destruct n as [|n]; [lia|]. exists n. split; [cbn [app List.length] in Hn; rewrite app_length in Hn; lia|].
  destruct (number_facts c Hc) as (F1 & F2 & F3 & F4 & F5). cbn [app] in *. cbn [lex]. rewrite F1, F2, F3, !andb_false_r, F4, F5, Hc, Hs. reflexivity.
Qed.

(** * The tokens of an expression *)
Definition num_tok (w : text) : tok := if forallb isdigit w then TInt w else TNum w.
Fixpoint toks_at (level : nat) (e : expr) : list tok :=
  let par (p : nat) (w : list tok) := if Nat.ltb p level then TCh "(" :: w ++ [TCh ")"] else w in
  match e with
  | Num w => [num_tok w]
  | Var x => [word x]
  | Call f l => word f :: TCh "[" :: (fix all l := match l with [] => [] | [e] => toks_at 0 e | e :: t => toks_at 0 e ++ TCh "," :: all t end) l ++ [TCh "]"]
  | Pos e => par 2 (TCh "+" :: toks_at 2 e)
  | Neg e => par 2 (TCh "-" :: toks_at 2 e)
  | Add a b => par 0 (toks_at 0 a ++ TCh "+" :: toks_at 1 b)
  | Sub a b => par 0 (toks_at 0 a ++ TCh "-" :: toks_at 1 b)
  | Mul a b => par 1 (toks_at 1 a ++ TCh "*" :: toks_at 2 b)
  | Div a b => par 1 (toks_at 1 a ++ TCh "/" :: toks_at 2 b)
  end.

Lemma num_tok_digits w : digits w -> num_tok w = TInt w.
Proof. intros [_ H]. unfold num_tok. replace (forallb isdigit w) with true; auto. symmetry. apply forallb_forall. intros c Hc. apply (proj1 (Forall_forall _ _) H c Hc). Qed.
Lemma num_tok_pointed w : pointed w -> num_tok w = TNum w.
Proof. intros (a & b & x & -> & _). unfold num_tok. rewrite forallb_app. cbn [forallb]. change (isdigit ".") with false. cbn [andb]. rewrite andb_false_r. reflexivity. Qed.
Lemma num_tok_one w : one_digit w -> num_tok w = TNum w.
Proof.
  intros (d & x & -> & _ & _ & Hx & [|(c & s & d' & -> & Hc & _)]); [contradiction|]. unfold num_tok. cbn [forallb].
  assert (c = "e"%char) as -> by (destruct Hc; auto). change (isdigit "e") with false. cbn [andb]. rewrite andb_false_r. reflexivity.
Qed.
Lemma LX_num b k w r : digits w \/ pointed w \/ one_digit w -> ends r -> LX b k (w ++ r) [num_tok w] false k r.
Proof.
  intros H Hr. destruct H as [H|[H|H]].
  - rewrite (num_tok_digits w H). assert (S1 := scan_digits w r H Hr). destruct w as [|c w]; [destruct H as [H _]; contradiction|].
    apply LX_number; auto. destruct H as [_ H]. inversion H as [|? ? H1 _]; subst. rewrite H1. reflexivity.
  - rewrite (num_tok_pointed w H). assert (S1 := scan_pointed w r H Hr). destruct H as (a & b' & x & -> & Ha & _).
    destruct a as [|c a]; cbn [app] in *; apply (LX_number b k); auto. inversion Ha as [|? ? H1 _]; subst. rewrite H1. reflexivity.
  - rewrite (num_tok_one w H). assert (S1 := scan_one w r H Hr). destruct H as (d & x & -> & Hd & _). apply LX_number; auto. rewrite Hd. reflexivity.
Qed.

(** What follows an opening bracket is not a name and a closing bracket. *)
Lemma section_name w c t : name_text w -> idchar c = false -> Ascii.eqb c "]" = false -> section_rest (w ++ c :: t) = None.
Proof.
  intros Hw Hc Hn. assert (S1 := span_name w (c :: t) Hw ltac:(intros c' t' E; injection E as <- _; auto)). destruct Hw as (d & u & -> & Hd & _).
  cbn [app] in *. unfold section_rest. rewrite Hd, S1, Hn. reflexivity.
Qed.
Lemma section_other c t : isalpha c = false -> section_rest (c :: t) = None.
Proof. intros H. unfold section_rest. rewrite H. reflexivity. Qed.
Lemma no_section e : readable e -> forall l q r, (exists c t, q = c :: t /\ idchar c = false /\ Ascii.eqb c "]" = false) \/ ((forall x, e <> Var x)) ->
  section_rest (show_at l e ++ q ++ r) = None.
Proof.
  assert (D : forall w, digits w \/ pointed w \/ one_digit w -> exists c t, w = c :: t /\ isalpha c = false).
  { intros w [[H1 H2]|[(a & b & x & -> & Ha & _)|(d & x & -> & Hd & _)]].
    - destruct w as [|c t]; [contradiction|]. exists c, t. split; auto. inversion H2 as [|? ? H3 _]; subst. clear - H3. all_chars c; try discriminate H3; reflexivity.
    - destruct a as [|c a]; [exists "."%char, (b ++ x); split; reflexivity|]. exists c, (a ++ "."%char :: b ++ x). split; auto.
      inversion Ha as [|? ? H3 _]; subst. clear - H3. all_chars c; try discriminate H3; reflexivity.
    - exists d, x. split; auto. clear - Hd. all_chars d; try discriminate Hd; reflexivity. }
  assert (N : forall w q r, digits w \/ pointed w \/ one_digit w -> section_rest (w ++ q ++ r) = None).
  { intros w q r H. destruct (D w H) as (c & t & -> & Hc). cbn [app]. apply section_other. auto. }
  assert (K : forall f, free_name f \/ f = str "gammaPolCh" \/ In f (map str ["coefxi"; "coefzeta"; "coefdelta"; "coefkappa"; "coefV"]%string) -> name_text f).
  { intros f [H|[->|H]]; [apply H| |].
    - exists "g"%char, (str "ammaPolCh"). split; [reflexivity|]. split; [reflexivity|]. repeat constructor.
    - cbn [map In] in H. repeat destruct H as [<-|H]; try contradiction; (eexists _, _; split; [reflexivity|]; split; [reflexivity|]; repeat constructor). }
  induction 1 as [w H|w H|w H|x H|f e Hf He IH Hn|i H|f i j Hf Hi Hj|e He IH|a b Ha IHa Hb IHb|a b Ha IHa Hb IHb|a b Ha IHa Hb IHb|a b Ha IHa Hb IHb]; intros l q r Q; cbn [show_at].
  - apply N; auto.
  - apply N; auto.
  - apply N; auto.
  - destruct Q as [(c & t & -> & H1 & H2)|Q]; [|exfalso; apply (Q x); auto]. cbn [app]. apply section_name; auto; apply H.
  - rewrite <- app_assoc. cbn [app]. apply section_name; auto.
  - rewrite <- app_assoc. cbn [app]. apply section_name; auto.
  - rewrite <- app_assoc. cbn [app]. apply section_name; auto.
  - destruct (Nat.ltb 2 l); cbn [app]; apply section_other; reflexivity.
  - destruct (Nat.ltb 0 l); [cbn [app]; apply section_other; reflexivity|]. rewrite <- app_assoc. apply IHa with (q := ("+"%char :: show_at 1 b)) (r := q ++ r). left; eexists _, _; repeat split; reflexivity.
  - destruct (Nat.ltb 0 l); [cbn [app]; apply section_other; reflexivity|]. rewrite <- app_assoc. apply IHa with (q := ("-"%char :: show_at 1 b)) (r := q ++ r). left; eexists _, _; repeat split; reflexivity.
  - destruct (Nat.ltb 1 l); [cbn [app]; apply section_other; reflexivity|]. rewrite <- app_assoc. apply IHa with (q := ("*"%char :: show_at 2 b)) (r := q ++ r). left; eexists _, _; repeat split; reflexivity.
  - destruct (Nat.ltb 1 l); [cbn [app]; apply section_other; reflexivity|]. rewrite <- app_assoc. apply IHa with (q := ("/"%char :: show_at 2 b)) (r := q ++ r). left; eexists _, _; repeat split; reflexivity.
Qed.

Lemma delim_word b k x r : name_text x -> x <> str "parse" -> delim r -> LX b k (x ++ r) [word x] false k r.
Proof.
  intros H Hp (c & t & -> & Hc). destruct (delim_facts c Hc) as (F1 & F2 & F3 & F4 & F5 & F6). apply LX_word; auto.
  - intros c' t' E. injection E as <- _. auto.
  - unfold text_follows. rewrite F4. destruct t; auto.
Qed.
Lemma bracket_word b k x r : name_text x -> x <> str "parse" -> LX b k (x ++ "["%char :: r) [word x] false k ("["%char :: r).
Proof. intros H Hp. apply LX_word; auto; [intros c t E; injection E as <- _; reflexivity|]. destruct r; reflexivity. Qed.
Ltac delim_now := apply delim_cons; cbn; tauto.
Ltac simple_now := cbn; tauto.
Lemma key_names f : In f (map str ["coefxi"; "coefzeta"; "coefdelta"; "coefkappa"; "coefV"]%string) -> name_text f /\ f <> str "parse".
Proof.
  intros H. cbn [map In] in H. repeat destruct H as [<-|H]; try contradiction; (split; [|discriminate]);
  (eexists _, _; split; [reflexivity|]; split; [reflexivity|]; repeat constructor).
Qed.
Lemma free_parse x : free_name x -> x <> str "parse".
Proof. intros [_ H] ->. apply H. cbn. tauto. Qed.

Lemma LX_par (p level : nat) k (w : text) (ts : list tok) r :
  delim r -> (forall b q, delim q -> LX b k (w ++ q) ts false k q) ->
  forall b, LX b k ((if Nat.ltb p level then "("%char :: w ++ [")"%char] else w) ++ r) (if Nat.ltb p level then TCh "(" :: ts ++ [TCh ")"] else ts) false k r.
Proof.
  intros Hr H b. destruct (Nat.ltb p level); [|apply H; auto]. cbn [app]. rewrite <- app_assoc. cbn [app].
  apply LX_cons with (b1 := false) (k1 := k) (r := w ++ ")"%char :: r); [apply LX_char; simple_now|].
  apply LX_app with (b1 := false) (k1 := k) (r := ")"%char :: r); [apply H; delim_now|]. apply LX_char; simple_now.
Qed.
Lemma LX_binary k (v w : text) c ts us :
  simple c -> (forall r, delim (c :: r)) -> (forall b q, delim q -> LX b k (v ++ q) ts false k q) -> (forall b q, delim q -> LX b k (w ++ q) us false k q) ->
  forall b q, delim q -> LX b k ((v ++ c :: w) ++ q) (ts ++ TCh c :: us) false k q.
Proof.
  intros Hc Hd H1 H2 b q Hq. rewrite <- app_assoc. cbn [app]. apply LX_app with (b1 := false) (k1 := k) (r := c :: w ++ q); [apply H1; auto|].
  apply LX_cons with (b1 := false) (k1 := k) (r := w ++ q); [apply LX_char; auto|]. apply H2; auto.
Qed.
Theorem lex_expr e : readable e -> forall l k b r, delim r -> LX b k (show_at l e ++ r) (toks_at l e) false k r.
Proof.
  induction 1 as [w H|w H|w H|x H|f e Hf He IH Hn|i H|f i j Hf Hi Hj|e He IH|a b Ha IHa Hb IHb|a b Ha IHa Hb IHb|a b Ha IHa Hb IHb|a b Ha IHa Hb IHb]; intros l k b' r Hr; cbn [show_at toks_at].
  1-3: apply LX_num; [tauto|apply delim_ends; auto].
  - apply delim_word; [apply H|apply free_parse; auto|auto].
  - rewrite <- app_assoc. cbn [app]. rewrite <- app_assoc. cbn [app].
    apply LX_cons with (b1 := false) (k1 := k) (r := "["%char :: show_at 0 e ++ "]"%char :: r); [apply bracket_word; [apply Hf|apply free_parse; auto]|].
    apply LX_cons with (b1 := false) (k1 := k) (r := show_at 0 e ++ "]"%char :: r); [apply LX_bracket; apply (no_section e He 0 ["]"%char] r); auto|].
    apply LX_app with (b1 := false) (k1 := k) (r := "]"%char :: r); [apply IH; delim_now|apply LX_char; simple_now].
  - rewrite <- app_assoc. cbn [app]. rewrite <- app_assoc. cbn [app].
    apply LX_cons with (b1 := false) (k1 := k) (r := "["%char :: i ++ "]"%char :: r).
    { apply bracket_word; [|discriminate]. exists "g"%char, (str "ammaPolCh"). split; [reflexivity|]. split; [reflexivity|]. repeat constructor. }
    apply LX_cons with (b1 := false) (k1 := k) (r := i ++ "]"%char :: r); [apply LX_bracket; apply (no_section (Num i) (Rd_digits i H) 0 ["]"%char] r); right; discriminate|].
    apply LX_cons with (b1 := false) (k1 := k) (r := "]"%char :: r); [apply LX_num; [auto|apply delim_ends; delim_now]|apply LX_char; simple_now].
  - destruct (key_names f Hf) as [K1 K2]. repeat (rewrite <- app_assoc; cbn [app]).
    apply LX_cons with (b1 := false) (k1 := k) (r := "["%char :: i ++ ","%char :: j ++ "]"%char :: r); [apply bracket_word; auto|].
    apply LX_cons with (b1 := false) (k1 := k) (r := i ++ ","%char :: j ++ "]"%char :: r); [apply LX_bracket; apply (no_section (Num i) (Rd_digits i Hi) 0 [","%char] (j ++ "]"%char :: r)); right; discriminate|].
    apply LX_cons with (b1 := false) (k1 := k) (r := ","%char :: j ++ "]"%char :: r); [apply LX_num; [auto|apply delim_ends; delim_now]|].
    apply LX_cons with (b1 := false) (k1 := k) (r := j ++ "]"%char :: r); [apply LX_char; simple_now|].
    apply LX_cons with (b1 := false) (k1 := k) (r := "]"%char :: r); [apply LX_num; [auto|apply delim_ends; delim_now]|apply LX_char; simple_now].
  - apply LX_par; auto. intros b q Hq. cbn [app]. apply LX_cons with (b1 := false) (k1 := k) (r := show_at 2 e ++ q); [apply LX_char; simple_now|apply IH; auto].
  - apply LX_par; auto. apply LX_binary; [simple_now|intros; delim_now|intros; apply IHa; auto|intros; apply IHb; auto].
  - apply LX_par; auto. apply LX_binary; [simple_now|intros; delim_now|intros; apply IHa; auto|intros; apply IHb; auto].
  - apply LX_par; auto. apply LX_binary; [simple_now|intros; delim_now|intros; apply IHa; auto|intros; apply IHb; auto].
  - apply LX_par; auto. apply LX_binary; [simple_now|intros; delim_now|intros; apply IHa; auto|intros; apply IHb; auto].
Qed.
