(** C34: every text of the grammar is accepted, with the value of its syntax tree. *)
From Coq Require Import List ZArith Bool Ascii String Lia.
From Verif Require Import Base Params_model Template_model Template_spec Template_lex Template_proofs.
Import ListNotations.
Local Open Scope list_scope.

Scheme Primary_i := Minimality for Primary Sort Prop
  with Unary_i := Minimality for Unary Sort Prop
  with Product_i := Minimality for Product Sort Prop
  with Expression_i := Minimality for Expression Sort Prop
  with Arguments_i := Minimality for Arguments_ Sort Prop
  with Arguments1_i := Minimality for Arguments1 Sort Prop.
Combined Scheme grammar_ind from Primary_i, Unary_i, Product_i, Expression_i, Arguments_i, Arguments1_i.
Scheme Value_i := Minimality for Value Sort Prop with Values_i := Minimality for Values Sort Prop.
Combined Scheme values_ind from Value_i, Values_i.

Lemma space_stops c : isspace c = true -> stops c.
Proof.
  intros H. assert (Hn : (nat_of_ascii c <= 32)%nat).
  { unfold isspace in H. apply orb_prop in H. destruct H as [H|H]; [apply Nat.eqb_eq in H; lia|]. apply andb_prop in H. destruct H as [_ H]. apply Nat.leb_le in H. lia. }
  split; [|split; intros ->; cbv in Hn; lia].
  unfold isalnum, isalpha, isdigit, between.
  replace (Nat.leb 65 (nat_of_ascii c)) with false by (symmetry; apply Nat.leb_gt; lia).
  replace (Nat.leb 97 (nat_of_ascii c)) with false by (symmetry; apply Nat.leb_gt; lia).
  replace (Nat.leb 48 (nat_of_ascii c)) with false by (symmetry; apply Nat.leb_gt; lia). reflexivity.
Qed.
Lemma boundary_ign i s : ignorable i -> boundary s -> boundary (i ++ s).
Proof.
  intros Hi Hs. destruct Hi; [auto| |].
  - intros d u Hd. cbn [app] in Hd. injection Hd as <- _. apply space_stops; auto.
  - intros d u Hd. cbn [app] in Hd. injection Hd as <- _. split; [reflexivity|split; discriminate].
Qed.
Lemma boundary_cons c s : stops c -> boundary (c :: s).
Proof. intros H d u Hd. injection Hd as <- _. auto. Qed.
Lemma boundary_nil : boundary []. Proof. discriminate. Qed.
Ltac stopper := split; [reflexivity|split; discriminate].
Lemma boundary_trailing z : trailing z -> boundary z.
Proof.
  intros (i & c & Hi & _ & [->| ->]); [rewrite <- (app_nil_r i)|]; apply boundary_ign; auto; [apply boundary_nil|apply boundary_cons; stopper].
Qed.

(** What may follow: no character that continues a number or a name, and the next token is not one of cs. *)
Definition follow (cs : list ascii) (r : text) : Prop := boundary r /\ forall c u, skip_ignored r = c :: u -> ~ In c cs.
Notation FU := ["("; "["]%char.
Notation FP := ["*"; "/"; "("; "["]%char.
Notation FE := ["+"; "-"; "*"; "/"; "("; "["]%char.
Lemma follow_sub a b r : (forall c, In c b -> In c a) -> follow a r -> follow b r.
Proof. intros H [H1 H2]. split; auto. intros c u E Hc. eapply H2; eauto. Qed.
Lemma follow_ign cs i c t : ignorable i -> stops c -> solid c -> ~ In c cs -> follow cs (i ++ c :: t).
Proof.
  intros Hi Hs Hc Hn. split; [apply boundary_ign; auto; apply boundary_cons; auto|]. intros d u E. rewrite skip_app, skip_cons in E by auto. injection E as <- _. auto.
Qed.
Lemma follow_cons cs c t : stops c -> solid c -> ~ In c cs -> follow cs (c :: t).
Proof. apply (follow_ign cs [] c t Ig_nil). Qed.
Lemma follow_app cs i r : ignorable i -> follow cs r -> follow cs (i ++ r).
Proof. intros Hi [H1 H2]. split; [apply boundary_ign; auto|]. intros c u E. rewrite skip_app in E by auto. eauto. Qed.
Lemma follow_miss cs c r : follow cs r -> In c cs -> consume c r = (false, skip_ignored r).
Proof. intros [_ H] Hc. apply consume_miss. intros u E. eapply H; eauto. Qed.

(** First characters. *)
Definition starter (c : ascii) : Prop := solid c /\ c <> "+"%char /\ c <> "-"%char /\ c <> "{"%char /\ c <> "}"%char /\ c <> ")"%char /\ c <> "]"%char.
Ltac is_starter := split; [split; [reflexivity|discriminate]|repeat split; discriminate].
Lemma digit_starter c : isdigit c = true \/ c = "."%char -> starter c.
Proof.
  intros H. pose proof (digit_solid c H) as (H1 & _ & _ & _ & H2 & H3 & H4 & _). split; [auto|]. repeat split; auto; intros ->; destruct H as [H|H]; discriminate.
Qed.
Lemma alpha_starter c : isalpha c = true \/ c = "_"%char -> starter c.
Proof.
  intros H. pose proof (alpha_solid c H) as (H1 & _ & H2 & H3 & H4 & _). split; [auto|]. repeat split; auto; intros ->; destruct H as [H|H]; discriminate.
Qed.
Lemma primary_head w e : Primary w e -> forall r, exists c t, skip_ignored (w ++ r) = c :: t /\ starter c.
Proof.
  intros H r. destruct H as [i w j e Hi _ Hj|i f j o c w l Hi Hf Hj _ _|i x Hi Hx|i w Hi Hw].
  - rewrite <- app_assoc. rewrite (skip_app _ _ Hi). cbn [app]. rewrite skip_cons by (split; [reflexivity|discriminate]). do 2 eexists. split; [reflexivity|is_starter].
  - rewrite <- !app_assoc. rewrite (skip_app _ _ Hi). destruct Hf as (d & t & -> & Hd & _). cbn [app]. rewrite skip_cons by (apply (alpha_starter d Hd)).
    do 2 eexists. split; [reflexivity|apply (alpha_starter d Hd)].
  - rewrite <- !app_assoc. rewrite (skip_app _ _ Hi). destruct Hx as (d & t & -> & Hd & _). cbn [app]. rewrite skip_cons by (apply (alpha_starter d Hd)).
    do 2 eexists. split; [reflexivity|apply (alpha_starter d Hd)].
  - rewrite <- !app_assoc. rewrite (skip_app _ _ Hi). destruct (number_head w r Hw) as (c & t & E & Hc). rewrite E. rewrite skip_cons by (apply (digit_starter c Hc)).
    do 2 eexists. split; [reflexivity|apply (digit_starter c Hc)].
Qed.
(** No expression begins with a closing bracket or a brace. *)
Definition opener (c : ascii) : Prop := c <> "{"%char /\ c <> "}"%char /\ c <> ")"%char /\ c <> "]"%char.
Lemma unary_head w e : Unary w e -> forall r, exists c t, skip_ignored (w ++ r) = c :: t /\ opener c.
Proof.
  intros H r. destruct H as [w e H|i w e Hi _|i w e Hi _].
  - destruct (primary_head _ _ H r) as (c & t & E & (_ & _ & _ & H1 & H2 & H3 & H4)). exists c, t. split; [auto|]. repeat split; auto.
  - rewrite <- app_assoc, (skip_app _ _ Hi). cbn [app]. rewrite skip_cons by (split; [reflexivity|discriminate]). do 2 eexists. split; [reflexivity|repeat split; discriminate].
  - rewrite <- app_assoc, (skip_app _ _ Hi). cbn [app]. rewrite skip_cons by (split; [reflexivity|discriminate]). do 2 eexists. split; [reflexivity|repeat split; discriminate].
Qed.
Lemma product_head w e : Product w e -> forall r, exists c t, skip_ignored (w ++ r) = c :: t /\ opener c.
Proof. induction 1; intros r; [eapply unary_head; eauto|rewrite <- app_assoc; auto..]. Qed.
Lemma expression_head w e : Expression w e -> forall r, exists c t, skip_ignored (w ++ r) = c :: t /\ opener c.
Proof. induction 1; intros r; [eapply product_head; eauto|rewrite <- app_assoc; auto..]. Qed.
Lemma arguments1_head w l : Arguments1 w l -> forall r, exists c t, skip_ignored (w ++ r) = c :: t /\ opener c.
Proof. destruct 1; intros r; rewrite <- app_assoc; eapply expression_head; eauto. Qed.

Section C.
Context {V : Type} (M : interp V).
Notation PE := (parse_expression M).
Notation SL := (sum_loop M).
Notation PP := (parse_product M).
Notation PL := (product_loop M).
Notation PU := (parse_unary M).
Notation PM := (parse_primary M).
Notation PA := (parse_arguments M).
Notation AL := (argument_loop M).

(** The outcome of a parser on w ++ r: the value of the tree, leaving r up to ignored text. *)
Definition gives (x : nat -> run (V * text)) (q : res V) (r : text) : Prop := exists n,
  match q with Ok v => exists r', x n = Some (Ok (v, r')) /\ skip_ignored r' = skip_ignored r | Throw => x n = Some Throw | UB => x n = Some UB end.
Definition gives_list (x : nat -> run (list V * text)) (q : res (list V)) (r : text) : Prop := exists n,
  match q with Ok v => x n = Some (Ok (v, r)) | Throw => x n = Some Throw | UB => x n = Some UB end.
(** A left-recursive category: the outcome is that of the loop started with the value of the tree. *)
Definition leads (x : nat -> run (V * text)) (loop : nat -> V -> text -> run (V * text)) (q : res V) (r : text) : Prop :=
  match q with
  | Ok v => forall k z, loop k v r = Some z -> exists n, x n = Some z
  | Throw => exists n, x n = Some Throw
  | UB => exists n, x n = Some UB
  end.

Lemma leads_gives x loop q r : leads x loop q r -> (forall v, exists r', loop 1%nat v r = Some (Ok (v, r')) /\ skip_ignored r' = skip_ignored r) -> gives x q r.
Proof.
  intros H L. unfold gives, leads in *. destruct q as [v| |]; auto. destruct (L v) as (r' & E & S). destruct (H _ _ E) as (n & Hn). exists n, r'. auto.
Qed.
Lemma SL_stop v r : follow FE r -> exists r', SL 1 v r = Some (Ok (v, r')) /\ skip_ignored r' = skip_ignored r.
Proof.
  intros H. exists (skip_ignored r). split; [|apply skip_idem]. rewrite SL_S. rewrite (follow_miss _ "+"%char _ H) by (cbn [In]; auto). cbn iota.
  rewrite consume_skip. rewrite (follow_miss _ "-"%char _ H) by (cbn [In]; auto). reflexivity.
Qed.
Lemma PL_stop v r : follow FP r -> exists r', PL 1 v r = Some (Ok (v, r')) /\ skip_ignored r' = skip_ignored r.
Proof.
  intros H. exists (skip_ignored r). split; [|apply skip_idem]. rewrite PL_S. rewrite (follow_miss _ "*"%char _ H) by (cbn [In]; auto). cbn iota.
  rewrite consume_skip. rewrite (follow_miss _ "/"%char _ H) by (cbn [In]; auto). reflexivity.
Qed.

(** One step of the two loops: operator op with a right operand parsed by [right]. *)
Lemma SL_step op (f : V -> V -> V) v i w r q : (op = "+"%char /\ f = i_add M \/ op = "-"%char /\ f = i_sub M) -> ignorable i ->
  gives (fun n => PP n (w ++ r)) q r -> leads (fun n => SL n v (i ++ op :: w ++ r)) SL (let* y := q in Ok (f v y)) r.
Proof.
  intros Hop Hi (n & H).
  assert (E : forall m, SL (S m) v (i ++ op :: w ++ r) = let? (y, s) := PP m (w ++ r) in SL m (f v y) s).
  { intros m. rewrite SL_S. destruct Hop as [[-> ->]|[-> ->]].
    - rewrite consume_hit' by (first [assumption|split; [reflexivity|discriminate]]). reflexivity.
    - rewrite consume_miss. 2: { intros u. rewrite skip_app by auto. rewrite skip_cons by (split; [reflexivity|discriminate]). discriminate. }
      rewrite consume_skip, consume_hit' by (first [assumption|split; [reflexivity|discriminate]]). reflexivity. }
  destruct q as [y| |]; cbn [bind leads].
  - destruct H as (r' & H1 & H2). intros k z Hz. exists (S (max n k)). rewrite E. rewrite (PP_le M n _ _ (max n k) (Nat.le_max_l _ _) H1). cbn [rbind].
    apply (SL_le M k); [lia|]. rewrite (SL_skip M k _ r' r H2). auto.
  - exists (S n). rewrite E, H. reflexivity.
  - exists (S n). rewrite E, H. reflexivity.
Qed.
Lemma PL_mul v i w r q : ignorable i -> gives (fun n => PU n (w ++ r)) q r ->
  leads (fun n => PL n v (i ++ "*"%char :: w ++ r)) PL (let* y := q in Ok (i_mul M v y)) r.
Proof.
  intros Hi (n & H).
  assert (E : forall m, PL (S m) v (i ++ "*"%char :: w ++ r) = let? (y, s) := PU m (w ++ r) in PL m (i_mul M v y) s).
  { intros m. rewrite PL_S. rewrite consume_hit' by (first [assumption|split; [reflexivity|discriminate]]). reflexivity. }
  destruct q as [y| |]; cbn [bind leads].
  - destruct H as (r' & H1 & H2). intros k z Hz. exists (S (max n k)). rewrite E. rewrite (PU_le M n _ _ (max n k) (Nat.le_max_l _ _) H1). cbn [rbind].
    apply (PL_le M k); [lia|]. rewrite (PL_skip M k _ r' r H2). auto.
  - exists (S n). rewrite E, H. reflexivity.
  - exists (S n). rewrite E, H. reflexivity.
Qed.
Lemma PL_div v i w r q : ignorable i -> gives (fun n => PU n (w ++ r)) q r ->
  leads (fun n => PL n v (i ++ "/"%char :: w ++ r)) PL (let* y := q in i_div M v y) r.
Proof.
  intros Hi (n & H).
  assert (E : forall m, PL (S m) v (i ++ "/"%char :: w ++ r) = let? (y, s) := PU m (w ++ r) in let? d := Some (i_div M v y) in PL m d s).
  { intros m. rewrite PL_S. rewrite consume_miss. 2: { intros u. rewrite skip_app by auto. rewrite skip_cons by (split; [reflexivity|discriminate]). discriminate. }
    rewrite consume_skip, consume_hit' by (first [assumption|split; [reflexivity|discriminate]]). reflexivity. }
  destruct q as [y| |]; cbn [bind leads].
  - destruct H as (r' & H1 & H2). destruct (i_div M v y) as [d| |] eqn:Ed; cbn [leads].
    + intros k z Hz. exists (S (max n k)). rewrite E. rewrite (PU_le M n _ _ (max n k) (Nat.le_max_l _ _) H1). cbn [rbind]. rewrite Ed. cbn [rbind].
      apply (PL_le M k); [lia|]. rewrite (PL_skip M k _ r' r H2). auto.
    + exists (S n). rewrite E, H1. cbn [rbind]. rewrite Ed. reflexivity.
    + exists (S n). rewrite E, H1. cbn [rbind]. rewrite Ed. reflexivity.
  - exists (S n). rewrite E, H. reflexivity.
  - exists (S n). rewrite E, H. reflexivity.
Qed.
Lemma leads_leads x l1 (q : res V) (g : V -> res V) r r1 : leads x l1 q r1 -> (forall v, leads (fun n => l1 n v r1) l1 (g v) r) -> leads x l1 (let* v := q in g v) r.
Proof.
  intros H1 H2. destruct q as [v| |]; cbn [bind leads] in *; auto. specialize (H2 v). destruct (g v) as [y| |]; cbn [leads] in *.
  - intros k z Hz. destruct (H2 k z Hz) as (n & Hn). eauto.
  - destruct H2 as (n & Hn). eauto.
  - destruct H2 as (n & Hn). eauto.
Qed.

Lemma consume_at c s t : skip_ignored s = c :: t -> forall d, consume d s = (if Ascii.eqb c d then (true, t) else (false, c :: t)).
Proof. intros H d. unfold consume. rewrite H. reflexivity. Qed.

Theorem complete :
  (forall w e, Primary w e -> forall r, follow FU r -> gives (fun n => PM n (w ++ r)) (eval M e) r) /\
  (forall w e, Unary w e -> forall r, follow FU r -> gives (fun n => PU n (w ++ r)) (eval M e) r) /\
  (forall w e, Product w e -> forall r, follow FU r -> leads (fun n => PP n (w ++ r)) PL (eval M e) r) /\
  (forall w e, Expression w e -> forall r, follow FP r -> leads (fun n => PE n (w ++ r)) SL (eval M e) r) /\
  (forall w l, Arguments_ w l -> forall c r, c = ")"%char \/ c = "]"%char -> gives_list (fun n => PA n c (w ++ c :: r)) (mapM (eval M) l) r) /\
  (forall w l, Arguments1 w l -> forall c r, c = ")"%char \/ c = "]"%char -> gives_list (fun n => AL n c (w ++ c :: r)) (mapM (eval M) l) r).
Proof.
  apply grammar_ind.
  - (* ( e ) *) intros i w j e Hi He IH Hj r Hr. rewrite <- app_assoc. cbn [app]. rewrite <- !app_assoc. cbn [app].
    assert (HE : gives (fun n => PE n (w ++ j ++ ")"%char :: r)) (eval M e) (j ++ ")"%char :: r)).
    { eapply leads_gives; [apply IH; eapply (follow_sub FE); [cbn [In]; intuition auto|]|intros v; apply SL_stop]; (apply follow_ign; [assumption|stopper|split; [reflexivity|discriminate]|cbn [In]; intuition discriminate]). }
    destruct HE as (n & HE). exists (S n).
    assert (E : PM (S n) (i ++ "("%char :: w ++ j ++ ")"%char :: r) =
      let? (v, s) := PE n (w ++ j ++ ")"%char :: r) in match consume ")" s with (true, s) => Some (Ok (v, s)) | (false, _) => Some Throw end).
    { rewrite PM_S, consume_skip, consume_hit' by (first [assumption|split; [reflexivity|discriminate]]). reflexivity. }
    rewrite E. destruct (eval M e); [|rewrite HE; reflexivity..]. destruct HE as (r' & H1 & H2). exists r. split; [|auto]. rewrite H1. cbn [rbind].
    rewrite (consume_hit _ _ r); [reflexivity|]. rewrite H2, skip_app by auto. apply skip_cons. split; [reflexivity|discriminate].
  - (* f(args) *) intros i f j o c w l Hi Hf Hj Ho Hl IH r Hr. rewrite <- !app_assoc. cbn [app]. rewrite <- !app_assoc. cbn [app]. rewrite eval_call.
    assert (Hc : c = ")"%char \/ c = "]"%char) by (destruct Ho as [Ho|Ho]; injection Ho as -> ->; auto).
    destruct (IH c r Hc) as (n & HL). exists (S n).
    assert (So : stops o /\ solid o). { destruct Ho as [Ho|Ho]; injection Ho as -> ->; (split; [stopper|split; [reflexivity|discriminate]]). }
    assert (E : PM (S n) (i ++ f ++ j ++ o :: w ++ c :: r) = let? (args, s) := PA n c (w ++ c :: r) in let? v := Some (i_call M f args) in Some (Ok (v, s))).
    { destruct (identifier_complete f (j ++ o :: w ++ c :: r) Hf) as [S1 S2]. { apply boundary_ign; auto. apply boundary_cons. apply So. }
      assert (Sk : skip_ignored (f ++ j ++ o :: w ++ c :: r) = f ++ j ++ o :: w ++ c :: r).
      { destruct Hf as (d & t & -> & Hd & _). cbn [app]. apply skip_cons. apply (alpha_starter d Hd). }
      rewrite PM_S, consume_skip. rewrite consume_miss.
      2: { intros u. rewrite skip_app by auto. rewrite Sk. destruct Hf as (d & t & -> & Hd & _). cbn [app]. intros Q. injection Q as -> _. destruct Hd; discriminate. }
      rewrite skip_app, Sk by auto. rewrite S1, S2. destruct Ho as [Ho|Ho]; injection Ho as -> ->.
      - rewrite consume_hit' by (first [assumption|apply So]). reflexivity.
      - rewrite consume_miss. 2: { intros u. rewrite skip_app by auto. rewrite skip_cons by apply So. discriminate. }
        rewrite consume_skip, consume_hit' by (first [assumption|apply So]). reflexivity. }
    rewrite E. destruct (mapM (eval M) l) as [vs| |]; cbn [bind]; [|rewrite HL; reflexivity..]. rewrite HL. cbn [rbind].
    destruct (i_call M f vs); cbn [rbind]; auto. exists r. auto.
  - (* x *) intros i x Hi Hx r Hr. rewrite <- !app_assoc. exists 1%nat. cbn [eval].
    assert (E : PM 1 (i ++ x ++ r) = let? v := Some (i_var M x) in Some (Ok (v, skip_ignored r))).
    { destruct (identifier_complete x r Hx (proj1 Hr)) as [S1 S2].
      assert (Sk : skip_ignored (x ++ r) = x ++ r). { destruct Hx as (d & t & -> & Hd & _). cbn [app]. apply skip_cons. apply (alpha_starter d Hd). }
      rewrite PM_S, consume_skip. rewrite consume_miss.
      2: { intros u. rewrite skip_app by auto. rewrite Sk. destruct Hx as (d & t & -> & Hd & _). cbn [app]. intros Q. injection Q as -> _. destruct Hd; discriminate. }
      rewrite skip_app, Sk by auto. rewrite S1, S2. rewrite (follow_miss _ "("%char _ Hr) by (cbn [In]; auto). cbn iota.
      rewrite consume_skip. rewrite (follow_miss _ "["%char _ Hr) by (cbn [In]; auto). reflexivity. }
    rewrite E. destruct (i_var M x); cbn [rbind]; auto. exists (skip_ignored r). split; [auto|apply skip_idem].
  - (* number *) intros i w Hi Hw r Hr. rewrite <- !app_assoc. exists 1%nat. cbn [eval].
    assert (E : PM 1 (i ++ w ++ r) = Some (let* v := i_num M w in Ok (v, r))).
    { destruct (number_head w r Hw) as (c & t & Ec & Hc). assert (Sc := digit_solid c Hc). destruct Sc as (Sc & NA & NU & NP & _).
      assert (Sk : skip_ignored (w ++ r) = w ++ r). { rewrite Ec. apply skip_cons; auto. }
      rewrite PM_S, consume_skip. rewrite consume_miss. 2: { intros u. rewrite skip_app by auto. rewrite Sk, Ec. intros Q. injection Q as -> _. auto. }
      rewrite skip_app, Sk by auto. replace (starts_identifier (w ++ r)) with false.
      2: { rewrite Ec. cbn [starts_identifier]. rewrite NA. destruct (Ascii.eqb_spec c "_"); [contradiction|auto]. }
      unfold parse_number. rewrite Sk. rewrite (take_number_complete w r Hw (proj1 Hr)). reflexivity. }
    rewrite E. destruct (i_num M w); cbn [bind]; auto. exists r. auto.
  - (* unary: primary *) intros w e Hp IH r Hr. destruct (IH r Hr) as (n & H). destruct (primary_head _ _ Hp r) as (c & t & Ec & (Sc & N1 & N2 & _)). exists (S n).
    assert (E : PU (S n) (w ++ r) = PM n (w ++ r)).
    { rewrite PU_S, consume_skip. rewrite consume_miss by (intros u; rewrite Ec; congruence). rewrite consume_skip.
      rewrite consume_miss by (intros u; rewrite Ec; congruence). apply PM_skip. apply skip_idem. }
    destruct (eval M e); rewrite E; auto.
  - (* + *) intros i w e Hi Hu IH r Hr. rewrite <- app_assoc. cbn [app]. destruct (IH r Hr) as (n & H). exists (S n). cbn [eval].
    assert (E : PU (S n) (i ++ "+"%char :: w ++ r) = PU n (w ++ r)).
    { rewrite PU_S, consume_skip, consume_hit' by (first [assumption|split; [reflexivity|discriminate]]). reflexivity. }
    destruct (eval M e); rewrite E; auto.
  - (* - *) intros i w e Hi Hu IH r Hr. rewrite <- app_assoc. cbn [app]. destruct (IH r Hr) as (n & H). exists (S n). cbn [eval].
    assert (E : PU (S n) (i ++ "-"%char :: w ++ r) = let? (v, s) := PU n (w ++ r) in Some (Ok (i_neg M v, s))).
    { rewrite PU_S, consume_skip. rewrite consume_miss. 2: { intros u. rewrite skip_app by auto. rewrite skip_cons by (split; [reflexivity|discriminate]). discriminate. }
      rewrite consume_skip, consume_hit' by (first [assumption|split; [reflexivity|discriminate]]). reflexivity. }
    destruct (eval M e); cbn [bind]; rewrite E; [|rewrite H; reflexivity..]. destruct H as (r' & H1 & H2). rewrite H1. exists r'. auto.
  - (* product: unary *) intros w e Hu IH r Hr. destruct (IH r Hr) as (n & H). unfold leads.
    assert (E : forall m, PP (S m) (w ++ r) = let? (v, s) := PU m (w ++ r) in PL m v s) by (intros; apply PP_S).
    destruct (eval M e) as [v| |].
    + destruct H as (r' & H1 & H2). intros k z Hz. exists (S (max n k)). rewrite E. rewrite (PU_le M n _ _ (max n k) (Nat.le_max_l _ _) H1). cbn [rbind].
      apply (PL_le M k); [lia|]. rewrite (PL_skip M k _ r' r H2). auto.
    + exists (S n). rewrite E, H. reflexivity.
    + exists (S n). rewrite E, H. reflexivity.
  - intros v a i w b Ha IHa Hi Hb IHb r Hr. rewrite <- !app_assoc. cbn [app eval]. eapply leads_leads.
    + apply IHa. apply follow_ign; [assumption|stopper|split; [reflexivity|discriminate]|cbn [In]; intuition discriminate].
    + intros x. apply PL_mul; auto.
  - intros v a i w b Ha IHa Hi Hb IHb r Hr. rewrite <- !app_assoc. cbn [app eval]. eapply leads_leads.
    + apply IHa. apply follow_ign; [assumption|stopper|split; [reflexivity|discriminate]|cbn [In]; intuition discriminate].
    + intros x. apply PL_div; auto.
  - (* expression: product *) intros w e Hu IH r Hr.
    assert (HP : gives (fun n => PP n (w ++ r)) (eval M e) r).
    { eapply leads_gives; [apply IH; eapply follow_sub; [|eauto]; cbn [In]; intuition auto|]. intros v. apply PL_stop; auto. }
    destruct HP as (n & H). unfold leads.
    assert (E : forall m, PE (S m) (w ++ r) = let? (v, s) := PP m (w ++ r) in SL m v s) by (intros; apply PE_S).
    destruct (eval M e) as [v| |].
    + destruct H as (r' & H1 & H2). intros k z Hz. exists (S (max n k)). rewrite E. rewrite (PP_le M n _ _ (max n k) (Nat.le_max_l _ _) H1). cbn [rbind].
      apply (SL_le M k); [lia|]. rewrite (SL_skip M k _ r' r H2). auto.
    + exists (S n). rewrite E, H. reflexivity.
    + exists (S n). rewrite E, H. reflexivity.
  - intros v a i w b Ha IHa Hi Hb IHb r Hr. rewrite <- !app_assoc. cbn [app eval]. eapply leads_leads.
    + apply IHa. apply follow_ign; [assumption|stopper|split; [reflexivity|discriminate]|cbn [In]; intuition discriminate].
    + intros x. apply (SL_step "+"%char (i_add M)); auto. eapply leads_gives; [apply IHb; eapply follow_sub; [|eauto]; cbn [In]; intuition auto|]. intros y. apply PL_stop; auto.
  - intros v a i w b Ha IHa Hi Hb IHb r Hr. rewrite <- !app_assoc. cbn [app eval]. eapply leads_leads.
    + apply IHa. apply follow_ign; [assumption|stopper|split; [reflexivity|discriminate]|cbn [In]; intuition discriminate].
    + intros x. apply (SL_step "-"%char (i_sub M)); auto. eapply leads_gives; [apply IHb; eapply follow_sub; [|eauto]; cbn [In]; intuition auto|]. intros y. apply PL_stop; auto.
  - (* no arguments *) intros i Hi c r Hc. exists 1%nat. cbn [mapM]. rewrite PA_S, consume_skip. rewrite consume_hit'; auto. destruct Hc; subst; split; [reflexivity|discriminate|reflexivity|discriminate].
  - intros w l Hl IH c r Hc. destruct (IH c r Hc) as (n & H). exists (S n). destruct (arguments1_head _ _ Hl (c :: r)) as (d & t & Ed & (N1 & N2 & N3 & N4)).
    assert (E : PA (S n) c (w ++ c :: r) = AL n c (w ++ c :: r)).
    { rewrite PA_S, consume_skip. rewrite consume_miss by (intros u; rewrite Ed; destruct Hc; congruence). apply AL_skip. apply skip_idem. }
    destruct (mapM (eval M) l); rewrite E; auto.
  - (* last argument *) intros w e i He IH Hi c r Hc. rewrite <- app_assoc.
    assert (Sc : stops c /\ solid c) by (destruct Hc; subst; (split; [stopper|split; [reflexivity|discriminate]])).
    assert (HE : gives (fun n => PE n (w ++ i ++ c :: r)) (eval M e) (i ++ c :: r)).
    { eapply leads_gives; [apply IH; eapply (follow_sub FE); [cbn [In]; intuition auto|]|intros v; apply SL_stop]; (apply follow_ign; auto; try apply Sc; destruct Hc; subst; cbn [In]; intuition discriminate). }
    destruct HE as (n & HE). exists (S n). rewrite AL_S. cbn [mapM]. destruct (eval M e) as [v| |]; cbn [bind]; [|rewrite HE; reflexivity..].
    destruct HE as (r' & H1 & H2). rewrite H1. cbn [rbind]. rewrite (consume_hit _ _ r); [reflexivity|]. rewrite H2, skip_app by auto. apply skip_cons. apply Sc.
  - intros w e i v l He IH Hi Hl IHl c r Hc. rewrite <- !app_assoc. cbn [app].
    assert (HE : gives (fun n => PE n (w ++ i ++ ","%char :: v ++ c :: r)) (eval M e) (i ++ ","%char :: v ++ c :: r)).
    { eapply leads_gives; [apply IH; eapply (follow_sub FE); [cbn [In]; intuition auto|]|intros y; apply SL_stop]; (apply follow_ign; [assumption|stopper|split; [reflexivity|discriminate]|cbn [In]; intuition discriminate]). }
    destruct HE as (n & HE). destruct (IHl c r Hc) as (m & HL). exists (S (max n m)). rewrite AL_S. cbn [mapM].
    destruct (eval M e) as [y| |]; cbn [bind]; [|rewrite (PE_le M n _ _ (max n m) (Nat.le_max_l _ _) HE); reflexivity..].
    destruct HE as (r' & H1 & H2). rewrite (PE_le M n _ _ (max n m) (Nat.le_max_l _ _) H1). cbn [rbind].
    assert (Sk : skip_ignored r' = ","%char :: v ++ c :: r). { rewrite H2, skip_app by auto. apply skip_cons. split; [reflexivity|discriminate]. }
    assert (AL1 : forall q, AL m c (v ++ c :: r) = Some q -> AL (max n m) c (v ++ c :: r) = Some q) by (intros q; apply AL_le; lia).
    rewrite consume_miss by (intros u; rewrite Sk; destruct Hc; subst; discriminate). cbn iota. rewrite consume_skip, (consume_hit _ _ _ Sk).
    destruct (mapM (eval M) l); cbn [bind]; rewrite (AL1 _ HL); reflexivity.
Qed.
End C.
