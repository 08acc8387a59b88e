(** C78: the parser on the tokens of an expression. *)
From Coq Require Import List ZArith Bool Ascii String Lia.
From Verif Require Import Base Params_model Template_model Template_spec Template_lex Template_words Mtool_model Mtool_spec Mtool_lex.
Import ListNotations.
Local Open Scope list_scope.

(** A free name is read as a name. *)
Lemma word_free x : free_name x -> word x = TName x.
Proof.
  intros [_ H]. unfold word, reserved in *. cbn [map In] in H.
  repeat match goal with |- context [text_eqb x ?y] => destruct (text_eqb x y) eqn:?; [exfalso; apply H; match goal with E : text_eqb x _ = true |- _ => apply text_eqb_eq in E; rewrite E; tauto end|] end. reflexivity.
Qed.

Section P.
Context {V : Type} (A : arith V) (zero : V) (of_int : Z -> V) (fmt : V -> text) (prefix : text) (chains : list (@chain V)) (coupling : option (list (list V))).
Notation reduce := (reduce A zero of_int fmt prefix chains coupling).
Notation act := (act A zero fmt prefix).
Notation step := (step A zero of_int fmt prefix chains coupling).
Notation run := (run A zero of_int fmt prefix chains coupling).
Notation state := (@state V).
Notation sym := (@sym V).
Notation entry := (@entry V).
Notation mk := (@Build_state V).

Inductive star : state * list tok -> state * list tok -> Prop :=
| star_refl c : star c c
| star_step s ts c c' : step s ts = inl c -> star c c' -> star (s, ts) c'.
Lemma star_trans a b c : star a b -> star b c -> star a c.
Proof. induction 1; auto. intros G. eapply star_step; eauto. Qed.
Lemma star_one s ts c : step s ts = inl c -> star (s, ts) c.
Proof. intros H. eapply star_step; [exact H|constructor]. Qed.
Lemma star_run c c' : star c c' -> forall e, step (fst c') (snd c') = inr e -> exists n, run n (fst c) (snd c) = Some (output (fst c'), e).
Proof.
  induction 1 as [[s ts]|s ts [s1 ts1] c' H1 H2 IH]; intros e He.
  - exists 1. cbn [Mtool_model.run fst snd] in *. rewrite He. reflexivity.
  - destruct (IH e He) as [n Hn]. exists (S n). cbn [Mtool_model.run fst snd] in *. rewrite H1. exact Hn.
Qed.

(** * The table of symbols *)
Definition func_in (sy : list entry) (x : text) : option (V -> V) := match find_sym sy x with Some e => func e | None => None end.
Definition fn (x : text) : option (V -> V) := func_in (start_table A zero) x.
Context (L : list text) (LN : List.length L <= NSYMS) (K : list text).
Definition good_table (env : text -> V) (sy : list entry) : Prop :=
  NoDup (map name sy) /\ incl (map name sy) L /\ (forall x, value_in zero sy x = env x) /\ (forall x, func_in sy x = fn x) /\ incl K (map name sy).
Lemma find_app (sy : list entry) e x : find_sym (sy ++ [e]) x = match find_sym sy x with Some f => Some f | None => if text_eqb (name e) x then Some e else None end.
Proof. unfold find_sym. induction sy as [|f sy IH]; cbn [app List.find]; auto. destruct (text_eqb (name f) x); auto. Qed.
Lemma find_in (sy : list entry) x : find_sym sy x = None -> ~ In x (map name sy).
Proof. intros H G. apply in_map_iff in G as (e & <- & He). apply (find_none _ _ H) in He. cbn in He. rewrite (proj2 (text_eqb_eq _ _) eq_refl) in He. discriminate. Qed.
Lemma symlook_ok env sy x : good_table env sy -> In x L -> exists sy', symlook zero sy x = Some sy' /\ good_table env sy'.
Proof.
  intros (H1 & H2 & H3 & H4 & H5) Hx. unfold symlook. destruct (find_sym sy x) as [e|] eqn:E; [exists sy; repeat split; auto|].
  assert (N := find_in _ _ E).
  assert (N2 : NoDup (map name (sy ++ [{| name := x; func := None; value := zero |}]))).
  { rewrite map_app. cbn [map name]. apply NoDup_rev in H1. rewrite <- (rev_involutive (map name sy ++ [x])). apply NoDup_rev. rewrite rev_app_distr. cbn [rev app]. constructor; auto. rewrite <- in_rev. auto. }
  assert (I2 : incl (map name (sy ++ [{| name := x; func := None; value := zero |}])) L).
  { rewrite map_app. apply incl_app; auto. intros y [<-|[]]. auto. }
  assert (Len := NoDup_incl_length N2 I2). rewrite map_length, app_length in Len. cbn [List.length] in Len.
  destruct (Nat.ltb_spec (List.length sy) NSYMS) as [_|G]; [|lia]. eexists. split; [reflexivity|]. split; [exact N2|]. split; [exact I2|]. split; [|split; [|rewrite map_app; apply incl_appl; auto]].
  - intros y. rewrite <- H3. unfold value_in. rewrite find_app. destruct (find_sym sy y); auto. cbn [name]. destruct (text_eqb x y); reflexivity.
  - intros y. rewrite <- H4. unfold func_in. rewrite find_app. destruct (find_sym sy y); auto. cbn [name]. destruct (text_eqb x y); reflexivity.
Qed.
Lemma find_assign (sy : list entry) x v y : find_sym (assign sy x v) y =
  match find_sym sy y with Some e => Some (if text_eqb (name e) x then {| name := name e; func := func e; value := v |} else e) | None => None end.
Proof. unfold find_sym, assign. induction sy as [|e sy IH]; cbn [map List.find]; auto. destruct (text_eqb (name e) x) eqn:E; cbn [name]; destruct (text_eqb (name e) y); auto; rewrite E; auto. Qed.
Lemma assign_ok env sy x v : good_table env sy -> In x (map name sy) -> good_table (update env x v) (assign sy x v).
Proof.
  intros (H1 & H2 & H3 & H4 & H5) Hx.
  assert (M : map name (assign sy x v) = map name sy) by (unfold assign; rewrite map_map; apply map_ext; intros e; destruct (text_eqb (name e) x); reflexivity).
  split; [rewrite M; auto|]. split; [rewrite M; auto|]. split; [|split; [|rewrite M; auto]].
  - intros y. unfold value_in, update. rewrite find_assign. destruct (find_sym sy y) as [e|] eqn:E.
    + assert (name e = y) by (apply find_some in E as [_ E]; apply text_eqb_eq in E; auto). subst y. destruct (text_eqb (name e) x) eqn:F; [reflexivity|].
      rewrite <- H3. unfold value_in. rewrite E. reflexivity.
    + destruct (text_eqb y x) eqn:F; [apply text_eqb_eq in F; subst; exfalso; apply (find_in _ _ E); auto|]. rewrite <- H3. unfold value_in. rewrite E. reflexivity.
  - intros y. rewrite <- H4. unfold func_in. rewrite find_assign. destruct (find_sym sy y) as [e|]; auto. destruct (text_eqb (name e) x); reflexivity.
Qed.
Lemma call_ok env sy f v : good_table env sy -> call zero sy f v = match fn f with Some g => g v | None => zero end.
Proof. intros (_ & _ & _ & H & _). rewrite <- H. unfold call, func_in. destruct (find_sym sy f); reflexivity. Qed.

(** * What the tool computes *)
Fixpoint ev (env : text -> V) (e : expr) : res V :=
  match e with
  | Num w => if forallb isdigit w then let* z := atoi w in Ok (of_int z) else Ok (a_strtod A w)
  | Var x => Ok (env x)
  | Call f [e] => match word f with
      | TKey _ => match e with Num i => let* x := atoi i in gammapolch A chains x | _ => Throw end
      | _ => let* v := ev env e in Ok (match fn f with Some g => g v | None => zero end)
      end
  | Call f [Num i; Num j] => match word f with TKey k => let* x := atoi i in let* y := atoi j in coef chains coupling k x y | _ => Throw end
  | Neg e => let* v := ev env e in Ok (a_neg A v)
  | Add a b => let* x := ev env a in let* y := ev env b in Ok (a_add A x y)
  | Sub a b => let* x := ev env a in let* y := ev env b in Ok (a_sub A x y)
  | Mul a b => let* x := ev env a in let* y := ev env b in Ok (a_mul A x y)
  | Div a b => let* x := ev env a in let* y := ev env b in Ok (divide A x y)
  | _ => Throw
  end.

(** * Stacks on which an expression may begin *)
Definition good (st : list sym) : Prop := match st with SE _ :: _ | SInt _ :: _ | SKey _ :: _ => False | _ => True end.
Inductive opens : nat -> list sym -> Prop :=
| O_nil l : opens l []
| O_par l st : good st -> opens l (SCh "(" :: st)
| O_fun l f st : opens l (SCh "[" :: SName f :: st)
| O_brace l st : good st -> opens l (SCh "{" :: st)
| O_comma l a st : opens l (SCh "," :: SE a :: st)
| O_eq l x : opens l [SCh "="; SName x]
| O_plus l a st : 1 <= l -> opens l (SCh "+" :: SE a :: st)
| O_minus l a st : 1 <= l -> opens l (SCh "-" :: SE a :: st)
| O_mul l a st : 2 <= l -> opens l (SCh "*" :: SE a :: st)
| O_div l a st : 2 <= l -> opens l (SCh "/" :: SE a :: st)
| O_neg l st : 2 <= l -> good st -> opens l (SCh "-" :: st).
Lemma opens_good l st : opens l st -> good st.
Proof. intros H; destruct H; exact Logic.I. Qed.
Lemma opens_mono l m st : l <= m -> opens l st -> opens m st.
Proof. intros H G. destruct G; try (constructor; auto; lia). Qed.
Definition binary : list ascii := ["+"; "-"; "*"; "/"]%char.
Lemma shift_step s t ts s' : reduce s = None -> act s t = Shift -> (match t with TEnd | TMismatch | TShell | TInclude => False | _ => True end) -> push zero s t = Some s' ->
  step s (t :: ts) = inl (s', ts).
Proof. intros H1 H2 H3 H4. unfold Mtool_model.step. rewrite H1, H2, H4. destruct t; try contradiction; reflexivity. Qed.
Lemma reduce_step s ts s' : reduce s = Some (Ok s') -> step s ts = inl (s', ts).
Proof. intros H. unfold Mtool_model.step. rewrite H. reflexivity. Qed.
Lemma act_reduce_step s t ts s' : reduce s = None -> act s t = Reduce s' -> (match t with TEnd | TMismatch | TShell | TInclude => False | _ => True end) ->
  step s (t :: ts) = inl (s', t :: ts).
Proof. intros H1 H2 H3. unfold Mtool_model.step. rewrite H1, H2. destruct t; try contradiction; reflexivity. Qed.

Lemma opens_reduce l st sy out b : opens l st -> reduce (mk st sy out b) = None.
Proof. intros H. destruct H; reflexivity. Qed.
Lemma opens_start l st sy out b t : opens l st -> starts t = true -> act (mk st sy out b) t = Shift.
Proof.
  intros H G. assert (R : shift_if (starts t) = @Shift V) by (rewrite G; reflexivity).
  destruct H; try exact R; unfold Mtool_model.act; cbn [stack].
  - assert (tis t newline = false) as -> by (destruct t; try reflexivity; cbn in G |- *; clear - G; unfold is in G; all_chars c; try discriminate G; reflexivity).
    rewrite G. reflexivity.
  - unfold act_char. change (is "{" "{") with true. cbn iota. rewrite G. destruct st; reflexivity.
Qed.
Ltac crush_good st H := destruct st as [|[ | | | | | | | | | | ] ?]; cbn [good] in H; try contradiction.
Lemma opens_shift l st sy out b v c : opens l st -> In c binary -> l = 0 \/ (l = 1 /\ (c = "*"%char \/ c = "/"%char)) ->
  reduce (mk (SE v :: st) sy out b) = None /\ act (mk (SE v :: st) sy out b) (TCh c) = Shift.
Proof.
  intros H Hc Hl. unfold binary in Hc. cbn [In] in Hc.
  destruct H as [l|l st G|l f st|l st G|l a st|l x|l a st G|l a st G|l a st G|l a st G|l st G1 G];
    try (exfalso; lia);
    try (split; [reflexivity|]; repeat destruct Hc as [<-|Hc]; try contradiction; reflexivity).
  - split; [crush_good st G; reflexivity|]. unfold Mtool_model.act. cbn [stack act_expr].
    crush_good st G; try (repeat destruct Hc as [<-|Hc]; try contradiction; reflexivity).
    match goal with |- context [[SCh _; SName _]] => idtac | |- context [SName _ :: ?u] => destruct u end; repeat destruct Hc as [<-|Hc]; try contradiction; reflexivity.
  - split; [reflexivity|]. unfold Mtool_model.act. cbn [stack act_expr]. destruct st; repeat destruct Hc as [<-|Hc]; try contradiction; reflexivity.
  - split; [crush_good st G; reflexivity|]. unfold Mtool_model.act. cbn [stack act_expr].
    crush_good st G; try (repeat destruct Hc as [<-|Hc]; try contradiction; reflexivity).
    match goal with |- context [SName _ :: ?u] => destruct u end; repeat destruct Hc as [<-|Hc]; try contradiction; reflexivity.
  - split; [reflexivity|]. destruct Hl as [->|(-> & [-> | ->])]; [lia|reflexivity|reflexivity].
  - split; [reflexivity|]. destruct Hl as [->|(-> & [-> | ->])]; [lia|reflexivity|reflexivity].
Qed.

Lemma opens_index l st : opens l st -> index_place st = false.
Proof. intros H. destruct H as [l|l st G|l f st|l st G|l a st|l x|l a st G|l a st G|l a st G|l a st G|l st G1 G]; try reflexivity; crush_good st G; reflexivity. Qed.
Definition follow (p : nat) (r : list tok) : Prop := exists c r', r = TCh c :: r' /\ In c delims /\ (p = 0 -> c <> "*"%char /\ c <> "/"%char).
Lemma follow_mono l p r : l <= p -> follow l r -> follow p r.
Proof. intros H (c & r' & -> & H1 & H2). exists c, r'. split; [auto|]. split; [auto|]. intros Hp. apply H2. lia. Qed.
Lemma follow_cons p c r : In c delims -> c <> "*"%char -> c <> "/"%char -> follow p (TCh c :: r).
Proof. intros H1 H2 H3. exists c, r. auto. Qed.
Lemma follow_mul p c r : 1 <= p -> In c delims -> follow p (TCh c :: r).
Proof. intros H1 H2. exists c, r. split; [auto|]. split; [auto|]. intros Hp. lia. Qed.

(** [parses env ts v p]: on a stack open at level p the tokens ts give an expression of value v. *)
Definition parses (env : text -> V) (ts : list tok) (v : V) (p : nat) : Prop :=
  forall st sy out b r, good_table env sy -> opens p st -> follow p r ->
  exists sy', good_table env sy' /\ star (mk st sy out b, ts ++ r) (mk (SE v :: st) sy' out b, r).

Ltac shift1 := eapply star_step; [apply shift_step; [|reflexivity|exact Logic.I|reflexivity]|].
Lemma shift_start l st sy out b c ts : opens l st -> c = "-"%char \/ c = "("%char ->
  step (mk st sy out b) (TCh c :: ts) = inl (mk (SCh c :: st) sy out b, ts).
Proof. intros H Hc. apply shift_step; [apply (opens_reduce l); auto|apply (opens_start l); auto; destruct Hc as [->| ->]; reflexivity|exact Logic.I|reflexivity]. Qed.
Lemma shift_close st sy out b v ts : good st -> step (mk (SE v :: SCh "(" :: st) sy out b) (TCh ")" :: ts) = inl (mk (SCh ")" :: SE v :: SCh "(" :: st) sy out b, ts).
Proof.
  intros G. apply shift_step; [crush_good st G; reflexivity| |exact Logic.I|reflexivity].
  unfold Mtool_model.act. cbn [stack act_expr]. crush_good st G; try reflexivity. match goal with |- context [SName _ :: ?u] => destruct u end; reflexivity.
Qed.
Lemma par_ok env ts v p : p <= 2 -> parses env ts v p -> forall l, l <= 2 -> parses env (if Nat.ltb p l then TCh "(" :: ts ++ [TCh ")"] else ts) v l.
Proof.
  intros Hp H l Hl st sy out b r T O F. destruct (Nat.ltb_spec p l) as [G|G].
  - cbn [app]. rewrite <- app_assoc. cbn [app].
    destruct (H (SCh "(" :: st) sy out b (TCh ")" :: r) T) as (sy' & T' & S).
    { constructor. apply (opens_good _ _ O). }
    { apply follow_cons; [cbn; tauto|discriminate|discriminate]. }
    exists sy'. split; auto. eapply star_step; [apply (shift_start l); auto|]. eapply star_trans; [exact S|].
    eapply star_step; [apply shift_close; apply (opens_good _ _ O)|]. apply star_one. apply reduce_step.
    destruct O as [l|l st O|l f st|l st O|l a st|l x|l a st O|l a st O|l a st O|l a st O|l st O1 O]; reflexivity.
  - apply H; auto; [apply (opens_mono l); auto|apply (follow_mono l); auto].
Qed.
Lemma add_ok env ta x tb y (c : ascii) (f : V -> V -> V) : (c = "+"%char /\ f = a_add A \/ c = "-"%char /\ f = a_sub A) ->
  parses env ta x 0 -> parses env tb y 1 -> parses env (ta ++ TCh c :: tb) (f x y) 0.
Proof.
  intros Hc Ha Hb st sy out b r T O F. rewrite <- app_assoc. cbn [app].
  destruct (Ha st sy out b (TCh c :: tb ++ r) T O) as (sy1 & T1 & S1).
  { apply follow_cons; destruct Hc as [[-> _]|[-> _]]; try discriminate; cbn; tauto. }
  destruct (Hb (SCh c :: SE x :: st) sy1 out b r T1) as (sy2 & T2 & S2).
  { destruct Hc as [[-> _]|[-> _]]; constructor; lia. }
  { apply (follow_mono 0); auto. }
  exists sy2. split; auto. eapply star_trans; [exact S1|].
  destruct (opens_shift 0 st sy1 out b x c O) as [R1 R2]; [destruct Hc as [[-> _]|[-> _]]; cbn; tauto|auto|].
  eapply star_step; [apply shift_step; [exact R1|exact R2|exact Logic.I|reflexivity]|]. eapply star_trans; [exact S2|].
  destruct F as (d & r' & -> & D1 & D2). destruct (D2 eq_refl) as [D3 D4].
  apply star_one. apply act_reduce_step; [destruct Hc as [[-> _]|[-> _]]; reflexivity| |exact Logic.I].
  unfold Mtool_model.act. cbn [stack act_expr]. assert (M : tmul (TCh d) = false) by (unfold tmul, tis; apply Ascii.eqb_neq in D3, D4; rewrite D3, D4; reflexivity).
  destruct Hc as [[-> ->]|[-> ->]]; [change (is "+" "+") with true|change (is "-" "+") with false; change (is "-" "-") with true]; cbn iota; rewrite M; reflexivity.
Qed.
Lemma mul_ok env ta x tb y (c : ascii) (f : V -> V -> V) : (c = "*"%char /\ f = a_mul A \/ c = "/"%char /\ f = divide A) ->
  parses env ta x 1 -> parses env tb y 2 -> parses env (ta ++ TCh c :: tb) (f x y) 1.
Proof.
  intros Hc Ha Hb st sy out b r T O F. rewrite <- app_assoc. cbn [app].
  destruct (Ha st sy out b (TCh c :: tb ++ r) T O) as (sy1 & T1 & S1).
  { apply follow_mul; auto. destruct Hc as [[-> _]|[-> _]]; cbn; tauto. }
  destruct (Hb (SCh c :: SE x :: st) sy1 out b r T1) as (sy2 & T2 & S2).
  { destruct Hc as [[-> _]|[-> _]]; constructor; lia. }
  { apply (follow_mono 1); auto. }
  exists sy2. split; auto. eapply star_trans; [exact S1|].
  destruct (opens_shift 1 st sy1 out b x c O) as [R1 R2]; [destruct Hc as [[-> _]|[-> _]]; cbn; tauto|right; split; auto; destruct Hc as [[-> _]|[-> _]]; auto|].
  eapply star_step; [apply shift_step; [exact R1|exact R2|exact Logic.I|reflexivity]|]. eapply star_trans; [exact S2|].
  apply star_one. apply reduce_step. destruct Hc as [[-> ->]|[-> ->]]; reflexivity.
Qed.
Lemma neg_ok env ts v : parses env ts v 2 -> parses env (TCh "-" :: ts) (a_neg A v) 2.
Proof.
  intros H st sy out b r T O F. cbn [app]. destruct (H (SCh "-" :: st) sy out b r T) as (sy' & T' & S); auto.
  { constructor; auto. apply (opens_good _ _ O). }
  exists sy'. split; auto. eapply star_step; [apply (shift_start 2); auto|]. eapply star_trans; [exact S|]. apply star_one. apply reduce_step.
  destruct O as [l|l st O|l f st|l st O|l a st|l x|l a st O|l a st O|l a st O|l a st O|l st O1 O]; reflexivity.
Qed.
Lemma num_ok env p w v : (digits w \/ pointed w \/ one_digit w) -> ev env (Num w) = Ok v -> parses env [num_tok w] v p.
Proof.
  intros H E st sy out b r T O F. exists sy. split; auto. cbn [app]. unfold num_tok. cbn [ev] in E. destruct (forallb isdigit w).
  - destruct (atoi w) as [z| |] eqn:Z; cbn [bind] in E; try discriminate. injection E as <-.
    eapply star_step; [apply shift_step; [apply (opens_reduce p); auto|apply (opens_start p); auto|exact Logic.I|reflexivity]|]. apply star_one. apply reduce_step.
    unfold Mtool_model.reduce. cbn [stack with_stack]. rewrite (opens_index p) by auto. rewrite Z. reflexivity.
  - injection E as <-. eapply star_step; [apply shift_step; [apply (opens_reduce p); auto|apply (opens_start p); auto|exact Logic.I|reflexivity]|]. apply star_one. apply reduce_step. reflexivity.
Qed.
Lemma shift_name env p st sy out b x ts : good_table env sy -> In x L -> opens p st ->
  exists sy', good_table env sy' /\ step (mk st sy out b) (TName x :: ts) = inl (mk (SName x :: st) sy' out b, ts) /\ In x (map name sy').
Proof.
  intros T H O. destruct (symlook_ok env sy x T H) as (sy' & E & T'). exists sy'. split; auto. split.
  - apply shift_step; [apply (opens_reduce p); auto|apply (opens_start p); auto|exact Logic.I|]. cbn [push table]. rewrite E. reflexivity.
  - unfold symlook in E. destruct (find_sym sy x) as [e|] eqn:Fs.
    + injection E as <-. apply find_some in Fs as [F1 F2]. apply text_eqb_eq in F2. subst. apply in_map. auto.
    + destruct (Nat.ltb _ _); [|discriminate]. injection E as <-. rewrite map_app. apply in_or_app. right. left. reflexivity.
Qed.
Lemma var_ok env p x : In x L -> parses env [TName x] (env x) p.
Proof.
  intros H st sy out b r T O F. destruct (shift_name env p st sy out b x r T H O) as (sy' & T' & S & _). exists sy'. split; auto. cbn [app].
  eapply star_step; [exact S|]. destruct F as (c & r' & -> & D & _). apply star_one. apply act_reduce_step; [reflexivity| |exact Logic.I].
  unfold Mtool_model.act. cbn [stack table with_stack]. destruct T' as (_ & _ & T' & _). rewrite <- (T' x).
  replace (tis (TCh c) "(" || tis (TCh c) "[" || _) with false; [reflexivity|]. unfold delims in D. cbn [In] in D. repeat destruct D as [<-|D]; try contradiction; destruct st; reflexivity.
Qed.
Lemma call_parses env p f ts v : In f L -> parses env ts v 0 ->
  parses env (TName f :: TCh "[" :: ts ++ [TCh "]"]) (match fn f with Some g => g v | None => zero end) p.
Proof.
  intros Hf H st sy out b r T O F. cbn [app]. rewrite <- app_assoc. cbn [app].
  destruct (shift_name env p st sy out b f (TCh "[" :: ts ++ TCh "]" :: r) T Hf O) as (sy1 & T1 & S1 & _).
  destruct (H (SCh "[" :: SName f :: st) sy1 out b (TCh "]" :: r) T1) as (sy2 & T2 & S2); [constructor|apply follow_cons; [cbn; tauto|discriminate|discriminate]|].
  exists sy2. split; auto. eapply star_step; [exact S1|]. shift1; [reflexivity|]. eapply star_trans; [exact S2|].
  eapply star_step; [apply shift_step; [reflexivity|destruct st; reflexivity|exact Logic.I|reflexivity]|]. apply star_one. apply reduce_step.
  rewrite <- (call_ok env sy2 f v T2). reflexivity.
Qed.
Lemma gamma_parses env p i v : (let* x := atoi i in gammapolch A chains x) = Ok v -> parses env [TKey KGamma; TCh "["; TInt i; TCh "]"] v p.
Proof.
  intros E st sy out b r T O F. exists sy. split; auto. cbn [app].
  eapply star_step; [apply shift_step; [apply (opens_reduce p); auto|apply (opens_start p); auto|exact Logic.I|reflexivity]|].
  do 3 (shift1; [reflexivity|]). apply star_one. apply reduce_step. unfold Mtool_model.reduce. cbn [stack with_stack]. unfold reduce_close.
  change (is "]" ")") with false. change (is "]" "]") with true. cbn iota. destruct (atoi i); cbn [bind] in *; try discriminate. rewrite E. reflexivity.
Qed.
Lemma coef_parses env p k i j v : k <> KGamma -> (let* x := atoi i in let* y := atoi j in coef chains coupling k x y) = Ok v ->
  parses env [TKey k; TCh "["; TInt i; TCh ","; TInt j; TCh "]"] v p.
Proof.
  intros Hk E st sy out b r T O F. exists sy. split; auto. cbn [app].
  eapply star_step; [apply shift_step; [apply (opens_reduce p); auto|apply (opens_start p); auto|exact Logic.I|reflexivity]|].
  do 2 (shift1; [reflexivity|]).
  eapply star_step; [apply shift_step; [reflexivity|destruct k; try contradiction; reflexivity|exact Logic.I|reflexivity]|].
  do 2 (shift1; [reflexivity|]). apply star_one. apply reduce_step. unfold Mtool_model.reduce. cbn [stack with_stack]. unfold reduce_close.
  change (is "]" ")") with false. change (is "]" "]") with true. cbn iota. destruct (atoi i); cbn [bind] in *; try discriminate. destruct (atoi j); cbn [bind] in *; try discriminate. rewrite E. reflexivity.
Qed.
Lemma bind_ok2 {B C} (x : res B) (f : B -> res C) c : (let* y := x in f y) = Ok c -> exists y, x = Ok y /\ f y = Ok c.
Proof. destruct x; cbn [bind]; intros H; try discriminate. eauto. Qed.
Definition names_ok (ns : list text) : Prop := forall x, In x ns -> In x reserved \/ In x L.
Lemma names_ok_app a b : names_ok (a ++ b) -> names_ok a /\ names_ok b.
Proof. intros H. split; intros x Hx; apply H; apply in_or_app; auto. Qed.
Lemma free_in x ns : names_ok ns -> In x ns -> free_name x -> In x L.
Proof. intros H1 H2 [_ H3]. destruct (H1 x H2); [contradiction|auto]. Qed.
Theorem parse_expr env e : readable e -> names_ok (expr_names e) -> forall v, ev env e = Ok v -> forall l, l <= 2 -> parses env (toks_at l e) v l.
Proof.
  induction 1 as [w H|w H|w H|x H|f e Hf He IH Hn|i H|f i j Hf Hi Hj|e He IH|a b Ha IHa Hb IHb|a b Ha IHa Hb IHb|a b Ha IHa Hb IHb|a b Ha IHa Hb IHb]; intros N v E l Hl.
  1-3: apply num_ok; [tauto|exact E].
  - cbn [toks_at ev] in *. injection E as <-. rewrite (word_free x H). apply var_ok. apply (free_in x [x]); cbn; auto.
  - cbn [toks_at]. rewrite (word_free f Hf). cbn [ev] in E. rewrite (word_free f Hf) in E. assert (E0 : (let* v := ev env e in Ok (match fn f with Some g => g v | None => zero end)) = Ok v) by (destruct e; exact E). clear E. rename E0 into E. apply bind_ok2 in E as (y & E & E2). injection E2 as <-.
    cbn [expr_names] in N. rewrite app_nil_r in N. apply call_parses; [apply (free_in f (f :: expr_names e)); cbn; auto|].
    apply IH; [intros x Hx; apply N; right; auto|exact E|lia].
  - cbn [toks_at app]. rewrite (num_tok_digits i H). apply gamma_parses. exact E.
  - cbn [toks_at app]. rewrite (num_tok_digits i Hi), (num_tok_digits j Hj).
    cbn [map In] in Hf. repeat destruct Hf as [<-|Hf]; try contradiction; apply coef_parses; try discriminate; exact E.
  - cbn [toks_at ev] in *. apply bind_ok2 in E as (y & E & E2). injection E2 as <-. apply (par_ok env _ _ 2); auto. apply neg_ok. apply IH; auto.
  - cbn [toks_at ev expr_names] in *. apply names_ok_app in N as [N1 N2]. apply bind_ok2 in E as (x & Ea & E). apply bind_ok2 in E as (y & Eb & E). injection E as <-.
    apply (par_ok env _ _ 0); auto. apply (add_ok env _ x _ y "+" (a_add A)); auto.
  - cbn [toks_at ev expr_names] in *. apply names_ok_app in N as [N1 N2]. apply bind_ok2 in E as (x & Ea & E). apply bind_ok2 in E as (y & Eb & E). injection E as <-.
    apply (par_ok env _ _ 0); auto. apply (add_ok env _ x _ y "-" (a_sub A)); auto.
  - cbn [toks_at ev expr_names] in *. apply names_ok_app in N as [N1 N2]. apply bind_ok2 in E as (x & Ea & E). apply bind_ok2 in E as (y & Eb & E). injection E as <-.
    apply (par_ok env _ _ 1); auto. apply (mul_ok env _ x _ y "*" (a_mul A)); auto.
  - cbn [toks_at ev expr_names] in *. apply names_ok_app in N as [N1 N2]. apply bind_ok2 in E as (x & Ea & E). apply bind_ok2 in E as (y & Eb & E). injection E as <-.
    apply (par_ok env _ _ 1); auto. apply (mul_ok env _ x _ y "/" (divide A)); auto.
Qed.
End P.
