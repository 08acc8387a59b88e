(** C34: lists of values, the shape of the matrix, and the whole evaluator. *)
From Coq Require Import List ZArith Bool Ascii String Lia.
From Verif Require Import Base Params_model Template_model Template_spec Template_lex Template_proofs Template_complete.
Import ListNotations.
Local Open Scope list_scope.

Lemma PE_none_free {V} (M : interp V) n s : (8 * List.length s + 4 <= n)%nat -> parse_expression M n s <> None.
Proof. apply (enough M n). Qed.

Section W.
Context {V : Type} (M : interp V).
Notation len := (@List.length ascii).
Notation PE := (parse_expression M).
Notation PV := (parse_value M).
Notation IL := (item_loop M).

(** The value of a tree: its expressions evaluated from left to right. *)
Fixpoint teval (t : tree) : res (value (V := V)) :=
  match t with
  | Scalar e => let* v := eval M e in Ok (VScalar v)
  | Items l => let* vs := (fix tevals l := match l with [] => Ok [] | t :: r => let* v := teval t in let* vs := tevals r in Ok (v :: vs) end) l in Ok (VList vs)
  end.
Lemma teval_items l : teval (Items l) = let* vs := mapM teval l in Ok (VList vs).
Proof. cbn [teval]. f_equal. induction l as [|t l IH]; [reflexivity|]. cbn [mapM]. destruct (teval t); [|reflexivity..]. cbn [bind]. rewrite IH. reflexivity. Qed.

Fixpoint tree_rect' (P : tree -> Prop) (HS : forall e, P (Scalar e)) (HI : forall l, Forall P l -> P (Items l)) (t : tree) : P t :=
  match t with
  | Scalar e => HS e
  | Items l => HI l ((fix all l := match l return Forall P l with [] => Forall_nil P | t :: r => Forall_cons t (tree_rect' P HS HI t) (all r) end) l)
  end.

(** ** Lengths, sufficient depth, monotonicity *)
Lemma vlengths n :
  (forall s v r, PV n s = Some (Ok (v, r)) -> len r <= len s)%nat /\ (forall s v r, IL n s = Some (Ok (v, r)) -> len r <= len s)%nat.
Proof.
  induction n as [|n [I1 I2]]; [split; intros; discriminate|]. split; intros s v r H.
  - rewrite PV_S, consume_skip in H. destruct (consume "{" s) as [[] t] eqn:C1; apply consume_length in C1.
    + rewrite consume_skip in H. destruct (consume "}" t) as [[] u] eqn:C2; apply consume_length in C2.
      * injection H as <- <-. lia.
      * destruct (IL n u) as [[[vs w]| |]|] eqn:E; cbn [rbind] in H; try discriminate. injection H as <- <-. apply I2 in E. lia.
    + destruct (PE n t) as [[[x w]| |]|] eqn:E; cbn [rbind] in H; try discriminate. injection H as <- <-. apply (lengths M n) in E. lia.
  - rewrite IL_S in H. destruct (PV n s) as [[[x w]| |]|] eqn:E; cbn [rbind] in H; try discriminate. apply I1 in E.
    destruct (consume "}" w) as [[] t] eqn:C1; apply consume_length in C1; [injection H as <- <-; lia|].
    destruct (consume "," t) as [[] u] eqn:C2; apply consume_length in C2; [|discriminate].
    destruct (IL n u) as [[[vs y]| |]|] eqn:E2; cbn [rbind] in H; try discriminate. injection H as <- <-. apply I2 in E2. lia.
Qed.
Lemma venough n :
  (forall s, (8 * len s + 5 <= n)%nat -> PV n s <> None) /\ (forall s, (8 * len s + 6 <= n)%nat -> IL n s <> None).
Proof.
  induction n as [|n [I1 I2]]; [split; intros; lia|]. destruct (vlengths n) as [L1 L2]. split; intros s Hn H.
  - rewrite PV_S, consume_skip in H. destruct (consume "{" s) as [[] t] eqn:C1; apply consume_length in C1.
    + rewrite consume_skip in H. destruct (consume "}" t) as [[] u] eqn:C2; apply consume_length in C2; [discriminate|].
      destruct (IL n u) as [[[vs w]| |]|] eqn:E; cbn [rbind] in H; try discriminate. revert E. apply I2. lia.
    + destruct (PE n t) as [[[x w]| |]|] eqn:E; cbn [rbind] in H; try discriminate. revert E. apply PE_none_free. lia.
  - rewrite IL_S in H. destruct (PV n s) as [[[x w]| |]|] eqn:E; cbn [rbind] in H; try discriminate; [|revert E; apply I1; lia].
    apply L1 in E. destruct (consume "}" w) as [[] t] eqn:C1; apply consume_length in C1; [discriminate|].
    destruct (consume "," t) as [[] u] eqn:C2; apply consume_length in C2; [|discriminate].
    destruct (IL n u) as [[[vs y]| |]|] eqn:E2; cbn [rbind] in H; try discriminate. revert E2. apply I2. lia.
Qed.
Lemma vmore n : (forall s r, PV n s = Some r -> PV (S n) s = Some r) /\ (forall s r, IL n s = Some r -> IL (S n) s = Some r).
Proof.
  induction n as [|n [I1 I2]]; [split; intros; discriminate|]. split; intros s r H.
  - rewrite PV_S in H. rewrite PV_S. destruct (consume "{" (skip_ignored s)) as [[] t].
    + destruct (consume "}" (skip_ignored t)) as [[] u]; [auto|]. destruct (IL n u) as [q|] eqn:E; [|discriminate]. rewrite (I2 _ _ E). auto.
    + destruct (PE n t) as [q|] eqn:E; [|discriminate]. rewrite (PE_le M n _ _ (S n) (Nat.le_succ_diag_r n) E). auto.
  - rewrite IL_S in H. rewrite IL_S. destruct (PV n s) as [q|] eqn:E; [|discriminate]. rewrite (I1 _ _ E). destruct q as [[x w]| |]; cbn [rbind] in *; auto.
    destruct (consume "}" w) as [[] t]; [auto|]. destruct (consume "," t) as [[] u]; [|auto]. destruct (IL n u) as [q|] eqn:E2; [|discriminate]. rewrite (I2 _ _ E2). auto.
Qed.
Lemma PV_le n s r m : (n <= m)%nat -> PV n s = Some r -> PV m s = Some r.
Proof. induction 1; intros; auto. apply vmore; auto. Qed.
Lemma IL_le n s r m : (n <= m)%nat -> IL n s = Some r -> IL m s = Some r.
Proof. induction 1; intros; auto. apply vmore; auto. Qed.

(** ** Soundness *)
Lemma vsound n :
  (forall s v r, PV n s = Some (Ok (v, r)) -> exists w t r0, s = w ++ r0 /\ Value w t /\ teval t = Ok v /\ skip_ignored r0 = skip_ignored r) /\
  (forall s vs r, IL n s = Some (Ok (vs, r)) -> exists w l, s = w ++ "}"%char :: r /\ Values w l /\ mapM teval l = Ok vs).
Proof.
  induction n as [|n [I1 I2]]; [split; intros; discriminate|]. split; intros s v r H.
  - rewrite PV_S, consume_skip in H. destruct (consume "{" s) as [[] t] eqn:C1.
    + destruct (consume_true _ _ _ C1) as (i & Hi & ->). rewrite consume_skip in H. destruct (consume "}" t) as [[] u] eqn:C2.
      * injection H as <- <-. destruct (consume_true _ _ _ C2) as (j & Hj & ->). exists (i ++ "{"%char :: j ++ ["}"%char]), (Items []), u.
        split; [rewrite <- app_assoc; cbn [app]; rewrite <- app_assoc; reflexivity|]. split; [apply V_empty; auto|auto].
      * rewrite (IL_skip M _ _ t) in H by (eapply consume_false'; eauto). destruct (IL n t) as [[[vs w]| |]|] eqn:E; cbn [rbind] in H; try discriminate. injection H as <- <-.
        destruct (I2 _ _ _ E) as (w1 & l & -> & D & Ev). exists (i ++ "{"%char :: w1 ++ ["}"%char]), (Items l), w.
        split; [rewrite <- app_assoc; cbn [app]; rewrite <- app_assoc; reflexivity|]. split; [apply V_list; auto|]. split; [rewrite teval_items, Ev; reflexivity|auto].
    + rewrite (PE_skip M _ _ s) in H by (eapply consume_false'; eauto).
      destruct (PE n s) as [[[x w]| |]|] eqn:E; cbn [rbind] in H; try discriminate. injection H as <- <-.
      destruct (proj1 (sound M n) _ _ _ E) as (w0 & e & r0 & -> & D & Ev & Er). exists w0, (Scalar e), r0. split; [auto|]. split; [apply V_scalar; auto|].
      split; [cbn [teval]; rewrite Ev; reflexivity|auto].
  - rewrite IL_S in H. destruct (PV n s) as [[[x w]| |]|] eqn:E; cbn [rbind] in H; try discriminate.
    destruct (I1 _ _ _ E) as (w0 & t0 & r0 & -> & D & Ev & Er). destruct (consume "}" w) as [[] t] eqn:C1.
    + injection H as <- <-. destruct (consume_true' _ _ r0 _ C1 Er) as (i & Hi & ->). exists (w0 ++ i), [t0]. split; [rewrite <- app_assoc; auto|].
      split; [apply L_one; auto|]. cbn [mapM]. rewrite Ev. reflexivity.
    + destruct (consume "," t) as [[] u] eqn:C2; [|discriminate]. destruct (consume_true' _ _ r0 _ C2) as (i & Hi & ->). { rewrite Er. symmetry. eapply consume_false'; eauto. }
      destruct (IL n u) as [[[vs y]| |]|] eqn:E2; cbn [rbind] in H; try discriminate. injection H as <- <-.
      destruct (I2 _ _ _ E2) as (w1 & l & -> & D1 & Ev1). exists (w0 ++ i ++ ","%char :: w1), (t0 :: l). split; [rewrite <- !app_assoc; reflexivity|].
      split; [apply L_more; auto|]. cbn [mapM]. rewrite Ev, Ev1. reflexivity.
Qed.

(** ** Completeness *)
Definition vgives (s : text) (q : res (value (V := V))) (r : text) : Prop := exists n,
  match q with Ok v => exists r', PV n s = Some (Ok (v, r')) /\ skip_ignored r' = skip_ignored r | Throw => PV n s = Some Throw | UB => PV n s = Some UB end.
Definition igives (s : text) (q : res (list (value (V := V)))) (r : text) : Prop := exists n,
  match q with Ok v => IL n s = Some (Ok (v, r)) | Throw => IL n s = Some Throw | UB => IL n s = Some UB end.
Ltac fol := apply follow_ign; [assumption|stopper|split; [reflexivity|discriminate]|cbn [In]; intuition discriminate].
Lemma value_head w t : Value w t -> forall r, exists c u, skip_ignored (w ++ r) = c :: u /\ c <> "}"%char.
Proof.
  destruct 1; intros r.
  - destruct (expression_head _ _ H r) as (c & u & E & (_ & N & _)). eauto.
  - rewrite <- app_assoc, (skip_app _ _ H). cbn [app]. rewrite skip_cons by (split; [reflexivity|discriminate]). do 2 eexists. split; [reflexivity|discriminate].
  - rewrite <- app_assoc, (skip_app _ _ H). cbn [app]. rewrite skip_cons by (split; [reflexivity|discriminate]). do 2 eexists. split; [reflexivity|discriminate].
Qed.
Lemma values_head w l : Values w l -> forall r, exists c u, skip_ignored (w ++ r) = c :: u /\ c <> "}"%char.
Proof. destruct 1; intros r; rewrite <- app_assoc; eapply value_head; eauto. Qed.

Theorem vcomplete :
  (forall w t, Value w t -> forall r, follow FE r -> vgives (w ++ r) (teval t) r) /\
  (forall w l, Values w l -> forall r, igives (w ++ "}"%char :: r) (mapM teval l) r).
Proof.
  apply values_ind.
  - intros w e He r Hr. assert (HE : gives (fun n => PE n (w ++ r)) (eval M e) r).
    { eapply leads_gives; [apply (complete M); [auto|eapply (follow_sub FE); [cbn [In]; intuition auto|auto]]|intros v; apply SL_stop; auto]. }
    destruct HE as (n & HE). exists (S n). destruct (expression_head _ _ He r) as (c & u & Ec & (N & _)).
    assert (E : PV (S n) (w ++ r) = let? (v, s) := PE n (w ++ r) in Some (Ok (VScalar v, s))).
    { rewrite PV_S, consume_skip. rewrite consume_miss by (intros x; rewrite Ec; congruence). rewrite (PE_skip M _ _ (w ++ r)) by apply skip_idem. reflexivity. }
    rewrite E. cbn [teval]. destruct (eval M e) as [v| |]; cbn [bind]; [|rewrite HE; reflexivity..]. destruct HE as (r' & H1 & H2). rewrite H1. exists r'. auto.
  - intros i j Hi Hj r Hr. rewrite <- app_assoc. cbn [app]. rewrite <- app_assoc. cbn [app]. exists 1%nat. rewrite teval_items. cbn [mapM bind].
    rewrite PV_S, consume_skip, consume_hit' by (first [assumption|split; [reflexivity|discriminate]]). cbn iota. rewrite consume_skip, consume_hit' by (first [assumption|split; [reflexivity|discriminate]]).
    exists r. auto.
  - intros i w l Hi Hl IH r Hr. rewrite <- app_assoc. cbn [app]. rewrite <- app_assoc. cbn [app]. rewrite teval_items. destruct (IH r) as (n & H). exists (S n).
    destruct (values_head _ _ Hl ("}"%char :: r)) as (c & u & Ec & N).
    assert (E : PV (S n) (i ++ "{"%char :: w ++ "}"%char :: r) = let? (vs, s) := IL n (w ++ "}"%char :: r) in Some (Ok (VList vs, s))).
    { rewrite PV_S, consume_skip, consume_hit' by (first [assumption|split; [reflexivity|discriminate]]). cbn iota. rewrite consume_skip.
      rewrite consume_miss by (intros x; rewrite Ec; congruence). rewrite (IL_skip M _ _ (w ++ "}"%char :: r)) by apply skip_idem. reflexivity. }
    rewrite E. destruct (mapM teval l) as [vs| |]; cbn [bind]; [|rewrite H; reflexivity..]. rewrite H. exists r. auto.
  - intros w t i Hv IH Hi r. rewrite <- app_assoc. destruct (IH (i ++ "}"%char :: r)) as (n & H). { fol. }
    exists (S n). rewrite IL_S. cbn [mapM]. destruct (teval t) as [v| |]; cbn [bind]; [|rewrite H; reflexivity..]. destruct H as (r' & H1 & H2). rewrite H1. cbn [rbind].
    rewrite (consume_hit _ _ r); [reflexivity|]. rewrite H2, skip_app by auto. apply skip_cons. split; [reflexivity|discriminate].
  - intros w t i v l Hv IH Hi Hl IHl r. rewrite <- !app_assoc. cbn [app]. destruct (IH (i ++ ","%char :: v ++ "}"%char :: r)) as (n & H). { fol. }
    destruct (IHl r) as (m & HL). exists (S (max n m)). rewrite IL_S. cbn [mapM].
    destruct (teval t) as [y| |]; cbn [bind]; [|rewrite (PV_le n _ _ (max n m) (Nat.le_max_l _ _) H); reflexivity..].
    destruct H as (r' & H1 & H2). rewrite (PV_le n _ _ (max n m) (Nat.le_max_l _ _) H1). cbn [rbind].
    assert (Sk : skip_ignored r' = ","%char :: v ++ "}"%char :: r). { rewrite H2, skip_app by auto. apply skip_cons. split; [reflexivity|discriminate]. }
    rewrite consume_miss by (intros u; rewrite Sk; discriminate). cbn iota. rewrite consume_skip, (consume_hit _ _ _ Sk).
    assert (IL1 : forall q, IL m (v ++ "}"%char :: r) = Some q -> IL (max n m) (v ++ "}"%char :: r) = Some q) by (intros q; apply IL_le; lia).
    destruct (mapM teval l); cbn [bind]; rewrite (IL1 _ HL); reflexivity.
Qed.

(** ** Shape *)
Lemma mapM_app {A B} (f : A -> res B) l1 l2 : mapM f (l1 ++ l2) = let* a := mapM f l1 in let* b := mapM f l2 in Ok (a ++ b).
Proof.
  induction l1 as [|x l1 IH]; cbn [mapM app bind]; [destruct (mapM f l2); reflexivity|]. destruct (f x); [|reflexivity..]. cbn [bind]. rewrite IH.
  destruct (mapM f l1); [|reflexivity..]. cbn [bind]. destruct (mapM f l2); reflexivity.
Qed.
Lemma leaves_items l : leaves (Items l) = List.concat (map leaves l).
Proof. cbn [leaves]. induction l as [|t l IH]; [reflexivity|]. cbn [map List.concat]. rewrite IH. reflexivity. Qed.
Definition same {A B} (x : res A) (y : res B) : Prop := match x, y with Ok _, Ok _ => True | Throw, Throw => True | UB, UB => True | _, _ => False end.
Lemma teval_leaves t : same (mapM (eval M) (leaves t)) (teval t).
Proof.
  induction t as [e|l IH] using tree_rect'.
  - cbn [leaves teval mapM]. destruct (eval M e); exact Logic.I.
  - rewrite leaves_items, teval_items. induction IH as [|t l Ht _ IHl]; [exact Logic.I|]. cbn [map List.concat mapM]. rewrite mapM_app.
    destruct (mapM (eval M) (leaves t)), (teval t); cbn [same bind] in *; try contradiction; auto.
    destruct (mapM (eval M) (List.concat (map leaves l))), (mapM teval l); cbn [same bind] in *; try contradiction; auto.
Qed.
Definition scalars (l : list tree) : option (list expr) := fold_right (fun t o => match t, o with Scalar e, Some es => Some (e :: es) | _, _ => None end) (Some []) l.
Lemma scalars_ok l vs : mapM teval l = Ok vs ->
  match scalars l with Some es => exists xs, mapM (eval M) es = Ok xs /\ mapM scalar vs = Ok xs /\ List.length es = List.length l | None => mapM scalar vs = Throw end.
Proof.
  revert vs; induction l as [|t l IH]; intros vs H; cbn [mapM] in H.
  - injection H as <-. exists []. auto.
  - destruct (teval t) as [v| |] eqn:E; cbn [bind] in H; try discriminate. destruct (mapM teval l) as [us| |] eqn:E2; cbn [bind] in H; try discriminate. injection H as <-.
    specialize (IH us eq_refl). cbn [scalars fold_right]. fold (scalars l). destruct t as [e|k].
    + cbn [teval] in E. destruct (eval M e) as [x| |] eqn:Ee; cbn [bind] in E; try discriminate. injection E as <-. destruct (scalars l) as [es|].
      * destruct IH as (xs & H1 & H2 & H3). exists (x :: xs). cbn [mapM scalar bind List.length]. rewrite Ee, H1, H2. auto.
      * cbn [mapM scalar bind]. rewrite IH. reflexivity.
    + rewrite teval_items in E. destruct (mapM teval k); cbn [bind] in E; try discriminate. injection E as <-. reflexivity.
Qed.
Lemma row_of_items l : row_of (Items l) = scalars l. Proof. reflexivity. Qed.
Notation rowM cols := (fun r : value (V := V) => match r with VScalar _ => Throw | VList items => if Nat.eqb (List.length items) cols then mapM scalar items else Throw end).
Lemma mapM_length {A B} (f : A -> res B) l ys : mapM f l = Ok ys -> List.length ys = List.length l.
Proof. revert ys; induction l as [|x l IH]; cbn [mapM]; intros ys H; [injection H as <-; auto|]. destruct (f x); cbn [bind] in H; try discriminate. destruct (mapM f l); cbn [bind] in H; try discriminate. injection H as <-. cbn [List.length]. f_equal. auto. Qed.
Definition good (cols : nat) (o : option (list expr)) : bool := match o with Some r => Nat.eqb (List.length r) cols | None => false end.
Lemma rows_ok cols l vs : mapM teval l = Ok vs ->
  if forallb (good cols) (map row_of l)
  then exists m, mapM (mapM (eval M)) (map (fun o => match o with Some r => r | None => [] end) (map row_of l)) = Ok m /\ mapM (rowM cols) vs = Ok m
  else mapM (rowM cols) vs = Throw.
Proof.
  revert vs; induction l as [|t l IH]; intros vs H; cbn [mapM] in H.
  - injection H as <-. exists []. auto.
  - destruct (teval t) as [v| |] eqn:E; cbn [bind] in H; try discriminate. destruct (mapM teval l) as [us| |] eqn:E2; cbn [bind] in H; try discriminate. injection H as <-.
    specialize (IH us eq_refl). cbn [map forallb]. destruct t as [e|k].
    + cbn [teval] in E. destruct (eval M e); cbn [bind] in E; try discriminate. injection E as <-. reflexivity.
    + rewrite teval_items in E. destruct (mapM teval k) as [ks| |] eqn:Ek; cbn [bind] in E; try discriminate. injection E as <-.
      rewrite row_of_items. pose proof (scalars_ok k ks Ek) as Sk. pose proof (mapM_length _ _ _ Ek) as Lk. cbn [mapM].
      destruct (scalars k) as [es|].
      * destruct Sk as (xs & H1 & H2 & H3). cbn [good]. rewrite Lk, H3. destruct (Nat.eqb (List.length k) cols); cbn [andb]; [|reflexivity].
        rewrite H1, H2. cbn [bind]. destruct (forallb (good cols) (map row_of l)).
        -- destruct IH as (m & G1 & G2). exists (xs :: m). rewrite G1, G2. auto.
        -- rewrite IH. reflexivity.
      * cbn [good andb]. rewrite Sk. destruct (Nat.eqb (List.length ks) cols); reflexivity.
Qed.
Lemma denote_ok t : (let* v := teval t in to_matrix v) = denote M t.
Proof.
  unfold denote. pose proof (teval_leaves t) as S. destruct (mapM (eval M) (leaves t)), (teval t) as [v| |] eqn:E; cbn [same] in S; try contradiction; try reflexivity. clear S. cbn [bind].
  destruct t as [e|[|[e|k] l]].
  - cbn [teval] in E. cbn [rows_of mapM]. destruct (eval M e); cbn [bind] in *; try discriminate. injection E as <-. reflexivity.
  - injection E as <-. reflexivity.
  - rewrite teval_items in E. destruct (mapM teval (Scalar e :: l)) as [vs| |] eqn:Ev; cbn [bind] in E; try discriminate. injection E as <-.
    pose proof (scalars_ok _ _ Ev) as Sk. pose proof (mapM_length _ _ _ Ev) as Lk. cbn [rows_of]. rewrite row_of_items.
    assert (Hv : exists x vt, vs = VScalar x :: vt).
    { cbn [mapM teval] in Ev. destruct (eval M e); cbn [bind] in Ev; try discriminate. destruct (mapM teval l); cbn [bind] in Ev; try discriminate. injection Ev as <-. eauto. }
    destruct Hv as (x & vt & ->). unfold to_matrix. destruct (scalars (Scalar e :: l)) as [es|].
    + destruct Sk as (xs & H1 & H2 & H3). rewrite H2. cbn [bind mapM]. rewrite H1. cbn [bind List.length columns_of] in *. rewrite Lk. reflexivity.
    + rewrite Sk. reflexivity.
  - rewrite teval_items in E. destruct (mapM teval (Items k :: l)) as [vs| |] eqn:Ev; cbn [bind] in E; try discriminate. injection E as <-.
    pose proof (rows_ok (List.length k) _ _ Ev) as Sk. pose proof (mapM_length _ _ _ Ev) as Lk.
    assert (Hv : exists ks vt, vs = VList ks :: vt /\ List.length ks = List.length k).
    { cbn [mapM] in Ev. rewrite teval_items in Ev. destruct (mapM teval k) as [ks| |] eqn:Ek; cbn [bind] in Ev; try discriminate. destruct (mapM teval l); cbn [bind] in Ev; try discriminate. injection Ev as <-.
      do 2 eexists. split; [reflexivity|]. eapply mapM_length; eauto. }
    destruct Hv as (ks & vt & -> & Lks). unfold to_matrix. cbn zeta. rewrite Lks. unfold rows_of. cbn zeta. fold (good (List.length k)).
    change (fun o : option (list expr) => match o with Some r => Nat.eqb (List.length r) (List.length k) | None => false end) with (good (List.length k)).
    destruct (forallb (good (List.length k)) (map row_of (Items k :: l))).
    + destruct Sk as (m & G1 & G2). rewrite G1, G2. cbn [bind]. rewrite Lk. rewrite !map_length. reflexivity.
    + rewrite Sk. reflexivity.
Qed.

(** ** Shell escapes *)
(** No exclamation mark outside a comment. *)
Fixpoint quiet (comment : bool) (s : text) : bool :=
  match s with
  | [] => true
  | c :: t => if Ascii.eqb c newline then quiet false t else if Ascii.eqb c "#" then quiet true t else
      if Ascii.eqb c "!" then comment && quiet comment t else quiet comment t
  end.
Definition transparent (w : text) : Prop := forall r, quiet false (w ++ r) = quiet false r.
Lemma tr_app a b : transparent a -> transparent b -> transparent (a ++ b).
Proof. intros Ha Hb r. rewrite <- app_assoc, Ha. apply Hb. Qed.
Lemma tr_nil : transparent []. Proof. intros r. reflexivity. Qed.
Lemma tr_cons c t : c <> "#"%char -> c <> "!"%char -> transparent t -> transparent (c :: t).
Proof.
  intros H1 H2 Ht r. cbn [app quiet]. destruct (Ascii.eqb_spec c newline); [apply Ht|]. destruct (Ascii.eqb_spec c "#"); [contradiction|]. destruct (Ascii.eqb_spec c "!"); [contradiction|apply Ht].
Qed.
Lemma quiet_comment c t : ~ In newline c -> quiet true (c ++ newline :: t) = quiet false t.
Proof.
  induction c as [|a c IH]; intros H; [reflexivity|]. cbn [app quiet]. destruct (Ascii.eqb_spec a newline); [subst; exfalso; apply H; left; auto|].
  rewrite IH by (intros Q; apply H; right; auto). destruct (Ascii.eqb a "#"), (Ascii.eqb a "!"); reflexivity.
Qed.
Lemma quiet_comment_end c : ~ In newline c -> quiet true c = true.
Proof.
  induction c as [|a c IH]; intros H; [reflexivity|]. cbn [quiet]. destruct (Ascii.eqb_spec a newline); [subst; exfalso; apply H; left; auto|].
  rewrite IH by (intros Q; apply H; right; auto). destruct (Ascii.eqb a "#"), (Ascii.eqb a "!"); reflexivity.
Qed.
Lemma space_plain c : isspace c = true -> c <> "#"%char /\ c <> "!"%char.
Proof. intros H. split; intros ->; discriminate. Qed.
Lemma tr_ign i : ignorable i -> transparent i.
Proof.
  induction 1; [apply tr_nil| |].
  - apply tr_cons; auto; apply space_plain; auto.
  - intros r. cbn [app]. rewrite <- app_assoc. cbn [app]. change (quiet false ("#"%char :: c ++ newline :: w ++ r)) with (quiet true (c ++ newline :: w ++ r)).
    rewrite quiet_comment by auto. apply IHignorable.
Qed.
Lemma tr_all w : Forall (fun c => c <> "#"%char /\ c <> "!"%char) w -> transparent w.
Proof. induction 1; [apply tr_nil|]. apply tr_cons; tauto. Qed.
Lemma tr_ident f : identifier f -> transparent f.
Proof.
  intros (c & t & -> & Hc & Ht). apply tr_all. constructor.
  - destruct Hc as [H| ->]; [|split; discriminate]. split; intros ->; discriminate.
  - eapply Forall_impl; [|eauto]. intros d [H| ->]; [|split; discriminate]. split; intros ->; discriminate.
Qed.
Lemma tr_digits p m : p "#"%char = false -> p "!"%char = false -> digits_with_point p m -> transparent m.
Proof.
  intros H1 H2. assert (HA : forall w, all_are p w -> transparent w).
  { intros w H. apply tr_all. eapply Forall_impl; [|eauto]. intros c Hc. split; intros ->; congruence. }
  intros [[_ H]|(a & b & -> & _ & Ha & Hb)]; [auto|]. apply tr_app; [auto|]. apply tr_cons; [discriminate|discriminate|auto].
Qed.
Lemma tr_exp e E x : e <> "#"%char -> e <> "!"%char -> E <> "#"%char -> E <> "!"%char -> exponent_part e E x -> transparent x.
Proof.
  intros H1 H2 H3 H4 [->|(c & s & d & -> & Hc & Hs & _ & Hd)]; [apply tr_nil|].
  apply tr_cons; [destruct Hc; subst; auto..|]. apply tr_app.
  - destruct Hs as [->|[->| ->]]; [apply tr_nil|apply tr_cons; [discriminate..|apply tr_nil]|apply tr_cons; [discriminate..|apply tr_nil]].
  - apply tr_all. eapply Forall_impl; [|eauto]. intros a Ha. split; intros ->; discriminate.
Qed.
Lemma tr_number w : number w -> transparent w.
Proof.
  intros [(m & x & -> & Hm & Hx)|(c & m & x & -> & Hc & Hm & Hx)].
  - apply tr_app; [eapply (tr_digits isdigit); eauto|eapply tr_exp; [| | | |eauto]; discriminate].
  - apply tr_cons; [discriminate..|]. apply tr_cons; [destruct Hc; subst; discriminate..|]. apply tr_app; [eapply (tr_digits isxdigit); eauto|eapply tr_exp; [| | | |eauto]; discriminate].
Qed.
Ltac tr := repeat first [assumption | apply tr_nil | apply tr_ign; assumption | apply tr_ident; assumption | apply tr_number; assumption | apply tr_cons; [discriminate|discriminate|] | apply tr_app].
Lemma tr_grammar :
  (forall w e, Primary w e -> transparent w) /\ (forall w e, Unary w e -> transparent w) /\ (forall w e, Product w e -> transparent w) /\
  (forall w e, Expression w e -> transparent w) /\ (forall w l, Arguments_ w l -> transparent w) /\ (forall w l, Arguments1 w l -> transparent w).
Proof.
  apply grammar_ind; intros; tr.
  destruct H2 as [H2|H2]; injection H2 as -> ->; tr.
Qed.
Lemma tr_values : (forall w t, Value w t -> transparent w) /\ (forall w l, Values w l -> transparent w).
Proof. apply values_ind; intros; tr. destruct tr_grammar as (_ & _ & _ & G & _). eapply G; eauto. Qed.
Lemma quiet_trailing z : trailing z -> quiet false z = true.
Proof.
  intros (i & c & Hi & Hc & [->| ->]).
  - rewrite <- (app_nil_r i), (tr_ign i Hi). reflexivity.
  - rewrite (tr_ign i Hi). change (quiet true c = true). apply quiet_comment_end. auto.
Qed.
Lemma lines_of_ne s : exists l ls, lines_of s = l :: ls.
Proof. induction s as [|c s (l & ls & E)]; [do 2 eexists; reflexivity|]. cbn [lines_of]. rewrite E. destruct (Ascii.eqb c newline); do 2 eexists; reflexivity. Qed.
(** comment: inside a comment; the first line may then begin with anything. *)
Lemma quiet_lines s : forall comment, quiet comment s = true -> match lines_of s with l :: ls => (comment = false -> shell_escape l = false) /\ existsb shell_escape ls = false | [] => False end.
Proof.
  induction s as [|c s IH]; intros cm H; [split; auto|]. cbn [lines_of quiet] in *. destruct (Ascii.eqb_spec c newline) as [->|Hn].
  - specialize (IH _ H). destruct (lines_of s) as [|l ls]; [contradiction|]. destruct IH as [H1 H2]. split; [auto|]. cbn [existsb]. rewrite (H1 eq_refl), H2. auto.
  - assert (Hq : quiet cm s = true \/ c = "#"%char /\ quiet true s = true).
    { destruct (Ascii.eqb_spec c "#"); [right; auto|]. destruct (Ascii.eqb c "!"); [apply andb_prop in H; left; tauto|left; auto]. }
    destruct Hq as [Hq|[-> Hq]].
    + specialize (IH _ Hq). destruct (lines_of s) as [|l ls]; [contradiction|]. destruct IH as [H1 H2]. split; [|auto]. intros ->.
      unfold shell_escape. cbn [span]. destruct (isblank c) eqn:Eb.
      * specialize (H1 eq_refl). unfold shell_escape in H1. destruct (span isblank l). exact H1.
      * cbn [snd]. destruct (Ascii.eqb_spec c "!"); [|auto]. subst. discriminate.
    + specialize (IH _ Hq). destruct (lines_of s) as [|l ls]; [contradiction|]. destruct IH as [H1 H2]. split; [|auto]. intros _. reflexivity.
Qed.
Lemma no_escape s t : Template s t -> reject_shell_escapes s = Ok tt.
Proof.
  intros (w & z & -> & Hw & Hz). assert (Q : quiet false (w ++ z) = true). { rewrite (proj1 tr_values _ _ Hw). apply quiet_trailing; auto. }
  apply quiet_lines in Q. unfold reject_shell_escapes. destruct (lines_of (w ++ z)) as [|l ls]; [contradiction|]. destruct Q as [H1 H2]. cbn [existsb]. rewrite (H1 eq_refl), H2. reflexivity.
Qed.

(** ** The whole evaluator *)
Lemma follow_trailing cs z : trailing z -> follow cs z.
Proof. intros H. split; [apply boundary_trailing; auto|]. intros c u E. rewrite (trailing_skip _ H) in E. discriminate. Qed.

Theorem bound_irrelevant s n : (8 * len s + 16 <= n)%nat -> evaluate_bounded M n s = Some (evaluate_matrix M s).
Proof.
  intros Hn. unfold evaluate_matrix. set (N := (8 * len s + 16)%nat) in *.
  assert (E : PV n s = PV N s).
  { destruct (PV N s) as [r|] eqn:E; [|exfalso; revert E; apply venough; unfold N; lia]. apply (PV_le N); auto. }
  assert (E2 : exists r, PV N s = Some r). { destruct (PV N s) eqn:E2; [eauto|exfalso; revert E2; apply venough; unfold N; lia]. }
  unfold evaluate_bounded. rewrite E. destruct E2 as (r & ->). destruct (reject_shell_escapes s); cbn [rbind]; auto.
  destruct r as [[v r']| |]; cbn [rbind]; auto. destruct (skip_ignored r'); auto.
Qed.
Theorem accepts s t : Template s t -> evaluate_matrix M s = denote M t.
Proof.
  intros HT. pose proof (no_escape s t HT) as NE. destruct HT as (w & z & -> & Hw & Hz). rewrite <- denote_ok.
  destruct (proj1 vcomplete w t Hw z (follow_trailing _ _ Hz)) as (n & H). set (s := w ++ z) in *.
  assert (E : evaluate_bounded M (max n (8 * len s + 16)) s = Some (let* v := teval t in to_matrix v)).
  { unfold evaluate_bounded. rewrite NE. cbn [rbind].
    assert (Le : forall q, PV n s = Some q -> PV (max n (8 * len s + 16)) s = Some q) by (intros q; apply PV_le; lia).
    destruct (teval t) as [v| |]; cbn [bind]; [|rewrite (Le _ H); reflexivity..]. destruct H as (r' & H1 & H2). rewrite (Le _ H1). cbn [rbind].
    rewrite H2, (trailing_skip _ Hz). reflexivity. }
  rewrite bound_irrelevant in E by lia. injection E as E. auto.
Qed.
Theorem rejects s m : evaluate_matrix M s = Ok m -> exists t, Template s t /\ denote M t = Ok m.
Proof.
  intros H. unfold evaluate_matrix, evaluate_bounded in H. destruct (reject_shell_escapes s); cbn [rbind] in H; try discriminate.
  destruct (PV (8 * len s + 16) s) as [[[v r]| |]|] eqn:E; cbn [rbind] in H; try discriminate.
  destruct (skip_ignored r) eqn:Er; [|discriminate]. destruct (proj1 (vsound _) _ _ _ E) as (w & t & r0 & -> & D & Ev & Es). exists t. split.
  - exists w, r0. split; [auto|]. split; [auto|]. apply skip_none. congruence.
  - rewrite <- denote_ok, Ev. auto.
Qed.

(** ** Printing *)
Fixpoint expr_rect' (P : expr -> Prop) (HN : forall w, P (Num w)) (HV : forall x, P (Var x)) (HC : forall f l, Forall P l -> P (Call f l))
  (HP : forall e, P e -> P (Pos e)) (HM : forall e, P e -> P (Neg e)) (H1 : forall a b, P a -> P b -> P (Add a b)) (H2 : forall a b, P a -> P b -> P (Sub a b))
  (H3 : forall a b, P a -> P b -> P (Mul a b)) (H4 : forall a b, P a -> P b -> P (Div a b)) (e : expr) : P e :=
  let r := expr_rect' P HN HV HC HP HM H1 H2 H3 H4 in
  match e with
  | Num w => HN w | Var x => HV x
  | Call f l => HC f l ((fix all l := match l return Forall P l with [] => Forall_nil P | t :: q => Forall_cons t (r t) (all q) end) l)
  | Pos e => HP e (r e) | Neg e => HM e (r e)
  | Add a b => H1 a b (r a) (r b) | Sub a b => H2 a b (r a) (r b) | Mul a b => H3 a b (r a) (r b) | Div a b => H4 a b (r a) (r b)
  end.
Definition at_level (k : nat) (w : text) (e : expr) : Prop := match k with 0 => Expression w e | 1 => Product w e | _ => Unary w e end%nat.
Lemma level_down k w e : Unary w e -> at_level k w e.
Proof. intros H. destruct k as [|[|k]]; cbn [at_level]; [apply E_product; apply R_unary; auto|apply R_unary; auto|auto]. Qed.
Lemma level_paren k w e : Expression w e -> at_level k ("("%char :: w ++ [")"%char]) e.
Proof. intros H. apply level_down. apply U_primary. apply (P_paren [] w [] e); auto; constructor. Qed.
Lemma show_call k f l : show_at k (Call f l) = f ++ "["%char :: (fix shows l := match l with [] => [] | [e] => show_at 0 e | e :: t => show_at 0 e ++ ","%char :: shows t end) l ++ ["]"%char].
Proof. reflexivity. Qed.
Lemma show_ok e : proper e -> forall k, at_level k (show_at k e) e.
Proof.
  induction e as [w|x|f l IH|e IH|e IH|a b IHa IHb|a b IHa IHb|a b IHa IHb|a b IHa IHb] using expr_rect'; intros Hp k; inversion Hp; subst.
  - apply level_down, U_primary. apply (P_num []); [constructor|auto].
  - apply level_down, U_primary. apply (P_var []); [constructor|auto].
  - apply level_down, U_primary. rewrite show_call. refine (P_call [] f [] "["%char "]"%char _ l Ig_nil H1 Ig_nil (or_intror eq_refl) _).
    clear Hp H1. induction IH as [|e l He _ IHl]; [apply A_none; constructor|]. specialize (IHl (Forall_inv_tail H2)). specialize (He (Forall_inv H2) 0%nat). cbn [at_level] in He.
    destruct l as [|e2 l].
    + rewrite <- (app_nil_r (show_at 0 e)). apply A_some, A_one; [auto|constructor].
    + apply A_some. apply (A_more (show_at 0 e) e []); [auto|constructor|]. inversion IHl; subst; auto.
  - cbn [show_at]. specialize (IH H0 2%nat). assert (HU : Unary ("+"%char :: show_at 2 e) (Pos e)) by (apply (U_pos []); [constructor|auto]).
    destruct (Nat.ltb 2 k); [apply level_paren; apply (level_down 0); auto|apply level_down; auto].
  - cbn [show_at]. specialize (IH H0 2%nat). assert (HU : Unary ("-"%char :: show_at 2 e) (Neg e)) by (apply (U_neg []); [constructor|auto]).
    destruct (Nat.ltb 2 k); [apply level_paren; apply (level_down 0); auto|apply level_down; auto].
  - cbn [show_at]. specialize (IHa H1 0%nat). specialize (IHb H2 1%nat). assert (HE : Expression (show_at 0 a ++ "+"%char :: show_at 1 b) (Add a b)) by (apply (E_add _ _ []); [auto|constructor|auto]).
    destruct k; [exact HE|]. apply level_paren; auto.
  - cbn [show_at]. specialize (IHa H1 0%nat). specialize (IHb H2 1%nat). assert (HE : Expression (show_at 0 a ++ "-"%char :: show_at 1 b) (Sub a b)) by (apply (E_sub _ _ []); [auto|constructor|auto]).
    destruct k; [exact HE|]. apply level_paren; auto.
  - cbn [show_at]. specialize (IHa H1 1%nat). specialize (IHb H2 2%nat). assert (HE : Product (show_at 1 a ++ "*"%char :: show_at 2 b) (Mul a b)) by (apply (R_mul _ _ []); [auto|constructor|auto]).
    destruct k as [|[|k]]; [apply E_product; exact HE|exact HE|]. apply level_paren, E_product; auto.
  - cbn [show_at]. specialize (IHa H1 1%nat). specialize (IHb H2 2%nat). assert (HE : Product (show_at 1 a ++ "/"%char :: show_at 2 b) (Div a b)) by (apply (R_div _ _ []); [auto|constructor|auto]).
    destruct k as [|[|k]]; [apply E_product; exact HE|exact HE|]. apply level_paren, E_product; auto.
Qed.
Theorem prints e : proper e -> evaluate_matrix M (show e) = let* v := eval M e in Ok (Build_matrix 1 1 [[v]]).
Proof.
  intros H. rewrite (accepts (show e) (Scalar e)).
  - unfold denote. cbn [leaves mapM rows_of columns_of]. destruct (eval M e); reflexivity.
  - exists (show e), []. rewrite app_nil_r. split; [auto|]. split; [apply V_scalar; apply (show_ok e H 0%nat)|]. exists [], []. split; [constructor|auto].
Qed.
End W.
