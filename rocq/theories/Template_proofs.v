(** Proofs for C34: the recursive-descent evaluator implements the grammar. *)
From Coq Require Import List ZArith Bool Ascii String Lia.
From Verif Require Import Base Params_model Template_model Template_spec Template_lex.
Import ListNotations.
Local Open Scope list_scope.

Section P.
Context {V : Type} (M : interp V).
Notation len := (@List.length ascii).
Notation PE := (parse_expression M).
Notation SL := (sum_loop M).
Notation PP := (parse_product M).
Notation PL := (product_loop M).
Notation PU := (parse_unary M).
Notation PM := (parse_primary M).
Notation PA := (parse_arguments M).
Notation AL := (argument_loop M).
Notation PV := (parse_value M).
Notation IL := (item_loop M).

Lemma PE_S n s : PE (S n) s =
  (let? (v, s) := PP n s in SL n v s).
Proof. reflexivity. Qed.
Lemma SL_S n v s : SL (S n) v s =
  (match consume "+" s with
    | (true, s) => let? (w, s) := PP n s in SL n (i_add M v w) s
    | (false, s) => match consume "-" s with
        | (true, s) => let? (w, s) := PP n s in SL n (i_sub M v w) s
        | (false, s) => Some (Ok (v, s))
        end
    end).
Proof. reflexivity. Qed.
Lemma PP_S n s : PP (S n) s =
  (let? (v, s) := PU n s in PL n v s).
Proof. reflexivity. Qed.
Lemma PL_S n v s : PL (S n) v s =
  (match consume "*" s with
    | (true, s) => let? (w, s) := PU n s in PL n (i_mul M v w) s
    | (false, s) => match consume "/" s with
        | (true, s) => let? (w, s) := PU n s in let? q := Some (i_div M v w) in PL n q s
        | (false, s) => Some (Ok (v, s))
        end
    end).
Proof. reflexivity. Qed.
Lemma PU_S n s : PU (S n) s =
  (match consume "+" (skip_ignored s) with
    | (true, s) => PU n s
    | (false, s) => match consume "-" s with
        | (true, s) => let? (v, s) := PU n s in Some (Ok (i_neg M v, s))
        | (false, s) => PM n s
        end
    end).
Proof. reflexivity. Qed.
Lemma PM_S n s : PM (S n) s =
  (match consume "(" (skip_ignored s) with
    | (true, s) => let? (v, s) := PE n s in
        match consume ")" s with (true, s) => Some (Ok (v, s)) | (false, _) => Some Throw end
    | (false, s) =>
        if starts_identifier s then
          let '(name, s) := parse_identifier s in
          match consume "(" s with
          | (true, s) => let? (args, s) := PA n ")" s in let? v := Some (i_call M name args) in Some (Ok (v, s))
          | (false, s) => match consume "[" s with
              | (true, s) => let? (args, s) := PA n "]" s in let? v := Some (i_call M name args) in Some (Ok (v, s))
              | (false, s) => let? v := Some (i_var M name) in Some (Ok (v, s))
              end
          end
        else Some (parse_number M s)
    end).
Proof. reflexivity. Qed.
Lemma PA_S n closing s : PA (S n) closing s =
  (match consume closing (skip_ignored s) with
    | (true, s) => Some (Ok ([], s))
    | (false, s) => AL n closing s
    end).
Proof. reflexivity. Qed.
Lemma AL_S n closing s : AL (S n) closing s =
  (let? (v, s) := PE n s in
    match consume closing s with
    | (true, s) => Some (Ok ([v], s))
    | (false, s) => match consume "," s with
        | (true, s) => let? (vs, s) := AL n closing s in Some (Ok (v :: vs, s))
        | (false, _) => Some Throw
        end
    end).
Proof. reflexivity. Qed.
Lemma PV_S n s : PV (S n) s =
  (match consume "{" (skip_ignored s) with
    | (false, s) => let? (v, s) := PE n s in Some (Ok (@VScalar V v, s))
    | (true, s) => match consume "}" (skip_ignored s) with
        | (true, s) => Some (Ok (VList [], s))
        | (false, s) => let? (vs, s) := IL n s in Some (Ok (VList vs, s))
        end
    end).
Proof. reflexivity. Qed.
Lemma IL_S n s : IL (S n) s =
  (let? (v, s) := PV n s in
    match consume "}" s with
    | (true, s) => Some (Ok ([v], s))
    | (false, s) => match consume "," s with
        | (true, s) => let? (vs, s) := IL n s in Some (Ok (v :: vs, s))
        | (false, _) => Some Throw
        end
    end).
Proof. reflexivity. Qed.

Lemma some_inj A (a b : A) : Some a = Some b -> a = b. Proof. congruence. Qed.
Ltac unfold_all H := first [rewrite PE_S in H|rewrite SL_S in H|rewrite PP_S in H|rewrite PL_S in H|rewrite PU_S in H|rewrite PM_S in H|rewrite PA_S in H|rewrite AL_S in H|rewrite PV_S in H|rewrite IL_S in H].
Ltac crunch1 :=
  match goal with
  | H : Some ?a = Some ?b |- _ => apply some_inj in H
  | H : Ok (_, _) = Ok (_, _) |- _ => inversion H; subst; clear H
  | H : Some _ = None |- _ => discriminate H
  | H : None = Some _ |- _ => discriminate H
  | H : Throw = Ok _ |- _ => discriminate H
  | H : UB = Ok _ |- _ => discriminate H
  | H : Throw = UB |- _ => discriminate H
  | H : rbind (Some ?x) _ = _ |- _ => let E := fresh "E" in destruct x as [?| |] eqn:E; cbn [rbind] in H
  | H : rbind ?x _ = _ |- _ => let E := fresh "E" in destruct x as [[[? ?]| |]|] eqn:E; cbn [rbind] in H
  | H : (match consume ?c ?s with _ => _ end) = _ |- _ => let E := fresh "E" in destruct (consume c s) as [[] ?] eqn:E
  | H : (match ?x with Ok _ => _ | Throw => _ | UB => _ end) = _ |- _ => let E := fresh "E" in destruct x as [?| |] eqn:E
  | H : (if starts_identifier ?s then _ else _) = _ |- _ => let E := fresh "E" in destruct (starts_identifier s) eqn:E
  | H : (let '(_, _) := parse_identifier ?s in _) = _ |- _ => let E := fresh "E" in destruct (parse_identifier s) as [? ?] eqn:E
  end.

(** ** The position never moves back *)
Lemma parse_number_length s v r : parse_number M s = Ok (v, r) -> (len r <= len s)%nat.
Proof.
  unfold parse_number. pose proof (skip_length s). destruct (take_number (skip_ignored s)) as [[w t]|] eqn:E; [|discriminate].
  destruct (i_num M w); cbn [bind]; [|discriminate..]. intros G. injection G as <- <-. destruct (take_number_sound _ _ _ E) as [E1 _]. rewrite E1 in H. rewrite app_length in H. lia.
Qed.
Lemma identifier_length s f t : parse_identifier s = (f, t) -> (len t <= len s)%nat.
Proof. intros H. destruct (span_spec _ _ _ _ H) as (E & _). rewrite E, app_length. lia. Qed.

Ltac lens :=
  repeat match goal with
  | H : consume _ _ = (_, _) |- _ => apply consume_length in H; cbn iota in H
  | H : parse_identifier _ = _ |- _ => apply identifier_length in H
  | H : parse_number _ _ = Ok _ |- _ => apply parse_number_length in H
  | |- context [len (skip_ignored ?s)] => pose proof (skip_length s); generalize dependent (skip_ignored s); intros
  | H : context [len (skip_ignored ?s)] |- _ => pose proof (skip_length s); generalize dependent (skip_ignored s); intros
  end.

Lemma lengths n :
  (forall s v r, PE n s = Some (Ok (v, r)) -> len r <= len s)%nat /\
  (forall v0 s v r, SL n v0 s = Some (Ok (v, r)) -> len r <= len s)%nat /\
  (forall s v r, PP n s = Some (Ok (v, r)) -> len r <= len s)%nat /\
  (forall v0 s v r, PL n v0 s = Some (Ok (v, r)) -> len r <= len s)%nat /\
  (forall s v r, PU n s = Some (Ok (v, r)) -> len r <= len s)%nat /\
  (forall s v r, PM n s = Some (Ok (v, r)) -> len r <= len s)%nat /\
  (forall c s v r, PA n c s = Some (Ok (v, r)) -> len r <= len s)%nat /\
  (forall c s v r, AL n c s = Some (Ok (v, r)) -> len r <= len s)%nat.
Proof.
  induction n as [|n (I1 & I2 & I3 & I4 & I5 & I6 & I7 & I8)]; [repeat split; intros; discriminate|].
  assert (S0 := skip_length).
  repeat match goal with |- _ /\ _ => split end; intros; match goal with H : _ = Some (Ok _) |- _ => unfold_all H end; repeat crunch1; try discriminate;
  repeat match goal with
  | H : PE n _ = Some (Ok _) |- _ => apply I1 in H
  | H : SL n _ _ = Some (Ok _) |- _ => apply I2 in H
  | H : PP n _ = Some (Ok _) |- _ => apply I3 in H
  | H : PL n _ _ = Some (Ok _) |- _ => apply I4 in H
  | H : PU n _ = Some (Ok _) |- _ => apply I5 in H
  | H : PM n _ = Some (Ok _) |- _ => apply I6 in H
  | H : PA n _ _ = Some (Ok _) |- _ => apply I7 in H
  | H : AL n _ _ = Some (Ok _) |- _ => apply I8 in H
  end; lens; try lia.
Qed.
(** ** The bound on the depth is sufficient *)
Lemma enough n :
  (forall s, (8 * len s + 4 <= n)%nat -> PE n s <> None) /\
  (forall v0 s, (8 * len s + 1 <= n)%nat -> SL n v0 s <> None) /\
  (forall s, (8 * len s + 3 <= n)%nat -> PP n s <> None) /\
  (forall v0 s, (8 * len s + 1 <= n)%nat -> PL n v0 s <> None) /\
  (forall s, (8 * len s + 2 <= n)%nat -> PU n s <> None) /\
  (forall s, (8 * len s + 1 <= n)%nat -> PM n s <> None) /\
  (forall c s, (8 * len s + 6 <= n)%nat -> PA n c s <> None) /\
  (forall c s, (8 * len s + 5 <= n)%nat -> AL n c s <> None).
Proof.
  induction n as [|n (I1 & I2 & I3 & I4 & I5 & I6 & I7 & I8)]; [repeat split; intros; lia|].
  destruct (lengths n) as (L1 & L2 & L3 & L4 & L5 & L6 & L7 & L8).
  assert (S0 := skip_length).
  repeat match goal with |- _ /\ _ => split end; intros; match goal with |- _ <> None => intros HH; unfold_all HH end; repeat crunch1; try discriminate;
  repeat match goal with
  | H : PE n _ = Some (Ok _) |- _ => apply L1 in H
  | H : SL n _ _ = Some (Ok _) |- _ => apply L2 in H
  | H : PP n _ = Some (Ok _) |- _ => apply L3 in H
  | H : PL n _ _ = Some (Ok _) |- _ => apply L4 in H
  | H : PU n _ = Some (Ok _) |- _ => apply L5 in H
  | H : PM n _ = Some (Ok _) |- _ => apply L6 in H
  | H : PA n _ _ = Some (Ok _) |- _ => apply L7 in H
  | H : AL n _ _ = Some (Ok _) |- _ => apply L8 in H
  end; lens;
  match goal with
  | H : PE n _ = None |- _ => revert H; apply I1
  | H : SL n _ _ = None |- _ => revert H; apply I2
  | H : PP n _ = None |- _ => revert H; apply I3
  | H : PL n _ _ = None |- _ => revert H; apply I4
  | H : PU n _ = None |- _ => revert H; apply I5
  | H : PM n _ = None |- _ => revert H; apply I6
  | H : PA n _ _ = None |- _ => revert H; apply I7
  | H : AL n _ _ = None |- _ => revert H; apply I8
  end; lia.
Qed.

(** ** A larger bound gives the same result *)
Lemma more n :
  (forall s r, PE n s = Some r -> PE (S n) s = Some r) /\
  (forall v0 s r, SL n v0 s = Some r -> SL (S n) v0 s = Some r) /\
  (forall s r, PP n s = Some r -> PP (S n) s = Some r) /\
  (forall v0 s r, PL n v0 s = Some r -> PL (S n) v0 s = Some r) /\
  (forall s r, PU n s = Some r -> PU (S n) s = Some r) /\
  (forall s r, PM n s = Some r -> PM (S n) s = Some r) /\
  (forall c s r, PA n c s = Some r -> PA (S n) c s = Some r) /\
  (forall c s r, AL n c s = Some r -> AL (S n) c s = Some r).
Proof.
  induction n as [|n (I1 & I2 & I3 & I4 & I5 & I6 & I7 & I8)]; [repeat split; intros; discriminate|].
  assert (RB : forall A B (x y : run A) (f g : A -> run B) r, rbind x f = Some r -> (forall q, x = Some q -> y = Some q) -> (forall a, f a = Some r -> g a = Some r) -> rbind y g = Some r).
  { intros A B x y f g r H H1 H2. destruct x as [q|]; [|discriminate]. rewrite (H1 q eq_refl). destruct q; cbn [rbind] in *; auto. }
  repeat match goal with |- _ /\ _ => split end; intros;
  match goal with H : _ = Some _ |- _ => unfold_all H; revert H end;
  first [rewrite (PE_S (S n))|rewrite (SL_S (S n))|rewrite (PP_S (S n))|rewrite (PL_S (S n))|rewrite (PU_S (S n))|rewrite (PM_S (S n))|rewrite (PA_S (S n))|rewrite (AL_S (S n))]; intros HH;
  repeat match goal with
  | H : rbind _ _ = Some _ |- rbind _ _ = Some _ => apply (RB _ _ _ _ _ _ _ H); clear H; [solve [auto]|intros [? ?] H || intros ? H]
  | H : rbind (Some _) _ = Some _ |- rbind (Some _) _ = Some _ => apply (RB _ _ _ _ _ _ _ H); clear H; [auto|intros ? H]
  | H : (match consume ?c ?s with _ => _ end) = _ |- _ => destruct (consume c s) as [[] ?]
  | H : (if starts_identifier ?s then _ else _) = _ |- _ => destruct (starts_identifier s)
  | H : (let '(_, _) := parse_identifier ?s in _) = _ |- _ => destruct (parse_identifier s) as [? ?]
  end; auto.
Qed.

Lemma PE_le n s r m : (n <= m)%nat -> PE n s = Some r -> PE m s = Some r.
Proof. induction 1; intros; auto. apply more; auto. Qed.
Lemma SL_le n v s r m : (n <= m)%nat -> SL n v s = Some r -> SL m v s = Some r.
Proof. induction 1; intros; auto. apply more; auto. Qed.
Lemma PP_le n s r m : (n <= m)%nat -> PP n s = Some r -> PP m s = Some r.
Proof. induction 1; intros; auto. apply more; auto. Qed.
Lemma PL_le n v s r m : (n <= m)%nat -> PL n v s = Some r -> PL m v s = Some r.
Proof. induction 1; intros; auto. apply more; auto. Qed.
Lemma PU_le n s r m : (n <= m)%nat -> PU n s = Some r -> PU m s = Some r.
Proof. induction 1; intros; auto. apply more; auto. Qed.
Lemma PM_le n s r m : (n <= m)%nat -> PM n s = Some r -> PM m s = Some r.
Proof. induction 1; intros; auto. apply more; auto. Qed.
Lemma PA_le n c s r m : (n <= m)%nat -> PA n c s = Some r -> PA m c s = Some r.
Proof. induction 1; intros; auto. apply more; auto. Qed.
Lemma AL_le n c s r m : (n <= m)%nat -> AL n c s = Some r -> AL m c s = Some r.
Proof. induction 1; intros; auto. apply more; auto. Qed.

(** ** Ignored text in front does not matter *)
Lemma consume_eq c s t : skip_ignored s = skip_ignored t -> consume c s = consume c t.
Proof. intros H. unfold consume. rewrite H. auto. Qed.
Lemma SL_skip n v s t : skip_ignored s = skip_ignored t -> SL n v s = SL n v t.
Proof. intros H. destruct n; [reflexivity|]. rewrite !SL_S. rewrite (consume_eq _ _ _ H). auto. Qed.
Lemma PL_skip n v s t : skip_ignored s = skip_ignored t -> PL n v s = PL n v t.
Proof. intros H. destruct n; [reflexivity|]. rewrite !PL_S. rewrite (consume_eq _ _ _ H). auto. Qed.
Lemma PU_skip n s t : skip_ignored s = skip_ignored t -> PU n s = PU n t.
Proof. intros H. destruct n; [reflexivity|]. rewrite !PU_S. rewrite H. auto. Qed.
Lemma PP_skip n s t : skip_ignored s = skip_ignored t -> PP n s = PP n t.
Proof. intros H. destruct n; [reflexivity|]. rewrite !PP_S. rewrite (PU_skip _ _ _ H). auto. Qed.
Lemma PE_skip n s t : skip_ignored s = skip_ignored t -> PE n s = PE n t.
Proof. intros H. destruct n; [reflexivity|]. rewrite !PE_S. rewrite (PP_skip _ _ _ H). auto. Qed.
Lemma PM_skip n s t : skip_ignored s = skip_ignored t -> PM n s = PM n t.
Proof. intros H. destruct n; [reflexivity|]. rewrite !PM_S. rewrite H. auto. Qed.
Lemma PA_skip n c s t : skip_ignored s = skip_ignored t -> PA n c s = PA n c t.
Proof. intros H. destruct n; [reflexivity|]. rewrite !PA_S. rewrite H. auto. Qed.
Lemma AL_skip n c s t : skip_ignored s = skip_ignored t -> AL n c s = AL n c t.
Proof. intros H. destruct n; [reflexivity|]. rewrite !AL_S. rewrite (PE_skip _ _ _ H). auto. Qed.
Lemma PV_skip n s t : skip_ignored s = skip_ignored t -> PV n s = PV n t.
Proof. intros H. destruct n; [reflexivity|]. rewrite !PV_S. rewrite H. auto. Qed.
Lemma IL_skip n s t : skip_ignored s = skip_ignored t -> IL n s = IL n t.
Proof. intros H. destruct n; [reflexivity|]. rewrite !IL_S. rewrite (PV_skip _ _ _ H). auto. Qed.

Lemma eval_call f l : eval M (Call f l) = let* vs := mapM (eval M) l in i_call M f vs.
Proof.
  cbn [eval]. f_equal. induction l as [|e l IH]; [reflexivity|]. cbn [mapM]. destruct (eval M e); [|reflexivity..]. cbn [bind]. rewrite IH. reflexivity.
Qed.

(** ** What is accepted belongs to the grammar *)
Lemma consume_true' c s s0 t : consume c s = (true, t) -> skip_ignored s0 = skip_ignored s -> exists i, ignorable i /\ s0 = i ++ c :: t.
Proof. intros H E. apply consume_true. rewrite (consume_eq c s0 s E). auto. Qed.
Lemma consume_false' c s t : consume c s = (false, t) -> skip_ignored t = skip_ignored s.
Proof. intros H. destruct (consume_false _ _ _ H) as [-> _]. apply skip_idem. Qed.

Lemma sound n :
  (forall s v r, PE n s = Some (Ok (v, r)) -> exists w e r0, s = w ++ r0 /\ Expression w e /\ eval M e = Ok v /\ skip_ignored r0 = skip_ignored r) /\
  (forall v0 s v r, SL n v0 s = Some (Ok (v, r)) -> forall w0 e0, Expression w0 e0 -> eval M e0 = Ok v0 ->
     exists w e r0, s = w ++ r0 /\ Expression (w0 ++ w) e /\ eval M e = Ok v /\ skip_ignored r0 = skip_ignored r) /\
  (forall s v r, PP n s = Some (Ok (v, r)) -> exists w e r0, s = w ++ r0 /\ Product w e /\ eval M e = Ok v /\ skip_ignored r0 = skip_ignored r) /\
  (forall v0 s v r, PL n v0 s = Some (Ok (v, r)) -> forall w0 e0, Product w0 e0 -> eval M e0 = Ok v0 ->
     exists w e r0, s = w ++ r0 /\ Product (w0 ++ w) e /\ eval M e = Ok v /\ skip_ignored r0 = skip_ignored r) /\
  (forall s v r, PU n s = Some (Ok (v, r)) -> exists w e r0, s = w ++ r0 /\ Unary w e /\ eval M e = Ok v /\ skip_ignored r0 = skip_ignored r) /\
  (forall s v r, PM n s = Some (Ok (v, r)) -> exists w e r0, s = w ++ r0 /\ Primary w e /\ eval M e = Ok v /\ skip_ignored r0 = skip_ignored r) /\
  (forall c s vs r, PA n c s = Some (Ok (vs, r)) -> exists w l, s = w ++ c :: r /\ Arguments_ w l /\ mapM (eval M) l = Ok vs) /\
  (forall c s vs r, AL n c s = Some (Ok (vs, r)) -> exists w l, s = w ++ c :: r /\ Arguments1 w l /\ mapM (eval M) l = Ok vs).
Proof.
  induction n as [|n (I1 & I2 & I3 & I4 & I5 & I6 & I7 & I8)]; [repeat split; intros; discriminate|].
  repeat match goal with |- _ /\ _ => split end.
  - intros s v r H. rewrite PE_S in H. repeat crunch1; try discriminate. destruct (I3 _ _ _ E) as (w & e & r0 & -> & D & Ev & Er).
    rewrite <- (SL_skip _ _ _ _ Er) in H. destruct (I2 _ _ _ _ H _ _ (E_product _ _ D) Ev) as (w1 & e1 & r1 & -> & D1 & Ev1 & Er1).
    exists (w ++ w1), e1, r1. rewrite app_assoc. auto.
  - intros v0 s v r H w0 e0 D0 V0. rewrite SL_S in H. destruct (consume "+" s) as [[] t] eqn:C1.
    + destruct (consume_true _ _ _ C1) as (i & Hi & ->). repeat crunch1; try discriminate. destruct (I3 _ _ _ E) as (w & e & r0 & -> & D & Ev & Er).
      rewrite <- (SL_skip _ _ _ _ Er) in H. destruct (I2 _ _ _ _ H (w0 ++ i ++ "+"%char :: w) (Add e0 e)) as (w1 & e1 & r1 & -> & D1 & Ev1 & Er1).
      { apply E_add; auto. } { cbn [eval]. rewrite V0, Ev. reflexivity. }
      exists (i ++ "+"%char :: w ++ w1), e1, r1. split; [rewrite <- !app_assoc; cbn [app]; rewrite <- app_assoc; reflexivity|].
      split; [|auto]. replace (w0 ++ i ++ "+"%char :: w ++ w1) with ((w0 ++ i ++ "+"%char :: w) ++ w1) by (rewrite <- !app_assoc; reflexivity). auto.
    + destruct (consume "-" t) as [[] u] eqn:C2.
      * destruct (consume_true' _ _ s _ C2) as (i & Hi & ->). { symmetry. eapply consume_false'; eauto. }
        repeat crunch1; try discriminate. destruct (I3 _ _ _ E) as (w & e & r0 & -> & D & Ev & Er).
        rewrite <- (SL_skip _ _ _ _ Er) in H. destruct (I2 _ _ _ _ H (w0 ++ i ++ "-"%char :: w) (Sub e0 e)) as (w1 & e1 & r1 & -> & D1 & Ev1 & Er1).
        { apply E_sub; auto. } { cbn [eval]. rewrite V0, Ev. reflexivity. }
        exists (i ++ "-"%char :: w ++ w1), e1, r1. split; [rewrite <- !app_assoc; cbn [app]; rewrite <- app_assoc; reflexivity|].
        split; [|auto]. replace (w0 ++ i ++ "-"%char :: w ++ w1) with ((w0 ++ i ++ "-"%char :: w) ++ w1) by (rewrite <- !app_assoc; reflexivity). auto.
      * injection H as <- <-. exists [], e0, s. rewrite app_nil_r. split; [auto|]. split; [auto|]. split; [auto|].
        rewrite (consume_false' _ _ _ C2), (consume_false' _ _ _ C1). auto.
  - intros s v r H. rewrite PP_S in H. repeat crunch1; try discriminate. destruct (I5 _ _ _ E) as (w & e & r0 & -> & D & Ev & Er).
    rewrite <- (PL_skip _ _ _ _ Er) in H. destruct (I4 _ _ _ _ H _ _ (R_unary _ _ D) Ev) as (w1 & e1 & r1 & -> & D1 & Ev1 & Er1).
    exists (w ++ w1), e1, r1. rewrite app_assoc. auto.
  - intros v0 s v r H w0 e0 D0 V0. rewrite PL_S in H. destruct (consume "*" s) as [[] t] eqn:C1.
    + destruct (consume_true _ _ _ C1) as (i & Hi & ->). repeat crunch1; try discriminate. destruct (I5 _ _ _ E) as (w & e & r0 & -> & D & Ev & Er).
      rewrite <- (PL_skip _ _ _ _ Er) in H. destruct (I4 _ _ _ _ H (w0 ++ i ++ "*"%char :: w) (Mul e0 e)) as (w1 & e1 & r1 & -> & D1 & Ev1 & Er1).
      { apply R_mul; auto. } { cbn [eval]. rewrite V0, Ev. reflexivity. }
      exists (i ++ "*"%char :: w ++ w1), e1, r1. split; [rewrite <- !app_assoc; cbn [app]; rewrite <- app_assoc; reflexivity|].
      split; [|auto]. replace (w0 ++ i ++ "*"%char :: w ++ w1) with ((w0 ++ i ++ "*"%char :: w) ++ w1) by (rewrite <- !app_assoc; reflexivity). auto.
    + destruct (consume "/" t) as [[] u] eqn:C2.
      * destruct (consume_true' _ _ s _ C2) as (i & Hi & ->). { symmetry. eapply consume_false'; eauto. }
        repeat crunch1; try discriminate. destruct (I5 _ _ _ E) as (w & e & r0 & -> & D & Ev & Er).
        rewrite <- (PL_skip _ _ _ _ Er) in H. destruct (I4 _ _ _ _ H (w0 ++ i ++ "/"%char :: w) (Div e0 e)) as (w1 & e1 & r1 & -> & D1 & Ev1 & Er1).
        { apply R_div; auto. } { cbn [eval]. rewrite V0, Ev. cbn [bind]. auto. }
        exists (i ++ "/"%char :: w ++ w1), e1, r1. split; [rewrite <- !app_assoc; cbn [app]; rewrite <- app_assoc; reflexivity|].
        split; [|auto]. replace (w0 ++ i ++ "/"%char :: w ++ w1) with ((w0 ++ i ++ "/"%char :: w) ++ w1) by (rewrite <- !app_assoc; reflexivity). auto.
      * injection H as <- <-. exists [], e0, s. rewrite app_nil_r. split; [auto|]. split; [auto|]. split; [auto|].
        rewrite (consume_false' _ _ _ C2), (consume_false' _ _ _ C1). auto.
  - intros s v r H. rewrite PU_S, consume_skip in H. destruct (consume "+" s) as [[] t] eqn:C1.
    + destruct (consume_true _ _ _ C1) as (i & Hi & ->). destruct (I5 _ _ _ H) as (w & e & r0 & -> & D & Ev & Er).
      exists (i ++ "+"%char :: w), (Pos e), r0. split; [rewrite <- app_assoc; reflexivity|]. split; [apply U_pos; auto|auto].
    + destruct (consume "-" t) as [[] u] eqn:C2.
      * destruct (consume_true' _ _ s _ C2) as (i & Hi & ->). { symmetry. eapply consume_false'; eauto. }
        repeat crunch1; try discriminate. destruct (I5 _ _ _ E) as (w & e & r0 & -> & D & Ev & Er).
        exists (i ++ "-"%char :: w), (Neg e), r0. split; [rewrite <- app_assoc; reflexivity|]. split; [apply U_neg; auto|].
        split; [cbn [eval]; rewrite Ev; reflexivity|auto].
      * rewrite (PM_skip _ _ s) in H by (rewrite (consume_false' _ _ _ C2); apply (consume_false' _ _ _ C1)).
        destruct (I6 _ _ _ H) as (w & e & r0 & -> & D & Ev & Er). exists w, e, r0. split; [auto|]. split; [apply U_primary|]; auto.
  - intros s v r H. rewrite PM_S, consume_skip in H. destruct (consume "(" s) as [[] t] eqn:C1.
    + destruct (consume_true _ _ _ C1) as (i & Hi & ->). repeat crunch1; try discriminate. destruct (I1 _ _ _ E) as (w & e & r0 & -> & D & Ev & Er).
      destruct (consume_true' _ _ r0 _ E0 Er) as (j & Hj & ->).
      exists (i ++ "("%char :: w ++ j ++ [")"%char]), e, r. split; [rewrite <- !app_assoc; cbn [app]; rewrite <- !app_assoc; reflexivity|].
      split; [apply P_paren; auto|auto].
    + destruct (consume_false _ _ _ C1) as [-> _]. destruct (starts_identifier (skip_ignored s)) eqn:SI.
      * destruct (parse_identifier (skip_ignored s)) as [f u] eqn:EI. destruct (identifier_sound _ _ _ SI EI) as [Es If].
        assert (Hi : exists i, ignorable i /\ s = i ++ f ++ u).
        { destruct If as (c & f' & -> & _). cbn [app] in *. apply skip_front; auto. }
        destruct Hi as (i & Hi & ->). clear Es EI SI C1. destruct (consume "(" u) as [[] u1] eqn:C2.
        -- destruct (consume_true _ _ _ C2) as (j & Hj & ->). repeat crunch1; try discriminate. destruct (I7 _ _ _ _ E) as (w & la & -> & D & Ev).
           exists (i ++ f ++ j ++ "("%char :: w ++ [")"%char]), (Call f la), r. split; [rewrite <- !app_assoc; cbn [app]; rewrite <- !app_assoc; reflexivity|].
           split; [eapply P_call; eauto|]. split; [rewrite eval_call, Ev; cbn [bind]; auto|auto].
        -- destruct (consume "[" u1) as [[] u2] eqn:C3.
           ++ destruct (consume_true' _ _ u _ C3) as (j & Hj & ->). { symmetry. eapply consume_false'; eauto. }
              repeat crunch1; try discriminate. destruct (I7 _ _ _ _ E) as (w & la & -> & D & Ev).
              exists (i ++ f ++ j ++ "["%char :: w ++ ["]"%char]), (Call f la), r. split; [rewrite <- !app_assoc; cbn [app]; rewrite <- !app_assoc; reflexivity|].
              split; [eapply P_call; eauto|]. split; [rewrite eval_call, Ev; cbn [bind]; auto|auto].
           ++ repeat crunch1; try discriminate. exists (i ++ f), (Var f), u. split; [rewrite <- app_assoc; auto|]. split; [apply P_var; auto|]. split; [auto|].
              rewrite (consume_false' _ _ _ C3). symmetry. eapply consume_false'; eauto.
      * apply some_inj in H. unfold parse_number in H. rewrite skip_idem in H. destruct (take_number (skip_ignored s)) as [[w t]|] eqn:ET; [|discriminate].
        destruct (i_num M w) eqn:EN; try discriminate. cbn [bind] in H. injection H as <- <-.
        destruct (take_number_sound _ _ _ ET) as [Es Hw]. destruct (number_head w t Hw) as (c & u & Ec & _).
        rewrite Ec in Es. destruct (skip_front _ _ _ Es) as (i & Hi & ->). exists (i ++ w), (Num w), t.
        split; [rewrite <- Ec, app_assoc; auto|]. split; [apply P_num; auto|]. split; [auto|auto].
  - intros c s vs r H. rewrite PA_S, consume_skip in H. destruct (consume c s) as [[] t] eqn:C1.
    + injection H as <- <-. destruct (consume_true _ _ _ C1) as (i & Hi & ->). exists i, []. split; [auto|]. split; [apply A_none; auto|reflexivity].
    + rewrite (AL_skip _ _ _ s) in H by (eapply consume_false'; eauto). destruct (I8 _ _ _ _ H) as (w & l & -> & D & Ev).
      exists w, l. split; [auto|]. split; [apply A_some; auto|auto].
  - intros c s vs r H. rewrite AL_S in H. destruct (PE n s) as [[[v r1]| |]|] eqn:E; cbn [rbind] in H; try discriminate.
    destruct (I1 _ _ _ E) as (w & e & r0 & -> & D & Ev & Er). destruct (consume c r1) as [[] t] eqn:C1.
    + injection H as <- <-. destruct (consume_true' _ _ r0 _ C1 Er) as (j & Hj & ->). exists (w ++ j), [e]. split; [rewrite <- app_assoc; auto|].
      split; [apply A_one; auto|]. cbn [mapM]. rewrite Ev. reflexivity.
    + destruct (consume "," t) as [[] u] eqn:C2; [|discriminate]. destruct (consume_true' _ _ r0 _ C2) as (j & Hj & ->).
      { rewrite Er. symmetry. eapply consume_false'; eauto. }
      repeat crunch1; try discriminate. destruct (I8 _ _ _ _ E0) as (w1 & l1 & -> & D1 & Ev1).
      exists (w ++ j ++ ","%char :: w1), (e :: l1). split; [rewrite <- !app_assoc; cbn [app]; reflexivity|]. split; [apply A_more; auto|].
      cbn [mapM]. rewrite Ev, Ev1. reflexivity.
Qed.

End P.
