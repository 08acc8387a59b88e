(** C80: proofs. *)
From Coq Require Import List ZArith Bool String Lia.
From Verif Require Import Startup_model Startup_spec.
Import ListNotations.
Local Open Scope list_scope.
Local Open Scope Z_scope.

Definition ended (x : local) : Prop := match x with Returned _ | Master _ | Slave => True | _ => False end.
Definition left (x : local) : nat := match x with Begin => 3 | Broadcast => 2 | Decided _ => 1 | _ => 0 end%nat.
Definition measure (l : list local) : nat := fold_right (fun x k => left x + k)%nat 0%nat l.
Lemma measure_app a b : measure (a ++ b) = (measure a + measure b)%nat.
Proof. induction a as [|x a IH]; cbn [app measure fold_right]; auto. change (fold_right _ _ (a ++ b)) with (measure (a ++ b)). rewrite IH. unfold measure. lia. Qed.
Lemma move_less w r x h x' h' : move w r x h = Some (x', h') -> (left x' < left x)%nat.
Proof.
  unfold move. intros E.
  repeat match type of E with context [match ?y with _ => _ end] => destruct y end;
    try discriminate E; injection E as <- <-; cbn [left]; lia.
Qed.
Lemma step_less w s t : step w s t -> (measure (processes t) < measure (processes s))%nat.
Proof. intros [a x b h x' h' M]. cbn [processes]. rewrite !measure_app. cbn [measure fold_right]. assert (G := move_less _ _ _ _ _ _ M). lia. Qed.
Lemma execution_bound w s k t : execution w s k t -> (k + measure (processes t) <= measure (processes s))%nat.
Proof. induction 1 as [s|s k t u H IH S]; [lia|]. apply step_less in S. lia. Qed.
Lemma measure_start n : measure (processes (start n)) = (3 * n)%nat.
Proof. cbn [start processes]. induction n as [|n IH]; auto. cbn [repeat measure fold_right left]. change (fold_right _ _ (repeat Begin n)) with (measure (repeat Begin n)). lia. Qed.

(** * The invariant when every check succeeds *)
Definition final (w : world) (r : nat) : local :=
  if negb (Z.eqb (startup_status w 0) (-1)) then Returned (startup_status w 0) else match r with O => Master (set_workdir w) | S _ => Slave end.
Definition fine (w : world) (h : option Z) (r : nat) (x : local) : Prop :=
  match x with
  | Begin | Broadcast => r = 0%nat -> h = None
  | Decided v => v = startup_status w 0 /\ h = Some (startup_status w 0)
  | _ => x = final w r /\ h = Some (startup_status w 0)
  end.
Definition good (w : world) (s : state) : Prop :=
  (handed s = None \/ handed s = Some (startup_status w 0)) /\ forall r x, nth_error (processes s) r = Some x -> fine w (handed s) r x.
Lemma nth_split {B} (a : list B) x b r y : nth_error (a ++ x :: b) r = Some y -> (r = List.length a /\ y = x) \/ (r <> List.length a /\ forall z, nth_error (a ++ z :: b) r = Some y).
Proof.
  revert r. induction a as [|c a IH]; intros [|r] H; cbn [app nth_error List.length] in *.
  - injection H as ->. auto.
  - right. split; [discriminate|auto].
  - right. split; [discriminate|auto].
  - destruct (IH r H) as [[-> ->]|[N G]]; [left; auto|right; split; [lia|auto]].
Qed.
Lemma nth_here {B} (a : list B) x b : nth_error (a ++ x :: b) (List.length a) = Some x.
Proof. induction a; auto. Qed.
Lemma good_step w s t : (forall r, (r < List.length (processes s))%nat -> check w r = true) -> good w s -> step w s t -> good w t.
Proof.
  intros C G St. destruct St as [a x b h x' h' M]. destruct G as [G1 G2]. cbn [processes handed] in *.
  assert (X := G2 _ _ (nth_here a x b)). assert (Ck : check w (List.length a) = true) by (apply C; rewrite app_length; cbn; lia).
  assert (Hh : h' = h \/ (h = None /\ h' = Some (startup_status w 0) /\ List.length a = 0%nat)).
  { destruct x; cbn [move] in M; try discriminate.
    - injection M as _ <-. auto.
    - destruct (List.length a) eqn:La; [|destruct h; [|discriminate]]; injection M as _ <-; auto.
    - injection M as _ <-. auto. }
  assert (X' : fine w h' (List.length a) x').
  { destruct x; cbn [move fine] in M, X; try discriminate.
    - rewrite Ck in M. injection M as <- <-. exact X.
    - destruct (List.length a) eqn:La; [injection M as <- <-; cbn; auto|]. destruct h as [v|]; [|discriminate]. injection M as <- <-. cbn [fine].
      destruct G1 as [G1|G1]; [discriminate|]. injection G1 as ->. auto.
    - destruct X as [-> ->]. injection M as <- <-. unfold fine, final. destruct (negb (startup_status w 0 =? -1)); auto. destruct (List.length a); auto. }
  split.
  - destruct Hh as [->|(_ & -> & _)]; auto.
  - intros r y H. destruct (nth_split a x' b r y H) as [[-> ->]|[N K]]; [exact X'|]. assert (Y := G2 r y (K x)).
    destruct Hh as [->|(-> & -> & L)]; auto. destruct y; cbn [fine] in *; try (intros ->; lia); destruct Y; discriminate.
Qed.
Lemma start_good w n : good w (start n).
Proof.
  split; [left; auto|]. cbn [start processes handed]. intros r x H. apply nth_error_In, repeat_spec in H. subst x. cbn. auto.
Qed.
Lemma step_length w s t : step w s t -> List.length (processes t) = List.length (processes s).
Proof. intros [a x b h x' h' M]. cbn [processes]. rewrite !app_length. reflexivity. Qed.
Lemma execution_good w n k s : (forall r, (r < n)%nat -> check w r = true) -> execution w (start n) k s -> good w s /\ List.length (processes s) = n.
Proof.
  intros C H. remember (start n) as s0 eqn:E. induction H as [s|s k t u H IH S]; subst s; [split; [apply start_good|apply repeat_length]|].
  destruct (IH eq_refl) as [G L]. split; [apply (good_step w t u); auto; rewrite L; auto|rewrite (step_length _ _ _ S); auto].
Qed.

(** * The end *)
Lemma directory_right w : directory w (set_workdir w).
Proof.
  unfold set_workdir. destruct (args w) as [|x [|d [|z l]]] eqn:A.
  - destruct (env_workdir w) eqn:E; [apply D_variable|apply D_current]; auto; intros e; congruence.
  - destruct (env_workdir w) eqn:E; [apply D_variable|apply D_current]; auto; intros e; congruence.
  - destruct (String.eqb x "-w") eqn:X.
    + apply String.eqb_eq in X. subst x. apply D_option. auto.
    + apply String.eqb_neq in X. destruct (env_workdir w) eqn:E; [apply D_variable|apply D_current]; auto; intros e; congruence.
  - destruct (env_workdir w) eqn:E; [apply D_variable|apply D_current]; auto; intros e; congruence.
Qed.
Lemma help_right w : help (args w) = true <-> help_asked w.
Proof.
  unfold help, help_asked. destruct (args w) as [|x l]; [split; [discriminate|intros [l H]; discriminate]|]. rewrite String.eqb_eq. split; [intros ->; eauto|intros [l' H]; congruence].
Qed.
Lemma final_right w r : outcome w r (final w r).
Proof.
  unfold final, startup_status. destruct (help (args w)) eqn:H.
  - cbn. apply O_help, help_right, H.
  - assert (N : ~ help_asked w) by (rewrite <- help_right; congruence). destruct (has_data w 0) eqn:D; cbn [negb].
    + destruct (has_param w 0) eqn:P; cbn [negb].
      * cbn. destruct r; [apply O_master; auto; apply directory_right|apply O_slave; auto].
      * cbn. apply O_missing; auto.
    + cbn. apply O_missing; auto.
Qed.
Lemma can_move w s : (exists r, (r < List.length (processes s))%nat) -> good w s -> stuck w s -> forall r x, nth_error (processes s) r = Some x -> x = final w r.
Proof.
  intros _ [G1 G2] St.
  assert (Mv : forall r x, nth_error (processes s) r = Some x -> move w r x (handed s) = None).
  { intros r x H. destruct (move w r x (handed s)) as [[x' h']|] eqn:M; auto. destruct (nth_error_split _ _ H) as (a & b & E & L). subst r.
    destruct s as [p h]. cbn [processes handed] in *. subst p. destruct (St _ (Step w a x b h x' h' M)). }
  intros r x H. assert (F := G2 r x H). assert (N := Mv r x H). destruct x; cbn [move fine] in N, F; try discriminate; try (destruct F; auto; fail).
  destruct r as [|r]; [discriminate|]. destruct (handed s) as [v|] eqn:Hh; [discriminate|].
  destruct (processes s) as [|x0 p] eqn:P; [destruct r; discriminate|]. assert (F0 := G2 0%nat x0 eq_refl). assert (N0 := Mv 0%nat x0 eq_refl).
  destruct x0; cbn [move fine] in N0, F0; try discriminate; destruct F0; discriminate.
Qed.
Theorem all_agree w n k s : (forall r, (r < n)%nat -> check w r = true) -> execution w (start n) k s ->
  (k <= 3 * n)%nat /\ (stuck w s -> List.length (processes s) = n /\ forall r x, nth_error (processes s) r = Some x -> outcome w r x).
Proof.
  intros C H. split; [assert (B := execution_bound _ _ _ _ H); rewrite measure_start in B; lia|]. intros St. destruct (execution_good w n k s C H) as [G L]. split; auto.
  intros r x Hx. rewrite (can_move w s) with (r := r) (x := x); auto; [apply final_right|]. exists r. apply nth_error_Some. congruence.
Qed.

(** * A check that fails on one process only *)
Lemma root_gone w : check w 0 = false -> forall n k s, execution w (start n) k s ->
  handed s = None /\ (forall x, nth_error (processes s) 0 = Some x -> x = Begin \/ x = Returned 1) /\ (forall r x, nth_error (processes s) (S r) = Some x -> x = Begin \/ x = Broadcast \/ (x = Returned 1 /\ check w (S r) = false)).
Proof.
  intros C n k s H. remember (start n) as s0 eqn:E. induction H as [s|s k t u H IH S]; subst s.
  - split; [reflexivity|]. cbn [start processes]. split; intros; [|]; match goal with H : nth_error _ _ = Some _ |- _ => apply nth_error_In, repeat_spec in H end; auto.
  - destruct (IH eq_refl) as (H1 & H2 & H3). destruct S as [a x b h x' h' M]. cbn [processes handed] in *. subst h.
    assert (X := nth_here a x b). assert (R : h' = None /\ (List.length a = 0%nat -> x' = Begin \/ x' = Returned 1) /\ (forall r, List.length a = S r -> x' = Begin \/ x' = Broadcast \/ (x' = Returned 1 /\ check w (S r) = false))).
    { destruct (List.length a) as [|r] eqn:La.
      - destruct (H2 x X) as [->| ->]; cbn [move] in M; [|discriminate]. rewrite C in M. injection M as <- <-. split; auto. split; auto. discriminate.
      - destruct (H3 r x X) as [->|[->|[-> _]]]; cbn [move] in M; try discriminate. destruct (check w (S r)) eqn:Cr; injection M as <- <-; (split; [auto|]); split; try discriminate; intros r' Er; injection Er as <-; auto. }
    destruct R as (R1 & R2 & R3). split; auto. split.
    + intros y Hy. destruct (nth_split a x' b 0 y Hy) as [[L ->]|[_ K]]; [apply R2; auto|apply H2; auto].
    + intros r y Hy. destruct (nth_split a x' b (S r) y Hy) as [[L ->]|[_ K]]; [apply R3; auto|apply H3; auto].
Qed.
Theorem uneven_waits w n k s r x : check w 0 = false -> check w (S r) = true -> execution w (start n) k s -> nth_error (processes s) (S r) = Some x ->
  (x = Begin \/ x = Broadcast) /\ (stuck w s -> x = Broadcast).
Proof.
  intros C C' H Hx. destruct (root_gone w C n k s H) as (_ & _ & G).
  assert (X : x = Begin \/ x = Broadcast) by (destruct (G r x Hx) as [->|[->|[_ D]]]; auto; congruence).
  split; auto. intros St. destruct X as [->|X]; auto. destruct (nth_error_split _ _ Hx) as (a & b & E & L). destruct s as [p h]. cbn [processes] in E. subst p.
  exfalso. apply (St {| processes := a ++ Broadcast :: b; handed := h |}). apply Step. rewrite L. cbn [move]. rewrite C'. reflexivity.
Qed.
