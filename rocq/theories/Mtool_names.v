(** C78: the table of symbols of the tool matrix and the reasons for which it exits. *)
From Coq Require Import List ZArith Bool Ascii String Lia.
From Verif Require Import Base Params_model Template_model Template_words Mtool_model.
Import ListNotations.
Local Open Scope char_scope.
Local Open Scope list_scope.

(** The names known at the start. *)
Definition known : list text := map str ["Sqrt"; "sqrt"; "exp"; "log"]%string.
(** Among the tokens w there are n different names that are not known at the start. *)
Definition new_names (w : list tok) (n : nat) : Prop :=
  exists l, NoDup l /\ List.length l = n /\ forall x, In x l <-> In (TName x) w /\ ~ In x known.

Section Names.
Context {V : Type} (A : arith V) (zero : V) (of_int : Z -> V) (fmt : V -> text) (prefix : text) (chains : list (@chain V)) (coupling : option (list (list V))).
Notation state := (@state V).
Notation names s := (map name (table s)).

Ltac parts E := repeat (match type of E with context [match ?y with _ => _ end] => destruct y eqn:? end; try discriminate E).
Lemma expr_table (s s' : state) b st : reduce_expr A s b st = Some s' -> table s' = table s.
Proof. unfold reduce_expr. intros E. parts E; inversion E; reflexivity. Qed.
Lemma close_table (s s' : state) c st : reduce_close A zero chains coupling s c st = Some (Ok s') -> table s' = table s.
Proof. unfold reduce_close, bind. intros E. parts E; inversion E; reflexivity. Qed.
Lemma reduce_table (s s' : state) : reduce A zero of_int fmt prefix chains coupling s = Some (Ok s') -> table s' = table s.
Proof.
  unfold reduce. intros E. destruct (stack s) as [|x st]; [discriminate|]. destruct x; try discriminate E.
  - apply (close_table s s' c st E).
  - inversion E; reflexivity.
  - unfold bind in E. parts E; inversion E; reflexivity.
  - unfold option_map in E. destruct (reduce_expr A s v st) as [s1|] eqn:X; [|discriminate]. inversion E; subst. apply (expr_table _ _ _ _ X).
  - parts E; inversion E; reflexivity.
  - parts E; inversion E; reflexivity.
  - parts E; inversion E; reflexivity.
  - parts E; inversion E; reflexivity.
Qed.
Lemma assign_names sy x (v : V) : map name (assign sy x v) = map name sy.
Proof. unfold assign. rewrite map_map. apply map_ext. intros e. destruct (text_eqb (name e) x); reflexivity. Qed.
Lemma act_names (s s' : state) t : act A zero fmt prefix s t = Reduce s' -> names s' = names s.
Proof.
  unfold act, act_expr, act_char, or_reduce, shift_if. intros E.
  repeat (match type of E with context [match ?y with _ => _ end] => destruct y eqn:? end; try discriminate E);
    injection E as <-; cbn [table with_stack print]; try apply assign_names; reflexivity.
Qed.
Definition shiftable (t : tok) : Prop := match t with TNum _ | TInt _ | TName _ | TKey _ | TCh _ => True | _ => False end.
Lemma act_shift (s : state) t : act A zero fmt prefix s t = Shift -> shiftable t.
Proof.
  destruct t; cbn [shiftable]; auto; unfold act, act_expr, act_char, or_reduce, shift_if, top, tmul, tis, starts; cbn [orb andb]; intros E;
    repeat (match type of E with context [match ?y with _ => _ end] => destruct y eqn:? end; try discriminate E); discriminate E.
Qed.
Lemma find_none (sy : list (@entry V)) x : find_sym sy x = None <-> ~ In x (map name sy).
Proof.
  unfold find_sym. split.
  - intros H I. apply in_map_iff in I. destruct I as (e & <- & I). assert (G := find_none _ _ H e I). cbn in G.
    assert (R : text_eqb (name e) (name e) = true) by (apply text_eqb_eq; reflexivity). congruence.
  - intros H. destruct (List.find _ sy) as [e|] eqn:F; auto. apply find_some in F. destruct F as [I F]. apply text_eqb_eq in F. exfalso. apply H. rewrite <- F. apply in_map, I.
Qed.

Definition inv (pre : list tok) (s : state) : Prop := exists l, names s = known ++ l /\ NoDup l /\ (List.length l <= 196)%nat /\ forall x, In x l <-> In (TName x) pre /\ ~ In x known.
Lemma inv_names pre (s s' : state) : names s' = names s -> inv pre s -> inv pre s'.
Proof. intros E (l & H). exists l. rewrite E. exact H. Qed.
Lemma inv_other pre t (s s' : state) : (forall x, t <> TName x) -> names s' = names s -> inv pre s -> inv (pre ++ [t]) s'.
Proof.
  intros N E (l & H1 & H2 & H3 & H4). exists l. rewrite E. split; auto. split; auto. split; auto. intros x. rewrite H4. split.
  - intros [I K]. split; auto. apply in_or_app. auto.
  - intros [I K]. split; auto. apply in_app_or in I. destruct I as [I|[I|[]]]; auto. destruct (N x I).
Qed.
Lemma text_dec (x y : text) : {x = y} + {x <> y}. Proof. apply list_eq_dec, ascii_dec. Qed.
Lemma inv_push pre t (s s' : state) : push zero s t = Some s' -> inv pre s -> inv (pre ++ [t]) s'.
Proof.
  intros P I. destruct t; cbn [push] in P; try discriminate P; try (injection P as <-; apply (inv_other pre _ s); auto; discriminate).
  unfold symlook in P. destruct I as (l & H1 & H2 & H3 & H4). destruct (find_sym (table s) x) as [e|] eqn:F.
  - injection P as <-. exists l. cbn [table]. assert (In x (known ++ l)).
    { rewrite <- H1. destruct (in_dec text_dec x (names s)) as [J|J]; auto. apply find_none in J. congruence. }
    repeat split; auto.
    + apply H4 in H0. apply in_or_app. tauto.
    + apply H4 in H0. tauto.
    + intros [J K]. apply in_app_or in J. destruct J as [J|[J|[]]]; [apply H4; auto|]. injection J as ->. apply in_app_or in H. tauto.
  - apply find_none in F. destruct (Nat.ltb _ NSYMS) eqn:L; [|discriminate]. injection P as <-. apply Nat.ltb_lt in L. unfold NSYMS in L.
    rewrite <- (map_length name), H1, app_length in L. change (List.length known) with 4%nat in L. rewrite H1 in F.
    exists (l ++ [x]). cbn [table]. rewrite map_app, H1, <- app_assoc, app_length. cbn [map name List.length]. repeat split; auto; try lia.
    + apply NoDup_rev in H2. rewrite <- (rev_involutive (l ++ [x])). apply NoDup_rev. rewrite rev_app_distr. cbn. constructor; auto. rewrite <- in_rev. intros J. apply F, in_or_app. auto.
    + apply in_app_or in H. apply in_or_app. destruct H as [H|[->|[]]]; [apply H4 in H; tauto|right; left; auto].
    + apply in_app_or in H. destruct H as [H|[->|[]]]; [apply H4 in H; tauto|]. intros J. apply F, in_or_app. auto.
    + intros [J K]. apply in_or_app. apply in_app_or in J. destruct J as [J|[J|[]]]; [left; apply H4; auto|injection J as ->; right; left; auto].
Qed.
Lemma push_none pre t (s : state) : shiftable t -> push zero s t = None -> inv pre s -> new_names (pre ++ [t]) 197.
Proof.
  intros Sh P (l & H1 & H2 & H3 & H4). destruct t; cbn in Sh, P; try contradiction; try discriminate P. unfold symlook in P. destruct (find_sym (table s) x) eqn:F; [discriminate|].
  apply find_none in F. rewrite H1 in F. destruct (Nat.ltb _ NSYMS) eqn:L; [discriminate|]. apply Nat.ltb_ge in L. unfold NSYMS in L.
  rewrite <- (map_length name), H1, app_length in L. change (List.length known) with 4%nat in L.
  exists (x :: l). split; [constructor; auto; intros J; apply F, in_or_app; auto|]. split; [cbn; lia|]. intros y. split.
  - intros [->|J]; [split; [apply in_or_app; right; left; auto|intros K; apply F, in_or_app; auto]|]. apply H4 in J. split; [apply in_or_app; tauto|tauto].
  - intros [J K]. apply in_app_or in J. destruct J as [J|[J|[]]]; [right; apply H4; auto|injection J as ->; left; auto].
Qed.

Notation run := (run A zero of_int fmt prefix chains coupling).
Lemma run_names n : forall pre (s : state) ts o e, inv pre s -> run n s ts = Some (o, e) ->
  (e = Finished -> exists w r, pre ++ ts = w ++ TEnd :: r /\ exists k, (k <= 196)%nat /\ new_names w k) /\
  (e = Exit -> exists w r, pre ++ ts = w ++ r /\ ((exists r', r = TMismatch :: r') \/ new_names w 197)).
Proof.
  induction n as [|n IH]; intros pre s ts o e I R; [discriminate|]. cbn [Mtool_model.run] in R. unfold step in R.
  destruct (reduce A zero of_int fmt prefix chains coupling s) as [[s'| |]|] eqn:Rd.
  - apply (IH pre s' ts o e); auto. apply (inv_names pre s); auto. rewrite (reduce_table _ _ Rd). auto.
  - injection R as <- <-. split; discriminate.
  - injection R as <- <-. split; discriminate.
  - destruct ts as [|t ts]; [injection R as <- <-; split; discriminate|].
    assert (Fin : exists k, (k <= 196)%nat /\ new_names pre k) by (destruct I as (l & _ & H2 & H3 & H4); exists (List.length l); split; auto; exists l; auto).
    assert (Act : forall R' : match act A zero fmt prefix s t with
          | Shift => match push zero s t with Some s' => run n s' ts | None => Some (output s, Exit) end
          | Reduce s' => run n s' (t :: ts) | Next => run n (next_state s) ts | Error => Some (output s, Syntax) end = Some (o, e),
        (e = Finished -> exists w r, pre ++ t :: ts = w ++ TEnd :: r /\ exists k, (k <= 196)%nat /\ new_names w k) /\
        (e = Exit -> exists w r, pre ++ t :: ts = w ++ r /\ ((exists r', r = TMismatch :: r') \/ new_names w 197))).
    { intros R'. destruct (act A zero fmt prefix s t) as [|s'| |] eqn:Ac.
      - assert (Sh := act_shift _ _ Ac). destruct (push zero s t) as [s'|] eqn:P.
        + change (t :: ts) with ([t] ++ ts). rewrite app_assoc. apply (IH (pre ++ [t]) s' ts o e); auto. apply (inv_push pre t s); auto.
        + injection R' as <- <-. split; [discriminate|]. intros _. exists (pre ++ [t]), ts. split; [rewrite <- app_assoc; auto|]. right. apply (push_none pre t s); auto.
      - apply (IH pre s' (t :: ts) o e); auto. apply (inv_names pre s); auto. apply (act_names s s' t); auto.
      - change (t :: ts) with ([t] ++ ts). rewrite app_assoc. apply (IH (pre ++ [t]) (next_state s) ts o e); auto. apply (inv_other pre t s); auto.
        intros x ->. revert Ac. unfold act, act_expr, act_char, or_reduce, shift_if. cbn [tis]. intros Ac.
        repeat (match type of Ac with context [match ?y with _ => _ end] => destruct y eqn:? end; try discriminate Ac).
      - injection R' as <- <-. split; discriminate. }
    destruct t.
    1-5: apply Act; revert R; destruct (act A zero fmt prefix s _) as [|s'| |]; auto; destruct (push zero s _); auto.
    + assert (Z : stack s = [] /\ begun s = true \/ ~ (stack s = [] /\ begun s = true)) by (destruct (stack s), (begun s); auto; right; intros [? ?]; discriminate).
      destruct Z as [[Z1 Z2]|Z].
      * rewrite Z1, Z2 in R. injection R as <- <-. split; [|discriminate]. intros _. exists pre, ts. auto.
      * apply Act. revert R. destruct (stack s) eqn:?, (begun s) eqn:?; try (destruct Z; split; reflexivity);
          (destruct (act A zero fmt prefix s TEnd) as [|s'| |]; auto; destruct (push zero s TEnd); auto).
    + injection R as <- <-. split; [discriminate|]. intros _. exists pre, (TMismatch :: ts). split; auto. left. eauto.
    + injection R as <- <-. split; discriminate.
    + injection R as <- <-. split; discriminate.
Qed.
Lemma inv_start : inv [] (initial A zero).
Proof. exists []. cbn [initial table]. split; [reflexivity|]. split; [constructor|]. split; [cbn; lia|]. intros x. cbn. tauto. Qed.
Theorem finished_names s o : tool A zero of_int fmt prefix chains coupling s (o, Finished) -> exists w r, tokens s = w ++ TEnd :: r /\ exists k, (k <= 196)%nat /\ new_names w k.
Proof. intros [n R]. exact (proj1 (run_names n [] _ _ _ _ inv_start R) eq_refl). Qed.
Theorem exit_reason s o : tool A zero of_int fmt prefix chains coupling s (o, Exit) -> exists w r, tokens s = w ++ r /\ ((exists r', r = TMismatch :: r') \/ new_names w 197).
Proof. intros [n R]. exact (proj2 (run_names n [] _ _ _ _ inv_start R) eq_refl). Qed.
End Names.
