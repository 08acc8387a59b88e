(** C78: how many names the tool matrix can hold, and why it exits. *)
From Coq Require Import List ZArith QArith Bool Ascii String Lia.
From Verif Require Import Base Params_model Template_model Template_spec Template_aux Mtool_model Mtool_spec Mtool_names Mtool_safe Mtool_aux.
Import ListNotations.
Local Open Scope list_scope.

(** An input that is read to its end has at most 196 different names besides those of the four functions: the table of 200 places
    is never exceeded. *)
Theorem C78_names : forall (V : Type) (A : arith V) (zero : V) (of_int : Z -> V) (fmt : V -> text) (prefix : text) (chains : list (@chain V)) (coupling : option (list (list V))) (s o : text),
  tool A zero of_int fmt prefix chains coupling s (o, Finished) -> exists w r, tokens s = w ++ TEnd :: r /\ exists k, (k <= 196)%nat /\ new_names w k.
Proof. exact @finished_names. Qed.
Print Assumptions C78_names.
Example C78_names_nonvacuous : tool rational nought integer fraction equals [channel_1] (Some []) (str "x=3" ++ newline :: str "x+y" ++ [newline]) (str "= 3/1" ++ [newline], Finished) /\
  new_names [TName (str "x"); TCh "="; TInt (str "3"); TCh newline; TName (str "x"); TCh "+"; TName (str "y"); TName (str "exp")] 2.
Proof.
  split; [exists 60%nat; vm_compute; reflexivity|]. exists [str "x"; str "y"]. split; [repeat constructor; cbn; intros H; repeat destruct H as [H|H]; try discriminate; auto|].
  split; [reflexivity|]. intros x. split.
  - intros [<-|[<-|[]]]; (split; [cbn; tauto|]); cbn; intros H; repeat destruct H as [H|H]; try discriminate; auto.
  - intros [I K]. cbn in I. repeat destruct I as [I|I]; try discriminate; try (injection I as <-; cbn; tauto); try contradiction. injection I as <-. destruct K. cbn. tauto.
Qed.

(** The tool exits with status 1 only at a closing brace without an opening one or at the 197th new name. *)
Theorem C78_exit : forall (V : Type) (A : arith V) (zero : V) (of_int : Z -> V) (fmt : V -> text) (prefix : text) (chains : list (@chain V)) (coupling : option (list (list V))) (s o : text),
  tool A zero of_int fmt prefix chains coupling s (o, Exit) -> exists w r, tokens s = w ++ r /\ ((exists r', r = TMismatch :: r') \/ new_names w 197).
Proof. exact @exit_reason. Qed.
Print Assumptions C78_exit.
Example C78_exit_nonvacuous :
  tool rational nought integer fraction equals [channel_1] (Some []) (str "{1}}" ++ [newline]) (str "= 1/1" ++ [newline], Exit) /\
  let many := flat_map (fun i => (if Nat.eqb i 0 then [] else str "+") ++ [ascii_of_nat (97 + i / 15); ascii_of_nat (97 + i mod 15)]) (seq 0 197) in
  tool rational nought integer fraction equals [channel_1] (Some []) (many ++ [newline]) ([], Exit).
Proof. split; [exists 60%nat; vm_compute; reflexivity|]. exists 2000%nat. vm_compute. reflexivity. Qed.

(** If the integers of the input fit into an int and the coefficients V have been loaded, the tool does nothing undefined: an index
    beyond the coefficients ends in a failed assertion, and gammaPolCh takes one index only. *)
Theorem C78_safe : forall (V : Type) (A : arith V) (zero : V) (of_int : Z -> V) (fmt : V -> text) (prefix : text) (chains : list (@chain V)) (coupling : list (list V)) (s o : text) (e : ending),
  (forall w, In (TInt w) (tokens s) -> exists i, index w i) -> tool A zero of_int fmt prefix chains (Some coupling) s (o, e) -> e <> Undefined.
Proof. exact @nothing_undefined. Qed.
Print Assumptions C78_safe.
Example C78_safe_nonvacuous :
  (forall w, In (TInt w) (tokens (str "coefxi[1,2]" ++ [newline])) -> exists i, index w i) /\
  tool rational nought integer fraction equals [channel_1] (Some []) (str "coefxi[1,2]" ++ [newline]) ([], Abort) /\
  tool rational nought integer fraction equals [channel_1] (Some []) (str "2147483648" ++ [newline]) ([], Undefined).
Proof.
  split; [|split; exists 60%nat; vm_compute; reflexivity].
  assert (E : tokens (str "coefxi[1,2]" ++ [newline]) = [TKey KXi; TCh "["; TInt (str "1"); TCh ","; TInt (str "2"); TCh "]"; TCh newline; TEnd]) by (vm_compute; reflexivity).
  rewrite E. intros w H. assert (D : forall c, isdigit c = true -> (Z.of_nat (nat_of_ascii c) <= 57)%Z -> exists i, index [c] i).
  { intros c H1 H2. eexists. split; [split; [discriminate|repeat constructor; auto]|]. split; [apply (Dv_digit [] 0 c Dv_nil)|lia]. }
  cbn [In] in H. repeat destruct H as [H|H]; try discriminate H; try contradiction; injection H as <-; apply D; vm_compute; auto; discriminate.
Qed.
