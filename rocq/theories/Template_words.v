(** C34: the vocabulary of the program. *)
From Coq Require Import List ZArith Bool Ascii String Lia.
From Verif Require Import Base Params_model Template_model Template_spec Template_lex Template_proofs Template_complete Template_values.
Import ListNotations.
Local Open Scope list_scope.

Section V.
Context {V : Type} (A : arith V) (X : context V).
Notation M := (program A X).
Hypothesis ND : NoDup (map fst (variables X)).

Lemma text_eqb_eq a b : text_eqb a b = true <-> a = b.
Proof. revert b; induction a as [|x a IH]; intros [|y b]; cbn [text_eqb]; split; intros H; try discriminate; auto.
  - apply andb_prop in H as [H1 H2]. apply Ascii.eqb_eq in H1. apply IH in H2. subst; auto.
  - injection H as -> ->. rewrite Ascii.eqb_refl. apply IH. auto.
Qed.
Lemma text_eqb_neq a b : text_eqb a b = false <-> a <> b.
Proof. rewrite <- text_eqb_eq. destruct (text_eqb a b); split; congruence. Qed.
Lemma channel_ok ch c : channel X ch = Ok c <-> channel_at X ch c.
Proof.
  unfold channel. split.
  - destruct ((ch <? 1)%Z || _) eqn:E; [discriminate|]. apply orb_false_elim in E as [E1 E2]. apply Z.ltb_ge in E1, E2. destruct (nth_error (channels X) (Z.to_nat (ch - 1))) eqn:N; [|discriminate].
    intros H. injection H as <-. apply nth_error_split in N as (l & r & H1 & H2). exists l, r. split; [auto|]. lia.
  - intros (l & r & H & ->). rewrite H. replace (Z.to_nat (Z.of_nat (List.length l) + 1 - 1)) with (List.length l) by lia.
    rewrite nth_error_app2, Nat.sub_diag by lia. cbn [nth_error]. rewrite app_length. cbn [List.length].
    destruct (Z.ltb_spec (Z.of_nat (List.length l) + 1) 1); [lia|]. destruct (Z.ltb_spec (Z.of_nat (List.length l + S (List.length r))) (Z.of_nat (List.length l) + 1)); [lia|]. reflexivity.
Qed.
Lemma coefficient_ok (xs : list V) i x : coefficient xs i = Ok x <-> element_at xs i x.
Proof.
  unfold coefficient. split.
  - destruct ((i <? 0)%Z || _) eqn:E; [discriminate|]. apply orb_false_elim in E as [E1 E2]. apply Z.ltb_ge in E1. apply Z.leb_gt in E2. destruct (nth_error xs (Z.to_nat i)) eqn:N; [|discriminate].
    intros H. injection H as <-. apply nth_error_split in N as (l & r & H1 & H2). exists l, r. split; [auto|]. lia.
  - intros (l & r & -> & ->). rewrite Nat2Z.id, nth_error_app2, Nat.sub_diag by lia. cbn [nth_error]. rewrite app_length. cbn [List.length].
    destruct (Z.ltb_spec (Z.of_nat (List.length l)) 0); [lia|]. destruct (Z.leb_spec (Z.of_nat (List.length l + S (List.length r))) (Z.of_nat (List.length l))); [lia|]. reflexivity.
Qed.
Lemma find_ok x v : (exists p, List.find (fun p : text * V => text_eqb (fst p) x) (variables X) = Some p /\ snd p = v) <-> In (x, v) (variables X).
Proof.
  split.
  - intros ([y w] & H & <-). apply find_some in H as [H1 H2]. cbn [fst] in H2. apply text_eqb_eq in H2. subst. auto.
  - revert ND. induction (variables X) as [|[y w] l IH]; intros N H; [contradiction|]. cbn [map fst] in N. inversion N as [|? ? N1 N2]; subst. cbn [List.find fst]. destruct H as [H|H].
    + injection H as -> ->. rewrite (proj2 (text_eqb_eq x x) eq_refl). eexists. split; reflexivity.
    + assert (y <> x) by (intros ->; apply N1; apply (in_map fst) in H; auto). rewrite (proj2 (text_eqb_neq y x)) by auto. apply IH; auto.
Qed.
Lemma var_ok x v : i_var M x = Ok v <-> value_of A X (Var x) v.
Proof.
  cbn [i_var program]. unfold lookup_variable. split.
  - destruct (text_eqb x (str "parse")) eqn:E0; [discriminate|]. apply text_eqb_neq in E0. destruct (text_eqb x (str "Pi")) eqn:E1.
    { apply text_eqb_eq in E1. subst. cbn [orb]. intros H. injection H as <-. apply Vl_Pi. }
    destruct (text_eqb x (str "pi")) eqn:E2. { apply text_eqb_eq in E2. subst. cbn [orb]. intros H. injection H as <-. apply Vl_pi. }
    cbn [orb]. apply text_eqb_neq in E1, E2. destruct (List.find _ _) as [p|] eqn:F; [|discriminate]. intros H. injection H as <-. apply Vl_var; auto. apply find_ok. eauto.
  - intros H. inversion H as [|E1 E2|E1 E2|y w N1 N2 N3 HI E1 E2| | | | | | | | | | | | | ]; subst; try reflexivity.
    rewrite (proj2 (text_eqb_neq x (str "parse"))), (proj2 (text_eqb_neq x (str "Pi"))), (proj2 (text_eqb_neq x (str "pi"))) by auto. cbn [orb].
    apply find_ok in HI as (p & -> & <-). reflexivity.
Qed.
Lemma bind_ok {B C} (x : res B) (f : B -> res C) c : (let* y := x in f y) = Ok c <-> exists y, x = Ok y /\ f y = Ok c.
Proof. destruct x; cbn [bind]; split; intros H; try discriminate; [eauto| |destruct H as (? & ? & ?); discriminate..]. destruct H as (y & E & H). injection E as ->. auto. Qed.
Lemma eval_call' f l : eval M (Call f l) = let* vs := mapM (eval M) l in i_call M f vs.
Proof. apply eval_call. Qed.
Ltac name E := first [apply text_eqb_eq in E | idtac].
Lemma words e : forall v, eval M e = Ok v <-> value_of A X e v.
Proof.
  induction e as [w|x|f l IH|e IH|e IH|a b IHa IHb|a b IHa IHb|a b IHa IHb|a b IHa IHb] using (@expr_rect'); intros v.
  - cbn [eval i_num program]. unfold number_value. split.
    + destruct (a_finite A (a_strtod A w)) eqn:E; [|discriminate]. intros H. injection H as <-. apply Vl_num; auto.
    + intros H. inversion H; subst. match goal with E : a_finite _ _ = true |- _ => rewrite E end. reflexivity.
  - apply var_ok.
  - rewrite eval_call', bind_ok. cbn [i_call program]. split.
    + intros (vs & Hl & Hc). destruct l as [|e1 [|e2 [|e3 l]]].
      * cbn [mapM] in Hl. injection Hl as <-. discriminate.
      * cbn [mapM] in Hl. apply bind_ok in Hl as (x & Hx & Hl). cbn [bind] in Hl. injection Hl as <-. apply (Forall_inv IH) in Hx. unfold call_function in Hc.
        destruct (text_eqb f (str "Sqrt")) eqn:E1. { cbn [orb] in Hc. injection Hc as <-. apply Vl_sqrt; auto. left. symmetry. apply text_eqb_eq; auto. }
        destruct (text_eqb f (str "sqrt")) eqn:E2. { cbn [orb] in Hc. injection Hc as <-. apply Vl_sqrt; auto. right. left. symmetry. apply text_eqb_eq; auto. }
        cbn [orb] in Hc.
        destruct (text_eqb f (str "exp")) eqn:E3. { apply text_eqb_eq in E3. subst. injection Hc as <-. apply Vl_exp; auto. }
        destruct (text_eqb f (str "log")) eqn:E4. { apply text_eqb_eq in E4. subst. injection Hc as <-. apply Vl_log; auto. }
        destruct (text_eqb f (str "Conjugate")) eqn:E5. { apply text_eqb_eq in E5. subst. injection Hc as <-. apply Vl_conj; auto. }
        destruct (text_eqb f (str "gammaPolCh")) eqn:E6; [|discriminate]. apply text_eqb_eq in E6. subst.
        apply bind_ok in Hc as (ch & Hi & Hc). apply bind_ok in Hc as (c & Hch & Hc). injection Hc as <-. apply channel_ok in Hch. eapply Vl_gamma; eauto.
      * cbn [mapM] in Hl. apply bind_ok in Hl as (x & Hx & Hl). apply bind_ok in Hl as (ys & Hy & Hl). apply bind_ok in Hy as (y & Hy & Hn). cbn [bind] in Hn. injection Hn as <-. injection Hl as <-.
        apply (Forall_inv IH) in Hx. apply (Forall_inv (Forall_inv_tail IH)) in Hy. unfold call_function in Hc.
        destruct (text_eqb f (str "coefxi")) eqn:E1.
        { apply text_eqb_eq in E1. subst. apply bind_ok in Hc as (ch & H1 & Hc). apply bind_ok in Hc as (i & H2 & Hc). apply bind_ok in Hc as (c & H3 & Hc). apply channel_ok in H3. apply coefficient_ok in Hc. eapply Vl_xi; eauto. }
        destruct (text_eqb f (str "coefzeta")) eqn:E2; [|discriminate].
        apply text_eqb_eq in E2. subst. apply bind_ok in Hc as (ch & H1 & Hc). apply bind_ok in Hc as (i & H2 & Hc). apply bind_ok in Hc as (c & H3 & Hc). apply channel_ok in H3. apply coefficient_ok in Hc. eapply Vl_zeta; eauto.
      * cbn [mapM] in Hl. apply bind_ok in Hl as (x & Hx & Hl). apply bind_ok in Hl as (ys & Hy & Hl). injection Hl as <-. apply bind_ok in Hy as (y & Hy & Hn). apply bind_ok in Hn as (zs & Hz & Hn). injection Hn as <-.
        apply bind_ok in Hz as (z & Hz & Hn). apply bind_ok in Hn as (us & Hu & Hn). injection Hn as <-. discriminate.
    + assert (One : forall e v, l = [e] -> value_of A X e v -> mapM (eval M) l = Ok [v]). { intros e u -> H. apply (Forall_inv IH) in H. cbn [mapM]. rewrite H. reflexivity. }
      intros H. inversion H; subst; try (eexists; split; [eapply One; eauto|reflexivity]).
      * eexists. split; [eapply One; eauto|]. match goal with K : In f _ |- _ => destruct K as [<-|[<-|[]]] end; reflexivity.
      * eexists. split; [eapply One; eauto|]. cbn. match goal with K : a_integral A _ = _ |- _ => rewrite K end. cbn [bind]. match goal with K : channel_at _ _ _ |- _ => apply channel_ok in K; rewrite K end. reflexivity.
      * exists [v1; v2]. split; [cbn [mapM]; rewrite (proj2 (Forall_inv IH v1)), (proj2 (Forall_inv (Forall_inv_tail IH) v2)) by auto; reflexivity|].
        cbn. repeat match goal with K : a_integral A _ = _ |- _ => rewrite K; clear K; cbn [bind] end. match goal with K : channel_at _ _ _ |- _ => apply channel_ok in K; rewrite K end. cbn [bind]. apply coefficient_ok. auto.
      * exists [v1; v2]. split; [cbn [mapM]; rewrite (proj2 (Forall_inv IH v1)), (proj2 (Forall_inv (Forall_inv_tail IH) v2)) by auto; reflexivity|].
        cbn. repeat match goal with K : a_integral A _ = _ |- _ => rewrite K; clear K; cbn [bind] end. match goal with K : channel_at _ _ _ |- _ => apply channel_ok in K; rewrite K end. cbn [bind]. apply coefficient_ok. auto.
  - cbn [eval]. rewrite IH. split; [apply Vl_pos|]. intros H. inversion H; auto.
  - cbn [eval]. rewrite bind_ok. split.
    + intros (x & H1 & H2). injection H2 as <-. apply Vl_neg, IH; auto.
    + intros H. inversion H; subst. eexists. split; [apply IH; eauto|reflexivity].
  - cbn [eval]. rewrite bind_ok. split.
    + intros (x & H1 & H2). apply bind_ok in H2 as (y & H2 & H3). injection H3 as <-. apply Vl_add; [apply IHa|apply IHb]; auto.
    + intros H. inversion H; subst. eexists. split; [apply IHa; eauto|]. rewrite bind_ok. eexists. split; [apply IHb; eauto|reflexivity].
  - cbn [eval]. rewrite bind_ok. split.
    + intros (x & H1 & H2). apply bind_ok in H2 as (y & H2 & H3). injection H3 as <-. apply Vl_sub; [apply IHa|apply IHb]; auto.
    + intros H. inversion H; subst. eexists. split; [apply IHa; eauto|]. rewrite bind_ok. eexists. split; [apply IHb; eauto|reflexivity].
  - cbn [eval]. rewrite bind_ok. split.
    + intros (x & H1 & H2). apply bind_ok in H2 as (y & H2 & H3). injection H3 as <-. apply Vl_mul; [apply IHa|apply IHb]; auto.
    + intros H. inversion H; subst. eexists. split; [apply IHa; eauto|]. rewrite bind_ok. eexists. split; [apply IHb; eauto|reflexivity].
  - cbn [eval]. rewrite bind_ok. split.
    + intros (x & H1 & H2). apply bind_ok in H2 as (y & H2 & H3). cbn [i_div program] in H3. unfold divide in H3. destruct (a_is_zero A y) eqn:E; [discriminate|]. injection H3 as <-. apply Vl_div; [apply IHa|apply IHb|]; auto.
    + intros H. inversion H; subst. eexists. split; [apply IHa; eauto|]. rewrite bind_ok. eexists. split; [apply IHb; eauto|]. cbn [i_div program]. unfold divide. match goal with K : a_is_zero _ _ = _ |- _ => rewrite K end. reflexivity.
Qed.
End V.
