From Coq Require Import List ZArith Lia Bool String.
From Verif Require Import Base Invar_model Invar_spec.
Import ListNotations.
Local Open Scope Z_scope.

Lemma parity_ok_true x : adm Multiplicative x -> parity_ok x = true.
Proof. simpl; intros [->| ->]; reflexivity. Qed.
Lemma mod3_ok_true x : adm Mod3 x -> mod3_ok x = true.
Proof. simpl; intros [->|[->| ->]]; reflexivity. Qed.
Lemma parity_ok_inv x : parity_ok x = true -> adm Multiplicative x.
Proof. unfold parity_ok; rewrite orb_true_iff, !Z.eqb_eq; simpl; auto. Qed.
Lemma mod3_ok_inv x : mod3_ok x = true -> adm Mod3 x.
Proof. unfold mod3_ok; rewrite andb_true_iff, !Z.leb_le; simpl; lia. Qed.

(** Pure (total) versions, used in the proofs only. *)
Definition comb1 (t : qtype) (x y : Z) : Z :=
  match t with Additive => x + y | Multiplicative => x * y | Mod3 => Z.rem (x + y) 3 end.
Definition inv1 (t : qtype) (x : Z) : Z :=
  match t with Additive => - x | Multiplicative => x | Mod3 => Z.rem (3 - x) 3 end.
Fixpoint combp (ts : list qtype) (a b : invar) : invar :=
  match ts, a, b with t :: ts', x :: a', y :: b' => comb1 t x y :: combp ts' a' b' | _, _, _ => [] end.
Fixpoint invp (ts : list qtype) (a : invar) : invar :=
  match ts, a with t :: ts', x :: a' => inv1 t x :: invp ts' a' | _, _ => [] end.

Ltac m3 := repeat match goal with
  | H : adm Multiplicative _ |- _ => simpl in H; destruct H; subst
  | H : adm Mod3 _ |- _ => simpl in H; destruct H as [?|[?|?]]; subst
  end.

Lemma combine_pure ts a b : admissible ts a -> admissible ts b -> combine ts a b = Ok (combp ts a b).
Proof.
  intros Ha; revert b; induction Ha as [|t x ts a Hx Ha IH]; intros b Hb; inversion Hb; subst; simpl; auto.
  rewrite IH by auto. destruct t; simpl; auto.
  - rewrite parity_ok_true by auto; reflexivity.
  - rewrite mod3_ok_true by auto; reflexivity.
Qed.

Lemma inverse_pure ts a : admissible ts a -> inverse ts a = Ok (invp ts a).
Proof.
  induction 1 as [|t x ts a Hx Ha IH]; simpl; auto.
  rewrite IH. destruct t; simpl; auto.
  - rewrite parity_ok_true by auto; reflexivity.
  - m3; reflexivity.
Qed.

Lemma comb1_adm t x y : adm t x -> adm t y -> adm t (comb1 t x y).
Proof. destruct t; intros; m3; simpl; auto; lia. Qed.
Lemma inv1_adm t x : adm t x -> adm t (inv1 t x).
Proof. destruct t; intros; m3; simpl; auto. Qed.

Lemma combp_adm ts a b : admissible ts a -> admissible ts b -> admissible ts (combp ts a b).
Proof.
  intros Ha; revert b; induction Ha; intros b Hb; inversion Hb; subst; simpl; constructor; auto using comb1_adm.
  apply IHHa; auto.
Qed.
Lemma invp_adm ts a : admissible ts a -> admissible ts (invp ts a).
Proof. induction 1; simpl; constructor; auto using inv1_adm. Qed.

Lemma unit_adm ts : admissible ts (unit_of ts).
Proof. induction ts as [|[] ts]; simpl; constructor; simpl; auto. Qed.

Lemma composes_comb1 t x y z : adm t x -> adm t y -> (composes t x y z <-> z = comb1 t x y).
Proof.
  destruct t; unfold composes, comb1, adm; intros; try tauto.
  split.
  - intros [Hz [k Hk]]. destruct H as [?|[?|?]], H0 as [?|[?|?]]; subst; match goal with |- _ = ?e => let v := eval vm_compute in e in change e with v end; lia.
  - intros ->. destruct H as [?|[?|?]], H0 as [?|[?|?]]; subst;
      (split; [vm_compute; intuition congruence | first [exists 0; reflexivity | exists 1; reflexivity]]).
Qed.

Lemma composes_combp ts a b c : admissible ts a -> admissible ts b -> (composes_all ts a b c <-> c = combp ts a b).
Proof.
  intros Ha; revert b c; induction Ha as [|t x ts a Hx Ha IH]; intros b c Hb; inversion Hb; subst; simpl; split; intros H.
  - inversion H; auto.
  - subst; constructor.
  - inversion H; subst. f_equal. { apply composes_comb1; auto. } apply IH; auto.
  - subst. constructor. { apply composes_comb1; auto. } apply IH; auto.
Qed.

Lemma combp_comm ts a b : admissible ts a -> admissible ts b -> combp ts a b = combp ts b a.
Proof.
  intros Ha; revert b; induction Ha as [|t]; intros b Hb; inversion Hb; subst; simpl; auto.
  f_equal; auto. destruct t; simpl; try lia. f_equal; lia.
Qed.

Lemma combp_assoc ts a b c : admissible ts a -> admissible ts b -> admissible ts c ->
  combp ts (combp ts a b) c = combp ts a (combp ts b c).
Proof.
  intros Ha; revert b c; induction Ha as [|t]; intros b c Hb Hc; inversion Hb; subst; inversion Hc; subst; simpl; auto.
  f_equal; auto. destruct t; simpl; try lia. m3; reflexivity.
Qed.

Lemma combp_unit ts a : admissible ts a -> combp ts a (unit_of ts) = a.
Proof.
  induction 1 as [|t]; simpl; auto. f_equal; auto. destruct t; simpl; try lia. m3; reflexivity.
Qed.

Lemma combp_inv ts a : admissible ts a -> combp ts a (invp ts a) = unit_of ts.
Proof.
  induction 1 as [|t]; simpl; auto. f_equal; auto. destruct t; simpl; try lia; m3; reflexivity.
Qed.

Lemma combine_correct ts a b : admissible ts a -> admissible ts b ->
  exists c, combine ts a b = Ok c /\ admissible ts c /\ composes_all ts a b c.
Proof.
  intros Ha Hb. exists (combp ts a b). rewrite combine_pure by auto.
  split; auto. split; [apply combp_adm; auto|]. apply composes_combp; auto.
Qed.

Lemma combine_comm ts a b : admissible ts a -> admissible ts b -> combine ts a b = combine ts b a.
Proof. intros; rewrite !combine_pure by auto. f_equal. apply combp_comm; auto. Qed.

Lemma combine_assoc ts a b c : admissible ts a -> admissible ts b -> admissible ts c ->
  (let* ab := combine ts a b in combine ts ab c) = (let* bc := combine ts b c in combine ts a bc).
Proof.
  intros. rewrite !combine_pure by auto. simpl. rewrite !combine_pure by auto using combp_adm.
  f_equal. apply combp_assoc; auto.
Qed.

Lemma inverse_correct ts a : admissible ts a ->
  exists b, inverse ts a = Ok b /\ admissible ts b /\ combine ts a b = Ok (unit_of ts) /\ inverse ts b = Ok a.
Proof.
  intros Ha. exists (invp ts a). rewrite inverse_pure by auto. split; auto. split; [apply invp_adm; auto|]. split.
  - rewrite combine_pure by auto using invp_adm. f_equal. apply combp_inv; auto.
  - rewrite inverse_pure by auto using invp_adm. f_equal.
    induction Ha as [|t x]; simpl; auto. f_equal; auto. destruct t; simpl; try lia; m3; reflexivity.
Qed.

Lemma inverse_undoes ts a b : admissible ts a -> admissible ts b ->
  (let* ab := combine ts a b in let* ib := inverse ts b in combine ts ab ib) = Ok a.
Proof.
  intros. rewrite combine_pure, inverse_pure by auto. simpl. rewrite combine_pure by auto using combp_adm, invp_adm.
  rewrite combp_assoc by auto using invp_adm. rewrite combp_inv by auto. rewrite combp_unit; auto.
Qed.

(** Without admissibility of *this the assertions fire. *)
Lemma combine_bad_parity x y : ~ adm Multiplicative x -> combine [Multiplicative] [x] [y] = Throw.
Proof.
  intros H. simpl. destruct (parity_ok x) eqn:E; auto. apply parity_ok_inv in E; contradiction.
Qed.

Lemma invar_eqb_eq a b : invar_eqb a b = true <-> a = b.
Proof.
  revert b; induction a as [|x a IH]; destruct b as [|y b]; simpl; split; intros H; try discriminate; auto.
  - apply andb_true_iff in H as [H1 H2]. apply Z.eqb_eq in H1. apply IH in H2. subst; auto.
  - inversion H; subst. rewrite Z.eqb_refl. simpl. apply IH; auto.
Qed.

Lemma invar_eqb_refl a : invar_eqb a a = true.
Proof. apply invar_eqb_eq; auto. Qed.

Lemma invar_ltb_irrefl a : invar_ltb a a = false.
Proof. induction a; simpl; auto. rewrite Z.ltb_irrefl; auto. Qed.

Lemma invar_ltb_trans a b c : invar_ltb a b = true -> invar_ltb b c = true -> invar_ltb a c = true.
Proof.
  revert b c; induction a as [|x a IH]; destruct b as [|y b], c as [|z c]; simpl; auto; try discriminate.
  destruct (x <? y) eqn:E1, (y <? z) eqn:E2; intros H1 H2;
    repeat match goal with H : (_ <? _) = true |- _ => apply Z.ltb_lt in H | H : (_ <? _) = false |- _ => apply Z.ltb_ge in H end.
  - replace (x <? z) with true; auto. symmetry; apply Z.ltb_lt; lia.
  - destruct (z <? y) eqn:E3; try discriminate. apply Z.ltb_ge in E3.
    replace (x <? z) with true; auto. symmetry; apply Z.ltb_lt; lia.
  - destruct (y <? x) eqn:E3; try discriminate. apply Z.ltb_ge in E3.
    replace (x <? z) with true; auto. symmetry; apply Z.ltb_lt; lia.
  - destruct (y <? x) eqn:E3; try discriminate. destruct (z <? y) eqn:E4; try discriminate.
    apply Z.ltb_ge in E3, E4. replace y with x in * by lia. replace z with x by lia.
    rewrite Z.ltb_irrefl. eapply IH; eauto.
Qed.

Lemma invar_ltb_total a b : a <> b -> invar_ltb a b = true \/ invar_ltb b a = true.
Proof.
  revert b; induction a as [|x a IH]; destruct b as [|y b]; simpl; auto; try congruence.
  intros H. destruct (x <? y) eqn:E1; auto. destruct (y <? x) eqn:E2; auto.
  apply Z.ltb_ge in E1, E2. assert (x = y) by lia. subst. apply IH. congruence.
Qed.

(** ** InvertParity *)

Lemma invar_of_data_throws d : d <> [] -> invar_of_data d = Throw.
Proof. destruct d; [congruence|reflexivity]. Qed.

Lemma invert_parity_throws sg a : a <> [] -> invert_parity sg a = Throw.
Proof. intros. unfold invert_parity. rewrite invar_of_data_throws; auto. Qed.
