From Coq Require Import List ZArith Lia Bool String.
From Verif Require Import Base Invar_model Invar_spec Invar_proofs Symmetry_model Symmetry_spec Symmetry_tables.
Import ListNotations.
Local Open Scope string_scope.
Local Open Scope Z_scope.

(** ** C02: duality *)

Lemma duality_pure tl d I J : admissible tl d -> admissible tl I -> admissible tl J ->
  (combp tl (invp tl d) I = J <-> combp tl d J = I).
Proof.
  intros Hd HI HJ. split; intros <-.
  - rewrite <- combp_assoc by auto using invp_adm. rewrite combp_inv by auto.
    rewrite combp_comm by auto using unit_adm. apply combp_unit; auto.
  - rewrite <- combp_assoc by auto using invp_adm. rewrite (combp_comm tl (invp tl d)) by auto using invp_adm.
    rewrite combp_inv by auto. rewrite combp_comm by auto using unit_adm. apply combp_unit; auto.
Qed.

Lemma nr_combs_ok combs t : List.length (tb_In t) = combs -> List.length (tb_QN t) = combs -> nr_combs combs t = Ok combs.
Proof. intros <- E. unfold nr_combs. rewrite E, Nat.eqb_refl. reflexivity. Qed.

Section Tables.
  Variables (sy : symmetry) (combs : nat) (t : tables).
  Hypothesis HlIn : List.length (tb_In t) = combs.
  Hypothesis HlQN : List.length (tb_QN t) = combs.
  Hypothesis HIn : Forall (admissible (ts sy)) (tb_In t).

  Lemma ancestors_pure I : admissible (ts sy) I -> ancestors sy combs t I = Ok (map (fun d => combp (ts sy) d I) (tb_In t)).
  Proof.
    intros HI. unfold ancestors. rewrite nr_combs_ok by auto. cbn [bind]. apply mapM_ok.
    intros d Hd. rewrite Forall_forall in HIn. apply combine_pure; auto.
  Qed.

  Lemma new_subspaces_pure I : admissible (ts sy) I ->
    new_subspaces sy combs t I = Ok (map (fun d => combp (ts sy) (invp (ts sy) d) I) (tb_In t)).
  Proof.
    intros HI. unfold new_subspaces. rewrite nr_combs_ok by auto. cbn [bind]. apply mapM_ok.
    intros d Hd. rewrite Forall_forall in HIn. rewrite inverse_pure by auto. cbn [bind]. apply combine_pure; auto.
    apply invp_adm; auto.
  Qed.

  Lemma ancestor_pure I i d : admissible (ts sy) I -> nth_error (tb_In t) i = Some d ->
    ancestor sy combs t I i = Ok (combp (ts sy) d I).
  Proof.
    intros HI Hd. unfold ancestor.
    assert (i < combs)%nat by (rewrite <- HlIn; apply nth_error_Some; congruence).
    apply Nat.ltb_lt in H. rewrite H. cbn [my_assert bind]. rewrite Hd.
    assert (admissible (ts sy) d) by (rewrite Forall_forall in HIn; apply HIn; eapply nth_error_In; eauto).
    rewrite combine_pure by auto. f_equal. apply combp_comm; auto.
  Qed.

  Lemma duality I : admissible (ts sy) I ->
    exists anc new, ancestors sy combs t I = Ok anc /\ new_subspaces sy combs t I = Ok new /\
      List.length anc = combs /\ List.length new = combs /\
      Forall (admissible (ts sy)) anc /\ Forall (admissible (ts sy)) new /\
      (forall i, (i < combs)%nat -> exists A, nth_error anc i = Some A /\ ancestor sy combs t I i = Ok A) /\
      forall J, admissible (ts sy) J -> exists ancJ, ancestors sy combs t J = Ok ancJ /\
        forall i, (i < combs)%nat -> (nth_error new i = Some J <-> nth_error ancJ i = Some I).
  Proof.
    intros HI. rewrite ancestors_pure, new_subspaces_pure by auto. do 2 eexists.
    split; [reflexivity|]. split; [reflexivity|]. rewrite !map_length. repeat split; auto.
    - apply Forall_map. eapply Forall_impl; [|exact HIn]. intros; apply combp_adm; auto.
    - apply Forall_map. eapply Forall_impl; [|exact HIn]. intros; apply combp_adm; auto. apply invp_adm; auto.
    - intros i Hi. destruct (nth_error (tb_In t) i) as [d|] eqn:E; [|apply nth_error_None in E; lia].
      eexists. rewrite nth_error_map, E. split; [reflexivity|]. apply ancestor_pure; auto.
    - intros J HJ. rewrite ancestors_pure by auto. eexists; split; [reflexivity|].
      intros i Hi. rewrite !nth_error_map. destruct (nth_error (tb_In t) i) as [d|] eqn:E; cbn [option_map]; [|split; discriminate].
      assert (Hd : admissible (ts sy) d) by (rewrite Forall_forall in HIn; apply HIn; eapply nth_error_In; eauto).
      destruct (duality_pure (ts sy) d I J Hd HI HJ) as [D1 D2]. split; intros H; injection H as H; f_equal; auto.
  Qed.
End Tables.

(** Decidable admissibility, for checking the shipped tables by computation. *)
Definition admb (t : qtype) (x : Z) : bool :=
  match t with Additive => true | Multiplicative => parity_ok x | Mod3 => mod3_ok x end.
Fixpoint admissibleb (tl : list qtype) (a : invar) : bool :=
  match tl, a with
  | [], [] => true
  | t :: tl', x :: a' => admb t x && admissibleb tl' a'
  | _, _ => false
  end.
Lemma admissibleb_ok tl a : admissibleb tl a = true -> admissible tl a.
Proof.
  revert a; induction tl as [|t tl IH]; destruct a as [|x a]; simpl; intros H; try discriminate; constructor.
  - apply andb_true_iff in H as [H _]. destruct t; simpl; auto using parity_ok_inv, mod3_ok_inv.
    + apply parity_ok_inv; auto. + apply mod3_ok_inv; auto.
  - apply IH. apply andb_true_iff in H; tauto.
Qed.

Definition table_ok (sh : shipped_table) : bool :=
  Nat.eqb (List.length (tb_In (sh_tab sh))) (sh_combs sh) &&
  Nat.eqb (List.length (tb_QN (sh_tab sh))) (sh_combs sh) &&
  forallb (admissibleb (ts (sh_sym sh))) (tb_In (sh_tab sh)) &&
  forallb (admissibleb (ts (sh_sym sh))) (tb_QN (sh_tab sh)).

Lemma shipped_ok_b : forallb table_ok shipped = true.
Proof. vm_compute. reflexivity. Qed.

Lemma shipped_ok sh : In sh shipped ->
  List.length (tb_In (sh_tab sh)) = sh_combs sh /\ List.length (tb_QN (sh_tab sh)) = sh_combs sh /\
  Forall (admissible (ts (sh_sym sh))) (tb_In (sh_tab sh)) /\ Forall (admissible (ts (sh_sym sh))) (tb_QN (sh_tab sh)).
Proof.
  intros H. pose proof shipped_ok_b as E. rewrite forallb_forall in E. specialize (E _ H).
  unfold table_ok in E. rewrite !andb_true_iff, !Nat.eqb_eq, !forallb_forall in E.
  destruct E as [[[E1 E2] E3] E4]. repeat split; auto; apply Forall_forall; intros x Hx; apply admissibleb_ok; auto.
Qed.

(** ** C07 *)
Lemma su2_triangle_iff a b c : su2_triangle_inequality a b c = true <->
  1 <= a /\ 1 <= b /\ 1 <= c /\ Z.abs (b - c) + 1 <= a <= b + c - 1.
Proof. unfold su2_triangle_inequality. rewrite !andb_true_iff, !Z.leb_le. lia. Qed.

(** ** C03: reflection *)

(** What happens to one quantum number. *)
Inductive ckind := KSU2 | KSU2T | KU1 | KFree | KZ2 | KC3.

Definition cdom (k : ckind) (x : Z) : Prop :=
  match k with KSU2 => 1 <= x | KSU2T => 0 <= x | KU1 | KFree => True | KZ2 => x = 1 \/ x = -1 | KC3 => x = 0 \/ x = 1 \/ x = 2 end.

(** Contribution of one quantum number: local state with difference [d] and representation [q], parent value [x]. *)
Definition ct (k : ckind) (d q x : Z) : Z :=
  match k with
  | KSU2 => if su2_triangle_inequality (- d + x) x q then - d + x else 0
  | KSU2T => if su2_triangle_inequality (2 * (- d + x) + 1) (2 * x + 1) (2 * q + 1) then 2 * (- d + x) + 1 else 0
  | KU1 => if u1_equality (- d + x) x q then 1 else 0
  | KFree => 1
  | KZ2 => if z2_equality (d * x) x q then 1 else 0
  | KC3 => if c3_equality (Z.rem (Z.rem (3 - d) 3 + x) 3) x q then 1 else 0
  end.
Definition cm (k : ckind) (x : Z) : Z := match k with KSU2 => x | KSU2T => 2 * x + 1 | _ => 1 end.

Fixpoint ctp (ks : list ckind) (d q x : list Z) : Z :=
  match ks, d, q, x with
  | k :: ks', d1 :: d', q1 :: q', x1 :: x' => ct k d1 q1 x1 * ctp ks' d' q' x'
  | _, _, _, _ => 1
  end.
Fixpoint cmp (ks : list ckind) (x : list Z) : Z :=
  match ks, x with k :: ks', x1 :: x' => cm k x1 * cmp ks' x' | _, _ => 1 end.

Definition kind_of (sy : symmetry) (nt : string * qtype) : ckind :=
  match find (fun p => String.eqb (snd p) (fst nt)) (sy_tri sy) with
  | Some (TSU2, _) => KSU2 | Some (TSU2T, _) => KSU2T | Some (TU1, _) => KU1 | Some (TZ2, _) => KZ2 | Some (TC3, _) => KC3
  | None => KFree
  end.
Definition kinds (sy : symmetry) : list ckind := map (kind_of sy) (sy_sig sy).

(** The three symmetry functions factorise over the quantum numbers. *)
Definition factorises (sy : symmetry) : Prop :=
  (forall d q I, admissible (ts sy) d -> admissible (ts sy) q -> admissible (ts sy) I ->
    let J := combp (ts sy) (invp (ts sy) d) I in
    exists ba bt m, allowed sy J = Ok ba /\ triangle sy J I q = Ok bt /\ mult sy J = Ok m /\
      (bt = true -> ba = true /\ multiplet sy J) /\ (if ba && bt then m else 0) = ctp (kinds sy) d q I) /\
  (forall I, multiplet sy I -> Forall2 cdom (kinds sy) I /\ mult sy I = Ok (cmp (kinds sy) I) /\ 1 <= cmp (kinds sy) I /\ allowed sy I = Ok true).

Ltac inv_adm := repeat match goal with
  | H : Forall2 adm (_ :: _) _ |- _ => inversion H; clear H; subst
  | H : Forall2 adm [] _ |- _ => inversion H; clear H; subst
  end.
Ltac fin_adm := repeat match goal with
  | H : adm Multiplicative _ |- _ => destruct H; subst
  | H : adm Mod3 _ |- _ => destruct H as [?|[?|?]]; subst
  | H : adm Additive _ |- _ => clear H
  end.

Ltac red_sym := unfold allowed, triangle, mult, ts, kinds, kind_of, qntype in *; cbn [sy_sig sy_mult sy_tri sy_allowed map snd fst] in *.

Ltac su2_facts := repeat match goal with
  | H : su2_triangle_inequality _ _ _ = true |- _ => apply su2_triangle_iff in H
  end.

Lemma ifmul (b c : bool) (x y : Z) : (if b then x else 0) * (if c then y else 0) = if b && c then x * y else 0.
Proof. destruct b, c; simpl; lia. Qed.
