(** [recalc_general] for an arbitrary table. *)
From Coq Require Import List ZArith Lia Bool String.
From Verif Require Import Base Invar_model Invar_spec Invar_proofs Symmetry_model Symmetry_spec Symmetry_tables
  Symmetry_proofs Symmetry_factor Symmetry_dim Subspaces_model Subspaces_proofs Recalc_model Recalc_spec Recalc_proofs.
Import ListNotations.
Local Open Scope string_scope.
Local Open Scope Z_scope.

Lemma invar_eqb_true a b : invar_eqb a b = true -> a = b.
Proof. apply invar_eqb_eq. Qed.

  Lemma rmax_nth d i n : nth_error d i = Some n -> rmax d (Z.of_nat i) = Ok n.
  Proof.
    intros E. assert (i < List.length d)%nat by (apply nth_error_Some; congruence).
    unfold rmax. replace (Z.of_nat i <? Z.of_nat (List.length d)) with true by (symmetry; apply Z.ltb_lt; lia).
    cbn [my_assert bind]. rewrite Nat2Z.id, E. reflexivity.
  Qed.

Section General.
  Variable sh : shipped_table.
  Hypothesis Hsh : In sh shipped.
  Let sy := sh_sym sh.
  Let t := sh_tab sh.
  Let combs := sh_combs sh.
  Variables (M C : Type) (ops : matops M C).
  Variables (cold : list ((invar * invar) * M)).
  Let L1 : List.length (tb_In t) = combs. Proof. apply (shipped_ok sh Hsh). Qed.
  Let L2 : List.length (tb_QN t) = combs. Proof. apply (shipped_ok sh Hsh). Qed.

  Section Step.
  Variables (I1 Ip : invar) (e1 ep : eig M) (s1 sp : subdims).
  Hypothesis Hb1 : List.length (eg_blocks e1) = combs.
  Hypothesis Hbp : List.length (eg_blocks ep) = combs.
  Hypothesis Hs1 : List.length (sd_dims s1) = combs.
  Hypothesis Hsp : List.length (sd_dims sp) = combs.

  Definition entry_good (r : recalc_entry C) : Prop :=
    in_range combs r /\ admissible (ts sy) (re_IN1 r) /\ admissible (ts sy) (re_INp r) /\ mo_finite ops (re_factor r) = true /\
    (is_allowed sy (re_IN1 r) = true -> is_allowed sy (re_INp r) = true -> names_ancestors sy combs t I1 Ip r).

  Lemma gstep cn r : entry_good r ->
    recalc_step M C ops sy combs t cold I1 Ip e1 ep s1 sp cn r =
    Ok (match entry_term sy cold e1 ep s1 sp r with Some (f, U1, c, Up) => mo_transform ops cn f U1 c Up | None => cn end).
  Proof.
    intros ([[R1 R2] [R3 R4]] & A1 & Ap & Hf & Hanc). unfold recalc_step, entry_term.
    replace (Nat.leb 1 (re_i1 r)) with true by (symmetry; apply Nat.leb_le; lia). cbn [my_assert bind].
    rewrite nr_combs_ok by auto. cbn [bind].
    replace (Nat.leb (re_i1 r) combs) with true by (symmetry; apply Nat.leb_le; lia).
    replace (Nat.leb 1 (re_ip r)) with true by (symmetry; apply Nat.leb_le; lia).
    replace (Nat.leb (re_ip r) combs) with true by (symmetry; apply Nat.leb_le; lia).
    cbn [my_assert bind andb].
    unfold sy in *. rewrite (alw sh Hsh) by auto. cbn [bind]. destruct (is_allowed (sh_sym sh) (re_IN1 r)) eqn:E1; cbn [negb andb]; [|reflexivity].
    rewrite (alw sh Hsh) by auto. cbn [bind]. destruct (is_allowed (sh_sym sh) (re_INp r)) eqn:E2; cbn [negb andb]; [|reflexivity].
    destruct (Hanc eq_refl eq_refl) as [N1 N2]. rewrite N1. cbn [bind]. rewrite invar_eqb_refl. cbn [my_assert bind].
    rewrite N2. cbn [bind]. rewrite invar_eqb_refl. cbn [my_assert bind].
    destruct (nth_error (sd_dims s1) (re_i1 r - 1)) as [n1|] eqn:En1; [|apply nth_error_None in En1; lia].
    destruct (nth_error (sd_dims sp) (re_ip r - 1)) as [np|] eqn:Enp; [|apply nth_error_None in Enp; lia].
    rewrite (rmax_nth _ _ _ En1). cbn [bind]. rewrite (rmax_nth _ _ _ Enp). cbn [bind].
    destruct ((n1 =? 0) || (np =? 0)); [reflexivity|].
    destruct (map_find2 cold (re_IN1 r) (re_INp r)) as [c|]; [|reflexivity].
    rewrite Hf. cbn [my_assert bind]. unfold block.
    destruct (re_i1 r) as [|i] eqn:Ei; [lia|]. destruct (re_ip r) as [|j] eqn:Ej; [lia|].
    replace (S i - 1)%nat with i by lia. replace (S j - 1)%nat with j by lia.
    destruct (nth_error (eg_blocks e1) i) as [U1|] eqn:EU1; [|apply nth_error_None in EU1; lia]. cbn [bind].
    destruct (nth_error (eg_blocks ep) j) as [Up|] eqn:EUp; [|apply nth_error_None in EUp; lia]. reflexivity.
  Qed.

  Lemma gloop table : forall cn, Forall entry_good table ->
    recalc_loop M C ops sy combs t cold I1 Ip e1 ep s1 sp cn table =
    Ok (fold_left (fun acc q => match q with (f, U1, c, Up) => mo_transform ops acc f U1 c Up end)
         (catSome (map (entry_term sy cold e1 ep s1 sp) table)) cn).
  Proof.
    induction table as [|r table IH]; intros cn HF; [reflexivity|]. inversion HF; subst.
    cbn [recalc_loop map]. rewrite gstep by auto. cbn [bind]. rewrite IH by auto.
    destruct (entry_term sy cold e1 ep s1 sp r) as [[[[f U1] c] Up]|]; reflexivity.
  Qed.

  (** Conversely: a run that finishes has only good entries. *)
  Lemma gstep_inv cn r cn' : admissible (ts sy) (re_IN1 r) -> admissible (ts sy) (re_INp r) ->
    recalc_step M C ops sy combs t cold I1 Ip e1 ep s1 sp cn r = Ok cn' ->
    in_range combs r /\
    (is_allowed sy (re_IN1 r) = true -> is_allowed sy (re_INp r) = true -> names_ancestors sy combs t I1 Ip r).
  Proof.
    clear Hb1 Hbp Hs1 Hsp. intros A1 Ap. unfold recalc_step. destruct (Nat.leb 1 (re_i1 r)) eqn:R1; [|discriminate]. cbn [my_assert bind].
    rewrite nr_combs_ok by auto. cbn [bind].
    destruct (Nat.leb (re_i1 r) combs && Nat.leb 1 (re_ip r) && Nat.leb (re_ip r) combs) eqn:R; [|discriminate].
    rewrite !andb_true_iff in R. rewrite !Nat.leb_le in *. intros H. split; [split; lia|].
    unfold sy in *. cbn [my_assert bind] in H. rewrite (alw sh Hsh) in H by auto. cbn [bind] in H. intros E1 E2. rewrite E1 in H. cbn [negb] in H.
    rewrite (alw sh Hsh) in H by auto. cbn [bind] in H. rewrite E2 in H. cbn [negb] in H.
    destruct (ancestor (sh_sym sh) combs t I1 (re_i1 r - 1)) as [a1| |] eqn:N1; try discriminate. cbn [bind] in H.
    destruct (invar_eqb (re_IN1 r) a1) eqn:Q1; [|discriminate]. cbn [my_assert bind] in H.
    destruct (ancestor (sh_sym sh) combs t Ip (re_ip r - 1)) as [ap| |] eqn:N2; try discriminate. cbn [bind] in H.
    destruct (invar_eqb (re_INp r) ap) eqn:Q2; [|discriminate].
    apply invar_eqb_true in Q1, Q2. split; congruence.
  Qed.

  Lemma gloop_inv table : forall cn cn',
    Forall (fun r => admissible (ts sy) (re_IN1 r) /\ admissible (ts sy) (re_INp r)) table ->
    recalc_loop M C ops sy combs t cold I1 Ip e1 ep s1 sp cn table = Ok cn' ->
    Forall (fun r => in_range combs r /\
      (is_allowed sy (re_IN1 r) = true -> is_allowed sy (re_INp r) = true -> names_ancestors sy combs t I1 Ip r)) table.
  Proof.
    induction table as [|r table IH]; intros cn cn' HA H; [constructor|]. inversion HA as [|? ? [A1 A2] HA']; subst. cbn [recalc_loop] in H.
    destruct (recalc_step M C ops sy combs t cold I1 Ip e1 ep s1 sp cn r) as [c1| |] eqn:E; try discriminate. cbn [bind] in H.
    constructor; [eapply gstep_inv; eauto|eapply IH; eauto].
  Qed.
  End Step.

  Variables (diag : list (invar * eig M)) (substruct : structure).

  Lemma general_ok I1 Ip Iop table e1 ep s1 sp :
    triangle sy I1 Ip Iop = Ok true ->
    map_at diag I1 = Ok e1 -> map_at diag Ip = Ok ep -> map_at substruct I1 = Ok s1 -> map_at substruct Ip = Ok sp ->
    List.length (eg_blocks e1) = combs -> List.length (eg_blocks ep) = combs ->
    List.length (sd_dims s1) = combs -> List.length (sd_dims sp) = combs ->
    (forall r, In r table -> in_range combs r /\ admissible (ts sy) (re_IN1 r) /\ admissible (ts sy) (re_INp r) /\ mo_finite ops (re_factor r) = true /\
      (is_allowed sy (re_IN1 r) = true -> is_allowed sy (re_INp r) = true -> names_ancestors sy combs t I1 Ip r)) ->
    recalc_general M C ops sy combs t diag substruct cold I1 Ip table Iop = Ok (Some (general_value ops sy cold e1 ep s1 sp table)).
  Proof.
    intros HT D1 Dp S1 Sp B1 Bp X1 Xp HR. unfold recalc_general. rewrite HT. cbn [bind negb]. rewrite D1. cbn [bind]. rewrite Dp. cbn [bind].
    rewrite S1. cbn [bind]. rewrite Sp. cbn [bind]. unfold general_value.
    destruct ((eg_nrstored e1 =? 0) || (eg_nrstored ep =? 0)); [reflexivity|].
    rewrite gloop; auto. apply Forall_forall. exact HR.
  Qed.

  Lemma general_guarded I1 Ip Iop table e1 ep m :
    map_at diag I1 = Ok e1 -> map_at diag Ip = Ok ep -> eg_nrstored e1 <> 0 -> eg_nrstored ep <> 0 ->
    (forall r, In r table -> admissible (ts sy) (re_IN1 r) /\ admissible (ts sy) (re_INp r)) ->
    recalc_general M C ops sy combs t diag substruct cold I1 Ip table Iop = Ok (Some m) ->
    forall r, In r table -> in_range combs r /\
      (is_allowed sy (re_IN1 r) = true -> is_allowed sy (re_INp r) = true -> names_ancestors sy combs t I1 Ip r).
  Proof.
    intros D1 Dp N1 Np HA. unfold recalc_general. destruct (triangle sy I1 Ip Iop) as [b| |]; try discriminate. cbn [bind].
    destruct b; [|discriminate]. cbn [negb]. rewrite D1. cbn [bind]. rewrite Dp. cbn [bind].
    destruct (map_at substruct I1) as [s1| |]; try discriminate. cbn [bind].
    destruct (map_at substruct Ip) as [sp| |]; try discriminate. cbn [bind].
    replace (eg_nrstored e1 =? 0) with false by (symmetry; apply Z.eqb_neq; auto).
    replace (eg_nrstored ep =? 0) with false by (symmetry; apply Z.eqb_neq; auto). cbn [orb].
    destruct (recalc_loop M C ops sy combs t cold I1 Ip e1 ep s1 sp (mo_zero ops (eg_nrstored e1) (eg_nrstored ep)) table) as [c| |] eqn:E; try discriminate.
    intros _. apply Forall_forall. eapply gloop_inv; [|exact E]. apply Forall_forall. exact HA.
  Qed.

  Lemma general_forbidden I1 Ip Iop table : triangle sy I1 Ip Iop = Ok false ->
    recalc_general M C ops sy combs t diag substruct cold I1 Ip table Iop = Ok None.
  Proof. intros H. unfold recalc_general. rewrite H. reflexivity. Qed.
End General.
