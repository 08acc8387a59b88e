(** Each symmetry class: multiplicity, triangle rule and allowed rule factorise over the quantum numbers. *)
From Coq Require Import List ZArith Lia Bool String.
From Verif Require Import Base Invar_model Invar_spec Invar_proofs Symmetry_model Symmetry_spec Symmetry_tables Symmetry_proofs.
Import ListNotations.
Local Open Scope string_scope.
Local Open Scope Z_scope.

Ltac cbs := cbn -[Z.add Z.sub Z.mul Z.opp Z.leb Z.rem parity_ok mod3_ok su2_triangle_inequality u1_equality z2_equality c3_equality Z.le].
Ltac cbs_in H := cbn -[Z.add Z.sub Z.mul Z.opp Z.leb Z.rem parity_ok mod3_ok su2_triangle_inequality u1_equality z2_equality c3_equality adm Z.le] in H.
Ltac get_ok := repeat (first [rewrite parity_ok_true by assumption | rewrite mod3_ok_true by assumption]; cbs).

Ltac bool_split := repeat match goal with |- context [if ?b then _ else _] =>
    match b with andb _ _ => fail 1 | _ => let E := fresh "E" in destruct b eqn:E; cbs end end.
Ltac start sy :=
  intros d q I Hd Hq HI J;
  pose proof (combp_adm _ _ _ (invp_adm _ _ Hd) HI) as HJ; fold J in HJ;
  let tl := eval cbv in (ts sy) in change (ts sy) with tl in *;
  unfold admissible in Hd, Hq, HI; inv_adm; unfold admissible in HJ; subst J; cbs_in HJ; inv_adm.
Ltac lebs := repeat (rewrite (proj2 (Z.leb_le _ _)) by lia).
Ltac in_cases Hin := repeat (destruct Hin as [Hin|Hin]; [injection Hin as <- <-|]); try destruct Hin.
Ltac solve_multiplet :=
  split; [repeat (constructor; try assumption) |
          intros k n x Hin Hget; cbs_in Hin; in_cases Hin; cbs_in Hget; injection Hget as <-; cbs; lia].
Ltac part1 sy :=
  start sy; cbs; get_ok; bool_split;
  do 3 eexists; (split; [reflexivity|]); (split; [reflexivity|]); (split; [reflexivity|]);
  su2_facts;
  (split; [first [discriminate | intros _; split; [lebs; reflexivity | solve_multiplet]] |
           first [rewrite andb_false_r; ring | lebs; cbs; ring]]).
Lemma mult_Forall sy I : (forall k n x, In (k, n) (sy_mult sy) -> get (sy_sig sy) I n = Ok x -> 1 <= mult_factor k x) ->
  Forall (fun p => forall x, get (sy_sig sy) I (snd p) = Ok x -> 1 <= mult_factor (fst p) x) (sy_mult sy).
Proof. intros H. apply Forall_forall. intros [k n] Hin x. apply H; auto. Qed.
Ltac use_mult := repeat match goal with
  | H : Forall _ (_ :: _) |- _ => inversion H; clear H; subst
  | H : Forall _ [] |- _ => clear H
  | H : forall x, get _ _ _ = Ok x -> _ |- _ => cbs_in H; specialize (H _ eq_refl)
  end.
Ltac part2 sy :=
  intros I [Ha Hm]; apply mult_Forall in Hm;
  let tl := eval cbv in (ts sy) in change (ts sy) with tl in Ha; unfold admissible in Ha; inv_adm;
  let ml := eval cbv in (sy_mult sy) in change (sy_mult sy) with ml in Hm; use_mult;
  cbs; get_ok; lebs;
  (split; [repeat (constructor; [first [assumption | exact Logic.I | cbn; lia]|]); constructor |
   split; [f_equal; ring | split; [nia | reflexivity]]]).
Ltac factor sy := split; [part1 sy | part2 sy].

Lemma fac_DBLISOSZ : factorises sym_DBLISOSZ. Proof. factor sym_DBLISOSZ. Qed.
Lemma fac_DBLQSZ : factorises sym_DBLQSZ. Proof. factor sym_DBLQSZ. Qed.
Lemma fac_DBLSU2 : factorises sym_DBLSU2. Proof. factor sym_DBLSU2. Qed.
Lemma fac_ISO : factorises sym_ISO. Proof. factor sym_ISO. Qed.
Lemma fac_ISOLR : factorises sym_ISOLR. Proof. factor sym_ISOLR. Qed.
Lemma fac_ISOSZ : factorises sym_ISOSZ. Proof. factor sym_ISOSZ. Qed.
Lemma fac_ISOSZLR : factorises sym_ISOSZLR. Proof. factor sym_ISOSZLR. Qed.
Lemma fac_NONE : factorises sym_NONE. Proof. factor sym_NONE. Qed.
Lemma fac_P : factorises sym_P. Proof. factor sym_P. Qed.
Lemma fac_PP : factorises sym_PP. Proof. factor sym_PP. Qed.
Lemma fac_QJ : factorises sym_QJ. Proof. factor sym_QJ. Qed.
Lemma fac_QS : factorises sym_QS. Proof. factor sym_QS. Qed.
Lemma fac_QSC3 : factorises sym_QSC3. Proof. factor sym_QSC3. Qed.
Lemma fac_QSLR : factorises sym_QSLR. Proof. factor sym_QSLR. Qed.
Lemma fac_QST : factorises sym_QST. Proof. factor sym_QST. Qed.
Lemma fac_QSTZ : factorises sym_QSTZ. Proof. factor sym_QSTZ. Qed.
Lemma fac_QSZ : factorises sym_QSZ. Proof. factor sym_QSZ. Qed.
Lemma fac_QSZLR : factorises sym_QSZLR. Proof. factor sym_QSZLR. Qed.
Lemma fac_QSZTZ : factorises sym_QSZTZ. Proof. factor sym_QSZTZ. Qed.
Lemma fac_SL : factorises sym_SL. Proof. factor sym_SL. Qed.
Lemma fac_SL3 : factorises sym_SL3. Proof. factor sym_SL3. Qed.
Lemma fac_SPSU2 : factorises sym_SPSU2. Proof. factor sym_SPSU2. Qed.
Lemma fac_SPSU2C3 : factorises sym_SPSU2C3. Proof. factor sym_SPSU2C3. Qed.
Lemma fac_SPSU2LR : factorises sym_SPSU2LR. Proof. factor sym_SPSU2LR. Qed.
Lemma fac_SPSU2T : factorises sym_SPSU2T. Proof. factor sym_SPSU2T. Qed.
Lemma fac_SPU1 : factorises sym_SPU1. Proof. factor sym_SPU1. Qed.
Lemma fac_SPU1LR : factorises sym_SPU1LR. Proof. factor sym_SPU1LR. Qed.
Lemma fac_SU2 : factorises sym_SU2. Proof. factor sym_SU2. Qed.
Lemma fac_U1 : factorises sym_U1. Proof. factor sym_U1. Qed.

Lemma shipped_factorises : Forall (fun sh => factorises (sh_sym sh)) shipped.
Proof.
  unfold shipped. repeat (constructor; [cbn [sh_sym]; first
   [ exact fac_DBLISOSZ | exact fac_DBLQSZ | exact fac_DBLSU2 | exact fac_ISO | exact fac_ISOLR | exact fac_ISOSZ
   | exact fac_ISOSZLR | exact fac_NONE | exact fac_P | exact fac_PP | exact fac_QJ | exact fac_QS | exact fac_QSC3
   | exact fac_QSLR | exact fac_QST | exact fac_QSTZ | exact fac_QSZ | exact fac_QSZLR | exact fac_QSZTZ | exact fac_SL
   | exact fac_SL3 | exact fac_SPSU2 | exact fac_SPSU2C3 | exact fac_SPSU2LR | exact fac_SPSU2T | exact fac_SPU1
   | exact fac_SPU1LR | exact fac_SU2 | exact fac_U1 ]|]).
  constructor.
Qed.
