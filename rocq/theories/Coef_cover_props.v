(** Property theorem C59: the operators of a symmetry do not depend on the number of channels. *)
From Coq Require Import List ZArith Bool String.
From Verif Require Import Base Coef_model Coef_cover_spec Coef_tables Coef_tab_ISO Coef_tab_QS Coef_tab_QSZ Coef_tab_SPSU2 Coef_cover_lemmas.
Import ListNotations.
Local Open Scope string_scope.
Local Open Scope list_scope.

(** An operator that can be carried along with one number of channels can be carried along with every other one the symmetry accepts,
    between the same sectors. *)
Theorem C59_same_operators : forall cs cs', In cs all_coef -> In cs' all_coef -> cs_name cs = cs_name cs' ->
  forall t, In t (cs_ten cs) -> lacking cs' (tt_name t) = false -> exists t', In t' (cs_ten cs') /\ same_target t t'.
Proof. exact same_operators. Qed.
Print Assumptions C59_same_operators.
Example C59_nonvacuous : In coef_qs_1ch all_coef /\ In coef_qs_4ch all_coef /\ cs_name coef_qs_1ch = cs_name coef_qs_4ch /\
  exists t, In t (cs_ten coef_qs_1ch) /\ tt_name t = "triplet" /\ lacking coef_qs_4ch (tt_name t) = false.
Proof.
  split; [unfold all_coef; cbn [In]; tauto|]. split; [unfold all_coef; cbn [In]; tauto|]. split; [reflexivity|].
  eexists. split; [do 4 right; left; reflexivity|]. split; reflexivity.
Qed.

(** Each exception is real: a sector the operator reaches with another number of channels has no table. *)
Theorem C59_missing_refuted : forall cs' n, In cs' all_coef -> lacking cs' n = true ->
  exists cs t, In cs all_coef /\ cs_name cs = cs_name cs' /\ In t (cs_ten cs) /\ tt_name t = n /\ forall t', In t' (cs_ten cs') -> ~ same_target t t'.
Proof. exact operators_missing. Qed.
Print Assumptions C59_missing_refuted.
Example C59_missing_nonvacuous : forall cs, In cs [coef_iso_3ch; coef_qsz_3ch; coef_spsu2_3ch] -> In cs all_coef /\ lacking cs "triplet" = true.
Proof. intros cs H. cbn [In] in H. destruct H as [<-|[<-|[<-|[]]]]; (split; [unfold all_coef; cbn [In]; tauto|reflexivity]). Qed.
