(** Property theorem C57: operators carried to the longer chain keep their norm. *)
From Coq Require Import List ZArith Reals Lia Bool String.
From Verif Require Import Base Invar_model Symmetry_model Coef_model Coef_spec Coef_lines_spec Coef_tables Coef_ieee Coef_tab_QS Coef_tab_SPSU2 Coef_iso_lemmas.
Import ListNotations.
Local Open Scope string_scope.
Local Open Scope list_scope.
Local Open Scope Z_scope.

(** Take an operator o of the smaller system, two families i and j of a sector I, and a sector X of the smaller system that o can
    reach from the sector A that family i is built from.  The sum over all families k built from X, in all sectors o reaches
    from I, of the products of the factors of (i,k) and (j,k) is 1 if i = j and 0 otherwise.  All factors are defined. *)
Theorem C57_norms_kept : forall cs, In cs all_coef -> translated cs = true -> forall n, In n (op_names cs) -> incomplete cs n = false ->
  forall I nn, sector cs I -> gap cs n I = false ->
  exists B, o_below (mended cs) nn n I = Some B /\
    forall t i j A X, In t (op_tables (mended cs) n) -> family cs I i = true -> family cs I j = true -> built_from cs I i = Some A ->
    sh_apply (tt_shift t) A = Some X -> allowed (cs_sym cs) X = Ok true -> triangle (cs_sym cs) A X (tt_iop t) = Ok true ->
    through cs X B i j = (if i =? j then 1 else 0)%R.
Proof. exact norms_kept. Qed.
Print Assumptions C57_norms_kept.
Example C57_nonvacuous : In coef_qs_3ch all_coef /\ In "triplet" (op_names coef_qs_3ch) /\ incomplete coef_qs_3ch "triplet" = false /\
  sector coef_qs_3ch [0; 4] /\ gap coef_qs_3ch "triplet" [0; 4] = false /\ family coef_qs_3ch [0; 4] 42 = true /\ family coef_qs_3ch [0; 4] 41 = true /\
  built_from coef_qs_3ch [0; 4] 42 = Some [0; 7] /\
  exists t, In t (op_tables (mended coef_qs_3ch) "triplet") /\ sh_apply (tt_shift t) [0; 7] = Some [0; 9] /\
    allowed (cs_sym coef_qs_3ch) [0; 9] = Ok true /\ triangle (cs_sym coef_qs_3ch) [0; 7] [0; 9] (tt_iop t) = Ok true.
Proof.
  split; [unfold all_coef; cbn [In]; tauto|]. split; [vm_compute; tauto|]. split; [reflexivity|].
  split; [split; [repeat constructor; cbv; try exact Logic.I; discriminate|discriminate]|]. do 4 (split; [vm_compute; reflexivity|]).
  exists (mend_table coef_qs_3ch qs_3ch_t9). split; [|split; [|split]; vm_compute; reflexivity].
  unfold op_tables, mended. cbn [cs_ten]. apply filter_In. split; [|reflexivity]. apply in_or_app. left. apply in_map. cbn [cs_ten coef_qs_3ch In]. tauto.
Qed.

(** Not for triplet operators of QS with three channels at spin 1/2: there is a factor that is not a number, and both its families and
    the element of the smaller system exist.  recalc_general() stops the program at such a factor. *)
Theorem C57_not_a_number_refuted : exists t s1 sp f, In t (op_tables coef_qs_3ch "triplet") /\ In (42, 41, s1, sp, Some f) (tt_rows t) /\
  sh_apply (tt_shift t) [0; 2] = Some [0; 2] /\ triangle (cs_sym coef_qs_3ch) [0; 2] [0; 2] (tt_iop t) = Ok true /\
  family coef_qs_3ch [0; 2] 42 = true /\ family coef_qs_3ch [0; 2] 41 = true /\ linked coef_qs_3ch t [0; 2] 42 [0; 2] 41 = true /\
  forall q nn, deval [q; 2] nn f = NaN.
Proof. exact triplet_nan. Qed.
Print Assumptions C57_not_a_number_refuted.

(** Not for triplet operators of SPSU2 with three channels: no table lowers the spin (with two channels there is one).  The switch over
    channels in recalc_triplet() has no case 3 there and stops the program. *)
Theorem C57_missing_table_refuted : (forall t, In t (op_tables coef_spsu2_3ch "triplet") -> tt_iop t = [3] /\ sh_apply (tt_shift t) [3] <> Some [1]) /\
  triangle (cs_sym coef_spsu2_3ch) [3] [1] [3] = Ok true /\
  (exists t, In t (op_tables coef_spsu2_2ch "triplet") /\ sh_apply (tt_shift t) [3] = Some [1]).
Proof. exact no_table_down. Qed.
Print Assumptions C57_missing_table_refuted.
