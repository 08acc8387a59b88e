(** The anticommutator check holds for every translated set of tables. *)
From Coq Require Import List ZArith Reals Bool String.
From Verif Require Import Base Invar_model Symmetry_model Coef_model Coef_spec Coef_sector_sound Coef_tables.
From Verif Require Import Coef_run_QS Coef_run_ISO Coef_run_LR Coef_run_QST Coef_run_SPSU2T Coef_run_AB Coef_run_DBL Coef_tab_DBLISOSZ Coef_tab_DBLQSZ Coef_tab_DBLSU2 Coef_tab_ISO Coef_tab_ISO2 Coef_tab_ISO2LR Coef_tab_ISOLR Coef_tab_ISOSZ Coef_tab_ISOSZLR Coef_tab_NONE Coef_tab_P Coef_tab_PP Coef_tab_QS Coef_tab_QSLR Coef_tab_QST Coef_tab_QSTZ Coef_tab_QSZ Coef_tab_QSZLR Coef_tab_QSZTZ Coef_tab_SL Coef_tab_SL3 Coef_tab_SPSU2 Coef_tab_SPSU2LR Coef_tab_SPSU2T Coef_tab_SPU1 Coef_tab_SPU1LR Coef_tab_SU2 Coef_tab_U1.
Import ListNotations.

Lemma car_all : Forall (fun cs => exists C, run_car cs C (components cs) = true) (filter translated all_coef).
Proof.
  assert (E : filter translated all_coef = [coef_dblisosz_2ch; coef_dblqsz_2ch; coef_dblsu2_2ch; coef_iso_1ch; coef_iso_2ch; coef_iso_3ch; coef_iso2_1ch; coef_iso2_2ch; coef_isolr_2ch; coef_iso2lr_2ch; coef_isosz_1ch; coef_isosz_2ch; coef_isoszlr_2ch; coef_none_1ch; coef_none_2ch; coef_p_1ch; coef_p_2ch; coef_pp_2ch; coef_qs_1ch; coef_qs_2ch; coef_qs_3ch; coef_qs_4ch; coef_qslr_2ch; coef_qst; coef_qstz; coef_qsz_1ch; coef_qsz_2ch; coef_qsz_3ch; coef_qszlr_2ch; coef_qsztz; coef_sl_1ch; coef_sl_2ch; coef_sl_3ch; coef_sl3_3ch; coef_spsu2_1ch; coef_spsu2_2ch; coef_spsu2_3ch; coef_spsu2lr_2ch; coef_spsu2t; coef_spu1_1ch; coef_spu1_2ch; coef_spu1lr_1ch; coef_spu1lr_2ch; coef_su2_1ch; coef_su2_2ch; coef_u1_1ch; coef_u1_2ch; coef_u1_3ch]) by reflexivity.
  rewrite E. clear E.
  constructor; [eexists; exact car_dblisosz_2ch|].
  constructor; [eexists; exact car_dblqsz_2ch|].
  constructor; [eexists; exact car_dblsu2_2ch|].
  constructor; [eexists; exact car_iso_1ch|].
  constructor; [eexists; exact car_iso_2ch|].
  constructor; [eexists; exact car_iso_3ch|].
  constructor; [eexists; exact car_iso2_1ch|].
  constructor; [eexists; exact car_iso2_2ch|].
  constructor; [eexists; exact car_isolr_2ch|].
  constructor; [eexists; exact car_iso2lr_2ch|].
  constructor; [eexists; exact car_isosz_1ch|].
  constructor; [eexists; exact car_isosz_2ch|].
  constructor; [eexists; exact car_isoszlr_2ch|].
  constructor; [eexists; exact car_none_1ch|].
  constructor; [eexists; exact car_none_2ch|].
  constructor; [eexists; exact car_p_1ch|].
  constructor; [eexists; exact car_p_2ch|].
  constructor; [eexists; exact car_pp_2ch|].
  constructor; [eexists; exact car_qs_1ch|].
  constructor; [eexists; exact car_qs_2ch|].
  constructor; [eexists; exact car_qs_3ch|].
  constructor; [eexists; exact car_qs_4ch|].
  constructor; [eexists; exact car_qslr_2ch|].
  constructor; [eexists; exact car_qst|].
  constructor; [eexists; exact car_qstz|].
  constructor; [eexists; exact car_qsz_1ch|].
  constructor; [eexists; exact car_qsz_2ch|].
  constructor; [eexists; exact car_qsz_3ch|].
  constructor; [eexists; exact car_qszlr_2ch|].
  constructor; [eexists; exact car_qsztz|].
  constructor; [eexists; exact car_sl_1ch|].
  constructor; [eexists; exact car_sl_2ch|].
  constructor; [eexists; exact car_sl_3ch|].
  constructor; [eexists; exact car_sl3_3ch|].
  constructor; [eexists; exact car_spsu2_1ch|].
  constructor; [eexists; exact car_spsu2_2ch|].
  constructor; [eexists; exact car_spsu2_3ch|].
  constructor; [eexists; exact car_spsu2lr_2ch|].
  constructor; [eexists; exact car_spsu2t|].
  constructor; [eexists; exact car_spu1_1ch|].
  constructor; [eexists; exact car_spu1_2ch|].
  constructor; [eexists; exact car_spu1lr_1ch|].
  constructor; [eexists; exact car_spu1lr_2ch|].
  constructor; [eexists; exact car_su2_1ch|].
  constructor; [eexists; exact car_su2_2ch|].
  constructor; [eexists; exact car_u1_1ch|].
  constructor; [eexists; exact car_u1_2ch|].
  constructor; [eexists; exact car_u1_3ch|].
  constructor.
Qed.

Lemma anticommutation : forall cs, In cs all_coef -> translated cs = true -> forall I nn, sector cs I -> exists m, mult (cs_sym cs) I = Ok m /\
  forall a b i j, In a (opers cs) -> In b (opers cs) -> family cs I i = true -> family cs I j = true ->
  exists d u, down_up cs nn a b I i j = Some d /\ up_down cs nn a b I i j = Some u /\
    (IZR m * d + u = if op_eqb a b && (i =? j)%Z then IZR (components cs) * IZR m else 0)%R.
Proof.
  intros cs H T. pose proof car_all as F. rewrite Forall_forall in F. destruct (F cs (proj2 (filter_In _ _ _) (conj H T))) as [C HC].
  exact (run_car_sound cs C _ HC).
Qed.
