(** The check of Coef_iso.v holds for every translated set of tables. *)
From Coq Require Import List ZArith Bool String.
From Verif Require Import Coef_model Coef_spec Coef_lines_spec Coef_iso Coef_tables.
From Verif Require Import Coef_iso_QS Coef_iso_ISO Coef_iso_LR Coef_iso_QST Coef_iso_SPSU2T Coef_iso_AB Coef_iso_DBL Coef_tab_DBLISOSZ Coef_tab_DBLQSZ Coef_tab_DBLSU2 Coef_tab_ISO Coef_tab_ISO2 Coef_tab_ISO2LR Coef_tab_ISOLR Coef_tab_ISOSZ Coef_tab_ISOSZLR Coef_tab_NONE Coef_tab_P Coef_tab_PP Coef_tab_QS Coef_tab_QSLR Coef_tab_QST Coef_tab_QSTZ Coef_tab_QSZ Coef_tab_QSZLR Coef_tab_QSZTZ Coef_tab_SL Coef_tab_SL3 Coef_tab_SPSU2 Coef_tab_SPSU2LR Coef_tab_SPSU2T Coef_tab_SPU1 Coef_tab_SPU1LR Coef_tab_SU2 Coef_tab_U1.
Import ListNotations.

Lemma iso_all : Forall (fun cs => Forall (fun n => incomplete cs n = true \/ exists T, run_iso (mended cs) n T = true) (op_names cs)) (filter translated all_coef).
Proof.
  assert (E : filter translated all_coef = [coef_dblisosz_2ch; coef_dblqsz_2ch; coef_dblsu2_2ch; coef_iso_1ch; coef_iso_2ch; coef_iso_3ch; coef_iso2_1ch; coef_iso2_2ch; coef_isolr_2ch; coef_iso2lr_2ch; coef_isosz_1ch; coef_isosz_2ch; coef_isoszlr_2ch; coef_none_1ch; coef_none_2ch; coef_p_1ch; coef_p_2ch; coef_pp_2ch; coef_qs_1ch; coef_qs_2ch; coef_qs_3ch; coef_qs_4ch; coef_qslr_2ch; coef_qst; coef_qstz; coef_qsz_1ch; coef_qsz_2ch; coef_qsz_3ch; coef_qszlr_2ch; coef_qsztz; coef_sl_1ch; coef_sl_2ch; coef_sl_3ch; coef_sl3_3ch; coef_spsu2_1ch; coef_spsu2_2ch; coef_spsu2_3ch; coef_spsu2lr_2ch; coef_spsu2t; coef_spu1_1ch; coef_spu1_2ch; coef_spu1lr_1ch; coef_spu1lr_2ch; coef_su2_1ch; coef_su2_2ch; coef_u1_1ch; coef_u1_2ch; coef_u1_3ch]) by reflexivity.
  rewrite E. clear E.
  constructor; [exact iso_dblisosz_2ch|].
  constructor; [exact iso_dblqsz_2ch|].
  constructor; [exact iso_dblsu2_2ch|].
  constructor; [exact iso_iso_1ch|].
  constructor; [exact iso_iso_2ch|].
  constructor; [exact iso_iso_3ch|].
  constructor; [exact iso_iso2_1ch|].
  constructor; [exact iso_iso2_2ch|].
  constructor; [exact iso_isolr_2ch|].
  constructor; [exact iso_iso2lr_2ch|].
  constructor; [exact iso_isosz_1ch|].
  constructor; [exact iso_isosz_2ch|].
  constructor; [exact iso_isoszlr_2ch|].
  constructor; [exact iso_none_1ch|].
  constructor; [exact iso_none_2ch|].
  constructor; [exact iso_p_1ch|].
  constructor; [exact iso_p_2ch|].
  constructor; [exact iso_pp_2ch|].
  constructor; [exact iso_qs_1ch|].
  constructor; [exact iso_qs_2ch|].
  constructor; [exact iso_qs_3ch|].
  constructor; [exact iso_qs_4ch|].
  constructor; [exact iso_qslr_2ch|].
  constructor; [exact iso_qst|].
  constructor; [exact iso_qstz|].
  constructor; [exact iso_qsz_1ch|].
  constructor; [exact iso_qsz_2ch|].
  constructor; [exact iso_qsz_3ch|].
  constructor; [exact iso_qszlr_2ch|].
  constructor; [exact iso_qsztz|].
  constructor; [exact iso_sl_1ch|].
  constructor; [exact iso_sl_2ch|].
  constructor; [exact iso_sl_3ch|].
  constructor; [exact iso_sl3_3ch|].
  constructor; [exact iso_spsu2_1ch|].
  constructor; [exact iso_spsu2_2ch|].
  constructor; [exact iso_spsu2_3ch|].
  constructor; [exact iso_spsu2lr_2ch|].
  constructor; [exact iso_spsu2t|].
  constructor; [exact iso_spu1_1ch|].
  constructor; [exact iso_spu1_2ch|].
  constructor; [exact iso_spu1lr_1ch|].
  constructor; [exact iso_spu1lr_2ch|].
  constructor; [exact iso_su2_1ch|].
  constructor; [exact iso_su2_2ch|].
  constructor; [exact iso_u1_1ch|].
  constructor; [exact iso_u1_2ch|].
  constructor; [exact iso_u1_3ch|].
  constructor.
Qed.
