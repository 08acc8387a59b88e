(** Generated by gen/gen_coef.py: all coefficient tables. Do not edit. *)
From Coq Require Import List.
From Verif Require Import Coef_model.
From Verif Require Import Coef_tab_DBLISOSZ Coef_tab_DBLQSZ Coef_tab_DBLSU2 Coef_tab_ISO Coef_tab_ISO2 Coef_tab_ISOLR Coef_tab_ISO2LR Coef_tab_ISOSZ Coef_tab_ISOSZLR Coef_tab_NONE Coef_tab_P Coef_tab_PP Coef_tab_QJ Coef_tab_QS Coef_tab_QSC3 Coef_tab_QSLR Coef_tab_QST Coef_tab_QSTZ Coef_tab_QSZ Coef_tab_QSZLR Coef_tab_QSZTZ Coef_tab_SL Coef_tab_SL3 Coef_tab_SPSU2 Coef_tab_SPSU2C3 Coef_tab_SPSU2LR Coef_tab_SPSU2T Coef_tab_SPU1 Coef_tab_SPU1LR Coef_tab_SU2 Coef_tab_U1.
Import ListNotations.

Definition all_coef : list coef_set := [
  coef_dblisosz_2ch;
  coef_dblqsz_2ch;
  coef_dblsu2_2ch;
  coef_iso_1ch; coef_iso_2ch; coef_iso_3ch;
  coef_iso2_1ch; coef_iso2_2ch;
  coef_isolr_2ch;
  coef_iso2lr_2ch;
  coef_isosz_1ch; coef_isosz_2ch;
  coef_isoszlr_2ch;
  coef_none_1ch; coef_none_2ch;
  coef_p_1ch; coef_p_2ch;
  coef_pp_2ch;
  coef_qj;
  coef_qs_1ch; coef_qs_2ch; coef_qs_3ch; coef_qs_4ch;
  coef_qsc3;
  coef_qslr_2ch;
  coef_qst;
  coef_qstz;
  coef_qsz_1ch; coef_qsz_2ch; coef_qsz_3ch;
  coef_qszlr_2ch;
  coef_qsztz;
  coef_sl_1ch; coef_sl_2ch; coef_sl_3ch;
  coef_sl3_3ch;
  coef_spsu2_1ch; coef_spsu2_2ch; coef_spsu2_3ch;
  coef_spsu2c3;
  coef_spsu2lr_2ch;
  coef_spsu2t;
  coef_spu1_1ch; coef_spu1_2ch;
  coef_spu1lr_1ch; coef_spu1lr_2ch;
  coef_su2_1ch; coef_su2_2ch;
  coef_u1_1ch; coef_u1_2ch; coef_u1_3ch].
