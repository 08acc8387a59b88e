(** Evaluation of the check of Coef_iso.v, with closed forms found by search (confirmed by the check). *)
From Verif Require Import Coef_spec Coef_sector Coef_lines_spec Coef_check Coef_iso.
From Verif Require Import Coef_hop_AB Coef_tab_NONE Coef_tab_P Coef_tab_PP Coef_tab_U1 Coef_tab_SL Coef_tab_SL3 Coef_tab_QSZ Coef_tab_DBLQSZ Coef_tab_SPU1.
From Coq Require Import String List.
Import ListNotations.
Local Open Scope string_scope.

Lemma iso_doublet_dblqsz_2ch : run_iso (mended coef_dblqsz_2ch) "doublet" dc_dblqsz_2ch = true.
Proof. vm_cast_no_check (eq_refl true). Qed.
Lemma iso_dblqsz_2ch : Forall (fun n => incomplete coef_dblqsz_2ch n = true \/ exists T, run_iso (mended coef_dblqsz_2ch) n T = true) (op_names coef_dblqsz_2ch).
Proof. assert (E : op_names coef_dblqsz_2ch = ["doublet"]) by reflexivity. rewrite E. constructor; [right; exists dc_dblqsz_2ch; exact iso_doublet_dblqsz_2ch|]. constructor. Qed.
Lemma iso_doublet_none_1ch : run_iso (mended coef_none_1ch) "doublet" dc_none_1ch = true.
Proof. vm_cast_no_check (eq_refl true). Qed.
Lemma iso_none_1ch : Forall (fun n => incomplete coef_none_1ch n = true \/ exists T, run_iso (mended coef_none_1ch) n T = true) (op_names coef_none_1ch).
Proof. assert (E : op_names coef_none_1ch = ["doublet"]) by reflexivity. rewrite E. constructor; [right; exists dc_none_1ch; exact iso_doublet_none_1ch|]. constructor. Qed.
Lemma iso_doublet_none_2ch : run_iso (mended coef_none_2ch) "doublet" dc_none_2ch = true.
Proof. vm_cast_no_check (eq_refl true). Qed.
Lemma iso_none_2ch : Forall (fun n => incomplete coef_none_2ch n = true \/ exists T, run_iso (mended coef_none_2ch) n T = true) (op_names coef_none_2ch).
Proof. assert (E : op_names coef_none_2ch = ["doublet"]) by reflexivity. rewrite E. constructor; [right; exists dc_none_2ch; exact iso_doublet_none_2ch|]. constructor. Qed.
Lemma iso_doublet_p_1ch : run_iso (mended coef_p_1ch) "doublet" dc_p_1ch = true.
Proof. vm_cast_no_check (eq_refl true). Qed.
Lemma iso_p_1ch : Forall (fun n => incomplete coef_p_1ch n = true \/ exists T, run_iso (mended coef_p_1ch) n T = true) (op_names coef_p_1ch).
Proof. assert (E : op_names coef_p_1ch = ["doublet"]) by reflexivity. rewrite E. constructor; [right; exists dc_p_1ch; exact iso_doublet_p_1ch|]. constructor. Qed.
Lemma iso_doublet_p_2ch : run_iso (mended coef_p_2ch) "doublet" dc_p_2ch = true.
Proof. vm_cast_no_check (eq_refl true). Qed.
Lemma iso_p_2ch : Forall (fun n => incomplete coef_p_2ch n = true \/ exists T, run_iso (mended coef_p_2ch) n T = true) (op_names coef_p_2ch).
Proof. assert (E : op_names coef_p_2ch = ["doublet"]) by reflexivity. rewrite E. constructor; [right; exists dc_p_2ch; exact iso_doublet_p_2ch|]. constructor. Qed.
Lemma iso_pp_2ch : Forall (fun n => incomplete coef_pp_2ch n = true \/ exists T, run_iso (mended coef_pp_2ch) n T = true) (op_names coef_pp_2ch).
Proof. assert (E : op_names coef_pp_2ch = []) by reflexivity. rewrite E. constructor. Qed.
Lemma iso_doublet_qsz_1ch : run_iso (mended coef_qsz_1ch) "doublet" dc_qsz_1ch = true.
Proof. vm_cast_no_check (eq_refl true). Qed.
Definition tc_triplet_qsz_1ch := Eval vm_compute in ten_certs_of (mended coef_qsz_1ch) "triplet".
Lemma iso_triplet_qsz_1ch : run_iso (mended coef_qsz_1ch) "triplet" tc_triplet_qsz_1ch = true.
Proof. vm_cast_no_check (eq_refl true). Qed.
Lemma iso_qsz_1ch : Forall (fun n => incomplete coef_qsz_1ch n = true \/ exists T, run_iso (mended coef_qsz_1ch) n T = true) (op_names coef_qsz_1ch).
Proof. assert (E : op_names coef_qsz_1ch = ["doublet"; "triplet"]) by reflexivity. rewrite E. constructor; [right; exists dc_qsz_1ch; exact iso_doublet_qsz_1ch|]. constructor; [right; exists tc_triplet_qsz_1ch; exact iso_triplet_qsz_1ch|]. constructor. Qed.
Lemma iso_doublet_qsz_2ch : run_iso (mended coef_qsz_2ch) "doublet" dc_qsz_2ch = true.
Proof. vm_cast_no_check (eq_refl true). Qed.
Definition tc_triplet_qsz_2ch := Eval vm_compute in ten_certs_of (mended coef_qsz_2ch) "triplet".
Lemma iso_triplet_qsz_2ch : run_iso (mended coef_qsz_2ch) "triplet" tc_triplet_qsz_2ch = true.
Proof. vm_cast_no_check (eq_refl true). Qed.
Lemma iso_qsz_2ch : Forall (fun n => incomplete coef_qsz_2ch n = true \/ exists T, run_iso (mended coef_qsz_2ch) n T = true) (op_names coef_qsz_2ch).
Proof. assert (E : op_names coef_qsz_2ch = ["doublet"; "triplet"]) by reflexivity. rewrite E. constructor; [right; exists dc_qsz_2ch; exact iso_doublet_qsz_2ch|]. constructor; [right; exists tc_triplet_qsz_2ch; exact iso_triplet_qsz_2ch|]. constructor. Qed.
Lemma iso_doublet_qsz_3ch : run_iso (mended coef_qsz_3ch) "doublet" dc_qsz_3ch = true.
Proof. vm_cast_no_check (eq_refl true). Qed.
Definition tc_triplet_qsz_3ch := Eval vm_compute in ten_certs_of (mended coef_qsz_3ch) "triplet".
Lemma iso_triplet_qsz_3ch : run_iso (mended coef_qsz_3ch) "triplet" tc_triplet_qsz_3ch = true.
Proof. vm_cast_no_check (eq_refl true). Qed.
Lemma iso_qsz_3ch : Forall (fun n => incomplete coef_qsz_3ch n = true \/ exists T, run_iso (mended coef_qsz_3ch) n T = true) (op_names coef_qsz_3ch).
Proof. assert (E : op_names coef_qsz_3ch = ["doublet"; "triplet"]) by reflexivity. rewrite E. constructor; [right; exists dc_qsz_3ch; exact iso_doublet_qsz_3ch|]. constructor; [right; exists tc_triplet_qsz_3ch; exact iso_triplet_qsz_3ch|]. constructor. Qed.
Lemma iso_doublet_sl_1ch : run_iso (mended coef_sl_1ch) "doublet" dc_sl_1ch = true.
Proof. vm_cast_no_check (eq_refl true). Qed.
Lemma iso_sl_1ch : Forall (fun n => incomplete coef_sl_1ch n = true \/ exists T, run_iso (mended coef_sl_1ch) n T = true) (op_names coef_sl_1ch).
Proof. assert (E : op_names coef_sl_1ch = ["doublet"]) by reflexivity. rewrite E. constructor; [right; exists dc_sl_1ch; exact iso_doublet_sl_1ch|]. constructor. Qed.
Lemma iso_doublet_sl_2ch : run_iso (mended coef_sl_2ch) "doublet" dc_sl_2ch = true.
Proof. vm_cast_no_check (eq_refl true). Qed.
Lemma iso_sl_2ch : Forall (fun n => incomplete coef_sl_2ch n = true \/ exists T, run_iso (mended coef_sl_2ch) n T = true) (op_names coef_sl_2ch).
Proof. assert (E : op_names coef_sl_2ch = ["doublet"]) by reflexivity. rewrite E. constructor; [right; exists dc_sl_2ch; exact iso_doublet_sl_2ch|]. constructor. Qed.
Lemma iso_doublet_sl_3ch : run_iso (mended coef_sl_3ch) "doublet" dc_sl_3ch = true.
Proof. vm_cast_no_check (eq_refl true). Qed.
Lemma iso_sl_3ch : Forall (fun n => incomplete coef_sl_3ch n = true \/ exists T, run_iso (mended coef_sl_3ch) n T = true) (op_names coef_sl_3ch).
Proof. assert (E : op_names coef_sl_3ch = ["doublet"]) by reflexivity. rewrite E. constructor; [right; exists dc_sl_3ch; exact iso_doublet_sl_3ch|]. constructor. Qed.
Lemma iso_doublet_sl3_3ch : run_iso (mended coef_sl3_3ch) "doublet" dc_sl3_3ch = true.
Proof. vm_cast_no_check (eq_refl true). Qed.
Lemma iso_sl3_3ch : Forall (fun n => incomplete coef_sl3_3ch n = true \/ exists T, run_iso (mended coef_sl3_3ch) n T = true) (op_names coef_sl3_3ch).
Proof. assert (E : op_names coef_sl3_3ch = ["doublet"]) by reflexivity. rewrite E. constructor; [right; exists dc_sl3_3ch; exact iso_doublet_sl3_3ch|]. constructor. Qed.
Lemma iso_doublet_spu1_1ch : run_iso (mended coef_spu1_1ch) "doublet" dc_spu1_1ch = true.
Proof. vm_cast_no_check (eq_refl true). Qed.
Definition tc_triplet_spu1_1ch := Eval vm_compute in ten_certs_of (mended coef_spu1_1ch) "triplet".
Lemma iso_triplet_spu1_1ch : run_iso (mended coef_spu1_1ch) "triplet" tc_triplet_spu1_1ch = true.
Proof. vm_cast_no_check (eq_refl true). Qed.
Lemma iso_spu1_1ch : Forall (fun n => incomplete coef_spu1_1ch n = true \/ exists T, run_iso (mended coef_spu1_1ch) n T = true) (op_names coef_spu1_1ch).
Proof. assert (E : op_names coef_spu1_1ch = ["doublet"; "triplet"]) by reflexivity. rewrite E. constructor; [right; exists dc_spu1_1ch; exact iso_doublet_spu1_1ch|]. constructor; [right; exists tc_triplet_spu1_1ch; exact iso_triplet_spu1_1ch|]. constructor. Qed.
Lemma iso_doublet_spu1_2ch : run_iso (mended coef_spu1_2ch) "doublet" dc_spu1_2ch = true.
Proof. vm_cast_no_check (eq_refl true). Qed.
Definition tc_triplet_spu1_2ch := Eval vm_compute in ten_certs_of (mended coef_spu1_2ch) "triplet".
Lemma iso_triplet_spu1_2ch : run_iso (mended coef_spu1_2ch) "triplet" tc_triplet_spu1_2ch = true.
Proof. vm_cast_no_check (eq_refl true). Qed.
Lemma iso_spu1_2ch : Forall (fun n => incomplete coef_spu1_2ch n = true \/ exists T, run_iso (mended coef_spu1_2ch) n T = true) (op_names coef_spu1_2ch).
Proof. assert (E : op_names coef_spu1_2ch = ["doublet"; "triplet"]) by reflexivity. rewrite E. constructor; [right; exists dc_spu1_2ch; exact iso_doublet_spu1_2ch|]. constructor; [right; exists tc_triplet_spu1_2ch; exact iso_triplet_spu1_2ch|]. constructor. Qed.
Lemma iso_doublet_u1_1ch : run_iso (mended coef_u1_1ch) "doublet" dc_u1_1ch = true.
Proof. vm_cast_no_check (eq_refl true). Qed.
Lemma iso_u1_1ch : Forall (fun n => incomplete coef_u1_1ch n = true \/ exists T, run_iso (mended coef_u1_1ch) n T = true) (op_names coef_u1_1ch).
Proof. assert (E : op_names coef_u1_1ch = ["doublet"]) by reflexivity. rewrite E. constructor; [right; exists dc_u1_1ch; exact iso_doublet_u1_1ch|]. constructor. Qed.
Lemma iso_doublet_u1_2ch : run_iso (mended coef_u1_2ch) "doublet" dc_u1_2ch = true.
Proof. vm_cast_no_check (eq_refl true). Qed.
Lemma iso_u1_2ch : Forall (fun n => incomplete coef_u1_2ch n = true \/ exists T, run_iso (mended coef_u1_2ch) n T = true) (op_names coef_u1_2ch).
Proof. assert (E : op_names coef_u1_2ch = ["doublet"]) by reflexivity. rewrite E. constructor; [right; exists dc_u1_2ch; exact iso_doublet_u1_2ch|]. constructor. Qed.
Lemma iso_doublet_u1_3ch : run_iso (mended coef_u1_3ch) "doublet" dc_u1_3ch = true.
Proof. vm_cast_no_check (eq_refl true). Qed.
Lemma iso_u1_3ch : Forall (fun n => incomplete coef_u1_3ch n = true \/ exists T, run_iso (mended coef_u1_3ch) n T = true) (op_names coef_u1_3ch).
Proof. assert (E : op_names coef_u1_3ch = ["doublet"]) by reflexivity. rewrite E. constructor; [right; exists dc_u1_3ch; exact iso_doublet_u1_3ch|]. constructor. Qed.
