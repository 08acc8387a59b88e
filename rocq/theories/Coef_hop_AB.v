(** Evaluation of the checks of Coef_check.v, with closed forms found by search (confirmed by the check). *)
From Verif Require Import Coef_spec Coef_sector Coef_lines_spec Coef_check Coef_check_sound.
From Verif Require Import Coef_run_AB Coef_tab_NONE Coef_tab_P Coef_tab_PP Coef_tab_U1 Coef_tab_SL Coef_tab_SL3 Coef_tab_QSZ Coef_tab_DBLQSZ Coef_tab_SPU1.
From Coq Require Import String.
Local Open Scope string_scope.

Definition dc_dblqsz_2ch := Eval vm_compute in ten_certs_of (mended coef_dblqsz_2ch) "doublet".
Definition oc_dblqsz_2ch := Eval vm_compute in off_certs_of coef_dblqsz_2ch.
Definition gc_dblqsz_2ch := Eval vm_compute in diag_certs_of coef_dblqsz_2ch.
Lemma hop_dblqsz_2ch : run_lines (mended coef_dblqsz_2ch) cert_dblqsz_2ch dc_dblqsz_2ch oc_dblqsz_2ch gc_dblqsz_2ch = true.
Proof. vm_cast_no_check (eq_refl true). Qed.
Definition dc_none_1ch := Eval vm_compute in ten_certs_of (mended coef_none_1ch) "doublet".
Definition oc_none_1ch := Eval vm_compute in off_certs_of coef_none_1ch.
Definition gc_none_1ch := Eval vm_compute in diag_certs_of coef_none_1ch.
Lemma hop_none_1ch : run_lines (mended coef_none_1ch) cert_none_1ch dc_none_1ch oc_none_1ch gc_none_1ch = true.
Proof. vm_cast_no_check (eq_refl true). Qed.
Definition dc_none_2ch := Eval vm_compute in ten_certs_of (mended coef_none_2ch) "doublet".
Definition oc_none_2ch := Eval vm_compute in off_certs_of coef_none_2ch.
Definition gc_none_2ch := Eval vm_compute in diag_certs_of coef_none_2ch.
Lemma hop_none_2ch : run_lines (mended coef_none_2ch) cert_none_2ch dc_none_2ch oc_none_2ch gc_none_2ch = true.
Proof. vm_cast_no_check (eq_refl true). Qed.
Definition dc_p_1ch := Eval vm_compute in ten_certs_of (mended coef_p_1ch) "doublet".
Definition oc_p_1ch := Eval vm_compute in off_certs_of coef_p_1ch.
Definition gc_p_1ch := Eval vm_compute in diag_certs_of coef_p_1ch.
Lemma hop_p_1ch : run_lines (mended coef_p_1ch) cert_p_1ch dc_p_1ch oc_p_1ch gc_p_1ch = true.
Proof. vm_cast_no_check (eq_refl true). Qed.
Definition dc_p_2ch := Eval vm_compute in ten_certs_of (mended coef_p_2ch) "doublet".
Definition oc_p_2ch := Eval vm_compute in off_certs_of coef_p_2ch.
Definition gc_p_2ch := Eval vm_compute in diag_certs_of coef_p_2ch.
Lemma hop_p_2ch : run_lines (mended coef_p_2ch) cert_p_2ch dc_p_2ch oc_p_2ch gc_p_2ch = true.
Proof. vm_cast_no_check (eq_refl true). Qed.
Definition dc_pp_2ch := Eval vm_compute in ten_certs_of (mended coef_pp_2ch) "doublet".
Definition oc_pp_2ch := Eval vm_compute in off_certs_of coef_pp_2ch.
Definition gc_pp_2ch := Eval vm_compute in diag_certs_of coef_pp_2ch.
Lemma hop_pp_2ch : run_lines (mended coef_pp_2ch) cert_pp_2ch dc_pp_2ch oc_pp_2ch gc_pp_2ch = true.
Proof. vm_cast_no_check (eq_refl true). Qed.
Definition dc_qsz_1ch := Eval vm_compute in ten_certs_of (mended coef_qsz_1ch) "doublet".
Definition oc_qsz_1ch := Eval vm_compute in off_certs_of coef_qsz_1ch.
Definition gc_qsz_1ch := Eval vm_compute in diag_certs_of coef_qsz_1ch.
Lemma hop_qsz_1ch : run_lines (mended coef_qsz_1ch) cert_qsz_1ch dc_qsz_1ch oc_qsz_1ch gc_qsz_1ch = true.
Proof. vm_cast_no_check (eq_refl true). Qed.
Definition dc_qsz_2ch := Eval vm_compute in ten_certs_of (mended coef_qsz_2ch) "doublet".
Definition oc_qsz_2ch := Eval vm_compute in off_certs_of coef_qsz_2ch.
Definition gc_qsz_2ch := Eval vm_compute in diag_certs_of coef_qsz_2ch.
Lemma hop_qsz_2ch : run_lines (mended coef_qsz_2ch) cert_qsz_2ch dc_qsz_2ch oc_qsz_2ch gc_qsz_2ch = true.
Proof. vm_cast_no_check (eq_refl true). Qed.
Definition dc_qsz_3ch := Eval vm_compute in ten_certs_of (mended coef_qsz_3ch) "doublet".
Definition oc_qsz_3ch := Eval vm_compute in off_certs_of coef_qsz_3ch.
Definition gc_qsz_3ch := Eval vm_compute in diag_certs_of coef_qsz_3ch.
Lemma hop_qsz_3ch : run_lines (mended coef_qsz_3ch) cert_qsz_3ch dc_qsz_3ch oc_qsz_3ch gc_qsz_3ch = true.
Proof. vm_cast_no_check (eq_refl true). Qed.
Definition dc_sl_1ch := Eval vm_compute in ten_certs_of (mended coef_sl_1ch) "doublet".
Definition oc_sl_1ch := Eval vm_compute in off_certs_of coef_sl_1ch.
Definition gc_sl_1ch := Eval vm_compute in diag_certs_of coef_sl_1ch.
Lemma hop_sl_1ch : run_lines (mended coef_sl_1ch) cert_sl_1ch dc_sl_1ch oc_sl_1ch gc_sl_1ch = true.
Proof. vm_cast_no_check (eq_refl true). Qed.
Definition dc_sl_2ch := Eval vm_compute in ten_certs_of (mended coef_sl_2ch) "doublet".
Definition oc_sl_2ch := Eval vm_compute in off_certs_of coef_sl_2ch.
Definition gc_sl_2ch := Eval vm_compute in diag_certs_of coef_sl_2ch.
Lemma hop_sl_2ch : run_lines (mended coef_sl_2ch) cert_sl_2ch dc_sl_2ch oc_sl_2ch gc_sl_2ch = true.
Proof. vm_cast_no_check (eq_refl true). Qed.
Definition dc_sl_3ch := Eval vm_compute in ten_certs_of (mended coef_sl_3ch) "doublet".
Definition oc_sl_3ch := Eval vm_compute in off_certs_of coef_sl_3ch.
Definition gc_sl_3ch := Eval vm_compute in diag_certs_of coef_sl_3ch.
Lemma hop_sl_3ch : run_lines (mended coef_sl_3ch) cert_sl_3ch dc_sl_3ch oc_sl_3ch gc_sl_3ch = true.
Proof. vm_cast_no_check (eq_refl true). Qed.
Definition dc_sl3_3ch := Eval vm_compute in ten_certs_of (mended coef_sl3_3ch) "doublet".
Definition oc_sl3_3ch := Eval vm_compute in off_certs_of coef_sl3_3ch.
Definition gc_sl3_3ch := Eval vm_compute in diag_certs_of coef_sl3_3ch.
Lemma hop_sl3_3ch : run_lines (mended coef_sl3_3ch) cert_sl3_3ch dc_sl3_3ch oc_sl3_3ch gc_sl3_3ch = true.
Proof. vm_cast_no_check (eq_refl true). Qed.
Definition dc_spu1_1ch := Eval vm_compute in ten_certs_of (mended coef_spu1_1ch) "doublet".
Definition oc_spu1_1ch := Eval vm_compute in off_certs_of coef_spu1_1ch.
Definition gc_spu1_1ch := Eval vm_compute in diag_certs_of coef_spu1_1ch.
Lemma hop_spu1_1ch : run_lines (mended coef_spu1_1ch) cert_spu1_1ch dc_spu1_1ch oc_spu1_1ch gc_spu1_1ch = true.
Proof. vm_cast_no_check (eq_refl true). Qed.
Definition dc_spu1_2ch := Eval vm_compute in ten_certs_of (mended coef_spu1_2ch) "doublet".
Definition oc_spu1_2ch := Eval vm_compute in off_certs_of coef_spu1_2ch.
Definition gc_spu1_2ch := Eval vm_compute in diag_certs_of coef_spu1_2ch.
Lemma hop_spu1_2ch : run_lines (mended coef_spu1_2ch) cert_spu1_2ch dc_spu1_2ch oc_spu1_2ch gc_spu1_2ch = true.
Proof. vm_cast_no_check (eq_refl true). Qed.
Definition dc_u1_1ch := Eval vm_compute in ten_certs_of (mended coef_u1_1ch) "doublet".
Definition oc_u1_1ch := Eval vm_compute in off_certs_of coef_u1_1ch.
Definition gc_u1_1ch := Eval vm_compute in diag_certs_of coef_u1_1ch.
Lemma hop_u1_1ch : run_lines (mended coef_u1_1ch) cert_u1_1ch dc_u1_1ch oc_u1_1ch gc_u1_1ch = true.
Proof. vm_cast_no_check (eq_refl true). Qed.
Definition dc_u1_2ch := Eval vm_compute in ten_certs_of (mended coef_u1_2ch) "doublet".
Definition oc_u1_2ch := Eval vm_compute in off_certs_of coef_u1_2ch.
Definition gc_u1_2ch := Eval vm_compute in diag_certs_of coef_u1_2ch.
Lemma hop_u1_2ch : run_lines (mended coef_u1_2ch) cert_u1_2ch dc_u1_2ch oc_u1_2ch gc_u1_2ch = true.
Proof. vm_cast_no_check (eq_refl true). Qed.
Definition dc_u1_3ch := Eval vm_compute in ten_certs_of (mended coef_u1_3ch) "doublet".
Definition oc_u1_3ch := Eval vm_compute in off_certs_of coef_u1_3ch.
Definition gc_u1_3ch := Eval vm_compute in diag_certs_of coef_u1_3ch.
Lemma hop_u1_3ch : run_lines (mended coef_u1_3ch) cert_u1_3ch dc_u1_3ch oc_u1_3ch gc_u1_3ch = true.
Proof. vm_cast_no_check (eq_refl true). Qed.
