(** Evaluation of the checks of Coef_check.v, with closed forms found by search (confirmed by the check). *)
From Verif Require Import Coef_spec Coef_sector Coef_lines_spec Coef_check Coef_check_sound.
From Verif Require Import Coef_run_QST Coef_tab_QST Coef_tab_QSTZ Coef_tab_QSZTZ.
From Coq Require Import String.
Local Open Scope string_scope.

Definition dc_qst := Eval vm_compute in ten_certs_of (mended coef_qst) "doublet".
Definition oc_qst := Eval vm_compute in off_certs_of coef_qst.
Definition gc_qst := Eval vm_compute in diag_certs_of coef_qst.
Lemma hop_qst : run_lines (mended coef_qst) cert_qst dc_qst oc_qst gc_qst = true.
Proof. vm_cast_no_check (eq_refl true). Qed.
Definition dc_qstz := Eval vm_compute in ten_certs_of (mended coef_qstz) "doublet".
Definition oc_qstz := Eval vm_compute in off_certs_of coef_qstz.
Definition gc_qstz := Eval vm_compute in diag_certs_of coef_qstz.
Lemma hop_qstz : run_lines (mended coef_qstz) cert_qstz dc_qstz oc_qstz gc_qstz = true.
Proof. vm_cast_no_check (eq_refl true). Qed.
Definition dc_qsztz := Eval vm_compute in ten_certs_of (mended coef_qsztz) "doublet".
Definition oc_qsztz := Eval vm_compute in off_certs_of coef_qsztz.
Definition gc_qsztz := Eval vm_compute in diag_certs_of coef_qsztz.
Lemma hop_qsztz : run_lines (mended coef_qsztz) cert_qsztz dc_qsztz oc_qsztz gc_qsztz = true.
Proof. vm_cast_no_check (eq_refl true). Qed.
