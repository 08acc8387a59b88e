(** Evaluation of the checks of Coef_check.v, with closed forms found by search (confirmed by the check). *)
From Verif Require Import Coef_spec Coef_sector Coef_lines_spec Coef_check Coef_check_sound.
From Verif Require Import Coef_run_DBL Coef_tab_DBLISOSZ Coef_tab_DBLSU2 Coef_tab_ISOSZ Coef_tab_SU2.
From Coq Require Import String.
Local Open Scope string_scope.

Definition dc_dblisosz_2ch := Eval vm_compute in ten_certs_of (mended coef_dblisosz_2ch) "doublet".
Definition oc_dblisosz_2ch := Eval vm_compute in off_certs_of coef_dblisosz_2ch.
Definition gc_dblisosz_2ch := Eval vm_compute in diag_certs_of coef_dblisosz_2ch.
Lemma hop_dblisosz_2ch : run_lines (mended coef_dblisosz_2ch) cert_dblisosz_2ch dc_dblisosz_2ch oc_dblisosz_2ch gc_dblisosz_2ch = true.
Proof. vm_cast_no_check (eq_refl true). Qed.
Definition dc_dblsu2_2ch := Eval vm_compute in ten_certs_of (mended coef_dblsu2_2ch) "doublet".
Definition oc_dblsu2_2ch := Eval vm_compute in off_certs_of coef_dblsu2_2ch.
Definition gc_dblsu2_2ch := Eval vm_compute in diag_certs_of coef_dblsu2_2ch.
Lemma hop_dblsu2_2ch : run_lines (mended coef_dblsu2_2ch) cert_dblsu2_2ch dc_dblsu2_2ch oc_dblsu2_2ch gc_dblsu2_2ch = true.
Proof. vm_cast_no_check (eq_refl true). Qed.
Definition dc_isosz_1ch := Eval vm_compute in ten_certs_of (mended coef_isosz_1ch) "doublet".
Definition oc_isosz_1ch := Eval vm_compute in off_certs_of coef_isosz_1ch.
Definition gc_isosz_1ch := Eval vm_compute in diag_certs_of coef_isosz_1ch.
Lemma hop_isosz_1ch : run_lines (mended coef_isosz_1ch) cert_isosz_1ch dc_isosz_1ch oc_isosz_1ch gc_isosz_1ch = true.
Proof. vm_cast_no_check (eq_refl true). Qed.
Definition dc_isosz_2ch := Eval vm_compute in ten_certs_of (mended coef_isosz_2ch) "doublet".
Definition oc_isosz_2ch := Eval vm_compute in off_certs_of coef_isosz_2ch.
Definition gc_isosz_2ch := Eval vm_compute in diag_certs_of coef_isosz_2ch.
Lemma hop_isosz_2ch : run_lines (mended coef_isosz_2ch) cert_isosz_2ch dc_isosz_2ch oc_isosz_2ch gc_isosz_2ch = true.
Proof. vm_cast_no_check (eq_refl true). Qed.
Definition dc_su2_1ch := Eval vm_compute in ten_certs_of (mended coef_su2_1ch) "doublet".
Definition oc_su2_1ch := Eval vm_compute in off_certs_of coef_su2_1ch.
Definition gc_su2_1ch := Eval vm_compute in diag_certs_of coef_su2_1ch.
Lemma hop_su2_1ch : run_lines (mended coef_su2_1ch) cert_su2_1ch dc_su2_1ch oc_su2_1ch gc_su2_1ch = true.
Proof. vm_cast_no_check (eq_refl true). Qed.
Definition dc_su2_2ch := Eval vm_compute in ten_certs_of (mended coef_su2_2ch) "doublet".
Definition oc_su2_2ch := Eval vm_compute in off_certs_of coef_su2_2ch.
Definition gc_su2_2ch := Eval vm_compute in diag_certs_of coef_su2_2ch.
Lemma hop_su2_2ch : run_lines (mended coef_su2_2ch) cert_su2_2ch dc_su2_2ch oc_su2_2ch gc_su2_2ch = true.
Proof. vm_cast_no_check (eq_refl true). Qed.
