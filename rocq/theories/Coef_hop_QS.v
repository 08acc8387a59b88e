(** Evaluation of the checks of Coef_check.v, with closed forms found by search (confirmed by the check). *)
From Verif Require Import Coef_spec Coef_sector Coef_lines_spec Coef_check Coef_check_sound.
From Verif Require Import Coef_run_QS Coef_tab_QS.
From Coq Require Import String.
Local Open Scope string_scope.

Definition dc_qs_1ch := Eval vm_compute in ten_certs_of (mended coef_qs_1ch) "doublet".
Definition oc_qs_1ch := Eval vm_compute in off_certs_of coef_qs_1ch.
Definition gc_qs_1ch := Eval vm_compute in diag_certs_of coef_qs_1ch.
Lemma hop_qs_1ch : run_lines (mended coef_qs_1ch) cert_qs_1ch dc_qs_1ch oc_qs_1ch gc_qs_1ch = true.
Proof. vm_cast_no_check (eq_refl true). Qed.
Definition dc_qs_2ch := Eval vm_compute in ten_certs_of (mended coef_qs_2ch) "doublet".
Definition oc_qs_2ch := Eval vm_compute in off_certs_of coef_qs_2ch.
Definition gc_qs_2ch := Eval vm_compute in diag_certs_of coef_qs_2ch.
Lemma hop_qs_2ch : run_lines (mended coef_qs_2ch) cert_qs_2ch dc_qs_2ch oc_qs_2ch gc_qs_2ch = true.
Proof. vm_cast_no_check (eq_refl true). Qed.
Definition dc_qs_3ch := Eval vm_compute in ten_certs_of (mended coef_qs_3ch) "doublet".
Definition oc_qs_3ch := Eval vm_compute in off_certs_of coef_qs_3ch.
Definition gc_qs_3ch := Eval vm_compute in diag_certs_of coef_qs_3ch.
Lemma hop_qs_3ch : run_lines (mended coef_qs_3ch) cert_qs_3ch dc_qs_3ch oc_qs_3ch gc_qs_3ch = true.
Proof. vm_cast_no_check (eq_refl true). Qed.
Definition dc_qs_4ch := Eval vm_compute in ten_certs_of (mended coef_qs_4ch) "doublet".
Definition oc_qs_4ch := Eval vm_compute in off_certs_of coef_qs_4ch.
Definition gc_qs_4ch := Eval vm_compute in diag_certs_of coef_qs_4ch.
Lemma hop_qs_4ch : run_lines (mended coef_qs_4ch) cert_qs_4ch dc_qs_4ch oc_qs_4ch gc_qs_4ch = true.
Proof. vm_cast_no_check (eq_refl true). Qed.
