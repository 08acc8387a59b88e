(** Evaluation of the checks of Coef_check.v, with closed forms found by search (confirmed by the check). *)
From Verif Require Import Coef_spec Coef_sector Coef_lines_spec Coef_check Coef_check_sound.
From Verif Require Import Coef_run_ISO Coef_tab_ISO Coef_tab_ISO2.
From Coq Require Import String.
Local Open Scope string_scope.

Definition dc_iso_1ch := Eval vm_compute in ten_certs_of (mended coef_iso_1ch) "doublet".
Definition oc_iso_1ch := Eval vm_compute in off_certs_of coef_iso_1ch.
Definition gc_iso_1ch := Eval vm_compute in diag_certs_of coef_iso_1ch.
Lemma hop_iso_1ch : run_lines (mended coef_iso_1ch) cert_iso_1ch dc_iso_1ch oc_iso_1ch gc_iso_1ch = true.
Proof. vm_cast_no_check (eq_refl true). Qed.
Definition dc_iso_2ch := Eval vm_compute in ten_certs_of (mended coef_iso_2ch) "doublet".
Definition oc_iso_2ch := Eval vm_compute in off_certs_of coef_iso_2ch.
Definition gc_iso_2ch := Eval vm_compute in diag_certs_of coef_iso_2ch.
Lemma hop_iso_2ch : run_lines (mended coef_iso_2ch) cert_iso_2ch dc_iso_2ch oc_iso_2ch gc_iso_2ch = true.
Proof. vm_cast_no_check (eq_refl true). Qed.
Definition dc_iso_3ch := Eval vm_compute in ten_certs_of (mended coef_iso_3ch) "doublet".
Definition oc_iso_3ch := Eval vm_compute in off_certs_of coef_iso_3ch.
Definition gc_iso_3ch := Eval vm_compute in diag_certs_of coef_iso_3ch.
Lemma hop_iso_3ch : run_lines (mended coef_iso_3ch) cert_iso_3ch dc_iso_3ch oc_iso_3ch gc_iso_3ch = true.
Proof. vm_cast_no_check (eq_refl true). Qed.
Definition dc_iso2_1ch := Eval vm_compute in ten_certs_of (mended coef_iso2_1ch) "doublet".
Definition oc_iso2_1ch := Eval vm_compute in off_certs_of coef_iso2_1ch.
Definition gc_iso2_1ch := Eval vm_compute in diag_certs_of coef_iso2_1ch.
Lemma hop_iso2_1ch : run_lines (mended coef_iso2_1ch) cert_iso2_1ch dc_iso2_1ch oc_iso2_1ch gc_iso2_1ch = true.
Proof. vm_cast_no_check (eq_refl true). Qed.
Definition dc_iso2_2ch := Eval vm_compute in ten_certs_of (mended coef_iso2_2ch) "doublet".
Definition oc_iso2_2ch := Eval vm_compute in off_certs_of coef_iso2_2ch.
Definition gc_iso2_2ch := Eval vm_compute in diag_certs_of coef_iso2_2ch.
Lemma hop_iso2_2ch : run_lines (mended coef_iso2_2ch) cert_iso2_2ch dc_iso2_2ch oc_iso2_2ch gc_iso2_2ch = true.
Proof. vm_cast_no_check (eq_refl true). Qed.
