(** Evaluation of the checks of Coef_check.v, with closed forms found by search (confirmed by the check). *)
From Verif Require Import Coef_spec Coef_sector Coef_lines_spec Coef_check Coef_check_sound.
From Verif Require Import Coef_run_LR Coef_tab_ISOLR Coef_tab_ISO2LR Coef_tab_ISOSZLR Coef_tab_QSLR Coef_tab_QSZLR Coef_tab_SPSU2LR Coef_tab_SPU1LR.
From Coq Require Import String.
Local Open Scope string_scope.

Definition dc_isolr_2ch := Eval vm_compute in ten_certs_of (mended coef_isolr_2ch) "doublet".
Definition oc_isolr_2ch := Eval vm_compute in off_certs_of coef_isolr_2ch.
Definition gc_isolr_2ch := Eval vm_compute in diag_certs_of coef_isolr_2ch.
Lemma hop_isolr_2ch : run_lines (mended coef_isolr_2ch) cert_isolr_2ch dc_isolr_2ch oc_isolr_2ch gc_isolr_2ch = true.
Proof. vm_cast_no_check (eq_refl true). Qed.
Definition dc_iso2lr_2ch := Eval vm_compute in ten_certs_of (mended coef_iso2lr_2ch) "doublet".
Definition oc_iso2lr_2ch := Eval vm_compute in off_certs_of coef_iso2lr_2ch.
Definition gc_iso2lr_2ch := Eval vm_compute in diag_certs_of coef_iso2lr_2ch.
Lemma hop_iso2lr_2ch : run_lines (mended coef_iso2lr_2ch) cert_iso2lr_2ch dc_iso2lr_2ch oc_iso2lr_2ch gc_iso2lr_2ch = true.
Proof. vm_cast_no_check (eq_refl true). Qed.
Definition dc_isoszlr_2ch := Eval vm_compute in ten_certs_of (mended coef_isoszlr_2ch) "doublet".
Definition oc_isoszlr_2ch := Eval vm_compute in off_certs_of coef_isoszlr_2ch.
Definition gc_isoszlr_2ch := Eval vm_compute in diag_certs_of coef_isoszlr_2ch.
Lemma hop_isoszlr_2ch : run_lines (mended coef_isoszlr_2ch) cert_isoszlr_2ch dc_isoszlr_2ch oc_isoszlr_2ch gc_isoszlr_2ch = true.
Proof. vm_cast_no_check (eq_refl true). Qed.
Definition dc_qslr_2ch := Eval vm_compute in ten_certs_of (mended coef_qslr_2ch) "doublet".
Definition oc_qslr_2ch := Eval vm_compute in off_certs_of coef_qslr_2ch.
Definition gc_qslr_2ch := Eval vm_compute in diag_certs_of coef_qslr_2ch.
Lemma hop_qslr_2ch : run_lines (mended coef_qslr_2ch) cert_qslr_2ch dc_qslr_2ch oc_qslr_2ch gc_qslr_2ch = true.
Proof. vm_cast_no_check (eq_refl true). Qed.
Definition dc_qszlr_2ch := Eval vm_compute in ten_certs_of (mended coef_qszlr_2ch) "doublet".
Definition oc_qszlr_2ch := Eval vm_compute in off_certs_of coef_qszlr_2ch.
Definition gc_qszlr_2ch := Eval vm_compute in diag_certs_of coef_qszlr_2ch.
Lemma hop_qszlr_2ch : run_lines (mended coef_qszlr_2ch) cert_qszlr_2ch dc_qszlr_2ch oc_qszlr_2ch gc_qszlr_2ch = true.
Proof. vm_cast_no_check (eq_refl true). Qed.
Definition dc_spsu2lr_2ch := Eval vm_compute in ten_certs_of (mended coef_spsu2lr_2ch) "doublet".
Definition oc_spsu2lr_2ch := Eval vm_compute in off_certs_of coef_spsu2lr_2ch.
Definition gc_spsu2lr_2ch := Eval vm_compute in diag_certs_of coef_spsu2lr_2ch.
Lemma hop_spsu2lr_2ch : run_lines (mended coef_spsu2lr_2ch) cert_spsu2lr_2ch dc_spsu2lr_2ch oc_spsu2lr_2ch gc_spsu2lr_2ch = true.
Proof. vm_cast_no_check (eq_refl true). Qed.
Definition dc_spu1lr_1ch := Eval vm_compute in ten_certs_of (mended coef_spu1lr_1ch) "doublet".
Definition oc_spu1lr_1ch := Eval vm_compute in off_certs_of coef_spu1lr_1ch.
Definition gc_spu1lr_1ch := Eval vm_compute in diag_certs_of coef_spu1lr_1ch.
Lemma hop_spu1lr_1ch : run_lines (mended coef_spu1lr_1ch) cert_spu1lr_1ch dc_spu1lr_1ch oc_spu1lr_1ch gc_spu1lr_1ch = true.
Proof. vm_cast_no_check (eq_refl true). Qed.
Definition dc_spu1lr_2ch := Eval vm_compute in ten_certs_of (mended coef_spu1lr_2ch) "doublet".
Definition oc_spu1lr_2ch := Eval vm_compute in off_certs_of coef_spu1lr_2ch.
Definition gc_spu1lr_2ch := Eval vm_compute in diag_certs_of coef_spu1lr_2ch.
Lemma hop_spu1lr_2ch : run_lines (mended coef_spu1lr_2ch) cert_spu1lr_2ch dc_spu1lr_2ch oc_spu1lr_2ch gc_spu1lr_2ch = true.
Proof. vm_cast_no_check (eq_refl true). Qed.
