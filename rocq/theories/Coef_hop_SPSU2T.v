(** Evaluation of the checks of Coef_check.v, with closed forms found by search (confirmed by the check). *)
From Verif Require Import Coef_spec Coef_sector Coef_lines_spec Coef_check Coef_check_sound.
From Verif Require Import Coef_run_SPSU2T Coef_tab_SPSU2T Coef_tab_SPSU2.
From Coq Require Import String.
Local Open Scope string_scope.

Definition dc_spsu2_1ch := Eval vm_compute in ten_certs_of (mended coef_spsu2_1ch) "doublet".
Definition oc_spsu2_1ch := Eval vm_compute in off_certs_of coef_spsu2_1ch.
Definition gc_spsu2_1ch := Eval vm_compute in diag_certs_of coef_spsu2_1ch.
Lemma hop_spsu2_1ch : run_lines (mended coef_spsu2_1ch) cert_spsu2_1ch dc_spsu2_1ch oc_spsu2_1ch gc_spsu2_1ch = true.
Proof. vm_cast_no_check (eq_refl true). Qed.
Definition dc_spsu2_2ch := Eval vm_compute in ten_certs_of (mended coef_spsu2_2ch) "doublet".
Definition oc_spsu2_2ch := Eval vm_compute in off_certs_of coef_spsu2_2ch.
Definition gc_spsu2_2ch := Eval vm_compute in diag_certs_of coef_spsu2_2ch.
Lemma hop_spsu2_2ch : run_lines (mended coef_spsu2_2ch) cert_spsu2_2ch dc_spsu2_2ch oc_spsu2_2ch gc_spsu2_2ch = true.
Proof. vm_cast_no_check (eq_refl true). Qed.
Definition dc_spsu2_3ch := Eval vm_compute in ten_certs_of (mended coef_spsu2_3ch) "doublet".
Definition oc_spsu2_3ch := Eval vm_compute in off_certs_of coef_spsu2_3ch.
Definition gc_spsu2_3ch := Eval vm_compute in diag_certs_of coef_spsu2_3ch.
Lemma hop_spsu2_3ch : run_lines (mended coef_spsu2_3ch) cert_spsu2_3ch dc_spsu2_3ch oc_spsu2_3ch gc_spsu2_3ch = true.
Proof. vm_cast_no_check (eq_refl true). Qed.
Definition dc_spsu2t := Eval vm_compute in ten_certs_of (mended coef_spsu2t) "doublet".
Definition oc_spsu2t := Eval vm_compute in off_certs_of coef_spsu2t.
Definition gc_spsu2t := Eval vm_compute in diag_certs_of coef_spsu2t.
Lemma hop_spsu2t : run_lines (mended coef_spsu2t) cert_spsu2t dc_spsu2t oc_spsu2t gc_spsu2t = true.
Proof. vm_cast_no_check (eq_refl true). Qed.
