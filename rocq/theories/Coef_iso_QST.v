(** Evaluation of the check of Coef_iso.v, with closed forms found by search (confirmed by the check). *)
From Verif Require Import Coef_spec Coef_sector Coef_lines_spec Coef_check Coef_iso.
From Verif Require Import Coef_hop_QST Coef_tab_QST Coef_tab_QSTZ Coef_tab_QSZTZ.
From Coq Require Import String List.
Import ListNotations.
Local Open Scope string_scope.

Lemma iso_doublet_qst : run_iso (mended coef_qst) "doublet" dc_qst = true.
Proof. vm_cast_no_check (eq_refl true). Qed.
Definition tc_triplet_qst := Eval vm_compute in ten_certs_of (mended coef_qst) "triplet".
Lemma iso_triplet_qst : run_iso (mended coef_qst) "triplet" tc_triplet_qst = true.
Proof. vm_cast_no_check (eq_refl true). Qed.
Definition tc_orb_triplet_qst := Eval vm_compute in ten_certs_of (mended coef_qst) "orb_triplet".
Lemma iso_orb_triplet_qst : run_iso (mended coef_qst) "orb_triplet" tc_orb_triplet_qst = true.
Proof. vm_cast_no_check (eq_refl true). Qed.
Lemma iso_qst : Forall (fun n => incomplete coef_qst n = true \/ exists T, run_iso (mended coef_qst) n T = true) (op_names coef_qst).
Proof. assert (E : op_names coef_qst = ["doublet"; "triplet"; "orb_triplet"]) by reflexivity. rewrite E. constructor; [right; exists dc_qst; exact iso_doublet_qst|]. constructor; [right; exists tc_triplet_qst; exact iso_triplet_qst|]. constructor; [right; exists tc_orb_triplet_qst; exact iso_orb_triplet_qst|]. constructor. Qed.
Lemma iso_doublet_qstz : run_iso (mended coef_qstz) "doublet" dc_qstz = true.
Proof. vm_cast_no_check (eq_refl true). Qed.
Definition tc_triplet_qstz := Eval vm_compute in ten_certs_of (mended coef_qstz) "triplet".
Lemma iso_triplet_qstz : run_iso (mended coef_qstz) "triplet" tc_triplet_qstz = true.
Proof. vm_cast_no_check (eq_refl true). Qed.
Lemma iso_qstz : Forall (fun n => incomplete coef_qstz n = true \/ exists T, run_iso (mended coef_qstz) n T = true) (op_names coef_qstz).
Proof. assert (E : op_names coef_qstz = ["doublet"; "triplet"]) by reflexivity. rewrite E. constructor; [right; exists dc_qstz; exact iso_doublet_qstz|]. constructor; [right; exists tc_triplet_qstz; exact iso_triplet_qstz|]. constructor. Qed.
Lemma iso_doublet_qsztz : run_iso (mended coef_qsztz) "doublet" dc_qsztz = true.
Proof. vm_cast_no_check (eq_refl true). Qed.
Definition tc_triplet_qsztz := Eval vm_compute in ten_certs_of (mended coef_qsztz) "triplet".
Lemma iso_triplet_qsztz : run_iso (mended coef_qsztz) "triplet" tc_triplet_qsztz = true.
Proof. vm_cast_no_check (eq_refl true). Qed.
Lemma iso_qsztz : Forall (fun n => incomplete coef_qsztz n = true \/ exists T, run_iso (mended coef_qsztz) n T = true) (op_names coef_qsztz).
Proof. assert (E : op_names coef_qsztz = ["doublet"; "triplet"]) by reflexivity. rewrite E. constructor; [right; exists dc_qsztz; exact iso_doublet_qsztz|]. constructor; [right; exists tc_triplet_qsztz; exact iso_triplet_qsztz|]. constructor. Qed.
