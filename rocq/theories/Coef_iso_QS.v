(** Evaluation of the check of Coef_iso.v, with closed forms found by search (confirmed by the check). *)
From Verif Require Import Coef_spec Coef_sector Coef_lines_spec Coef_check Coef_iso.
From Verif Require Import Coef_hop_QS Coef_tab_QS.
From Coq Require Import String List.
Import ListNotations.
Local Open Scope string_scope.

Lemma iso_doublet_qs_1ch : run_iso (mended coef_qs_1ch) "doublet" dc_qs_1ch = true.
Proof. vm_cast_no_check (eq_refl true). Qed.
Definition tc_triplet_qs_1ch := Eval vm_compute in ten_certs_of (mended coef_qs_1ch) "triplet".
Lemma iso_triplet_qs_1ch : run_iso (mended coef_qs_1ch) "triplet" tc_triplet_qs_1ch = true.
Proof. vm_cast_no_check (eq_refl true). Qed.
Lemma iso_qs_1ch : Forall (fun n => incomplete coef_qs_1ch n = true \/ exists T, run_iso (mended coef_qs_1ch) n T = true) (op_names coef_qs_1ch).
Proof. assert (E : op_names coef_qs_1ch = ["doublet"; "triplet"]) by reflexivity. rewrite E. constructor; [right; exists dc_qs_1ch; exact iso_doublet_qs_1ch|]. constructor; [right; exists tc_triplet_qs_1ch; exact iso_triplet_qs_1ch|]. constructor. Qed.
Lemma iso_doublet_qs_2ch : run_iso (mended coef_qs_2ch) "doublet" dc_qs_2ch = true.
Proof. vm_cast_no_check (eq_refl true). Qed.
Definition tc_triplet_qs_2ch := Eval vm_compute in ten_certs_of (mended coef_qs_2ch) "triplet".
Lemma iso_triplet_qs_2ch : run_iso (mended coef_qs_2ch) "triplet" tc_triplet_qs_2ch = true.
Proof. vm_cast_no_check (eq_refl true). Qed.
Lemma iso_qs_2ch : Forall (fun n => incomplete coef_qs_2ch n = true \/ exists T, run_iso (mended coef_qs_2ch) n T = true) (op_names coef_qs_2ch).
Proof. assert (E : op_names coef_qs_2ch = ["doublet"; "triplet"]) by reflexivity. rewrite E. constructor; [right; exists dc_qs_2ch; exact iso_doublet_qs_2ch|]. constructor; [right; exists tc_triplet_qs_2ch; exact iso_triplet_qs_2ch|]. constructor. Qed.
Lemma iso_doublet_qs_3ch : run_iso (mended coef_qs_3ch) "doublet" dc_qs_3ch = true.
Proof. vm_cast_no_check (eq_refl true). Qed.
Definition tc_triplet_qs_3ch := Eval vm_compute in ten_certs_of (mended coef_qs_3ch) "triplet".
Lemma iso_triplet_qs_3ch : run_iso (mended coef_qs_3ch) "triplet" tc_triplet_qs_3ch = true.
Proof. vm_cast_no_check (eq_refl true). Qed.
Lemma iso_qs_3ch : Forall (fun n => incomplete coef_qs_3ch n = true \/ exists T, run_iso (mended coef_qs_3ch) n T = true) (op_names coef_qs_3ch).
Proof. assert (E : op_names coef_qs_3ch = ["doublet"; "triplet"]) by reflexivity. rewrite E. constructor; [right; exists dc_qs_3ch; exact iso_doublet_qs_3ch|]. constructor; [right; exists tc_triplet_qs_3ch; exact iso_triplet_qs_3ch|]. constructor. Qed.
Lemma iso_doublet_qs_4ch : run_iso (mended coef_qs_4ch) "doublet" dc_qs_4ch = true.
Proof. vm_cast_no_check (eq_refl true). Qed.
Definition tc_triplet_qs_4ch := Eval vm_compute in ten_certs_of (mended coef_qs_4ch) "triplet".
Lemma iso_triplet_qs_4ch : run_iso (mended coef_qs_4ch) "triplet" tc_triplet_qs_4ch = true.
Proof. vm_cast_no_check (eq_refl true). Qed.
Lemma iso_qs_4ch : Forall (fun n => incomplete coef_qs_4ch n = true \/ exists T, run_iso (mended coef_qs_4ch) n T = true) (op_names coef_qs_4ch).
Proof. assert (E : op_names coef_qs_4ch = ["doublet"; "triplet"]) by reflexivity. rewrite E. constructor; [right; exists dc_qs_4ch; exact iso_doublet_qs_4ch|]. constructor; [right; exists tc_triplet_qs_4ch; exact iso_triplet_qs_4ch|]. constructor. Qed.
