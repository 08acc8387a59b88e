(** Evaluation of the check of Coef_iso.v, with closed forms found by search (confirmed by the check). *)
From Verif Require Import Coef_spec Coef_sector Coef_lines_spec Coef_check Coef_iso.
From Verif Require Import Coef_hop_ISO Coef_tab_ISO Coef_tab_ISO2.
From Coq Require Import String List.
Import ListNotations.
Local Open Scope string_scope.

Lemma iso_doublet_iso_1ch : run_iso (mended coef_iso_1ch) "doublet" dc_iso_1ch = true.
Proof. vm_cast_no_check (eq_refl true). Qed.
Definition tc_triplet_iso_1ch := Eval vm_compute in ten_certs_of (mended coef_iso_1ch) "triplet".
Lemma iso_triplet_iso_1ch : run_iso (mended coef_iso_1ch) "triplet" tc_triplet_iso_1ch = true.
Proof. vm_cast_no_check (eq_refl true). Qed.
Lemma iso_iso_1ch : Forall (fun n => incomplete coef_iso_1ch n = true \/ exists T, run_iso (mended coef_iso_1ch) n T = true) (op_names coef_iso_1ch).
Proof. assert (E : op_names coef_iso_1ch = ["doublet"; "triplet"]) by reflexivity. rewrite E. constructor; [right; exists dc_iso_1ch; exact iso_doublet_iso_1ch|]. constructor; [right; exists tc_triplet_iso_1ch; exact iso_triplet_iso_1ch|]. constructor. Qed.
Lemma iso_doublet_iso_2ch : run_iso (mended coef_iso_2ch) "doublet" dc_iso_2ch = true.
Proof. vm_cast_no_check (eq_refl true). Qed.
Definition tc_triplet_iso_2ch := Eval vm_compute in ten_certs_of (mended coef_iso_2ch) "triplet".
Lemma iso_triplet_iso_2ch : run_iso (mended coef_iso_2ch) "triplet" tc_triplet_iso_2ch = true.
Proof. vm_cast_no_check (eq_refl true). Qed.
Lemma iso_iso_2ch : Forall (fun n => incomplete coef_iso_2ch n = true \/ exists T, run_iso (mended coef_iso_2ch) n T = true) (op_names coef_iso_2ch).
Proof. assert (E : op_names coef_iso_2ch = ["doublet"; "triplet"]) by reflexivity. rewrite E. constructor; [right; exists dc_iso_2ch; exact iso_doublet_iso_2ch|]. constructor; [right; exists tc_triplet_iso_2ch; exact iso_triplet_iso_2ch|]. constructor. Qed.
Lemma iso_iso_3ch : Forall (fun n => incomplete coef_iso_3ch n = true \/ exists T, run_iso (mended coef_iso_3ch) n T = true) (op_names coef_iso_3ch).
Proof. assert (E : op_names coef_iso_3ch = []) by reflexivity. rewrite E. constructor. Qed.
Lemma iso_doublet_iso2_1ch : run_iso (mended coef_iso2_1ch) "doublet" dc_iso2_1ch = true.
Proof. vm_cast_no_check (eq_refl true). Qed.
Definition tc_triplet_iso2_1ch := Eval vm_compute in ten_certs_of (mended coef_iso2_1ch) "triplet".
Lemma iso_triplet_iso2_1ch : run_iso (mended coef_iso2_1ch) "triplet" tc_triplet_iso2_1ch = true.
Proof. vm_cast_no_check (eq_refl true). Qed.
Lemma iso_iso2_1ch : Forall (fun n => incomplete coef_iso2_1ch n = true \/ exists T, run_iso (mended coef_iso2_1ch) n T = true) (op_names coef_iso2_1ch).
Proof. assert (E : op_names coef_iso2_1ch = ["doublet"; "triplet"]) by reflexivity. rewrite E. constructor; [right; exists dc_iso2_1ch; exact iso_doublet_iso2_1ch|]. constructor; [right; exists tc_triplet_iso2_1ch; exact iso_triplet_iso2_1ch|]. constructor. Qed.
Lemma iso_doublet_iso2_2ch : run_iso (mended coef_iso2_2ch) "doublet" dc_iso2_2ch = true.
Proof. vm_cast_no_check (eq_refl true). Qed.
Definition tc_triplet_iso2_2ch := Eval vm_compute in ten_certs_of (mended coef_iso2_2ch) "triplet".
Lemma iso_triplet_iso2_2ch : run_iso (mended coef_iso2_2ch) "triplet" tc_triplet_iso2_2ch = true.
Proof. vm_cast_no_check (eq_refl true). Qed.
Lemma iso_iso2_2ch : Forall (fun n => incomplete coef_iso2_2ch n = true \/ exists T, run_iso (mended coef_iso2_2ch) n T = true) (op_names coef_iso2_2ch).
Proof. assert (E : op_names coef_iso2_2ch = ["doublet"; "triplet"]) by reflexivity. rewrite E. constructor; [right; exists dc_iso2_2ch; exact iso_doublet_iso2_2ch|]. constructor; [right; exists tc_triplet_iso2_2ch; exact iso_triplet_iso2_2ch|]. constructor. Qed.
