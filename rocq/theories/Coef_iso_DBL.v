(** Evaluation of the check of Coef_iso.v, with closed forms found by search (confirmed by the check). *)
From Verif Require Import Coef_spec Coef_sector Coef_lines_spec Coef_check Coef_iso.
From Verif Require Import Coef_hop_DBL Coef_tab_DBLISOSZ Coef_tab_DBLSU2 Coef_tab_ISOSZ Coef_tab_SU2.
From Coq Require Import String List.
Import ListNotations.
Local Open Scope string_scope.

Lemma iso_doublet_dblisosz_2ch : run_iso (mended coef_dblisosz_2ch) "doublet" dc_dblisosz_2ch = true.
Proof. vm_cast_no_check (eq_refl true). Qed.
Lemma iso_dblisosz_2ch : Forall (fun n => incomplete coef_dblisosz_2ch n = true \/ exists T, run_iso (mended coef_dblisosz_2ch) n T = true) (op_names coef_dblisosz_2ch).
Proof. assert (E : op_names coef_dblisosz_2ch = ["doublet"]) by reflexivity. rewrite E. constructor; [right; exists dc_dblisosz_2ch; exact iso_doublet_dblisosz_2ch|]. constructor. Qed.
Lemma iso_doublet_dblsu2_2ch : run_iso (mended coef_dblsu2_2ch) "doublet" dc_dblsu2_2ch = true.
Proof. vm_cast_no_check (eq_refl true). Qed.
Lemma iso_dblsu2_2ch : Forall (fun n => incomplete coef_dblsu2_2ch n = true \/ exists T, run_iso (mended coef_dblsu2_2ch) n T = true) (op_names coef_dblsu2_2ch).
Proof. assert (E : op_names coef_dblsu2_2ch = ["doublet"]) by reflexivity. rewrite E. constructor; [right; exists dc_dblsu2_2ch; exact iso_doublet_dblsu2_2ch|]. constructor. Qed.
Lemma iso_doublet_isosz_1ch : run_iso (mended coef_isosz_1ch) "doublet" dc_isosz_1ch = true.
Proof. vm_cast_no_check (eq_refl true). Qed.
Definition tc_triplet_isosz_1ch := Eval vm_compute in ten_certs_of (mended coef_isosz_1ch) "triplet".
Lemma iso_triplet_isosz_1ch : run_iso (mended coef_isosz_1ch) "triplet" tc_triplet_isosz_1ch = true.
Proof. vm_cast_no_check (eq_refl true). Qed.
Lemma iso_isosz_1ch : Forall (fun n => incomplete coef_isosz_1ch n = true \/ exists T, run_iso (mended coef_isosz_1ch) n T = true) (op_names coef_isosz_1ch).
Proof. assert (E : op_names coef_isosz_1ch = ["doublet"; "triplet"]) by reflexivity. rewrite E. constructor; [right; exists dc_isosz_1ch; exact iso_doublet_isosz_1ch|]. constructor; [right; exists tc_triplet_isosz_1ch; exact iso_triplet_isosz_1ch|]. constructor. Qed.
Lemma iso_doublet_isosz_2ch : run_iso (mended coef_isosz_2ch) "doublet" dc_isosz_2ch = true.
Proof. vm_cast_no_check (eq_refl true). Qed.
Definition tc_triplet_isosz_2ch := Eval vm_compute in ten_certs_of (mended coef_isosz_2ch) "triplet".
Lemma iso_triplet_isosz_2ch : run_iso (mended coef_isosz_2ch) "triplet" tc_triplet_isosz_2ch = true.
Proof. vm_cast_no_check (eq_refl true). Qed.
Lemma iso_isosz_2ch : Forall (fun n => incomplete coef_isosz_2ch n = true \/ exists T, run_iso (mended coef_isosz_2ch) n T = true) (op_names coef_isosz_2ch).
Proof. assert (E : op_names coef_isosz_2ch = ["doublet"; "triplet"]) by reflexivity. rewrite E. constructor; [right; exists dc_isosz_2ch; exact iso_doublet_isosz_2ch|]. constructor; [right; exists tc_triplet_isosz_2ch; exact iso_triplet_isosz_2ch|]. constructor. Qed.
Lemma iso_doublet_su2_1ch : run_iso (mended coef_su2_1ch) "doublet" dc_su2_1ch = true.
Proof. vm_cast_no_check (eq_refl true). Qed.
Lemma iso_su2_1ch : Forall (fun n => incomplete coef_su2_1ch n = true \/ exists T, run_iso (mended coef_su2_1ch) n T = true) (op_names coef_su2_1ch).
Proof. assert (E : op_names coef_su2_1ch = ["doublet"]) by reflexivity. rewrite E. constructor; [right; exists dc_su2_1ch; exact iso_doublet_su2_1ch|]. constructor. Qed.
Lemma iso_doublet_su2_2ch : run_iso (mended coef_su2_2ch) "doublet" dc_su2_2ch = true.
Proof. vm_cast_no_check (eq_refl true). Qed.
Lemma iso_su2_2ch : Forall (fun n => incomplete coef_su2_2ch n = true \/ exists T, run_iso (mended coef_su2_2ch) n T = true) (op_names coef_su2_2ch).
Proof. assert (E : op_names coef_su2_2ch = ["doublet"]) by reflexivity. rewrite E. constructor; [right; exists dc_su2_2ch; exact iso_doublet_su2_2ch|]. constructor. Qed.
