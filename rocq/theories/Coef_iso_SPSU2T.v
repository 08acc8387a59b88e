(** Evaluation of the check of Coef_iso.v, with closed forms found by search (confirmed by the check). *)
From Verif Require Import Coef_spec Coef_sector Coef_lines_spec Coef_check Coef_iso.
From Verif Require Import Coef_hop_SPSU2T Coef_tab_SPSU2T Coef_tab_SPSU2.
From Coq Require Import String List.
Import ListNotations.
Local Open Scope string_scope.

Lemma iso_doublet_spsu2_1ch : run_iso (mended coef_spsu2_1ch) "doublet" dc_spsu2_1ch = true.
Proof. vm_cast_no_check (eq_refl true). Qed.
Definition tc_triplet_spsu2_1ch := Eval vm_compute in ten_certs_of (mended coef_spsu2_1ch) "triplet".
Lemma iso_triplet_spsu2_1ch : run_iso (mended coef_spsu2_1ch) "triplet" tc_triplet_spsu2_1ch = true.
Proof. vm_cast_no_check (eq_refl true). Qed.
Lemma iso_spsu2_1ch : Forall (fun n => incomplete coef_spsu2_1ch n = true \/ exists T, run_iso (mended coef_spsu2_1ch) n T = true) (op_names coef_spsu2_1ch).
Proof. assert (E : op_names coef_spsu2_1ch = ["doublet"; "triplet"]) by reflexivity. rewrite E. constructor; [right; exists dc_spsu2_1ch; exact iso_doublet_spsu2_1ch|]. constructor; [right; exists tc_triplet_spsu2_1ch; exact iso_triplet_spsu2_1ch|]. constructor. Qed.
Lemma iso_doublet_spsu2_2ch : run_iso (mended coef_spsu2_2ch) "doublet" dc_spsu2_2ch = true.
Proof. vm_cast_no_check (eq_refl true). Qed.
Definition tc_triplet_spsu2_2ch := Eval vm_compute in ten_certs_of (mended coef_spsu2_2ch) "triplet".
Lemma iso_triplet_spsu2_2ch : run_iso (mended coef_spsu2_2ch) "triplet" tc_triplet_spsu2_2ch = true.
Proof. vm_cast_no_check (eq_refl true). Qed.
Lemma iso_spsu2_2ch : Forall (fun n => incomplete coef_spsu2_2ch n = true \/ exists T, run_iso (mended coef_spsu2_2ch) n T = true) (op_names coef_spsu2_2ch).
Proof. assert (E : op_names coef_spsu2_2ch = ["doublet"; "triplet"]) by reflexivity. rewrite E. constructor; [right; exists dc_spsu2_2ch; exact iso_doublet_spsu2_2ch|]. constructor; [right; exists tc_triplet_spsu2_2ch; exact iso_triplet_spsu2_2ch|]. constructor. Qed.
Lemma iso_doublet_spsu2_3ch : run_iso (mended coef_spsu2_3ch) "doublet" dc_spsu2_3ch = true.
Proof. vm_cast_no_check (eq_refl true). Qed.
Lemma iso_spsu2_3ch : Forall (fun n => incomplete coef_spsu2_3ch n = true \/ exists T, run_iso (mended coef_spsu2_3ch) n T = true) (op_names coef_spsu2_3ch).
Proof. assert (E : op_names coef_spsu2_3ch = ["doublet"; "triplet"]) by reflexivity. rewrite E. constructor; [right; exists dc_spsu2_3ch; exact iso_doublet_spsu2_3ch|]. constructor; [left; reflexivity|]. constructor. Qed.
Lemma iso_doublet_spsu2t : run_iso (mended coef_spsu2t) "doublet" dc_spsu2t = true.
Proof. vm_cast_no_check (eq_refl true). Qed.
Definition tc_triplet_spsu2t := Eval vm_compute in ten_certs_of (mended coef_spsu2t) "triplet".
Lemma iso_triplet_spsu2t : run_iso (mended coef_spsu2t) "triplet" tc_triplet_spsu2t = true.
Proof. vm_cast_no_check (eq_refl true). Qed.
Lemma iso_spsu2t : Forall (fun n => incomplete coef_spsu2t n = true \/ exists T, run_iso (mended coef_spsu2t) n T = true) (op_names coef_spsu2t).
Proof. assert (E : op_names coef_spsu2t = ["doublet"; "triplet"]) by reflexivity. rewrite E. constructor; [right; exists dc_spsu2t; exact iso_doublet_spsu2t|]. constructor; [right; exists tc_triplet_spsu2t; exact iso_triplet_spsu2t|]. constructor. Qed.
