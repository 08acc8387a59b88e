(** Evaluation of the check of Coef_iso.v, with closed forms found by search (confirmed by the check). *)
From Verif Require Import Coef_spec Coef_sector Coef_lines_spec Coef_check Coef_iso.
From Verif Require Import Coef_hop_LR Coef_tab_ISOLR Coef_tab_ISO2LR Coef_tab_ISOSZLR Coef_tab_QSLR Coef_tab_QSZLR Coef_tab_SPSU2LR Coef_tab_SPU1LR.
From Coq Require Import String List.
Import ListNotations.
Local Open Scope string_scope.

Lemma iso_doublet_isolr_2ch : run_iso (mended coef_isolr_2ch) "doublet" dc_isolr_2ch = true.
Proof. vm_cast_no_check (eq_refl true). Qed.
Definition tc_triplet_isolr_2ch := Eval vm_compute in ten_certs_of (mended coef_isolr_2ch) "triplet".
Lemma iso_triplet_isolr_2ch : run_iso (mended coef_isolr_2ch) "triplet" tc_triplet_isolr_2ch = true.
Proof. vm_cast_no_check (eq_refl true). Qed.
Lemma iso_isolr_2ch : Forall (fun n => incomplete coef_isolr_2ch n = true \/ exists T, run_iso (mended coef_isolr_2ch) n T = true) (op_names coef_isolr_2ch).
Proof. assert (E : op_names coef_isolr_2ch = ["doublet"; "triplet"]) by reflexivity. rewrite E. constructor; [right; exists dc_isolr_2ch; exact iso_doublet_isolr_2ch|]. constructor; [right; exists tc_triplet_isolr_2ch; exact iso_triplet_isolr_2ch|]. constructor. Qed.
Lemma iso_doublet_iso2lr_2ch : run_iso (mended coef_iso2lr_2ch) "doublet" dc_iso2lr_2ch = true.
Proof. vm_cast_no_check (eq_refl true). Qed.
Definition tc_triplet_iso2lr_2ch := Eval vm_compute in ten_certs_of (mended coef_iso2lr_2ch) "triplet".
Lemma iso_triplet_iso2lr_2ch : run_iso (mended coef_iso2lr_2ch) "triplet" tc_triplet_iso2lr_2ch = true.
Proof. vm_cast_no_check (eq_refl true). Qed.
Lemma iso_iso2lr_2ch : Forall (fun n => incomplete coef_iso2lr_2ch n = true \/ exists T, run_iso (mended coef_iso2lr_2ch) n T = true) (op_names coef_iso2lr_2ch).
Proof. assert (E : op_names coef_iso2lr_2ch = ["doublet"; "triplet"]) by reflexivity. rewrite E. constructor; [right; exists dc_iso2lr_2ch; exact iso_doublet_iso2lr_2ch|]. constructor; [right; exists tc_triplet_iso2lr_2ch; exact iso_triplet_iso2lr_2ch|]. constructor. Qed.
Lemma iso_doublet_isoszlr_2ch : run_iso (mended coef_isoszlr_2ch) "doublet" dc_isoszlr_2ch = true.
Proof. vm_cast_no_check (eq_refl true). Qed.
Definition tc_triplet_isoszlr_2ch := Eval vm_compute in ten_certs_of (mended coef_isoszlr_2ch) "triplet".
Lemma iso_triplet_isoszlr_2ch : run_iso (mended coef_isoszlr_2ch) "triplet" tc_triplet_isoszlr_2ch = true.
Proof. vm_cast_no_check (eq_refl true). Qed.
Lemma iso_isoszlr_2ch : Forall (fun n => incomplete coef_isoszlr_2ch n = true \/ exists T, run_iso (mended coef_isoszlr_2ch) n T = true) (op_names coef_isoszlr_2ch).
Proof. assert (E : op_names coef_isoszlr_2ch = ["doublet"; "triplet"]) by reflexivity. rewrite E. constructor; [right; exists dc_isoszlr_2ch; exact iso_doublet_isoszlr_2ch|]. constructor; [right; exists tc_triplet_isoszlr_2ch; exact iso_triplet_isoszlr_2ch|]. constructor. Qed.
Lemma iso_doublet_qslr_2ch : run_iso (mended coef_qslr_2ch) "doublet" dc_qslr_2ch = true.
Proof. vm_cast_no_check (eq_refl true). Qed.
Definition tc_triplet_qslr_2ch := Eval vm_compute in ten_certs_of (mended coef_qslr_2ch) "triplet".
Lemma iso_triplet_qslr_2ch : run_iso (mended coef_qslr_2ch) "triplet" tc_triplet_qslr_2ch = true.
Proof. vm_cast_no_check (eq_refl true). Qed.
Lemma iso_qslr_2ch : Forall (fun n => incomplete coef_qslr_2ch n = true \/ exists T, run_iso (mended coef_qslr_2ch) n T = true) (op_names coef_qslr_2ch).
Proof. assert (E : op_names coef_qslr_2ch = ["doublet"; "triplet"]) by reflexivity. rewrite E. constructor; [right; exists dc_qslr_2ch; exact iso_doublet_qslr_2ch|]. constructor; [right; exists tc_triplet_qslr_2ch; exact iso_triplet_qslr_2ch|]. constructor. Qed.
Lemma iso_qszlr_2ch : Forall (fun n => incomplete coef_qszlr_2ch n = true \/ exists T, run_iso (mended coef_qszlr_2ch) n T = true) (op_names coef_qszlr_2ch).
Proof. assert (E : op_names coef_qszlr_2ch = []) by reflexivity. rewrite E. constructor. Qed.
Lemma iso_doublet_spsu2lr_2ch : run_iso (mended coef_spsu2lr_2ch) "doublet" dc_spsu2lr_2ch = true.
Proof. vm_cast_no_check (eq_refl true). Qed.
Definition tc_triplet_spsu2lr_2ch := Eval vm_compute in ten_certs_of (mended coef_spsu2lr_2ch) "triplet".
Lemma iso_triplet_spsu2lr_2ch : run_iso (mended coef_spsu2lr_2ch) "triplet" tc_triplet_spsu2lr_2ch = true.
Proof. vm_cast_no_check (eq_refl true). Qed.
Lemma iso_spsu2lr_2ch : Forall (fun n => incomplete coef_spsu2lr_2ch n = true \/ exists T, run_iso (mended coef_spsu2lr_2ch) n T = true) (op_names coef_spsu2lr_2ch).
Proof. assert (E : op_names coef_spsu2lr_2ch = ["doublet"; "triplet"]) by reflexivity. rewrite E. constructor; [right; exists dc_spsu2lr_2ch; exact iso_doublet_spsu2lr_2ch|]. constructor; [right; exists tc_triplet_spsu2lr_2ch; exact iso_triplet_spsu2lr_2ch|]. constructor. Qed.
Lemma iso_spu1lr_1ch : Forall (fun n => incomplete coef_spu1lr_1ch n = true \/ exists T, run_iso (mended coef_spu1lr_1ch) n T = true) (op_names coef_spu1lr_1ch).
Proof. assert (E : op_names coef_spu1lr_1ch = ["doublet"; "triplet"]) by reflexivity. rewrite E. constructor; [left; reflexivity|]. constructor; [left; reflexivity|]. constructor. Qed.
Lemma iso_spu1lr_2ch : Forall (fun n => incomplete coef_spu1lr_2ch n = true \/ exists T, run_iso (mended coef_spu1lr_2ch) n T = true) (op_names coef_spu1lr_2ch).
Proof. assert (E : op_names coef_spu1lr_2ch = ["doublet"; "triplet"]) by reflexivity. rewrite E. constructor; [left; reflexivity|]. constructor; [left; reflexivity|]. constructor. Qed.
