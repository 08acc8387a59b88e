(** Evaluation of the anticommutator check of Coef_sector.v, with closed forms found by search (confirmed by the check). *)
From Verif Require Import Coef_spec Coef_sector Coef_sector_sound.
From Verif Require Import Coef_tab_ISOLR Coef_tab_ISO2LR Coef_tab_ISOSZLR Coef_tab_QSLR Coef_tab_QSZLR Coef_tab_SPSU2LR Coef_tab_SPU1LR.

Definition cert_isolr_2ch := Eval vm_compute in find_certs coef_isolr_2ch.
Lemma car_isolr_2ch : run_car coef_isolr_2ch cert_isolr_2ch (components coef_isolr_2ch) = true.
Proof. vm_cast_no_check (eq_refl true). Qed.
Definition cert_iso2lr_2ch := Eval vm_compute in find_certs coef_iso2lr_2ch.
Lemma car_iso2lr_2ch : run_car coef_iso2lr_2ch cert_iso2lr_2ch (components coef_iso2lr_2ch) = true.
Proof. vm_cast_no_check (eq_refl true). Qed.
Definition cert_isoszlr_2ch := Eval vm_compute in find_certs coef_isoszlr_2ch.
Lemma car_isoszlr_2ch : run_car coef_isoszlr_2ch cert_isoszlr_2ch (components coef_isoszlr_2ch) = true.
Proof. vm_cast_no_check (eq_refl true). Qed.
Definition cert_qslr_2ch := Eval vm_compute in find_certs coef_qslr_2ch.
Lemma car_qslr_2ch : run_car coef_qslr_2ch cert_qslr_2ch (components coef_qslr_2ch) = true.
Proof. vm_cast_no_check (eq_refl true). Qed.
Definition cert_qszlr_2ch := Eval vm_compute in find_certs coef_qszlr_2ch.
Lemma car_qszlr_2ch : run_car coef_qszlr_2ch cert_qszlr_2ch (components coef_qszlr_2ch) = true.
Proof. vm_cast_no_check (eq_refl true). Qed.
Definition cert_spsu2lr_2ch := Eval vm_compute in find_certs coef_spsu2lr_2ch.
Lemma car_spsu2lr_2ch : run_car coef_spsu2lr_2ch cert_spsu2lr_2ch (components coef_spsu2lr_2ch) = true.
Proof. vm_cast_no_check (eq_refl true). Qed.
Definition cert_spu1lr_1ch := Eval vm_compute in find_certs coef_spu1lr_1ch.
Lemma car_spu1lr_1ch : run_car coef_spu1lr_1ch cert_spu1lr_1ch (components coef_spu1lr_1ch) = true.
Proof. vm_cast_no_check (eq_refl true). Qed.
Definition cert_spu1lr_2ch := Eval vm_compute in find_certs coef_spu1lr_2ch.
Lemma car_spu1lr_2ch : run_car coef_spu1lr_2ch cert_spu1lr_2ch (components coef_spu1lr_2ch) = true.
Proof. vm_cast_no_check (eq_refl true). Qed.
