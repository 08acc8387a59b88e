(** Evaluation of the anticommutator check of Coef_sector.v, with closed forms found by search (confirmed by the check). *)
From Verif Require Import Coef_spec Coef_sector Coef_sector_sound.
From Verif Require Import Coef_tab_ISO Coef_tab_ISO2.

Definition cert_iso_1ch := Eval vm_compute in find_certs coef_iso_1ch.
Lemma car_iso_1ch : run_car coef_iso_1ch cert_iso_1ch (components coef_iso_1ch) = true.
Proof. vm_cast_no_check (eq_refl true). Qed.
Definition cert_iso_2ch := Eval vm_compute in find_certs coef_iso_2ch.
Lemma car_iso_2ch : run_car coef_iso_2ch cert_iso_2ch (components coef_iso_2ch) = true.
Proof. vm_cast_no_check (eq_refl true). Qed.
Definition cert_iso_3ch := Eval vm_compute in find_certs coef_iso_3ch.
Lemma car_iso_3ch : run_car coef_iso_3ch cert_iso_3ch (components coef_iso_3ch) = true.
Proof. vm_cast_no_check (eq_refl true). Qed.
Definition cert_iso2_1ch := Eval vm_compute in find_certs coef_iso2_1ch.
Lemma car_iso2_1ch : run_car coef_iso2_1ch cert_iso2_1ch (components coef_iso2_1ch) = true.
Proof. vm_cast_no_check (eq_refl true). Qed.
Definition cert_iso2_2ch := Eval vm_compute in find_certs coef_iso2_2ch.
Lemma car_iso2_2ch : run_car coef_iso2_2ch cert_iso2_2ch (components coef_iso2_2ch) = true.
Proof. vm_cast_no_check (eq_refl true). Qed.
