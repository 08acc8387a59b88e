(** Evaluation of the anticommutator check of Coef_sector.v, with closed forms found by search (confirmed by the check). *)
From Verif Require Import Coef_spec Coef_sector Coef_sector_sound.
From Verif Require Import Coef_tab_QS.

Definition cert_qs_1ch := Eval vm_compute in find_certs coef_qs_1ch.
Lemma car_qs_1ch : run_car coef_qs_1ch cert_qs_1ch (components coef_qs_1ch) = true.
Proof. vm_cast_no_check (eq_refl true). Qed.
Definition cert_qs_2ch := Eval vm_compute in find_certs coef_qs_2ch.
Lemma car_qs_2ch : run_car coef_qs_2ch cert_qs_2ch (components coef_qs_2ch) = true.
Proof. vm_cast_no_check (eq_refl true). Qed.
Definition cert_qs_3ch := Eval vm_compute in find_certs coef_qs_3ch.
Lemma car_qs_3ch : run_car coef_qs_3ch cert_qs_3ch (components coef_qs_3ch) = true.
Proof. vm_cast_no_check (eq_refl true). Qed.
Definition cert_qs_4ch := Eval vm_compute in find_certs coef_qs_4ch.
Lemma car_qs_4ch : run_car coef_qs_4ch cert_qs_4ch (components coef_qs_4ch) = true.
Proof. vm_cast_no_check (eq_refl true). Qed.
