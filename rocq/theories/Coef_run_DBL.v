(** Evaluation of the anticommutator check of Coef_sector.v, with closed forms found by search (confirmed by the check). *)
From Verif Require Import Coef_spec Coef_sector Coef_sector_sound.
From Verif Require Import Coef_tab_DBLISOSZ Coef_tab_DBLSU2 Coef_tab_ISOSZ Coef_tab_SU2.

Definition cert_dblisosz_2ch := Eval vm_compute in find_certs coef_dblisosz_2ch.
Lemma car_dblisosz_2ch : run_car coef_dblisosz_2ch cert_dblisosz_2ch (components coef_dblisosz_2ch) = true.
Proof. vm_cast_no_check (eq_refl true). Qed.
Definition cert_dblsu2_2ch := Eval vm_compute in find_certs coef_dblsu2_2ch.
Lemma car_dblsu2_2ch : run_car coef_dblsu2_2ch cert_dblsu2_2ch (components coef_dblsu2_2ch) = true.
Proof. vm_cast_no_check (eq_refl true). Qed.
Definition cert_isosz_1ch := Eval vm_compute in find_certs coef_isosz_1ch.
Lemma car_isosz_1ch : run_car coef_isosz_1ch cert_isosz_1ch (components coef_isosz_1ch) = true.
Proof. vm_cast_no_check (eq_refl true). Qed.
Definition cert_isosz_2ch := Eval vm_compute in find_certs coef_isosz_2ch.
Lemma car_isosz_2ch : run_car coef_isosz_2ch cert_isosz_2ch (components coef_isosz_2ch) = true.
Proof. vm_cast_no_check (eq_refl true). Qed.
Definition cert_su2_1ch := Eval vm_compute in find_certs coef_su2_1ch.
Lemma car_su2_1ch : run_car coef_su2_1ch cert_su2_1ch (components coef_su2_1ch) = true.
Proof. vm_cast_no_check (eq_refl true). Qed.
Definition cert_su2_2ch := Eval vm_compute in find_certs coef_su2_2ch.
Lemma car_su2_2ch : run_car coef_su2_2ch cert_su2_2ch (components coef_su2_2ch) = true.
Proof. vm_cast_no_check (eq_refl true). Qed.
