(** Evaluation of the anticommutator check of Coef_sector.v, with closed forms found by search (confirmed by the check). *)
From Verif Require Import Coef_spec Coef_sector Coef_sector_sound.
From Verif Require Import Coef_tab_QST Coef_tab_QSTZ Coef_tab_QSZTZ.

Definition cert_qst := Eval vm_compute in find_certs coef_qst.
Lemma car_qst : run_car coef_qst cert_qst (components coef_qst) = true.
Proof. vm_cast_no_check (eq_refl true). Qed.
Definition cert_qstz := Eval vm_compute in find_certs coef_qstz.
Lemma car_qstz : run_car coef_qstz cert_qstz (components coef_qstz) = true.
Proof. vm_cast_no_check (eq_refl true). Qed.
Definition cert_qsztz := Eval vm_compute in find_certs coef_qsztz.
Lemma car_qsztz : run_car coef_qsztz cert_qsztz (components coef_qsztz) = true.
Proof. vm_cast_no_check (eq_refl true). Qed.
