(** Evaluation of the anticommutator check of Coef_sector.v, with closed forms found by search (confirmed by the check). *)
From Verif Require Import Coef_spec Coef_sector Coef_sector_sound.
From Verif Require Import Coef_tab_NONE Coef_tab_P Coef_tab_PP Coef_tab_U1 Coef_tab_SL Coef_tab_SL3 Coef_tab_QSZ Coef_tab_DBLQSZ Coef_tab_SPU1.

Definition cert_dblqsz_2ch := Eval vm_compute in find_certs coef_dblqsz_2ch.
Lemma car_dblqsz_2ch : run_car coef_dblqsz_2ch cert_dblqsz_2ch (components coef_dblqsz_2ch) = true.
Proof. vm_cast_no_check (eq_refl true). Qed.
Definition cert_none_1ch := Eval vm_compute in find_certs coef_none_1ch.
Lemma car_none_1ch : run_car coef_none_1ch cert_none_1ch (components coef_none_1ch) = true.
Proof. vm_cast_no_check (eq_refl true). Qed.
Definition cert_none_2ch := Eval vm_compute in find_certs coef_none_2ch.
Lemma car_none_2ch : run_car coef_none_2ch cert_none_2ch (components coef_none_2ch) = true.
Proof. vm_cast_no_check (eq_refl true). Qed.
Definition cert_p_1ch := Eval vm_compute in find_certs coef_p_1ch.
Lemma car_p_1ch : run_car coef_p_1ch cert_p_1ch (components coef_p_1ch) = true.
Proof. vm_cast_no_check (eq_refl true). Qed.
Definition cert_p_2ch := Eval vm_compute in find_certs coef_p_2ch.
Lemma car_p_2ch : run_car coef_p_2ch cert_p_2ch (components coef_p_2ch) = true.
Proof. vm_cast_no_check (eq_refl true). Qed.
Definition cert_pp_2ch := Eval vm_compute in find_certs coef_pp_2ch.
Lemma car_pp_2ch : run_car coef_pp_2ch cert_pp_2ch (components coef_pp_2ch) = true.
Proof. vm_cast_no_check (eq_refl true). Qed.
Definition cert_qsz_1ch := Eval vm_compute in find_certs coef_qsz_1ch.
Lemma car_qsz_1ch : run_car coef_qsz_1ch cert_qsz_1ch (components coef_qsz_1ch) = true.
Proof. vm_cast_no_check (eq_refl true). Qed.
Definition cert_qsz_2ch := Eval vm_compute in find_certs coef_qsz_2ch.
Lemma car_qsz_2ch : run_car coef_qsz_2ch cert_qsz_2ch (components coef_qsz_2ch) = true.
Proof. vm_cast_no_check (eq_refl true). Qed.
Definition cert_qsz_3ch := Eval vm_compute in find_certs coef_qsz_3ch.
Lemma car_qsz_3ch : run_car coef_qsz_3ch cert_qsz_3ch (components coef_qsz_3ch) = true.
Proof. vm_cast_no_check (eq_refl true). Qed.
Definition cert_sl_1ch := Eval vm_compute in find_certs coef_sl_1ch.
Lemma car_sl_1ch : run_car coef_sl_1ch cert_sl_1ch (components coef_sl_1ch) = true.
Proof. vm_cast_no_check (eq_refl true). Qed.
Definition cert_sl_2ch := Eval vm_compute in find_certs coef_sl_2ch.
Lemma car_sl_2ch : run_car coef_sl_2ch cert_sl_2ch (components coef_sl_2ch) = true.
Proof. vm_cast_no_check (eq_refl true). Qed.
Definition cert_sl_3ch := Eval vm_compute in find_certs coef_sl_3ch.
Lemma car_sl_3ch : run_car coef_sl_3ch cert_sl_3ch (components coef_sl_3ch) = true.
Proof. vm_cast_no_check (eq_refl true). Qed.
Definition cert_sl3_3ch := Eval vm_compute in find_certs coef_sl3_3ch.
Lemma car_sl3_3ch : run_car coef_sl3_3ch cert_sl3_3ch (components coef_sl3_3ch) = true.
Proof. vm_cast_no_check (eq_refl true). Qed.
Definition cert_spu1_1ch := Eval vm_compute in find_certs coef_spu1_1ch.
Lemma car_spu1_1ch : run_car coef_spu1_1ch cert_spu1_1ch (components coef_spu1_1ch) = true.
Proof. vm_cast_no_check (eq_refl true). Qed.
Definition cert_spu1_2ch := Eval vm_compute in find_certs coef_spu1_2ch.
Lemma car_spu1_2ch : run_car coef_spu1_2ch cert_spu1_2ch (components coef_spu1_2ch) = true.
Proof. vm_cast_no_check (eq_refl true). Qed.
Definition cert_u1_1ch := Eval vm_compute in find_certs coef_u1_1ch.
Lemma car_u1_1ch : run_car coef_u1_1ch cert_u1_1ch (components coef_u1_1ch) = true.
Proof. vm_cast_no_check (eq_refl true). Qed.
Definition cert_u1_2ch := Eval vm_compute in find_certs coef_u1_2ch.
Lemma car_u1_2ch : run_car coef_u1_2ch cert_u1_2ch (components coef_u1_2ch) = true.
Proof. vm_cast_no_check (eq_refl true). Qed.
Definition cert_u1_3ch := Eval vm_compute in find_certs coef_u1_3ch.
Lemma car_u1_3ch : run_car coef_u1_3ch cert_u1_3ch (components coef_u1_3ch) = true.
Proof. vm_cast_no_check (eq_refl true). Qed.
