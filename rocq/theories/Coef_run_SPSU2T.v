(** Evaluation of the anticommutator check of Coef_sector.v, with closed forms found by search (confirmed by the check). *)
From Verif Require Import Coef_spec Coef_sector Coef_sector_sound.
From Verif Require Import Coef_tab_SPSU2T Coef_tab_SPSU2.

Definition cert_spsu2_1ch := Eval vm_compute in find_certs coef_spsu2_1ch.
Lemma car_spsu2_1ch : run_car coef_spsu2_1ch cert_spsu2_1ch (components coef_spsu2_1ch) = true.
Proof. vm_cast_no_check (eq_refl true). Qed.
Definition cert_spsu2_2ch := Eval vm_compute in find_certs coef_spsu2_2ch.
Lemma car_spsu2_2ch : run_car coef_spsu2_2ch cert_spsu2_2ch (components coef_spsu2_2ch) = true.
Proof. vm_cast_no_check (eq_refl true). Qed.
Definition cert_spsu2_3ch := Eval vm_compute in find_certs coef_spsu2_3ch.
Lemma car_spsu2_3ch : run_car coef_spsu2_3ch cert_spsu2_3ch (components coef_spsu2_3ch) = true.
Proof. vm_cast_no_check (eq_refl true). Qed.
Definition cert_spsu2t := Eval vm_compute in find_certs coef_spsu2t.
Lemma car_spsu2t : run_car coef_spsu2t cert_spsu2t (components coef_spsu2t) = true.
Proof. vm_cast_no_check (eq_refl true). Qed.
