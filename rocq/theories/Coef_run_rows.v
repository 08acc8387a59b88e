(** Evaluation of the checks of Coef_rows.v for all tables. *)
From Coq Require Import List.
From Verif Require Import Coef_rows Coef_tables.

Lemma rows_all : forallb check_rows all_coef = true.
Proof. vm_cast_no_check (eq_refl true). Qed.
