(** Generated by gen/gen_coef.py from /repo/c++/symmetry/{sym-SL-impl.hpp, nrg-recalc-SL.hpp, coefnew}. Do not edit. *)
From Coq Require Import List ZArith String.
From Verif Require Import Base Invar_model Symmetry_model Symmetry_tables Coef_model.
Import ListNotations.
Local Open Scope string_scope.
Local Open Scope list_scope.
Local Open Scope Z_scope.


(** /repo/c++/symmetry/nrg-recalc-SL.hpp recalc_doublet, sl/sl-1ch-doublet.dat *)
Definition sl_1ch_t0 : ten_table := mk_ten "doublet" [ShLin 0%nat 1 (-1)] [1] [
  (1, 1, [ShLin 0%nat 1 1], [ShLin 0%nat 1 0], Some (cN 1));
  (2, 2, [ShLin 0%nat 1 0], [ShLin 0%nat 1 (-1)], Some (cN (-1)))].
(** /repo/c++/symmetry/nrg-recalc-SL.hpp recalc_irreduc, sl/sl-1ch-a.dat *)
Definition sl_1ch_t1 : irr_table := mk_irr 0 0 [ShLin 0%nat 1 1]  [
  (2, 1, Some (cN 1))].
(** /repo/c++/symmetry/sym-SL-impl.hpp, make_matrix  *)
Definition sl_1ch_m0_o : list off_line := [
  (1, 2, 0, 0, "xi", Some (cN 1))].
(** /repo/c++/symmetry/sym-SL-impl.hpp, make_matrix  *)
Definition sl_1ch_m0_d : list diag_line := [
  (1, 0, "zeta", Some (cN 0));
  (2, 0, "zeta", Some (cN 1))].
(** /repo/c++/symmetry/sym-SL-impl.hpp, make_matrix  *)
Definition sl_1ch_m0_f : list dof_line := [
  ].
Definition coef_sl_1ch : coef_set := mk_coef "SL" 1%nat sym_SL {| tb_In := sl_1ch_In; tb_QN := sl_1ch_QN |}
  [sl_1ch_t1]
  [sl_1ch_t0]
  [mk_mode "default" sl_1ch_m0_o sl_1ch_m0_d sl_1ch_m0_f].
(** /repo/c++/symmetry/nrg-recalc-SL.hpp recalc_doublet, sl/sl-2ch-doublet.dat *)
Definition sl_2ch_t0 : ten_table := mk_ten "doublet" [ShLin 0%nat 1 (-1)] [1] [
  (1, 1, [ShLin 0%nat 1 2], [ShLin 0%nat 1 1], Some (cN 1));
  (2, 2, [ShLin 0%nat 1 1], [ShLin 0%nat 1 0], Some (cN (-1)));
  (3, 3, [ShLin 0%nat 1 1], [ShLin 0%nat 1 0], Some (cN (-1)));
  (4, 4, [ShLin 0%nat 1 0], [ShLin 0%nat 1 (-1)], Some (cN 1))].
(** /repo/c++/symmetry/nrg-recalc-SL.hpp recalc_irreduc, sl/sl-2ch-a.dat *)
Definition sl_2ch_t1 : irr_table := mk_irr 0 0 [ShLin 0%nat 1 1]  [
  (3, 1, Some (cN 1));
  (4, 2, Some (cN 1))].
(** /repo/c++/symmetry/nrg-recalc-SL.hpp recalc_irreduc, sl/sl-2ch-b.dat *)
Definition sl_2ch_t2 : irr_table := mk_irr 1 0 [ShLin 0%nat 1 1]  [
  (2, 1, Some (cN 1));
  (4, 3, Some (cN (-1)))].
(** /repo/c++/symmetry/sym-SL-impl.hpp, make_matrix  *)
Definition sl_2ch_m0_o : list off_line := [
  (1, 3, 0, 0, "xi", Some (cN 1));
  (2, 4, 0, 0, "xi", Some (cN (-1)));
  (1, 2, 1, 0, "xi", Some (cN 1));
  (3, 4, 1, 0, "xi", Some (cN 1))].
(** /repo/c++/symmetry/sym-SL-impl.hpp, make_matrix  *)
Definition sl_2ch_m0_d : list diag_line := [
  (1, 0, "zeta", Some (cN 0));
  (2, 0, "zeta", Some (cN 0));
  (3, 0, "zeta", Some (cN 1));
  (4, 0, "zeta", Some (cN 1));
  (1, 1, "zeta", Some (cN 0));
  (2, 1, "zeta", Some (cN 1));
  (3, 1, "zeta", Some (cN 0));
  (4, 1, "zeta", Some (cN 1))].
(** /repo/c++/symmetry/sym-SL-impl.hpp, make_matrix  *)
Definition sl_2ch_m0_f : list dof_line := [
  ].
Definition coef_sl_2ch : coef_set := mk_coef "SL" 2%nat sym_SL {| tb_In := sl_2ch_In; tb_QN := sl_2ch_QN |}
  [sl_2ch_t1; sl_2ch_t2]
  [sl_2ch_t0]
  [mk_mode "default" sl_2ch_m0_o sl_2ch_m0_d sl_2ch_m0_f].
(** /repo/c++/symmetry/nrg-recalc-SL.hpp recalc_doublet, sl/sl-3ch-doublet.dat *)
Definition sl_3ch_t0 : ten_table := mk_ten "doublet" [ShLin 0%nat 1 (-1)] [1] [
  (1, 1, [ShLin 0%nat 1 3], [ShLin 0%nat 1 2], Some (cN 1));
  (2, 2, [ShLin 0%nat 1 2], [ShLin 0%nat 1 1], Some (cN (-1)));
  (3, 3, [ShLin 0%nat 1 2], [ShLin 0%nat 1 1], Some (cN (-1)));
  (4, 4, [ShLin 0%nat 1 2], [ShLin 0%nat 1 1], Some (cN (-1)));
  (5, 5, [ShLin 0%nat 1 1], [ShLin 0%nat 1 0], Some (cN 1));
  (6, 6, [ShLin 0%nat 1 1], [ShLin 0%nat 1 0], Some (cN 1));
  (7, 7, [ShLin 0%nat 1 1], [ShLin 0%nat 1 0], Some (cN 1));
  (8, 8, [ShLin 0%nat 1 0], [ShLin 0%nat 1 (-1)], Some (cN (-1)))].
(** /repo/c++/symmetry/nrg-recalc-SL.hpp recalc_irreduc, sl/sl-3ch-a.dat *)
Definition sl_3ch_t1 : irr_table := mk_irr 0 0 [ShLin 0%nat 1 1]  [
  (4, 1, Some (cN 1));
  (6, 2, Some (cN 1));
  (7, 3, Some (cN 1));
  (8, 5, Some (cN 1))].
(** /repo/c++/symmetry/nrg-recalc-SL.hpp recalc_irreduc, sl/sl-3ch-b.dat *)
Definition sl_3ch_t2 : irr_table := mk_irr 1 0 [ShLin 0%nat 1 1]  [
  (3, 1, Some (cN 1));
  (5, 2, Some (cN 1));
  (7, 4, Some (cN (-1)));
  (8, 6, Some (cN (-1)))].
(** /repo/c++/symmetry/nrg-recalc-SL.hpp recalc_irreduc, sl/sl-3ch-c.dat *)
Definition sl_3ch_t3 : irr_table := mk_irr 2 0 [ShLin 0%nat 1 1]  [
  (2, 1, Some (cN 1));
  (5, 3, Some (cN (-1)));
  (6, 4, Some (cN (-1)));
  (8, 7, Some (cN 1))].
(** /repo/c++/symmetry/sym-SL-impl.hpp, make_matrix  *)
Definition sl_3ch_m0_o : list off_line := [
  (1, 4, 0, 0, "xi", Some (cN 1));
  (2, 6, 0, 0, "xi", Some (cN (-1)));
  (3, 7, 0, 0, "xi", Some (cN (-1)));
  (5, 8, 0, 0, "xi", Some (cN 1));
  (1, 3, 1, 0, "xi", Some (cN 1));
  (2, 5, 1, 0, "xi", Some (cN (-1)));
  (4, 7, 1, 0, "xi", Some (cN 1));
  (6, 8, 1, 0, "xi", Some (cN (-1)));
  (1, 2, 2, 0, "xi", Some (cN 1));
  (3, 5, 2, 0, "xi", Some (cN 1));
  (4, 6, 2, 0, "xi", Some (cN 1));
  (7, 8, 2, 0, "xi", Some (cN 1))].
(** /repo/c++/symmetry/sym-SL-impl.hpp, make_matrix  *)
Definition sl_3ch_m0_d : list diag_line := [
  (1, 0, "zeta", Some (cN 0));
  (2, 0, "zeta", Some (cN 0));
  (3, 0, "zeta", Some (cN 0));
  (4, 0, "zeta", Some (cN 1));
  (5, 0, "zeta", Some (cN 0));
  (6, 0, "zeta", Some (cN 1));
  (7, 0, "zeta", Some (cN 1));
  (8, 0, "zeta", Some (cN 1));
  (1, 1, "zeta", Some (cN 0));
  (2, 1, "zeta", Some (cN 0));
  (3, 1, "zeta", Some (cN 1));
  (4, 1, "zeta", Some (cN 0));
  (5, 1, "zeta", Some (cN 1));
  (6, 1, "zeta", Some (cN 0));
  (7, 1, "zeta", Some (cN 1));
  (8, 1, "zeta", Some (cN 1));
  (1, 2, "zeta", Some (cN 0));
  (2, 2, "zeta", Some (cN 1));
  (3, 2, "zeta", Some (cN 0));
  (4, 2, "zeta", Some (cN 0));
  (5, 2, "zeta", Some (cN 1));
  (6, 2, "zeta", Some (cN 1));
  (7, 2, "zeta", Some (cN 0));
  (8, 2, "zeta", Some (cN 1))].
(** /repo/c++/symmetry/sym-SL-impl.hpp, make_matrix  *)
Definition sl_3ch_m0_f : list dof_line := [
  ].
Definition coef_sl_3ch : coef_set := mk_coef "SL" 3%nat sym_SL {| tb_In := sl_3ch_In; tb_QN := sl_3ch_QN |}
  [sl_3ch_t1; sl_3ch_t2; sl_3ch_t3]
  [sl_3ch_t0]
  [mk_mode "default" sl_3ch_m0_o sl_3ch_m0_d sl_3ch_m0_f].
