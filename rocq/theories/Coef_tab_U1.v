(** Generated by gen/gen_coef.py from /repo/c++/symmetry/{sym-U1-impl.hpp, nrg-recalc-U1.hpp, coefnew}. Do not edit. *)
From Coq Require Import List ZArith String.
From Verif Require Import Base Invar_model Symmetry_model Symmetry_tables Coef_model.
Import ListNotations.
Local Open Scope string_scope.
Local Open Scope list_scope.
Local Open Scope Z_scope.


(** /repo/c++/symmetry/nrg-recalc-U1.hpp recalc_doublet, u1/u1-1ch-doublet.dat *)
Definition u1_1ch_t0 : ten_table := mk_ten "doublet" [ShLin 0%nat 1 (-1)] [1] [
  (1, 1, [ShLin 0%nat 1 1], [ShLin 0%nat 1 0], Some (cN 1));
  (2, 2, [ShLin 0%nat 1 0], [ShLin 0%nat 1 (-1)], Some (cN (-1)));
  (3, 3, [ShLin 0%nat 1 0], [ShLin 0%nat 1 (-1)], Some (cN (-1)));
  (4, 4, [ShLin 0%nat 1 (-1)], [ShLin 0%nat 1 (-2)], Some (cN 1))].
(** /repo/c++/symmetry/nrg-recalc-U1.hpp recalc_irreduc, u1/u1-1ch-a-DO.dat *)
Definition u1_1ch_t1 : irr_table := mk_irr 0 1 [ShLin 0%nat 1 1]  [
  (2, 1, Some (cN 1));
  (4, 3, Some (cN (-1)))].
(** /repo/c++/symmetry/nrg-recalc-U1.hpp recalc_irreduc, u1/u1-1ch-a-UP.dat *)
Definition u1_1ch_t2 : irr_table := mk_irr 0 0 [ShLin 0%nat 1 1]  [
  (3, 1, Some (cN 1));
  (4, 2, Some (cN 1))].
(** /repo/c++/symmetry/sym-U1-impl.hpp, make_matrix_polarized  *)
Definition u1_1ch_m0_o : list off_line := [
  (1, 3, 0, 0, "xiUP", Some (cN 1));
  (2, 4, 0, 0, "xiUP", Some (cN (-1)));
  (1, 2, 0, 1, "xiDOWN", Some (cN 1));
  (3, 4, 0, 1, "xiDOWN", Some (cN 1))].
(** /repo/c++/symmetry/sym-U1-impl.hpp, make_matrix_polarized  *)
Definition u1_1ch_m0_d : list diag_line := [
  (1, 0, "zetaUP half", Some (cN 0));
  (2, 0, "zetaUP half", Some (cN 0));
  (3, 0, "zetaUP half", Some (cN 1));
  (4, 0, "zetaUP half", Some (cN 1));
  (1, 0, "zetaDOWN half", Some (cN 0));
  (2, 0, "zetaDOWN half", Some (cN 1));
  (3, 0, "zetaDOWN half", Some (cN 0));
  (4, 0, "zetaDOWN half", Some (cN 1))].
(** /repo/c++/symmetry/sym-U1-impl.hpp, make_matrix_polarized  *)
Definition u1_1ch_m0_f : list dof_line := [
  ].
(** /repo/c++/symmetry/sym-U1-impl.hpp, make_matrix_pol2x2  *)
Definition u1_1ch_m1_o : list off_line := [
  (1, 3, 0, 0, "xiUP", Some (cN 1));
  (2, 4, 0, 0, "xiUP", Some (cN (-1)));
  (1, 2, 0, 1, "xiDOWN", Some (cN 1));
  (3, 4, 0, 1, "xiDOWN", Some (cN 1));
  (1, 2, 0, 0, "xiUPDO", Some (cN 1));
  (3, 4, 0, 0, "xiUPDO", Some (cN 1));
  (1, 3, 0, 1, "xiDOUP", Some (cN 1));
  (2, 4, 0, 1, "xiDOUP", Some (cN (-1)))].
(** /repo/c++/symmetry/sym-U1-impl.hpp, make_matrix_pol2x2  *)
Definition u1_1ch_m1_d : list diag_line := [
  (1, 0, "zetaUP half", Some (cN 0));
  (2, 0, "zetaUP half", Some (cN 0));
  (3, 0, "zetaUP half", Some (cN 1));
  (4, 0, "zetaUP half", Some (cN 1));
  (1, 0, "zetaDOWN half", Some (cN 0));
  (2, 0, "zetaDOWN half", Some (cN 1));
  (3, 0, "zetaDOWN half", Some (cN 0));
  (4, 0, "zetaDOWN half", Some (cN 1))].
(** /repo/c++/symmetry/sym-U1-impl.hpp, make_matrix_pol2x2  *)
Definition u1_1ch_m1_f : list dof_line := [
  (1, 1, 0, "zetaDOUP", Some (cN 0));
  (2, 2, 0, "zetaDOUP", Some (cN 0));
  (2, 3, 0, "zetaDOUP", Some (cN 1));
  (3, 3, 0, "zetaDOUP", Some (cN 0));
  (4, 4, 0, "zetaDOUP", Some (cN 0))].
(** /repo/c++/symmetry/sym-U1-impl.hpp, make_matrix_nonpolarized  *)
Definition u1_1ch_m2_o : list off_line := [
  (1, 3, 0, 1, "xi", Some (cN 1));
  (2, 4, 0, 1, "xi", Some (cN (-1)));
  (1, 2, 0, 0, "xi", Some (cN 1));
  (3, 4, 0, 0, "xi", Some (cN 1))].
(** /repo/c++/symmetry/sym-U1-impl.hpp, make_matrix_nonpolarized  *)
Definition u1_1ch_m2_d : list diag_line := [
  (1, 0, "zeta", Some (cN 0));
  (2, 0, "zeta", Some (cN 1));
  (3, 0, "zeta", Some (cN 1));
  (4, 0, "zeta", Some (cN 2))].
(** /repo/c++/symmetry/sym-U1-impl.hpp, make_matrix_nonpolarized  *)
Definition u1_1ch_m2_f : list dof_line := [
  ].
Definition coef_u1_1ch : coef_set := mk_coef "U1" 1%nat sym_U1 {| tb_In := u1_1ch_In; tb_QN := u1_1ch_QN |}
  [u1_1ch_t1; u1_1ch_t2]
  [u1_1ch_t0]
  [mk_mode "polarized" u1_1ch_m0_o u1_1ch_m0_d u1_1ch_m0_f;
   mk_mode "pol2x2" u1_1ch_m1_o u1_1ch_m1_d u1_1ch_m1_f;
   mk_mode "nonpolarized" u1_1ch_m2_o u1_1ch_m2_d u1_1ch_m2_f].
(** /repo/c++/symmetry/nrg-recalc-U1.hpp recalc_doublet, u1/u1-2ch-doublet.dat *)
Definition u1_2ch_t0 : ten_table := mk_ten "doublet" [ShLin 0%nat 1 (-1)] [1] [
  (1, 1, [ShLin 0%nat 1 2], [ShLin 0%nat 1 1], Some (cN 1));
  (2, 2, [ShLin 0%nat 1 1], [ShLin 0%nat 1 0], Some (cN (-1)));
  (3, 3, [ShLin 0%nat 1 1], [ShLin 0%nat 1 0], Some (cN (-1)));
  (4, 4, [ShLin 0%nat 1 1], [ShLin 0%nat 1 0], Some (cN (-1)));
  (5, 5, [ShLin 0%nat 1 1], [ShLin 0%nat 1 0], Some (cN (-1)));
  (6, 6, [ShLin 0%nat 1 0], [ShLin 0%nat 1 (-1)], Some (cN 1));
  (7, 7, [ShLin 0%nat 1 0], [ShLin 0%nat 1 (-1)], Some (cN 1));
  (8, 8, [ShLin 0%nat 1 0], [ShLin 0%nat 1 (-1)], Some (cN 1));
  (9, 9, [ShLin 0%nat 1 0], [ShLin 0%nat 1 (-1)], Some (cN 1));
  (10, 10, [ShLin 0%nat 1 0], [ShLin 0%nat 1 (-1)], Some (cN 1));
  (11, 11, [ShLin 0%nat 1 0], [ShLin 0%nat 1 (-1)], Some (cN 1));
  (12, 12, [ShLin 0%nat 1 (-1)], [ShLin 0%nat 1 (-2)], Some (cN (-1)));
  (13, 13, [ShLin 0%nat 1 (-1)], [ShLin 0%nat 1 (-2)], Some (cN (-1)));
  (14, 14, [ShLin 0%nat 1 (-1)], [ShLin 0%nat 1 (-2)], Some (cN (-1)));
  (15, 15, [ShLin 0%nat 1 (-1)], [ShLin 0%nat 1 (-2)], Some (cN (-1)));
  (16, 16, [ShLin 0%nat 1 (-2)], [ShLin 0%nat 1 (-3)], Some (cN 1))].
(** /repo/c++/symmetry/nrg-recalc-U1.hpp recalc_irreduc, u1/u1-2ch-a-DO.dat *)
Definition u1_2ch_t1 : irr_table := mk_irr 0 1 [ShLin 0%nat 1 1]  [
  (4, 1, Some (cN 1));
  (7, 2, Some (cN 1));
  (8, 3, Some (cN 1));
  (11, 5, Some (cN (-1)));
  (12, 6, Some (cN 1));
  (14, 9, Some (cN (-1)));
  (15, 10, Some (cN (-1)));
  (16, 13, Some (cN (-1)))].
(** /repo/c++/symmetry/nrg-recalc-U1.hpp recalc_irreduc, u1/u1-2ch-b-DO.dat *)
Definition u1_2ch_t2 : irr_table := mk_irr 1 1 [ShLin 0%nat 1 1]  [
  (2, 1, Some (cN 1));
  (6, 3, Some (cN (-1)));
  (7, 4, Some (cN (-1)));
  (9, 5, Some (cN (-1)));
  (12, 8, Some (cN 1));
  (13, 10, Some (cN 1));
  (14, 11, Some (cN 1));
  (16, 15, Some (cN (-1)))].
(** /repo/c++/symmetry/nrg-recalc-U1.hpp recalc_irreduc, u1/u1-2ch-a-UP.dat *)
Definition u1_2ch_t3 : irr_table := mk_irr 0 0 [ShLin 0%nat 1 1]  [
  (5, 1, Some (cN 1));
  (9, 2, Some (cN 1));
  (10, 3, Some (cN 1));
  (11, 4, Some (cN 1));
  (13, 6, Some (cN 1));
  (14, 7, Some (cN 1));
  (15, 8, Some (cN 1));
  (16, 12, Some (cN 1))].
(** /repo/c++/symmetry/nrg-recalc-U1.hpp recalc_irreduc, u1/u1-2ch-b-UP.dat *)
Definition u1_2ch_t4 : irr_table := mk_irr 1 0 [ShLin 0%nat 1 1]  [
  (3, 1, Some (cN 1));
  (6, 2, Some (cN 1));
  (8, 4, Some (cN (-1)));
  (10, 5, Some (cN (-1)));
  (12, 7, Some (cN (-1)));
  (13, 9, Some (cN (-1)));
  (15, 11, Some (cN 1));
  (16, 14, Some (cN 1))].
(** /repo/c++/symmetry/sym-U1-impl.hpp, make_matrix_polarized  *)
Definition u1_2ch_m0_o : list off_line := [
  (1, 5, 0, 0, "xiUP", Some (cN 1));
  (2, 9, 0, 0, "xiUP", Some (cN (-1)));
  (3, 10, 0, 0, "xiUP", Some (cN (-1)));
  (4, 11, 0, 0, "xiUP", Some (cN (-1)));
  (6, 13, 0, 0, "xiUP", Some (cN 1));
  (7, 14, 0, 0, "xiUP", Some (cN 1));
  (8, 15, 0, 0, "xiUP", Some (cN 1));
  (12, 16, 0, 0, "xiUP", Some (cN (-1)));
  (1, 3, 1, 0, "xiUP", Some (cN 1));
  (2, 6, 1, 0, "xiUP", Some (cN (-1)));
  (4, 8, 1, 0, "xiUP", Some (cN 1));
  (5, 10, 1, 0, "xiUP", Some (cN 1));
  (7, 12, 1, 0, "xiUP", Some (cN (-1)));
  (9, 13, 1, 0, "xiUP", Some (cN (-1)));
  (11, 15, 1, 0, "xiUP", Some (cN 1));
  (14, 16, 1, 0, "xiUP", Some (cN (-1)));
  (1, 4, 0, 1, "xiDOWN", Some (cN 1));
  (2, 7, 0, 1, "xiDOWN", Some (cN (-1)));
  (3, 8, 0, 1, "xiDOWN", Some (cN (-1)));
  (5, 11, 0, 1, "xiDOWN", Some (cN 1));
  (6, 12, 0, 1, "xiDOWN", Some (cN 1));
  (9, 14, 0, 1, "xiDOWN", Some (cN (-1)));
  (10, 15, 0, 1, "xiDOWN", Some (cN (-1)));
  (13, 16, 0, 1, "xiDOWN", Some (cN 1));
  (1, 2, 1, 1, "xiDOWN", Some (cN 1));
  (3, 6, 1, 1, "xiDOWN", Some (cN 1));
  (4, 7, 1, 1, "xiDOWN", Some (cN 1));
  (5, 9, 1, 1, "xiDOWN", Some (cN 1));
  (8, 12, 1, 1, "xiDOWN", Some (cN 1));
  (10, 13, 1, 1, "xiDOWN", Some (cN 1));
  (11, 14, 1, 1, "xiDOWN", Some (cN 1));
  (15, 16, 1, 1, "xiDOWN", Some (cN 1))].
(** /repo/c++/symmetry/sym-U1-impl.hpp, make_matrix_polarized  *)
Definition u1_2ch_m0_d : list diag_line := [
  (1, 0, "zetaUP half", Some (cN 0));
  (2, 0, "zetaUP half", Some (cN 0));
  (3, 0, "zetaUP half", Some (cN 0));
  (4, 0, "zetaUP half", Some (cN 0));
  (5, 0, "zetaUP half", Some (cN 1));
  (6, 0, "zetaUP half", Some (cN 0));
  (7, 0, "zetaUP half", Some (cN 0));
  (8, 0, "zetaUP half", Some (cN 0));
  (9, 0, "zetaUP half", Some (cN 1));
  (10, 0, "zetaUP half", Some (cN 1));
  (11, 0, "zetaUP half", Some (cN 1));
  (12, 0, "zetaUP half", Some (cN 0));
  (13, 0, "zetaUP half", Some (cN 1));
  (14, 0, "zetaUP half", Some (cN 1));
  (15, 0, "zetaUP half", Some (cN 1));
  (16, 0, "zetaUP half", Some (cN 1));
  (1, 1, "zetaUP half", Some (cN 0));
  (2, 1, "zetaUP half", Some (cN 0));
  (3, 1, "zetaUP half", Some (cN 1));
  (4, 1, "zetaUP half", Some (cN 0));
  (5, 1, "zetaUP half", Some (cN 0));
  (6, 1, "zetaUP half", Some (cN 1));
  (7, 1, "zetaUP half", Some (cN 0));
  (8, 1, "zetaUP half", Some (cN 1));
  (9, 1, "zetaUP half", Some (cN 0));
  (10, 1, "zetaUP half", Some (cN 1));
  (11, 1, "zetaUP half", Some (cN 0));
  (12, 1, "zetaUP half", Some (cN 1));
  (13, 1, "zetaUP half", Some (cN 1));
  (14, 1, "zetaUP half", Some (cN 0));
  (15, 1, "zetaUP half", Some (cN 1));
  (16, 1, "zetaUP half", Some (cN 1));
  (1, 0, "zetaDOWN half", Some (cN 0));
  (2, 0, "zetaDOWN half", Some (cN 0));
  (3, 0, "zetaDOWN half", Some (cN 0));
  (4, 0, "zetaDOWN half", Some (cN 1));
  (5, 0, "zetaDOWN half", Some (cN 0));
  (6, 0, "zetaDOWN half", Some (cN 0));
  (7, 0, "zetaDOWN half", Some (cN 1));
  (8, 0, "zetaDOWN half", Some (cN 1));
  (9, 0, "zetaDOWN half", Some (cN 0));
  (10, 0, "zetaDOWN half", Some (cN 0));
  (11, 0, "zetaDOWN half", Some (cN 1));
  (12, 0, "zetaDOWN half", Some (cN 1));
  (13, 0, "zetaDOWN half", Some (cN 0));
  (14, 0, "zetaDOWN half", Some (cN 1));
  (15, 0, "zetaDOWN half", Some (cN 1));
  (16, 0, "zetaDOWN half", Some (cN 1));
  (1, 1, "zetaDOWN half", Some (cN 0));
  (2, 1, "zetaDOWN half", Some (cN 1));
  (3, 1, "zetaDOWN half", Some (cN 0));
  (4, 1, "zetaDOWN half", Some (cN 0));
  (5, 1, "zetaDOWN half", Some (cN 0));
  (6, 1, "zetaDOWN half", Some (cN 1));
  (7, 1, "zetaDOWN half", Some (cN 1));
  (8, 1, "zetaDOWN half", Some (cN 0));
  (9, 1, "zetaDOWN half", Some (cN 1));
  (10, 1, "zetaDOWN half", Some (cN 0));
  (11, 1, "zetaDOWN half", Some (cN 0));
  (12, 1, "zetaDOWN half", Some (cN 1));
  (13, 1, "zetaDOWN half", Some (cN 1));
  (14, 1, "zetaDOWN half", Some (cN 1));
  (15, 1, "zetaDOWN half", Some (cN 0));
  (16, 1, "zetaDOWN half", Some (cN 1))].
(** /repo/c++/symmetry/sym-U1-impl.hpp, make_matrix_polarized  *)
Definition u1_2ch_m0_f : list dof_line := [
  ].
(** /repo/c++/symmetry/sym-U1-impl.hpp, make_matrix_pol2x2  *)
Definition u1_2ch_m1_o : list off_line := [
  (1, 5, 0, 0, "xiUP", Some (cN 1));
  (2, 9, 0, 0, "xiUP", Some (cN (-1)));
  (3, 10, 0, 0, "xiUP", Some (cN (-1)));
  (4, 11, 0, 0, "xiUP", Some (cN (-1)));
  (6, 13, 0, 0, "xiUP", Some (cN 1));
  (7, 14, 0, 0, "xiUP", Some (cN 1));
  (8, 15, 0, 0, "xiUP", Some (cN 1));
  (12, 16, 0, 0, "xiUP", Some (cN (-1)));
  (1, 3, 1, 0, "xiUP", Some (cN 1));
  (2, 6, 1, 0, "xiUP", Some (cN (-1)));
  (4, 8, 1, 0, "xiUP", Some (cN 1));
  (5, 10, 1, 0, "xiUP", Some (cN 1));
  (7, 12, 1, 0, "xiUP", Some (cN (-1)));
  (9, 13, 1, 0, "xiUP", Some (cN (-1)));
  (11, 15, 1, 0, "xiUP", Some (cN 1));
  (14, 16, 1, 0, "xiUP", Some (cN (-1)));
  (1, 4, 0, 1, "xiDOWN", Some (cN 1));
  (2, 7, 0, 1, "xiDOWN", Some (cN (-1)));
  (3, 8, 0, 1, "xiDOWN", Some (cN (-1)));
  (5, 11, 0, 1, "xiDOWN", Some (cN 1));
  (6, 12, 0, 1, "xiDOWN", Some (cN 1));
  (9, 14, 0, 1, "xiDOWN", Some (cN (-1)));
  (10, 15, 0, 1, "xiDOWN", Some (cN (-1)));
  (13, 16, 0, 1, "xiDOWN", Some (cN 1));
  (1, 2, 1, 1, "xiDOWN", Some (cN 1));
  (3, 6, 1, 1, "xiDOWN", Some (cN 1));
  (4, 7, 1, 1, "xiDOWN", Some (cN 1));
  (5, 9, 1, 1, "xiDOWN", Some (cN 1));
  (8, 12, 1, 1, "xiDOWN", Some (cN 1));
  (10, 13, 1, 1, "xiDOWN", Some (cN 1));
  (11, 14, 1, 1, "xiDOWN", Some (cN 1));
  (15, 16, 1, 1, "xiDOWN", Some (cN 1));
  (1, 4, 0, 0, "xiUPDO", Some (cN 1));
  (2, 7, 0, 0, "xiUPDO", Some (cN (-1)));
  (3, 8, 0, 0, "xiUPDO", Some (cN (-1)));
  (5, 11, 0, 0, "xiUPDO", Some (cN 1));
  (6, 12, 0, 0, "xiUPDO", Some (cN 1));
  (9, 14, 0, 0, "xiUPDO", Some (cN (-1)));
  (10, 15, 0, 0, "xiUPDO", Some (cN (-1)));
  (13, 16, 0, 0, "xiUPDO", Some (cN 1));
  (1, 2, 1, 0, "xiUPDO", Some (cN 1));
  (3, 6, 1, 0, "xiUPDO", Some (cN 1));
  (4, 7, 1, 0, "xiUPDO", Some (cN 1));
  (5, 9, 1, 0, "xiUPDO", Some (cN 1));
  (8, 12, 1, 0, "xiUPDO", Some (cN 1));
  (10, 13, 1, 0, "xiUPDO", Some (cN 1));
  (11, 14, 1, 0, "xiUPDO", Some (cN 1));
  (15, 16, 1, 0, "xiUPDO", Some (cN 1));
  (1, 5, 0, 1, "xiDOUP", Some (cN 1));
  (2, 9, 0, 1, "xiDOUP", Some (cN (-1)));
  (3, 10, 0, 1, "xiDOUP", Some (cN (-1)));
  (4, 11, 0, 1, "xiDOUP", Some (cN (-1)));
  (6, 13, 0, 1, "xiDOUP", Some (cN 1));
  (7, 14, 0, 1, "xiDOUP", Some (cN 1));
  (8, 15, 0, 1, "xiDOUP", Some (cN 1));
  (12, 16, 0, 1, "xiDOUP", Some (cN (-1)));
  (1, 3, 1, 1, "xiDOUP", Some (cN 1));
  (2, 6, 1, 1, "xiDOUP", Some (cN (-1)));
  (4, 8, 1, 1, "xiDOUP", Some (cN 1));
  (5, 10, 1, 1, "xiDOUP", Some (cN 1));
  (7, 12, 1, 1, "xiDOUP", Some (cN (-1)));
  (9, 13, 1, 1, "xiDOUP", Some (cN (-1)));
  (11, 15, 1, 1, "xiDOUP", Some (cN 1));
  (14, 16, 1, 1, "xiDOUP", Some (cN (-1)))].
(** /repo/c++/symmetry/sym-U1-impl.hpp, make_matrix_pol2x2  *)
Definition u1_2ch_m1_d : list diag_line := [
  (1, 0, "zetaUP half", Some (cN 0));
  (2, 0, "zetaUP half", Some (cN 0));
  (3, 0, "zetaUP half", Some (cN 0));
  (4, 0, "zetaUP half", Some (cN 0));
  (5, 0, "zetaUP half", Some (cN 1));
  (6, 0, "zetaUP half", Some (cN 0));
  (7, 0, "zetaUP half", Some (cN 0));
  (8, 0, "zetaUP half", Some (cN 0));
  (9, 0, "zetaUP half", Some (cN 1));
  (10, 0, "zetaUP half", Some (cN 1));
  (11, 0, "zetaUP half", Some (cN 1));
  (12, 0, "zetaUP half", Some (cN 0));
  (13, 0, "zetaUP half", Some (cN 1));
  (14, 0, "zetaUP half", Some (cN 1));
  (15, 0, "zetaUP half", Some (cN 1));
  (16, 0, "zetaUP half", Some (cN 1));
  (1, 1, "zetaUP half", Some (cN 0));
  (2, 1, "zetaUP half", Some (cN 0));
  (3, 1, "zetaUP half", Some (cN 1));
  (4, 1, "zetaUP half", Some (cN 0));
  (5, 1, "zetaUP half", Some (cN 0));
  (6, 1, "zetaUP half", Some (cN 1));
  (7, 1, "zetaUP half", Some (cN 0));
  (8, 1, "zetaUP half", Some (cN 1));
  (9, 1, "zetaUP half", Some (cN 0));
  (10, 1, "zetaUP half", Some (cN 1));
  (11, 1, "zetaUP half", Some (cN 0));
  (12, 1, "zetaUP half", Some (cN 1));
  (13, 1, "zetaUP half", Some (cN 1));
  (14, 1, "zetaUP half", Some (cN 0));
  (15, 1, "zetaUP half", Some (cN 1));
  (16, 1, "zetaUP half", Some (cN 1));
  (1, 0, "zetaDOWN half", Some (cN 0));
  (2, 0, "zetaDOWN half", Some (cN 0));
  (3, 0, "zetaDOWN half", Some (cN 0));
  (4, 0, "zetaDOWN half", Some (cN 1));
  (5, 0, "zetaDOWN half", Some (cN 0));
  (6, 0, "zetaDOWN half", Some (cN 0));
  (7, 0, "zetaDOWN half", Some (cN 1));
  (8, 0, "zetaDOWN half", Some (cN 1));
  (9, 0, "zetaDOWN half", Some (cN 0));
  (10, 0, "zetaDOWN half", Some (cN 0));
  (11, 0, "zetaDOWN half", Some (cN 1));
  (12, 0, "zetaDOWN half", Some (cN 1));
  (13, 0, "zetaDOWN half", Some (cN 0));
  (14, 0, "zetaDOWN half", Some (cN 1));
  (15, 0, "zetaDOWN half", Some (cN 1));
  (16, 0, "zetaDOWN half", Some (cN 1));
  (1, 1, "zetaDOWN half", Some (cN 0));
  (2, 1, "zetaDOWN half", Some (cN 1));
  (3, 1, "zetaDOWN half", Some (cN 0));
  (4, 1, "zetaDOWN half", Some (cN 0));
  (5, 1, "zetaDOWN half", Some (cN 0));
  (6, 1, "zetaDOWN half", Some (cN 1));
  (7, 1, "zetaDOWN half", Some (cN 1));
  (8, 1, "zetaDOWN half", Some (cN 0));
  (9, 1, "zetaDOWN half", Some (cN 1));
  (10, 1, "zetaDOWN half", Some (cN 0));
  (11, 1, "zetaDOWN half", Some (cN 0));
  (12, 1, "zetaDOWN half", Some (cN 1));
  (13, 1, "zetaDOWN half", Some (cN 1));
  (14, 1, "zetaDOWN half", Some (cN 1));
  (15, 1, "zetaDOWN half", Some (cN 0));
  (16, 1, "zetaDOWN half", Some (cN 1))].
(** /repo/c++/symmetry/sym-U1-impl.hpp, make_matrix_pol2x2  *)
Definition u1_2ch_m1_f : list dof_line := [
  (1, 1, 0, "zetaDOUP", Some (cN 0));
  (2, 2, 0, "zetaDOUP", Some (cN 0));
  (3, 3, 0, "zetaDOUP", Some (cN 0));
  (4, 4, 0, "zetaDOUP", Some (cN 0));
  (4, 5, 0, "zetaDOUP", Some (cN 1));
  (5, 5, 0, "zetaDOUP", Some (cN 0));
  (6, 6, 0, "zetaDOUP", Some (cN 0));
  (7, 7, 0, "zetaDOUP", Some (cN 0));
  (7, 9, 0, "zetaDOUP", Some (cN 1));
  (8, 8, 0, "zetaDOUP", Some (cN 0));
  (8, 10, 0, "zetaDOUP", Some (cN 1));
  (9, 9, 0, "zetaDOUP", Some (cN 0));
  (10, 10, 0, "zetaDOUP", Some (cN 0));
  (11, 11, 0, "zetaDOUP", Some (cN 0));
  (12, 12, 0, "zetaDOUP", Some (cN 0));
  (12, 13, 0, "zetaDOUP", Some (cN 1));
  (13, 13, 0, "zetaDOUP", Some (cN 0));
  (14, 14, 0, "zetaDOUP", Some (cN 0));
  (15, 15, 0, "zetaDOUP", Some (cN 0));
  (16, 16, 0, "zetaDOUP", Some (cN 0));
  (1, 1, 1, "zetaDOUP", Some (cN 0));
  (2, 2, 1, "zetaDOUP", Some (cN 0));
  (2, 3, 1, "zetaDOUP", Some (cN 1));
  (3, 3, 1, "zetaDOUP", Some (cN 0));
  (4, 4, 1, "zetaDOUP", Some (cN 0));
  (5, 5, 1, "zetaDOUP", Some (cN 0));
  (6, 6, 1, "zetaDOUP", Some (cN 0));
  (7, 7, 1, "zetaDOUP", Some (cN 0));
  (7, 8, 1, "zetaDOUP", Some (cN 1));
  (8, 8, 1, "zetaDOUP", Some (cN 0));
  (9, 9, 1, "zetaDOUP", Some (cN 0));
  (9, 10, 1, "zetaDOUP", Some (cN 1));
  (10, 10, 1, "zetaDOUP", Some (cN 0));
  (11, 11, 1, "zetaDOUP", Some (cN 0));
  (12, 12, 1, "zetaDOUP", Some (cN 0));
  (13, 13, 1, "zetaDOUP", Some (cN 0));
  (14, 14, 1, "zetaDOUP", Some (cN 0));
  (14, 15, 1, "zetaDOUP", Some (cN 1));
  (15, 15, 1, "zetaDOUP", Some (cN 0));
  (16, 16, 1, "zetaDOUP", Some (cN 0))].
(** /repo/c++/symmetry/sym-U1-impl.hpp, make_matrix_nonpolarized  *)
Definition u1_2ch_m2_o : list off_line := [
  (1, 5, 0, 1, "xi", Some (cN 1));
  (2, 9, 0, 1, "xi", Some (cN (-1)));
  (3, 10, 0, 1, "xi", Some (cN (-1)));
  (4, 11, 0, 1, "xi", Some (cN (-1)));
  (6, 13, 0, 1, "xi", Some (cN 1));
  (7, 14, 0, 1, "xi", Some (cN 1));
  (8, 15, 0, 1, "xi", Some (cN 1));
  (12, 16, 0, 1, "xi", Some (cN (-1)));
  (1, 3, 1, 1, "xi", Some (cN 1));
  (2, 6, 1, 1, "xi", Some (cN (-1)));
  (4, 8, 1, 1, "xi", Some (cN 1));
  (5, 10, 1, 1, "xi", Some (cN 1));
  (7, 12, 1, 1, "xi", Some (cN (-1)));
  (9, 13, 1, 1, "xi", Some (cN (-1)));
  (11, 15, 1, 1, "xi", Some (cN 1));
  (14, 16, 1, 1, "xi", Some (cN (-1)));
  (1, 4, 0, 0, "xi", Some (cN 1));
  (2, 7, 0, 0, "xi", Some (cN (-1)));
  (3, 8, 0, 0, "xi", Some (cN (-1)));
  (5, 11, 0, 0, "xi", Some (cN 1));
  (6, 12, 0, 0, "xi", Some (cN 1));
  (9, 14, 0, 0, "xi", Some (cN (-1)));
  (10, 15, 0, 0, "xi", Some (cN (-1)));
  (13, 16, 0, 0, "xi", Some (cN 1));
  (1, 2, 1, 0, "xi", Some (cN 1));
  (3, 6, 1, 0, "xi", Some (cN 1));
  (4, 7, 1, 0, "xi", Some (cN 1));
  (5, 9, 1, 0, "xi", Some (cN 1));
  (8, 12, 1, 0, "xi", Some (cN 1));
  (10, 13, 1, 0, "xi", Some (cN 1));
  (11, 14, 1, 0, "xi", Some (cN 1));
  (15, 16, 1, 0, "xi", Some (cN 1))].
(** /repo/c++/symmetry/sym-U1-impl.hpp, make_matrix_nonpolarized  *)
Definition u1_2ch_m2_d : list diag_line := [
  (1, 0, "zeta", Some (cN 0));
  (2, 0, "zeta", Some (cN 0));
  (3, 0, "zeta", Some (cN 0));
  (4, 0, "zeta", Some (cN 1));
  (5, 0, "zeta", Some (cN 1));
  (6, 0, "zeta", Some (cN 0));
  (7, 0, "zeta", Some (cN 1));
  (8, 0, "zeta", Some (cN 1));
  (9, 0, "zeta", Some (cN 1));
  (10, 0, "zeta", Some (cN 1));
  (11, 0, "zeta", Some (cN 2));
  (12, 0, "zeta", Some (cN 1));
  (13, 0, "zeta", Some (cN 1));
  (14, 0, "zeta", Some (cN 2));
  (15, 0, "zeta", Some (cN 2));
  (16, 0, "zeta", Some (cN 2));
  (1, 1, "zeta", Some (cN 0));
  (2, 1, "zeta", Some (cN 1));
  (3, 1, "zeta", Some (cN 1));
  (4, 1, "zeta", Some (cN 0));
  (5, 1, "zeta", Some (cN 0));
  (6, 1, "zeta", Some (cN 2));
  (7, 1, "zeta", Some (cN 1));
  (8, 1, "zeta", Some (cN 1));
  (9, 1, "zeta", Some (cN 1));
  (10, 1, "zeta", Some (cN 1));
  (11, 1, "zeta", Some (cN 0));
  (12, 1, "zeta", Some (cN 2));
  (13, 1, "zeta", Some (cN 2));
  (14, 1, "zeta", Some (cN 1));
  (15, 1, "zeta", Some (cN 1));
  (16, 1, "zeta", Some (cN 2))].
(** /repo/c++/symmetry/sym-U1-impl.hpp, make_matrix_nonpolarized  *)
Definition u1_2ch_m2_f : list dof_line := [
  ].
Definition coef_u1_2ch : coef_set := mk_coef "U1" 2%nat sym_U1 {| tb_In := u1_2ch_In; tb_QN := u1_2ch_QN |}
  [u1_2ch_t1; u1_2ch_t2; u1_2ch_t3; u1_2ch_t4]
  [u1_2ch_t0]
  [mk_mode "polarized" u1_2ch_m0_o u1_2ch_m0_d u1_2ch_m0_f;
   mk_mode "pol2x2" u1_2ch_m1_o u1_2ch_m1_d u1_2ch_m1_f;
   mk_mode "nonpolarized" u1_2ch_m2_o u1_2ch_m2_d u1_2ch_m2_f].
(** /repo/c++/symmetry/nrg-recalc-U1.hpp recalc_doublet, u1/u1-3ch-doublet.dat *)
Definition u1_3ch_t0 : ten_table := mk_ten "doublet" [ShLin 0%nat 1 (-1)] [1] [
  (1, 1, [ShLin 0%nat 1 3], [ShLin 0%nat 1 2], Some (cN 1));
  (2, 2, [ShLin 0%nat 1 2], [ShLin 0%nat 1 1], Some (cN (-1)));
  (3, 3, [ShLin 0%nat 1 2], [ShLin 0%nat 1 1], Some (cN (-1)));
  (4, 4, [ShLin 0%nat 1 2], [ShLin 0%nat 1 1], Some (cN (-1)));
  (5, 5, [ShLin 0%nat 1 2], [ShLin 0%nat 1 1], Some (cN (-1)));
  (6, 6, [ShLin 0%nat 1 2], [ShLin 0%nat 1 1], Some (cN (-1)));
  (7, 7, [ShLin 0%nat 1 2], [ShLin 0%nat 1 1], Some (cN (-1)));
  (8, 8, [ShLin 0%nat 1 1], [ShLin 0%nat 1 0], Some (cN 1));
  (9, 9, [ShLin 0%nat 1 1], [ShLin 0%nat 1 0], Some (cN 1));
  (10, 10, [ShLin 0%nat 1 1], [ShLin 0%nat 1 0], Some (cN 1));
  (11, 11, [ShLin 0%nat 1 1], [ShLin 0%nat 1 0], Some (cN 1));
  (12, 12, [ShLin 0%nat 1 1], [ShLin 0%nat 1 0], Some (cN 1));
  (13, 13, [ShLin 0%nat 1 1], [ShLin 0%nat 1 0], Some (cN 1));
  (14, 14, [ShLin 0%nat 1 1], [ShLin 0%nat 1 0], Some (cN 1));
  (15, 15, [ShLin 0%nat 1 1], [ShLin 0%nat 1 0], Some (cN 1));
  (16, 16, [ShLin 0%nat 1 1], [ShLin 0%nat 1 0], Some (cN 1));
  (17, 17, [ShLin 0%nat 1 1], [ShLin 0%nat 1 0], Some (cN 1));
  (18, 18, [ShLin 0%nat 1 1], [ShLin 0%nat 1 0], Some (cN 1));
  (19, 19, [ShLin 0%nat 1 1], [ShLin 0%nat 1 0], Some (cN 1));
  (20, 20, [ShLin 0%nat 1 1], [ShLin 0%nat 1 0], Some (cN 1));
  (21, 21, [ShLin 0%nat 1 1], [ShLin 0%nat 1 0], Some (cN 1));
  (22, 22, [ShLin 0%nat 1 1], [ShLin 0%nat 1 0], Some (cN 1));
  (23, 23, [ShLin 0%nat 1 0], [ShLin 0%nat 1 (-1)], Some (cN (-1)));
  (24, 24, [ShLin 0%nat 1 0], [ShLin 0%nat 1 (-1)], Some (cN (-1)));
  (25, 25, [ShLin 0%nat 1 0], [ShLin 0%nat 1 (-1)], Some (cN (-1)));
  (26, 26, [ShLin 0%nat 1 0], [ShLin 0%nat 1 (-1)], Some (cN (-1)));
  (27, 27, [ShLin 0%nat 1 0], [ShLin 0%nat 1 (-1)], Some (cN (-1)));
  (28, 28, [ShLin 0%nat 1 0], [ShLin 0%nat 1 (-1)], Some (cN (-1)));
  (29, 29, [ShLin 0%nat 1 0], [ShLin 0%nat 1 (-1)], Some (cN (-1)));
  (30, 30, [ShLin 0%nat 1 0], [ShLin 0%nat 1 (-1)], Some (cN (-1)));
  (31, 31, [ShLin 0%nat 1 0], [ShLin 0%nat 1 (-1)], Some (cN (-1)));
  (32, 32, [ShLin 0%nat 1 0], [ShLin 0%nat 1 (-1)], Some (cN (-1)));
  (33, 33, [ShLin 0%nat 1 0], [ShLin 0%nat 1 (-1)], Some (cN (-1)));
  (34, 34, [ShLin 0%nat 1 0], [ShLin 0%nat 1 (-1)], Some (cN (-1)));
  (35, 35, [ShLin 0%nat 1 0], [ShLin 0%nat 1 (-1)], Some (cN (-1)));
  (36, 36, [ShLin 0%nat 1 0], [ShLin 0%nat 1 (-1)], Some (cN (-1)));
  (37, 37, [ShLin 0%nat 1 0], [ShLin 0%nat 1 (-1)], Some (cN (-1)));
  (38, 38, [ShLin 0%nat 1 0], [ShLin 0%nat 1 (-1)], Some (cN (-1)));
  (39, 39, [ShLin 0%nat 1 0], [ShLin 0%nat 1 (-1)], Some (cN (-1)));
  (40, 40, [ShLin 0%nat 1 0], [ShLin 0%nat 1 (-1)], Some (cN (-1)));
  (41, 41, [ShLin 0%nat 1 0], [ShLin 0%nat 1 (-1)], Some (cN (-1)));
  (42, 42, [ShLin 0%nat 1 0], [ShLin 0%nat 1 (-1)], Some (cN (-1)));
  (43, 43, [ShLin 0%nat 1 (-1)], [ShLin 0%nat 1 (-2)], Some (cN 1));
  (44, 44, [ShLin 0%nat 1 (-1)], [ShLin 0%nat 1 (-2)], Some (cN 1));
  (45, 45, [ShLin 0%nat 1 (-1)], [ShLin 0%nat 1 (-2)], Some (cN 1));
  (46, 46, [ShLin 0%nat 1 (-1)], [ShLin 0%nat 1 (-2)], Some (cN 1));
  (47, 47, [ShLin 0%nat 1 (-1)], [ShLin 0%nat 1 (-2)], Some (cN 1));
  (48, 48, [ShLin 0%nat 1 (-1)], [ShLin 0%nat 1 (-2)], Some (cN 1));
  (49, 49, [ShLin 0%nat 1 (-1)], [ShLin 0%nat 1 (-2)], Some (cN 1));
  (50, 50, [ShLin 0%nat 1 (-1)], [ShLin 0%nat 1 (-2)], Some (cN 1));
  (51, 51, [ShLin 0%nat 1 (-1)], [ShLin 0%nat 1 (-2)], Some (cN 1));
  (52, 52, [ShLin 0%nat 1 (-1)], [ShLin 0%nat 1 (-2)], Some (cN 1));
  (53, 53, [ShLin 0%nat 1 (-1)], [ShLin 0%nat 1 (-2)], Some (cN 1));
  (54, 54, [ShLin 0%nat 1 (-1)], [ShLin 0%nat 1 (-2)], Some (cN 1));
  (55, 55, [ShLin 0%nat 1 (-1)], [ShLin 0%nat 1 (-2)], Some (cN 1));
  (56, 56, [ShLin 0%nat 1 (-1)], [ShLin 0%nat 1 (-2)], Some (cN 1));
  (57, 57, [ShLin 0%nat 1 (-1)], [ShLin 0%nat 1 (-2)], Some (cN 1));
  (58, 58, [ShLin 0%nat 1 (-2)], [ShLin 0%nat 1 (-3)], Some (cN (-1)));
  (59, 59, [ShLin 0%nat 1 (-2)], [ShLin 0%nat 1 (-3)], Some (cN (-1)));
  (60, 60, [ShLin 0%nat 1 (-2)], [ShLin 0%nat 1 (-3)], Some (cN (-1)));
  (61, 61, [ShLin 0%nat 1 (-2)], [ShLin 0%nat 1 (-3)], Some (cN (-1)));
  (62, 62, [ShLin 0%nat 1 (-2)], [ShLin 0%nat 1 (-3)], Some (cN (-1)));
  (63, 63, [ShLin 0%nat 1 (-2)], [ShLin 0%nat 1 (-3)], Some (cN (-1)));
  (64, 64, [ShLin 0%nat 1 (-3)], [ShLin 0%nat 1 (-4)], Some (cN 1))].
(** /repo/c++/symmetry/nrg-recalc-U1.hpp recalc_irreduc, u1/u1-3ch-a-DO.dat *)
Definition u1_3ch_t1 : irr_table := mk_irr 0 1 [ShLin 0%nat 1 1]  [
  (6, 1, Some (cN 1));
  (14, 2, Some (cN 1));
  (15, 3, Some (cN 1));
  (16, 4, Some (cN 1));
  (17, 5, Some (cN 1));
  (22, 7, Some (cN (-1)));
  (27, 8, Some (cN 1));
  (28, 9, Some (cN 1));
  (29, 10, Some (cN 1));
  (30, 11, Some (cN 1));
  (31, 12, Some (cN 1));
  (32, 13, Some (cN 1));
  (39, 18, Some (cN (-1)));
  (40, 19, Some (cN (-1)));
  (41, 20, Some (cN (-1)));
  (42, 21, Some (cN (-1)));
  (44, 23, Some (cN 1));
  (45, 24, Some (cN 1));
  (46, 25, Some (cN 1));
  (47, 26, Some (cN 1));
  (52, 33, Some (cN (-1)));
  (53, 34, Some (cN (-1)));
  (54, 35, Some (cN (-1)));
  (55, 36, Some (cN (-1)));
  (56, 37, Some (cN (-1)));
  (57, 38, Some (cN (-1)));
  (58, 43, Some (cN 1));
  (60, 48, Some (cN (-1)));
  (61, 49, Some (cN (-1)));
  (62, 50, Some (cN (-1)));
  (63, 51, Some (cN (-1)));
  (64, 59, Some (cN (-1)))].
(** /repo/c++/symmetry/nrg-recalc-U1.hpp recalc_irreduc, u1/u1-3ch-b-DO.dat *)
Definition u1_3ch_t2 : irr_table := mk_irr 1 1 [ShLin 0%nat 1 1]  [
  (4, 1, Some (cN 1));
  (9, 2, Some (cN 1));
  (10, 3, Some (cN 1));
  (13, 5, Some (cN (-1)));
  (16, 6, Some (cN (-1)));
  (20, 7, Some (cN (-1)));
  (23, 8, Some (cN 1));
  (25, 11, Some (cN (-1)));
  (26, 12, Some (cN (-1)));
  (28, 14, Some (cN (-1)));
  (29, 15, Some (cN (-1)));
  (32, 17, Some (cN 1));
  (34, 18, Some (cN (-1)));
  (35, 19, Some (cN (-1)));
  (38, 21, Some (cN 1));
  (41, 22, Some (cN 1));
  (43, 24, Some (cN (-1)));
  (44, 27, Some (cN (-1)));
  (46, 30, Some (cN 1));
  (47, 31, Some (cN 1));
  (48, 33, Some (cN (-1)));
  (50, 36, Some (cN 1));
  (51, 37, Some (cN 1));
  (53, 39, Some (cN 1));
  (54, 40, Some (cN 1));
  (57, 42, Some (cN (-1)));
  (58, 45, Some (cN 1));
  (59, 49, Some (cN 1));
  (60, 52, Some (cN 1));
  (62, 55, Some (cN (-1)));
  (63, 56, Some (cN (-1)));
  (64, 61, Some (cN (-1)))].
(** /repo/c++/symmetry/nrg-recalc-U1.hpp recalc_irreduc, u1/u1-3ch-c-DO.dat *)
Definition u1_3ch_t3 : irr_table := mk_irr 2 1 [ShLin 0%nat 1 1]  [
  (2, 1, Some (cN 1));
  (8, 3, Some (cN (-1)));
  (9, 4, Some (cN (-1)));
  (11, 5, Some (cN (-1)));
  (14, 6, Some (cN (-1)));
  (18, 7, Some (cN (-1)));
  (23, 10, Some (cN 1));
  (24, 12, Some (cN 1));
  (25, 13, Some (cN 1));
  (27, 15, Some (cN 1));
  (28, 16, Some (cN 1));
  (30, 17, Some (cN 1));
  (33, 19, Some (cN 1));
  (34, 20, Some (cN 1));
  (36, 21, Some (cN 1));
  (39, 22, Some (cN 1));
  (43, 26, Some (cN (-1)));
  (44, 29, Some (cN (-1)));
  (45, 31, Some (cN (-1)));
  (46, 32, Some (cN (-1)));
  (48, 35, Some (cN (-1)));
  (49, 37, Some (cN (-1)));
  (50, 38, Some (cN (-1)));
  (52, 40, Some (cN (-1)));
  (53, 41, Some (cN (-1)));
  (55, 42, Some (cN (-1)));
  (58, 47, Some (cN 1));
  (59, 51, Some (cN 1));
  (60, 54, Some (cN 1));
  (61, 56, Some (cN 1));
  (62, 57, Some (cN 1));
  (64, 63, Some (cN (-1)))].
(** /repo/c++/symmetry/nrg-recalc-U1.hpp recalc_irreduc, u1/u1-3ch-a-UP.dat *)
Definition u1_3ch_t4 : irr_table := mk_irr 0 0 [ShLin 0%nat 1 1]  [
  (7, 1, Some (cN 1));
  (18, 2, Some (cN 1));
  (19, 3, Some (cN 1));
  (20, 4, Some (cN 1));
  (21, 5, Some (cN 1));
  (22, 6, Some (cN 1));
  (33, 8, Some (cN 1));
  (34, 9, Some (cN 1));
  (35, 10, Some (cN 1));
  (36, 11, Some (cN 1));
  (37, 12, Some (cN 1));
  (38, 13, Some (cN 1));
  (39, 14, Some (cN 1));
  (40, 15, Some (cN 1));
  (41, 16, Some (cN 1));
  (42, 17, Some (cN 1));
  (48, 23, Some (cN 1));
  (49, 24, Some (cN 1));
  (50, 25, Some (cN 1));
  (51, 26, Some (cN 1));
  (52, 27, Some (cN 1));
  (53, 28, Some (cN 1));
  (54, 29, Some (cN 1));
  (55, 30, Some (cN 1));
  (56, 31, Some (cN 1));
  (57, 32, Some (cN 1));
  (59, 43, Some (cN 1));
  (60, 44, Some (cN 1));
  (61, 45, Some (cN 1));
  (62, 46, Some (cN 1));
  (63, 47, Some (cN 1));
  (64, 58, Some (cN 1))].
(** /repo/c++/symmetry/nrg-recalc-U1.hpp recalc_irreduc, u1/u1-3ch-b-UP.dat *)
Definition u1_3ch_t5 : irr_table := mk_irr 1 0 [ShLin 0%nat 1 1]  [
  (5, 1, Some (cN 1));
  (11, 2, Some (cN 1));
  (12, 3, Some (cN 1));
  (13, 4, Some (cN 1));
  (17, 6, Some (cN (-1)));
  (21, 7, Some (cN (-1)));
  (24, 8, Some (cN 1));
  (25, 9, Some (cN 1));
  (26, 10, Some (cN 1));
  (30, 14, Some (cN (-1)));
  (31, 15, Some (cN (-1)));
  (32, 16, Some (cN (-1)));
  (36, 18, Some (cN (-1)));
  (37, 19, Some (cN (-1)));
  (38, 20, Some (cN (-1)));
  (42, 22, Some (cN 1));
  (43, 23, Some (cN 1));
  (45, 27, Some (cN (-1)));
  (46, 28, Some (cN (-1)));
  (47, 29, Some (cN (-1)));
  (49, 33, Some (cN (-1)));
  (50, 34, Some (cN (-1)));
  (51, 35, Some (cN (-1)));
  (55, 39, Some (cN 1));
  (56, 40, Some (cN 1));
  (57, 41, Some (cN 1));
  (58, 44, Some (cN (-1)));
  (59, 48, Some (cN (-1)));
  (61, 52, Some (cN 1));
  (62, 53, Some (cN 1));
  (63, 54, Some (cN 1));
  (64, 60, Some (cN 1))].
(** /repo/c++/symmetry/nrg-recalc-U1.hpp recalc_irreduc, u1/u1-3ch-c-UP.dat *)
Definition u1_3ch_t6 : irr_table := mk_irr 2 0 [ShLin 0%nat 1 1]  [
  (3, 1, Some (cN 1));
  (8, 2, Some (cN 1));
  (10, 4, Some (cN (-1)));
  (12, 5, Some (cN (-1)));
  (15, 6, Some (cN (-1)));
  (19, 7, Some (cN (-1)));
  (23, 9, Some (cN (-1)));
  (24, 11, Some (cN (-1)));
  (26, 13, Some (cN 1));
  (27, 14, Some (cN (-1)));
  (29, 16, Some (cN 1));
  (31, 17, Some (cN 1));
  (33, 18, Some (cN (-1)));
  (35, 20, Some (cN 1));
  (37, 21, Some (cN 1));
  (40, 22, Some (cN 1));
  (43, 25, Some (cN 1));
  (44, 28, Some (cN 1));
  (45, 30, Some (cN 1));
  (47, 32, Some (cN (-1)));
  (48, 34, Some (cN 1));
  (49, 36, Some (cN 1));
  (51, 38, Some (cN (-1)));
  (52, 39, Some (cN 1));
  (54, 41, Some (cN (-1)));
  (56, 42, Some (cN (-1)));
  (58, 46, Some (cN (-1)));
  (59, 50, Some (cN (-1)));
  (60, 53, Some (cN (-1)));
  (61, 55, Some (cN (-1)));
  (63, 57, Some (cN 1));
  (64, 62, Some (cN 1))].
(** /repo/c++/symmetry/sym-U1-impl.hpp, make_matrix_polarized  *)
Definition u1_3ch_m0_o : list off_line := [
  (1, 7, 0, 0, "xiUP", Some (cN 1));
  (2, 18, 0, 0, "xiUP", Some (cN (-1)));
  (3, 19, 0, 0, "xiUP", Some (cN (-1)));
  (4, 20, 0, 0, "xiUP", Some (cN (-1)));
  (5, 21, 0, 0, "xiUP", Some (cN (-1)));
  (6, 22, 0, 0, "xiUP", Some (cN (-1)));
  (8, 33, 0, 0, "xiUP", Some (cN 1));
  (9, 34, 0, 0, "xiUP", Some (cN 1));
  (10, 35, 0, 0, "xiUP", Some (cN 1));
  (11, 36, 0, 0, "xiUP", Some (cN 1));
  (12, 37, 0, 0, "xiUP", Some (cN 1));
  (13, 38, 0, 0, "xiUP", Some (cN 1));
  (14, 39, 0, 0, "xiUP", Some (cN 1));
  (15, 40, 0, 0, "xiUP", Some (cN 1));
  (16, 41, 0, 0, "xiUP", Some (cN 1));
  (17, 42, 0, 0, "xiUP", Some (cN 1));
  (23, 48, 0, 0, "xiUP", Some (cN (-1)));
  (24, 49, 0, 0, "xiUP", Some (cN (-1)));
  (25, 50, 0, 0, "xiUP", Some (cN (-1)));
  (26, 51, 0, 0, "xiUP", Some (cN (-1)));
  (27, 52, 0, 0, "xiUP", Some (cN (-1)));
  (28, 53, 0, 0, "xiUP", Some (cN (-1)));
  (29, 54, 0, 0, "xiUP", Some (cN (-1)));
  (30, 55, 0, 0, "xiUP", Some (cN (-1)));
  (31, 56, 0, 0, "xiUP", Some (cN (-1)));
  (32, 57, 0, 0, "xiUP", Some (cN (-1)));
  (43, 59, 0, 0, "xiUP", Some (cN 1));
  (44, 60, 0, 0, "xiUP", Some (cN 1));
  (45, 61, 0, 0, "xiUP", Some (cN 1));
  (46, 62, 0, 0, "xiUP", Some (cN 1));
  (47, 63, 0, 0, "xiUP", Some (cN 1));
  (58, 64, 0, 0, "xiUP", Some (cN (-1)));
  (1, 5, 1, 0, "xiUP", Some (cN 1));
  (2, 11, 1, 0, "xiUP", Some (cN (-1)));
  (3, 12, 1, 0, "xiUP", Some (cN (-1)));
  (4, 13, 1, 0, "xiUP", Some (cN (-1)));
  (6, 17, 1, 0, "xiUP", Some (cN 1));
  (7, 21, 1, 0, "xiUP", Some (cN 1));
  (8, 24, 1, 0, "xiUP", Some (cN 1));
  (9, 25, 1, 0, "xiUP", Some (cN 1));
  (10, 26, 1, 0, "xiUP", Some (cN 1));
  (14, 30, 1, 0, "xiUP", Some (cN (-1)));
  (15, 31, 1, 0, "xiUP", Some (cN (-1)));
  (16, 32, 1, 0, "xiUP", Some (cN (-1)));
  (18, 36, 1, 0, "xiUP", Some (cN (-1)));
  (19, 37, 1, 0, "xiUP", Some (cN (-1)));
  (20, 38, 1, 0, "xiUP", Some (cN (-1)));
  (22, 42, 1, 0, "xiUP", Some (cN 1));
  (23, 43, 1, 0, "xiUP", Some (cN (-1)));
  (27, 45, 1, 0, "xiUP", Some (cN 1));
  (28, 46, 1, 0, "xiUP", Some (cN 1));
  (29, 47, 1, 0, "xiUP", Some (cN 1));
  (33, 49, 1, 0, "xiUP", Some (cN 1));
  (34, 50, 1, 0, "xiUP", Some (cN 1));
  (35, 51, 1, 0, "xiUP", Some (cN 1));
  (39, 55, 1, 0, "xiUP", Some (cN (-1)));
  (40, 56, 1, 0, "xiUP", Some (cN (-1)));
  (41, 57, 1, 0, "xiUP", Some (cN (-1)));
  (44, 58, 1, 0, "xiUP", Some (cN (-1)));
  (48, 59, 1, 0, "xiUP", Some (cN (-1)));
  (52, 61, 1, 0, "xiUP", Some (cN 1));
  (53, 62, 1, 0, "xiUP", Some (cN 1));
  (54, 63, 1, 0, "xiUP", Some (cN 1));
  (60, 64, 1, 0, "xiUP", Some (cN (-1)));
  (1, 3, 2, 0, "xiUP", Some (cN 1));
  (2, 8, 2, 0, "xiUP", Some (cN (-1)));
  (4, 10, 2, 0, "xiUP", Some (cN 1));
  (5, 12, 2, 0, "xiUP", Some (cN 1));
  (6, 15, 2, 0, "xiUP", Some (cN 1));
  (7, 19, 2, 0, "xiUP", Some (cN 1));
  (9, 23, 2, 0, "xiUP", Some (cN (-1)));
  (11, 24, 2, 0, "xiUP", Some (cN (-1)));
  (13, 26, 2, 0, "xiUP", Some (cN 1));
  (14, 27, 2, 0, "xiUP", Some (cN (-1)));
  (16, 29, 2, 0, "xiUP", Some (cN 1));
  (17, 31, 2, 0, "xiUP", Some (cN 1));
  (18, 33, 2, 0, "xiUP", Some (cN (-1)));
  (20, 35, 2, 0, "xiUP", Some (cN 1));
  (21, 37, 2, 0, "xiUP", Some (cN 1));
  (22, 40, 2, 0, "xiUP", Some (cN 1));
  (25, 43, 2, 0, "xiUP", Some (cN (-1)));
  (28, 44, 2, 0, "xiUP", Some (cN (-1)));
  (30, 45, 2, 0, "xiUP", Some (cN (-1)));
  (32, 47, 2, 0, "xiUP", Some (cN 1));
  (34, 48, 2, 0, "xiUP", Some (cN (-1)));
  (36, 49, 2, 0, "xiUP", Some (cN (-1)));
  (38, 51, 2, 0, "xiUP", Some (cN 1));
  (39, 52, 2, 0, "xiUP", Some (cN (-1)));
  (41, 54, 2, 0, "xiUP", Some (cN 1));
  (42, 56, 2, 0, "xiUP", Some (cN 1));
  (46, 58, 2, 0, "xiUP", Some (cN (-1)));
  (50, 59, 2, 0, "xiUP", Some (cN (-1)));
  (53, 60, 2, 0, "xiUP", Some (cN (-1)));
  (55, 61, 2, 0, "xiUP", Some (cN (-1)));
  (57, 63, 2, 0, "xiUP", Some (cN 1));
  (62, 64, 2, 0, "xiUP", Some (cN (-1)));
  (1, 6, 0, 1, "xiDOWN", Some (cN 1));
  (2, 14, 0, 1, "xiDOWN", Some (cN (-1)));
  (3, 15, 0, 1, "xiDOWN", Some (cN (-1)));
  (4, 16, 0, 1, "xiDOWN", Some (cN (-1)));
  (5, 17, 0, 1, "xiDOWN", Some (cN (-1)));
  (7, 22, 0, 1, "xiDOWN", Some (cN 1));
  (8, 27, 0, 1, "xiDOWN", Some (cN 1));
  (9, 28, 0, 1, "xiDOWN", Some (cN 1));
  (10, 29, 0, 1, "xiDOWN", Some (cN 1));
  (11, 30, 0, 1, "xiDOWN", Some (cN 1));
  (12, 31, 0, 1, "xiDOWN", Some (cN 1));
  (13, 32, 0, 1, "xiDOWN", Some (cN 1));
  (18, 39, 0, 1, "xiDOWN", Some (cN (-1)));
  (19, 40, 0, 1, "xiDOWN", Some (cN (-1)));
  (20, 41, 0, 1, "xiDOWN", Some (cN (-1)));
  (21, 42, 0, 1, "xiDOWN", Some (cN (-1)));
  (23, 44, 0, 1, "xiDOWN", Some (cN (-1)));
  (24, 45, 0, 1, "xiDOWN", Some (cN (-1)));
  (25, 46, 0, 1, "xiDOWN", Some (cN (-1)));
  (26, 47, 0, 1, "xiDOWN", Some (cN (-1)));
  (33, 52, 0, 1, "xiDOWN", Some (cN 1));
  (34, 53, 0, 1, "xiDOWN", Some (cN 1));
  (35, 54, 0, 1, "xiDOWN", Some (cN 1));
  (36, 55, 0, 1, "xiDOWN", Some (cN 1));
  (37, 56, 0, 1, "xiDOWN", Some (cN 1));
  (38, 57, 0, 1, "xiDOWN", Some (cN 1));
  (43, 58, 0, 1, "xiDOWN", Some (cN 1));
  (48, 60, 0, 1, "xiDOWN", Some (cN (-1)));
  (49, 61, 0, 1, "xiDOWN", Some (cN (-1)));
  (50, 62, 0, 1, "xiDOWN", Some (cN (-1)));
  (51, 63, 0, 1, "xiDOWN", Some (cN (-1)));
  (59, 64, 0, 1, "xiDOWN", Some (cN 1));
  (1, 4, 1, 1, "xiDOWN", Some (cN 1));
  (2, 9, 1, 1, "xiDOWN", Some (cN (-1)));
  (3, 10, 1, 1, "xiDOWN", Some (cN (-1)));
  (5, 13, 1, 1, "xiDOWN", Some (cN 1));
  (6, 16, 1, 1, "xiDOWN", Some (cN 1));
  (7, 20, 1, 1, "xiDOWN", Some (cN 1));
  (8, 23, 1, 1, "xiDOWN", Some (cN 1));
  (11, 25, 1, 1, "xiDOWN", Some (cN (-1)));
  (12, 26, 1, 1, "xiDOWN", Some (cN (-1)));
  (14, 28, 1, 1, "xiDOWN", Some (cN (-1)));
  (15, 29, 1, 1, "xiDOWN", Some (cN (-1)));
  (17, 32, 1, 1, "xiDOWN", Some (cN 1));
  (18, 34, 1, 1, "xiDOWN", Some (cN (-1)));
  (19, 35, 1, 1, "xiDOWN", Some (cN (-1)));
  (21, 38, 1, 1, "xiDOWN", Some (cN 1));
  (22, 41, 1, 1, "xiDOWN", Some (cN 1));
  (24, 43, 1, 1, "xiDOWN", Some (cN 1));
  (27, 44, 1, 1, "xiDOWN", Some (cN 1));
  (30, 46, 1, 1, "xiDOWN", Some (cN (-1)));
  (31, 47, 1, 1, "xiDOWN", Some (cN (-1)));
  (33, 48, 1, 1, "xiDOWN", Some (cN 1));
  (36, 50, 1, 1, "xiDOWN", Some (cN (-1)));
  (37, 51, 1, 1, "xiDOWN", Some (cN (-1)));
  (39, 53, 1, 1, "xiDOWN", Some (cN (-1)));
  (40, 54, 1, 1, "xiDOWN", Some (cN (-1)));
  (42, 57, 1, 1, "xiDOWN", Some (cN 1));
  (45, 58, 1, 1, "xiDOWN", Some (cN 1));
  (49, 59, 1, 1, "xiDOWN", Some (cN 1));
  (52, 60, 1, 1, "xiDOWN", Some (cN 1));
  (55, 62, 1, 1, "xiDOWN", Some (cN (-1)));
  (56, 63, 1, 1, "xiDOWN", Some (cN (-1)));
  (61, 64, 1, 1, "xiDOWN", Some (cN 1));
  (1, 2, 2, 1, "xiDOWN", Some (cN 1));
  (3, 8, 2, 1, "xiDOWN", Some (cN 1));
  (4, 9, 2, 1, "xiDOWN", Some (cN 1));
  (5, 11, 2, 1, "xiDOWN", Some (cN 1));
  (6, 14, 2, 1, "xiDOWN", Some (cN 1));
  (7, 18, 2, 1, "xiDOWN", Some (cN 1));
  (10, 23, 2, 1, "xiDOWN", Some (cN 1));
  (12, 24, 2, 1, "xiDOWN", Some (cN 1));
  (13, 25, 2, 1, "xiDOWN", Some (cN 1));
  (15, 27, 2, 1, "xiDOWN", Some (cN 1));
  (16, 28, 2, 1, "xiDOWN", Some (cN 1));
  (17, 30, 2, 1, "xiDOWN", Some (cN 1));
  (19, 33, 2, 1, "xiDOWN", Some (cN 1));
  (20, 34, 2, 1, "xiDOWN", Some (cN 1));
  (21, 36, 2, 1, "xiDOWN", Some (cN 1));
  (22, 39, 2, 1, "xiDOWN", Some (cN 1));
  (26, 43, 2, 1, "xiDOWN", Some (cN 1));
  (29, 44, 2, 1, "xiDOWN", Some (cN 1));
  (31, 45, 2, 1, "xiDOWN", Some (cN 1));
  (32, 46, 2, 1, "xiDOWN", Some (cN 1));
  (35, 48, 2, 1, "xiDOWN", Some (cN 1));
  (37, 49, 2, 1, "xiDOWN", Some (cN 1));
  (38, 50, 2, 1, "xiDOWN", Some (cN 1));
  (40, 52, 2, 1, "xiDOWN", Some (cN 1));
  (41, 53, 2, 1, "xiDOWN", Some (cN 1));
  (42, 55, 2, 1, "xiDOWN", Some (cN 1));
  (47, 58, 2, 1, "xiDOWN", Some (cN 1));
  (51, 59, 2, 1, "xiDOWN", Some (cN 1));
  (54, 60, 2, 1, "xiDOWN", Some (cN 1));
  (56, 61, 2, 1, "xiDOWN", Some (cN 1));
  (57, 62, 2, 1, "xiDOWN", Some (cN 1));
  (63, 64, 2, 1, "xiDOWN", Some (cN 1))].
(** /repo/c++/symmetry/sym-U1-impl.hpp, make_matrix_polarized  *)
Definition u1_3ch_m0_d : list diag_line := [
  (1, 0, "zetaUP half", Some (cN 0));
  (2, 0, "zetaUP half", Some (cN 0));
  (3, 0, "zetaUP half", Some (cN 0));
  (4, 0, "zetaUP half", Some (cN 0));
  (5, 0, "zetaUP half", Some (cN 0));
  (6, 0, "zetaUP half", Some (cN 0));
  (7, 0, "zetaUP half", Some (cN 1));
  (8, 0, "zetaUP half", Some (cN 0));
  (9, 0, "zetaUP half", Some (cN 0));
  (10, 0, "zetaUP half", Some (cN 0));
  (11, 0, "zetaUP half", Some (cN 0));
  (12, 0, "zetaUP half", Some (cN 0));
  (13, 0, "zetaUP half", Some (cN 0));
  (14, 0, "zetaUP half", Some (cN 0));
  (15, 0, "zetaUP half", Some (cN 0));
  (16, 0, "zetaUP half", Some (cN 0));
  (17, 0, "zetaUP half", Some (cN 0));
  (18, 0, "zetaUP half", Some (cN 1));
  (19, 0, "zetaUP half", Some (cN 1));
  (20, 0, "zetaUP half", Some (cN 1));
  (21, 0, "zetaUP half", Some (cN 1));
  (22, 0, "zetaUP half", Some (cN 1));
  (23, 0, "zetaUP half", Some (cN 0));
  (24, 0, "zetaUP half", Some (cN 0));
  (25, 0, "zetaUP half", Some (cN 0));
  (26, 0, "zetaUP half", Some (cN 0));
  (27, 0, "zetaUP half", Some (cN 0));
  (28, 0, "zetaUP half", Some (cN 0));
  (29, 0, "zetaUP half", Some (cN 0));
  (30, 0, "zetaUP half", Some (cN 0));
  (31, 0, "zetaUP half", Some (cN 0));
  (32, 0, "zetaUP half", Some (cN 0));
  (33, 0, "zetaUP half", Some (cN 1));
  (34, 0, "zetaUP half", Some (cN 1));
  (35, 0, "zetaUP half", Some (cN 1));
  (36, 0, "zetaUP half", Some (cN 1));
  (37, 0, "zetaUP half", Some (cN 1));
  (38, 0, "zetaUP half", Some (cN 1));
  (39, 0, "zetaUP half", Some (cN 1));
  (40, 0, "zetaUP half", Some (cN 1));
  (41, 0, "zetaUP half", Some (cN 1));
  (42, 0, "zetaUP half", Some (cN 1));
  (43, 0, "zetaUP half", Some (cN 0));
  (44, 0, "zetaUP half", Some (cN 0));
  (45, 0, "zetaUP half", Some (cN 0));
  (46, 0, "zetaUP half", Some (cN 0));
  (47, 0, "zetaUP half", Some (cN 0));
  (48, 0, "zetaUP half", Some (cN 1));
  (49, 0, "zetaUP half", Some (cN 1));
  (50, 0, "zetaUP half", Some (cN 1));
  (51, 0, "zetaUP half", Some (cN 1));
  (52, 0, "zetaUP half", Some (cN 1));
  (53, 0, "zetaUP half", Some (cN 1));
  (54, 0, "zetaUP half", Some (cN 1));
  (55, 0, "zetaUP half", Some (cN 1));
  (56, 0, "zetaUP half", Some (cN 1));
  (57, 0, "zetaUP half", Some (cN 1));
  (58, 0, "zetaUP half", Some (cN 0));
  (59, 0, "zetaUP half", Some (cN 1));
  (60, 0, "zetaUP half", Some (cN 1));
  (61, 0, "zetaUP half", Some (cN 1));
  (62, 0, "zetaUP half", Some (cN 1));
  (63, 0, "zetaUP half", Some (cN 1));
  (64, 0, "zetaUP half", Some (cN 1));
  (1, 1, "zetaUP half", Some (cN 0));
  (2, 1, "zetaUP half", Some (cN 0));
  (3, 1, "zetaUP half", Some (cN 0));
  (4, 1, "zetaUP half", Some (cN 0));
  (5, 1, "zetaUP half", Some (cN 1));
  (6, 1, "zetaUP half", Some (cN 0));
  (7, 1, "zetaUP half", Some (cN 0));
  (8, 1, "zetaUP half", Some (cN 0));
  (9, 1, "zetaUP half", Some (cN 0));
  (10, 1, "zetaUP half", Some (cN 0));
  (11, 1, "zetaUP half", Some (cN 1));
  (12, 1, "zetaUP half", Some (cN 1));
  (13, 1, "zetaUP half", Some (cN 1));
  (14, 1, "zetaUP half", Some (cN 0));
  (15, 1, "zetaUP half", Some (cN 0));
  (16, 1, "zetaUP half", Some (cN 0));
  (17, 1, "zetaUP half", Some (cN 1));
  (18, 1, "zetaUP half", Some (cN 0));
  (19, 1, "zetaUP half", Some (cN 0));
  (20, 1, "zetaUP half", Some (cN 0));
  (21, 1, "zetaUP half", Some (cN 1));
  (22, 1, "zetaUP half", Some (cN 0));
  (23, 1, "zetaUP half", Some (cN 0));
  (24, 1, "zetaUP half", Some (cN 1));
  (25, 1, "zetaUP half", Some (cN 1));
  (26, 1, "zetaUP half", Some (cN 1));
  (27, 1, "zetaUP half", Some (cN 0));
  (28, 1, "zetaUP half", Some (cN 0));
  (29, 1, "zetaUP half", Some (cN 0));
  (30, 1, "zetaUP half", Some (cN 1));
  (31, 1, "zetaUP half", Some (cN 1));
  (32, 1, "zetaUP half", Some (cN 1));
  (33, 1, "zetaUP half", Some (cN 0));
  (34, 1, "zetaUP half", Some (cN 0));
  (35, 1, "zetaUP half", Some (cN 0));
  (36, 1, "zetaUP half", Some (cN 1));
  (37, 1, "zetaUP half", Some (cN 1));
  (38, 1, "zetaUP half", Some (cN 1));
  (39, 1, "zetaUP half", Some (cN 0));
  (40, 1, "zetaUP half", Some (cN 0));
  (41, 1, "zetaUP half", Some (cN 0));
  (42, 1, "zetaUP half", Some (cN 1));
  (43, 1, "zetaUP half", Some (cN 1));
  (44, 1, "zetaUP half", Some (cN 0));
  (45, 1, "zetaUP half", Some (cN 1));
  (46, 1, "zetaUP half", Some (cN 1));
  (47, 1, "zetaUP half", Some (cN 1));
  (48, 1, "zetaUP half", Some (cN 0));
  (49, 1, "zetaUP half", Some (cN 1));
  (50, 1, "zetaUP half", Some (cN 1));
  (51, 1, "zetaUP half", Some (cN 1));
  (52, 1, "zetaUP half", Some (cN 0));
  (53, 1, "zetaUP half", Some (cN 0));
  (54, 1, "zetaUP half", Some (cN 0));
  (55, 1, "zetaUP half", Some (cN 1));
  (56, 1, "zetaUP half", Some (cN 1));
  (57, 1, "zetaUP half", Some (cN 1));
  (58, 1, "zetaUP half", Some (cN 1));
  (59, 1, "zetaUP half", Some (cN 1));
  (60, 1, "zetaUP half", Some (cN 0));
  (61, 1, "zetaUP half", Some (cN 1));
  (62, 1, "zetaUP half", Some (cN 1));
  (63, 1, "zetaUP half", Some (cN 1));
  (64, 1, "zetaUP half", Some (cN 1));
  (1, 2, "zetaUP half", Some (cN 0));
  (2, 2, "zetaUP half", Some (cN 0));
  (3, 2, "zetaUP half", Some (cN 1));
  (4, 2, "zetaUP half", Some (cN 0));
  (5, 2, "zetaUP half", Some (cN 0));
  (6, 2, "zetaUP half", Some (cN 0));
  (7, 2, "zetaUP half", Some (cN 0));
  (8, 2, "zetaUP half", Some (cN 1));
  (9, 2, "zetaUP half", Some (cN 0));
  (10, 2, "zetaUP half", Some (cN 1));
  (11, 2, "zetaUP half", Some (cN 0));
  (12, 2, "zetaUP half", Some (cN 1));
  (13, 2, "zetaUP half", Some (cN 0));
  (14, 2, "zetaUP half", Some (cN 0));
  (15, 2, "zetaUP half", Some (cN 1));
  (16, 2, "zetaUP half", Some (cN 0));
  (17, 2, "zetaUP half", Some (cN 0));
  (18, 2, "zetaUP half", Some (cN 0));
  (19, 2, "zetaUP half", Some (cN 1));
  (20, 2, "zetaUP half", Some (cN 0));
  (21, 2, "zetaUP half", Some (cN 0));
  (22, 2, "zetaUP half", Some (cN 0));
  (23, 2, "zetaUP half", Some (cN 1));
  (24, 2, "zetaUP half", Some (cN 1));
  (25, 2, "zetaUP half", Some (cN 0));
  (26, 2, "zetaUP half", Some (cN 1));
  (27, 2, "zetaUP half", Some (cN 1));
  (28, 2, "zetaUP half", Some (cN 0));
  (29, 2, "zetaUP half", Some (cN 1));
  (30, 2, "zetaUP half", Some (cN 0));
  (31, 2, "zetaUP half", Some (cN 1));
  (32, 2, "zetaUP half", Some (cN 0));
  (33, 2, "zetaUP half", Some (cN 1));
  (34, 2, "zetaUP half", Some (cN 0));
  (35, 2, "zetaUP half", Some (cN 1));
  (36, 2, "zetaUP half", Some (cN 0));
  (37, 2, "zetaUP half", Some (cN 1));
  (38, 2, "zetaUP half", Some (cN 0));
  (39, 2, "zetaUP half", Some (cN 0));
  (40, 2, "zetaUP half", Some (cN 1));
  (41, 2, "zetaUP half", Some (cN 0));
  (42, 2, "zetaUP half", Some (cN 0));
  (43, 2, "zetaUP half", Some (cN 1));
  (44, 2, "zetaUP half", Some (cN 1));
  (45, 2, "zetaUP half", Some (cN 1));
  (46, 2, "zetaUP half", Some (cN 0));
  (47, 2, "zetaUP half", Some (cN 1));
  (48, 2, "zetaUP half", Some (cN 1));
  (49, 2, "zetaUP half", Some (cN 1));
  (50, 2, "zetaUP half", Some (cN 0));
  (51, 2, "zetaUP half", Some (cN 1));
  (52, 2, "zetaUP half", Some (cN 1));
  (53, 2, "zetaUP half", Some (cN 0));
  (54, 2, "zetaUP half", Some (cN 1));
  (55, 2, "zetaUP half", Some (cN 0));
  (56, 2, "zetaUP half", Some (cN 1));
  (57, 2, "zetaUP half", Some (cN 0));
  (58, 2, "zetaUP half", Some (cN 1));
  (59, 2, "zetaUP half", Some (cN 1));
  (60, 2, "zetaUP half", Some (cN 1));
  (61, 2, "zetaUP half", Some (cN 1));
  (62, 2, "zetaUP half", Some (cN 0));
  (63, 2, "zetaUP half", Some (cN 1));
  (64, 2, "zetaUP half", Some (cN 1));
  (1, 0, "zetaDOWN half", Some (cN 0));
  (2, 0, "zetaDOWN half", Some (cN 0));
  (3, 0, "zetaDOWN half", Some (cN 0));
  (4, 0, "zetaDOWN half", Some (cN 0));
  (5, 0, "zetaDOWN half", Some (cN 0));
  (6, 0, "zetaDOWN half", Some (cN 1));
  (7, 0, "zetaDOWN half", Some (cN 0));
  (8, 0, "zetaDOWN half", Some (cN 0));
  (9, 0, "zetaDOWN half", Some (cN 0));
  (10, 0, "zetaDOWN half", Some (cN 0));
  (11, 0, "zetaDOWN half", Some (cN 0));
  (12, 0, "zetaDOWN half", Some (cN 0));
  (13, 0, "zetaDOWN half", Some (cN 0));
  (14, 0, "zetaDOWN half", Some (cN 1));
  (15, 0, "zetaDOWN half", Some (cN 1));
  (16, 0, "zetaDOWN half", Some (cN 1));
  (17, 0, "zetaDOWN half", Some (cN 1));
  (18, 0, "zetaDOWN half", Some (cN 0));
  (19, 0, "zetaDOWN half", Some (cN 0));
  (20, 0, "zetaDOWN half", Some (cN 0));
  (21, 0, "zetaDOWN half", Some (cN 0));
  (22, 0, "zetaDOWN half", Some (cN 1));
  (23, 0, "zetaDOWN half", Some (cN 0));
  (24, 0, "zetaDOWN half", Some (cN 0));
  (25, 0, "zetaDOWN half", Some (cN 0));
  (26, 0, "zetaDOWN half", Some (cN 0));
  (27, 0, "zetaDOWN half", Some (cN 1));
  (28, 0, "zetaDOWN half", Some (cN 1));
  (29, 0, "zetaDOWN half", Some (cN 1));
  (30, 0, "zetaDOWN half", Some (cN 1));
  (31, 0, "zetaDOWN half", Some (cN 1));
  (32, 0, "zetaDOWN half", Some (cN 1));
  (33, 0, "zetaDOWN half", Some (cN 0));
  (34, 0, "zetaDOWN half", Some (cN 0));
  (35, 0, "zetaDOWN half", Some (cN 0));
  (36, 0, "zetaDOWN half", Some (cN 0));
  (37, 0, "zetaDOWN half", Some (cN 0));
  (38, 0, "zetaDOWN half", Some (cN 0));
  (39, 0, "zetaDOWN half", Some (cN 1));
  (40, 0, "zetaDOWN half", Some (cN 1));
  (41, 0, "zetaDOWN half", Some (cN 1));
  (42, 0, "zetaDOWN half", Some (cN 1));
  (43, 0, "zetaDOWN half", Some (cN 0));
  (44, 0, "zetaDOWN half", Some (cN 1));
  (45, 0, "zetaDOWN half", Some (cN 1));
  (46, 0, "zetaDOWN half", Some (cN 1));
  (47, 0, "zetaDOWN half", Some (cN 1));
  (48, 0, "zetaDOWN half", Some (cN 0));
  (49, 0, "zetaDOWN half", Some (cN 0));
  (50, 0, "zetaDOWN half", Some (cN 0));
  (51, 0, "zetaDOWN half", Some (cN 0));
  (52, 0, "zetaDOWN half", Some (cN 1));
  (53, 0, "zetaDOWN half", Some (cN 1));
  (54, 0, "zetaDOWN half", Some (cN 1));
  (55, 0, "zetaDOWN half", Some (cN 1));
  (56, 0, "zetaDOWN half", Some (cN 1));
  (57, 0, "zetaDOWN half", Some (cN 1));
  (58, 0, "zetaDOWN half", Some (cN 1));
  (59, 0, "zetaDOWN half", Some (cN 0));
  (60, 0, "zetaDOWN half", Some (cN 1));
  (61, 0, "zetaDOWN half", Some (cN 1));
  (62, 0, "zetaDOWN half", Some (cN 1));
  (63, 0, "zetaDOWN half", Some (cN 1));
  (64, 0, "zetaDOWN half", Some (cN 1));
  (1, 1, "zetaDOWN half", Some (cN 0));
  (2, 1, "zetaDOWN half", Some (cN 0));
  (3, 1, "zetaDOWN half", Some (cN 0));
  (4, 1, "zetaDOWN half", Some (cN 1));
  (5, 1, "zetaDOWN half", Some (cN 0));
  (6, 1, "zetaDOWN half", Some (cN 0));
  (7, 1, "zetaDOWN half", Some (cN 0));
  (8, 1, "zetaDOWN half", Some (cN 0));
  (9, 1, "zetaDOWN half", Some (cN 1));
  (10, 1, "zetaDOWN half", Some (cN 1));
  (11, 1, "zetaDOWN half", Some (cN 0));
  (12, 1, "zetaDOWN half", Some (cN 0));
  (13, 1, "zetaDOWN half", Some (cN 1));
  (14, 1, "zetaDOWN half", Some (cN 0));
  (15, 1, "zetaDOWN half", Some (cN 0));
  (16, 1, "zetaDOWN half", Some (cN 1));
  (17, 1, "zetaDOWN half", Some (cN 0));
  (18, 1, "zetaDOWN half", Some (cN 0));
  (19, 1, "zetaDOWN half", Some (cN 0));
  (20, 1, "zetaDOWN half", Some (cN 1));
  (21, 1, "zetaDOWN half", Some (cN 0));
  (22, 1, "zetaDOWN half", Some (cN 0));
  (23, 1, "zetaDOWN half", Some (cN 1));
  (24, 1, "zetaDOWN half", Some (cN 0));
  (25, 1, "zetaDOWN half", Some (cN 1));
  (26, 1, "zetaDOWN half", Some (cN 1));
  (27, 1, "zetaDOWN half", Some (cN 0));
  (28, 1, "zetaDOWN half", Some (cN 1));
  (29, 1, "zetaDOWN half", Some (cN 1));
  (30, 1, "zetaDOWN half", Some (cN 0));
  (31, 1, "zetaDOWN half", Some (cN 0));
  (32, 1, "zetaDOWN half", Some (cN 1));
  (33, 1, "zetaDOWN half", Some (cN 0));
  (34, 1, "zetaDOWN half", Some (cN 1));
  (35, 1, "zetaDOWN half", Some (cN 1));
  (36, 1, "zetaDOWN half", Some (cN 0));
  (37, 1, "zetaDOWN half", Some (cN 0));
  (38, 1, "zetaDOWN half", Some (cN 1));
  (39, 1, "zetaDOWN half", Some (cN 0));
  (40, 1, "zetaDOWN half", Some (cN 0));
  (41, 1, "zetaDOWN half", Some (cN 1));
  (42, 1, "zetaDOWN half", Some (cN 0));
  (43, 1, "zetaDOWN half", Some (cN 1));
  (44, 1, "zetaDOWN half", Some (cN 1));
  (45, 1, "zetaDOWN half", Some (cN 0));
  (46, 1, "zetaDOWN half", Some (cN 1));
  (47, 1, "zetaDOWN half", Some (cN 1));
  (48, 1, "zetaDOWN half", Some (cN 1));
  (49, 1, "zetaDOWN half", Some (cN 0));
  (50, 1, "zetaDOWN half", Some (cN 1));
  (51, 1, "zetaDOWN half", Some (cN 1));
  (52, 1, "zetaDOWN half", Some (cN 0));
  (53, 1, "zetaDOWN half", Some (cN 1));
  (54, 1, "zetaDOWN half", Some (cN 1));
  (55, 1, "zetaDOWN half", Some (cN 0));
  (56, 1, "zetaDOWN half", Some (cN 0));
  (57, 1, "zetaDOWN half", Some (cN 1));
  (58, 1, "zetaDOWN half", Some (cN 1));
  (59, 1, "zetaDOWN half", Some (cN 1));
  (60, 1, "zetaDOWN half", Some (cN 1));
  (61, 1, "zetaDOWN half", Some (cN 0));
  (62, 1, "zetaDOWN half", Some (cN 1));
  (63, 1, "zetaDOWN half", Some (cN 1));
  (64, 1, "zetaDOWN half", Some (cN 1));
  (1, 2, "zetaDOWN half", Some (cN 0));
  (2, 2, "zetaDOWN half", Some (cN 1));
  (3, 2, "zetaDOWN half", Some (cN 0));
  (4, 2, "zetaDOWN half", Some (cN 0));
  (5, 2, "zetaDOWN half", Some (cN 0));
  (6, 2, "zetaDOWN half", Some (cN 0));
  (7, 2, "zetaDOWN half", Some (cN 0));
  (8, 2, "zetaDOWN half", Some (cN 1));
  (9, 2, "zetaDOWN half", Some (cN 1));
  (10, 2, "zetaDOWN half", Some (cN 0));
  (11, 2, "zetaDOWN half", Some (cN 1));
  (12, 2, "zetaDOWN half", Some (cN 0));
  (13, 2, "zetaDOWN half", Some (cN 0));
  (14, 2, "zetaDOWN half", Some (cN 1));
  (15, 2, "zetaDOWN half", Some (cN 0));
  (16, 2, "zetaDOWN half", Some (cN 0));
  (17, 2, "zetaDOWN half", Some (cN 0));
  (18, 2, "zetaDOWN half", Some (cN 1));
  (19, 2, "zetaDOWN half", Some (cN 0));
  (20, 2, "zetaDOWN half", Some (cN 0));
  (21, 2, "zetaDOWN half", Some (cN 0));
  (22, 2, "zetaDOWN half", Some (cN 0));
  (23, 2, "zetaDOWN half", Some (cN 1));
  (24, 2, "zetaDOWN half", Some (cN 1));
  (25, 2, "zetaDOWN half", Some (cN 1));
  (26, 2, "zetaDOWN half", Some (cN 0));
  (27, 2, "zetaDOWN half", Some (cN 1));
  (28, 2, "zetaDOWN half", Some (cN 1));
  (29, 2, "zetaDOWN half", Some (cN 0));
  (30, 2, "zetaDOWN half", Some (cN 1));
  (31, 2, "zetaDOWN half", Some (cN 0));
  (32, 2, "zetaDOWN half", Some (cN 0));
  (33, 2, "zetaDOWN half", Some (cN 1));
  (34, 2, "zetaDOWN half", Some (cN 1));
  (35, 2, "zetaDOWN half", Some (cN 0));
  (36, 2, "zetaDOWN half", Some (cN 1));
  (37, 2, "zetaDOWN half", Some (cN 0));
  (38, 2, "zetaDOWN half", Some (cN 0));
  (39, 2, "zetaDOWN half", Some (cN 1));
  (40, 2, "zetaDOWN half", Some (cN 0));
  (41, 2, "zetaDOWN half", Some (cN 0));
  (42, 2, "zetaDOWN half", Some (cN 0));
  (43, 2, "zetaDOWN half", Some (cN 1));
  (44, 2, "zetaDOWN half", Some (cN 1));
  (45, 2, "zetaDOWN half", Some (cN 1));
  (46, 2, "zetaDOWN half", Some (cN 1));
  (47, 2, "zetaDOWN half", Some (cN 0));
  (48, 2, "zetaDOWN half", Some (cN 1));
  (49, 2, "zetaDOWN half", Some (cN 1));
  (50, 2, "zetaDOWN half", Some (cN 1));
  (51, 2, "zetaDOWN half", Some (cN 0));
  (52, 2, "zetaDOWN half", Some (cN 1));
  (53, 2, "zetaDOWN half", Some (cN 1));
  (54, 2, "zetaDOWN half", Some (cN 0));
  (55, 2, "zetaDOWN half", Some (cN 1));
  (56, 2, "zetaDOWN half", Some (cN 0));
  (57, 2, "zetaDOWN half", Some (cN 0));
  (58, 2, "zetaDOWN half", Some (cN 1));
  (59, 2, "zetaDOWN half", Some (cN 1));
  (60, 2, "zetaDOWN half", Some (cN 1));
  (61, 2, "zetaDOWN half", Some (cN 1));
  (62, 2, "zetaDOWN half", Some (cN 1));
  (63, 2, "zetaDOWN half", Some (cN 0));
  (64, 2, "zetaDOWN half", Some (cN 1))].
(** /repo/c++/symmetry/sym-U1-impl.hpp, make_matrix_polarized  *)
Definition u1_3ch_m0_f : list dof_line := [
  ].
(** /repo/c++/symmetry/sym-U1-impl.hpp, make_matrix_pol2x2  *)
Definition u1_3ch_m1_o : list off_line := [
  (1, 7, 0, 0, "xiUP", Some (cN 1));
  (2, 18, 0, 0, "xiUP", Some (cN (-1)));
  (3, 19, 0, 0, "xiUP", Some (cN (-1)));
  (4, 20, 0, 0, "xiUP", Some (cN (-1)));
  (5, 21, 0, 0, "xiUP", Some (cN (-1)));
  (6, 22, 0, 0, "xiUP", Some (cN (-1)));
  (8, 33, 0, 0, "xiUP", Some (cN 1));
  (9, 34, 0, 0, "xiUP", Some (cN 1));
  (10, 35, 0, 0, "xiUP", Some (cN 1));
  (11, 36, 0, 0, "xiUP", Some (cN 1));
  (12, 37, 0, 0, "xiUP", Some (cN 1));
  (13, 38, 0, 0, "xiUP", Some (cN 1));
  (14, 39, 0, 0, "xiUP", Some (cN 1));
  (15, 40, 0, 0, "xiUP", Some (cN 1));
  (16, 41, 0, 0, "xiUP", Some (cN 1));
  (17, 42, 0, 0, "xiUP", Some (cN 1));
  (23, 48, 0, 0, "xiUP", Some (cN (-1)));
  (24, 49, 0, 0, "xiUP", Some (cN (-1)));
  (25, 50, 0, 0, "xiUP", Some (cN (-1)));
  (26, 51, 0, 0, "xiUP", Some (cN (-1)));
  (27, 52, 0, 0, "xiUP", Some (cN (-1)));
  (28, 53, 0, 0, "xiUP", Some (cN (-1)));
  (29, 54, 0, 0, "xiUP", Some (cN (-1)));
  (30, 55, 0, 0, "xiUP", Some (cN (-1)));
  (31, 56, 0, 0, "xiUP", Some (cN (-1)));
  (32, 57, 0, 0, "xiUP", Some (cN (-1)));
  (43, 59, 0, 0, "xiUP", Some (cN 1));
  (44, 60, 0, 0, "xiUP", Some (cN 1));
  (45, 61, 0, 0, "xiUP", Some (cN 1));
  (46, 62, 0, 0, "xiUP", Some (cN 1));
  (47, 63, 0, 0, "xiUP", Some (cN 1));
  (58, 64, 0, 0, "xiUP", Some (cN (-1)));
  (1, 5, 1, 0, "xiUP", Some (cN 1));
  (2, 11, 1, 0, "xiUP", Some (cN (-1)));
  (3, 12, 1, 0, "xiUP", Some (cN (-1)));
  (4, 13, 1, 0, "xiUP", Some (cN (-1)));
  (6, 17, 1, 0, "xiUP", Some (cN 1));
  (7, 21, 1, 0, "xiUP", Some (cN 1));
  (8, 24, 1, 0, "xiUP", Some (cN 1));
  (9, 25, 1, 0, "xiUP", Some (cN 1));
  (10, 26, 1, 0, "xiUP", Some (cN 1));
  (14, 30, 1, 0, "xiUP", Some (cN (-1)));
  (15, 31, 1, 0, "xiUP", Some (cN (-1)));
  (16, 32, 1, 0, "xiUP", Some (cN (-1)));
  (18, 36, 1, 0, "xiUP", Some (cN (-1)));
  (19, 37, 1, 0, "xiUP", Some (cN (-1)));
  (20, 38, 1, 0, "xiUP", Some (cN (-1)));
  (22, 42, 1, 0, "xiUP", Some (cN 1));
  (23, 43, 1, 0, "xiUP", Some (cN (-1)));
  (27, 45, 1, 0, "xiUP", Some (cN 1));
  (28, 46, 1, 0, "xiUP", Some (cN 1));
  (29, 47, 1, 0, "xiUP", Some (cN 1));
  (33, 49, 1, 0, "xiUP", Some (cN 1));
  (34, 50, 1, 0, "xiUP", Some (cN 1));
  (35, 51, 1, 0, "xiUP", Some (cN 1));
  (39, 55, 1, 0, "xiUP", Some (cN (-1)));
  (40, 56, 1, 0, "xiUP", Some (cN (-1)));
  (41, 57, 1, 0, "xiUP", Some (cN (-1)));
  (44, 58, 1, 0, "xiUP", Some (cN (-1)));
  (48, 59, 1, 0, "xiUP", Some (cN (-1)));
  (52, 61, 1, 0, "xiUP", Some (cN 1));
  (53, 62, 1, 0, "xiUP", Some (cN 1));
  (54, 63, 1, 0, "xiUP", Some (cN 1));
  (60, 64, 1, 0, "xiUP", Some (cN (-1)));
  (1, 3, 2, 0, "xiUP", Some (cN 1));
  (2, 8, 2, 0, "xiUP", Some (cN (-1)));
  (4, 10, 2, 0, "xiUP", Some (cN 1));
  (5, 12, 2, 0, "xiUP", Some (cN 1));
  (6, 15, 2, 0, "xiUP", Some (cN 1));
  (7, 19, 2, 0, "xiUP", Some (cN 1));
  (9, 23, 2, 0, "xiUP", Some (cN (-1)));
  (11, 24, 2, 0, "xiUP", Some (cN (-1)));
  (13, 26, 2, 0, "xiUP", Some (cN 1));
  (14, 27, 2, 0, "xiUP", Some (cN (-1)));
  (16, 29, 2, 0, "xiUP", Some (cN 1));
  (17, 31, 2, 0, "xiUP", Some (cN 1));
  (18, 33, 2, 0, "xiUP", Some (cN (-1)));
  (20, 35, 2, 0, "xiUP", Some (cN 1));
  (21, 37, 2, 0, "xiUP", Some (cN 1));
  (22, 40, 2, 0, "xiUP", Some (cN 1));
  (25, 43, 2, 0, "xiUP", Some (cN (-1)));
  (28, 44, 2, 0, "xiUP", Some (cN (-1)));
  (30, 45, 2, 0, "xiUP", Some (cN (-1)));
  (32, 47, 2, 0, "xiUP", Some (cN 1));
  (34, 48, 2, 0, "xiUP", Some (cN (-1)));
  (36, 49, 2, 0, "xiUP", Some (cN (-1)));
  (38, 51, 2, 0, "xiUP", Some (cN 1));
  (39, 52, 2, 0, "xiUP", Some (cN (-1)));
  (41, 54, 2, 0, "xiUP", Some (cN 1));
  (42, 56, 2, 0, "xiUP", Some (cN 1));
  (46, 58, 2, 0, "xiUP", Some (cN (-1)));
  (50, 59, 2, 0, "xiUP", Some (cN (-1)));
  (53, 60, 2, 0, "xiUP", Some (cN (-1)));
  (55, 61, 2, 0, "xiUP", Some (cN (-1)));
  (57, 63, 2, 0, "xiUP", Some (cN 1));
  (62, 64, 2, 0, "xiUP", Some (cN (-1)));
  (1, 6, 0, 1, "xiDOWN", Some (cN 1));
  (2, 14, 0, 1, "xiDOWN", Some (cN (-1)));
  (3, 15, 0, 1, "xiDOWN", Some (cN (-1)));
  (4, 16, 0, 1, "xiDOWN", Some (cN (-1)));
  (5, 17, 0, 1, "xiDOWN", Some (cN (-1)));
  (7, 22, 0, 1, "xiDOWN", Some (cN 1));
  (8, 27, 0, 1, "xiDOWN", Some (cN 1));
  (9, 28, 0, 1, "xiDOWN", Some (cN 1));
  (10, 29, 0, 1, "xiDOWN", Some (cN 1));
  (11, 30, 0, 1, "xiDOWN", Some (cN 1));
  (12, 31, 0, 1, "xiDOWN", Some (cN 1));
  (13, 32, 0, 1, "xiDOWN", Some (cN 1));
  (18, 39, 0, 1, "xiDOWN", Some (cN (-1)));
  (19, 40, 0, 1, "xiDOWN", Some (cN (-1)));
  (20, 41, 0, 1, "xiDOWN", Some (cN (-1)));
  (21, 42, 0, 1, "xiDOWN", Some (cN (-1)));
  (23, 44, 0, 1, "xiDOWN", Some (cN (-1)));
  (24, 45, 0, 1, "xiDOWN", Some (cN (-1)));
  (25, 46, 0, 1, "xiDOWN", Some (cN (-1)));
  (26, 47, 0, 1, "xiDOWN", Some (cN (-1)));
  (33, 52, 0, 1, "xiDOWN", Some (cN 1));
  (34, 53, 0, 1, "xiDOWN", Some (cN 1));
  (35, 54, 0, 1, "xiDOWN", Some (cN 1));
  (36, 55, 0, 1, "xiDOWN", Some (cN 1));
  (37, 56, 0, 1, "xiDOWN", Some (cN 1));
  (38, 57, 0, 1, "xiDOWN", Some (cN 1));
  (43, 58, 0, 1, "xiDOWN", Some (cN 1));
  (48, 60, 0, 1, "xiDOWN", Some (cN (-1)));
  (49, 61, 0, 1, "xiDOWN", Some (cN (-1)));
  (50, 62, 0, 1, "xiDOWN", Some (cN (-1)));
  (51, 63, 0, 1, "xiDOWN", Some (cN (-1)));
  (59, 64, 0, 1, "xiDOWN", Some (cN 1));
  (1, 4, 1, 1, "xiDOWN", Some (cN 1));
  (2, 9, 1, 1, "xiDOWN", Some (cN (-1)));
  (3, 10, 1, 1, "xiDOWN", Some (cN (-1)));
  (5, 13, 1, 1, "xiDOWN", Some (cN 1));
  (6, 16, 1, 1, "xiDOWN", Some (cN 1));
  (7, 20, 1, 1, "xiDOWN", Some (cN 1));
  (8, 23, 1, 1, "xiDOWN", Some (cN 1));
  (11, 25, 1, 1, "xiDOWN", Some (cN (-1)));
  (12, 26, 1, 1, "xiDOWN", Some (cN (-1)));
  (14, 28, 1, 1, "xiDOWN", Some (cN (-1)));
  (15, 29, 1, 1, "xiDOWN", Some (cN (-1)));
  (17, 32, 1, 1, "xiDOWN", Some (cN 1));
  (18, 34, 1, 1, "xiDOWN", Some (cN (-1)));
  (19, 35, 1, 1, "xiDOWN", Some (cN (-1)));
  (21, 38, 1, 1, "xiDOWN", Some (cN 1));
  (22, 41, 1, 1, "xiDOWN", Some (cN 1));
  (24, 43, 1, 1, "xiDOWN", Some (cN 1));
  (27, 44, 1, 1, "xiDOWN", Some (cN 1));
  (30, 46, 1, 1, "xiDOWN", Some (cN (-1)));
  (31, 47, 1, 1, "xiDOWN", Some (cN (-1)));
  (33, 48, 1, 1, "xiDOWN", Some (cN 1));
  (36, 50, 1, 1, "xiDOWN", Some (cN (-1)));
  (37, 51, 1, 1, "xiDOWN", Some (cN (-1)));
  (39, 53, 1, 1, "xiDOWN", Some (cN (-1)));
  (40, 54, 1, 1, "xiDOWN", Some (cN (-1)));
  (42, 57, 1, 1, "xiDOWN", Some (cN 1));
  (45, 58, 1, 1, "xiDOWN", Some (cN 1));
  (49, 59, 1, 1, "xiDOWN", Some (cN 1));
  (52, 60, 1, 1, "xiDOWN", Some (cN 1));
  (55, 62, 1, 1, "xiDOWN", Some (cN (-1)));
  (56, 63, 1, 1, "xiDOWN", Some (cN (-1)));
  (61, 64, 1, 1, "xiDOWN", Some (cN 1));
  (1, 2, 2, 1, "xiDOWN", Some (cN 1));
  (3, 8, 2, 1, "xiDOWN", Some (cN 1));
  (4, 9, 2, 1, "xiDOWN", Some (cN 1));
  (5, 11, 2, 1, "xiDOWN", Some (cN 1));
  (6, 14, 2, 1, "xiDOWN", Some (cN 1));
  (7, 18, 2, 1, "xiDOWN", Some (cN 1));
  (10, 23, 2, 1, "xiDOWN", Some (cN 1));
  (12, 24, 2, 1, "xiDOWN", Some (cN 1));
  (13, 25, 2, 1, "xiDOWN", Some (cN 1));
  (15, 27, 2, 1, "xiDOWN", Some (cN 1));
  (16, 28, 2, 1, "xiDOWN", Some (cN 1));
  (17, 30, 2, 1, "xiDOWN", Some (cN 1));
  (19, 33, 2, 1, "xiDOWN", Some (cN 1));
  (20, 34, 2, 1, "xiDOWN", Some (cN 1));
  (21, 36, 2, 1, "xiDOWN", Some (cN 1));
  (22, 39, 2, 1, "xiDOWN", Some (cN 1));
  (26, 43, 2, 1, "xiDOWN", Some (cN 1));
  (29, 44, 2, 1, "xiDOWN", Some (cN 1));
  (31, 45, 2, 1, "xiDOWN", Some (cN 1));
  (32, 46, 2, 1, "xiDOWN", Some (cN 1));
  (35, 48, 2, 1, "xiDOWN", Some (cN 1));
  (37, 49, 2, 1, "xiDOWN", Some (cN 1));
  (38, 50, 2, 1, "xiDOWN", Some (cN 1));
  (40, 52, 2, 1, "xiDOWN", Some (cN 1));
  (41, 53, 2, 1, "xiDOWN", Some (cN 1));
  (42, 55, 2, 1, "xiDOWN", Some (cN 1));
  (47, 58, 2, 1, "xiDOWN", Some (cN 1));
  (51, 59, 2, 1, "xiDOWN", Some (cN 1));
  (54, 60, 2, 1, "xiDOWN", Some (cN 1));
  (56, 61, 2, 1, "xiDOWN", Some (cN 1));
  (57, 62, 2, 1, "xiDOWN", Some (cN 1));
  (63, 64, 2, 1, "xiDOWN", Some (cN 1));
  (1, 6, 0, 0, "xiUPDO", Some (cN 1));
  (2, 14, 0, 0, "xiUPDO", Some (cN (-1)));
  (3, 15, 0, 0, "xiUPDO", Some (cN (-1)));
  (4, 16, 0, 0, "xiUPDO", Some (cN (-1)));
  (5, 17, 0, 0, "xiUPDO", Some (cN (-1)));
  (7, 22, 0, 0, "xiUPDO", Some (cN 1));
  (8, 27, 0, 0, "xiUPDO", Some (cN 1));
  (9, 28, 0, 0, "xiUPDO", Some (cN 1));
  (10, 29, 0, 0, "xiUPDO", Some (cN 1));
  (11, 30, 0, 0, "xiUPDO", Some (cN 1));
  (12, 31, 0, 0, "xiUPDO", Some (cN 1));
  (13, 32, 0, 0, "xiUPDO", Some (cN 1));
  (18, 39, 0, 0, "xiUPDO", Some (cN (-1)));
  (19, 40, 0, 0, "xiUPDO", Some (cN (-1)));
  (20, 41, 0, 0, "xiUPDO", Some (cN (-1)));
  (21, 42, 0, 0, "xiUPDO", Some (cN (-1)));
  (23, 44, 0, 0, "xiUPDO", Some (cN (-1)));
  (24, 45, 0, 0, "xiUPDO", Some (cN (-1)));
  (25, 46, 0, 0, "xiUPDO", Some (cN (-1)));
  (26, 47, 0, 0, "xiUPDO", Some (cN (-1)));
  (33, 52, 0, 0, "xiUPDO", Some (cN 1));
  (34, 53, 0, 0, "xiUPDO", Some (cN 1));
  (35, 54, 0, 0, "xiUPDO", Some (cN 1));
  (36, 55, 0, 0, "xiUPDO", Some (cN 1));
  (37, 56, 0, 0, "xiUPDO", Some (cN 1));
  (38, 57, 0, 0, "xiUPDO", Some (cN 1));
  (43, 58, 0, 0, "xiUPDO", Some (cN 1));
  (48, 60, 0, 0, "xiUPDO", Some (cN (-1)));
  (49, 61, 0, 0, "xiUPDO", Some (cN (-1)));
  (50, 62, 0, 0, "xiUPDO", Some (cN (-1)));
  (51, 63, 0, 0, "xiUPDO", Some (cN (-1)));
  (59, 64, 0, 0, "xiUPDO", Some (cN 1));
  (1, 4, 1, 0, "xiUPDO", Some (cN 1));
  (2, 9, 1, 0, "xiUPDO", Some (cN (-1)));
  (3, 10, 1, 0, "xiUPDO", Some (cN (-1)));
  (5, 13, 1, 0, "xiUPDO", Some (cN 1));
  (6, 16, 1, 0, "xiUPDO", Some (cN 1));
  (7, 20, 1, 0, "xiUPDO", Some (cN 1));
  (8, 23, 1, 0, "xiUPDO", Some (cN 1));
  (11, 25, 1, 0, "xiUPDO", Some (cN (-1)));
  (12, 26, 1, 0, "xiUPDO", Some (cN (-1)));
  (14, 28, 1, 0, "xiUPDO", Some (cN (-1)));
  (15, 29, 1, 0, "xiUPDO", Some (cN (-1)));
  (17, 32, 1, 0, "xiUPDO", Some (cN 1));
  (18, 34, 1, 0, "xiUPDO", Some (cN (-1)));
  (19, 35, 1, 0, "xiUPDO", Some (cN (-1)));
  (21, 38, 1, 0, "xiUPDO", Some (cN 1));
  (22, 41, 1, 0, "xiUPDO", Some (cN 1));
  (24, 43, 1, 0, "xiUPDO", Some (cN 1));
  (27, 44, 1, 0, "xiUPDO", Some (cN 1));
  (30, 46, 1, 0, "xiUPDO", Some (cN (-1)));
  (31, 47, 1, 0, "xiUPDO", Some (cN (-1)));
  (33, 48, 1, 0, "xiUPDO", Some (cN 1));
  (36, 50, 1, 0, "xiUPDO", Some (cN (-1)));
  (37, 51, 1, 0, "xiUPDO", Some (cN (-1)));
  (39, 53, 1, 0, "xiUPDO", Some (cN (-1)));
  (40, 54, 1, 0, "xiUPDO", Some (cN (-1)));
  (42, 57, 1, 0, "xiUPDO", Some (cN 1));
  (45, 58, 1, 0, "xiUPDO", Some (cN 1));
  (49, 59, 1, 0, "xiUPDO", Some (cN 1));
  (52, 60, 1, 0, "xiUPDO", Some (cN 1));
  (55, 62, 1, 0, "xiUPDO", Some (cN (-1)));
  (56, 63, 1, 0, "xiUPDO", Some (cN (-1)));
  (61, 64, 1, 0, "xiUPDO", Some (cN 1));
  (1, 2, 2, 0, "xiUPDO", Some (cN 1));
  (3, 8, 2, 0, "xiUPDO", Some (cN 1));
  (4, 9, 2, 0, "xiUPDO", Some (cN 1));
  (5, 11, 2, 0, "xiUPDO", Some (cN 1));
  (6, 14, 2, 0, "xiUPDO", Some (cN 1));
  (7, 18, 2, 0, "xiUPDO", Some (cN 1));
  (10, 23, 2, 0, "xiUPDO", Some (cN 1));
  (12, 24, 2, 0, "xiUPDO", Some (cN 1));
  (13, 25, 2, 0, "xiUPDO", Some (cN 1));
  (15, 27, 2, 0, "xiUPDO", Some (cN 1));
  (16, 28, 2, 0, "xiUPDO", Some (cN 1));
  (17, 30, 2, 0, "xiUPDO", Some (cN 1));
  (19, 33, 2, 0, "xiUPDO", Some (cN 1));
  (20, 34, 2, 0, "xiUPDO", Some (cN 1));
  (21, 36, 2, 0, "xiUPDO", Some (cN 1));
  (22, 39, 2, 0, "xiUPDO", Some (cN 1));
  (26, 43, 2, 0, "xiUPDO", Some (cN 1));
  (29, 44, 2, 0, "xiUPDO", Some (cN 1));
  (31, 45, 2, 0, "xiUPDO", Some (cN 1));
  (32, 46, 2, 0, "xiUPDO", Some (cN 1));
  (35, 48, 2, 0, "xiUPDO", Some (cN 1));
  (37, 49, 2, 0, "xiUPDO", Some (cN 1));
  (38, 50, 2, 0, "xiUPDO", Some (cN 1));
  (40, 52, 2, 0, "xiUPDO", Some (cN 1));
  (41, 53, 2, 0, "xiUPDO", Some (cN 1));
  (42, 55, 2, 0, "xiUPDO", Some (cN 1));
  (47, 58, 2, 0, "xiUPDO", Some (cN 1));
  (51, 59, 2, 0, "xiUPDO", Some (cN 1));
  (54, 60, 2, 0, "xiUPDO", Some (cN 1));
  (56, 61, 2, 0, "xiUPDO", Some (cN 1));
  (57, 62, 2, 0, "xiUPDO", Some (cN 1));
  (63, 64, 2, 0, "xiUPDO", Some (cN 1));
  (1, 7, 0, 1, "xiDOUP", Some (cN 1));
  (2, 18, 0, 1, "xiDOUP", Some (cN (-1)));
  (3, 19, 0, 1, "xiDOUP", Some (cN (-1)));
  (4, 20, 0, 1, "xiDOUP", Some (cN (-1)));
  (5, 21, 0, 1, "xiDOUP", Some (cN (-1)));
  (6, 22, 0, 1, "xiDOUP", Some (cN (-1)));
  (8, 33, 0, 1, "xiDOUP", Some (cN 1));
  (9, 34, 0, 1, "xiDOUP", Some (cN 1));
  (10, 35, 0, 1, "xiDOUP", Some (cN 1));
  (11, 36, 0, 1, "xiDOUP", Some (cN 1));
  (12, 37, 0, 1, "xiDOUP", Some (cN 1));
  (13, 38, 0, 1, "xiDOUP", Some (cN 1));
  (14, 39, 0, 1, "xiDOUP", Some (cN 1));
  (15, 40, 0, 1, "xiDOUP", Some (cN 1));
  (16, 41, 0, 1, "xiDOUP", Some (cN 1));
  (17, 42, 0, 1, "xiDOUP", Some (cN 1));
  (23, 48, 0, 1, "xiDOUP", Some (cN (-1)));
  (24, 49, 0, 1, "xiDOUP", Some (cN (-1)));
  (25, 50, 0, 1, "xiDOUP", Some (cN (-1)));
  (26, 51, 0, 1, "xiDOUP", Some (cN (-1)));
  (27, 52, 0, 1, "xiDOUP", Some (cN (-1)));
  (28, 53, 0, 1, "xiDOUP", Some (cN (-1)));
  (29, 54, 0, 1, "xiDOUP", Some (cN (-1)));
  (30, 55, 0, 1, "xiDOUP", Some (cN (-1)));
  (31, 56, 0, 1, "xiDOUP", Some (cN (-1)));
  (32, 57, 0, 1, "xiDOUP", Some (cN (-1)));
  (43, 59, 0, 1, "xiDOUP", Some (cN 1));
  (44, 60, 0, 1, "xiDOUP", Some (cN 1));
  (45, 61, 0, 1, "xiDOUP", Some (cN 1));
  (46, 62, 0, 1, "xiDOUP", Some (cN 1));
  (47, 63, 0, 1, "xiDOUP", Some (cN 1));
  (58, 64, 0, 1, "xiDOUP", Some (cN (-1)));
  (1, 5, 1, 1, "xiDOUP", Some (cN 1));
  (2, 11, 1, 1, "xiDOUP", Some (cN (-1)));
  (3, 12, 1, 1, "xiDOUP", Some (cN (-1)));
  (4, 13, 1, 1, "xiDOUP", Some (cN (-1)));
  (6, 17, 1, 1, "xiDOUP", Some (cN 1));
  (7, 21, 1, 1, "xiDOUP", Some (cN 1));
  (8, 24, 1, 1, "xiDOUP", Some (cN 1));
  (9, 25, 1, 1, "xiDOUP", Some (cN 1));
  (10, 26, 1, 1, "xiDOUP", Some (cN 1));
  (14, 30, 1, 1, "xiDOUP", Some (cN (-1)));
  (15, 31, 1, 1, "xiDOUP", Some (cN (-1)));
  (16, 32, 1, 1, "xiDOUP", Some (cN (-1)));
  (18, 36, 1, 1, "xiDOUP", Some (cN (-1)));
  (19, 37, 1, 1, "xiDOUP", Some (cN (-1)));
  (20, 38, 1, 1, "xiDOUP", Some (cN (-1)));
  (22, 42, 1, 1, "xiDOUP", Some (cN 1));
  (23, 43, 1, 1, "xiDOUP", Some (cN (-1)));
  (27, 45, 1, 1, "xiDOUP", Some (cN 1));
  (28, 46, 1, 1, "xiDOUP", Some (cN 1));
  (29, 47, 1, 1, "xiDOUP", Some (cN 1));
  (33, 49, 1, 1, "xiDOUP", Some (cN 1));
  (34, 50, 1, 1, "xiDOUP", Some (cN 1));
  (35, 51, 1, 1, "xiDOUP", Some (cN 1));
  (39, 55, 1, 1, "xiDOUP", Some (cN (-1)));
  (40, 56, 1, 1, "xiDOUP", Some (cN (-1)));
  (41, 57, 1, 1, "xiDOUP", Some (cN (-1)));
  (44, 58, 1, 1, "xiDOUP", Some (cN (-1)));
  (48, 59, 1, 1, "xiDOUP", Some (cN (-1)));
  (52, 61, 1, 1, "xiDOUP", Some (cN 1));
  (53, 62, 1, 1, "xiDOUP", Some (cN 1));
  (54, 63, 1, 1, "xiDOUP", Some (cN 1));
  (60, 64, 1, 1, "xiDOUP", Some (cN (-1)));
  (1, 3, 2, 1, "xiDOUP", Some (cN 1));
  (2, 8, 2, 1, "xiDOUP", Some (cN (-1)));
  (4, 10, 2, 1, "xiDOUP", Some (cN 1));
  (5, 12, 2, 1, "xiDOUP", Some (cN 1));
  (6, 15, 2, 1, "xiDOUP", Some (cN 1));
  (7, 19, 2, 1, "xiDOUP", Some (cN 1));
  (9, 23, 2, 1, "xiDOUP", Some (cN (-1)));
  (11, 24, 2, 1, "xiDOUP", Some (cN (-1)));
  (13, 26, 2, 1, "xiDOUP", Some (cN 1));
  (14, 27, 2, 1, "xiDOUP", Some (cN (-1)));
  (16, 29, 2, 1, "xiDOUP", Some (cN 1));
  (17, 31, 2, 1, "xiDOUP", Some (cN 1));
  (18, 33, 2, 1, "xiDOUP", Some (cN (-1)));
  (20, 35, 2, 1, "xiDOUP", Some (cN 1));
  (21, 37, 2, 1, "xiDOUP", Some (cN 1));
  (22, 40, 2, 1, "xiDOUP", Some (cN 1));
  (25, 43, 2, 1, "xiDOUP", Some (cN (-1)));
  (28, 44, 2, 1, "xiDOUP", Some (cN (-1)));
  (30, 45, 2, 1, "xiDOUP", Some (cN (-1)));
  (32, 47, 2, 1, "xiDOUP", Some (cN 1));
  (34, 48, 2, 1, "xiDOUP", Some (cN (-1)));
  (36, 49, 2, 1, "xiDOUP", Some (cN (-1)));
  (38, 51, 2, 1, "xiDOUP", Some (cN 1));
  (39, 52, 2, 1, "xiDOUP", Some (cN (-1)));
  (41, 54, 2, 1, "xiDOUP", Some (cN 1));
  (42, 56, 2, 1, "xiDOUP", Some (cN 1));
  (46, 58, 2, 1, "xiDOUP", Some (cN (-1)));
  (50, 59, 2, 1, "xiDOUP", Some (cN (-1)));
  (53, 60, 2, 1, "xiDOUP", Some (cN (-1)));
  (55, 61, 2, 1, "xiDOUP", Some (cN (-1)));
  (57, 63, 2, 1, "xiDOUP", Some (cN 1));
  (62, 64, 2, 1, "xiDOUP", Some (cN (-1)))].
(** /repo/c++/symmetry/sym-U1-impl.hpp, make_matrix_pol2x2  *)
Definition u1_3ch_m1_d : list diag_line := [
  (1, 0, "zetaUP half", Some (cN 0));
  (2, 0, "zetaUP half", Some (cN 0));
  (3, 0, "zetaUP half", Some (cN 0));
  (4, 0, "zetaUP half", Some (cN 0));
  (5, 0, "zetaUP half", Some (cN 0));
  (6, 0, "zetaUP half", Some (cN 0));
  (7, 0, "zetaUP half", Some (cN 1));
  (8, 0, "zetaUP half", Some (cN 0));
  (9, 0, "zetaUP half", Some (cN 0));
  (10, 0, "zetaUP half", Some (cN 0));
  (11, 0, "zetaUP half", Some (cN 0));
  (12, 0, "zetaUP half", Some (cN 0));
  (13, 0, "zetaUP half", Some (cN 0));
  (14, 0, "zetaUP half", Some (cN 0));
  (15, 0, "zetaUP half", Some (cN 0));
  (16, 0, "zetaUP half", Some (cN 0));
  (17, 0, "zetaUP half", Some (cN 0));
  (18, 0, "zetaUP half", Some (cN 1));
  (19, 0, "zetaUP half", Some (cN 1));
  (20, 0, "zetaUP half", Some (cN 1));
  (21, 0, "zetaUP half", Some (cN 1));
  (22, 0, "zetaUP half", Some (cN 1));
  (23, 0, "zetaUP half", Some (cN 0));
  (24, 0, "zetaUP half", Some (cN 0));
  (25, 0, "zetaUP half", Some (cN 0));
  (26, 0, "zetaUP half", Some (cN 0));
  (27, 0, "zetaUP half", Some (cN 0));
  (28, 0, "zetaUP half", Some (cN 0));
  (29, 0, "zetaUP half", Some (cN 0));
  (30, 0, "zetaUP half", Some (cN 0));
  (31, 0, "zetaUP half", Some (cN 0));
  (32, 0, "zetaUP half", Some (cN 0));
  (33, 0, "zetaUP half", Some (cN 1));
  (34, 0, "zetaUP half", Some (cN 1));
  (35, 0, "zetaUP half", Some (cN 1));
  (36, 0, "zetaUP half", Some (cN 1));
  (37, 0, "zetaUP half", Some (cN 1));
  (38, 0, "zetaUP half", Some (cN 1));
  (39, 0, "zetaUP half", Some (cN 1));
  (40, 0, "zetaUP half", Some (cN 1));
  (41, 0, "zetaUP half", Some (cN 1));
  (42, 0, "zetaUP half", Some (cN 1));
  (43, 0, "zetaUP half", Some (cN 0));
  (44, 0, "zetaUP half", Some (cN 0));
  (45, 0, "zetaUP half", Some (cN 0));
  (46, 0, "zetaUP half", Some (cN 0));
  (47, 0, "zetaUP half", Some (cN 0));
  (48, 0, "zetaUP half", Some (cN 1));
  (49, 0, "zetaUP half", Some (cN 1));
  (50, 0, "zetaUP half", Some (cN 1));
  (51, 0, "zetaUP half", Some (cN 1));
  (52, 0, "zetaUP half", Some (cN 1));
  (53, 0, "zetaUP half", Some (cN 1));
  (54, 0, "zetaUP half", Some (cN 1));
  (55, 0, "zetaUP half", Some (cN 1));
  (56, 0, "zetaUP half", Some (cN 1));
  (57, 0, "zetaUP half", Some (cN 1));
  (58, 0, "zetaUP half", Some (cN 0));
  (59, 0, "zetaUP half", Some (cN 1));
  (60, 0, "zetaUP half", Some (cN 1));
  (61, 0, "zetaUP half", Some (cN 1));
  (62, 0, "zetaUP half", Some (cN 1));
  (63, 0, "zetaUP half", Some (cN 1));
  (64, 0, "zetaUP half", Some (cN 1));
  (1, 1, "zetaUP half", Some (cN 0));
  (2, 1, "zetaUP half", Some (cN 0));
  (3, 1, "zetaUP half", Some (cN 0));
  (4, 1, "zetaUP half", Some (cN 0));
  (5, 1, "zetaUP half", Some (cN 1));
  (6, 1, "zetaUP half", Some (cN 0));
  (7, 1, "zetaUP half", Some (cN 0));
  (8, 1, "zetaUP half", Some (cN 0));
  (9, 1, "zetaUP half", Some (cN 0));
  (10, 1, "zetaUP half", Some (cN 0));
  (11, 1, "zetaUP half", Some (cN 1));
  (12, 1, "zetaUP half", Some (cN 1));
  (13, 1, "zetaUP half", Some (cN 1));
  (14, 1, "zetaUP half", Some (cN 0));
  (15, 1, "zetaUP half", Some (cN 0));
  (16, 1, "zetaUP half", Some (cN 0));
  (17, 1, "zetaUP half", Some (cN 1));
  (18, 1, "zetaUP half", Some (cN 0));
  (19, 1, "zetaUP half", Some (cN 0));
  (20, 1, "zetaUP half", Some (cN 0));
  (21, 1, "zetaUP half", Some (cN 1));
  (22, 1, "zetaUP half", Some (cN 0));
  (23, 1, "zetaUP half", Some (cN 0));
  (24, 1, "zetaUP half", Some (cN 1));
  (25, 1, "zetaUP half", Some (cN 1));
  (26, 1, "zetaUP half", Some (cN 1));
  (27, 1, "zetaUP half", Some (cN 0));
  (28, 1, "zetaUP half", Some (cN 0));
  (29, 1, "zetaUP half", Some (cN 0));
  (30, 1, "zetaUP half", Some (cN 1));
  (31, 1, "zetaUP half", Some (cN 1));
  (32, 1, "zetaUP half", Some (cN 1));
  (33, 1, "zetaUP half", Some (cN 0));
  (34, 1, "zetaUP half", Some (cN 0));
  (35, 1, "zetaUP half", Some (cN 0));
  (36, 1, "zetaUP half", Some (cN 1));
  (37, 1, "zetaUP half", Some (cN 1));
  (38, 1, "zetaUP half", Some (cN 1));
  (39, 1, "zetaUP half", Some (cN 0));
  (40, 1, "zetaUP half", Some (cN 0));
  (41, 1, "zetaUP half", Some (cN 0));
  (42, 1, "zetaUP half", Some (cN 1));
  (43, 1, "zetaUP half", Some (cN 1));
  (44, 1, "zetaUP half", Some (cN 0));
  (45, 1, "zetaUP half", Some (cN 1));
  (46, 1, "zetaUP half", Some (cN 1));
  (47, 1, "zetaUP half", Some (cN 1));
  (48, 1, "zetaUP half", Some (cN 0));
  (49, 1, "zetaUP half", Some (cN 1));
  (50, 1, "zetaUP half", Some (cN 1));
  (51, 1, "zetaUP half", Some (cN 1));
  (52, 1, "zetaUP half", Some (cN 0));
  (53, 1, "zetaUP half", Some (cN 0));
  (54, 1, "zetaUP half", Some (cN 0));
  (55, 1, "zetaUP half", Some (cN 1));
  (56, 1, "zetaUP half", Some (cN 1));
  (57, 1, "zetaUP half", Some (cN 1));
  (58, 1, "zetaUP half", Some (cN 1));
  (59, 1, "zetaUP half", Some (cN 1));
  (60, 1, "zetaUP half", Some (cN 0));
  (61, 1, "zetaUP half", Some (cN 1));
  (62, 1, "zetaUP half", Some (cN 1));
  (63, 1, "zetaUP half", Some (cN 1));
  (64, 1, "zetaUP half", Some (cN 1));
  (1, 2, "zetaUP half", Some (cN 0));
  (2, 2, "zetaUP half", Some (cN 0));
  (3, 2, "zetaUP half", Some (cN 1));
  (4, 2, "zetaUP half", Some (cN 0));
  (5, 2, "zetaUP half", Some (cN 0));
  (6, 2, "zetaUP half", Some (cN 0));
  (7, 2, "zetaUP half", Some (cN 0));
  (8, 2, "zetaUP half", Some (cN 1));
  (9, 2, "zetaUP half", Some (cN 0));
  (10, 2, "zetaUP half", Some (cN 1));
  (11, 2, "zetaUP half", Some (cN 0));
  (12, 2, "zetaUP half", Some (cN 1));
  (13, 2, "zetaUP half", Some (cN 0));
  (14, 2, "zetaUP half", Some (cN 0));
  (15, 2, "zetaUP half", Some (cN 1));
  (16, 2, "zetaUP half", Some (cN 0));
  (17, 2, "zetaUP half", Some (cN 0));
  (18, 2, "zetaUP half", Some (cN 0));
  (19, 2, "zetaUP half", Some (cN 1));
  (20, 2, "zetaUP half", Some (cN 0));
  (21, 2, "zetaUP half", Some (cN 0));
  (22, 2, "zetaUP half", Some (cN 0));
  (23, 2, "zetaUP half", Some (cN 1));
  (24, 2, "zetaUP half", Some (cN 1));
  (25, 2, "zetaUP half", Some (cN 0));
  (26, 2, "zetaUP half", Some (cN 1));
  (27, 2, "zetaUP half", Some (cN 1));
  (28, 2, "zetaUP half", Some (cN 0));
  (29, 2, "zetaUP half", Some (cN 1));
  (30, 2, "zetaUP half", Some (cN 0));
  (31, 2, "zetaUP half", Some (cN 1));
  (32, 2, "zetaUP half", Some (cN 0));
  (33, 2, "zetaUP half", Some (cN 1));
  (34, 2, "zetaUP half", Some (cN 0));
  (35, 2, "zetaUP half", Some (cN 1));
  (36, 2, "zetaUP half", Some (cN 0));
  (37, 2, "zetaUP half", Some (cN 1));
  (38, 2, "zetaUP half", Some (cN 0));
  (39, 2, "zetaUP half", Some (cN 0));
  (40, 2, "zetaUP half", Some (cN 1));
  (41, 2, "zetaUP half", Some (cN 0));
  (42, 2, "zetaUP half", Some (cN 0));
  (43, 2, "zetaUP half", Some (cN 1));
  (44, 2, "zetaUP half", Some (cN 1));
  (45, 2, "zetaUP half", Some (cN 1));
  (46, 2, "zetaUP half", Some (cN 0));
  (47, 2, "zetaUP half", Some (cN 1));
  (48, 2, "zetaUP half", Some (cN 1));
  (49, 2, "zetaUP half", Some (cN 1));
  (50, 2, "zetaUP half", Some (cN 0));
  (51, 2, "zetaUP half", Some (cN 1));
  (52, 2, "zetaUP half", Some (cN 1));
  (53, 2, "zetaUP half", Some (cN 0));
  (54, 2, "zetaUP half", Some (cN 1));
  (55, 2, "zetaUP half", Some (cN 0));
  (56, 2, "zetaUP half", Some (cN 1));
  (57, 2, "zetaUP half", Some (cN 0));
  (58, 2, "zetaUP half", Some (cN 1));
  (59, 2, "zetaUP half", Some (cN 1));
  (60, 2, "zetaUP half", Some (cN 1));
  (61, 2, "zetaUP half", Some (cN 1));
  (62, 2, "zetaUP half", Some (cN 0));
  (63, 2, "zetaUP half", Some (cN 1));
  (64, 2, "zetaUP half", Some (cN 1));
  (1, 0, "zetaDOWN half", Some (cN 0));
  (2, 0, "zetaDOWN half", Some (cN 0));
  (3, 0, "zetaDOWN half", Some (cN 0));
  (4, 0, "zetaDOWN half", Some (cN 0));
  (5, 0, "zetaDOWN half", Some (cN 0));
  (6, 0, "zetaDOWN half", Some (cN 1));
  (7, 0, "zetaDOWN half", Some (cN 0));
  (8, 0, "zetaDOWN half", Some (cN 0));
  (9, 0, "zetaDOWN half", Some (cN 0));
  (10, 0, "zetaDOWN half", Some (cN 0));
  (11, 0, "zetaDOWN half", Some (cN 0));
  (12, 0, "zetaDOWN half", Some (cN 0));
  (13, 0, "zetaDOWN half", Some (cN 0));
  (14, 0, "zetaDOWN half", Some (cN 1));
  (15, 0, "zetaDOWN half", Some (cN 1));
  (16, 0, "zetaDOWN half", Some (cN 1));
  (17, 0, "zetaDOWN half", Some (cN 1));
  (18, 0, "zetaDOWN half", Some (cN 0));
  (19, 0, "zetaDOWN half", Some (cN 0));
  (20, 0, "zetaDOWN half", Some (cN 0));
  (21, 0, "zetaDOWN half", Some (cN 0));
  (22, 0, "zetaDOWN half", Some (cN 1));
  (23, 0, "zetaDOWN half", Some (cN 0));
  (24, 0, "zetaDOWN half", Some (cN 0));
  (25, 0, "zetaDOWN half", Some (cN 0));
  (26, 0, "zetaDOWN half", Some (cN 0));
  (27, 0, "zetaDOWN half", Some (cN 1));
  (28, 0, "zetaDOWN half", Some (cN 1));
  (29, 0, "zetaDOWN half", Some (cN 1));
  (30, 0, "zetaDOWN half", Some (cN 1));
  (31, 0, "zetaDOWN half", Some (cN 1));
  (32, 0, "zetaDOWN half", Some (cN 1));
  (33, 0, "zetaDOWN half", Some (cN 0));
  (34, 0, "zetaDOWN half", Some (cN 0));
  (35, 0, "zetaDOWN half", Some (cN 0));
  (36, 0, "zetaDOWN half", Some (cN 0));
  (37, 0, "zetaDOWN half", Some (cN 0));
  (38, 0, "zetaDOWN half", Some (cN 0));
  (39, 0, "zetaDOWN half", Some (cN 1));
  (40, 0, "zetaDOWN half", Some (cN 1));
  (41, 0, "zetaDOWN half", Some (cN 1));
  (42, 0, "zetaDOWN half", Some (cN 1));
  (43, 0, "zetaDOWN half", Some (cN 0));
  (44, 0, "zetaDOWN half", Some (cN 1));
  (45, 0, "zetaDOWN half", Some (cN 1));
  (46, 0, "zetaDOWN half", Some (cN 1));
  (47, 0, "zetaDOWN half", Some (cN 1));
  (48, 0, "zetaDOWN half", Some (cN 0));
  (49, 0, "zetaDOWN half", Some (cN 0));
  (50, 0, "zetaDOWN half", Some (cN 0));
  (51, 0, "zetaDOWN half", Some (cN 0));
  (52, 0, "zetaDOWN half", Some (cN 1));
  (53, 0, "zetaDOWN half", Some (cN 1));
  (54, 0, "zetaDOWN half", Some (cN 1));
  (55, 0, "zetaDOWN half", Some (cN 1));
  (56, 0, "zetaDOWN half", Some (cN 1));
  (57, 0, "zetaDOWN half", Some (cN 1));
  (58, 0, "zetaDOWN half", Some (cN 1));
  (59, 0, "zetaDOWN half", Some (cN 0));
  (60, 0, "zetaDOWN half", Some (cN 1));
  (61, 0, "zetaDOWN half", Some (cN 1));
  (62, 0, "zetaDOWN half", Some (cN 1));
  (63, 0, "zetaDOWN half", Some (cN 1));
  (64, 0, "zetaDOWN half", Some (cN 1));
  (1, 1, "zetaDOWN half", Some (cN 0));
  (2, 1, "zetaDOWN half", Some (cN 0));
  (3, 1, "zetaDOWN half", Some (cN 0));
  (4, 1, "zetaDOWN half", Some (cN 1));
  (5, 1, "zetaDOWN half", Some (cN 0));
  (6, 1, "zetaDOWN half", Some (cN 0));
  (7, 1, "zetaDOWN half", Some (cN 0));
  (8, 1, "zetaDOWN half", Some (cN 0));
  (9, 1, "zetaDOWN half", Some (cN 1));
  (10, 1, "zetaDOWN half", Some (cN 1));
  (11, 1, "zetaDOWN half", Some (cN 0));
  (12, 1, "zetaDOWN half", Some (cN 0));
  (13, 1, "zetaDOWN half", Some (cN 1));
  (14, 1, "zetaDOWN half", Some (cN 0));
  (15, 1, "zetaDOWN half", Some (cN 0));
  (16, 1, "zetaDOWN half", Some (cN 1));
  (17, 1, "zetaDOWN half", Some (cN 0));
  (18, 1, "zetaDOWN half", Some (cN 0));
  (19, 1, "zetaDOWN half", Some (cN 0));
  (20, 1, "zetaDOWN half", Some (cN 1));
  (21, 1, "zetaDOWN half", Some (cN 0));
  (22, 1, "zetaDOWN half", Some (cN 0));
  (23, 1, "zetaDOWN half", Some (cN 1));
  (24, 1, "zetaDOWN half", Some (cN 0));
  (25, 1, "zetaDOWN half", Some (cN 1));
  (26, 1, "zetaDOWN half", Some (cN 1));
  (27, 1, "zetaDOWN half", Some (cN 0));
  (28, 1, "zetaDOWN half", Some (cN 1));
  (29, 1, "zetaDOWN half", Some (cN 1));
  (30, 1, "zetaDOWN half", Some (cN 0));
  (31, 1, "zetaDOWN half", Some (cN 0));
  (32, 1, "zetaDOWN half", Some (cN 1));
  (33, 1, "zetaDOWN half", Some (cN 0));
  (34, 1, "zetaDOWN half", Some (cN 1));
  (35, 1, "zetaDOWN half", Some (cN 1));
  (36, 1, "zetaDOWN half", Some (cN 0));
  (37, 1, "zetaDOWN half", Some (cN 0));
  (38, 1, "zetaDOWN half", Some (cN 1));
  (39, 1, "zetaDOWN half", Some (cN 0));
  (40, 1, "zetaDOWN half", Some (cN 0));
  (41, 1, "zetaDOWN half", Some (cN 1));
  (42, 1, "zetaDOWN half", Some (cN 0));
  (43, 1, "zetaDOWN half", Some (cN 1));
  (44, 1, "zetaDOWN half", Some (cN 1));
  (45, 1, "zetaDOWN half", Some (cN 0));
  (46, 1, "zetaDOWN half", Some (cN 1));
  (47, 1, "zetaDOWN half", Some (cN 1));
  (48, 1, "zetaDOWN half", Some (cN 1));
  (49, 1, "zetaDOWN half", Some (cN 0));
  (50, 1, "zetaDOWN half", Some (cN 1));
  (51, 1, "zetaDOWN half", Some (cN 1));
  (52, 1, "zetaDOWN half", Some (cN 0));
  (53, 1, "zetaDOWN half", Some (cN 1));
  (54, 1, "zetaDOWN half", Some (cN 1));
  (55, 1, "zetaDOWN half", Some (cN 0));
  (56, 1, "zetaDOWN half", Some (cN 0));
  (57, 1, "zetaDOWN half", Some (cN 1));
  (58, 1, "zetaDOWN half", Some (cN 1));
  (59, 1, "zetaDOWN half", Some (cN 1));
  (60, 1, "zetaDOWN half", Some (cN 1));
  (61, 1, "zetaDOWN half", Some (cN 0));
  (62, 1, "zetaDOWN half", Some (cN 1));
  (63, 1, "zetaDOWN half", Some (cN 1));
  (64, 1, "zetaDOWN half", Some (cN 1));
  (1, 2, "zetaDOWN half", Some (cN 0));
  (2, 2, "zetaDOWN half", Some (cN 1));
  (3, 2, "zetaDOWN half", Some (cN 0));
  (4, 2, "zetaDOWN half", Some (cN 0));
  (5, 2, "zetaDOWN half", Some (cN 0));
  (6, 2, "zetaDOWN half", Some (cN 0));
  (7, 2, "zetaDOWN half", Some (cN 0));
  (8, 2, "zetaDOWN half", Some (cN 1));
  (9, 2, "zetaDOWN half", Some (cN 1));
  (10, 2, "zetaDOWN half", Some (cN 0));
  (11, 2, "zetaDOWN half", Some (cN 1));
  (12, 2, "zetaDOWN half", Some (cN 0));
  (13, 2, "zetaDOWN half", Some (cN 0));
  (14, 2, "zetaDOWN half", Some (cN 1));
  (15, 2, "zetaDOWN half", Some (cN 0));
  (16, 2, "zetaDOWN half", Some (cN 0));
  (17, 2, "zetaDOWN half", Some (cN 0));
  (18, 2, "zetaDOWN half", Some (cN 1));
  (19, 2, "zetaDOWN half", Some (cN 0));
  (20, 2, "zetaDOWN half", Some (cN 0));
  (21, 2, "zetaDOWN half", Some (cN 0));
  (22, 2, "zetaDOWN half", Some (cN 0));
  (23, 2, "zetaDOWN half", Some (cN 1));
  (24, 2, "zetaDOWN half", Some (cN 1));
  (25, 2, "zetaDOWN half", Some (cN 1));
  (26, 2, "zetaDOWN half", Some (cN 0));
  (27, 2, "zetaDOWN half", Some (cN 1));
  (28, 2, "zetaDOWN half", Some (cN 1));
  (29, 2, "zetaDOWN half", Some (cN 0));
  (30, 2, "zetaDOWN half", Some (cN 1));
  (31, 2, "zetaDOWN half", Some (cN 0));
  (32, 2, "zetaDOWN half", Some (cN 0));
  (33, 2, "zetaDOWN half", Some (cN 1));
  (34, 2, "zetaDOWN half", Some (cN 1));
  (35, 2, "zetaDOWN half", Some (cN 0));
  (36, 2, "zetaDOWN half", Some (cN 1));
  (37, 2, "zetaDOWN half", Some (cN 0));
  (38, 2, "zetaDOWN half", Some (cN 0));
  (39, 2, "zetaDOWN half", Some (cN 1));
  (40, 2, "zetaDOWN half", Some (cN 0));
  (41, 2, "zetaDOWN half", Some (cN 0));
  (42, 2, "zetaDOWN half", Some (cN 0));
  (43, 2, "zetaDOWN half", Some (cN 1));
  (44, 2, "zetaDOWN half", Some (cN 1));
  (45, 2, "zetaDOWN half", Some (cN 1));
  (46, 2, "zetaDOWN half", Some (cN 1));
  (47, 2, "zetaDOWN half", Some (cN 0));
  (48, 2, "zetaDOWN half", Some (cN 1));
  (49, 2, "zetaDOWN half", Some (cN 1));
  (50, 2, "zetaDOWN half", Some (cN 1));
  (51, 2, "zetaDOWN half", Some (cN 0));
  (52, 2, "zetaDOWN half", Some (cN 1));
  (53, 2, "zetaDOWN half", Some (cN 1));
  (54, 2, "zetaDOWN half", Some (cN 0));
  (55, 2, "zetaDOWN half", Some (cN 1));
  (56, 2, "zetaDOWN half", Some (cN 0));
  (57, 2, "zetaDOWN half", Some (cN 0));
  (58, 2, "zetaDOWN half", Some (cN 1));
  (59, 2, "zetaDOWN half", Some (cN 1));
  (60, 2, "zetaDOWN half", Some (cN 1));
  (61, 2, "zetaDOWN half", Some (cN 1));
  (62, 2, "zetaDOWN half", Some (cN 1));
  (63, 2, "zetaDOWN half", Some (cN 0));
  (64, 2, "zetaDOWN half", Some (cN 1))].
(** /repo/c++/symmetry/sym-U1-impl.hpp, make_matrix_pol2x2  *)
Definition u1_3ch_m1_f : list dof_line := [
  (1, 1, 0, "zetaDOUP", Some (cN 0));
  (2, 2, 0, "zetaDOUP", Some (cN 0));
  (3, 3, 0, "zetaDOUP", Some (cN 0));
  (4, 4, 0, "zetaDOUP", Some (cN 0));
  (5, 5, 0, "zetaDOUP", Some (cN 0));
  (6, 6, 0, "zetaDOUP", Some (cN 0));
  (6, 7, 0, "zetaDOUP", Some (cN 1));
  (7, 7, 0, "zetaDOUP", Some (cN 0));
  (8, 8, 0, "zetaDOUP", Some (cN 0));
  (9, 9, 0, "zetaDOUP", Some (cN 0));
  (10, 10, 0, "zetaDOUP", Some (cN 0));
  (11, 11, 0, "zetaDOUP", Some (cN 0));
  (12, 12, 0, "zetaDOUP", Some (cN 0));
  (13, 13, 0, "zetaDOUP", Some (cN 0));
  (14, 14, 0, "zetaDOUP", Some (cN 0));
  (14, 18, 0, "zetaDOUP", Some (cN 1));
  (15, 15, 0, "zetaDOUP", Some (cN 0));
  (15, 19, 0, "zetaDOUP", Some (cN 1));
  (16, 16, 0, "zetaDOUP", Some (cN 0));
  (16, 20, 0, "zetaDOUP", Some (cN 1));
  (17, 17, 0, "zetaDOUP", Some (cN 0));
  (17, 21, 0, "zetaDOUP", Some (cN 1));
  (18, 18, 0, "zetaDOUP", Some (cN 0));
  (19, 19, 0, "zetaDOUP", Some (cN 0));
  (20, 20, 0, "zetaDOUP", Some (cN 0));
  (21, 21, 0, "zetaDOUP", Some (cN 0));
  (22, 22, 0, "zetaDOUP", Some (cN 0));
  (23, 23, 0, "zetaDOUP", Some (cN 0));
  (24, 24, 0, "zetaDOUP", Some (cN 0));
  (25, 25, 0, "zetaDOUP", Some (cN 0));
  (26, 26, 0, "zetaDOUP", Some (cN 0));
  (27, 27, 0, "zetaDOUP", Some (cN 0));
  (27, 33, 0, "zetaDOUP", Some (cN 1));
  (28, 28, 0, "zetaDOUP", Some (cN 0));
  (28, 34, 0, "zetaDOUP", Some (cN 1));
  (29, 29, 0, "zetaDOUP", Some (cN 0));
  (29, 35, 0, "zetaDOUP", Some (cN 1));
  (30, 30, 0, "zetaDOUP", Some (cN 0));
  (30, 36, 0, "zetaDOUP", Some (cN 1));
  (31, 31, 0, "zetaDOUP", Some (cN 0));
  (31, 37, 0, "zetaDOUP", Some (cN 1));
  (32, 32, 0, "zetaDOUP", Some (cN 0));
  (32, 38, 0, "zetaDOUP", Some (cN 1));
  (33, 33, 0, "zetaDOUP", Some (cN 0));
  (34, 34, 0, "zetaDOUP", Some (cN 0));
  (35, 35, 0, "zetaDOUP", Some (cN 0));
  (36, 36, 0, "zetaDOUP", Some (cN 0));
  (37, 37, 0, "zetaDOUP", Some (cN 0));
  (38, 38, 0, "zetaDOUP", Some (cN 0));
  (39, 39, 0, "zetaDOUP", Some (cN 0));
  (40, 40, 0, "zetaDOUP", Some (cN 0));
  (41, 41, 0, "zetaDOUP", Some (cN 0));
  (42, 42, 0, "zetaDOUP", Some (cN 0));
  (43, 43, 0, "zetaDOUP", Some (cN 0));
  (44, 44, 0, "zetaDOUP", Some (cN 0));
  (44, 48, 0, "zetaDOUP", Some (cN 1));
  (45, 45, 0, "zetaDOUP", Some (cN 0));
  (45, 49, 0, "zetaDOUP", Some (cN 1));
  (46, 46, 0, "zetaDOUP", Some (cN 0));
  (46, 50, 0, "zetaDOUP", Some (cN 1));
  (47, 47, 0, "zetaDOUP", Some (cN 0));
  (47, 51, 0, "zetaDOUP", Some (cN 1));
  (48, 48, 0, "zetaDOUP", Some (cN 0));
  (49, 49, 0, "zetaDOUP", Some (cN 0));
  (50, 50, 0, "zetaDOUP", Some (cN 0));
  (51, 51, 0, "zetaDOUP", Some (cN 0));
  (52, 52, 0, "zetaDOUP", Some (cN 0));
  (53, 53, 0, "zetaDOUP", Some (cN 0));
  (54, 54, 0, "zetaDOUP", Some (cN 0));
  (55, 55, 0, "zetaDOUP", Some (cN 0));
  (56, 56, 0, "zetaDOUP", Some (cN 0));
  (57, 57, 0, "zetaDOUP", Some (cN 0));
  (58, 58, 0, "zetaDOUP", Some (cN 0));
  (58, 59, 0, "zetaDOUP", Some (cN 1));
  (59, 59, 0, "zetaDOUP", Some (cN 0));
  (60, 60, 0, "zetaDOUP", Some (cN 0));
  (61, 61, 0, "zetaDOUP", Some (cN 0));
  (62, 62, 0, "zetaDOUP", Some (cN 0));
  (63, 63, 0, "zetaDOUP", Some (cN 0));
  (64, 64, 0, "zetaDOUP", Some (cN 0));
  (1, 1, 1, "zetaDOUP", Some (cN 0));
  (2, 2, 1, "zetaDOUP", Some (cN 0));
  (3, 3, 1, "zetaDOUP", Some (cN 0));
  (4, 4, 1, "zetaDOUP", Some (cN 0));
  (4, 5, 1, "zetaDOUP", Some (cN 1));
  (5, 5, 1, "zetaDOUP", Some (cN 0));
  (6, 6, 1, "zetaDOUP", Some (cN 0));
  (7, 7, 1, "zetaDOUP", Some (cN 0));
  (8, 8, 1, "zetaDOUP", Some (cN 0));
  (9, 9, 1, "zetaDOUP", Some (cN 0));
  (9, 11, 1, "zetaDOUP", Some (cN 1));
  (10, 10, 1, "zetaDOUP", Some (cN 0));
  (10, 12, 1, "zetaDOUP", Some (cN 1));
  (11, 11, 1, "zetaDOUP", Some (cN 0));
  (12, 12, 1, "zetaDOUP", Some (cN 0));
  (13, 13, 1, "zetaDOUP", Some (cN 0));
  (14, 14, 1, "zetaDOUP", Some (cN 0));
  (15, 15, 1, "zetaDOUP", Some (cN 0));
  (16, 16, 1, "zetaDOUP", Some (cN 0));
  (16, 17, 1, "zetaDOUP", Some (cN 1));
  (17, 17, 1, "zetaDOUP", Some (cN 0));
  (18, 18, 1, "zetaDOUP", Some (cN 0));
  (19, 19, 1, "zetaDOUP", Some (cN 0));
  (20, 20, 1, "zetaDOUP", Some (cN 0));
  (20, 21, 1, "zetaDOUP", Some (cN 1));
  (21, 21, 1, "zetaDOUP", Some (cN 0));
  (22, 22, 1, "zetaDOUP", Some (cN 0));
  (23, 23, 1, "zetaDOUP", Some (cN 0));
  (23, 24, 1, "zetaDOUP", Some (cN 1));
  (24, 24, 1, "zetaDOUP", Some (cN 0));
  (25, 25, 1, "zetaDOUP", Some (cN 0));
  (26, 26, 1, "zetaDOUP", Some (cN 0));
  (27, 27, 1, "zetaDOUP", Some (cN 0));
  (28, 28, 1, "zetaDOUP", Some (cN 0));
  (28, 30, 1, "zetaDOUP", Some (cN 1));
  (29, 29, 1, "zetaDOUP", Some (cN 0));
  (29, 31, 1, "zetaDOUP", Some (cN 1));
  (30, 30, 1, "zetaDOUP", Some (cN 0));
  (31, 31, 1, "zetaDOUP", Some (cN 0));
  (32, 32, 1, "zetaDOUP", Some (cN 0));
  (33, 33, 1, "zetaDOUP", Some (cN 0));
  (34, 34, 1, "zetaDOUP", Some (cN 0));
  (34, 36, 1, "zetaDOUP", Some (cN 1));
  (35, 35, 1, "zetaDOUP", Some (cN 0));
  (35, 37, 1, "zetaDOUP", Some (cN 1));
  (36, 36, 1, "zetaDOUP", Some (cN 0));
  (37, 37, 1, "zetaDOUP", Some (cN 0));
  (38, 38, 1, "zetaDOUP", Some (cN 0));
  (39, 39, 1, "zetaDOUP", Some (cN 0));
  (40, 40, 1, "zetaDOUP", Some (cN 0));
  (41, 41, 1, "zetaDOUP", Some (cN 0));
  (41, 42, 1, "zetaDOUP", Some (cN 1));
  (42, 42, 1, "zetaDOUP", Some (cN 0));
  (43, 43, 1, "zetaDOUP", Some (cN 0));
  (44, 44, 1, "zetaDOUP", Some (cN 0));
  (44, 45, 1, "zetaDOUP", Some (cN 1));
  (45, 45, 1, "zetaDOUP", Some (cN 0));
  (46, 46, 1, "zetaDOUP", Some (cN 0));
  (47, 47, 1, "zetaDOUP", Some (cN 0));
  (48, 48, 1, "zetaDOUP", Some (cN 0));
  (48, 49, 1, "zetaDOUP", Some (cN 1));
  (49, 49, 1, "zetaDOUP", Some (cN 0));
  (50, 50, 1, "zetaDOUP", Some (cN 0));
  (51, 51, 1, "zetaDOUP", Some (cN 0));
  (52, 52, 1, "zetaDOUP", Some (cN 0));
  (53, 53, 1, "zetaDOUP", Some (cN 0));
  (53, 55, 1, "zetaDOUP", Some (cN 1));
  (54, 54, 1, "zetaDOUP", Some (cN 0));
  (54, 56, 1, "zetaDOUP", Some (cN 1));
  (55, 55, 1, "zetaDOUP", Some (cN 0));
  (56, 56, 1, "zetaDOUP", Some (cN 0));
  (57, 57, 1, "zetaDOUP", Some (cN 0));
  (58, 58, 1, "zetaDOUP", Some (cN 0));
  (59, 59, 1, "zetaDOUP", Some (cN 0));
  (60, 60, 1, "zetaDOUP", Some (cN 0));
  (60, 61, 1, "zetaDOUP", Some (cN 1));
  (61, 61, 1, "zetaDOUP", Some (cN 0));
  (62, 62, 1, "zetaDOUP", Some (cN 0));
  (63, 63, 1, "zetaDOUP", Some (cN 0));
  (64, 64, 1, "zetaDOUP", Some (cN 0));
  (1, 1, 2, "zetaDOUP", Some (cN 0));
  (2, 2, 2, "zetaDOUP", Some (cN 0));
  (2, 3, 2, "zetaDOUP", Some (cN 1));
  (3, 3, 2, "zetaDOUP", Some (cN 0));
  (4, 4, 2, "zetaDOUP", Some (cN 0));
  (5, 5, 2, "zetaDOUP", Some (cN 0));
  (6, 6, 2, "zetaDOUP", Some (cN 0));
  (7, 7, 2, "zetaDOUP", Some (cN 0));
  (8, 8, 2, "zetaDOUP", Some (cN 0));
  (9, 9, 2, "zetaDOUP", Some (cN 0));
  (9, 10, 2, "zetaDOUP", Some (cN 1));
  (10, 10, 2, "zetaDOUP", Some (cN 0));
  (11, 11, 2, "zetaDOUP", Some (cN 0));
  (11, 12, 2, "zetaDOUP", Some (cN 1));
  (12, 12, 2, "zetaDOUP", Some (cN 0));
  (13, 13, 2, "zetaDOUP", Some (cN 0));
  (14, 14, 2, "zetaDOUP", Some (cN 0));
  (14, 15, 2, "zetaDOUP", Some (cN 1));
  (15, 15, 2, "zetaDOUP", Some (cN 0));
  (16, 16, 2, "zetaDOUP", Some (cN 0));
  (17, 17, 2, "zetaDOUP", Some (cN 0));
  (18, 18, 2, "zetaDOUP", Some (cN 0));
  (18, 19, 2, "zetaDOUP", Some (cN 1));
  (19, 19, 2, "zetaDOUP", Some (cN 0));
  (20, 20, 2, "zetaDOUP", Some (cN 0));
  (21, 21, 2, "zetaDOUP", Some (cN 0));
  (22, 22, 2, "zetaDOUP", Some (cN 0));
  (23, 23, 2, "zetaDOUP", Some (cN 0));
  (24, 24, 2, "zetaDOUP", Some (cN 0));
  (25, 25, 2, "zetaDOUP", Some (cN 0));
  (25, 26, 2, "zetaDOUP", Some (cN 1));
  (26, 26, 2, "zetaDOUP", Some (cN 0));
  (27, 27, 2, "zetaDOUP", Some (cN 0));
  (28, 28, 2, "zetaDOUP", Some (cN 0));
  (28, 29, 2, "zetaDOUP", Some (cN 1));
  (29, 29, 2, "zetaDOUP", Some (cN 0));
  (30, 30, 2, "zetaDOUP", Some (cN 0));
  (30, 31, 2, "zetaDOUP", Some (cN 1));
  (31, 31, 2, "zetaDOUP", Some (cN 0));
  (32, 32, 2, "zetaDOUP", Some (cN 0));
  (33, 33, 2, "zetaDOUP", Some (cN 0));
  (34, 34, 2, "zetaDOUP", Some (cN 0));
  (34, 35, 2, "zetaDOUP", Some (cN 1));
  (35, 35, 2, "zetaDOUP", Some (cN 0));
  (36, 36, 2, "zetaDOUP", Some (cN 0));
  (36, 37, 2, "zetaDOUP", Some (cN 1));
  (37, 37, 2, "zetaDOUP", Some (cN 0));
  (38, 38, 2, "zetaDOUP", Some (cN 0));
  (39, 39, 2, "zetaDOUP", Some (cN 0));
  (39, 40, 2, "zetaDOUP", Some (cN 1));
  (40, 40, 2, "zetaDOUP", Some (cN 0));
  (41, 41, 2, "zetaDOUP", Some (cN 0));
  (42, 42, 2, "zetaDOUP", Some (cN 0));
  (43, 43, 2, "zetaDOUP", Some (cN 0));
  (44, 44, 2, "zetaDOUP", Some (cN 0));
  (45, 45, 2, "zetaDOUP", Some (cN 0));
  (46, 46, 2, "zetaDOUP", Some (cN 0));
  (46, 47, 2, "zetaDOUP", Some (cN 1));
  (47, 47, 2, "zetaDOUP", Some (cN 0));
  (48, 48, 2, "zetaDOUP", Some (cN 0));
  (49, 49, 2, "zetaDOUP", Some (cN 0));
  (50, 50, 2, "zetaDOUP", Some (cN 0));
  (50, 51, 2, "zetaDOUP", Some (cN 1));
  (51, 51, 2, "zetaDOUP", Some (cN 0));
  (52, 52, 2, "zetaDOUP", Some (cN 0));
  (53, 53, 2, "zetaDOUP", Some (cN 0));
  (53, 54, 2, "zetaDOUP", Some (cN 1));
  (54, 54, 2, "zetaDOUP", Some (cN 0));
  (55, 55, 2, "zetaDOUP", Some (cN 0));
  (55, 56, 2, "zetaDOUP", Some (cN 1));
  (56, 56, 2, "zetaDOUP", Some (cN 0));
  (57, 57, 2, "zetaDOUP", Some (cN 0));
  (58, 58, 2, "zetaDOUP", Some (cN 0));
  (59, 59, 2, "zetaDOUP", Some (cN 0));
  (60, 60, 2, "zetaDOUP", Some (cN 0));
  (61, 61, 2, "zetaDOUP", Some (cN 0));
  (62, 62, 2, "zetaDOUP", Some (cN 0));
  (62, 63, 2, "zetaDOUP", Some (cN 1));
  (63, 63, 2, "zetaDOUP", Some (cN 0));
  (64, 64, 2, "zetaDOUP", Some (cN 0))].
(** /repo/c++/symmetry/sym-U1-impl.hpp, make_matrix_nonpolarized  *)
Definition u1_3ch_m2_o : list off_line := [
  (1, 7, 0, 1, "xi", Some (cN 1));
  (2, 18, 0, 1, "xi", Some (cN (-1)));
  (3, 19, 0, 1, "xi", Some (cN (-1)));
  (4, 20, 0, 1, "xi", Some (cN (-1)));
  (5, 21, 0, 1, "xi", Some (cN (-1)));
  (6, 22, 0, 1, "xi", Some (cN (-1)));
  (8, 33, 0, 1, "xi", Some (cN 1));
  (9, 34, 0, 1, "xi", Some (cN 1));
  (10, 35, 0, 1, "xi", Some (cN 1));
  (11, 36, 0, 1, "xi", Some (cN 1));
  (12, 37, 0, 1, "xi", Some (cN 1));
  (13, 38, 0, 1, "xi", Some (cN 1));
  (14, 39, 0, 1, "xi", Some (cN 1));
  (15, 40, 0, 1, "xi", Some (cN 1));
  (16, 41, 0, 1, "xi", Some (cN 1));
  (17, 42, 0, 1, "xi", Some (cN 1));
  (23, 48, 0, 1, "xi", Some (cN (-1)));
  (24, 49, 0, 1, "xi", Some (cN (-1)));
  (25, 50, 0, 1, "xi", Some (cN (-1)));
  (26, 51, 0, 1, "xi", Some (cN (-1)));
  (27, 52, 0, 1, "xi", Some (cN (-1)));
  (28, 53, 0, 1, "xi", Some (cN (-1)));
  (29, 54, 0, 1, "xi", Some (cN (-1)));
  (30, 55, 0, 1, "xi", Some (cN (-1)));
  (31, 56, 0, 1, "xi", Some (cN (-1)));
  (32, 57, 0, 1, "xi", Some (cN (-1)));
  (43, 59, 0, 1, "xi", Some (cN 1));
  (44, 60, 0, 1, "xi", Some (cN 1));
  (45, 61, 0, 1, "xi", Some (cN 1));
  (46, 62, 0, 1, "xi", Some (cN 1));
  (47, 63, 0, 1, "xi", Some (cN 1));
  (58, 64, 0, 1, "xi", Some (cN (-1)));
  (1, 5, 1, 1, "xi", Some (cN 1));
  (2, 11, 1, 1, "xi", Some (cN (-1)));
  (3, 12, 1, 1, "xi", Some (cN (-1)));
  (4, 13, 1, 1, "xi", Some (cN (-1)));
  (6, 17, 1, 1, "xi", Some (cN 1));
  (7, 21, 1, 1, "xi", Some (cN 1));
  (8, 24, 1, 1, "xi", Some (cN 1));
  (9, 25, 1, 1, "xi", Some (cN 1));
  (10, 26, 1, 1, "xi", Some (cN 1));
  (14, 30, 1, 1, "xi", Some (cN (-1)));
  (15, 31, 1, 1, "xi", Some (cN (-1)));
  (16, 32, 1, 1, "xi", Some (cN (-1)));
  (18, 36, 1, 1, "xi", Some (cN (-1)));
  (19, 37, 1, 1, "xi", Some (cN (-1)));
  (20, 38, 1, 1, "xi", Some (cN (-1)));
  (22, 42, 1, 1, "xi", Some (cN 1));
  (23, 43, 1, 1, "xi", Some (cN (-1)));
  (27, 45, 1, 1, "xi", Some (cN 1));
  (28, 46, 1, 1, "xi", Some (cN 1));
  (29, 47, 1, 1, "xi", Some (cN 1));
  (33, 49, 1, 1, "xi", Some (cN 1));
  (34, 50, 1, 1, "xi", Some (cN 1));
  (35, 51, 1, 1, "xi", Some (cN 1));
  (39, 55, 1, 1, "xi", Some (cN (-1)));
  (40, 56, 1, 1, "xi", Some (cN (-1)));
  (41, 57, 1, 1, "xi", Some (cN (-1)));
  (44, 58, 1, 1, "xi", Some (cN (-1)));
  (48, 59, 1, 1, "xi", Some (cN (-1)));
  (52, 61, 1, 1, "xi", Some (cN 1));
  (53, 62, 1, 1, "xi", Some (cN 1));
  (54, 63, 1, 1, "xi", Some (cN 1));
  (60, 64, 1, 1, "xi", Some (cN (-1)));
  (1, 3, 2, 1, "xi", Some (cN 1));
  (2, 8, 2, 1, "xi", Some (cN (-1)));
  (4, 10, 2, 1, "xi", Some (cN 1));
  (5, 12, 2, 1, "xi", Some (cN 1));
  (6, 15, 2, 1, "xi", Some (cN 1));
  (7, 19, 2, 1, "xi", Some (cN 1));
  (9, 23, 2, 1, "xi", Some (cN (-1)));
  (11, 24, 2, 1, "xi", Some (cN (-1)));
  (13, 26, 2, 1, "xi", Some (cN 1));
  (14, 27, 2, 1, "xi", Some (cN (-1)));
  (16, 29, 2, 1, "xi", Some (cN 1));
  (17, 31, 2, 1, "xi", Some (cN 1));
  (18, 33, 2, 1, "xi", Some (cN (-1)));
  (20, 35, 2, 1, "xi", Some (cN 1));
  (21, 37, 2, 1, "xi", Some (cN 1));
  (22, 40, 2, 1, "xi", Some (cN 1));
  (25, 43, 2, 1, "xi", Some (cN (-1)));
  (28, 44, 2, 1, "xi", Some (cN (-1)));
  (30, 45, 2, 1, "xi", Some (cN (-1)));
  (32, 47, 2, 1, "xi", Some (cN 1));
  (34, 48, 2, 1, "xi", Some (cN (-1)));
  (36, 49, 2, 1, "xi", Some (cN (-1)));
  (38, 51, 2, 1, "xi", Some (cN 1));
  (39, 52, 2, 1, "xi", Some (cN (-1)));
  (41, 54, 2, 1, "xi", Some (cN 1));
  (42, 56, 2, 1, "xi", Some (cN 1));
  (46, 58, 2, 1, "xi", Some (cN (-1)));
  (50, 59, 2, 1, "xi", Some (cN (-1)));
  (53, 60, 2, 1, "xi", Some (cN (-1)));
  (55, 61, 2, 1, "xi", Some (cN (-1)));
  (57, 63, 2, 1, "xi", Some (cN 1));
  (62, 64, 2, 1, "xi", Some (cN (-1)));
  (1, 6, 0, 0, "xi", Some (cN 1));
  (2, 14, 0, 0, "xi", Some (cN (-1)));
  (3, 15, 0, 0, "xi", Some (cN (-1)));
  (4, 16, 0, 0, "xi", Some (cN (-1)));
  (5, 17, 0, 0, "xi", Some (cN (-1)));
  (7, 22, 0, 0, "xi", Some (cN 1));
  (8, 27, 0, 0, "xi", Some (cN 1));
  (9, 28, 0, 0, "xi", Some (cN 1));
  (10, 29, 0, 0, "xi", Some (cN 1));
  (11, 30, 0, 0, "xi", Some (cN 1));
  (12, 31, 0, 0, "xi", Some (cN 1));
  (13, 32, 0, 0, "xi", Some (cN 1));
  (18, 39, 0, 0, "xi", Some (cN (-1)));
  (19, 40, 0, 0, "xi", Some (cN (-1)));
  (20, 41, 0, 0, "xi", Some (cN (-1)));
  (21, 42, 0, 0, "xi", Some (cN (-1)));
  (23, 44, 0, 0, "xi", Some (cN (-1)));
  (24, 45, 0, 0, "xi", Some (cN (-1)));
  (25, 46, 0, 0, "xi", Some (cN (-1)));
  (26, 47, 0, 0, "xi", Some (cN (-1)));
  (33, 52, 0, 0, "xi", Some (cN 1));
  (34, 53, 0, 0, "xi", Some (cN 1));
  (35, 54, 0, 0, "xi", Some (cN 1));
  (36, 55, 0, 0, "xi", Some (cN 1));
  (37, 56, 0, 0, "xi", Some (cN 1));
  (38, 57, 0, 0, "xi", Some (cN 1));
  (43, 58, 0, 0, "xi", Some (cN 1));
  (48, 60, 0, 0, "xi", Some (cN (-1)));
  (49, 61, 0, 0, "xi", Some (cN (-1)));
  (50, 62, 0, 0, "xi", Some (cN (-1)));
  (51, 63, 0, 0, "xi", Some (cN (-1)));
  (59, 64, 0, 0, "xi", Some (cN 1));
  (1, 4, 1, 0, "xi", Some (cN 1));
  (2, 9, 1, 0, "xi", Some (cN (-1)));
  (3, 10, 1, 0, "xi", Some (cN (-1)));
  (5, 13, 1, 0, "xi", Some (cN 1));
  (6, 16, 1, 0, "xi", Some (cN 1));
  (7, 20, 1, 0, "xi", Some (cN 1));
  (8, 23, 1, 0, "xi", Some (cN 1));
  (11, 25, 1, 0, "xi", Some (cN (-1)));
  (12, 26, 1, 0, "xi", Some (cN (-1)));
  (14, 28, 1, 0, "xi", Some (cN (-1)));
  (15, 29, 1, 0, "xi", Some (cN (-1)));
  (17, 32, 1, 0, "xi", Some (cN 1));
  (18, 34, 1, 0, "xi", Some (cN (-1)));
  (19, 35, 1, 0, "xi", Some (cN (-1)));
  (21, 38, 1, 0, "xi", Some (cN 1));
  (22, 41, 1, 0, "xi", Some (cN 1));
  (24, 43, 1, 0, "xi", Some (cN 1));
  (27, 44, 1, 0, "xi", Some (cN 1));
  (30, 46, 1, 0, "xi", Some (cN (-1)));
  (31, 47, 1, 0, "xi", Some (cN (-1)));
  (33, 48, 1, 0, "xi", Some (cN 1));
  (36, 50, 1, 0, "xi", Some (cN (-1)));
  (37, 51, 1, 0, "xi", Some (cN (-1)));
  (39, 53, 1, 0, "xi", Some (cN (-1)));
  (40, 54, 1, 0, "xi", Some (cN (-1)));
  (42, 57, 1, 0, "xi", Some (cN 1));
  (45, 58, 1, 0, "xi", Some (cN 1));
  (49, 59, 1, 0, "xi", Some (cN 1));
  (52, 60, 1, 0, "xi", Some (cN 1));
  (55, 62, 1, 0, "xi", Some (cN (-1)));
  (56, 63, 1, 0, "xi", Some (cN (-1)));
  (61, 64, 1, 0, "xi", Some (cN 1));
  (1, 2, 2, 0, "xi", Some (cN 1));
  (3, 8, 2, 0, "xi", Some (cN 1));
  (4, 9, 2, 0, "xi", Some (cN 1));
  (5, 11, 2, 0, "xi", Some (cN 1));
  (6, 14, 2, 0, "xi", Some (cN 1));
  (7, 18, 2, 0, "xi", Some (cN 1));
  (10, 23, 2, 0, "xi", Some (cN 1));
  (12, 24, 2, 0, "xi", Some (cN 1));
  (13, 25, 2, 0, "xi", Some (cN 1));
  (15, 27, 2, 0, "xi", Some (cN 1));
  (16, 28, 2, 0, "xi", Some (cN 1));
  (17, 30, 2, 0, "xi", Some (cN 1));
  (19, 33, 2, 0, "xi", Some (cN 1));
  (20, 34, 2, 0, "xi", Some (cN 1));
  (21, 36, 2, 0, "xi", Some (cN 1));
  (22, 39, 2, 0, "xi", Some (cN 1));
  (26, 43, 2, 0, "xi", Some (cN 1));
  (29, 44, 2, 0, "xi", Some (cN 1));
  (31, 45, 2, 0, "xi", Some (cN 1));
  (32, 46, 2, 0, "xi", Some (cN 1));
  (35, 48, 2, 0, "xi", Some (cN 1));
  (37, 49, 2, 0, "xi", Some (cN 1));
  (38, 50, 2, 0, "xi", Some (cN 1));
  (40, 52, 2, 0, "xi", Some (cN 1));
  (41, 53, 2, 0, "xi", Some (cN 1));
  (42, 55, 2, 0, "xi", Some (cN 1));
  (47, 58, 2, 0, "xi", Some (cN 1));
  (51, 59, 2, 0, "xi", Some (cN 1));
  (54, 60, 2, 0, "xi", Some (cN 1));
  (56, 61, 2, 0, "xi", Some (cN 1));
  (57, 62, 2, 0, "xi", Some (cN 1));
  (63, 64, 2, 0, "xi", Some (cN 1))].
(** /repo/c++/symmetry/sym-U1-impl.hpp, make_matrix_nonpolarized  *)
Definition u1_3ch_m2_d : list diag_line := [
  (1, 0, "zeta", Some (cN 0));
  (2, 0, "zeta", Some (cN 0));
  (3, 0, "zeta", Some (cN 0));
  (4, 0, "zeta", Some (cN 0));
  (5, 0, "zeta", Some (cN 0));
  (6, 0, "zeta", Some (cN 1));
  (7, 0, "zeta", Some (cN 1));
  (8, 0, "zeta", Some (cN 0));
  (9, 0, "zeta", Some (cN 0));
  (10, 0, "zeta", Some (cN 0));
  (11, 0, "zeta", Some (cN 0));
  (12, 0, "zeta", Some (cN 0));
  (13, 0, "zeta", Some (cN 0));
  (14, 0, "zeta", Some (cN 1));
  (15, 0, "zeta", Some (cN 1));
  (16, 0, "zeta", Some (cN 1));
  (17, 0, "zeta", Some (cN 1));
  (18, 0, "zeta", Some (cN 1));
  (19, 0, "zeta", Some (cN 1));
  (20, 0, "zeta", Some (cN 1));
  (21, 0, "zeta", Some (cN 1));
  (22, 0, "zeta", Some (cN 2));
  (23, 0, "zeta", Some (cN 0));
  (24, 0, "zeta", Some (cN 0));
  (25, 0, "zeta", Some (cN 0));
  (26, 0, "zeta", Some (cN 0));
  (27, 0, "zeta", Some (cN 1));
  (28, 0, "zeta", Some (cN 1));
  (29, 0, "zeta", Some (cN 1));
  (30, 0, "zeta", Some (cN 1));
  (31, 0, "zeta", Some (cN 1));
  (32, 0, "zeta", Some (cN 1));
  (33, 0, "zeta", Some (cN 1));
  (34, 0, "zeta", Some (cN 1));
  (35, 0, "zeta", Some (cN 1));
  (36, 0, "zeta", Some (cN 1));
  (37, 0, "zeta", Some (cN 1));
  (38, 0, "zeta", Some (cN 1));
  (39, 0, "zeta", Some (cN 2));
  (40, 0, "zeta", Some (cN 2));
  (41, 0, "zeta", Some (cN 2));
  (42, 0, "zeta", Some (cN 2));
  (43, 0, "zeta", Some (cN 0));
  (44, 0, "zeta", Some (cN 1));
  (45, 0, "zeta", Some (cN 1));
  (46, 0, "zeta", Some (cN 1));
  (47, 0, "zeta", Some (cN 1));
  (48, 0, "zeta", Some (cN 1));
  (49, 0, "zeta", Some (cN 1));
  (50, 0, "zeta", Some (cN 1));
  (51, 0, "zeta", Some (cN 1));
  (52, 0, "zeta", Some (cN 2));
  (53, 0, "zeta", Some (cN 2));
  (54, 0, "zeta", Some (cN 2));
  (55, 0, "zeta", Some (cN 2));
  (56, 0, "zeta", Some (cN 2));
  (57, 0, "zeta", Some (cN 2));
  (58, 0, "zeta", Some (cN 1));
  (59, 0, "zeta", Some (cN 1));
  (60, 0, "zeta", Some (cN 2));
  (61, 0, "zeta", Some (cN 2));
  (62, 0, "zeta", Some (cN 2));
  (63, 0, "zeta", Some (cN 2));
  (64, 0, "zeta", Some (cN 2));
  (1, 1, "zeta", Some (cN 0));
  (2, 1, "zeta", Some (cN 0));
  (3, 1, "zeta", Some (cN 0));
  (4, 1, "zeta", Some (cN 1));
  (5, 1, "zeta", Some (cN 1));
  (6, 1, "zeta", Some (cN 0));
  (7, 1, "zeta", Some (cN 0));
  (8, 1, "zeta", Some (cN 0));
  (9, 1, "zeta", Some (cN 1));
  (10, 1, "zeta", Some (cN 1));
  (11, 1, "zeta", Some (cN 1));
  (12, 1, "zeta", Some (cN 1));
  (13, 1, "zeta", Some (cN 2));
  (14, 1, "zeta", Some (cN 0));
  (15, 1, "zeta", Some (cN 0));
  (16, 1, "zeta", Some (cN 1));
  (17, 1, "zeta", Some (cN 1));
  (18, 1, "zeta", Some (cN 0));
  (19, 1, "zeta", Some (cN 0));
  (20, 1, "zeta", Some (cN 1));
  (21, 1, "zeta", Some (cN 1));
  (22, 1, "zeta", Some (cN 0));
  (23, 1, "zeta", Some (cN 1));
  (24, 1, "zeta", Some (cN 1));
  (25, 1, "zeta", Some (cN 2));
  (26, 1, "zeta", Some (cN 2));
  (27, 1, "zeta", Some (cN 0));
  (28, 1, "zeta", Some (cN 1));
  (29, 1, "zeta", Some (cN 1));
  (30, 1, "zeta", Some (cN 1));
  (31, 1, "zeta", Some (cN 1));
  (32, 1, "zeta", Some (cN 2));
  (33, 1, "zeta", Some (cN 0));
  (34, 1, "zeta", Some (cN 1));
  (35, 1, "zeta", Some (cN 1));
  (36, 1, "zeta", Some (cN 1));
  (37, 1, "zeta", Some (cN 1));
  (38, 1, "zeta", Some (cN 2));
  (39, 1, "zeta", Some (cN 0));
  (40, 1, "zeta", Some (cN 0));
  (41, 1, "zeta", Some (cN 1));
  (42, 1, "zeta", Some (cN 1));
  (43, 1, "zeta", Some (cN 2));
  (44, 1, "zeta", Some (cN 1));
  (45, 1, "zeta", Some (cN 1));
  (46, 1, "zeta", Some (cN 2));
  (47, 1, "zeta", Some (cN 2));
  (48, 1, "zeta", Some (cN 1));
  (49, 1, "zeta", Some (cN 1));
  (50, 1, "zeta", Some (cN 2));
  (51, 1, "zeta", Some (cN 2));
  (52, 1, "zeta", Some (cN 0));
  (53, 1, "zeta", Some (cN 1));
  (54, 1, "zeta", Some (cN 1));
  (55, 1, "zeta", Some (cN 1));
  (56, 1, "zeta", Some (cN 1));
  (57, 1, "zeta", Some (cN 2));
  (58, 1, "zeta", Some (cN 2));
  (59, 1, "zeta", Some (cN 2));
  (60, 1, "zeta", Some (cN 1));
  (61, 1, "zeta", Some (cN 1));
  (62, 1, "zeta", Some (cN 2));
  (63, 1, "zeta", Some (cN 2));
  (64, 1, "zeta", Some (cN 2));
  (1, 2, "zeta", Some (cN 0));
  (2, 2, "zeta", Some (cN 1));
  (3, 2, "zeta", Some (cN 1));
  (4, 2, "zeta", Some (cN 0));
  (5, 2, "zeta", Some (cN 0));
  (6, 2, "zeta", Some (cN 0));
  (7, 2, "zeta", Some (cN 0));
  (8, 2, "zeta", Some (cN 2));
  (9, 2, "zeta", Some (cN 1));
  (10, 2, "zeta", Some (cN 1));
  (11, 2, "zeta", Some (cN 1));
  (12, 2, "zeta", Some (cN 1));
  (13, 2, "zeta", Some (cN 0));
  (14, 2, "zeta", Some (cN 1));
  (15, 2, "zeta", Some (cN 1));
  (16, 2, "zeta", Some (cN 0));
  (17, 2, "zeta", Some (cN 0));
  (18, 2, "zeta", Some (cN 1));
  (19, 2, "zeta", Some (cN 1));
  (20, 2, "zeta", Some (cN 0));
  (21, 2, "zeta", Some (cN 0));
  (22, 2, "zeta", Some (cN 0));
  (23, 2, "zeta", Some (cN 2));
  (24, 2, "zeta", Some (cN 2));
  (25, 2, "zeta", Some (cN 1));
  (26, 2, "zeta", Some (cN 1));
  (27, 2, "zeta", Some (cN 2));
  (28, 2, "zeta", Some (cN 1));
  (29, 2, "zeta", Some (cN 1));
  (30, 2, "zeta", Some (cN 1));
  (31, 2, "zeta", Some (cN 1));
  (32, 2, "zeta", Some (cN 0));
  (33, 2, "zeta", Some (cN 2));
  (34, 2, "zeta", Some (cN 1));
  (35, 2, "zeta", Some (cN 1));
  (36, 2, "zeta", Some (cN 1));
  (37, 2, "zeta", Some (cN 1));
  (38, 2, "zeta", Some (cN 0));
  (39, 2, "zeta", Some (cN 1));
  (40, 2, "zeta", Some (cN 1));
  (41, 2, "zeta", Some (cN 0));
  (42, 2, "zeta", Some (cN 0));
  (43, 2, "zeta", Some (cN 2));
  (44, 2, "zeta", Some (cN 2));
  (45, 2, "zeta", Some (cN 2));
  (46, 2, "zeta", Some (cN 1));
  (47, 2, "zeta", Some (cN 1));
  (48, 2, "zeta", Some (cN 2));
  (49, 2, "zeta", Some (cN 2));
  (50, 2, "zeta", Some (cN 1));
  (51, 2, "zeta", Some (cN 1));
  (52, 2, "zeta", Some (cN 2));
  (53, 2, "zeta", Some (cN 1));
  (54, 2, "zeta", Some (cN 1));
  (55, 2, "zeta", Some (cN 1));
  (56, 2, "zeta", Some (cN 1));
  (57, 2, "zeta", Some (cN 0));
  (58, 2, "zeta", Some (cN 2));
  (59, 2, "zeta", Some (cN 2));
  (60, 2, "zeta", Some (cN 2));
  (61, 2, "zeta", Some (cN 2));
  (62, 2, "zeta", Some (cN 1));
  (63, 2, "zeta", Some (cN 1));
  (64, 2, "zeta", Some (cN 2))].
(** /repo/c++/symmetry/sym-U1-impl.hpp, make_matrix_nonpolarized  *)
Definition u1_3ch_m2_f : list dof_line := [
  ].
Definition coef_u1_3ch : coef_set := mk_coef "U1" 3%nat sym_U1 {| tb_In := u1_3ch_In; tb_QN := u1_3ch_QN |}
  [u1_3ch_t1; u1_3ch_t2; u1_3ch_t3; u1_3ch_t4; u1_3ch_t5; u1_3ch_t6]
  [u1_3ch_t0]
  [mk_mode "polarized" u1_3ch_m0_o u1_3ch_m0_d u1_3ch_m0_f;
   mk_mode "pol2x2" u1_3ch_m1_o u1_3ch_m1_d u1_3ch_m1_f;
   mk_mode "nonpolarized" u1_3ch_m2_o u1_3ch_m2_d u1_3ch_m2_f].
