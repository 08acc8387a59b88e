(** Generated by gen/gen_coef.py from /repo/c++/symmetry/{sym-NONE-impl.hpp, nrg-recalc-NONE.hpp, coefnew}. Do not edit. *)
From Coq Require Import List ZArith String.
From Verif Require Import Base Invar_model Symmetry_model Symmetry_tables Coef_model.
Import ListNotations.
Local Open Scope string_scope.
Local Open Scope list_scope.
Local Open Scope Z_scope.


(** /repo/c++/symmetry/nrg-recalc-NONE.hpp recalc_irreduc, none/none-1ch-a-CR-DO.dat *)
Definition none_1ch_t0 : irr_table := mk_irr 0 0 []  [
  (2, 1, Some (cN 1));
  (4, 3, Some (cN (-1)))].
(** /repo/c++/symmetry/nrg-recalc-NONE.hpp recalc_irreduc, none/none-1ch-a-CR-UP.dat *)
Definition none_1ch_t1 : irr_table := mk_irr 0 1 []  [
  (3, 1, Some (cN 1));
  (4, 2, Some (cN 1))].
(** /repo/c++/symmetry/nrg-recalc-NONE.hpp recalc_doublet, none/none-1ch-doublet.dat *)
Definition none_1ch_t2 : ten_table := mk_ten "doublet" [] [] [
  (1, 1, [ShLin 0%nat 0 0], [ShLin 0%nat 0 0], Some (cN 1));
  (2, 2, [ShLin 0%nat 0 0], [ShLin 0%nat 0 0], Some (cN (-1)));
  (3, 3, [ShLin 0%nat 0 0], [ShLin 0%nat 0 0], Some (cN (-1)));
  (4, 4, [ShLin 0%nat 0 0], [ShLin 0%nat 0 0], Some (cN 1))].
(** /repo/c++/symmetry/sym-NONE-impl.hpp, make_matrix_nonpolarized  *)
Definition none_1ch_m0_o : list off_line := [
  (1, 3, 0, 1, "xi", Some (cN 1));
  (2, 4, 0, 1, "xi", Some (cN (-1)));
  (1, 2, 0, 0, "xi", Some (cN 1));
  (3, 4, 0, 0, "xi", Some (cN 1))].
(** /repo/c++/symmetry/sym-NONE-impl.hpp, make_matrix_nonpolarized  *)
Definition none_1ch_m0_d : list diag_line := [
  (1, 0, "zeta", Some (cN 0));
  (2, 0, "zeta", Some (cN 1));
  (3, 0, "zeta", Some (cN 1));
  (4, 0, "zeta", Some (cN 2))].
(** /repo/c++/symmetry/sym-NONE-impl.hpp, make_matrix_nonpolarized  *)
Definition none_1ch_m0_f : list dof_line := [
  (1, 4, 0, "2*delta", Some (cQ 1 2));
  (4, 1, 0, "2*delta", Some (cQ 1 2))].
(** /repo/c++/symmetry/sym-NONE-impl.hpp, make_matrix_polarized  *)
Definition none_1ch_m1_o : list off_line := [
  (1, 3, 0, 1, "xiUP", Some (cN 1));
  (2, 4, 0, 1, "xiUP", Some (cN (-1)));
  (1, 2, 0, 0, "xiDOWN", Some (cN 1));
  (3, 4, 0, 0, "xiDOWN", Some (cN 1))].
(** /repo/c++/symmetry/sym-NONE-impl.hpp, make_matrix_polarized  *)
Definition none_1ch_m1_d : list diag_line := [
  (1, 0, "zetaUP", Some (cN 0));
  (2, 0, "zetaUP", Some (cN 0));
  (3, 0, "zetaUP", Some (cN 1));
  (4, 0, "zetaUP", Some (cN 1));
  (1, 0, "zetaDOWN", Some (cN 0));
  (2, 0, "zetaDOWN", Some (cN 1));
  (3, 0, "zetaDOWN", Some (cN 0));
  (4, 0, "zetaDOWN", Some (cN 1))].
(** /repo/c++/symmetry/sym-NONE-impl.hpp, make_matrix_polarized  *)
Definition none_1ch_m1_f : list dof_line := [
  (1, 4, 0, "2*delta", Some (cQ 1 2));
  (4, 1, 0, "2*delta", Some (cQ 1 2))].
Definition coef_none_1ch : coef_set := mk_coef "NONE" 1%nat sym_NONE {| tb_In := none_1ch_In; tb_QN := none_1ch_QN |}
  [none_1ch_t0; none_1ch_t1]
  [none_1ch_t2]
  [mk_mode "nonpolarized" none_1ch_m0_o none_1ch_m0_d none_1ch_m0_f;
   mk_mode "polarized" none_1ch_m1_o none_1ch_m1_d none_1ch_m1_f].
(** /repo/c++/symmetry/nrg-recalc-NONE.hpp recalc_irreduc, none/none-2ch-a-CR-DO.dat *)
Definition none_2ch_t0 : irr_table := mk_irr 0 0 []  [
  (5, 1, Some (cN 1));
  (6, 2, Some (cN 1));
  (7, 3, Some (cN 1));
  (8, 4, Some (cN 1));
  (13, 9, Some (cN (-1)));
  (14, 10, Some (cN (-1)));
  (15, 11, Some (cN (-1)));
  (16, 12, Some (cN (-1)))].
(** /repo/c++/symmetry/nrg-recalc-NONE.hpp recalc_irreduc, none/none-2ch-b-CR-DO.dat *)
Definition none_2ch_t1 : irr_table := mk_irr 1 0 []  [
  (2, 1, Some (cN 1));
  (4, 3, Some (cN (-1)));
  (6, 5, Some (cN (-1)));
  (8, 7, Some (cN 1));
  (10, 9, Some (cN (-1)));
  (12, 11, Some (cN 1));
  (14, 13, Some (cN 1));
  (16, 15, Some (cN (-1)))].
(** /repo/c++/symmetry/nrg-recalc-NONE.hpp recalc_irreduc, none/none-2ch-a-CR-UP.dat *)
Definition none_2ch_t2 : irr_table := mk_irr 0 1 []  [
  (9, 1, Some (cN 1));
  (10, 2, Some (cN 1));
  (11, 3, Some (cN 1));
  (12, 4, Some (cN 1));
  (13, 5, Some (cN 1));
  (14, 6, Some (cN 1));
  (15, 7, Some (cN 1));
  (16, 8, Some (cN 1))].
(** /repo/c++/symmetry/nrg-recalc-NONE.hpp recalc_irreduc, none/none-2ch-b-CR-UP.dat *)
Definition none_2ch_t3 : irr_table := mk_irr 1 1 []  [
  (3, 1, Some (cN 1));
  (4, 2, Some (cN 1));
  (7, 5, Some (cN (-1)));
  (8, 6, Some (cN (-1)));
  (11, 9, Some (cN (-1)));
  (12, 10, Some (cN (-1)));
  (15, 13, Some (cN 1));
  (16, 14, Some (cN 1))].
(** /repo/c++/symmetry/nrg-recalc-NONE.hpp recalc_doublet, none/none-2ch-doublet.dat *)
Definition none_2ch_t4 : ten_table := mk_ten "doublet" [] [] [
  (1, 1, [ShLin 0%nat 0 0], [ShLin 0%nat 0 0], Some (cN 1));
  (2, 2, [ShLin 0%nat 0 0], [ShLin 0%nat 0 0], Some (cN (-1)));
  (3, 3, [ShLin 0%nat 0 0], [ShLin 0%nat 0 0], Some (cN (-1)));
  (4, 4, [ShLin 0%nat 0 0], [ShLin 0%nat 0 0], Some (cN 1));
  (5, 5, [ShLin 0%nat 0 0], [ShLin 0%nat 0 0], Some (cN (-1)));
  (6, 6, [ShLin 0%nat 0 0], [ShLin 0%nat 0 0], Some (cN 1));
  (7, 7, [ShLin 0%nat 0 0], [ShLin 0%nat 0 0], Some (cN 1));
  (8, 8, [ShLin 0%nat 0 0], [ShLin 0%nat 0 0], Some (cN (-1)));
  (9, 9, [ShLin 0%nat 0 0], [ShLin 0%nat 0 0], Some (cN (-1)));
  (10, 10, [ShLin 0%nat 0 0], [ShLin 0%nat 0 0], Some (cN 1));
  (11, 11, [ShLin 0%nat 0 0], [ShLin 0%nat 0 0], Some (cN 1));
  (12, 12, [ShLin 0%nat 0 0], [ShLin 0%nat 0 0], Some (cN (-1)));
  (13, 13, [ShLin 0%nat 0 0], [ShLin 0%nat 0 0], Some (cN 1));
  (14, 14, [ShLin 0%nat 0 0], [ShLin 0%nat 0 0], Some (cN (-1)));
  (15, 15, [ShLin 0%nat 0 0], [ShLin 0%nat 0 0], Some (cN (-1)));
  (16, 16, [ShLin 0%nat 0 0], [ShLin 0%nat 0 0], Some (cN 1))].
(** /repo/c++/symmetry/sym-NONE-impl.hpp, make_matrix_nonpolarized  *)
Definition none_2ch_m0_o : list off_line := [
  (1, 9, 0, 1, "xi", Some (cN 1));
  (2, 10, 0, 1, "xi", Some (cN (-1)));
  (3, 11, 0, 1, "xi", Some (cN (-1)));
  (4, 12, 0, 1, "xi", Some (cN 1));
  (5, 13, 0, 1, "xi", Some (cN (-1)));
  (6, 14, 0, 1, "xi", Some (cN 1));
  (7, 15, 0, 1, "xi", Some (cN 1));
  (8, 16, 0, 1, "xi", Some (cN (-1)));
  (1, 3, 1, 1, "xi", Some (cN 1));
  (2, 4, 1, 1, "xi", Some (cN (-1)));
  (5, 7, 1, 1, "xi", Some (cN 1));
  (6, 8, 1, 1, "xi", Some (cN (-1)));
  (9, 11, 1, 1, "xi", Some (cN 1));
  (10, 12, 1, 1, "xi", Some (cN (-1)));
  (13, 15, 1, 1, "xi", Some (cN 1));
  (14, 16, 1, 1, "xi", Some (cN (-1)));
  (1, 5, 0, 0, "xi", Some (cN 1));
  (2, 6, 0, 0, "xi", Some (cN (-1)));
  (3, 7, 0, 0, "xi", Some (cN (-1)));
  (4, 8, 0, 0, "xi", Some (cN 1));
  (9, 13, 0, 0, "xi", Some (cN 1));
  (10, 14, 0, 0, "xi", Some (cN (-1)));
  (11, 15, 0, 0, "xi", Some (cN (-1)));
  (12, 16, 0, 0, "xi", Some (cN 1));
  (1, 2, 1, 0, "xi", Some (cN 1));
  (3, 4, 1, 0, "xi", Some (cN 1));
  (5, 6, 1, 0, "xi", Some (cN 1));
  (7, 8, 1, 0, "xi", Some (cN 1));
  (9, 10, 1, 0, "xi", Some (cN 1));
  (11, 12, 1, 0, "xi", Some (cN 1));
  (13, 14, 1, 0, "xi", Some (cN 1));
  (15, 16, 1, 0, "xi", Some (cN 1))].
(** /repo/c++/symmetry/sym-NONE-impl.hpp, make_matrix_nonpolarized  *)
Definition none_2ch_m0_d : list diag_line := [
  (1, 0, "zeta", Some (cN 0));
  (2, 0, "zeta", Some (cN 0));
  (3, 0, "zeta", Some (cN 0));
  (4, 0, "zeta", Some (cN 0));
  (5, 0, "zeta", Some (cN 1));
  (6, 0, "zeta", Some (cN 1));
  (7, 0, "zeta", Some (cN 1));
  (8, 0, "zeta", Some (cN 1));
  (9, 0, "zeta", Some (cN 1));
  (10, 0, "zeta", Some (cN 1));
  (11, 0, "zeta", Some (cN 1));
  (12, 0, "zeta", Some (cN 1));
  (13, 0, "zeta", Some (cN 2));
  (14, 0, "zeta", Some (cN 2));
  (15, 0, "zeta", Some (cN 2));
  (16, 0, "zeta", Some (cN 2));
  (1, 1, "zeta", Some (cN 0));
  (2, 1, "zeta", Some (cN 1));
  (3, 1, "zeta", Some (cN 1));
  (4, 1, "zeta", Some (cN 2));
  (5, 1, "zeta", Some (cN 0));
  (6, 1, "zeta", Some (cN 1));
  (7, 1, "zeta", Some (cN 1));
  (8, 1, "zeta", Some (cN 2));
  (9, 1, "zeta", Some (cN 0));
  (10, 1, "zeta", Some (cN 1));
  (11, 1, "zeta", Some (cN 1));
  (12, 1, "zeta", Some (cN 2));
  (13, 1, "zeta", Some (cN 0));
  (14, 1, "zeta", Some (cN 1));
  (15, 1, "zeta", Some (cN 1));
  (16, 1, "zeta", Some (cN 2))].
(** /repo/c++/symmetry/sym-NONE-impl.hpp, make_matrix_nonpolarized  *)
Definition none_2ch_m0_f : list dof_line := [
  (1, 13, 0, "2*delta", Some (cQ 1 2));
  (2, 14, 0, "2*delta", Some (cQ 1 2));
  (3, 15, 0, "2*delta", Some (cQ 1 2));
  (4, 16, 0, "2*delta", Some (cQ 1 2));
  (13, 1, 0, "2*delta", Some (cQ 1 2));
  (14, 2, 0, "2*delta", Some (cQ 1 2));
  (15, 3, 0, "2*delta", Some (cQ 1 2));
  (16, 4, 0, "2*delta", Some (cQ 1 2));
  (1, 4, 1, "2*delta", Some (cQ 1 2));
  (4, 1, 1, "2*delta", Some (cQ 1 2));
  (5, 8, 1, "2*delta", Some (cQ 1 2));
  (8, 5, 1, "2*delta", Some (cQ 1 2));
  (9, 12, 1, "2*delta", Some (cQ 1 2));
  (12, 9, 1, "2*delta", Some (cQ 1 2));
  (13, 16, 1, "2*delta", Some (cQ 1 2));
  (16, 13, 1, "2*delta", Some (cQ 1 2))].
(** /repo/c++/symmetry/sym-NONE-impl.hpp, make_matrix_polarized  *)
Definition none_2ch_m1_o : list off_line := [
  (1, 9, 0, 1, "xiUP", Some (cN 1));
  (2, 10, 0, 1, "xiUP", Some (cN (-1)));
  (3, 11, 0, 1, "xiUP", Some (cN (-1)));
  (4, 12, 0, 1, "xiUP", Some (cN 1));
  (5, 13, 0, 1, "xiUP", Some (cN (-1)));
  (6, 14, 0, 1, "xiUP", Some (cN 1));
  (7, 15, 0, 1, "xiUP", Some (cN 1));
  (8, 16, 0, 1, "xiUP", Some (cN (-1)));
  (1, 3, 1, 1, "xiUP", Some (cN 1));
  (2, 4, 1, 1, "xiUP", Some (cN (-1)));
  (5, 7, 1, 1, "xiUP", Some (cN 1));
  (6, 8, 1, 1, "xiUP", Some (cN (-1)));
  (9, 11, 1, 1, "xiUP", Some (cN 1));
  (10, 12, 1, 1, "xiUP", Some (cN (-1)));
  (13, 15, 1, 1, "xiUP", Some (cN 1));
  (14, 16, 1, 1, "xiUP", Some (cN (-1)));
  (1, 5, 0, 0, "xiDOWN", Some (cN 1));
  (2, 6, 0, 0, "xiDOWN", Some (cN (-1)));
  (3, 7, 0, 0, "xiDOWN", Some (cN (-1)));
  (4, 8, 0, 0, "xiDOWN", Some (cN 1));
  (9, 13, 0, 0, "xiDOWN", Some (cN 1));
  (10, 14, 0, 0, "xiDOWN", Some (cN (-1)));
  (11, 15, 0, 0, "xiDOWN", Some (cN (-1)));
  (12, 16, 0, 0, "xiDOWN", Some (cN 1));
  (1, 2, 1, 0, "xiDOWN", Some (cN 1));
  (3, 4, 1, 0, "xiDOWN", Some (cN 1));
  (5, 6, 1, 0, "xiDOWN", Some (cN 1));
  (7, 8, 1, 0, "xiDOWN", Some (cN 1));
  (9, 10, 1, 0, "xiDOWN", Some (cN 1));
  (11, 12, 1, 0, "xiDOWN", Some (cN 1));
  (13, 14, 1, 0, "xiDOWN", Some (cN 1));
  (15, 16, 1, 0, "xiDOWN", Some (cN 1))].
(** /repo/c++/symmetry/sym-NONE-impl.hpp, make_matrix_polarized  *)
Definition none_2ch_m1_d : list diag_line := [
  (1, 0, "zetaUP", Some (cN 0));
  (2, 0, "zetaUP", Some (cN 0));
  (3, 0, "zetaUP", Some (cN 0));
  (4, 0, "zetaUP", Some (cN 0));
  (5, 0, "zetaUP", Some (cN 0));
  (6, 0, "zetaUP", Some (cN 0));
  (7, 0, "zetaUP", Some (cN 0));
  (8, 0, "zetaUP", Some (cN 0));
  (9, 0, "zetaUP", Some (cN 1));
  (10, 0, "zetaUP", Some (cN 1));
  (11, 0, "zetaUP", Some (cN 1));
  (12, 0, "zetaUP", Some (cN 1));
  (13, 0, "zetaUP", Some (cN 1));
  (14, 0, "zetaUP", Some (cN 1));
  (15, 0, "zetaUP", Some (cN 1));
  (16, 0, "zetaUP", Some (cN 1));
  (1, 1, "zetaUP", Some (cN 0));
  (2, 1, "zetaUP", Some (cN 0));
  (3, 1, "zetaUP", Some (cN 1));
  (4, 1, "zetaUP", Some (cN 1));
  (5, 1, "zetaUP", Some (cN 0));
  (6, 1, "zetaUP", Some (cN 0));
  (7, 1, "zetaUP", Some (cN 1));
  (8, 1, "zetaUP", Some (cN 1));
  (9, 1, "zetaUP", Some (cN 0));
  (10, 1, "zetaUP", Some (cN 0));
  (11, 1, "zetaUP", Some (cN 1));
  (12, 1, "zetaUP", Some (cN 1));
  (13, 1, "zetaUP", Some (cN 0));
  (14, 1, "zetaUP", Some (cN 0));
  (15, 1, "zetaUP", Some (cN 1));
  (16, 1, "zetaUP", Some (cN 1));
  (1, 0, "zetaDOWN", Some (cN 0));
  (2, 0, "zetaDOWN", Some (cN 0));
  (3, 0, "zetaDOWN", Some (cN 0));
  (4, 0, "zetaDOWN", Some (cN 0));
  (5, 0, "zetaDOWN", Some (cN 1));
  (6, 0, "zetaDOWN", Some (cN 1));
  (7, 0, "zetaDOWN", Some (cN 1));
  (8, 0, "zetaDOWN", Some (cN 1));
  (9, 0, "zetaDOWN", Some (cN 0));
  (10, 0, "zetaDOWN", Some (cN 0));
  (11, 0, "zetaDOWN", Some (cN 0));
  (12, 0, "zetaDOWN", Some (cN 0));
  (13, 0, "zetaDOWN", Some (cN 1));
  (14, 0, "zetaDOWN", Some (cN 1));
  (15, 0, "zetaDOWN", Some (cN 1));
  (16, 0, "zetaDOWN", Some (cN 1));
  (1, 1, "zetaDOWN", Some (cN 0));
  (2, 1, "zetaDOWN", Some (cN 1));
  (3, 1, "zetaDOWN", Some (cN 0));
  (4, 1, "zetaDOWN", Some (cN 1));
  (5, 1, "zetaDOWN", Some (cN 0));
  (6, 1, "zetaDOWN", Some (cN 1));
  (7, 1, "zetaDOWN", Some (cN 0));
  (8, 1, "zetaDOWN", Some (cN 1));
  (9, 1, "zetaDOWN", Some (cN 0));
  (10, 1, "zetaDOWN", Some (cN 1));
  (11, 1, "zetaDOWN", Some (cN 0));
  (12, 1, "zetaDOWN", Some (cN 1));
  (13, 1, "zetaDOWN", Some (cN 0));
  (14, 1, "zetaDOWN", Some (cN 1));
  (15, 1, "zetaDOWN", Some (cN 0));
  (16, 1, "zetaDOWN", Some (cN 1))].
(** /repo/c++/symmetry/sym-NONE-impl.hpp, make_matrix_polarized  *)
Definition none_2ch_m1_f : list dof_line := [
  (1, 13, 0, "2*delta", Some (cQ 1 2));
  (2, 14, 0, "2*delta", Some (cQ 1 2));
  (3, 15, 0, "2*delta", Some (cQ 1 2));
  (4, 16, 0, "2*delta", Some (cQ 1 2));
  (13, 1, 0, "2*delta", Some (cQ 1 2));
  (14, 2, 0, "2*delta", Some (cQ 1 2));
  (15, 3, 0, "2*delta", Some (cQ 1 2));
  (16, 4, 0, "2*delta", Some (cQ 1 2));
  (1, 4, 1, "2*delta", Some (cQ 1 2));
  (4, 1, 1, "2*delta", Some (cQ 1 2));
  (5, 8, 1, "2*delta", Some (cQ 1 2));
  (8, 5, 1, "2*delta", Some (cQ 1 2));
  (9, 12, 1, "2*delta", Some (cQ 1 2));
  (12, 9, 1, "2*delta", Some (cQ 1 2));
  (13, 16, 1, "2*delta", Some (cQ 1 2));
  (16, 13, 1, "2*delta", Some (cQ 1 2))].
Definition coef_none_2ch : coef_set := mk_coef "NONE" 2%nat sym_NONE {| tb_In := none_2ch_In; tb_QN := none_2ch_QN |}
  [none_2ch_t0; none_2ch_t1; none_2ch_t2; none_2ch_t3]
  [none_2ch_t4]
  [mk_mode "nonpolarized" none_2ch_m0_o none_2ch_m0_d none_2ch_m0_f;
   mk_mode "polarized" none_2ch_m1_o none_2ch_m1_d none_2ch_m1_f].
