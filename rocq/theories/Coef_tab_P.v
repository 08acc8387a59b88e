(** Generated by gen/gen_coef.py from /repo/c++/symmetry/{sym-P-impl.hpp, nrg-recalc-P.hpp, coefnew}. Do not edit. *)
From Coq Require Import List ZArith String.
From Verif Require Import Base Invar_model Symmetry_model Symmetry_tables Coef_model.
Import ListNotations.
Local Open Scope string_scope.
Local Open Scope list_scope.
Local Open Scope Z_scope.


(** /repo/c++/symmetry/nrg-recalc-P.hpp recalc_irreduc, p/p-1ch-a-CR-DO.dat *)
Definition p_1ch_t0 : irr_table := mk_irr 0 0 [ShLin 0%nat (-1) 0]  [
  (1, 3, Some (cN 1));
  (4, 2, Some (cN (-1)))].
(** /repo/c++/symmetry/nrg-recalc-P.hpp recalc_irreduc, p/p-1ch-a-CR-UP.dat *)
Definition p_1ch_t1 : irr_table := mk_irr 0 1 [ShLin 0%nat (-1) 0]  [
  (2, 3, Some (cN 1));
  (4, 1, Some (cN 1))].
(** /repo/c++/symmetry/nrg-recalc-P.hpp recalc_irreduc, p/p-1ch-a-AN-DO.dat *)
Definition p_1ch_t2 : irr_table := mk_irr 0 2 [ShLin 0%nat (-1) 0]  [
  (2, 4, Some (cN (-1)));
  (3, 1, Some (cN 1))].
(** /repo/c++/symmetry/nrg-recalc-P.hpp recalc_irreduc, p/p-1ch-a-AN-UP.dat *)
Definition p_1ch_t3 : irr_table := mk_irr 0 3 [ShLin 0%nat (-1) 0]  [
  (1, 4, Some (cN 1));
  (3, 2, Some (cN 1))].
(** /repo/c++/symmetry/nrg-recalc-P.hpp recalc_doublet, p/p-1ch-doublet.dat *)
Definition p_1ch_t4 : ten_table := mk_ten "doublet" [ShLin 0%nat (-1) 0] [(-1)] [
  (1, 1, [ShLin 0%nat (-1) 0], [ShLin 0%nat 1 0], Some (cN 1));
  (2, 2, [ShLin 0%nat (-1) 0], [ShLin 0%nat 1 0], Some (cN 1));
  (3, 3, [ShLin 0%nat 1 0], [ShLin 0%nat (-1) 0], Some (cN 1));
  (4, 4, [ShLin 0%nat 1 0], [ShLin 0%nat (-1) 0], Some (cN 1))].
(** /repo/c++/symmetry/sym-P-impl.hpp, make_matrix_nonpolarized  *)
Definition p_1ch_m0_o : list off_line := [
  (1, 4, 0, 1, "xi", Some (cN (-1)));
  (2, 4, 0, 0, "xi", Some (cN 1));
  (2, 3, 0, 3, "xi", Some (cN 1));
  (1, 3, 0, 2, "xi", Some (cN 1))].
(** /repo/c++/symmetry/sym-P-impl.hpp, make_matrix_nonpolarized  *)
Definition p_1ch_m0_d : list diag_line := [
  (1, 0, "zeta", Some (cN 1));
  (2, 0, "zeta", Some (cN 1));
  (3, 0, "zeta", Some (cN 0));
  (4, 0, "zeta", Some (cN 2))].
(** /repo/c++/symmetry/sym-P-impl.hpp, make_matrix_nonpolarized  *)
Definition p_1ch_m0_f : list dof_line := [
  (3, 4, 0, "2*delta", Some (cQ 1 2));
  (4, 3, 0, "2*delta", Some (cQ 1 2))].
(** /repo/c++/symmetry/sym-P-impl.hpp, make_matrix_polarized  *)
Definition p_1ch_m1_o : list off_line := [
  (1, 4, 0, 1, "xiUP", Some (cN (-1)));
  (2, 4, 0, 0, "xiDOWN", Some (cN 1));
  (2, 3, 0, 3, "xiUP", Some (cN 1));
  (1, 3, 0, 2, "xiDOWN", Some (cN 1))].
(** /repo/c++/symmetry/sym-P-impl.hpp, make_matrix_polarized  *)
Definition p_1ch_m1_d : list diag_line := [
  (1, 0, "zetaUP", Some (cN 0));
  (2, 0, "zetaUP", Some (cN 1));
  (3, 0, "zetaUP", Some (cN 0));
  (4, 0, "zetaUP", Some (cN 1));
  (1, 0, "zetaDOWN", Some (cN 1));
  (2, 0, "zetaDOWN", Some (cN 0));
  (3, 0, "zetaDOWN", Some (cN 0));
  (4, 0, "zetaDOWN", Some (cN 1))].
(** /repo/c++/symmetry/sym-P-impl.hpp, make_matrix_polarized  *)
Definition p_1ch_m1_f : list dof_line := [
  (3, 4, 0, "2*delta", Some (cQ 1 2));
  (4, 3, 0, "2*delta", Some (cQ 1 2))].
Definition coef_p_1ch : coef_set := mk_coef "P" 1%nat sym_P {| tb_In := p_1ch_In; tb_QN := p_1ch_QN |}
  [p_1ch_t0; p_1ch_t1; p_1ch_t2; p_1ch_t3]
  [p_1ch_t4]
  [mk_mode "nonpolarized" p_1ch_m0_o p_1ch_m0_d p_1ch_m0_f;
   mk_mode "polarized" p_1ch_m1_o p_1ch_m1_d p_1ch_m1_f].
(** /repo/c++/symmetry/nrg-recalc-P.hpp recalc_irreduc, p/p-2ch-a-CR-DO.dat *)
Definition p_2ch_t0 : irr_table := mk_irr 0 0 [ShLin 0%nat (-1) 0]  [
  (3, 9, Some (cN 1));
  (4, 10, Some (cN 1));
  (7, 12, Some (cN (-1)));
  (8, 14, Some (cN (-1)));
  (11, 1, Some (cN 1));
  (13, 2, Some (cN 1));
  (15, 5, Some (cN (-1)));
  (16, 6, Some (cN (-1)))].
(** /repo/c++/symmetry/nrg-recalc-P.hpp recalc_irreduc, p/p-2ch-b-CR-DO.dat *)
Definition p_2ch_t1 : irr_table := mk_irr 1 0 [ShLin 0%nat (-1) 0]  [
  (2, 10, Some (cN (-1)));
  (3, 11, Some (cN (-1)));
  (5, 12, Some (cN (-1)));
  (8, 16, Some (cN (-1)));
  (9, 1, Some (cN 1));
  (13, 4, Some (cN 1));
  (14, 6, Some (cN 1));
  (15, 7, Some (cN 1))].
(** /repo/c++/symmetry/nrg-recalc-P.hpp recalc_irreduc, p/p-2ch-a-CR-UP.dat *)
Definition p_2ch_t2 : irr_table := mk_irr 0 1 [ShLin 0%nat (-1) 0]  [
  (5, 9, Some (cN 1));
  (6, 10, Some (cN 1));
  (7, 11, Some (cN 1));
  (8, 13, Some (cN 1));
  (12, 1, Some (cN 1));
  (14, 2, Some (cN 1));
  (15, 3, Some (cN 1));
  (16, 4, Some (cN 1))].
(** /repo/c++/symmetry/nrg-recalc-P.hpp recalc_irreduc, p/p-2ch-b-CR-UP.dat *)
Definition p_2ch_t3 : irr_table := mk_irr 1 1 [ShLin 0%nat (-1) 0]  [
  (2, 9, Some (cN 1));
  (4, 11, Some (cN (-1)));
  (6, 12, Some (cN (-1)));
  (8, 15, Some (cN 1));
  (10, 1, Some (cN 1));
  (13, 3, Some (cN (-1)));
  (14, 5, Some (cN (-1)));
  (16, 7, Some (cN 1))].
(** /repo/c++/symmetry/nrg-recalc-P.hpp recalc_irreduc, p/p-2ch-a-AN-DO.dat *)
Definition p_2ch_t4 : irr_table := mk_irr 0 2 [ShLin 0%nat (-1) 0]  [
  (1, 11, Some (cN 1));
  (2, 13, Some (cN 1));
  (5, 15, Some (cN (-1)));
  (6, 16, Some (cN (-1)));
  (9, 3, Some (cN 1));
  (10, 4, Some (cN 1));
  (12, 7, Some (cN (-1)));
  (14, 8, Some (cN (-1)))].
(** /repo/c++/symmetry/nrg-recalc-P.hpp recalc_irreduc, p/p-2ch-b-AN-DO.dat *)
Definition p_2ch_t5 : irr_table := mk_irr 1 2 [ShLin 0%nat (-1) 0]  [
  (1, 9, Some (cN 1));
  (4, 13, Some (cN 1));
  (6, 14, Some (cN 1));
  (7, 15, Some (cN 1));
  (10, 2, Some (cN (-1)));
  (11, 3, Some (cN (-1)));
  (12, 5, Some (cN (-1)));
  (16, 8, Some (cN (-1)))].
(** /repo/c++/symmetry/nrg-recalc-P.hpp recalc_irreduc, p/p-2ch-a-AN-UP.dat *)
Definition p_2ch_t6 : irr_table := mk_irr 0 3 [ShLin 0%nat (-1) 0]  [
  (1, 12, Some (cN 1));
  (2, 14, Some (cN 1));
  (3, 15, Some (cN 1));
  (4, 16, Some (cN 1));
  (9, 5, Some (cN 1));
  (10, 6, Some (cN 1));
  (11, 7, Some (cN 1));
  (13, 8, Some (cN 1))].
(** /repo/c++/symmetry/nrg-recalc-P.hpp recalc_irreduc, p/p-2ch-b-AN-UP.dat *)
Definition p_2ch_t7 : irr_table := mk_irr 1 3 [ShLin 0%nat (-1) 0]  [
  (1, 10, Some (cN 1));
  (3, 13, Some (cN (-1)));
  (5, 14, Some (cN (-1)));
  (7, 16, Some (cN 1));
  (9, 2, Some (cN 1));
  (11, 4, Some (cN (-1)));
  (12, 6, Some (cN (-1)));
  (15, 8, Some (cN 1))].
(** /repo/c++/symmetry/nrg-recalc-P.hpp recalc_doublet, p/p-2ch-doublet.dat *)
Definition p_2ch_t8 : ten_table := mk_ten "doublet" [ShLin 0%nat (-1) 0] [(-1)] [
  (1, 1, [ShLin 0%nat (-1) 0], [ShLin 0%nat 1 0], Some (cN 1));
  (2, 2, [ShLin 0%nat (-1) 0], [ShLin 0%nat 1 0], Some (cN 1));
  (3, 3, [ShLin 0%nat (-1) 0], [ShLin 0%nat 1 0], Some (cN 1));
  (4, 4, [ShLin 0%nat (-1) 0], [ShLin 0%nat 1 0], Some (cN 1));
  (5, 5, [ShLin 0%nat (-1) 0], [ShLin 0%nat 1 0], Some (cN 1));
  (6, 6, [ShLin 0%nat (-1) 0], [ShLin 0%nat 1 0], Some (cN 1));
  (7, 7, [ShLin 0%nat (-1) 0], [ShLin 0%nat 1 0], Some (cN 1));
  (8, 8, [ShLin 0%nat (-1) 0], [ShLin 0%nat 1 0], Some (cN 1));
  (9, 9, [ShLin 0%nat 1 0], [ShLin 0%nat (-1) 0], Some (cN 1));
  (10, 10, [ShLin 0%nat 1 0], [ShLin 0%nat (-1) 0], Some (cN 1));
  (11, 11, [ShLin 0%nat 1 0], [ShLin 0%nat (-1) 0], Some (cN 1));
  (12, 12, [ShLin 0%nat 1 0], [ShLin 0%nat (-1) 0], Some (cN 1));
  (13, 13, [ShLin 0%nat 1 0], [ShLin 0%nat (-1) 0], Some (cN 1));
  (14, 14, [ShLin 0%nat 1 0], [ShLin 0%nat (-1) 0], Some (cN 1));
  (15, 15, [ShLin 0%nat 1 0], [ShLin 0%nat (-1) 0], Some (cN 1));
  (16, 16, [ShLin 0%nat 1 0], [ShLin 0%nat (-1) 0], Some (cN 1))].
(** /repo/c++/symmetry/sym-P-impl.hpp, make_matrix_nonpolarized  *)
Definition p_2ch_m0_o : list off_line := [
  (1, 12, 0, 1, "xi", Some (cN 1));
  (2, 14, 0, 1, "xi", Some (cN 1));
  (3, 15, 0, 1, "xi", Some (cN 1));
  (4, 16, 0, 1, "xi", Some (cN 1));
  (1, 10, 1, 1, "xi", Some (cN 1));
  (3, 13, 1, 1, "xi", Some (cN (-1)));
  (5, 14, 1, 1, "xi", Some (cN (-1)));
  (7, 16, 1, 1, "xi", Some (cN 1));
  (1, 11, 0, 0, "xi", Some (cN 1));
  (2, 13, 0, 0, "xi", Some (cN 1));
  (5, 15, 0, 0, "xi", Some (cN (-1)));
  (6, 16, 0, 0, "xi", Some (cN (-1)));
  (1, 9, 1, 0, "xi", Some (cN 1));
  (4, 13, 1, 0, "xi", Some (cN 1));
  (6, 14, 1, 0, "xi", Some (cN 1));
  (7, 15, 1, 0, "xi", Some (cN 1));
  (5, 9, 0, 3, "xi", Some (cN (-1)));
  (6, 10, 0, 3, "xi", Some (cN (-1)));
  (7, 11, 0, 3, "xi", Some (cN (-1)));
  (8, 13, 0, 3, "xi", Some (cN (-1)));
  (2, 9, 1, 3, "xi", Some (cN (-1)));
  (4, 11, 1, 3, "xi", Some (cN 1));
  (6, 12, 1, 3, "xi", Some (cN 1));
  (8, 15, 1, 3, "xi", Some (cN (-1)));
  (3, 9, 0, 2, "xi", Some (cN (-1)));
  (4, 10, 0, 2, "xi", Some (cN (-1)));
  (7, 12, 0, 2, "xi", Some (cN 1));
  (8, 14, 0, 2, "xi", Some (cN 1));
  (2, 10, 1, 2, "xi", Some (cN 1));
  (3, 11, 1, 2, "xi", Some (cN 1));
  (5, 12, 1, 2, "xi", Some (cN 1));
  (8, 16, 1, 2, "xi", Some (cN 1))].
(** /repo/c++/symmetry/sym-P-impl.hpp, make_matrix_nonpolarized  *)
Definition p_2ch_m0_d : list diag_line := [
  (1, 0, "zeta", Some (cN 0));
  (2, 0, "zeta", Some (cN 0));
  (3, 0, "zeta", Some (cN 1));
  (4, 0, "zeta", Some (cN 1));
  (5, 0, "zeta", Some (cN 1));
  (6, 0, "zeta", Some (cN 1));
  (7, 0, "zeta", Some (cN 2));
  (8, 0, "zeta", Some (cN 2));
  (9, 0, "zeta", Some (cN 0));
  (10, 0, "zeta", Some (cN 0));
  (11, 0, "zeta", Some (cN 1));
  (12, 0, "zeta", Some (cN 1));
  (13, 0, "zeta", Some (cN 1));
  (14, 0, "zeta", Some (cN 1));
  (15, 0, "zeta", Some (cN 2));
  (16, 0, "zeta", Some (cN 2));
  (1, 1, "zeta", Some (cN 0));
  (2, 1, "zeta", Some (cN 2));
  (3, 1, "zeta", Some (cN 1));
  (4, 1, "zeta", Some (cN 1));
  (5, 1, "zeta", Some (cN 1));
  (6, 1, "zeta", Some (cN 1));
  (7, 1, "zeta", Some (cN 0));
  (8, 1, "zeta", Some (cN 2));
  (9, 1, "zeta", Some (cN 1));
  (10, 1, "zeta", Some (cN 1));
  (11, 1, "zeta", Some (cN 0));
  (12, 1, "zeta", Some (cN 0));
  (13, 1, "zeta", Some (cN 2));
  (14, 1, "zeta", Some (cN 2));
  (15, 1, "zeta", Some (cN 1));
  (16, 1, "zeta", Some (cN 1))].
(** /repo/c++/symmetry/sym-P-impl.hpp, make_matrix_nonpolarized  *)
Definition p_2ch_m0_f : list dof_line := [
  (1, 7, 0, "2*delta", Some (cQ 1 2));
  (2, 8, 0, "2*delta", Some (cQ 1 2));
  (7, 1, 0, "2*delta", Some (cQ 1 2));
  (8, 2, 0, "2*delta", Some (cQ 1 2));
  (9, 15, 0, "2*delta", Some (cQ 1 2));
  (10, 16, 0, "2*delta", Some (cQ 1 2));
  (15, 9, 0, "2*delta", Some (cQ 1 2));
  (16, 10, 0, "2*delta", Some (cQ 1 2));
  (1, 2, 1, "2*delta", Some (cQ 1 2));
  (2, 1, 1, "2*delta", Some (cQ 1 2));
  (7, 8, 1, "2*delta", Some (cQ 1 2));
  (8, 7, 1, "2*delta", Some (cQ 1 2));
  (11, 13, 1, "2*delta", Some (cQ 1 2));
  (12, 14, 1, "2*delta", Some (cQ 1 2));
  (13, 11, 1, "2*delta", Some (cQ 1 2));
  (14, 12, 1, "2*delta", Some (cQ 1 2))].
(** /repo/c++/symmetry/sym-P-impl.hpp, make_matrix_polarized  *)
Definition p_2ch_m1_o : list off_line := [
  (1, 12, 0, 1, "xiUP", Some (cN 1));
  (2, 14, 0, 1, "xiUP", Some (cN 1));
  (3, 15, 0, 1, "xiUP", Some (cN 1));
  (4, 16, 0, 1, "xiUP", Some (cN 1));
  (1, 10, 1, 1, "xiUP", Some (cN 1));
  (3, 13, 1, 1, "xiUP", Some (cN (-1)));
  (5, 14, 1, 1, "xiUP", Some (cN (-1)));
  (7, 16, 1, 1, "xiUP", Some (cN 1));
  (1, 11, 0, 0, "xiDOWN", Some (cN 1));
  (2, 13, 0, 0, "xiDOWN", Some (cN 1));
  (5, 15, 0, 0, "xiDOWN", Some (cN (-1)));
  (6, 16, 0, 0, "xiDOWN", Some (cN (-1)));
  (1, 9, 1, 0, "xiDOWN", Some (cN 1));
  (4, 13, 1, 0, "xiDOWN", Some (cN 1));
  (6, 14, 1, 0, "xiDOWN", Some (cN 1));
  (7, 15, 1, 0, "xiDOWN", Some (cN 1));
  (5, 9, 0, 3, "xiUP", Some (cN (-1)));
  (6, 10, 0, 3, "xiUP", Some (cN (-1)));
  (7, 11, 0, 3, "xiUP", Some (cN (-1)));
  (8, 13, 0, 3, "xiUP", Some (cN (-1)));
  (2, 9, 1, 3, "xiUP", Some (cN (-1)));
  (4, 11, 1, 3, "xiUP", Some (cN 1));
  (6, 12, 1, 3, "xiUP", Some (cN 1));
  (8, 15, 1, 3, "xiUP", Some (cN (-1)));
  (3, 9, 0, 2, "xiDOWN", Some (cN (-1)));
  (4, 10, 0, 2, "xiDOWN", Some (cN (-1)));
  (7, 12, 0, 2, "xiDOWN", Some (cN 1));
  (8, 14, 0, 2, "xiDOWN", Some (cN 1));
  (2, 10, 1, 2, "xiDOWN", Some (cN 1));
  (3, 11, 1, 2, "xiDOWN", Some (cN 1));
  (5, 12, 1, 2, "xiDOWN", Some (cN 1));
  (8, 16, 1, 2, "xiDOWN", Some (cN 1))].
(** /repo/c++/symmetry/sym-P-impl.hpp, make_matrix_polarized  *)
Definition p_2ch_m1_d : list diag_line := [
  (1, 0, "zetaUP", Some (cN 0));
  (2, 0, "zetaUP", Some (cN 0));
  (3, 0, "zetaUP", Some (cN 0));
  (4, 0, "zetaUP", Some (cN 0));
  (5, 0, "zetaUP", Some (cN 1));
  (6, 0, "zetaUP", Some (cN 1));
  (7, 0, "zetaUP", Some (cN 1));
  (8, 0, "zetaUP", Some (cN 1));
  (9, 0, "zetaUP", Some (cN 0));
  (10, 0, "zetaUP", Some (cN 0));
  (11, 0, "zetaUP", Some (cN 0));
  (12, 0, "zetaUP", Some (cN 1));
  (13, 0, "zetaUP", Some (cN 0));
  (14, 0, "zetaUP", Some (cN 1));
  (15, 0, "zetaUP", Some (cN 1));
  (16, 0, "zetaUP", Some (cN 1));
  (1, 1, "zetaUP", Some (cN 0));
  (2, 1, "zetaUP", Some (cN 1));
  (3, 1, "zetaUP", Some (cN 0));
  (4, 1, "zetaUP", Some (cN 1));
  (5, 1, "zetaUP", Some (cN 0));
  (6, 1, "zetaUP", Some (cN 1));
  (7, 1, "zetaUP", Some (cN 0));
  (8, 1, "zetaUP", Some (cN 1));
  (9, 1, "zetaUP", Some (cN 0));
  (10, 1, "zetaUP", Some (cN 1));
  (11, 1, "zetaUP", Some (cN 0));
  (12, 1, "zetaUP", Some (cN 0));
  (13, 1, "zetaUP", Some (cN 1));
  (14, 1, "zetaUP", Some (cN 1));
  (15, 1, "zetaUP", Some (cN 0));
  (16, 1, "zetaUP", Some (cN 1));
  (1, 0, "zetaDOWN", Some (cN 0));
  (2, 0, "zetaDOWN", Some (cN 0));
  (3, 0, "zetaDOWN", Some (cN 1));
  (4, 0, "zetaDOWN", Some (cN 1));
  (5, 0, "zetaDOWN", Some (cN 0));
  (6, 0, "zetaDOWN", Some (cN 0));
  (7, 0, "zetaDOWN", Some (cN 1));
  (8, 0, "zetaDOWN", Some (cN 1));
  (9, 0, "zetaDOWN", Some (cN 0));
  (10, 0, "zetaDOWN", Some (cN 0));
  (11, 0, "zetaDOWN", Some (cN 1));
  (12, 0, "zetaDOWN", Some (cN 0));
  (13, 0, "zetaDOWN", Some (cN 1));
  (14, 0, "zetaDOWN", Some (cN 0));
  (15, 0, "zetaDOWN", Some (cN 1));
  (16, 0, "zetaDOWN", Some (cN 1));
  (1, 1, "zetaDOWN", Some (cN 0));
  (2, 1, "zetaDOWN", Some (cN 1));
  (3, 1, "zetaDOWN", Some (cN 1));
  (4, 1, "zetaDOWN", Some (cN 0));
  (5, 1, "zetaDOWN", Some (cN 1));
  (6, 1, "zetaDOWN", Some (cN 0));
  (7, 1, "zetaDOWN", Some (cN 0));
  (8, 1, "zetaDOWN", Some (cN 1));
  (9, 1, "zetaDOWN", Some (cN 1));
  (10, 1, "zetaDOWN", Some (cN 0));
  (11, 1, "zetaDOWN", Some (cN 0));
  (12, 1, "zetaDOWN", Some (cN 0));
  (13, 1, "zetaDOWN", Some (cN 1));
  (14, 1, "zetaDOWN", Some (cN 1));
  (15, 1, "zetaDOWN", Some (cN 1));
  (16, 1, "zetaDOWN", Some (cN 0))].
(** /repo/c++/symmetry/sym-P-impl.hpp, make_matrix_polarized  *)
Definition p_2ch_m1_f : list dof_line := [
  (1, 7, 0, "2*delta", Some (cQ 1 2));
  (2, 8, 0, "2*delta", Some (cQ 1 2));
  (7, 1, 0, "2*delta", Some (cQ 1 2));
  (8, 2, 0, "2*delta", Some (cQ 1 2));
  (9, 15, 0, "2*delta", Some (cQ 1 2));
  (10, 16, 0, "2*delta", Some (cQ 1 2));
  (15, 9, 0, "2*delta", Some (cQ 1 2));
  (16, 10, 0, "2*delta", Some (cQ 1 2));
  (1, 2, 1, "2*delta", Some (cQ 1 2));
  (2, 1, 1, "2*delta", Some (cQ 1 2));
  (7, 8, 1, "2*delta", Some (cQ 1 2));
  (8, 7, 1, "2*delta", Some (cQ 1 2));
  (11, 13, 1, "2*delta", Some (cQ 1 2));
  (12, 14, 1, "2*delta", Some (cQ 1 2));
  (13, 11, 1, "2*delta", Some (cQ 1 2));
  (14, 12, 1, "2*delta", Some (cQ 1 2))].
Definition coef_p_2ch : coef_set := mk_coef "P" 2%nat sym_P {| tb_In := p_2ch_In; tb_QN := p_2ch_QN |}
  [p_2ch_t0; p_2ch_t1; p_2ch_t2; p_2ch_t3; p_2ch_t4; p_2ch_t5; p_2ch_t6; p_2ch_t7]
  [p_2ch_t8]
  [mk_mode "nonpolarized" p_2ch_m0_o p_2ch_m0_d p_2ch_m0_f;
   mk_mode "polarized" p_2ch_m1_o p_2ch_m1_d p_2ch_m1_f].
