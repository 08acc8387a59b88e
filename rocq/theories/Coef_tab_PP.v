(** Generated by gen/gen_coef.py from /repo/c++/symmetry/{sym-PP-impl.hpp, nrg-recalc-PP.hpp, coefnew}. Do not edit. *)
From Coq Require Import List ZArith String.
From Verif Require Import Base Invar_model Symmetry_model Symmetry_tables Coef_model.
Import ListNotations.
Local Open Scope string_scope.
Local Open Scope list_scope.
Local Open Scope Z_scope.


(** /repo/c++/symmetry/nrg-recalc-PP.hpp recalc_irreduc, pp/pp-2ch-a-CR-DO.dat *)
Definition pp_2ch_t0 : irr_table := mk_irr 0 0 [ShLin 0%nat (-1) 0; ShLin 1%nat 1 0]  [
  (1, 9, Some (cN 1));
  (2, 10, Some (cN 1));
  (5, 13, Some (cN 1));
  (6, 14, Some (cN 1));
  (11, 3, Some (cN (-1)));
  (12, 4, Some (cN (-1)));
  (15, 7, Some (cN (-1)));
  (16, 8, Some (cN (-1)))].
(** /repo/c++/symmetry/nrg-recalc-PP.hpp recalc_irreduc, pp/pp-2ch-a-CR-UP.dat *)
Definition pp_2ch_t1 : irr_table := mk_irr 0 1 [ShLin 0%nat (-1) 0; ShLin 1%nat 1 0]  [
  (3, 9, Some (cN 1));
  (4, 10, Some (cN 1));
  (7, 13, Some (cN 1));
  (8, 14, Some (cN 1));
  (11, 1, Some (cN 1));
  (12, 2, Some (cN 1));
  (15, 5, Some (cN 1));
  (16, 6, Some (cN 1))].
(** /repo/c++/symmetry/nrg-recalc-PP.hpp recalc_irreduc, pp/pp-2ch-a-AN-DO.dat *)
Definition pp_2ch_t2 : irr_table := mk_irr 0 2 [ShLin 0%nat (-1) 0; ShLin 1%nat 1 0]  [
  (3, 11, Some (cN (-1)));
  (4, 12, Some (cN (-1)));
  (7, 15, Some (cN (-1)));
  (8, 16, Some (cN (-1)));
  (9, 1, Some (cN 1));
  (10, 2, Some (cN 1));
  (13, 5, Some (cN 1));
  (14, 6, Some (cN 1))].
(** /repo/c++/symmetry/nrg-recalc-PP.hpp recalc_irreduc, pp/pp-2ch-a-AN-UP.dat *)
Definition pp_2ch_t3 : irr_table := mk_irr 0 3 [ShLin 0%nat (-1) 0; ShLin 1%nat 1 0]  [
  (1, 11, Some (cN 1));
  (2, 12, Some (cN 1));
  (5, 15, Some (cN 1));
  (6, 16, Some (cN 1));
  (9, 3, Some (cN 1));
  (10, 4, Some (cN 1));
  (13, 7, Some (cN 1));
  (14, 8, Some (cN 1))].
(** /repo/c++/symmetry/nrg-recalc-PP.hpp recalc_irreduc, pp/pp-2ch-b-CR-DO.dat *)
Definition pp_2ch_t4 : irr_table := mk_irr 1 0 [ShLin 0%nat 1 0; ShLin 1%nat (-1) 0]  [
  (1, 5, Some (cN (-1)));
  (3, 7, Some (cN (-1)));
  (6, 2, Some (cN 1));
  (8, 4, Some (cN 1));
  (9, 13, Some (cN 1));
  (11, 15, Some (cN 1));
  (14, 10, Some (cN (-1)));
  (16, 12, Some (cN (-1)))].
(** /repo/c++/symmetry/nrg-recalc-PP.hpp recalc_irreduc, pp/pp-2ch-b-CR-UP.dat *)
Definition pp_2ch_t5 : irr_table := mk_irr 1 1 [ShLin 0%nat 1 0; ShLin 1%nat (-1) 0]  [
  (2, 5, Some (cN (-1)));
  (4, 7, Some (cN (-1)));
  (6, 1, Some (cN (-1)));
  (8, 3, Some (cN (-1)));
  (10, 13, Some (cN 1));
  (12, 15, Some (cN 1));
  (14, 9, Some (cN 1));
  (16, 11, Some (cN 1))].
(** /repo/c++/symmetry/nrg-recalc-PP.hpp recalc_irreduc, pp/pp-2ch-b-AN-DO.dat *)
Definition pp_2ch_t6 : irr_table := mk_irr 1 2 [ShLin 0%nat 1 0; ShLin 1%nat (-1) 0]  [
  (2, 6, Some (cN 1));
  (4, 8, Some (cN 1));
  (5, 1, Some (cN (-1)));
  (7, 3, Some (cN (-1)));
  (10, 14, Some (cN (-1)));
  (12, 16, Some (cN (-1)));
  (13, 9, Some (cN 1));
  (15, 11, Some (cN 1))].
(** /repo/c++/symmetry/nrg-recalc-PP.hpp recalc_irreduc, pp/pp-2ch-b-AN-UP.dat *)
Definition pp_2ch_t7 : irr_table := mk_irr 1 3 [ShLin 0%nat 1 0; ShLin 1%nat (-1) 0]  [
  (1, 6, Some (cN (-1)));
  (3, 8, Some (cN (-1)));
  (5, 2, Some (cN (-1)));
  (7, 4, Some (cN (-1)));
  (9, 14, Some (cN 1));
  (11, 16, Some (cN 1));
  (13, 10, Some (cN 1));
  (15, 12, Some (cN 1))].
(** /repo/c++/symmetry/sym-PP-impl.hpp, make_matrix_nonpolarized  *)
Definition pp_2ch_m0_o : list off_line := [
  (1, 11, 0, 1, "xi", Some (cN 1));
  (2, 12, 0, 1, "xi", Some (cN 1));
  (5, 15, 0, 1, "xi", Some (cN (-1)));
  (6, 16, 0, 1, "xi", Some (cN (-1)));
  (1, 6, 1, 1, "xi", Some (cN (-1)));
  (3, 8, 1, 1, "xi", Some (cN (-1)));
  (9, 14, 1, 1, "xi", Some (cN (-1)));
  (11, 16, 1, 1, "xi", Some (cN (-1)));
  (3, 11, 0, 0, "xi", Some (cN (-1)));
  (4, 12, 0, 0, "xi", Some (cN (-1)));
  (7, 15, 0, 0, "xi", Some (cN 1));
  (8, 16, 0, 0, "xi", Some (cN 1));
  (2, 6, 1, 0, "xi", Some (cN 1));
  (4, 8, 1, 0, "xi", Some (cN 1));
  (10, 14, 1, 0, "xi", Some (cN 1));
  (12, 16, 1, 0, "xi", Some (cN 1));
  (3, 9, 0, 3, "xi", Some (cN (-1)));
  (4, 10, 0, 3, "xi", Some (cN (-1)));
  (7, 13, 0, 3, "xi", Some (cN 1));
  (8, 14, 0, 3, "xi", Some (cN 1));
  (2, 5, 1, 3, "xi", Some (cN 1));
  (4, 7, 1, 3, "xi", Some (cN 1));
  (10, 13, 1, 3, "xi", Some (cN 1));
  (12, 15, 1, 3, "xi", Some (cN 1));
  (1, 9, 0, 2, "xi", Some (cN (-1)));
  (2, 10, 0, 2, "xi", Some (cN (-1)));
  (5, 13, 0, 2, "xi", Some (cN 1));
  (6, 14, 0, 2, "xi", Some (cN 1));
  (1, 5, 1, 2, "xi", Some (cN 1));
  (3, 7, 1, 2, "xi", Some (cN 1));
  (9, 13, 1, 2, "xi", Some (cN 1));
  (11, 15, 1, 2, "xi", Some (cN 1))].
(** /repo/c++/symmetry/sym-PP-impl.hpp, make_matrix_nonpolarized  *)
Definition pp_2ch_m0_d : list diag_line := [
  (1, 0, "zeta", Some (cN 1));
  (2, 0, "zeta", Some (cN 1));
  (3, 0, "zeta", Some (cN 1));
  (4, 0, "zeta", Some (cN 1));
  (5, 0, "zeta", Some (cN 1));
  (6, 0, "zeta", Some (cN 1));
  (7, 0, "zeta", Some (cN 1));
  (8, 0, "zeta", Some (cN 1));
  (9, 0, "zeta", Some (cN 0));
  (10, 0, "zeta", Some (cN 0));
  (11, 0, "zeta", Some (cN 2));
  (12, 0, "zeta", Some (cN 2));
  (13, 0, "zeta", Some (cN 0));
  (14, 0, "zeta", Some (cN 0));
  (15, 0, "zeta", Some (cN 2));
  (16, 0, "zeta", Some (cN 2));
  (1, 1, "zeta", Some (cN 1));
  (2, 1, "zeta", Some (cN 1));
  (3, 1, "zeta", Some (cN 1));
  (4, 1, "zeta", Some (cN 1));
  (5, 1, "zeta", Some (cN 0));
  (6, 1, "zeta", Some (cN 2));
  (7, 1, "zeta", Some (cN 0));
  (8, 1, "zeta", Some (cN 2));
  (9, 1, "zeta", Some (cN 1));
  (10, 1, "zeta", Some (cN 1));
  (11, 1, "zeta", Some (cN 1));
  (12, 1, "zeta", Some (cN 1));
  (13, 1, "zeta", Some (cN 0));
  (14, 1, "zeta", Some (cN 2));
  (15, 1, "zeta", Some (cN 0));
  (16, 1, "zeta", Some (cN 2))].
(** /repo/c++/symmetry/sym-PP-impl.hpp, make_matrix_nonpolarized  *)
Definition pp_2ch_m0_f : list dof_line := [
  (9, 11, 0, "2*delta", Some (cQ 1 2));
  (10, 12, 0, "2*delta", Some (cQ 1 2));
  (11, 9, 0, "2*delta", Some (cQ 1 2));
  (12, 10, 0, "2*delta", Some (cQ 1 2));
  (13, 15, 0, "2*delta", Some (cQ 1 2));
  (14, 16, 0, "2*delta", Some (cQ 1 2));
  (15, 13, 0, "2*delta", Some (cQ 1 2));
  (16, 14, 0, "2*delta", Some (cQ 1 2));
  (5, 6, 1, "2*delta", Some (cQ 1 2));
  (6, 5, 1, "2*delta", Some (cQ 1 2));
  (7, 8, 1, "2*delta", Some (cQ 1 2));
  (8, 7, 1, "2*delta", Some (cQ 1 2));
  (13, 14, 1, "2*delta", Some (cQ 1 2));
  (14, 13, 1, "2*delta", Some (cQ 1 2));
  (15, 16, 1, "2*delta", Some (cQ 1 2));
  (16, 15, 1, "2*delta", Some (cQ 1 2))].
(** /repo/c++/symmetry/sym-PP-impl.hpp, make_matrix_polarized  *)
Definition pp_2ch_m1_o : list off_line := [
  (1, 11, 0, 1, "xiUP", Some (cN 1));
  (2, 12, 0, 1, "xiUP", Some (cN 1));
  (5, 15, 0, 1, "xiUP", Some (cN (-1)));
  (6, 16, 0, 1, "xiUP", Some (cN (-1)));
  (1, 6, 1, 1, "xiUP", Some (cN (-1)));
  (3, 8, 1, 1, "xiUP", Some (cN (-1)));
  (9, 14, 1, 1, "xiUP", Some (cN (-1)));
  (11, 16, 1, 1, "xiUP", Some (cN (-1)));
  (3, 11, 0, 0, "xiDOWN", Some (cN (-1)));
  (4, 12, 0, 0, "xiDOWN", Some (cN (-1)));
  (7, 15, 0, 0, "xiDOWN", Some (cN 1));
  (8, 16, 0, 0, "xiDOWN", Some (cN 1));
  (2, 6, 1, 0, "xiDOWN", Some (cN 1));
  (4, 8, 1, 0, "xiDOWN", Some (cN 1));
  (10, 14, 1, 0, "xiDOWN", Some (cN 1));
  (12, 16, 1, 0, "xiDOWN", Some (cN 1));
  (3, 9, 0, 3, "xiUP", Some (cN (-1)));
  (4, 10, 0, 3, "xiUP", Some (cN (-1)));
  (7, 13, 0, 3, "xiUP", Some (cN 1));
  (8, 14, 0, 3, "xiUP", Some (cN 1));
  (2, 5, 1, 3, "xiUP", Some (cN 1));
  (4, 7, 1, 3, "xiUP", Some (cN 1));
  (10, 13, 1, 3, "xiUP", Some (cN 1));
  (12, 15, 1, 3, "xiUP", Some (cN 1));
  (1, 9, 0, 2, "xiDOWN", Some (cN (-1)));
  (2, 10, 0, 2, "xiDOWN", Some (cN (-1)));
  (5, 13, 0, 2, "xiDOWN", Some (cN 1));
  (6, 14, 0, 2, "xiDOWN", Some (cN 1));
  (1, 5, 1, 2, "xiDOWN", Some (cN 1));
  (3, 7, 1, 2, "xiDOWN", Some (cN 1));
  (9, 13, 1, 2, "xiDOWN", Some (cN 1));
  (11, 15, 1, 2, "xiDOWN", Some (cN 1))].
(** /repo/c++/symmetry/sym-PP-impl.hpp, make_matrix_polarized  *)
Definition pp_2ch_m1_d : list diag_line := [
  (1, 0, "zetaUP", Some (cN 0));
  (2, 0, "zetaUP", Some (cN 0));
  (3, 0, "zetaUP", Some (cN 1));
  (4, 0, "zetaUP", Some (cN 1));
  (5, 0, "zetaUP", Some (cN 0));
  (6, 0, "zetaUP", Some (cN 0));
  (7, 0, "zetaUP", Some (cN 1));
  (8, 0, "zetaUP", Some (cN 1));
  (9, 0, "zetaUP", Some (cN 0));
  (10, 0, "zetaUP", Some (cN 0));
  (11, 0, "zetaUP", Some (cN 1));
  (12, 0, "zetaUP", Some (cN 1));
  (13, 0, "zetaUP", Some (cN 0));
  (14, 0, "zetaUP", Some (cN 0));
  (15, 0, "zetaUP", Some (cN 1));
  (16, 0, "zetaUP", Some (cN 1));
  (1, 1, "zetaUP", Some (cN 0));
  (2, 1, "zetaUP", Some (cN 1));
  (3, 1, "zetaUP", Some (cN 0));
  (4, 1, "zetaUP", Some (cN 1));
  (5, 1, "zetaUP", Some (cN 0));
  (6, 1, "zetaUP", Some (cN 1));
  (7, 1, "zetaUP", Some (cN 0));
  (8, 1, "zetaUP", Some (cN 1));
  (9, 1, "zetaUP", Some (cN 0));
  (10, 1, "zetaUP", Some (cN 1));
  (11, 1, "zetaUP", Some (cN 0));
  (12, 1, "zetaUP", Some (cN 1));
  (13, 1, "zetaUP", Some (cN 0));
  (14, 1, "zetaUP", Some (cN 1));
  (15, 1, "zetaUP", Some (cN 0));
  (16, 1, "zetaUP", Some (cN 1));
  (1, 0, "zetaDOWN", Some (cN 1));
  (2, 0, "zetaDOWN", Some (cN 1));
  (3, 0, "zetaDOWN", Some (cN 0));
  (4, 0, "zetaDOWN", Some (cN 0));
  (5, 0, "zetaDOWN", Some (cN 1));
  (6, 0, "zetaDOWN", Some (cN 1));
  (7, 0, "zetaDOWN", Some (cN 0));
  (8, 0, "zetaDOWN", Some (cN 0));
  (9, 0, "zetaDOWN", Some (cN 0));
  (10, 0, "zetaDOWN", Some (cN 0));
  (11, 0, "zetaDOWN", Some (cN 1));
  (12, 0, "zetaDOWN", Some (cN 1));
  (13, 0, "zetaDOWN", Some (cN 0));
  (14, 0, "zetaDOWN", Some (cN 0));
  (15, 0, "zetaDOWN", Some (cN 1));
  (16, 0, "zetaDOWN", Some (cN 1));
  (1, 1, "zetaDOWN", Some (cN 1));
  (2, 1, "zetaDOWN", Some (cN 0));
  (3, 1, "zetaDOWN", Some (cN 1));
  (4, 1, "zetaDOWN", Some (cN 0));
  (5, 1, "zetaDOWN", Some (cN 0));
  (6, 1, "zetaDOWN", Some (cN 1));
  (7, 1, "zetaDOWN", Some (cN 0));
  (8, 1, "zetaDOWN", Some (cN 1));
  (9, 1, "zetaDOWN", Some (cN 1));
  (10, 1, "zetaDOWN", Some (cN 0));
  (11, 1, "zetaDOWN", Some (cN 1));
  (12, 1, "zetaDOWN", Some (cN 0));
  (13, 1, "zetaDOWN", Some (cN 0));
  (14, 1, "zetaDOWN", Some (cN 1));
  (15, 1, "zetaDOWN", Some (cN 0));
  (16, 1, "zetaDOWN", Some (cN 1))].
(** /repo/c++/symmetry/sym-PP-impl.hpp, make_matrix_polarized  *)
Definition pp_2ch_m1_f : list dof_line := [
  (9, 11, 0, "2*delta", Some (cQ 1 2));
  (10, 12, 0, "2*delta", Some (cQ 1 2));
  (11, 9, 0, "2*delta", Some (cQ 1 2));
  (12, 10, 0, "2*delta", Some (cQ 1 2));
  (13, 15, 0, "2*delta", Some (cQ 1 2));
  (14, 16, 0, "2*delta", Some (cQ 1 2));
  (15, 13, 0, "2*delta", Some (cQ 1 2));
  (16, 14, 0, "2*delta", Some (cQ 1 2));
  (5, 6, 1, "2*delta", Some (cQ 1 2));
  (6, 5, 1, "2*delta", Some (cQ 1 2));
  (7, 8, 1, "2*delta", Some (cQ 1 2));
  (8, 7, 1, "2*delta", Some (cQ 1 2));
  (13, 14, 1, "2*delta", Some (cQ 1 2));
  (14, 13, 1, "2*delta", Some (cQ 1 2));
  (15, 16, 1, "2*delta", Some (cQ 1 2));
  (16, 15, 1, "2*delta", Some (cQ 1 2))].
Definition coef_pp_2ch : coef_set := mk_coef "PP" 2%nat sym_PP {| tb_In := pp_2ch_In; tb_QN := pp_2ch_QN |}
  [pp_2ch_t0; pp_2ch_t1; pp_2ch_t2; pp_2ch_t3; pp_2ch_t4; pp_2ch_t5; pp_2ch_t6; pp_2ch_t7]
  []
  [mk_mode "nonpolarized" pp_2ch_m0_o pp_2ch_m0_d pp_2ch_m0_f;
   mk_mode "polarized" pp_2ch_m1_o pp_2ch_m1_d pp_2ch_m1_f].
