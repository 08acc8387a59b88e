(** Generated by gen/gen_coef.py from /repo/c++/symmetry/{sym-QSZ-impl.hpp, nrg-recalc-QSZ.hpp, coefnew}. Do not edit. *)
From Coq Require Import List ZArith String.
From Verif Require Import Base Invar_model Symmetry_model Symmetry_tables Coef_model.
Import ListNotations.
Local Open Scope string_scope.
Local Open Scope list_scope.
Local Open Scope Z_scope.


(** /repo/c++/symmetry/nrg-recalc-QSZ.hpp recalc_doublet, qsz/qsz-1ch-doubletp.dat *)
Definition qsz_1ch_t0 : ten_table := mk_ten "doublet" [ShLin 0%nat 1 (-1); ShLin 1%nat 1 1] [1; (-1)] [
  (1, 1, [ShLin 0%nat 1 1; ShLin 1%nat 1 0], [ShLin 0%nat 1 0; ShLin 1%nat 1 1], Some (cN 1));
  (2, 2, [ShLin 0%nat 1 0; ShLin 1%nat 1 1], [ShLin 0%nat 1 (-1); ShLin 1%nat 1 2], Some (cN (-1)));
  (3, 3, [ShLin 0%nat 1 0; ShLin 1%nat 1 (-1)], [ShLin 0%nat 1 (-1); ShLin 1%nat 1 0], Some (cN (-1)));
  (4, 4, [ShLin 0%nat 1 (-1); ShLin 1%nat 1 0], [ShLin 0%nat 1 (-2); ShLin 1%nat 1 1], Some (cN 1))].
(** /repo/c++/symmetry/nrg-recalc-QSZ.hpp recalc_doublet, qsz/qsz-1ch-doubletm.dat *)
Definition qsz_1ch_t1 : ten_table := mk_ten "doublet" [ShLin 0%nat 1 (-1); ShLin 1%nat 1 (-1)] [1; 1] [
  (1, 1, [ShLin 0%nat 1 1; ShLin 1%nat 1 0], [ShLin 0%nat 1 0; ShLin 1%nat 1 (-1)], Some (cN 1));
  (2, 2, [ShLin 0%nat 1 0; ShLin 1%nat 1 1], [ShLin 0%nat 1 (-1); ShLin 1%nat 1 0], Some (cN (-1)));
  (3, 3, [ShLin 0%nat 1 0; ShLin 1%nat 1 (-1)], [ShLin 0%nat 1 (-1); ShLin 1%nat 1 (-2)], Some (cN (-1)));
  (4, 4, [ShLin 0%nat 1 (-1); ShLin 1%nat 1 0], [ShLin 0%nat 1 (-2); ShLin 1%nat 1 (-1)], Some (cN 1))].
(** /repo/c++/symmetry/nrg-recalc-QSZ.hpp recalc_irreduc, qsz/qsz-1ch-spinupa.dat *)
Definition qsz_1ch_t2 : irr_table := mk_irr 0 0 [ShLin 0%nat 1 1; ShLin 1%nat 1 1]  [
  (3, 1, Some (cN 1));
  (4, 2, Some (cN 1))].
(** /repo/c++/symmetry/nrg-recalc-QSZ.hpp recalc_irreduc, qsz/qsz-1ch-spindowna.dat *)
Definition qsz_1ch_t3 : irr_table := mk_irr 0 0 [ShLin 0%nat 1 1; ShLin 1%nat 1 (-1)]  [
  (2, 1, Some (cN 1));
  (4, 3, Some (cN (-1)))].
(** /repo/c++/symmetry/nrg-recalc-QSZ.hpp recalc_triplet, qsz/qsz-1ch-triplets.dat *)
Definition qsz_1ch_t4 : ten_table := mk_ten "triplet" [ShLin 0%nat 1 0; ShLin 1%nat 1 0] [0; 0] [
  (1, 1, [ShLin 0%nat 1 1; ShLin 1%nat 1 0], [ShLin 0%nat 1 1; ShLin 1%nat 1 0], Some (cN 1));
  (2, 2, [ShLin 0%nat 1 0; ShLin 1%nat 1 1], [ShLin 0%nat 1 0; ShLin 1%nat 1 1], Some (cN 1));
  (3, 3, [ShLin 0%nat 1 0; ShLin 1%nat 1 (-1)], [ShLin 0%nat 1 0; ShLin 1%nat 1 (-1)], Some (cN 1));
  (4, 4, [ShLin 0%nat 1 (-1); ShLin 1%nat 1 0], [ShLin 0%nat 1 (-1); ShLin 1%nat 1 0], Some (cN 1))].
(** /repo/c++/symmetry/nrg-recalc-QSZ.hpp recalc_triplet, qsz/qsz-1ch-tripletp.dat *)
Definition qsz_1ch_t5 : ten_table := mk_ten "triplet" [ShLin 0%nat 1 0; ShLin 1%nat 1 2] [0; (-2)] [
  (1, 1, [ShLin 0%nat 1 1; ShLin 1%nat 1 0], [ShLin 0%nat 1 1; ShLin 1%nat 1 2], Some (cN 1));
  (2, 2, [ShLin 0%nat 1 0; ShLin 1%nat 1 1], [ShLin 0%nat 1 0; ShLin 1%nat 1 3], Some (cN 1));
  (3, 3, [ShLin 0%nat 1 0; ShLin 1%nat 1 (-1)], [ShLin 0%nat 1 0; ShLin 1%nat 1 1], Some (cN 1));
  (4, 4, [ShLin 0%nat 1 (-1); ShLin 1%nat 1 0], [ShLin 0%nat 1 (-1); ShLin 1%nat 1 2], Some (cN 1))].
(** /repo/c++/symmetry/nrg-recalc-QSZ.hpp recalc_triplet, qsz/qsz-1ch-tripletm.dat *)
Definition qsz_1ch_t6 : ten_table := mk_ten "triplet" [ShLin 0%nat 1 0; ShLin 1%nat 1 (-2)] [0; 2] [
  (1, 1, [ShLin 0%nat 1 1; ShLin 1%nat 1 0], [ShLin 0%nat 1 1; ShLin 1%nat 1 (-2)], Some (cN 1));
  (2, 2, [ShLin 0%nat 1 0; ShLin 1%nat 1 1], [ShLin 0%nat 1 0; ShLin 1%nat 1 (-1)], Some (cN 1));
  (3, 3, [ShLin 0%nat 1 0; ShLin 1%nat 1 (-1)], [ShLin 0%nat 1 0; ShLin 1%nat 1 (-3)], Some (cN 1));
  (4, 4, [ShLin 0%nat 1 (-1); ShLin 1%nat 1 0], [ShLin 0%nat 1 (-1); ShLin 1%nat 1 (-2)], Some (cN 1))].
(** /repo/c++/symmetry/sym-QSZ-impl.hpp, make_matrix_nonpolarized if (!P.substeps) *)
Definition qsz_1ch_m0_o : list off_line := [
  (1, 2, 0, 0, "xi", Some (cN 1));
  (1, 3, 0, 0, "xi", Some (cN 1));
  (2, 4, 0, 0, "xi", Some (cN (-1)));
  (3, 4, 0, 0, "xi", Some (cN 1))].
(** /repo/c++/symmetry/sym-QSZ-impl.hpp, make_matrix_nonpolarized if (!P.substeps) *)
Definition qsz_1ch_m0_d : list diag_line := [
  (1, 0, "zeta", Some (cN 0));
  (2, 0, "zeta", Some (cN 1));
  (3, 0, "zeta", Some (cN 1));
  (4, 0, "zeta", Some (cN 2))].
(** /repo/c++/symmetry/sym-QSZ-impl.hpp, make_matrix_nonpolarized if (!P.substeps) *)
Definition qsz_1ch_m0_f : list dof_line := [
  ].
(** /repo/c++/symmetry/sym-QSZ-impl.hpp, make_matrix_polarized  *)
Definition qsz_1ch_m1_o : list off_line := [
  (1, 3, 0, 0, "xiUP", Some (cN 1));
  (2, 4, 0, 0, "xiUP", Some (cN (-1)));
  (1, 2, 0, 0, "xiDOWN", Some (cN 1));
  (3, 4, 0, 0, "xiDOWN", Some (cN 1))].
(** /repo/c++/symmetry/sym-QSZ-impl.hpp, make_matrix_polarized  *)
Definition qsz_1ch_m1_d : list diag_line := [
  (1, 0, "zetaUP half", Some (cN 0));
  (2, 0, "zetaUP half", Some (cN 0));
  (3, 0, "zetaUP half", Some (cN 1));
  (4, 0, "zetaUP half", Some (cN 1));
  (1, 0, "zetaDOWN half", Some (cN 0));
  (2, 0, "zetaDOWN half", Some (cN 1));
  (3, 0, "zetaDOWN half", Some (cN 0));
  (4, 0, "zetaDOWN half", Some (cN 1))].
(** /repo/c++/symmetry/sym-QSZ-impl.hpp, make_matrix_polarized  *)
Definition qsz_1ch_m1_f : list dof_line := [
  ].
Definition coef_qsz_1ch : coef_set := mk_coef "QSZ" 1%nat sym_QSZ {| tb_In := qsz_1ch_In; tb_QN := qsz_1ch_QN |}
  [qsz_1ch_t2; qsz_1ch_t3]
  [qsz_1ch_t0; qsz_1ch_t1; qsz_1ch_t4; qsz_1ch_t5; qsz_1ch_t6]
  [mk_mode "nonpolarized" qsz_1ch_m0_o qsz_1ch_m0_d qsz_1ch_m0_f;
   mk_mode "polarized" qsz_1ch_m1_o qsz_1ch_m1_d qsz_1ch_m1_f].
(** /repo/c++/symmetry/nrg-recalc-QSZ.hpp recalc_doublet, qsz/qsz-2ch-doubletp.dat *)
Definition qsz_2ch_t0 : ten_table := mk_ten "doublet" [ShLin 0%nat 1 (-1); ShLin 1%nat 1 1] [1; (-1)] [
  (1, 1, [ShLin 0%nat 1 2; ShLin 1%nat 1 0], [ShLin 0%nat 1 1; ShLin 1%nat 1 1], Some (cN 1));
  (2, 2, [ShLin 0%nat 1 1; ShLin 1%nat 1 1], [ShLin 0%nat 1 0; ShLin 1%nat 1 2], Some (cN (-1)));
  (3, 3, [ShLin 0%nat 1 1; ShLin 1%nat 1 1], [ShLin 0%nat 1 0; ShLin 1%nat 1 2], Some (cN (-1)));
  (4, 4, [ShLin 0%nat 1 1; ShLin 1%nat 1 (-1)], [ShLin 0%nat 1 0; ShLin 1%nat 1 0], Some (cN (-1)));
  (5, 5, [ShLin 0%nat 1 1; ShLin 1%nat 1 (-1)], [ShLin 0%nat 1 0; ShLin 1%nat 1 0], Some (cN (-1)));
  (6, 6, [ShLin 0%nat 1 0; ShLin 1%nat 1 2], [ShLin 0%nat 1 (-1); ShLin 1%nat 1 3], Some (cN 1));
  (7, 7, [ShLin 0%nat 1 0; ShLin 1%nat 1 0], [ShLin 0%nat 1 (-1); ShLin 1%nat 1 1], Some (cN 1));
  (8, 8, [ShLin 0%nat 1 0; ShLin 1%nat 1 0], [ShLin 0%nat 1 (-1); ShLin 1%nat 1 1], Some (cN 1));
  (9, 9, [ShLin 0%nat 1 0; ShLin 1%nat 1 0], [ShLin 0%nat 1 (-1); ShLin 1%nat 1 1], Some (cN 1));
  (10, 10, [ShLin 0%nat 1 0; ShLin 1%nat 1 0], [ShLin 0%nat 1 (-1); ShLin 1%nat 1 1], Some (cN 1));
  (11, 11, [ShLin 0%nat 1 0; ShLin 1%nat 1 (-2)], [ShLin 0%nat 1 (-1); ShLin 1%nat 1 (-1)], Some (cN 1));
  (12, 12, [ShLin 0%nat 1 (-1); ShLin 1%nat 1 1], [ShLin 0%nat 1 (-2); ShLin 1%nat 1 2], Some (cN (-1)));
  (13, 13, [ShLin 0%nat 1 (-1); ShLin 1%nat 1 1], [ShLin 0%nat 1 (-2); ShLin 1%nat 1 2], Some (cN (-1)));
  (14, 14, [ShLin 0%nat 1 (-1); ShLin 1%nat 1 (-1)], [ShLin 0%nat 1 (-2); ShLin 1%nat 1 0], Some (cN (-1)));
  (15, 15, [ShLin 0%nat 1 (-1); ShLin 1%nat 1 (-1)], [ShLin 0%nat 1 (-2); ShLin 1%nat 1 0], Some (cN (-1)));
  (16, 16, [ShLin 0%nat 1 (-2); ShLin 1%nat 1 0], [ShLin 0%nat 1 (-3); ShLin 1%nat 1 1], Some (cN 1))].
(** /repo/c++/symmetry/nrg-recalc-QSZ.hpp recalc_doublet, qsz/qsz-2ch-doubletm.dat *)
Definition qsz_2ch_t1 : ten_table := mk_ten "doublet" [ShLin 0%nat 1 (-1); ShLin 1%nat 1 (-1)] [1; 1] [
  (1, 1, [ShLin 0%nat 1 2; ShLin 1%nat 1 0], [ShLin 0%nat 1 1; ShLin 1%nat 1 (-1)], Some (cN 1));
  (2, 2, [ShLin 0%nat 1 1; ShLin 1%nat 1 1], [ShLin 0%nat 1 0; ShLin 1%nat 1 0], Some (cN (-1)));
  (3, 3, [ShLin 0%nat 1 1; ShLin 1%nat 1 1], [ShLin 0%nat 1 0; ShLin 1%nat 1 0], Some (cN (-1)));
  (4, 4, [ShLin 0%nat 1 1; ShLin 1%nat 1 (-1)], [ShLin 0%nat 1 0; ShLin 1%nat 1 (-2)], Some (cN (-1)));
  (5, 5, [ShLin 0%nat 1 1; ShLin 1%nat 1 (-1)], [ShLin 0%nat 1 0; ShLin 1%nat 1 (-2)], Some (cN (-1)));
  (6, 6, [ShLin 0%nat 1 0; ShLin 1%nat 1 2], [ShLin 0%nat 1 (-1); ShLin 1%nat 1 1], Some (cN 1));
  (7, 7, [ShLin 0%nat 1 0; ShLin 1%nat 1 0], [ShLin 0%nat 1 (-1); ShLin 1%nat 1 (-1)], Some (cN 1));
  (8, 8, [ShLin 0%nat 1 0; ShLin 1%nat 1 0], [ShLin 0%nat 1 (-1); ShLin 1%nat 1 (-1)], Some (cN 1));
  (9, 9, [ShLin 0%nat 1 0; ShLin 1%nat 1 0], [ShLin 0%nat 1 (-1); ShLin 1%nat 1 (-1)], Some (cN 1));
  (10, 10, [ShLin 0%nat 1 0; ShLin 1%nat 1 0], [ShLin 0%nat 1 (-1); ShLin 1%nat 1 (-1)], Some (cN 1));
  (11, 11, [ShLin 0%nat 1 0; ShLin 1%nat 1 (-2)], [ShLin 0%nat 1 (-1); ShLin 1%nat 1 (-3)], Some (cN 1));
  (12, 12, [ShLin 0%nat 1 (-1); ShLin 1%nat 1 1], [ShLin 0%nat 1 (-2); ShLin 1%nat 1 0], Some (cN (-1)));
  (13, 13, [ShLin 0%nat 1 (-1); ShLin 1%nat 1 1], [ShLin 0%nat 1 (-2); ShLin 1%nat 1 0], Some (cN (-1)));
  (14, 14, [ShLin 0%nat 1 (-1); ShLin 1%nat 1 (-1)], [ShLin 0%nat 1 (-2); ShLin 1%nat 1 (-2)], Some (cN (-1)));
  (15, 15, [ShLin 0%nat 1 (-1); ShLin 1%nat 1 (-1)], [ShLin 0%nat 1 (-2); ShLin 1%nat 1 (-2)], Some (cN (-1)));
  (16, 16, [ShLin 0%nat 1 (-2); ShLin 1%nat 1 0], [ShLin 0%nat 1 (-3); ShLin 1%nat 1 (-1)], Some (cN 1))].
(** /repo/c++/symmetry/nrg-recalc-QSZ.hpp recalc_irreduc, qsz/qsz-2ch-spinupa.dat *)
Definition qsz_2ch_t2 : irr_table := mk_irr 0 0 [ShLin 0%nat 1 1; ShLin 1%nat 1 1]  [
  (5, 1, Some (cN 1));
  (9, 2, Some (cN 1));
  (10, 3, Some (cN 1));
  (11, 4, Some (cN 1));
  (13, 6, Some (cN 1));
  (14, 7, Some (cN 1));
  (15, 8, Some (cN 1));
  (16, 12, Some (cN 1))].
(** /repo/c++/symmetry/nrg-recalc-QSZ.hpp recalc_irreduc, qsz/qsz-2ch-spinupb.dat *)
Definition qsz_2ch_t3 : irr_table := mk_irr 1 0 [ShLin 0%nat 1 1; ShLin 1%nat 1 1]  [
  (4, 1, Some (cN 1));
  (7, 2, Some (cN 1));
  (8, 3, Some (cN (-1)));
  (11, 5, Some (cN (-1)));
  (12, 6, Some (cN (-1)));
  (14, 9, Some (cN (-1)));
  (15, 10, Some (cN 1));
  (16, 13, Some (cN 1))].
(** /repo/c++/symmetry/nrg-recalc-QSZ.hpp recalc_irreduc, qsz/qsz-2ch-spindowna.dat *)
Definition qsz_2ch_t4 : irr_table := mk_irr 0 0 [ShLin 0%nat 1 1; ShLin 1%nat 1 (-1)]  [
  (3, 1, Some (cN 1));
  (6, 2, Some (cN 1));
  (8, 4, Some (cN 1));
  (10, 5, Some (cN (-1)));
  (12, 7, Some (cN 1));
  (13, 9, Some (cN (-1)));
  (15, 11, Some (cN (-1)));
  (16, 14, Some (cN (-1)))].
(** /repo/c++/symmetry/nrg-recalc-QSZ.hpp recalc_irreduc, qsz/qsz-2ch-spindownb.dat *)
Definition qsz_2ch_t5 : irr_table := mk_irr 1 0 [ShLin 0%nat 1 1; ShLin 1%nat 1 (-1)]  [
  (2, 1, Some (cN 1));
  (6, 3, Some (cN (-1)));
  (7, 4, Some (cN (-1)));
  (9, 5, Some (cN (-1)));
  (12, 8, Some (cN 1));
  (13, 10, Some (cN 1));
  (14, 11, Some (cN 1));
  (16, 15, Some (cN (-1)))].
(** /repo/c++/symmetry/nrg-recalc-QSZ.hpp recalc_triplet, qsz/qsz-2ch-triplets.dat *)
Definition qsz_2ch_t6 : ten_table := mk_ten "triplet" [ShLin 0%nat 1 0; ShLin 1%nat 1 0] [0; 0] [
  (1, 1, [ShLin 0%nat 1 2; ShLin 1%nat 1 0], [ShLin 0%nat 1 2; ShLin 1%nat 1 0], Some (cN 1));
  (2, 2, [ShLin 0%nat 1 1; ShLin 1%nat 1 1], [ShLin 0%nat 1 1; ShLin 1%nat 1 1], Some (cN 1));
  (3, 3, [ShLin 0%nat 1 1; ShLin 1%nat 1 1], [ShLin 0%nat 1 1; ShLin 1%nat 1 1], Some (cN 1));
  (4, 4, [ShLin 0%nat 1 1; ShLin 1%nat 1 (-1)], [ShLin 0%nat 1 1; ShLin 1%nat 1 (-1)], Some (cN 1));
  (5, 5, [ShLin 0%nat 1 1; ShLin 1%nat 1 (-1)], [ShLin 0%nat 1 1; ShLin 1%nat 1 (-1)], Some (cN 1));
  (6, 6, [ShLin 0%nat 1 0; ShLin 1%nat 1 2], [ShLin 0%nat 1 0; ShLin 1%nat 1 2], Some (cN 1));
  (7, 7, [ShLin 0%nat 1 0; ShLin 1%nat 1 0], [ShLin 0%nat 1 0; ShLin 1%nat 1 0], Some (cN 1));
  (8, 8, [ShLin 0%nat 1 0; ShLin 1%nat 1 0], [ShLin 0%nat 1 0; ShLin 1%nat 1 0], Some (cN 1));
  (9, 9, [ShLin 0%nat 1 0; ShLin 1%nat 1 0], [ShLin 0%nat 1 0; ShLin 1%nat 1 0], Some (cN 1));
  (10, 10, [ShLin 0%nat 1 0; ShLin 1%nat 1 0], [ShLin 0%nat 1 0; ShLin 1%nat 1 0], Some (cN 1));
  (11, 11, [ShLin 0%nat 1 0; ShLin 1%nat 1 (-2)], [ShLin 0%nat 1 0; ShLin 1%nat 1 (-2)], Some (cN 1));
  (12, 12, [ShLin 0%nat 1 (-1); ShLin 1%nat 1 1], [ShLin 0%nat 1 (-1); ShLin 1%nat 1 1], Some (cN 1));
  (13, 13, [ShLin 0%nat 1 (-1); ShLin 1%nat 1 1], [ShLin 0%nat 1 (-1); ShLin 1%nat 1 1], Some (cN 1));
  (14, 14, [ShLin 0%nat 1 (-1); ShLin 1%nat 1 (-1)], [ShLin 0%nat 1 (-1); ShLin 1%nat 1 (-1)], Some (cN 1));
  (15, 15, [ShLin 0%nat 1 (-1); ShLin 1%nat 1 (-1)], [ShLin 0%nat 1 (-1); ShLin 1%nat 1 (-1)], Some (cN 1));
  (16, 16, [ShLin 0%nat 1 (-2); ShLin 1%nat 1 0], [ShLin 0%nat 1 (-2); ShLin 1%nat 1 0], Some (cN 1))].
(** /repo/c++/symmetry/nrg-recalc-QSZ.hpp recalc_triplet, qsz/qsz-2ch-tripletp.dat *)
Definition qsz_2ch_t7 : ten_table := mk_ten "triplet" [ShLin 0%nat 1 0; ShLin 1%nat 1 2] [0; (-2)] [
  (1, 1, [ShLin 0%nat 1 2; ShLin 1%nat 1 0], [ShLin 0%nat 1 2; ShLin 1%nat 1 2], Some (cN 1));
  (2, 2, [ShLin 0%nat 1 1; ShLin 1%nat 1 1], [ShLin 0%nat 1 1; ShLin 1%nat 1 3], Some (cN 1));
  (3, 3, [ShLin 0%nat 1 1; ShLin 1%nat 1 1], [ShLin 0%nat 1 1; ShLin 1%nat 1 3], Some (cN 1));
  (4, 4, [ShLin 0%nat 1 1; ShLin 1%nat 1 (-1)], [ShLin 0%nat 1 1; ShLin 1%nat 1 1], Some (cN 1));
  (5, 5, [ShLin 0%nat 1 1; ShLin 1%nat 1 (-1)], [ShLin 0%nat 1 1; ShLin 1%nat 1 1], Some (cN 1));
  (6, 6, [ShLin 0%nat 1 0; ShLin 1%nat 1 2], [ShLin 0%nat 1 0; ShLin 1%nat 1 4], Some (cN 1));
  (7, 7, [ShLin 0%nat 1 0; ShLin 1%nat 1 0], [ShLin 0%nat 1 0; ShLin 1%nat 1 2], Some (cN 1));
  (8, 8, [ShLin 0%nat 1 0; ShLin 1%nat 1 0], [ShLin 0%nat 1 0; ShLin 1%nat 1 2], Some (cN 1));
  (9, 9, [ShLin 0%nat 1 0; ShLin 1%nat 1 0], [ShLin 0%nat 1 0; ShLin 1%nat 1 2], Some (cN 1));
  (10, 10, [ShLin 0%nat 1 0; ShLin 1%nat 1 0], [ShLin 0%nat 1 0; ShLin 1%nat 1 2], Some (cN 1));
  (11, 11, [ShLin 0%nat 1 0; ShLin 1%nat 1 (-2)], [ShLin 0%nat 1 0; ShLin 1%nat 1 0], Some (cN 1));
  (12, 12, [ShLin 0%nat 1 (-1); ShLin 1%nat 1 1], [ShLin 0%nat 1 (-1); ShLin 1%nat 1 3], Some (cN 1));
  (13, 13, [ShLin 0%nat 1 (-1); ShLin 1%nat 1 1], [ShLin 0%nat 1 (-1); ShLin 1%nat 1 3], Some (cN 1));
  (14, 14, [ShLin 0%nat 1 (-1); ShLin 1%nat 1 (-1)], [ShLin 0%nat 1 (-1); ShLin 1%nat 1 1], Some (cN 1));
  (15, 15, [ShLin 0%nat 1 (-1); ShLin 1%nat 1 (-1)], [ShLin 0%nat 1 (-1); ShLin 1%nat 1 1], Some (cN 1));
  (16, 16, [ShLin 0%nat 1 (-2); ShLin 1%nat 1 0], [ShLin 0%nat 1 (-2); ShLin 1%nat 1 2], Some (cN 1))].
(** /repo/c++/symmetry/nrg-recalc-QSZ.hpp recalc_triplet, qsz/qsz-2ch-tripletm.dat *)
Definition qsz_2ch_t8 : ten_table := mk_ten "triplet" [ShLin 0%nat 1 0; ShLin 1%nat 1 (-2)] [0; 2] [
  (1, 1, [ShLin 0%nat 1 2; ShLin 1%nat 1 0], [ShLin 0%nat 1 2; ShLin 1%nat 1 (-2)], Some (cN 1));
  (2, 2, [ShLin 0%nat 1 1; ShLin 1%nat 1 1], [ShLin 0%nat 1 1; ShLin 1%nat 1 (-1)], Some (cN 1));
  (3, 3, [ShLin 0%nat 1 1; ShLin 1%nat 1 1], [ShLin 0%nat 1 1; ShLin 1%nat 1 (-1)], Some (cN 1));
  (4, 4, [ShLin 0%nat 1 1; ShLin 1%nat 1 (-1)], [ShLin 0%nat 1 1; ShLin 1%nat 1 (-3)], Some (cN 1));
  (5, 5, [ShLin 0%nat 1 1; ShLin 1%nat 1 (-1)], [ShLin 0%nat 1 1; ShLin 1%nat 1 (-3)], Some (cN 1));
  (6, 6, [ShLin 0%nat 1 0; ShLin 1%nat 1 2], [ShLin 0%nat 1 0; ShLin 1%nat 1 0], Some (cN 1));
  (7, 7, [ShLin 0%nat 1 0; ShLin 1%nat 1 0], [ShLin 0%nat 1 0; ShLin 1%nat 1 (-2)], Some (cN 1));
  (8, 8, [ShLin 0%nat 1 0; ShLin 1%nat 1 0], [ShLin 0%nat 1 0; ShLin 1%nat 1 (-2)], Some (cN 1));
  (9, 9, [ShLin 0%nat 1 0; ShLin 1%nat 1 0], [ShLin 0%nat 1 0; ShLin 1%nat 1 (-2)], Some (cN 1));
  (10, 10, [ShLin 0%nat 1 0; ShLin 1%nat 1 0], [ShLin 0%nat 1 0; ShLin 1%nat 1 (-2)], Some (cN 1));
  (11, 11, [ShLin 0%nat 1 0; ShLin 1%nat 1 (-2)], [ShLin 0%nat 1 0; ShLin 1%nat 1 (-4)], Some (cN 1));
  (12, 12, [ShLin 0%nat 1 (-1); ShLin 1%nat 1 1], [ShLin 0%nat 1 (-1); ShLin 1%nat 1 (-1)], Some (cN 1));
  (13, 13, [ShLin 0%nat 1 (-1); ShLin 1%nat 1 1], [ShLin 0%nat 1 (-1); ShLin 1%nat 1 (-1)], Some (cN 1));
  (14, 14, [ShLin 0%nat 1 (-1); ShLin 1%nat 1 (-1)], [ShLin 0%nat 1 (-1); ShLin 1%nat 1 (-3)], Some (cN 1));
  (15, 15, [ShLin 0%nat 1 (-1); ShLin 1%nat 1 (-1)], [ShLin 0%nat 1 (-1); ShLin 1%nat 1 (-3)], Some (cN 1));
  (16, 16, [ShLin 0%nat 1 (-2); ShLin 1%nat 1 0], [ShLin 0%nat 1 (-2); ShLin 1%nat 1 (-2)], Some (cN 1))].
(** /repo/c++/symmetry/sym-QSZ-impl.hpp, make_matrix_nonpolarized if (!P.substeps) *)
Definition qsz_2ch_m0_o : list off_line := [
  (1, 3, 0, 0, "xi", Some (cN 1));
  (1, 5, 0, 0, "xi", Some (cN 1));
  (2, 6, 0, 0, "xi", Some (cN (-1)));
  (2, 9, 0, 0, "xi", Some (cN (-1)));
  (3, 10, 0, 0, "xi", Some (cN (-1)));
  (4, 8, 0, 0, "xi", Some (cN (-1)));
  (4, 11, 0, 0, "xi", Some (cN (-1)));
  (5, 10, 0, 0, "xi", Some (cN 1));
  (6, 13, 0, 0, "xi", Some (cN 1));
  (7, 12, 0, 0, "xi", Some (cN 1));
  (7, 14, 0, 0, "xi", Some (cN 1));
  (8, 15, 0, 0, "xi", Some (cN 1));
  (9, 13, 0, 0, "xi", Some (cN (-1)));
  (11, 15, 0, 0, "xi", Some (cN (-1)));
  (12, 16, 0, 0, "xi", Some (cN (-1)));
  (14, 16, 0, 0, "xi", Some (cN 1));
  (1, 2, 1, 0, "xi", Some (cN 1));
  (1, 4, 1, 0, "xi", Some (cN 1));
  (2, 7, 1, 0, "xi", Some (cN (-1)));
  (3, 6, 1, 0, "xi", Some (cN 1));
  (3, 8, 1, 0, "xi", Some (cN 1));
  (4, 7, 1, 0, "xi", Some (cN 1));
  (5, 9, 1, 0, "xi", Some (cN 1));
  (5, 11, 1, 0, "xi", Some (cN 1));
  (6, 12, 1, 0, "xi", Some (cN (-1)));
  (8, 12, 1, 0, "xi", Some (cN 1));
  (9, 14, 1, 0, "xi", Some (cN (-1)));
  (10, 13, 1, 0, "xi", Some (cN 1));
  (10, 15, 1, 0, "xi", Some (cN 1));
  (11, 14, 1, 0, "xi", Some (cN 1));
  (13, 16, 1, 0, "xi", Some (cN (-1)));
  (15, 16, 1, 0, "xi", Some (cN 1))].
(** /repo/c++/symmetry/sym-QSZ-impl.hpp, make_matrix_nonpolarized if (!P.substeps) *)
Definition qsz_2ch_m0_d : list diag_line := [
  (1, 0, "zeta", Some (cN 0));
  (2, 0, "zeta", Some (cN 0));
  (3, 0, "zeta", Some (cN 1));
  (4, 0, "zeta", Some (cN 0));
  (5, 0, "zeta", Some (cN 1));
  (6, 0, "zeta", Some (cN 1));
  (7, 0, "zeta", Some (cN 0));
  (8, 0, "zeta", Some (cN 1));
  (9, 0, "zeta", Some (cN 1));
  (10, 0, "zeta", Some (cN 2));
  (11, 0, "zeta", Some (cN 1));
  (12, 0, "zeta", Some (cN 1));
  (13, 0, "zeta", Some (cN 2));
  (14, 0, "zeta", Some (cN 1));
  (15, 0, "zeta", Some (cN 2));
  (16, 0, "zeta", Some (cN 2));
  (1, 1, "zeta", Some (cN 0));
  (2, 1, "zeta", Some (cN 1));
  (3, 1, "zeta", Some (cN 0));
  (4, 1, "zeta", Some (cN 1));
  (5, 1, "zeta", Some (cN 0));
  (6, 1, "zeta", Some (cN 1));
  (7, 1, "zeta", Some (cN 2));
  (8, 1, "zeta", Some (cN 1));
  (9, 1, "zeta", Some (cN 1));
  (10, 1, "zeta", Some (cN 0));
  (11, 1, "zeta", Some (cN 1));
  (12, 1, "zeta", Some (cN 2));
  (13, 1, "zeta", Some (cN 1));
  (14, 1, "zeta", Some (cN 2));
  (15, 1, "zeta", Some (cN 1));
  (16, 1, "zeta", Some (cN 2))].
(** /repo/c++/symmetry/sym-QSZ-impl.hpp, make_matrix_nonpolarized if (!P.substeps) *)
Definition qsz_2ch_m0_f : list dof_line := [
  ].
(** /repo/c++/symmetry/sym-QSZ-impl.hpp, make_matrix_nonpolarized if (!P.substeps) && if (P.rungs) *)
Definition qsz_2ch_m1_o : list off_line := [
  (1, 2, 0, 0, "xiR", Some (cN 1));
  (1, 4, 0, 0, "xiR", Some (cN 1));
  (2, 7, 0, 0, "xiR", Some (cN (-1)));
  (3, 6, 0, 0, "xiR", Some (cN 1));
  (3, 8, 0, 0, "xiR", Some (cN 1));
  (4, 7, 0, 0, "xiR", Some (cN 1));
  (5, 9, 0, 0, "xiR", Some (cN 1));
  (5, 11, 0, 0, "xiR", Some (cN 1));
  (6, 12, 0, 0, "xiR", Some (cN (-1)));
  (8, 12, 0, 0, "xiR", Some (cN 1));
  (9, 14, 0, 0, "xiR", Some (cN (-1)));
  (10, 13, 0, 0, "xiR", Some (cN 1));
  (10, 15, 0, 0, "xiR", Some (cN 1));
  (11, 14, 0, 0, "xiR", Some (cN 1));
  (13, 16, 0, 0, "xiR", Some (cN (-1)));
  (15, 16, 0, 0, "xiR", Some (cN 1));
  (1, 3, 1, 0, "xiR", Some (cN 1));
  (1, 5, 1, 0, "xiR", Some (cN 1));
  (2, 6, 1, 0, "xiR", Some (cN (-1)));
  (2, 9, 1, 0, "xiR", Some (cN (-1)));
  (3, 10, 1, 0, "xiR", Some (cN (-1)));
  (4, 8, 1, 0, "xiR", Some (cN (-1)));
  (4, 11, 1, 0, "xiR", Some (cN (-1)));
  (5, 10, 1, 0, "xiR", Some (cN 1));
  (6, 13, 1, 0, "xiR", Some (cN 1));
  (7, 12, 1, 0, "xiR", Some (cN 1));
  (7, 14, 1, 0, "xiR", Some (cN 1));
  (8, 15, 1, 0, "xiR", Some (cN 1));
  (9, 13, 1, 0, "xiR", Some (cN (-1)));
  (11, 15, 1, 0, "xiR", Some (cN (-1)));
  (12, 16, 1, 0, "xiR", Some (cN (-1)));
  (14, 16, 1, 0, "xiR", Some (cN 1))].
(** /repo/c++/symmetry/sym-QSZ-impl.hpp, make_matrix_nonpolarized if (!P.substeps) && if (P.rungs) *)
Definition qsz_2ch_m1_d : list diag_line := [
  ].
(** /repo/c++/symmetry/sym-QSZ-impl.hpp, make_matrix_nonpolarized if (!P.substeps) && if (P.rungs) *)
Definition qsz_2ch_m1_f : list dof_line := [
  (2, 3, 0, "zetaR", Some (cN 1));
  (3, 2, 0, "zetaR", Some (cN 1));
  (4, 5, 0, "zetaR", Some (cN 1));
  (5, 4, 0, "zetaR", Some (cN 1));
  (7, 8, 0, "zetaR", Some (cN (-1)));
  (7, 9, 0, "zetaR", Some (cN 1));
  (8, 7, 0, "zetaR", Some (cN (-1)));
  (8, 10, 0, "zetaR", Some (cN (-1)));
  (9, 7, 0, "zetaR", Some (cN 1));
  (9, 10, 0, "zetaR", Some (cN 1));
  (10, 8, 0, "zetaR", Some (cN (-1)));
  (10, 9, 0, "zetaR", Some (cN 1));
  (12, 13, 0, "zetaR", Some (cN (-1)));
  (13, 12, 0, "zetaR", Some (cN (-1)));
  (14, 15, 0, "zetaR", Some (cN (-1)));
  (15, 14, 0, "zetaR", Some (cN (-1)))].
(** /repo/c++/symmetry/sym-QSZ-impl.hpp, make_matrix_polarized  *)
Definition qsz_2ch_m2_o : list off_line := [
  (1, 5, 0, 0, "xiUP", Some (cN 1));
  (2, 9, 0, 0, "xiUP", Some (cN (-1)));
  (3, 10, 0, 0, "xiUP", Some (cN (-1)));
  (4, 11, 0, 0, "xiUP", Some (cN (-1)));
  (6, 13, 0, 0, "xiUP", Some (cN 1));
  (7, 14, 0, 0, "xiUP", Some (cN 1));
  (8, 15, 0, 0, "xiUP", Some (cN 1));
  (12, 16, 0, 0, "xiUP", Some (cN (-1)));
  (1, 4, 1, 0, "xiUP", Some (cN 1));
  (2, 7, 1, 0, "xiUP", Some (cN (-1)));
  (3, 8, 1, 0, "xiUP", Some (cN 1));
  (5, 11, 1, 0, "xiUP", Some (cN 1));
  (6, 12, 1, 0, "xiUP", Some (cN (-1)));
  (9, 14, 1, 0, "xiUP", Some (cN (-1)));
  (10, 15, 1, 0, "xiUP", Some (cN 1));
  (13, 16, 1, 0, "xiUP", Some (cN (-1)));
  (1, 3, 0, 0, "xiDOWN", Some (cN 1));
  (2, 6, 0, 0, "xiDOWN", Some (cN (-1)));
  (4, 8, 0, 0, "xiDOWN", Some (cN (-1)));
  (5, 10, 0, 0, "xiDOWN", Some (cN 1));
  (7, 12, 0, 0, "xiDOWN", Some (cN 1));
  (9, 13, 0, 0, "xiDOWN", Some (cN (-1)));
  (11, 15, 0, 0, "xiDOWN", Some (cN (-1)));
  (14, 16, 0, 0, "xiDOWN", Some (cN 1));
  (1, 2, 1, 0, "xiDOWN", Some (cN 1));
  (3, 6, 1, 0, "xiDOWN", Some (cN 1));
  (4, 7, 1, 0, "xiDOWN", Some (cN 1));
  (5, 9, 1, 0, "xiDOWN", Some (cN 1));
  (8, 12, 1, 0, "xiDOWN", Some (cN 1));
  (10, 13, 1, 0, "xiDOWN", Some (cN 1));
  (11, 14, 1, 0, "xiDOWN", Some (cN 1));
  (15, 16, 1, 0, "xiDOWN", Some (cN 1))].
(** /repo/c++/symmetry/sym-QSZ-impl.hpp, make_matrix_polarized  *)
Definition qsz_2ch_m2_d : list diag_line := [
  (1, 0, "zetaUP half", Some (cN 0));
  (2, 0, "zetaUP half", Some (cN 0));
  (3, 0, "zetaUP half", Some (cN 0));
  (4, 0, "zetaUP half", Some (cN 0));
  (5, 0, "zetaUP half", Some (cN 1));
  (6, 0, "zetaUP half", Some (cN 0));
  (7, 0, "zetaUP half", Some (cN 0));
  (8, 0, "zetaUP half", Some (cN 0));
  (9, 0, "zetaUP half", Some (cN 1));
  (10, 0, "zetaUP half", Some (cN 1));
  (11, 0, "zetaUP half", Some (cN 1));
  (12, 0, "zetaUP half", Some (cN 0));
  (13, 0, "zetaUP half", Some (cN 1));
  (14, 0, "zetaUP half", Some (cN 1));
  (15, 0, "zetaUP half", Some (cN 1));
  (16, 0, "zetaUP half", Some (cN 1));
  (1, 1, "zetaUP half", Some (cN 0));
  (2, 1, "zetaUP half", Some (cN 0));
  (3, 1, "zetaUP half", Some (cN 0));
  (4, 1, "zetaUP half", Some (cN 1));
  (5, 1, "zetaUP half", Some (cN 0));
  (6, 1, "zetaUP half", Some (cN 0));
  (7, 1, "zetaUP half", Some (cN 1));
  (8, 1, "zetaUP half", Some (cN 1));
  (9, 1, "zetaUP half", Some (cN 0));
  (10, 1, "zetaUP half", Some (cN 0));
  (11, 1, "zetaUP half", Some (cN 1));
  (12, 1, "zetaUP half", Some (cN 1));
  (13, 1, "zetaUP half", Some (cN 0));
  (14, 1, "zetaUP half", Some (cN 1));
  (15, 1, "zetaUP half", Some (cN 1));
  (16, 1, "zetaUP half", Some (cN 1));
  (1, 0, "zetaDOWN half", Some (cN 0));
  (2, 0, "zetaDOWN half", Some (cN 0));
  (3, 0, "zetaDOWN half", Some (cN 1));
  (4, 0, "zetaDOWN half", Some (cN 0));
  (5, 0, "zetaDOWN half", Some (cN 0));
  (6, 0, "zetaDOWN half", Some (cN 1));
  (7, 0, "zetaDOWN half", Some (cN 0));
  (8, 0, "zetaDOWN half", Some (cN 1));
  (9, 0, "zetaDOWN half", Some (cN 0));
  (10, 0, "zetaDOWN half", Some (cN 1));
  (11, 0, "zetaDOWN half", Some (cN 0));
  (12, 0, "zetaDOWN half", Some (cN 1));
  (13, 0, "zetaDOWN half", Some (cN 1));
  (14, 0, "zetaDOWN half", Some (cN 0));
  (15, 0, "zetaDOWN half", Some (cN 1));
  (16, 0, "zetaDOWN half", Some (cN 1));
  (1, 1, "zetaDOWN half", Some (cN 0));
  (2, 1, "zetaDOWN half", Some (cN 1));
  (3, 1, "zetaDOWN half", Some (cN 0));
  (4, 1, "zetaDOWN half", Some (cN 0));
  (5, 1, "zetaDOWN half", Some (cN 0));
  (6, 1, "zetaDOWN half", Some (cN 1));
  (7, 1, "zetaDOWN half", Some (cN 1));
  (8, 1, "zetaDOWN half", Some (cN 0));
  (9, 1, "zetaDOWN half", Some (cN 1));
  (10, 1, "zetaDOWN half", Some (cN 0));
  (11, 1, "zetaDOWN half", Some (cN 0));
  (12, 1, "zetaDOWN half", Some (cN 1));
  (13, 1, "zetaDOWN half", Some (cN 1));
  (14, 1, "zetaDOWN half", Some (cN 1));
  (15, 1, "zetaDOWN half", Some (cN 0));
  (16, 1, "zetaDOWN half", Some (cN 1))].
(** /repo/c++/symmetry/sym-QSZ-impl.hpp, make_matrix_polarized  *)
Definition qsz_2ch_m2_f : list dof_line := [
  ].
Definition coef_qsz_2ch : coef_set := mk_coef "QSZ" 2%nat sym_QSZ {| tb_In := qsz_2ch_In; tb_QN := qsz_2ch_QN |}
  [qsz_2ch_t2; qsz_2ch_t3; qsz_2ch_t4; qsz_2ch_t5]
  [qsz_2ch_t0; qsz_2ch_t1; qsz_2ch_t6; qsz_2ch_t7; qsz_2ch_t8]
  [mk_mode "nonpolarized" qsz_2ch_m0_o qsz_2ch_m0_d qsz_2ch_m0_f;
   mk_mode "nonpolarized rungs" qsz_2ch_m1_o qsz_2ch_m1_d qsz_2ch_m1_f;
   mk_mode "polarized" qsz_2ch_m2_o qsz_2ch_m2_d qsz_2ch_m2_f].
(** /repo/c++/symmetry/nrg-recalc-QSZ.hpp recalc_doublet, qsz/qsz-3ch-doubletp.dat *)
Definition qsz_3ch_t0 : ten_table := mk_ten "doublet" [ShLin 0%nat 1 (-1); ShLin 1%nat 1 1] [1; (-1)] [
  (1, 1, [ShLin 0%nat 1 3; ShLin 1%nat 1 0], [ShLin 0%nat 1 2; ShLin 1%nat 1 1], Some (cN 1));
  (2, 2, [ShLin 0%nat 1 2; ShLin 1%nat 1 1], [ShLin 0%nat 1 1; ShLin 1%nat 1 2], Some (cN (-1)));
  (3, 3, [ShLin 0%nat 1 2; ShLin 1%nat 1 1], [ShLin 0%nat 1 1; ShLin 1%nat 1 2], Some (cN (-1)));
  (4, 4, [ShLin 0%nat 1 2; ShLin 1%nat 1 1], [ShLin 0%nat 1 1; ShLin 1%nat 1 2], Some (cN (-1)));
  (5, 5, [ShLin 0%nat 1 2; ShLin 1%nat 1 (-1)], [ShLin 0%nat 1 1; ShLin 1%nat 1 0], Some (cN (-1)));
  (6, 6, [ShLin 0%nat 1 2; ShLin 1%nat 1 (-1)], [ShLin 0%nat 1 1; ShLin 1%nat 1 0], Some (cN (-1)));
  (7, 7, [ShLin 0%nat 1 2; ShLin 1%nat 1 (-1)], [ShLin 0%nat 1 1; ShLin 1%nat 1 0], Some (cN (-1)));
  (8, 8, [ShLin 0%nat 1 1; ShLin 1%nat 1 2], [ShLin 0%nat 1 0; ShLin 1%nat 1 3], Some (cN 1));
  (9, 9, [ShLin 0%nat 1 1; ShLin 1%nat 1 2], [ShLin 0%nat 1 0; ShLin 1%nat 1 3], Some (cN 1));
  (10, 10, [ShLin 0%nat 1 1; ShLin 1%nat 1 2], [ShLin 0%nat 1 0; ShLin 1%nat 1 3], Some (cN 1));
  (11, 11, [ShLin 0%nat 1 1; ShLin 1%nat 1 0], [ShLin 0%nat 1 0; ShLin 1%nat 1 1], Some (cN 1));
  (12, 12, [ShLin 0%nat 1 1; ShLin 1%nat 1 0], [ShLin 0%nat 1 0; ShLin 1%nat 1 1], Some (cN 1));
  (13, 13, [ShLin 0%nat 1 1; ShLin 1%nat 1 0], [ShLin 0%nat 1 0; ShLin 1%nat 1 1], Some (cN 1));
  (14, 14, [ShLin 0%nat 1 1; ShLin 1%nat 1 0], [ShLin 0%nat 1 0; ShLin 1%nat 1 1], Some (cN 1));
  (15, 15, [ShLin 0%nat 1 1; ShLin 1%nat 1 0], [ShLin 0%nat 1 0; ShLin 1%nat 1 1], Some (cN 1));
  (16, 16, [ShLin 0%nat 1 1; ShLin 1%nat 1 0], [ShLin 0%nat 1 0; ShLin 1%nat 1 1], Some (cN 1));
  (17, 17, [ShLin 0%nat 1 1; ShLin 1%nat 1 0], [ShLin 0%nat 1 0; ShLin 1%nat 1 1], Some (cN 1));
  (18, 18, [ShLin 0%nat 1 1; ShLin 1%nat 1 0], [ShLin 0%nat 1 0; ShLin 1%nat 1 1], Some (cN 1));
  (19, 19, [ShLin 0%nat 1 1; ShLin 1%nat 1 0], [ShLin 0%nat 1 0; ShLin 1%nat 1 1], Some (cN 1));
  (20, 20, [ShLin 0%nat 1 1; ShLin 1%nat 1 (-2)], [ShLin 0%nat 1 0; ShLin 1%nat 1 (-1)], Some (cN 1));
  (21, 21, [ShLin 0%nat 1 1; ShLin 1%nat 1 (-2)], [ShLin 0%nat 1 0; ShLin 1%nat 1 (-1)], Some (cN 1));
  (22, 22, [ShLin 0%nat 1 1; ShLin 1%nat 1 (-2)], [ShLin 0%nat 1 0; ShLin 1%nat 1 (-1)], Some (cN 1));
  (23, 23, [ShLin 0%nat 1 0; ShLin 1%nat 1 3], [ShLin 0%nat 1 (-1); ShLin 1%nat 1 4], Some (cN (-1)));
  (24, 24, [ShLin 0%nat 1 0; ShLin 1%nat 1 1], [ShLin 0%nat 1 (-1); ShLin 1%nat 1 2], Some (cN (-1)));
  (25, 25, [ShLin 0%nat 1 0; ShLin 1%nat 1 1], [ShLin 0%nat 1 (-1); ShLin 1%nat 1 2], Some (cN (-1)));
  (26, 26, [ShLin 0%nat 1 0; ShLin 1%nat 1 1], [ShLin 0%nat 1 (-1); ShLin 1%nat 1 2], Some (cN (-1)));
  (27, 27, [ShLin 0%nat 1 0; ShLin 1%nat 1 1], [ShLin 0%nat 1 (-1); ShLin 1%nat 1 2], Some (cN (-1)));
  (28, 28, [ShLin 0%nat 1 0; ShLin 1%nat 1 1], [ShLin 0%nat 1 (-1); ShLin 1%nat 1 2], Some (cN (-1)));
  (29, 29, [ShLin 0%nat 1 0; ShLin 1%nat 1 1], [ShLin 0%nat 1 (-1); ShLin 1%nat 1 2], Some (cN (-1)));
  (30, 30, [ShLin 0%nat 1 0; ShLin 1%nat 1 1], [ShLin 0%nat 1 (-1); ShLin 1%nat 1 2], Some (cN (-1)));
  (31, 31, [ShLin 0%nat 1 0; ShLin 1%nat 1 1], [ShLin 0%nat 1 (-1); ShLin 1%nat 1 2], Some (cN (-1)));
  (32, 32, [ShLin 0%nat 1 0; ShLin 1%nat 1 1], [ShLin 0%nat 1 (-1); ShLin 1%nat 1 2], Some (cN (-1)));
  (33, 33, [ShLin 0%nat 1 0; ShLin 1%nat 1 (-1)], [ShLin 0%nat 1 (-1); ShLin 1%nat 1 0], Some (cN (-1)));
  (34, 34, [ShLin 0%nat 1 0; ShLin 1%nat 1 (-1)], [ShLin 0%nat 1 (-1); ShLin 1%nat 1 0], Some (cN (-1)));
  (35, 35, [ShLin 0%nat 1 0; ShLin 1%nat 1 (-1)], [ShLin 0%nat 1 (-1); ShLin 1%nat 1 0], Some (cN (-1)));
  (36, 36, [ShLin 0%nat 1 0; ShLin 1%nat 1 (-1)], [ShLin 0%nat 1 (-1); ShLin 1%nat 1 0], Some (cN (-1)));
  (37, 37, [ShLin 0%nat 1 0; ShLin 1%nat 1 (-1)], [ShLin 0%nat 1 (-1); ShLin 1%nat 1 0], Some (cN (-1)));
  (38, 38, [ShLin 0%nat 1 0; ShLin 1%nat 1 (-1)], [ShLin 0%nat 1 (-1); ShLin 1%nat 1 0], Some (cN (-1)));
  (39, 39, [ShLin 0%nat 1 0; ShLin 1%nat 1 (-1)], [ShLin 0%nat 1 (-1); ShLin 1%nat 1 0], Some (cN (-1)));
  (40, 40, [ShLin 0%nat 1 0; ShLin 1%nat 1 (-1)], [ShLin 0%nat 1 (-1); ShLin 1%nat 1 0], Some (cN (-1)));
  (41, 41, [ShLin 0%nat 1 0; ShLin 1%nat 1 (-1)], [ShLin 0%nat 1 (-1); ShLin 1%nat 1 0], Some (cN (-1)));
  (42, 42, [ShLin 0%nat 1 0; ShLin 1%nat 1 (-3)], [ShLin 0%nat 1 (-1); ShLin 1%nat 1 (-2)], Some (cN (-1)));
  (43, 43, [ShLin 0%nat 1 (-1); ShLin 1%nat 1 2], [ShLin 0%nat 1 (-2); ShLin 1%nat 1 3], Some (cN 1));
  (44, 44, [ShLin 0%nat 1 (-1); ShLin 1%nat 1 2], [ShLin 0%nat 1 (-2); ShLin 1%nat 1 3], Some (cN 1));
  (45, 45, [ShLin 0%nat 1 (-1); ShLin 1%nat 1 2], [ShLin 0%nat 1 (-2); ShLin 1%nat 1 3], Some (cN 1));
  (46, 46, [ShLin 0%nat 1 (-1); ShLin 1%nat 1 0], [ShLin 0%nat 1 (-2); ShLin 1%nat 1 1], Some (cN 1));
  (47, 47, [ShLin 0%nat 1 (-1); ShLin 1%nat 1 0], [ShLin 0%nat 1 (-2); ShLin 1%nat 1 1], Some (cN 1));
  (48, 48, [ShLin 0%nat 1 (-1); ShLin 1%nat 1 0], [ShLin 0%nat 1 (-2); ShLin 1%nat 1 1], Some (cN 1));
  (49, 49, [ShLin 0%nat 1 (-1); ShLin 1%nat 1 0], [ShLin 0%nat 1 (-2); ShLin 1%nat 1 1], Some (cN 1));
  (50, 50, [ShLin 0%nat 1 (-1); ShLin 1%nat 1 0], [ShLin 0%nat 1 (-2); ShLin 1%nat 1 1], Some (cN 1));
  (51, 51, [ShLin 0%nat 1 (-1); ShLin 1%nat 1 0], [ShLin 0%nat 1 (-2); ShLin 1%nat 1 1], Some (cN 1));
  (52, 52, [ShLin 0%nat 1 (-1); ShLin 1%nat 1 0], [ShLin 0%nat 1 (-2); ShLin 1%nat 1 1], Some (cN 1));
  (53, 53, [ShLin 0%nat 1 (-1); ShLin 1%nat 1 0], [ShLin 0%nat 1 (-2); ShLin 1%nat 1 1], Some (cN 1));
  (54, 54, [ShLin 0%nat 1 (-1); ShLin 1%nat 1 0], [ShLin 0%nat 1 (-2); ShLin 1%nat 1 1], Some (cN 1));
  (55, 55, [ShLin 0%nat 1 (-1); ShLin 1%nat 1 (-2)], [ShLin 0%nat 1 (-2); ShLin 1%nat 1 (-1)], Some (cN 1));
  (56, 56, [ShLin 0%nat 1 (-1); ShLin 1%nat 1 (-2)], [ShLin 0%nat 1 (-2); ShLin 1%nat 1 (-1)], Some (cN 1));
  (57, 57, [ShLin 0%nat 1 (-1); ShLin 1%nat 1 (-2)], [ShLin 0%nat 1 (-2); ShLin 1%nat 1 (-1)], Some (cN 1));
  (58, 58, [ShLin 0%nat 1 (-2); ShLin 1%nat 1 1], [ShLin 0%nat 1 (-3); ShLin 1%nat 1 2], Some (cN (-1)));
  (59, 59, [ShLin 0%nat 1 (-2); ShLin 1%nat 1 1], [ShLin 0%nat 1 (-3); ShLin 1%nat 1 2], Some (cN (-1)));
  (60, 60, [ShLin 0%nat 1 (-2); ShLin 1%nat 1 1], [ShLin 0%nat 1 (-3); ShLin 1%nat 1 2], Some (cN (-1)));
  (61, 61, [ShLin 0%nat 1 (-2); ShLin 1%nat 1 (-1)], [ShLin 0%nat 1 (-3); ShLin 1%nat 1 0], Some (cN (-1)));
  (62, 62, [ShLin 0%nat 1 (-2); ShLin 1%nat 1 (-1)], [ShLin 0%nat 1 (-3); ShLin 1%nat 1 0], Some (cN (-1)));
  (63, 63, [ShLin 0%nat 1 (-2); ShLin 1%nat 1 (-1)], [ShLin 0%nat 1 (-3); ShLin 1%nat 1 0], Some (cN (-1)));
  (64, 64, [ShLin 0%nat 1 (-3); ShLin 1%nat 1 0], [ShLin 0%nat 1 (-4); ShLin 1%nat 1 1], Some (cN 1))].
(** /repo/c++/symmetry/nrg-recalc-QSZ.hpp recalc_doublet, qsz/qsz-3ch-doubletm.dat *)
Definition qsz_3ch_t1 : ten_table := mk_ten "doublet" [ShLin 0%nat 1 (-1); ShLin 1%nat 1 (-1)] [1; 1] [
  (1, 1, [ShLin 0%nat 1 3; ShLin 1%nat 1 0], [ShLin 0%nat 1 2; ShLin 1%nat 1 (-1)], Some (cN 1));
  (2, 2, [ShLin 0%nat 1 2; ShLin 1%nat 1 1], [ShLin 0%nat 1 1; ShLin 1%nat 1 0], Some (cN (-1)));
  (3, 3, [ShLin 0%nat 1 2; ShLin 1%nat 1 1], [ShLin 0%nat 1 1; ShLin 1%nat 1 0], Some (cN (-1)));
  (4, 4, [ShLin 0%nat 1 2; ShLin 1%nat 1 1], [ShLin 0%nat 1 1; ShLin 1%nat 1 0], Some (cN (-1)));
  (5, 5, [ShLin 0%nat 1 2; ShLin 1%nat 1 (-1)], [ShLin 0%nat 1 1; ShLin 1%nat 1 (-2)], Some (cN (-1)));
  (6, 6, [ShLin 0%nat 1 2; ShLin 1%nat 1 (-1)], [ShLin 0%nat 1 1; ShLin 1%nat 1 (-2)], Some (cN (-1)));
  (7, 7, [ShLin 0%nat 1 2; ShLin 1%nat 1 (-1)], [ShLin 0%nat 1 1; ShLin 1%nat 1 (-2)], Some (cN (-1)));
  (8, 8, [ShLin 0%nat 1 1; ShLin 1%nat 1 2], [ShLin 0%nat 1 0; ShLin 1%nat 1 1], Some (cN 1));
  (9, 9, [ShLin 0%nat 1 1; ShLin 1%nat 1 2], [ShLin 0%nat 1 0; ShLin 1%nat 1 1], Some (cN 1));
  (10, 10, [ShLin 0%nat 1 1; ShLin 1%nat 1 2], [ShLin 0%nat 1 0; ShLin 1%nat 1 1], Some (cN 1));
  (11, 11, [ShLin 0%nat 1 1; ShLin 1%nat 1 0], [ShLin 0%nat 1 0; ShLin 1%nat 1 (-1)], Some (cN 1));
  (12, 12, [ShLin 0%nat 1 1; ShLin 1%nat 1 0], [ShLin 0%nat 1 0; ShLin 1%nat 1 (-1)], Some (cN 1));
  (13, 13, [ShLin 0%nat 1 1; ShLin 1%nat 1 0], [ShLin 0%nat 1 0; ShLin 1%nat 1 (-1)], Some (cN 1));
  (14, 14, [ShLin 0%nat 1 1; ShLin 1%nat 1 0], [ShLin 0%nat 1 0; ShLin 1%nat 1 (-1)], Some (cN 1));
  (15, 15, [ShLin 0%nat 1 1; ShLin 1%nat 1 0], [ShLin 0%nat 1 0; ShLin 1%nat 1 (-1)], Some (cN 1));
  (16, 16, [ShLin 0%nat 1 1; ShLin 1%nat 1 0], [ShLin 0%nat 1 0; ShLin 1%nat 1 (-1)], Some (cN 1));
  (17, 17, [ShLin 0%nat 1 1; ShLin 1%nat 1 0], [ShLin 0%nat 1 0; ShLin 1%nat 1 (-1)], Some (cN 1));
  (18, 18, [ShLin 0%nat 1 1; ShLin 1%nat 1 0], [ShLin 0%nat 1 0; ShLin 1%nat 1 (-1)], Some (cN 1));
  (19, 19, [ShLin 0%nat 1 1; ShLin 1%nat 1 0], [ShLin 0%nat 1 0; ShLin 1%nat 1 (-1)], Some (cN 1));
  (20, 20, [ShLin 0%nat 1 1; ShLin 1%nat 1 (-2)], [ShLin 0%nat 1 0; ShLin 1%nat 1 (-3)], Some (cN 1));
  (21, 21, [ShLin 0%nat 1 1; ShLin 1%nat 1 (-2)], [ShLin 0%nat 1 0; ShLin 1%nat 1 (-3)], Some (cN 1));
  (22, 22, [ShLin 0%nat 1 1; ShLin 1%nat 1 (-2)], [ShLin 0%nat 1 0; ShLin 1%nat 1 (-3)], Some (cN 1));
  (23, 23, [ShLin 0%nat 1 0; ShLin 1%nat 1 3], [ShLin 0%nat 1 (-1); ShLin 1%nat 1 2], Some (cN (-1)));
  (24, 24, [ShLin 0%nat 1 0; ShLin 1%nat 1 1], [ShLin 0%nat 1 (-1); ShLin 1%nat 1 0], Some (cN (-1)));
  (25, 25, [ShLin 0%nat 1 0; ShLin 1%nat 1 1], [ShLin 0%nat 1 (-1); ShLin 1%nat 1 0], Some (cN (-1)));
  (26, 26, [ShLin 0%nat 1 0; ShLin 1%nat 1 1], [ShLin 0%nat 1 (-1); ShLin 1%nat 1 0], Some (cN (-1)));
  (27, 27, [ShLin 0%nat 1 0; ShLin 1%nat 1 1], [ShLin 0%nat 1 (-1); ShLin 1%nat 1 0], Some (cN (-1)));
  (28, 28, [ShLin 0%nat 1 0; ShLin 1%nat 1 1], [ShLin 0%nat 1 (-1); ShLin 1%nat 1 0], Some (cN (-1)));
  (29, 29, [ShLin 0%nat 1 0; ShLin 1%nat 1 1], [ShLin 0%nat 1 (-1); ShLin 1%nat 1 0], Some (cN (-1)));
  (30, 30, [ShLin 0%nat 1 0; ShLin 1%nat 1 1], [ShLin 0%nat 1 (-1); ShLin 1%nat 1 0], Some (cN (-1)));
  (31, 31, [ShLin 0%nat 1 0; ShLin 1%nat 1 1], [ShLin 0%nat 1 (-1); ShLin 1%nat 1 0], Some (cN (-1)));
  (32, 32, [ShLin 0%nat 1 0; ShLin 1%nat 1 1], [ShLin 0%nat 1 (-1); ShLin 1%nat 1 0], Some (cN (-1)));
  (33, 33, [ShLin 0%nat 1 0; ShLin 1%nat 1 (-1)], [ShLin 0%nat 1 (-1); ShLin 1%nat 1 (-2)], Some (cN (-1)));
  (34, 34, [ShLin 0%nat 1 0; ShLin 1%nat 1 (-1)], [ShLin 0%nat 1 (-1); ShLin 1%nat 1 (-2)], Some (cN (-1)));
  (35, 35, [ShLin 0%nat 1 0; ShLin 1%nat 1 (-1)], [ShLin 0%nat 1 (-1); ShLin 1%nat 1 (-2)], Some (cN (-1)));
  (36, 36, [ShLin 0%nat 1 0; ShLin 1%nat 1 (-1)], [ShLin 0%nat 1 (-1); ShLin 1%nat 1 (-2)], Some (cN (-1)));
  (37, 37, [ShLin 0%nat 1 0; ShLin 1%nat 1 (-1)], [ShLin 0%nat 1 (-1); ShLin 1%nat 1 (-2)], Some (cN (-1)));
  (38, 38, [ShLin 0%nat 1 0; ShLin 1%nat 1 (-1)], [ShLin 0%nat 1 (-1); ShLin 1%nat 1 (-2)], Some (cN (-1)));
  (39, 39, [ShLin 0%nat 1 0; ShLin 1%nat 1 (-1)], [ShLin 0%nat 1 (-1); ShLin 1%nat 1 (-2)], Some (cN (-1)));
  (40, 40, [ShLin 0%nat 1 0; ShLin 1%nat 1 (-1)], [ShLin 0%nat 1 (-1); ShLin 1%nat 1 (-2)], Some (cN (-1)));
  (41, 41, [ShLin 0%nat 1 0; ShLin 1%nat 1 (-1)], [ShLin 0%nat 1 (-1); ShLin 1%nat 1 (-2)], Some (cN (-1)));
  (42, 42, [ShLin 0%nat 1 0; ShLin 1%nat 1 (-3)], [ShLin 0%nat 1 (-1); ShLin 1%nat 1 (-4)], Some (cN (-1)));
  (43, 43, [ShLin 0%nat 1 (-1); ShLin 1%nat 1 2], [ShLin 0%nat 1 (-2); ShLin 1%nat 1 1], Some (cN 1));
  (44, 44, [ShLin 0%nat 1 (-1); ShLin 1%nat 1 2], [ShLin 0%nat 1 (-2); ShLin 1%nat 1 1], Some (cN 1));
  (45, 45, [ShLin 0%nat 1 (-1); ShLin 1%nat 1 2], [ShLin 0%nat 1 (-2); ShLin 1%nat 1 1], Some (cN 1));
  (46, 46, [ShLin 0%nat 1 (-1); ShLin 1%nat 1 0], [ShLin 0%nat 1 (-2); ShLin 1%nat 1 (-1)], Some (cN 1));
  (47, 47, [ShLin 0%nat 1 (-1); ShLin 1%nat 1 0], [ShLin 0%nat 1 (-2); ShLin 1%nat 1 (-1)], Some (cN 1));
  (48, 48, [ShLin 0%nat 1 (-1); ShLin 1%nat 1 0], [ShLin 0%nat 1 (-2); ShLin 1%nat 1 (-1)], Some (cN 1));
  (49, 49, [ShLin 0%nat 1 (-1); ShLin 1%nat 1 0], [ShLin 0%nat 1 (-2); ShLin 1%nat 1 (-1)], Some (cN 1));
  (50, 50, [ShLin 0%nat 1 (-1); ShLin 1%nat 1 0], [ShLin 0%nat 1 (-2); ShLin 1%nat 1 (-1)], Some (cN 1));
  (51, 51, [ShLin 0%nat 1 (-1); ShLin 1%nat 1 0], [ShLin 0%nat 1 (-2); ShLin 1%nat 1 (-1)], Some (cN 1));
  (52, 52, [ShLin 0%nat 1 (-1); ShLin 1%nat 1 0], [ShLin 0%nat 1 (-2); ShLin 1%nat 1 (-1)], Some (cN 1));
  (53, 53, [ShLin 0%nat 1 (-1); ShLin 1%nat 1 0], [ShLin 0%nat 1 (-2); ShLin 1%nat 1 (-1)], Some (cN 1));
  (54, 54, [ShLin 0%nat 1 (-1); ShLin 1%nat 1 0], [ShLin 0%nat 1 (-2); ShLin 1%nat 1 (-1)], Some (cN 1));
  (55, 55, [ShLin 0%nat 1 (-1); ShLin 1%nat 1 (-2)], [ShLin 0%nat 1 (-2); ShLin 1%nat 1 (-3)], Some (cN 1));
  (56, 56, [ShLin 0%nat 1 (-1); ShLin 1%nat 1 (-2)], [ShLin 0%nat 1 (-2); ShLin 1%nat 1 (-3)], Some (cN 1));
  (57, 57, [ShLin 0%nat 1 (-1); ShLin 1%nat 1 (-2)], [ShLin 0%nat 1 (-2); ShLin 1%nat 1 (-3)], Some (cN 1));
  (58, 58, [ShLin 0%nat 1 (-2); ShLin 1%nat 1 1], [ShLin 0%nat 1 (-3); ShLin 1%nat 1 0], Some (cN (-1)));
  (59, 59, [ShLin 0%nat 1 (-2); ShLin 1%nat 1 1], [ShLin 0%nat 1 (-3); ShLin 1%nat 1 0], Some (cN (-1)));
  (60, 60, [ShLin 0%nat 1 (-2); ShLin 1%nat 1 1], [ShLin 0%nat 1 (-3); ShLin 1%nat 1 0], Some (cN (-1)));
  (61, 61, [ShLin 0%nat 1 (-2); ShLin 1%nat 1 (-1)], [ShLin 0%nat 1 (-3); ShLin 1%nat 1 (-2)], Some (cN (-1)));
  (62, 62, [ShLin 0%nat 1 (-2); ShLin 1%nat 1 (-1)], [ShLin 0%nat 1 (-3); ShLin 1%nat 1 (-2)], Some (cN (-1)));
  (63, 63, [ShLin 0%nat 1 (-2); ShLin 1%nat 1 (-1)], [ShLin 0%nat 1 (-3); ShLin 1%nat 1 (-2)], Some (cN (-1)));
  (64, 64, [ShLin 0%nat 1 (-3); ShLin 1%nat 1 0], [ShLin 0%nat 1 (-4); ShLin 1%nat 1 (-1)], Some (cN 1))].
(** /repo/c++/symmetry/nrg-recalc-QSZ.hpp recalc_irreduc, qsz/qsz-3ch-spinupa.dat *)
Definition qsz_3ch_t2 : irr_table := mk_irr 0 0 [ShLin 0%nat 1 1; ShLin 1%nat 1 1]  [
  (7, 1, Some (cN 1));
  (17, 2, Some (cN 1));
  (18, 3, Some (cN 1));
  (19, 4, Some (cN 1));
  (21, 5, Some (cN 1));
  (22, 6, Some (cN 1));
  (30, 8, Some (cN 1));
  (31, 9, Some (cN 1));
  (32, 10, Some (cN 1));
  (36, 11, Some (cN 1));
  (37, 12, Some (cN 1));
  (38, 13, Some (cN 1));
  (39, 14, Some (cN 1));
  (40, 15, Some (cN 1));
  (41, 16, Some (cN 1));
  (42, 20, Some (cN 1));
  (45, 23, Some (cN 1));
  (49, 24, Some (cN 1));
  (50, 25, Some (cN 1));
  (51, 26, Some (cN 1));
  (52, 27, Some (cN 1));
  (53, 28, Some (cN 1));
  (54, 29, Some (cN 1));
  (55, 33, Some (cN 1));
  (56, 34, Some (cN 1));
  (57, 35, Some (cN 1));
  (59, 43, Some (cN 1));
  (60, 44, Some (cN 1));
  (61, 46, Some (cN 1));
  (62, 47, Some (cN 1));
  (63, 48, Some (cN 1));
  (64, 58, Some (cN 1))].
(** /repo/c++/symmetry/nrg-recalc-QSZ.hpp recalc_irreduc, qsz/qsz-3ch-spinupb.dat *)
Definition qsz_3ch_t3 : irr_table := mk_irr 1 0 [ShLin 0%nat 1 1; ShLin 1%nat 1 1]  [
  (6, 1, Some (cN 1));
  (13, 2, Some (cN 1));
  (14, 3, Some (cN 1));
  (16, 4, Some (cN (-1)));
  (20, 5, Some (cN 1));
  (22, 7, Some (cN (-1)));
  (25, 8, Some (cN 1));
  (28, 9, Some (cN (-1)));
  (29, 10, Some (cN (-1)));
  (33, 11, Some (cN 1));
  (34, 12, Some (cN 1));
  (35, 15, Some (cN (-1)));
  (38, 17, Some (cN (-1)));
  (39, 18, Some (cN (-1)));
  (41, 19, Some (cN 1));
  (42, 21, Some (cN (-1)));
  (44, 23, Some (cN (-1)));
  (46, 24, Some (cN 1));
  (47, 26, Some (cN (-1)));
  (48, 27, Some (cN (-1)));
  (50, 30, Some (cN (-1)));
  (53, 31, Some (cN 1));
  (54, 32, Some (cN 1));
  (55, 36, Some (cN (-1)));
  (56, 37, Some (cN (-1)));
  (57, 40, Some (cN 1));
  (58, 43, Some (cN (-1)));
  (60, 45, Some (cN 1));
  (61, 49, Some (cN (-1)));
  (62, 51, Some (cN 1));
  (63, 52, Some (cN 1));
  (64, 59, Some (cN 1))].
(** /repo/c++/symmetry/nrg-recalc-QSZ.hpp recalc_irreduc, qsz/qsz-3ch-spinupc.dat *)
Definition qsz_3ch_t4 : irr_table := mk_irr 2 0 [ShLin 0%nat 1 1; ShLin 1%nat 1 1]  [
  (5, 1, Some (cN 1));
  (11, 2, Some (cN 1));
  (12, 3, Some (cN (-1)));
  (15, 4, Some (cN (-1)));
  (20, 6, Some (cN (-1)));
  (21, 7, Some (cN (-1)));
  (24, 8, Some (cN (-1)));
  (26, 9, Some (cN (-1)));
  (27, 10, Some (cN 1));
  (33, 13, Some (cN (-1)));
  (34, 14, Some (cN 1));
  (35, 16, Some (cN 1));
  (36, 17, Some (cN (-1)));
  (37, 18, Some (cN 1));
  (40, 19, Some (cN 1));
  (42, 22, Some (cN 1));
  (43, 23, Some (cN 1));
  (46, 25, Some (cN 1));
  (47, 28, Some (cN 1));
  (48, 29, Some (cN (-1)));
  (49, 30, Some (cN 1));
  (51, 31, Some (cN 1));
  (52, 32, Some (cN (-1)));
  (55, 38, Some (cN 1));
  (56, 39, Some (cN (-1)));
  (57, 41, Some (cN (-1)));
  (58, 44, Some (cN (-1)));
  (59, 45, Some (cN (-1)));
  (61, 50, Some (cN (-1)));
  (62, 53, Some (cN (-1)));
  (63, 54, Some (cN 1));
  (64, 60, Some (cN 1))].
(** /repo/c++/symmetry/nrg-recalc-QSZ.hpp recalc_irreduc, qsz/qsz-3ch-spindowna.dat *)
Definition qsz_3ch_t5 : irr_table := mk_irr 0 0 [ShLin 0%nat 1 1; ShLin 1%nat 1 (-1)]  [
  (4, 1, Some (cN 1));
  (9, 2, Some (cN 1));
  (10, 3, Some (cN 1));
  (15, 5, Some (cN 1));
  (16, 6, Some (cN 1));
  (19, 7, Some (cN (-1)));
  (23, 8, Some (cN 1));
  (26, 11, Some (cN 1));
  (27, 12, Some (cN 1));
  (28, 13, Some (cN 1));
  (29, 14, Some (cN 1));
  (31, 17, Some (cN (-1)));
  (32, 18, Some (cN (-1)));
  (35, 20, Some (cN 1));
  (40, 21, Some (cN (-1)));
  (41, 22, Some (cN (-1)));
  (43, 24, Some (cN 1));
  (44, 25, Some (cN 1));
  (45, 30, Some (cN (-1)));
  (47, 33, Some (cN 1));
  (48, 34, Some (cN 1));
  (51, 36, Some (cN (-1)));
  (52, 37, Some (cN (-1)));
  (53, 38, Some (cN (-1)));
  (54, 39, Some (cN (-1)));
  (57, 42, Some (cN (-1)));
  (58, 46, Some (cN 1));
  (59, 49, Some (cN (-1)));
  (60, 50, Some (cN (-1)));
  (62, 55, Some (cN (-1)));
  (63, 56, Some (cN (-1)));
  (64, 61, Some (cN (-1)))].
(** /repo/c++/symmetry/nrg-recalc-QSZ.hpp recalc_irreduc, qsz/qsz-3ch-spindownb.dat *)
Definition qsz_3ch_t6 : irr_table := mk_irr 1 0 [ShLin 0%nat 1 1; ShLin 1%nat 1 (-1)]  [
  (3, 1, Some (cN 1));
  (8, 2, Some (cN 1));
  (10, 4, Some (cN (-1)));
  (12, 5, Some (cN 1));
  (14, 6, Some (cN (-1)));
  (18, 7, Some (cN (-1)));
  (23, 9, Some (cN (-1)));
  (24, 11, Some (cN 1));
  (25, 13, Some (cN (-1)));
  (27, 15, Some (cN (-1)));
  (29, 16, Some (cN 1));
  (30, 17, Some (cN (-1)));
  (32, 19, Some (cN 1));
  (34, 20, Some (cN (-1)));
  (37, 21, Some (cN (-1)));
  (39, 22, Some (cN 1));
  (43, 26, Some (cN (-1)));
  (44, 28, Some (cN 1));
  (45, 31, Some (cN 1));
  (46, 33, Some (cN (-1)));
  (48, 35, Some (cN 1));
  (49, 36, Some (cN (-1)));
  (50, 38, Some (cN 1));
  (52, 40, Some (cN 1));
  (54, 41, Some (cN (-1)));
  (56, 42, Some (cN 1));
  (58, 47, Some (cN 1));
  (59, 51, Some (cN 1));
  (60, 53, Some (cN (-1)));
  (61, 55, Some (cN 1));
  (63, 57, Some (cN (-1)));
  (64, 62, Some (cN (-1)))].
(** /repo/c++/symmetry/nrg-recalc-QSZ.hpp recalc_irreduc, qsz/qsz-3ch-spindownc.dat *)
Definition qsz_3ch_t7 : irr_table := mk_irr 2 0 [ShLin 0%nat 1 1; ShLin 1%nat 1 (-1)]  [
  (2, 1, Some (cN 1));
  (8, 3, Some (cN (-1)));
  (9, 4, Some (cN (-1)));
  (11, 5, Some (cN (-1)));
  (13, 6, Some (cN (-1)));
  (17, 7, Some (cN (-1)));
  (23, 10, Some (cN 1));
  (24, 12, Some (cN 1));
  (25, 14, Some (cN 1));
  (26, 15, Some (cN 1));
  (28, 16, Some (cN 1));
  (30, 18, Some (cN 1));
  (31, 19, Some (cN 1));
  (33, 20, Some (cN 1));
  (36, 21, Some (cN 1));
  (38, 22, Some (cN 1));
  (43, 27, Some (cN (-1)));
  (44, 29, Some (cN (-1)));
  (45, 32, Some (cN (-1)));
  (46, 34, Some (cN (-1)));
  (47, 35, Some (cN (-1)));
  (49, 37, Some (cN (-1)));
  (50, 39, Some (cN (-1)));
  (51, 40, Some (cN (-1)));
  (53, 41, Some (cN (-1)));
  (55, 42, Some (cN (-1)));
  (58, 48, Some (cN 1));
  (59, 52, Some (cN 1));
  (60, 54, Some (cN 1));
  (61, 56, Some (cN 1));
  (62, 57, Some (cN 1));
  (64, 63, Some (cN (-1)))].
(** /repo/c++/symmetry/nrg-recalc-QSZ.hpp recalc_triplet, qsz/qsz-3ch-triplets.dat *)
Definition qsz_3ch_t8 : ten_table := mk_ten "triplet" [ShLin 0%nat 1 0; ShLin 1%nat 1 0] [0; 0] [
  (1, 1, [ShLin 0%nat 1 3; ShLin 1%nat 1 0], [ShLin 0%nat 1 3; ShLin 1%nat 1 0], Some (cN 1));
  (2, 2, [ShLin 0%nat 1 2; ShLin 1%nat 1 1], [ShLin 0%nat 1 2; ShLin 1%nat 1 1], Some (cN 1));
  (3, 3, [ShLin 0%nat 1 2; ShLin 1%nat 1 1], [ShLin 0%nat 1 2; ShLin 1%nat 1 1], Some (cN 1));
  (4, 4, [ShLin 0%nat 1 2; ShLin 1%nat 1 1], [ShLin 0%nat 1 2; ShLin 1%nat 1 1], Some (cN 1));
  (5, 5, [ShLin 0%nat 1 2; ShLin 1%nat 1 (-1)], [ShLin 0%nat 1 2; ShLin 1%nat 1 (-1)], Some (cN 1));
  (6, 6, [ShLin 0%nat 1 2; ShLin 1%nat 1 (-1)], [ShLin 0%nat 1 2; ShLin 1%nat 1 (-1)], Some (cN 1));
  (7, 7, [ShLin 0%nat 1 2; ShLin 1%nat 1 (-1)], [ShLin 0%nat 1 2; ShLin 1%nat 1 (-1)], Some (cN 1));
  (8, 8, [ShLin 0%nat 1 1; ShLin 1%nat 1 2], [ShLin 0%nat 1 1; ShLin 1%nat 1 2], Some (cN 1));
  (9, 9, [ShLin 0%nat 1 1; ShLin 1%nat 1 2], [ShLin 0%nat 1 1; ShLin 1%nat 1 2], Some (cN 1));
  (10, 10, [ShLin 0%nat 1 1; ShLin 1%nat 1 2], [ShLin 0%nat 1 1; ShLin 1%nat 1 2], Some (cN 1));
  (11, 11, [ShLin 0%nat 1 1; ShLin 1%nat 1 0], [ShLin 0%nat 1 1; ShLin 1%nat 1 0], Some (cN 1));
  (12, 12, [ShLin 0%nat 1 1; ShLin 1%nat 1 0], [ShLin 0%nat 1 1; ShLin 1%nat 1 0], Some (cN 1));
  (13, 13, [ShLin 0%nat 1 1; ShLin 1%nat 1 0], [ShLin 0%nat 1 1; ShLin 1%nat 1 0], Some (cN 1));
  (14, 14, [ShLin 0%nat 1 1; ShLin 1%nat 1 0], [ShLin 0%nat 1 1; ShLin 1%nat 1 0], Some (cN 1));
  (15, 15, [ShLin 0%nat 1 1; ShLin 1%nat 1 0], [ShLin 0%nat 1 1; ShLin 1%nat 1 0], Some (cN 1));
  (16, 16, [ShLin 0%nat 1 1; ShLin 1%nat 1 0], [ShLin 0%nat 1 1; ShLin 1%nat 1 0], Some (cN 1));
  (17, 17, [ShLin 0%nat 1 1; ShLin 1%nat 1 0], [ShLin 0%nat 1 1; ShLin 1%nat 1 0], Some (cN 1));
  (18, 18, [ShLin 0%nat 1 1; ShLin 1%nat 1 0], [ShLin 0%nat 1 1; ShLin 1%nat 1 0], Some (cN 1));
  (19, 19, [ShLin 0%nat 1 1; ShLin 1%nat 1 0], [ShLin 0%nat 1 1; ShLin 1%nat 1 0], Some (cN 1));
  (20, 20, [ShLin 0%nat 1 1; ShLin 1%nat 1 (-2)], [ShLin 0%nat 1 1; ShLin 1%nat 1 (-2)], Some (cN 1));
  (21, 21, [ShLin 0%nat 1 1; ShLin 1%nat 1 (-2)], [ShLin 0%nat 1 1; ShLin 1%nat 1 (-2)], Some (cN 1));
  (22, 22, [ShLin 0%nat 1 1; ShLin 1%nat 1 (-2)], [ShLin 0%nat 1 1; ShLin 1%nat 1 (-2)], Some (cN 1));
  (23, 23, [ShLin 0%nat 1 0; ShLin 1%nat 1 3], [ShLin 0%nat 1 0; ShLin 1%nat 1 3], Some (cN 1));
  (24, 24, [ShLin 0%nat 1 0; ShLin 1%nat 1 1], [ShLin 0%nat 1 0; ShLin 1%nat 1 1], Some (cN 1));
  (25, 25, [ShLin 0%nat 1 0; ShLin 1%nat 1 1], [ShLin 0%nat 1 0; ShLin 1%nat 1 1], Some (cN 1));
  (26, 26, [ShLin 0%nat 1 0; ShLin 1%nat 1 1], [ShLin 0%nat 1 0; ShLin 1%nat 1 1], Some (cN 1));
  (27, 27, [ShLin 0%nat 1 0; ShLin 1%nat 1 1], [ShLin 0%nat 1 0; ShLin 1%nat 1 1], Some (cN 1));
  (28, 28, [ShLin 0%nat 1 0; ShLin 1%nat 1 1], [ShLin 0%nat 1 0; ShLin 1%nat 1 1], Some (cN 1));
  (29, 29, [ShLin 0%nat 1 0; ShLin 1%nat 1 1], [ShLin 0%nat 1 0; ShLin 1%nat 1 1], Some (cN 1));
  (30, 30, [ShLin 0%nat 1 0; ShLin 1%nat 1 1], [ShLin 0%nat 1 0; ShLin 1%nat 1 1], Some (cN 1));
  (31, 31, [ShLin 0%nat 1 0; ShLin 1%nat 1 1], [ShLin 0%nat 1 0; ShLin 1%nat 1 1], Some (cN 1));
  (32, 32, [ShLin 0%nat 1 0; ShLin 1%nat 1 1], [ShLin 0%nat 1 0; ShLin 1%nat 1 1], Some (cN 1));
  (33, 33, [ShLin 0%nat 1 0; ShLin 1%nat 1 (-1)], [ShLin 0%nat 1 0; ShLin 1%nat 1 (-1)], Some (cN 1));
  (34, 34, [ShLin 0%nat 1 0; ShLin 1%nat 1 (-1)], [ShLin 0%nat 1 0; ShLin 1%nat 1 (-1)], Some (cN 1));
  (35, 35, [ShLin 0%nat 1 0; ShLin 1%nat 1 (-1)], [ShLin 0%nat 1 0; ShLin 1%nat 1 (-1)], Some (cN 1));
  (36, 36, [ShLin 0%nat 1 0; ShLin 1%nat 1 (-1)], [ShLin 0%nat 1 0; ShLin 1%nat 1 (-1)], Some (cN 1));
  (37, 37, [ShLin 0%nat 1 0; ShLin 1%nat 1 (-1)], [ShLin 0%nat 1 0; ShLin 1%nat 1 (-1)], Some (cN 1));
  (38, 38, [ShLin 0%nat 1 0; ShLin 1%nat 1 (-1)], [ShLin 0%nat 1 0; ShLin 1%nat 1 (-1)], Some (cN 1));
  (39, 39, [ShLin 0%nat 1 0; ShLin 1%nat 1 (-1)], [ShLin 0%nat 1 0; ShLin 1%nat 1 (-1)], Some (cN 1));
  (40, 40, [ShLin 0%nat 1 0; ShLin 1%nat 1 (-1)], [ShLin 0%nat 1 0; ShLin 1%nat 1 (-1)], Some (cN 1));
  (41, 41, [ShLin 0%nat 1 0; ShLin 1%nat 1 (-1)], [ShLin 0%nat 1 0; ShLin 1%nat 1 (-1)], Some (cN 1));
  (42, 42, [ShLin 0%nat 1 0; ShLin 1%nat 1 (-3)], [ShLin 0%nat 1 0; ShLin 1%nat 1 (-3)], Some (cN 1));
  (43, 43, [ShLin 0%nat 1 (-1); ShLin 1%nat 1 2], [ShLin 0%nat 1 (-1); ShLin 1%nat 1 2], Some (cN 1));
  (44, 44, [ShLin 0%nat 1 (-1); ShLin 1%nat 1 2], [ShLin 0%nat 1 (-1); ShLin 1%nat 1 2], Some (cN 1));
  (45, 45, [ShLin 0%nat 1 (-1); ShLin 1%nat 1 2], [ShLin 0%nat 1 (-1); ShLin 1%nat 1 2], Some (cN 1));
  (46, 46, [ShLin 0%nat 1 (-1); ShLin 1%nat 1 0], [ShLin 0%nat 1 (-1); ShLin 1%nat 1 0], Some (cN 1));
  (47, 47, [ShLin 0%nat 1 (-1); ShLin 1%nat 1 0], [ShLin 0%nat 1 (-1); ShLin 1%nat 1 0], Some (cN 1));
  (48, 48, [ShLin 0%nat 1 (-1); ShLin 1%nat 1 0], [ShLin 0%nat 1 (-1); ShLin 1%nat 1 0], Some (cN 1));
  (49, 49, [ShLin 0%nat 1 (-1); ShLin 1%nat 1 0], [ShLin 0%nat 1 (-1); ShLin 1%nat 1 0], Some (cN 1));
  (50, 50, [ShLin 0%nat 1 (-1); ShLin 1%nat 1 0], [ShLin 0%nat 1 (-1); ShLin 1%nat 1 0], Some (cN 1));
  (51, 51, [ShLin 0%nat 1 (-1); ShLin 1%nat 1 0], [ShLin 0%nat 1 (-1); ShLin 1%nat 1 0], Some (cN 1));
  (52, 52, [ShLin 0%nat 1 (-1); ShLin 1%nat 1 0], [ShLin 0%nat 1 (-1); ShLin 1%nat 1 0], Some (cN 1));
  (53, 53, [ShLin 0%nat 1 (-1); ShLin 1%nat 1 0], [ShLin 0%nat 1 (-1); ShLin 1%nat 1 0], Some (cN 1));
  (54, 54, [ShLin 0%nat 1 (-1); ShLin 1%nat 1 0], [ShLin 0%nat 1 (-1); ShLin 1%nat 1 0], Some (cN 1));
  (55, 55, [ShLin 0%nat 1 (-1); ShLin 1%nat 1 (-2)], [ShLin 0%nat 1 (-1); ShLin 1%nat 1 (-2)], Some (cN 1));
  (56, 56, [ShLin 0%nat 1 (-1); ShLin 1%nat 1 (-2)], [ShLin 0%nat 1 (-1); ShLin 1%nat 1 (-2)], Some (cN 1));
  (57, 57, [ShLin 0%nat 1 (-1); ShLin 1%nat 1 (-2)], [ShLin 0%nat 1 (-1); ShLin 1%nat 1 (-2)], Some (cN 1));
  (58, 58, [ShLin 0%nat 1 (-2); ShLin 1%nat 1 1], [ShLin 0%nat 1 (-2); ShLin 1%nat 1 1], Some (cN 1));
  (59, 59, [ShLin 0%nat 1 (-2); ShLin 1%nat 1 1], [ShLin 0%nat 1 (-2); ShLin 1%nat 1 1], Some (cN 1));
  (60, 60, [ShLin 0%nat 1 (-2); ShLin 1%nat 1 1], [ShLin 0%nat 1 (-2); ShLin 1%nat 1 1], Some (cN 1));
  (61, 61, [ShLin 0%nat 1 (-2); ShLin 1%nat 1 (-1)], [ShLin 0%nat 1 (-2); ShLin 1%nat 1 (-1)], Some (cN 1));
  (62, 62, [ShLin 0%nat 1 (-2); ShLin 1%nat 1 (-1)], [ShLin 0%nat 1 (-2); ShLin 1%nat 1 (-1)], Some (cN 1));
  (63, 63, [ShLin 0%nat 1 (-2); ShLin 1%nat 1 (-1)], [ShLin 0%nat 1 (-2); ShLin 1%nat 1 (-1)], Some (cN 1));
  (64, 64, [ShLin 0%nat 1 (-3); ShLin 1%nat 1 0], [ShLin 0%nat 1 (-3); ShLin 1%nat 1 0], Some (cN 1))].
(** /repo/c++/symmetry/sym-QSZ-impl.hpp, make_matrix_nonpolarized if (!P.substeps) *)
Definition qsz_3ch_m0_o : list off_line := [
  (1, 4, 0, 0, "xi", Some (cN 1));
  (1, 7, 0, 0, "xi", Some (cN 1));
  (2, 9, 0, 0, "xi", Some (cN (-1)));
  (2, 17, 0, 0, "xi", Some (cN (-1)));
  (3, 10, 0, 0, "xi", Some (cN (-1)));
  (3, 18, 0, 0, "xi", Some (cN (-1)));
  (4, 19, 0, 0, "xi", Some (cN (-1)));
  (5, 15, 0, 0, "xi", Some (cN (-1)));
  (5, 21, 0, 0, "xi", Some (cN (-1)));
  (6, 16, 0, 0, "xi", Some (cN (-1)));
  (6, 22, 0, 0, "xi", Some (cN (-1)));
  (7, 19, 0, 0, "xi", Some (cN 1));
  (8, 23, 0, 0, "xi", Some (cN 1));
  (8, 30, 0, 0, "xi", Some (cN 1));
  (9, 31, 0, 0, "xi", Some (cN 1));
  (10, 32, 0, 0, "xi", Some (cN 1));
  (11, 26, 0, 0, "xi", Some (cN 1));
  (11, 36, 0, 0, "xi", Some (cN 1));
  (12, 27, 0, 0, "xi", Some (cN 1));
  (12, 37, 0, 0, "xi", Some (cN 1));
  (13, 28, 0, 0, "xi", Some (cN 1));
  (13, 38, 0, 0, "xi", Some (cN 1));
  (14, 29, 0, 0, "xi", Some (cN 1));
  (14, 39, 0, 0, "xi", Some (cN 1));
  (15, 40, 0, 0, "xi", Some (cN 1));
  (16, 41, 0, 0, "xi", Some (cN 1));
  (17, 31, 0, 0, "xi", Some (cN (-1)));
  (18, 32, 0, 0, "xi", Some (cN (-1)));
  (20, 35, 0, 0, "xi", Some (cN 1));
  (20, 42, 0, 0, "xi", Some (cN 1));
  (21, 40, 0, 0, "xi", Some (cN (-1)));
  (22, 41, 0, 0, "xi", Some (cN (-1)));
  (23, 45, 0, 0, "xi", Some (cN (-1)));
  (24, 43, 0, 0, "xi", Some (cN (-1)));
  (24, 49, 0, 0, "xi", Some (cN (-1)));
  (25, 44, 0, 0, "xi", Some (cN (-1)));
  (25, 50, 0, 0, "xi", Some (cN (-1)));
  (26, 51, 0, 0, "xi", Some (cN (-1)));
  (27, 52, 0, 0, "xi", Some (cN (-1)));
  (28, 53, 0, 0, "xi", Some (cN (-1)));
  (29, 54, 0, 0, "xi", Some (cN (-1)));
  (30, 45, 0, 0, "xi", Some (cN 1));
  (33, 47, 0, 0, "xi", Some (cN (-1)));
  (33, 55, 0, 0, "xi", Some (cN (-1)));
  (34, 48, 0, 0, "xi", Some (cN (-1)));
  (34, 56, 0, 0, "xi", Some (cN (-1)));
  (35, 57, 0, 0, "xi", Some (cN (-1)));
  (36, 51, 0, 0, "xi", Some (cN 1));
  (37, 52, 0, 0, "xi", Some (cN 1));
  (38, 53, 0, 0, "xi", Some (cN 1));
  (39, 54, 0, 0, "xi", Some (cN 1));
  (42, 57, 0, 0, "xi", Some (cN 1));
  (43, 59, 0, 0, "xi", Some (cN 1));
  (44, 60, 0, 0, "xi", Some (cN 1));
  (46, 58, 0, 0, "xi", Some (cN 1));
  (46, 61, 0, 0, "xi", Some (cN 1));
  (47, 62, 0, 0, "xi", Some (cN 1));
  (48, 63, 0, 0, "xi", Some (cN 1));
  (49, 59, 0, 0, "xi", Some (cN (-1)));
  (50, 60, 0, 0, "xi", Some (cN (-1)));
  (55, 62, 0, 0, "xi", Some (cN (-1)));
  (56, 63, 0, 0, "xi", Some (cN (-1)));
  (58, 64, 0, 0, "xi", Some (cN (-1)));
  (61, 64, 0, 0, "xi", Some (cN 1));
  (1, 3, 1, 0, "xi", Some (cN 1));
  (1, 6, 1, 0, "xi", Some (cN 1));
  (2, 8, 1, 0, "xi", Some (cN (-1)));
  (2, 13, 1, 0, "xi", Some (cN (-1)));
  (3, 14, 1, 0, "xi", Some (cN (-1)));
  (4, 10, 1, 0, "xi", Some (cN 1));
  (4, 16, 1, 0, "xi", Some (cN 1));
  (5, 12, 1, 0, "xi", Some (cN (-1)));
  (5, 20, 1, 0, "xi", Some (cN (-1)));
  (6, 14, 1, 0, "xi", Some (cN 1));
  (7, 18, 1, 0, "xi", Some (cN 1));
  (7, 22, 1, 0, "xi", Some (cN 1));
  (8, 25, 1, 0, "xi", Some (cN 1));
  (9, 23, 1, 0, "xi", Some (cN (-1)));
  (9, 28, 1, 0, "xi", Some (cN (-1)));
  (10, 29, 1, 0, "xi", Some (cN (-1)));
  (11, 24, 1, 0, "xi", Some (cN 1));
  (11, 33, 1, 0, "xi", Some (cN 1));
  (12, 34, 1, 0, "xi", Some (cN 1));
  (13, 25, 1, 0, "xi", Some (cN (-1)));
  (15, 27, 1, 0, "xi", Some (cN (-1)));
  (15, 35, 1, 0, "xi", Some (cN (-1)));
  (16, 29, 1, 0, "xi", Some (cN 1));
  (17, 30, 1, 0, "xi", Some (cN (-1)));
  (17, 38, 1, 0, "xi", Some (cN (-1)));
  (18, 39, 1, 0, "xi", Some (cN (-1)));
  (19, 32, 1, 0, "xi", Some (cN 1));
  (19, 41, 1, 0, "xi", Some (cN 1));
  (20, 34, 1, 0, "xi", Some (cN (-1)));
  (21, 37, 1, 0, "xi", Some (cN (-1)));
  (21, 42, 1, 0, "xi", Some (cN (-1)));
  (22, 39, 1, 0, "xi", Some (cN 1));
  (23, 44, 1, 0, "xi", Some (cN 1));
  (24, 46, 1, 0, "xi", Some (cN (-1)));
  (26, 43, 1, 0, "xi", Some (cN 1));
  (26, 47, 1, 0, "xi", Some (cN 1));
  (27, 48, 1, 0, "xi", Some (cN 1));
  (28, 44, 1, 0, "xi", Some (cN (-1)));
  (30, 50, 1, 0, "xi", Some (cN 1));
  (31, 45, 1, 0, "xi", Some (cN (-1)));
  (31, 53, 1, 0, "xi", Some (cN (-1)));
  (32, 54, 1, 0, "xi", Some (cN (-1)));
  (33, 46, 1, 0, "xi", Some (cN 1));
  (35, 48, 1, 0, "xi", Some (cN (-1)));
  (36, 49, 1, 0, "xi", Some (cN 1));
  (36, 55, 1, 0, "xi", Some (cN 1));
  (37, 56, 1, 0, "xi", Some (cN 1));
  (38, 50, 1, 0, "xi", Some (cN (-1)));
  (40, 52, 1, 0, "xi", Some (cN (-1)));
  (40, 57, 1, 0, "xi", Some (cN (-1)));
  (41, 54, 1, 0, "xi", Some (cN 1));
  (42, 56, 1, 0, "xi", Some (cN (-1)));
  (43, 58, 1, 0, "xi", Some (cN (-1)));
  (45, 60, 1, 0, "xi", Some (cN 1));
  (47, 58, 1, 0, "xi", Some (cN 1));
  (49, 61, 1, 0, "xi", Some (cN (-1)));
  (51, 59, 1, 0, "xi", Some (cN 1));
  (51, 62, 1, 0, "xi", Some (cN 1));
  (52, 63, 1, 0, "xi", Some (cN 1));
  (53, 60, 1, 0, "xi", Some (cN (-1)));
  (55, 61, 1, 0, "xi", Some (cN 1));
  (57, 63, 1, 0, "xi", Some (cN (-1)));
  (59, 64, 1, 0, "xi", Some (cN (-1)));
  (62, 64, 1, 0, "xi", Some (cN 1));
  (1, 2, 2, 0, "xi", Some (cN 1));
  (1, 5, 2, 0, "xi", Some (cN 1));
  (2, 11, 2, 0, "xi", Some (cN (-1)));
  (3, 8, 2, 0, "xi", Some (cN 1));
  (3, 12, 2, 0, "xi", Some (cN 1));
  (4, 9, 2, 0, "xi", Some (cN 1));
  (4, 15, 2, 0, "xi", Some (cN 1));
  (5, 11, 2, 0, "xi", Some (cN 1));
  (6, 13, 2, 0, "xi", Some (cN 1));
  (6, 20, 2, 0, "xi", Some (cN 1));
  (7, 17, 2, 0, "xi", Some (cN 1));
  (7, 21, 2, 0, "xi", Some (cN 1));
  (8, 24, 2, 0, "xi", Some (cN (-1)));
  (9, 26, 2, 0, "xi", Some (cN (-1)));
  (10, 23, 2, 0, "xi", Some (cN 1));
  (10, 27, 2, 0, "xi", Some (cN 1));
  (12, 24, 2, 0, "xi", Some (cN 1));
  (13, 33, 2, 0, "xi", Some (cN (-1)));
  (14, 25, 2, 0, "xi", Some (cN 1));
  (14, 34, 2, 0, "xi", Some (cN 1));
  (15, 26, 2, 0, "xi", Some (cN 1));
  (16, 28, 2, 0, "xi", Some (cN 1));
  (16, 35, 2, 0, "xi", Some (cN 1));
  (17, 36, 2, 0, "xi", Some (cN (-1)));
  (18, 30, 2, 0, "xi", Some (cN 1));
  (18, 37, 2, 0, "xi", Some (cN 1));
  (19, 31, 2, 0, "xi", Some (cN 1));
  (19, 40, 2, 0, "xi", Some (cN 1));
  (20, 33, 2, 0, "xi", Some (cN 1));
  (21, 36, 2, 0, "xi", Some (cN 1));
  (22, 38, 2, 0, "xi", Some (cN 1));
  (22, 42, 2, 0, "xi", Some (cN 1));
  (23, 43, 2, 0, "xi", Some (cN (-1)));
  (25, 46, 2, 0, "xi", Some (cN (-1)));
  (27, 43, 2, 0, "xi", Some (cN 1));
  (28, 47, 2, 0, "xi", Some (cN (-1)));
  (29, 44, 2, 0, "xi", Some (cN 1));
  (29, 48, 2, 0, "xi", Some (cN 1));
  (30, 49, 2, 0, "xi", Some (cN (-1)));
  (31, 51, 2, 0, "xi", Some (cN (-1)));
  (32, 45, 2, 0, "xi", Some (cN 1));
  (32, 52, 2, 0, "xi", Some (cN 1));
  (34, 46, 2, 0, "xi", Some (cN 1));
  (35, 47, 2, 0, "xi", Some (cN 1));
  (37, 49, 2, 0, "xi", Some (cN 1));
  (38, 55, 2, 0, "xi", Some (cN (-1)));
  (39, 50, 2, 0, "xi", Some (cN 1));
  (39, 56, 2, 0, "xi", Some (cN 1));
  (40, 51, 2, 0, "xi", Some (cN 1));
  (41, 53, 2, 0, "xi", Some (cN 1));
  (41, 57, 2, 0, "xi", Some (cN 1));
  (42, 55, 2, 0, "xi", Some (cN 1));
  (44, 58, 2, 0, "xi", Some (cN (-1)));
  (45, 59, 2, 0, "xi", Some (cN (-1)));
  (48, 58, 2, 0, "xi", Some (cN 1));
  (50, 61, 2, 0, "xi", Some (cN (-1)));
  (52, 59, 2, 0, "xi", Some (cN 1));
  (53, 62, 2, 0, "xi", Some (cN (-1)));
  (54, 60, 2, 0, "xi", Some (cN 1));
  (54, 63, 2, 0, "xi", Some (cN 1));
  (56, 61, 2, 0, "xi", Some (cN 1));
  (57, 62, 2, 0, "xi", Some (cN 1));
  (60, 64, 2, 0, "xi", Some (cN (-1)));
  (63, 64, 2, 0, "xi", Some (cN 1))].
(** /repo/c++/symmetry/sym-QSZ-impl.hpp, make_matrix_nonpolarized if (!P.substeps) *)
Definition qsz_3ch_m0_d : list diag_line := [
  (1, 0, "zeta", Some (cN 0));
  (2, 0, "zeta", Some (cN 0));
  (3, 0, "zeta", Some (cN 0));
  (4, 0, "zeta", Some (cN 1));
  (5, 0, "zeta", Some (cN 0));
  (6, 0, "zeta", Some (cN 0));
  (7, 0, "zeta", Some (cN 1));
  (8, 0, "zeta", Some (cN 0));
  (9, 0, "zeta", Some (cN 1));
  (10, 0, "zeta", Some (cN 1));
  (11, 0, "zeta", Some (cN 0));
  (12, 0, "zeta", Some (cN 0));
  (13, 0, "zeta", Some (cN 0));
  (14, 0, "zeta", Some (cN 0));
  (15, 0, "zeta", Some (cN 1));
  (16, 0, "zeta", Some (cN 1));
  (17, 0, "zeta", Some (cN 1));
  (18, 0, "zeta", Some (cN 1));
  (19, 0, "zeta", Some (cN 2));
  (20, 0, "zeta", Some (cN 0));
  (21, 0, "zeta", Some (cN 1));
  (22, 0, "zeta", Some (cN 1));
  (23, 0, "zeta", Some (cN 1));
  (24, 0, "zeta", Some (cN 0));
  (25, 0, "zeta", Some (cN 0));
  (26, 0, "zeta", Some (cN 1));
  (27, 0, "zeta", Some (cN 1));
  (28, 0, "zeta", Some (cN 1));
  (29, 0, "zeta", Some (cN 1));
  (30, 0, "zeta", Some (cN 1));
  (31, 0, "zeta", Some (cN 2));
  (32, 0, "zeta", Some (cN 2));
  (33, 0, "zeta", Some (cN 0));
  (34, 0, "zeta", Some (cN 0));
  (35, 0, "zeta", Some (cN 1));
  (36, 0, "zeta", Some (cN 1));
  (37, 0, "zeta", Some (cN 1));
  (38, 0, "zeta", Some (cN 1));
  (39, 0, "zeta", Some (cN 1));
  (40, 0, "zeta", Some (cN 2));
  (41, 0, "zeta", Some (cN 2));
  (42, 0, "zeta", Some (cN 1));
  (43, 0, "zeta", Some (cN 1));
  (44, 0, "zeta", Some (cN 1));
  (45, 0, "zeta", Some (cN 2));
  (46, 0, "zeta", Some (cN 0));
  (47, 0, "zeta", Some (cN 1));
  (48, 0, "zeta", Some (cN 1));
  (49, 0, "zeta", Some (cN 1));
  (50, 0, "zeta", Some (cN 1));
  (51, 0, "zeta", Some (cN 2));
  (52, 0, "zeta", Some (cN 2));
  (53, 0, "zeta", Some (cN 2));
  (54, 0, "zeta", Some (cN 2));
  (55, 0, "zeta", Some (cN 1));
  (56, 0, "zeta", Some (cN 1));
  (57, 0, "zeta", Some (cN 2));
  (58, 0, "zeta", Some (cN 1));
  (59, 0, "zeta", Some (cN 2));
  (60, 0, "zeta", Some (cN 2));
  (61, 0, "zeta", Some (cN 1));
  (62, 0, "zeta", Some (cN 2));
  (63, 0, "zeta", Some (cN 2));
  (64, 0, "zeta", Some (cN 2));
  (1, 1, "zeta", Some (cN 0));
  (2, 1, "zeta", Some (cN 0));
  (3, 1, "zeta", Some (cN 1));
  (4, 1, "zeta", Some (cN 0));
  (5, 1, "zeta", Some (cN 0));
  (6, 1, "zeta", Some (cN 1));
  (7, 1, "zeta", Some (cN 0));
  (8, 1, "zeta", Some (cN 1));
  (9, 1, "zeta", Some (cN 0));
  (10, 1, "zeta", Some (cN 1));
  (11, 1, "zeta", Some (cN 0));
  (12, 1, "zeta", Some (cN 1));
  (13, 1, "zeta", Some (cN 1));
  (14, 1, "zeta", Some (cN 2));
  (15, 1, "zeta", Some (cN 0));
  (16, 1, "zeta", Some (cN 1));
  (17, 1, "zeta", Some (cN 0));
  (18, 1, "zeta", Some (cN 1));
  (19, 1, "zeta", Some (cN 0));
  (20, 1, "zeta", Some (cN 1));
  (21, 1, "zeta", Some (cN 0));
  (22, 1, "zeta", Some (cN 1));
  (23, 1, "zeta", Some (cN 1));
  (24, 1, "zeta", Some (cN 1));
  (25, 1, "zeta", Some (cN 2));
  (26, 1, "zeta", Some (cN 0));
  (27, 1, "zeta", Some (cN 1));
  (28, 1, "zeta", Some (cN 1));
  (29, 1, "zeta", Some (cN 2));
  (30, 1, "zeta", Some (cN 1));
  (31, 1, "zeta", Some (cN 0));
  (32, 1, "zeta", Some (cN 1));
  (33, 1, "zeta", Some (cN 1));
  (34, 1, "zeta", Some (cN 2));
  (35, 1, "zeta", Some (cN 1));
  (36, 1, "zeta", Some (cN 0));
  (37, 1, "zeta", Some (cN 1));
  (38, 1, "zeta", Some (cN 1));
  (39, 1, "zeta", Some (cN 2));
  (40, 1, "zeta", Some (cN 0));
  (41, 1, "zeta", Some (cN 1));
  (42, 1, "zeta", Some (cN 1));
  (43, 1, "zeta", Some (cN 1));
  (44, 1, "zeta", Some (cN 2));
  (45, 1, "zeta", Some (cN 1));
  (46, 1, "zeta", Some (cN 2));
  (47, 1, "zeta", Some (cN 1));
  (48, 1, "zeta", Some (cN 2));
  (49, 1, "zeta", Some (cN 1));
  (50, 1, "zeta", Some (cN 2));
  (51, 1, "zeta", Some (cN 0));
  (52, 1, "zeta", Some (cN 1));
  (53, 1, "zeta", Some (cN 1));
  (54, 1, "zeta", Some (cN 2));
  (55, 1, "zeta", Some (cN 1));
  (56, 1, "zeta", Some (cN 2));
  (57, 1, "zeta", Some (cN 1));
  (58, 1, "zeta", Some (cN 2));
  (59, 1, "zeta", Some (cN 1));
  (60, 1, "zeta", Some (cN 2));
  (61, 1, "zeta", Some (cN 2));
  (62, 1, "zeta", Some (cN 1));
  (63, 1, "zeta", Some (cN 2));
  (64, 1, "zeta", Some (cN 2));
  (1, 2, "zeta", Some (cN 0));
  (2, 2, "zeta", Some (cN 1));
  (3, 2, "zeta", Some (cN 0));
  (4, 2, "zeta", Some (cN 0));
  (5, 2, "zeta", Some (cN 1));
  (6, 2, "zeta", Some (cN 0));
  (7, 2, "zeta", Some (cN 0));
  (8, 2, "zeta", Some (cN 1));
  (9, 2, "zeta", Some (cN 1));
  (10, 2, "zeta", Some (cN 0));
  (11, 2, "zeta", Some (cN 2));
  (12, 2, "zeta", Some (cN 1));
  (13, 2, "zeta", Some (cN 1));
  (14, 2, "zeta", Some (cN 0));
  (15, 2, "zeta", Some (cN 1));
  (16, 2, "zeta", Some (cN 0));
  (17, 2, "zeta", Some (cN 1));
  (18, 2, "zeta", Some (cN 0));
  (19, 2, "zeta", Some (cN 0));
  (20, 2, "zeta", Some (cN 1));
  (21, 2, "zeta", Some (cN 1));
  (22, 2, "zeta", Some (cN 0));
  (23, 2, "zeta", Some (cN 1));
  (24, 2, "zeta", Some (cN 2));
  (25, 2, "zeta", Some (cN 1));
  (26, 2, "zeta", Some (cN 2));
  (27, 2, "zeta", Some (cN 1));
  (28, 2, "zeta", Some (cN 1));
  (29, 2, "zeta", Some (cN 0));
  (30, 2, "zeta", Some (cN 1));
  (31, 2, "zeta", Some (cN 1));
  (32, 2, "zeta", Some (cN 0));
  (33, 2, "zeta", Some (cN 2));
  (34, 2, "zeta", Some (cN 1));
  (35, 2, "zeta", Some (cN 1));
  (36, 2, "zeta", Some (cN 2));
  (37, 2, "zeta", Some (cN 1));
  (38, 2, "zeta", Some (cN 1));
  (39, 2, "zeta", Some (cN 0));
  (40, 2, "zeta", Some (cN 1));
  (41, 2, "zeta", Some (cN 0));
  (42, 2, "zeta", Some (cN 1));
  (43, 2, "zeta", Some (cN 2));
  (44, 2, "zeta", Some (cN 1));
  (45, 2, "zeta", Some (cN 1));
  (46, 2, "zeta", Some (cN 2));
  (47, 2, "zeta", Some (cN 2));
  (48, 2, "zeta", Some (cN 1));
  (49, 2, "zeta", Some (cN 2));
  (50, 2, "zeta", Some (cN 1));
  (51, 2, "zeta", Some (cN 2));
  (52, 2, "zeta", Some (cN 1));
  (53, 2, "zeta", Some (cN 1));
  (54, 2, "zeta", Some (cN 0));
  (55, 2, "zeta", Some (cN 2));
  (56, 2, "zeta", Some (cN 1));
  (57, 2, "zeta", Some (cN 1));
  (58, 2, "zeta", Some (cN 2));
  (59, 2, "zeta", Some (cN 2));
  (60, 2, "zeta", Some (cN 1));
  (61, 2, "zeta", Some (cN 2));
  (62, 2, "zeta", Some (cN 2));
  (63, 2, "zeta", Some (cN 1));
  (64, 2, "zeta", Some (cN 2))].
(** /repo/c++/symmetry/sym-QSZ-impl.hpp, make_matrix_nonpolarized if (!P.substeps) *)
Definition qsz_3ch_m0_f : list dof_line := [
  ].
(** /repo/c++/symmetry/sym-QSZ-impl.hpp, make_matrix_polarized  *)
Definition qsz_3ch_m1_o : list off_line := [
  (1, 7, 0, 0, "xiUP", Some (cN 1));
  (2, 17, 0, 0, "xiUP", Some (cN (-1)));
  (3, 18, 0, 0, "xiUP", Some (cN (-1)));
  (4, 19, 0, 0, "xiUP", Some (cN (-1)));
  (5, 21, 0, 0, "xiUP", Some (cN (-1)));
  (6, 22, 0, 0, "xiUP", Some (cN (-1)));
  (8, 30, 0, 0, "xiUP", Some (cN 1));
  (9, 31, 0, 0, "xiUP", Some (cN 1));
  (10, 32, 0, 0, "xiUP", Some (cN 1));
  (11, 36, 0, 0, "xiUP", Some (cN 1));
  (12, 37, 0, 0, "xiUP", Some (cN 1));
  (13, 38, 0, 0, "xiUP", Some (cN 1));
  (14, 39, 0, 0, "xiUP", Some (cN 1));
  (15, 40, 0, 0, "xiUP", Some (cN 1));
  (16, 41, 0, 0, "xiUP", Some (cN 1));
  (20, 42, 0, 0, "xiUP", Some (cN 1));
  (23, 45, 0, 0, "xiUP", Some (cN (-1)));
  (24, 49, 0, 0, "xiUP", Some (cN (-1)));
  (25, 50, 0, 0, "xiUP", Some (cN (-1)));
  (26, 51, 0, 0, "xiUP", Some (cN (-1)));
  (27, 52, 0, 0, "xiUP", Some (cN (-1)));
  (28, 53, 0, 0, "xiUP", Some (cN (-1)));
  (29, 54, 0, 0, "xiUP", Some (cN (-1)));
  (33, 55, 0, 0, "xiUP", Some (cN (-1)));
  (34, 56, 0, 0, "xiUP", Some (cN (-1)));
  (35, 57, 0, 0, "xiUP", Some (cN (-1)));
  (43, 59, 0, 0, "xiUP", Some (cN 1));
  (44, 60, 0, 0, "xiUP", Some (cN 1));
  (46, 61, 0, 0, "xiUP", Some (cN 1));
  (47, 62, 0, 0, "xiUP", Some (cN 1));
  (48, 63, 0, 0, "xiUP", Some (cN 1));
  (58, 64, 0, 0, "xiUP", Some (cN (-1)));
  (1, 6, 1, 0, "xiUP", Some (cN 1));
  (2, 13, 1, 0, "xiUP", Some (cN (-1)));
  (3, 14, 1, 0, "xiUP", Some (cN (-1)));
  (4, 16, 1, 0, "xiUP", Some (cN 1));
  (5, 20, 1, 0, "xiUP", Some (cN (-1)));
  (7, 22, 1, 0, "xiUP", Some (cN 1));
  (8, 25, 1, 0, "xiUP", Some (cN 1));
  (9, 28, 1, 0, "xiUP", Some (cN (-1)));
  (10, 29, 1, 0, "xiUP", Some (cN (-1)));
  (11, 33, 1, 0, "xiUP", Some (cN 1));
  (12, 34, 1, 0, "xiUP", Some (cN 1));
  (15, 35, 1, 0, "xiUP", Some (cN (-1)));
  (17, 38, 1, 0, "xiUP", Some (cN (-1)));
  (18, 39, 1, 0, "xiUP", Some (cN (-1)));
  (19, 41, 1, 0, "xiUP", Some (cN 1));
  (21, 42, 1, 0, "xiUP", Some (cN (-1)));
  (23, 44, 1, 0, "xiUP", Some (cN 1));
  (24, 46, 1, 0, "xiUP", Some (cN (-1)));
  (26, 47, 1, 0, "xiUP", Some (cN 1));
  (27, 48, 1, 0, "xiUP", Some (cN 1));
  (30, 50, 1, 0, "xiUP", Some (cN 1));
  (31, 53, 1, 0, "xiUP", Some (cN (-1)));
  (32, 54, 1, 0, "xiUP", Some (cN (-1)));
  (36, 55, 1, 0, "xiUP", Some (cN 1));
  (37, 56, 1, 0, "xiUP", Some (cN 1));
  (40, 57, 1, 0, "xiUP", Some (cN (-1)));
  (43, 58, 1, 0, "xiUP", Some (cN (-1)));
  (45, 60, 1, 0, "xiUP", Some (cN 1));
  (49, 61, 1, 0, "xiUP", Some (cN (-1)));
  (51, 62, 1, 0, "xiUP", Some (cN 1));
  (52, 63, 1, 0, "xiUP", Some (cN 1));
  (59, 64, 1, 0, "xiUP", Some (cN (-1)));
  (1, 5, 2, 0, "xiUP", Some (cN 1));
  (2, 11, 2, 0, "xiUP", Some (cN (-1)));
  (3, 12, 2, 0, "xiUP", Some (cN 1));
  (4, 15, 2, 0, "xiUP", Some (cN 1));
  (6, 20, 2, 0, "xiUP", Some (cN 1));
  (7, 21, 2, 0, "xiUP", Some (cN 1));
  (8, 24, 2, 0, "xiUP", Some (cN (-1)));
  (9, 26, 2, 0, "xiUP", Some (cN (-1)));
  (10, 27, 2, 0, "xiUP", Some (cN 1));
  (13, 33, 2, 0, "xiUP", Some (cN (-1)));
  (14, 34, 2, 0, "xiUP", Some (cN 1));
  (16, 35, 2, 0, "xiUP", Some (cN 1));
  (17, 36, 2, 0, "xiUP", Some (cN (-1)));
  (18, 37, 2, 0, "xiUP", Some (cN 1));
  (19, 40, 2, 0, "xiUP", Some (cN 1));
  (22, 42, 2, 0, "xiUP", Some (cN 1));
  (23, 43, 2, 0, "xiUP", Some (cN (-1)));
  (25, 46, 2, 0, "xiUP", Some (cN (-1)));
  (28, 47, 2, 0, "xiUP", Some (cN (-1)));
  (29, 48, 2, 0, "xiUP", Some (cN 1));
  (30, 49, 2, 0, "xiUP", Some (cN (-1)));
  (31, 51, 2, 0, "xiUP", Some (cN (-1)));
  (32, 52, 2, 0, "xiUP", Some (cN 1));
  (38, 55, 2, 0, "xiUP", Some (cN (-1)));
  (39, 56, 2, 0, "xiUP", Some (cN 1));
  (41, 57, 2, 0, "xiUP", Some (cN 1));
  (44, 58, 2, 0, "xiUP", Some (cN (-1)));
  (45, 59, 2, 0, "xiUP", Some (cN (-1)));
  (50, 61, 2, 0, "xiUP", Some (cN (-1)));
  (53, 62, 2, 0, "xiUP", Some (cN (-1)));
  (54, 63, 2, 0, "xiUP", Some (cN 1));
  (60, 64, 2, 0, "xiUP", Some (cN (-1)));
  (1, 4, 0, 0, "xiDOWN", Some (cN 1));
  (2, 9, 0, 0, "xiDOWN", Some (cN (-1)));
  (3, 10, 0, 0, "xiDOWN", Some (cN (-1)));
  (5, 15, 0, 0, "xiDOWN", Some (cN (-1)));
  (6, 16, 0, 0, "xiDOWN", Some (cN (-1)));
  (7, 19, 0, 0, "xiDOWN", Some (cN 1));
  (8, 23, 0, 0, "xiDOWN", Some (cN 1));
  (11, 26, 0, 0, "xiDOWN", Some (cN 1));
  (12, 27, 0, 0, "xiDOWN", Some (cN 1));
  (13, 28, 0, 0, "xiDOWN", Some (cN 1));
  (14, 29, 0, 0, "xiDOWN", Some (cN 1));
  (17, 31, 0, 0, "xiDOWN", Some (cN (-1)));
  (18, 32, 0, 0, "xiDOWN", Some (cN (-1)));
  (20, 35, 0, 0, "xiDOWN", Some (cN 1));
  (21, 40, 0, 0, "xiDOWN", Some (cN (-1)));
  (22, 41, 0, 0, "xiDOWN", Some (cN (-1)));
  (24, 43, 0, 0, "xiDOWN", Some (cN (-1)));
  (25, 44, 0, 0, "xiDOWN", Some (cN (-1)));
  (30, 45, 0, 0, "xiDOWN", Some (cN 1));
  (33, 47, 0, 0, "xiDOWN", Some (cN (-1)));
  (34, 48, 0, 0, "xiDOWN", Some (cN (-1)));
  (36, 51, 0, 0, "xiDOWN", Some (cN 1));
  (37, 52, 0, 0, "xiDOWN", Some (cN 1));
  (38, 53, 0, 0, "xiDOWN", Some (cN 1));
  (39, 54, 0, 0, "xiDOWN", Some (cN 1));
  (42, 57, 0, 0, "xiDOWN", Some (cN 1));
  (46, 58, 0, 0, "xiDOWN", Some (cN 1));
  (49, 59, 0, 0, "xiDOWN", Some (cN (-1)));
  (50, 60, 0, 0, "xiDOWN", Some (cN (-1)));
  (55, 62, 0, 0, "xiDOWN", Some (cN (-1)));
  (56, 63, 0, 0, "xiDOWN", Some (cN (-1)));
  (61, 64, 0, 0, "xiDOWN", Some (cN 1));
  (1, 3, 1, 0, "xiDOWN", Some (cN 1));
  (2, 8, 1, 0, "xiDOWN", Some (cN (-1)));
  (4, 10, 1, 0, "xiDOWN", Some (cN 1));
  (5, 12, 1, 0, "xiDOWN", Some (cN (-1)));
  (6, 14, 1, 0, "xiDOWN", Some (cN 1));
  (7, 18, 1, 0, "xiDOWN", Some (cN 1));
  (9, 23, 1, 0, "xiDOWN", Some (cN (-1)));
  (11, 24, 1, 0, "xiDOWN", Some (cN 1));
  (13, 25, 1, 0, "xiDOWN", Some (cN (-1)));
  (15, 27, 1, 0, "xiDOWN", Some (cN (-1)));
  (16, 29, 1, 0, "xiDOWN", Some (cN 1));
  (17, 30, 1, 0, "xiDOWN", Some (cN (-1)));
  (19, 32, 1, 0, "xiDOWN", Some (cN 1));
  (20, 34, 1, 0, "xiDOWN", Some (cN (-1)));
  (21, 37, 1, 0, "xiDOWN", Some (cN (-1)));
  (22, 39, 1, 0, "xiDOWN", Some (cN 1));
  (26, 43, 1, 0, "xiDOWN", Some (cN 1));
  (28, 44, 1, 0, "xiDOWN", Some (cN (-1)));
  (31, 45, 1, 0, "xiDOWN", Some (cN (-1)));
  (33, 46, 1, 0, "xiDOWN", Some (cN 1));
  (35, 48, 1, 0, "xiDOWN", Some (cN (-1)));
  (36, 49, 1, 0, "xiDOWN", Some (cN 1));
  (38, 50, 1, 0, "xiDOWN", Some (cN (-1)));
  (40, 52, 1, 0, "xiDOWN", Some (cN (-1)));
  (41, 54, 1, 0, "xiDOWN", Some (cN 1));
  (42, 56, 1, 0, "xiDOWN", Some (cN (-1)));
  (47, 58, 1, 0, "xiDOWN", Some (cN 1));
  (51, 59, 1, 0, "xiDOWN", Some (cN 1));
  (53, 60, 1, 0, "xiDOWN", Some (cN (-1)));
  (55, 61, 1, 0, "xiDOWN", Some (cN 1));
  (57, 63, 1, 0, "xiDOWN", Some (cN (-1)));
  (62, 64, 1, 0, "xiDOWN", Some (cN 1));
  (1, 2, 2, 0, "xiDOWN", Some (cN 1));
  (3, 8, 2, 0, "xiDOWN", Some (cN 1));
  (4, 9, 2, 0, "xiDOWN", Some (cN 1));
  (5, 11, 2, 0, "xiDOWN", Some (cN 1));
  (6, 13, 2, 0, "xiDOWN", Some (cN 1));
  (7, 17, 2, 0, "xiDOWN", Some (cN 1));
  (10, 23, 2, 0, "xiDOWN", Some (cN 1));
  (12, 24, 2, 0, "xiDOWN", Some (cN 1));
  (14, 25, 2, 0, "xiDOWN", Some (cN 1));
  (15, 26, 2, 0, "xiDOWN", Some (cN 1));
  (16, 28, 2, 0, "xiDOWN", Some (cN 1));
  (18, 30, 2, 0, "xiDOWN", Some (cN 1));
  (19, 31, 2, 0, "xiDOWN", Some (cN 1));
  (20, 33, 2, 0, "xiDOWN", Some (cN 1));
  (21, 36, 2, 0, "xiDOWN", Some (cN 1));
  (22, 38, 2, 0, "xiDOWN", Some (cN 1));
  (27, 43, 2, 0, "xiDOWN", Some (cN 1));
  (29, 44, 2, 0, "xiDOWN", Some (cN 1));
  (32, 45, 2, 0, "xiDOWN", Some (cN 1));
  (34, 46, 2, 0, "xiDOWN", Some (cN 1));
  (35, 47, 2, 0, "xiDOWN", Some (cN 1));
  (37, 49, 2, 0, "xiDOWN", Some (cN 1));
  (39, 50, 2, 0, "xiDOWN", Some (cN 1));
  (40, 51, 2, 0, "xiDOWN", Some (cN 1));
  (41, 53, 2, 0, "xiDOWN", Some (cN 1));
  (42, 55, 2, 0, "xiDOWN", Some (cN 1));
  (48, 58, 2, 0, "xiDOWN", Some (cN 1));
  (52, 59, 2, 0, "xiDOWN", Some (cN 1));
  (54, 60, 2, 0, "xiDOWN", Some (cN 1));
  (56, 61, 2, 0, "xiDOWN", Some (cN 1));
  (57, 62, 2, 0, "xiDOWN", Some (cN 1));
  (63, 64, 2, 0, "xiDOWN", Some (cN 1))].
(** /repo/c++/symmetry/sym-QSZ-impl.hpp, make_matrix_polarized  *)
Definition qsz_3ch_m1_d : list diag_line := [
  (1, 0, "zetaUP half", Some (cN 0));
  (2, 0, "zetaUP half", Some (cN 0));
  (3, 0, "zetaUP half", Some (cN 0));
  (4, 0, "zetaUP half", Some (cN 0));
  (5, 0, "zetaUP half", Some (cN 0));
  (6, 0, "zetaUP half", Some (cN 0));
  (7, 0, "zetaUP half", Some (cN 1));
  (8, 0, "zetaUP half", Some (cN 0));
  (9, 0, "zetaUP half", Some (cN 0));
  (10, 0, "zetaUP half", Some (cN 0));
  (11, 0, "zetaUP half", Some (cN 0));
  (12, 0, "zetaUP half", Some (cN 0));
  (13, 0, "zetaUP half", Some (cN 0));
  (14, 0, "zetaUP half", Some (cN 0));
  (15, 0, "zetaUP half", Some (cN 0));
  (16, 0, "zetaUP half", Some (cN 0));
  (17, 0, "zetaUP half", Some (cN 1));
  (18, 0, "zetaUP half", Some (cN 1));
  (19, 0, "zetaUP half", Some (cN 1));
  (20, 0, "zetaUP half", Some (cN 0));
  (21, 0, "zetaUP half", Some (cN 1));
  (22, 0, "zetaUP half", Some (cN 1));
  (23, 0, "zetaUP half", Some (cN 0));
  (24, 0, "zetaUP half", Some (cN 0));
  (25, 0, "zetaUP half", Some (cN 0));
  (26, 0, "zetaUP half", Some (cN 0));
  (27, 0, "zetaUP half", Some (cN 0));
  (28, 0, "zetaUP half", Some (cN 0));
  (29, 0, "zetaUP half", Some (cN 0));
  (30, 0, "zetaUP half", Some (cN 1));
  (31, 0, "zetaUP half", Some (cN 1));
  (32, 0, "zetaUP half", Some (cN 1));
  (33, 0, "zetaUP half", Some (cN 0));
  (34, 0, "zetaUP half", Some (cN 0));
  (35, 0, "zetaUP half", Some (cN 0));
  (36, 0, "zetaUP half", Some (cN 1));
  (37, 0, "zetaUP half", Some (cN 1));
  (38, 0, "zetaUP half", Some (cN 1));
  (39, 0, "zetaUP half", Some (cN 1));
  (40, 0, "zetaUP half", Some (cN 1));
  (41, 0, "zetaUP half", Some (cN 1));
  (42, 0, "zetaUP half", Some (cN 1));
  (43, 0, "zetaUP half", Some (cN 0));
  (44, 0, "zetaUP half", Some (cN 0));
  (45, 0, "zetaUP half", Some (cN 1));
  (46, 0, "zetaUP half", Some (cN 0));
  (47, 0, "zetaUP half", Some (cN 0));
  (48, 0, "zetaUP half", Some (cN 0));
  (49, 0, "zetaUP half", Some (cN 1));
  (50, 0, "zetaUP half", Some (cN 1));
  (51, 0, "zetaUP half", Some (cN 1));
  (52, 0, "zetaUP half", Some (cN 1));
  (53, 0, "zetaUP half", Some (cN 1));
  (54, 0, "zetaUP half", Some (cN 1));
  (55, 0, "zetaUP half", Some (cN 1));
  (56, 0, "zetaUP half", Some (cN 1));
  (57, 0, "zetaUP half", Some (cN 1));
  (58, 0, "zetaUP half", Some (cN 0));
  (59, 0, "zetaUP half", Some (cN 1));
  (60, 0, "zetaUP half", Some (cN 1));
  (61, 0, "zetaUP half", Some (cN 1));
  (62, 0, "zetaUP half", Some (cN 1));
  (63, 0, "zetaUP half", Some (cN 1));
  (64, 0, "zetaUP half", Some (cN 1));
  (1, 1, "zetaUP half", Some (cN 0));
  (2, 1, "zetaUP half", Some (cN 0));
  (3, 1, "zetaUP half", Some (cN 0));
  (4, 1, "zetaUP half", Some (cN 0));
  (5, 1, "zetaUP half", Some (cN 0));
  (6, 1, "zetaUP half", Some (cN 1));
  (7, 1, "zetaUP half", Some (cN 0));
  (8, 1, "zetaUP half", Some (cN 0));
  (9, 1, "zetaUP half", Some (cN 0));
  (10, 1, "zetaUP half", Some (cN 0));
  (11, 1, "zetaUP half", Some (cN 0));
  (12, 1, "zetaUP half", Some (cN 0));
  (13, 1, "zetaUP half", Some (cN 1));
  (14, 1, "zetaUP half", Some (cN 1));
  (15, 1, "zetaUP half", Some (cN 0));
  (16, 1, "zetaUP half", Some (cN 1));
  (17, 1, "zetaUP half", Some (cN 0));
  (18, 1, "zetaUP half", Some (cN 0));
  (19, 1, "zetaUP half", Some (cN 0));
  (20, 1, "zetaUP half", Some (cN 1));
  (21, 1, "zetaUP half", Some (cN 0));
  (22, 1, "zetaUP half", Some (cN 1));
  (23, 1, "zetaUP half", Some (cN 0));
  (24, 1, "zetaUP half", Some (cN 0));
  (25, 1, "zetaUP half", Some (cN 1));
  (26, 1, "zetaUP half", Some (cN 0));
  (27, 1, "zetaUP half", Some (cN 0));
  (28, 1, "zetaUP half", Some (cN 1));
  (29, 1, "zetaUP half", Some (cN 1));
  (30, 1, "zetaUP half", Some (cN 0));
  (31, 1, "zetaUP half", Some (cN 0));
  (32, 1, "zetaUP half", Some (cN 0));
  (33, 1, "zetaUP half", Some (cN 1));
  (34, 1, "zetaUP half", Some (cN 1));
  (35, 1, "zetaUP half", Some (cN 1));
  (36, 1, "zetaUP half", Some (cN 0));
  (37, 1, "zetaUP half", Some (cN 0));
  (38, 1, "zetaUP half", Some (cN 1));
  (39, 1, "zetaUP half", Some (cN 1));
  (40, 1, "zetaUP half", Some (cN 0));
  (41, 1, "zetaUP half", Some (cN 1));
  (42, 1, "zetaUP half", Some (cN 1));
  (43, 1, "zetaUP half", Some (cN 0));
  (44, 1, "zetaUP half", Some (cN 1));
  (45, 1, "zetaUP half", Some (cN 0));
  (46, 1, "zetaUP half", Some (cN 1));
  (47, 1, "zetaUP half", Some (cN 1));
  (48, 1, "zetaUP half", Some (cN 1));
  (49, 1, "zetaUP half", Some (cN 0));
  (50, 1, "zetaUP half", Some (cN 1));
  (51, 1, "zetaUP half", Some (cN 0));
  (52, 1, "zetaUP half", Some (cN 0));
  (53, 1, "zetaUP half", Some (cN 1));
  (54, 1, "zetaUP half", Some (cN 1));
  (55, 1, "zetaUP half", Some (cN 1));
  (56, 1, "zetaUP half", Some (cN 1));
  (57, 1, "zetaUP half", Some (cN 1));
  (58, 1, "zetaUP half", Some (cN 1));
  (59, 1, "zetaUP half", Some (cN 0));
  (60, 1, "zetaUP half", Some (cN 1));
  (61, 1, "zetaUP half", Some (cN 1));
  (62, 1, "zetaUP half", Some (cN 1));
  (63, 1, "zetaUP half", Some (cN 1));
  (64, 1, "zetaUP half", Some (cN 1));
  (1, 2, "zetaUP half", Some (cN 0));
  (2, 2, "zetaUP half", Some (cN 0));
  (3, 2, "zetaUP half", Some (cN 0));
  (4, 2, "zetaUP half", Some (cN 0));
  (5, 2, "zetaUP half", Some (cN 1));
  (6, 2, "zetaUP half", Some (cN 0));
  (7, 2, "zetaUP half", Some (cN 0));
  (8, 2, "zetaUP half", Some (cN 0));
  (9, 2, "zetaUP half", Some (cN 0));
  (10, 2, "zetaUP half", Some (cN 0));
  (11, 2, "zetaUP half", Some (cN 1));
  (12, 2, "zetaUP half", Some (cN 1));
  (13, 2, "zetaUP half", Some (cN 0));
  (14, 2, "zetaUP half", Some (cN 0));
  (15, 2, "zetaUP half", Some (cN 1));
  (16, 2, "zetaUP half", Some (cN 0));
  (17, 2, "zetaUP half", Some (cN 0));
  (18, 2, "zetaUP half", Some (cN 0));
  (19, 2, "zetaUP half", Some (cN 0));
  (20, 2, "zetaUP half", Some (cN 1));
  (21, 2, "zetaUP half", Some (cN 1));
  (22, 2, "zetaUP half", Some (cN 0));
  (23, 2, "zetaUP half", Some (cN 0));
  (24, 2, "zetaUP half", Some (cN 1));
  (25, 2, "zetaUP half", Some (cN 0));
  (26, 2, "zetaUP half", Some (cN 1));
  (27, 2, "zetaUP half", Some (cN 1));
  (28, 2, "zetaUP half", Some (cN 0));
  (29, 2, "zetaUP half", Some (cN 0));
  (30, 2, "zetaUP half", Some (cN 0));
  (31, 2, "zetaUP half", Some (cN 0));
  (32, 2, "zetaUP half", Some (cN 0));
  (33, 2, "zetaUP half", Some (cN 1));
  (34, 2, "zetaUP half", Some (cN 1));
  (35, 2, "zetaUP half", Some (cN 1));
  (36, 2, "zetaUP half", Some (cN 1));
  (37, 2, "zetaUP half", Some (cN 1));
  (38, 2, "zetaUP half", Some (cN 0));
  (39, 2, "zetaUP half", Some (cN 0));
  (40, 2, "zetaUP half", Some (cN 1));
  (41, 2, "zetaUP half", Some (cN 0));
  (42, 2, "zetaUP half", Some (cN 1));
  (43, 2, "zetaUP half", Some (cN 1));
  (44, 2, "zetaUP half", Some (cN 0));
  (45, 2, "zetaUP half", Some (cN 0));
  (46, 2, "zetaUP half", Some (cN 1));
  (47, 2, "zetaUP half", Some (cN 1));
  (48, 2, "zetaUP half", Some (cN 1));
  (49, 2, "zetaUP half", Some (cN 1));
  (50, 2, "zetaUP half", Some (cN 0));
  (51, 2, "zetaUP half", Some (cN 1));
  (52, 2, "zetaUP half", Some (cN 1));
  (53, 2, "zetaUP half", Some (cN 0));
  (54, 2, "zetaUP half", Some (cN 0));
  (55, 2, "zetaUP half", Some (cN 1));
  (56, 2, "zetaUP half", Some (cN 1));
  (57, 2, "zetaUP half", Some (cN 1));
  (58, 2, "zetaUP half", Some (cN 1));
  (59, 2, "zetaUP half", Some (cN 1));
  (60, 2, "zetaUP half", Some (cN 0));
  (61, 2, "zetaUP half", Some (cN 1));
  (62, 2, "zetaUP half", Some (cN 1));
  (63, 2, "zetaUP half", Some (cN 1));
  (64, 2, "zetaUP half", Some (cN 1));
  (1, 0, "zetaDOWN half", Some (cN 0));
  (2, 0, "zetaDOWN half", Some (cN 0));
  (3, 0, "zetaDOWN half", Some (cN 0));
  (4, 0, "zetaDOWN half", Some (cN 1));
  (5, 0, "zetaDOWN half", Some (cN 0));
  (6, 0, "zetaDOWN half", Some (cN 0));
  (7, 0, "zetaDOWN half", Some (cN 0));
  (8, 0, "zetaDOWN half", Some (cN 0));
  (9, 0, "zetaDOWN half", Some (cN 1));
  (10, 0, "zetaDOWN half", Some (cN 1));
  (11, 0, "zetaDOWN half", Some (cN 0));
  (12, 0, "zetaDOWN half", Some (cN 0));
  (13, 0, "zetaDOWN half", Some (cN 0));
  (14, 0, "zetaDOWN half", Some (cN 0));
  (15, 0, "zetaDOWN half", Some (cN 1));
  (16, 0, "zetaDOWN half", Some (cN 1));
  (17, 0, "zetaDOWN half", Some (cN 0));
  (18, 0, "zetaDOWN half", Some (cN 0));
  (19, 0, "zetaDOWN half", Some (cN 1));
  (20, 0, "zetaDOWN half", Some (cN 0));
  (21, 0, "zetaDOWN half", Some (cN 0));
  (22, 0, "zetaDOWN half", Some (cN 0));
  (23, 0, "zetaDOWN half", Some (cN 1));
  (24, 0, "zetaDOWN half", Some (cN 0));
  (25, 0, "zetaDOWN half", Some (cN 0));
  (26, 0, "zetaDOWN half", Some (cN 1));
  (27, 0, "zetaDOWN half", Some (cN 1));
  (28, 0, "zetaDOWN half", Some (cN 1));
  (29, 0, "zetaDOWN half", Some (cN 1));
  (30, 0, "zetaDOWN half", Some (cN 0));
  (31, 0, "zetaDOWN half", Some (cN 1));
  (32, 0, "zetaDOWN half", Some (cN 1));
  (33, 0, "zetaDOWN half", Some (cN 0));
  (34, 0, "zetaDOWN half", Some (cN 0));
  (35, 0, "zetaDOWN half", Some (cN 1));
  (36, 0, "zetaDOWN half", Some (cN 0));
  (37, 0, "zetaDOWN half", Some (cN 0));
  (38, 0, "zetaDOWN half", Some (cN 0));
  (39, 0, "zetaDOWN half", Some (cN 0));
  (40, 0, "zetaDOWN half", Some (cN 1));
  (41, 0, "zetaDOWN half", Some (cN 1));
  (42, 0, "zetaDOWN half", Some (cN 0));
  (43, 0, "zetaDOWN half", Some (cN 1));
  (44, 0, "zetaDOWN half", Some (cN 1));
  (45, 0, "zetaDOWN half", Some (cN 1));
  (46, 0, "zetaDOWN half", Some (cN 0));
  (47, 0, "zetaDOWN half", Some (cN 1));
  (48, 0, "zetaDOWN half", Some (cN 1));
  (49, 0, "zetaDOWN half", Some (cN 0));
  (50, 0, "zetaDOWN half", Some (cN 0));
  (51, 0, "zetaDOWN half", Some (cN 1));
  (52, 0, "zetaDOWN half", Some (cN 1));
  (53, 0, "zetaDOWN half", Some (cN 1));
  (54, 0, "zetaDOWN half", Some (cN 1));
  (55, 0, "zetaDOWN half", Some (cN 0));
  (56, 0, "zetaDOWN half", Some (cN 0));
  (57, 0, "zetaDOWN half", Some (cN 1));
  (58, 0, "zetaDOWN half", Some (cN 1));
  (59, 0, "zetaDOWN half", Some (cN 1));
  (60, 0, "zetaDOWN half", Some (cN 1));
  (61, 0, "zetaDOWN half", Some (cN 0));
  (62, 0, "zetaDOWN half", Some (cN 1));
  (63, 0, "zetaDOWN half", Some (cN 1));
  (64, 0, "zetaDOWN half", Some (cN 1));
  (1, 1, "zetaDOWN half", Some (cN 0));
  (2, 1, "zetaDOWN half", Some (cN 0));
  (3, 1, "zetaDOWN half", Some (cN 1));
  (4, 1, "zetaDOWN half", Some (cN 0));
  (5, 1, "zetaDOWN half", Some (cN 0));
  (6, 1, "zetaDOWN half", Some (cN 0));
  (7, 1, "zetaDOWN half", Some (cN 0));
  (8, 1, "zetaDOWN half", Some (cN 1));
  (9, 1, "zetaDOWN half", Some (cN 0));
  (10, 1, "zetaDOWN half", Some (cN 1));
  (11, 1, "zetaDOWN half", Some (cN 0));
  (12, 1, "zetaDOWN half", Some (cN 1));
  (13, 1, "zetaDOWN half", Some (cN 0));
  (14, 1, "zetaDOWN half", Some (cN 1));
  (15, 1, "zetaDOWN half", Some (cN 0));
  (16, 1, "zetaDOWN half", Some (cN 0));
  (17, 1, "zetaDOWN half", Some (cN 0));
  (18, 1, "zetaDOWN half", Some (cN 1));
  (19, 1, "zetaDOWN half", Some (cN 0));
  (20, 1, "zetaDOWN half", Some (cN 0));
  (21, 1, "zetaDOWN half", Some (cN 0));
  (22, 1, "zetaDOWN half", Some (cN 0));
  (23, 1, "zetaDOWN half", Some (cN 1));
  (24, 1, "zetaDOWN half", Some (cN 1));
  (25, 1, "zetaDOWN half", Some (cN 1));
  (26, 1, "zetaDOWN half", Some (cN 0));
  (27, 1, "zetaDOWN half", Some (cN 1));
  (28, 1, "zetaDOWN half", Some (cN 0));
  (29, 1, "zetaDOWN half", Some (cN 1));
  (30, 1, "zetaDOWN half", Some (cN 1));
  (31, 1, "zetaDOWN half", Some (cN 0));
  (32, 1, "zetaDOWN half", Some (cN 1));
  (33, 1, "zetaDOWN half", Some (cN 0));
  (34, 1, "zetaDOWN half", Some (cN 1));
  (35, 1, "zetaDOWN half", Some (cN 0));
  (36, 1, "zetaDOWN half", Some (cN 0));
  (37, 1, "zetaDOWN half", Some (cN 1));
  (38, 1, "zetaDOWN half", Some (cN 0));
  (39, 1, "zetaDOWN half", Some (cN 1));
  (40, 1, "zetaDOWN half", Some (cN 0));
  (41, 1, "zetaDOWN half", Some (cN 0));
  (42, 1, "zetaDOWN half", Some (cN 0));
  (43, 1, "zetaDOWN half", Some (cN 1));
  (44, 1, "zetaDOWN half", Some (cN 1));
  (45, 1, "zetaDOWN half", Some (cN 1));
  (46, 1, "zetaDOWN half", Some (cN 1));
  (47, 1, "zetaDOWN half", Some (cN 0));
  (48, 1, "zetaDOWN half", Some (cN 1));
  (49, 1, "zetaDOWN half", Some (cN 1));
  (50, 1, "zetaDOWN half", Some (cN 1));
  (51, 1, "zetaDOWN half", Some (cN 0));
  (52, 1, "zetaDOWN half", Some (cN 1));
  (53, 1, "zetaDOWN half", Some (cN 0));
  (54, 1, "zetaDOWN half", Some (cN 1));
  (55, 1, "zetaDOWN half", Some (cN 0));
  (56, 1, "zetaDOWN half", Some (cN 1));
  (57, 1, "zetaDOWN half", Some (cN 0));
  (58, 1, "zetaDOWN half", Some (cN 1));
  (59, 1, "zetaDOWN half", Some (cN 1));
  (60, 1, "zetaDOWN half", Some (cN 1));
  (61, 1, "zetaDOWN half", Some (cN 1));
  (62, 1, "zetaDOWN half", Some (cN 0));
  (63, 1, "zetaDOWN half", Some (cN 1));
  (64, 1, "zetaDOWN half", Some (cN 1));
  (1, 2, "zetaDOWN half", Some (cN 0));
  (2, 2, "zetaDOWN half", Some (cN 1));
  (3, 2, "zetaDOWN half", Some (cN 0));
  (4, 2, "zetaDOWN half", Some (cN 0));
  (5, 2, "zetaDOWN half", Some (cN 0));
  (6, 2, "zetaDOWN half", Some (cN 0));
  (7, 2, "zetaDOWN half", Some (cN 0));
  (8, 2, "zetaDOWN half", Some (cN 1));
  (9, 2, "zetaDOWN half", Some (cN 1));
  (10, 2, "zetaDOWN half", Some (cN 0));
  (11, 2, "zetaDOWN half", Some (cN 1));
  (12, 2, "zetaDOWN half", Some (cN 0));
  (13, 2, "zetaDOWN half", Some (cN 1));
  (14, 2, "zetaDOWN half", Some (cN 0));
  (15, 2, "zetaDOWN half", Some (cN 0));
  (16, 2, "zetaDOWN half", Some (cN 0));
  (17, 2, "zetaDOWN half", Some (cN 1));
  (18, 2, "zetaDOWN half", Some (cN 0));
  (19, 2, "zetaDOWN half", Some (cN 0));
  (20, 2, "zetaDOWN half", Some (cN 0));
  (21, 2, "zetaDOWN half", Some (cN 0));
  (22, 2, "zetaDOWN half", Some (cN 0));
  (23, 2, "zetaDOWN half", Some (cN 1));
  (24, 2, "zetaDOWN half", Some (cN 1));
  (25, 2, "zetaDOWN half", Some (cN 1));
  (26, 2, "zetaDOWN half", Some (cN 1));
  (27, 2, "zetaDOWN half", Some (cN 0));
  (28, 2, "zetaDOWN half", Some (cN 1));
  (29, 2, "zetaDOWN half", Some (cN 0));
  (30, 2, "zetaDOWN half", Some (cN 1));
  (31, 2, "zetaDOWN half", Some (cN 1));
  (32, 2, "zetaDOWN half", Some (cN 0));
  (33, 2, "zetaDOWN half", Some (cN 1));
  (34, 2, "zetaDOWN half", Some (cN 0));
  (35, 2, "zetaDOWN half", Some (cN 0));
  (36, 2, "zetaDOWN half", Some (cN 1));
  (37, 2, "zetaDOWN half", Some (cN 0));
  (38, 2, "zetaDOWN half", Some (cN 1));
  (39, 2, "zetaDOWN half", Some (cN 0));
  (40, 2, "zetaDOWN half", Some (cN 0));
  (41, 2, "zetaDOWN half", Some (cN 0));
  (42, 2, "zetaDOWN half", Some (cN 0));
  (43, 2, "zetaDOWN half", Some (cN 1));
  (44, 2, "zetaDOWN half", Some (cN 1));
  (45, 2, "zetaDOWN half", Some (cN 1));
  (46, 2, "zetaDOWN half", Some (cN 1));
  (47, 2, "zetaDOWN half", Some (cN 1));
  (48, 2, "zetaDOWN half", Some (cN 0));
  (49, 2, "zetaDOWN half", Some (cN 1));
  (50, 2, "zetaDOWN half", Some (cN 1));
  (51, 2, "zetaDOWN half", Some (cN 1));
  (52, 2, "zetaDOWN half", Some (cN 0));
  (53, 2, "zetaDOWN half", Some (cN 1));
  (54, 2, "zetaDOWN half", Some (cN 0));
  (55, 2, "zetaDOWN half", Some (cN 1));
  (56, 2, "zetaDOWN half", Some (cN 0));
  (57, 2, "zetaDOWN half", Some (cN 0));
  (58, 2, "zetaDOWN half", Some (cN 1));
  (59, 2, "zetaDOWN half", Some (cN 1));
  (60, 2, "zetaDOWN half", Some (cN 1));
  (61, 2, "zetaDOWN half", Some (cN 1));
  (62, 2, "zetaDOWN half", Some (cN 1));
  (63, 2, "zetaDOWN half", Some (cN 0));
  (64, 2, "zetaDOWN half", Some (cN 1))].
(** /repo/c++/symmetry/sym-QSZ-impl.hpp, make_matrix_polarized  *)
Definition qsz_3ch_m1_f : list dof_line := [
  ].
Definition coef_qsz_3ch : coef_set := mk_coef "QSZ" 3%nat sym_QSZ {| tb_In := qsz_3ch_In; tb_QN := qsz_3ch_QN |}
  [qsz_3ch_t2; qsz_3ch_t3; qsz_3ch_t4; qsz_3ch_t5; qsz_3ch_t6; qsz_3ch_t7]
  [qsz_3ch_t0; qsz_3ch_t1; qsz_3ch_t8]
  [mk_mode "nonpolarized" qsz_3ch_m0_o qsz_3ch_m0_d qsz_3ch_m0_f;
   mk_mode "polarized" qsz_3ch_m1_o qsz_3ch_m1_d qsz_3ch_m1_f].
