(** Generated by gen/gen_coef.py from /repo/c++/symmetry/{sym-SPU1-impl.hpp, nrg-recalc-SPU1.hpp, coefnew}. Do not edit. *)
From Coq Require Import List ZArith String.
From Verif Require Import Base Invar_model Symmetry_model Symmetry_tables Coef_model.
Import ListNotations.
Local Open Scope string_scope.
Local Open Scope list_scope.
Local Open Scope Z_scope.


(** /repo/c++/symmetry/nrg-recalc-SPU1.hpp recalc_doublet, spu1/spu1-1ch-doubletp.dat *)
Definition spu1_1ch_t0 : ten_table := mk_ten "doublet" [ShLin 0%nat 1 1] [(-1)] [
  (1, 1, [ShLin 0%nat 1 1], [ShLin 0%nat 1 2], Some (cN (-1)));
  (2, 2, [ShLin 0%nat 1 0], [ShLin 0%nat 1 1], Some (cN 1));
  (3, 3, [ShLin 0%nat 1 0], [ShLin 0%nat 1 1], Some (cN 1));
  (4, 4, [ShLin 0%nat 1 (-1)], [ShLin 0%nat 1 0], Some (cN (-1)))].
(** /repo/c++/symmetry/nrg-recalc-SPU1.hpp recalc_doublet, spu1/spu1-1ch-doubletm.dat *)
Definition spu1_1ch_t1 : ten_table := mk_ten "doublet" [ShLin 0%nat 1 (-1)] [1] [
  (1, 1, [ShLin 0%nat 1 1], [ShLin 0%nat 1 0], Some (cN (-1)));
  (2, 2, [ShLin 0%nat 1 0], [ShLin 0%nat 1 (-1)], Some (cN 1));
  (3, 3, [ShLin 0%nat 1 0], [ShLin 0%nat 1 (-1)], Some (cN 1));
  (4, 4, [ShLin 0%nat 1 (-1)], [ShLin 0%nat 1 (-2)], Some (cN (-1)))].
(** /repo/c++/symmetry/nrg-recalc-SPU1.hpp recalc_irreduc, spu1/spu1-1ch-spinupa.dat *)
Definition spu1_1ch_t2 : irr_table := mk_irr 0 0 [ShLin 0%nat 1 1]  [
  (3, 1, Some (cN 1));
  (4, 2, Some (cN 1))].
(** /repo/c++/symmetry/nrg-recalc-SPU1.hpp recalc_irreduc, spu1/spu1-1ch-spindowna.dat *)
Definition spu1_1ch_t3 : irr_table := mk_irr 0 0 [ShLin 0%nat 1 (-1)]  [
  (1, 2, Some (cN 1));
  (3, 4, Some (cN (-1)))].
(** /repo/c++/symmetry/nrg-recalc-SPU1.hpp recalc_triplet, spu1/spu1-1ch-triplets.dat *)
Definition spu1_1ch_t4 : ten_table := mk_ten "triplet" [ShLin 0%nat 1 0] [0] [
  (1, 1, [ShLin 0%nat 1 1], [ShLin 0%nat 1 1], Some (cN 1));
  (2, 2, [ShLin 0%nat 1 0], [ShLin 0%nat 1 0], Some (cN 1));
  (3, 3, [ShLin 0%nat 1 0], [ShLin 0%nat 1 0], Some (cN 1));
  (4, 4, [ShLin 0%nat 1 (-1)], [ShLin 0%nat 1 (-1)], Some (cN 1))].
(** /repo/c++/symmetry/nrg-recalc-SPU1.hpp recalc_triplet, spu1/spu1-1ch-tripletp.dat *)
Definition spu1_1ch_t5 : ten_table := mk_ten "triplet" [ShLin 0%nat 1 2] [(-2)] [
  (1, 1, [ShLin 0%nat 1 1], [ShLin 0%nat 1 3], Some (cN 1));
  (2, 2, [ShLin 0%nat 1 0], [ShLin 0%nat 1 2], Some (cN 1));
  (3, 3, [ShLin 0%nat 1 0], [ShLin 0%nat 1 2], Some (cN 1));
  (4, 4, [ShLin 0%nat 1 (-1)], [ShLin 0%nat 1 1], Some (cN 1))].
(** /repo/c++/symmetry/nrg-recalc-SPU1.hpp recalc_triplet, spu1/spu1-1ch-tripletm.dat *)
Definition spu1_1ch_t6 : ten_table := mk_ten "triplet" [ShLin 0%nat 1 (-2)] [2] [
  (1, 1, [ShLin 0%nat 1 1], [ShLin 0%nat 1 (-1)], Some (cN 1));
  (2, 2, [ShLin 0%nat 1 0], [ShLin 0%nat 1 (-2)], Some (cN 1));
  (3, 3, [ShLin 0%nat 1 0], [ShLin 0%nat 1 (-2)], Some (cN 1));
  (4, 4, [ShLin 0%nat 1 (-1)], [ShLin 0%nat 1 (-3)], Some (cN 1))].
(** /repo/c++/symmetry/sym-SPU1-impl.hpp, make_matrix_nonpolarized if (!P.substeps) *)
Definition spu1_1ch_m0_o : list off_line := [
  (1, 3, 0, 0, "xi", Some (cN (-1)));
  (2, 1, 0, 0, "xi", Some (cN 1));
  (2, 4, 0, 0, "xi", Some (cN 1));
  (4, 3, 0, 0, "xi", Some (cN 1));
  (1, 2, 0, 0, "kappa", Some (cN (-1)));
  (3, 1, 0, 0, "kappa", Some (cN (-1)));
  (3, 4, 0, 0, "kappa", Some (cN (-1)));
  (4, 2, 0, 0, "kappa", Some (cN 1))].
(** /repo/c++/symmetry/sym-SPU1-impl.hpp, make_matrix_nonpolarized if (!P.substeps) *)
Definition spu1_1ch_m0_d : list diag_line := [
  (1, 0, "zeta", Some (cN 1));
  (2, 0, "zeta", Some (cN 0));
  (3, 0, "zeta", Some (cN 2));
  (4, 0, "zeta", Some (cN 1))].
(** /repo/c++/symmetry/sym-SPU1-impl.hpp, make_matrix_nonpolarized if (!P.substeps) *)
Definition spu1_1ch_m0_f : list dof_line := [
  (2, 3, 0, "2*delta", Some (cQ 1 2))].
(** /repo/c++/symmetry/sym-SPU1-impl.hpp, make_matrix_polarized  *)
Definition spu1_1ch_m1_o : list off_line := [
  (1, 3, 0, 0, "xiUP", Some (cN (-1)));
  (2, 4, 0, 0, "xiUP", Some (cN 1));
  (2, 1, 0, 0, "xiDOWN", Some (cN 1));
  (4, 3, 0, 0, "xiDOWN", Some (cN 1));
  (1, 2, 0, 0, "kappa", Some (cN (-1)));
  (3, 1, 0, 0, "kappa", Some (cN (-1)));
  (3, 4, 0, 0, "kappa", Some (cN (-1)));
  (4, 2, 0, 0, "kappa", Some (cN 1))].
(** /repo/c++/symmetry/sym-SPU1-impl.hpp, make_matrix_polarized  *)
Definition spu1_1ch_m1_d : list diag_line := [
  (1, 0, "zetaUP half", Some (cN 0));
  (2, 0, "zetaUP half", Some (cN 0));
  (3, 0, "zetaUP half", Some (cN 1));
  (4, 0, "zetaUP half", Some (cN 1));
  (1, 0, "zetaDOWN half", Some (cN 1));
  (2, 0, "zetaDOWN half", Some (cN 0));
  (3, 0, "zetaDOWN half", Some (cN 1));
  (4, 0, "zetaDOWN half", Some (cN 0))].
(** /repo/c++/symmetry/sym-SPU1-impl.hpp, make_matrix_polarized  *)
Definition spu1_1ch_m1_f : list dof_line := [
  (2, 3, 0, "2*delta", Some (cQ 1 2))].
Definition coef_spu1_1ch : coef_set := mk_coef "SPU1" 1%nat sym_SPU1 {| tb_In := spu1_1ch_In; tb_QN := spu1_1ch_QN |}
  [spu1_1ch_t2; spu1_1ch_t3]
  [spu1_1ch_t0; spu1_1ch_t1; spu1_1ch_t4; spu1_1ch_t5; spu1_1ch_t6]
  [mk_mode "nonpolarized" spu1_1ch_m0_o spu1_1ch_m0_d spu1_1ch_m0_f;
   mk_mode "polarized" spu1_1ch_m1_o spu1_1ch_m1_d spu1_1ch_m1_f].
(** /repo/c++/symmetry/nrg-recalc-SPU1.hpp recalc_doublet, spu1/spu1-2ch-doubletp.dat *)
Definition spu1_2ch_t0 : ten_table := mk_ten "doublet" [ShLin 0%nat 1 1] [(-1)] [
  (1, 1, [ShLin 0%nat 1 2], [ShLin 0%nat 1 3], Some (cN 1));
  (2, 2, [ShLin 0%nat 1 1], [ShLin 0%nat 1 2], Some (cN (-1)));
  (3, 3, [ShLin 0%nat 1 1], [ShLin 0%nat 1 2], Some (cN (-1)));
  (4, 4, [ShLin 0%nat 1 1], [ShLin 0%nat 1 2], Some (cN (-1)));
  (5, 5, [ShLin 0%nat 1 1], [ShLin 0%nat 1 2], Some (cN (-1)));
  (6, 6, [ShLin 0%nat 1 0], [ShLin 0%nat 1 1], Some (cN 1));
  (7, 7, [ShLin 0%nat 1 0], [ShLin 0%nat 1 1], Some (cN 1));
  (8, 8, [ShLin 0%nat 1 0], [ShLin 0%nat 1 1], Some (cN 1));
  (9, 9, [ShLin 0%nat 1 0], [ShLin 0%nat 1 1], Some (cN 1));
  (10, 10, [ShLin 0%nat 1 0], [ShLin 0%nat 1 1], Some (cN 1));
  (11, 11, [ShLin 0%nat 1 0], [ShLin 0%nat 1 1], Some (cN 1));
  (12, 12, [ShLin 0%nat 1 (-1)], [ShLin 0%nat 1 0], Some (cN (-1)));
  (13, 13, [ShLin 0%nat 1 (-1)], [ShLin 0%nat 1 0], Some (cN (-1)));
  (14, 14, [ShLin 0%nat 1 (-1)], [ShLin 0%nat 1 0], Some (cN (-1)));
  (15, 15, [ShLin 0%nat 1 (-1)], [ShLin 0%nat 1 0], Some (cN (-1)));
  (16, 16, [ShLin 0%nat 1 (-2)], [ShLin 0%nat 1 (-1)], Some (cN 1))].
(** /repo/c++/symmetry/nrg-recalc-SPU1.hpp recalc_doublet, spu1/spu1-2ch-doubletm.dat *)
Definition spu1_2ch_t1 : ten_table := mk_ten "doublet" [ShLin 0%nat 1 (-1)] [1] [
  (1, 1, [ShLin 0%nat 1 2], [ShLin 0%nat 1 1], Some (cN 1));
  (2, 2, [ShLin 0%nat 1 1], [ShLin 0%nat 1 0], Some (cN (-1)));
  (3, 3, [ShLin 0%nat 1 1], [ShLin 0%nat 1 0], Some (cN (-1)));
  (4, 4, [ShLin 0%nat 1 1], [ShLin 0%nat 1 0], Some (cN (-1)));
  (5, 5, [ShLin 0%nat 1 1], [ShLin 0%nat 1 0], Some (cN (-1)));
  (6, 6, [ShLin 0%nat 1 0], [ShLin 0%nat 1 (-1)], Some (cN 1));
  (7, 7, [ShLin 0%nat 1 0], [ShLin 0%nat 1 (-1)], Some (cN 1));
  (8, 8, [ShLin 0%nat 1 0], [ShLin 0%nat 1 (-1)], Some (cN 1));
  (9, 9, [ShLin 0%nat 1 0], [ShLin 0%nat 1 (-1)], Some (cN 1));
  (10, 10, [ShLin 0%nat 1 0], [ShLin 0%nat 1 (-1)], Some (cN 1));
  (11, 11, [ShLin 0%nat 1 0], [ShLin 0%nat 1 (-1)], Some (cN 1));
  (12, 12, [ShLin 0%nat 1 (-1)], [ShLin 0%nat 1 (-2)], Some (cN (-1)));
  (13, 13, [ShLin 0%nat 1 (-1)], [ShLin 0%nat 1 (-2)], Some (cN (-1)));
  (14, 14, [ShLin 0%nat 1 (-1)], [ShLin 0%nat 1 (-2)], Some (cN (-1)));
  (15, 15, [ShLin 0%nat 1 (-1)], [ShLin 0%nat 1 (-2)], Some (cN (-1)));
  (16, 16, [ShLin 0%nat 1 (-2)], [ShLin 0%nat 1 (-3)], Some (cN 1))].
(** /repo/c++/symmetry/nrg-recalc-SPU1.hpp recalc_irreduc, spu1/spu1-2ch-spinupa.dat *)
Definition spu1_2ch_t2 : irr_table := mk_irr 0 0 [ShLin 0%nat 1 1]  [
  (5, 1, Some (cN 1));
  (9, 2, Some (cN 1));
  (10, 3, Some (cN 1));
  (11, 4, Some (cN 1));
  (13, 6, Some (cN 1));
  (14, 7, Some (cN 1));
  (15, 8, Some (cN 1));
  (16, 12, Some (cN 1))].
(** /repo/c++/symmetry/nrg-recalc-SPU1.hpp recalc_irreduc, spu1/spu1-2ch-spinupb.dat *)
Definition spu1_2ch_t3 : irr_table := mk_irr 1 0 [ShLin 0%nat 1 1]  [
  (4, 1, Some (cN (-1)));
  (7, 2, Some (cN 1));
  (8, 3, Some (cN (-1)));
  (11, 5, Some (cN 1));
  (12, 6, Some (cN 1));
  (14, 9, Some (cN (-1)));
  (15, 10, Some (cN 1));
  (16, 13, Some (cN (-1)))].
(** /repo/c++/symmetry/nrg-recalc-SPU1.hpp recalc_irreduc, spu1/spu1-2ch-spindowna.dat *)
Definition spu1_2ch_t4 : irr_table := mk_irr 0 0 [ShLin 0%nat 1 (-1)]  [
  (1, 2, Some (cN 1));
  (3, 6, Some (cN 1));
  (4, 7, Some (cN 1));
  (5, 9, Some (cN (-1)));
  (8, 12, Some (cN 1));
  (10, 13, Some (cN (-1)));
  (11, 14, Some (cN (-1)));
  (15, 16, Some (cN (-1)))].
(** /repo/c++/symmetry/nrg-recalc-SPU1.hpp recalc_irreduc, spu1/spu1-2ch-spindownb.dat *)
Definition spu1_2ch_t5 : irr_table := mk_irr 1 0 [ShLin 0%nat 1 (-1)]  [
  (1, 3, Some (cN (-1)));
  (2, 6, Some (cN 1));
  (4, 8, Some (cN 1));
  (5, 10, Some (cN 1));
  (7, 12, Some (cN (-1)));
  (9, 13, Some (cN (-1)));
  (11, 15, Some (cN (-1)));
  (14, 16, Some (cN 1))].
(** /repo/c++/symmetry/nrg-recalc-SPU1.hpp recalc_triplet, spu1/spu1-2ch-triplets.dat *)
Definition spu1_2ch_t6 : ten_table := mk_ten "triplet" [ShLin 0%nat 1 0] [0] [
  (1, 1, [ShLin 0%nat 1 2], [ShLin 0%nat 1 2], Some (cN 1));
  (2, 2, [ShLin 0%nat 1 1], [ShLin 0%nat 1 1], Some (cN 1));
  (3, 3, [ShLin 0%nat 1 1], [ShLin 0%nat 1 1], Some (cN 1));
  (4, 4, [ShLin 0%nat 1 1], [ShLin 0%nat 1 1], Some (cN 1));
  (5, 5, [ShLin 0%nat 1 1], [ShLin 0%nat 1 1], Some (cN 1));
  (6, 6, [ShLin 0%nat 1 0], [ShLin 0%nat 1 0], Some (cN 1));
  (7, 7, [ShLin 0%nat 1 0], [ShLin 0%nat 1 0], Some (cN 1));
  (8, 8, [ShLin 0%nat 1 0], [ShLin 0%nat 1 0], Some (cN 1));
  (9, 9, [ShLin 0%nat 1 0], [ShLin 0%nat 1 0], Some (cN 1));
  (10, 10, [ShLin 0%nat 1 0], [ShLin 0%nat 1 0], Some (cN 1));
  (11, 11, [ShLin 0%nat 1 0], [ShLin 0%nat 1 0], Some (cN 1));
  (12, 12, [ShLin 0%nat 1 (-1)], [ShLin 0%nat 1 (-1)], Some (cN 1));
  (13, 13, [ShLin 0%nat 1 (-1)], [ShLin 0%nat 1 (-1)], Some (cN 1));
  (14, 14, [ShLin 0%nat 1 (-1)], [ShLin 0%nat 1 (-1)], Some (cN 1));
  (15, 15, [ShLin 0%nat 1 (-1)], [ShLin 0%nat 1 (-1)], Some (cN 1));
  (16, 16, [ShLin 0%nat 1 (-2)], [ShLin 0%nat 1 (-2)], Some (cN 1))].
(** /repo/c++/symmetry/nrg-recalc-SPU1.hpp recalc_triplet, spu1/spu1-2ch-tripletp.dat *)
Definition spu1_2ch_t7 : ten_table := mk_ten "triplet" [ShLin 0%nat 1 2] [(-2)] [
  (1, 1, [ShLin 0%nat 1 2], [ShLin 0%nat 1 4], Some (cN 1));
  (2, 2, [ShLin 0%nat 1 1], [ShLin 0%nat 1 3], Some (cN 1));
  (3, 3, [ShLin 0%nat 1 1], [ShLin 0%nat 1 3], Some (cN 1));
  (4, 4, [ShLin 0%nat 1 1], [ShLin 0%nat 1 3], Some (cN 1));
  (5, 5, [ShLin 0%nat 1 1], [ShLin 0%nat 1 3], Some (cN 1));
  (6, 6, [ShLin 0%nat 1 0], [ShLin 0%nat 1 2], Some (cN 1));
  (7, 7, [ShLin 0%nat 1 0], [ShLin 0%nat 1 2], Some (cN 1));
  (8, 8, [ShLin 0%nat 1 0], [ShLin 0%nat 1 2], Some (cN 1));
  (9, 9, [ShLin 0%nat 1 0], [ShLin 0%nat 1 2], Some (cN 1));
  (10, 10, [ShLin 0%nat 1 0], [ShLin 0%nat 1 2], Some (cN 1));
  (11, 11, [ShLin 0%nat 1 0], [ShLin 0%nat 1 2], Some (cN 1));
  (12, 12, [ShLin 0%nat 1 (-1)], [ShLin 0%nat 1 1], Some (cN 1));
  (13, 13, [ShLin 0%nat 1 (-1)], [ShLin 0%nat 1 1], Some (cN 1));
  (14, 14, [ShLin 0%nat 1 (-1)], [ShLin 0%nat 1 1], Some (cN 1));
  (15, 15, [ShLin 0%nat 1 (-1)], [ShLin 0%nat 1 1], Some (cN 1));
  (16, 16, [ShLin 0%nat 1 (-2)], [ShLin 0%nat 1 0], Some (cN 1))].
(** /repo/c++/symmetry/nrg-recalc-SPU1.hpp recalc_triplet, spu1/spu1-2ch-tripletm.dat *)
Definition spu1_2ch_t8 : ten_table := mk_ten "triplet" [ShLin 0%nat 1 (-2)] [2] [
  (1, 1, [ShLin 0%nat 1 2], [ShLin 0%nat 1 0], Some (cN 1));
  (2, 2, [ShLin 0%nat 1 1], [ShLin 0%nat 1 (-1)], Some (cN 1));
  (3, 3, [ShLin 0%nat 1 1], [ShLin 0%nat 1 (-1)], Some (cN 1));
  (4, 4, [ShLin 0%nat 1 1], [ShLin 0%nat 1 (-1)], Some (cN 1));
  (5, 5, [ShLin 0%nat 1 1], [ShLin 0%nat 1 (-1)], Some (cN 1));
  (6, 6, [ShLin 0%nat 1 0], [ShLin 0%nat 1 (-2)], Some (cN 1));
  (7, 7, [ShLin 0%nat 1 0], [ShLin 0%nat 1 (-2)], Some (cN 1));
  (8, 8, [ShLin 0%nat 1 0], [ShLin 0%nat 1 (-2)], Some (cN 1));
  (9, 9, [ShLin 0%nat 1 0], [ShLin 0%nat 1 (-2)], Some (cN 1));
  (10, 10, [ShLin 0%nat 1 0], [ShLin 0%nat 1 (-2)], Some (cN 1));
  (11, 11, [ShLin 0%nat 1 0], [ShLin 0%nat 1 (-2)], Some (cN 1));
  (12, 12, [ShLin 0%nat 1 (-1)], [ShLin 0%nat 1 (-3)], Some (cN 1));
  (13, 13, [ShLin 0%nat 1 (-1)], [ShLin 0%nat 1 (-3)], Some (cN 1));
  (14, 14, [ShLin 0%nat 1 (-1)], [ShLin 0%nat 1 (-3)], Some (cN 1));
  (15, 15, [ShLin 0%nat 1 (-1)], [ShLin 0%nat 1 (-3)], Some (cN 1));
  (16, 16, [ShLin 0%nat 1 (-2)], [ShLin 0%nat 1 (-4)], Some (cN 1))].
(** /repo/c++/symmetry/sym-SPU1-impl.hpp, make_matrix_nonpolarized if (!P.substeps) *)
Definition spu1_2ch_m0_o : list off_line := [
  (1, 5, 0, 0, "xi", Some (cN 1));
  (2, 1, 0, 0, "xi", Some (cN (-1)));
  (2, 9, 0, 0, "xi", Some (cN (-1)));
  (3, 10, 0, 0, "xi", Some (cN (-1)));
  (4, 11, 0, 0, "xi", Some (cN (-1)));
  (6, 3, 0, 0, "xi", Some (cN 1));
  (6, 13, 0, 0, "xi", Some (cN 1));
  (7, 4, 0, 0, "xi", Some (cN 1));
  (7, 14, 0, 0, "xi", Some (cN 1));
  (8, 15, 0, 0, "xi", Some (cN 1));
  (9, 5, 0, 0, "xi", Some (cN (-1)));
  (12, 8, 0, 0, "xi", Some (cN (-1)));
  (12, 16, 0, 0, "xi", Some (cN (-1)));
  (13, 10, 0, 0, "xi", Some (cN 1));
  (14, 11, 0, 0, "xi", Some (cN 1));
  (16, 15, 0, 0, "xi", Some (cN (-1)));
  (1, 4, 1, 0, "xi", Some (cN (-1)));
  (2, 7, 1, 0, "xi", Some (cN (-1)));
  (3, 1, 1, 0, "xi", Some (cN 1));
  (3, 8, 1, 0, "xi", Some (cN 1));
  (5, 11, 1, 0, "xi", Some (cN (-1)));
  (6, 2, 1, 0, "xi", Some (cN 1));
  (6, 12, 1, 0, "xi", Some (cN 1));
  (8, 4, 1, 0, "xi", Some (cN 1));
  (9, 14, 1, 0, "xi", Some (cN (-1)));
  (10, 5, 1, 0, "xi", Some (cN 1));
  (10, 15, 1, 0, "xi", Some (cN 1));
  (12, 7, 1, 0, "xi", Some (cN 1));
  (13, 9, 1, 0, "xi", Some (cN 1));
  (13, 16, 1, 0, "xi", Some (cN 1));
  (15, 11, 1, 0, "xi", Some (cN 1));
  (16, 14, 1, 0, "xi", Some (cN 1));
  (1, 2, 0, 0, "kappa", Some (cN 1));
  (3, 6, 0, 0, "kappa", Some (cN (-1)));
  (4, 7, 0, 0, "kappa", Some (cN (-1)));
  (5, 1, 0, 0, "kappa", Some (cN 1));
  (5, 9, 0, 0, "kappa", Some (cN 1));
  (8, 12, 0, 0, "kappa", Some (cN 1));
  (9, 2, 0, 0, "kappa", Some (cN (-1)));
  (10, 3, 0, 0, "kappa", Some (cN (-1)));
  (10, 13, 0, 0, "kappa", Some (cN (-1)));
  (11, 4, 0, 0, "kappa", Some (cN (-1)));
  (11, 14, 0, 0, "kappa", Some (cN (-1)));
  (13, 6, 0, 0, "kappa", Some (cN 1));
  (14, 7, 0, 0, "kappa", Some (cN 1));
  (15, 8, 0, 0, "kappa", Some (cN 1));
  (15, 16, 0, 0, "kappa", Some (cN 1));
  (16, 12, 0, 0, "kappa", Some (cN (-1)));
  (1, 3, 1, 0, "kappa", Some (cN (-1)));
  (2, 6, 1, 0, "kappa", Some (cN (-1)));
  (4, 1, 1, 0, "kappa", Some (cN (-1)));
  (4, 8, 1, 0, "kappa", Some (cN (-1)));
  (5, 10, 1, 0, "kappa", Some (cN (-1)));
  (7, 2, 1, 0, "kappa", Some (cN (-1)));
  (7, 12, 1, 0, "kappa", Some (cN (-1)));
  (8, 3, 1, 0, "kappa", Some (cN 1));
  (9, 13, 1, 0, "kappa", Some (cN (-1)));
  (11, 5, 1, 0, "kappa", Some (cN (-1)));
  (11, 15, 1, 0, "kappa", Some (cN (-1)));
  (12, 6, 1, 0, "kappa", Some (cN 1));
  (14, 9, 1, 0, "kappa", Some (cN (-1)));
  (14, 16, 1, 0, "kappa", Some (cN (-1)));
  (15, 10, 1, 0, "kappa", Some (cN 1));
  (16, 13, 1, 0, "kappa", Some (cN 1))].
(** /repo/c++/symmetry/sym-SPU1-impl.hpp, make_matrix_nonpolarized if (!P.substeps) *)
Definition spu1_2ch_m0_d : list diag_line := [
  (1, 0, "zeta", Some (cN 1));
  (2, 0, "zeta", Some (cN 0));
  (3, 0, "zeta", Some (cN 1));
  (4, 0, "zeta", Some (cN 1));
  (5, 0, "zeta", Some (cN 2));
  (6, 0, "zeta", Some (cN 0));
  (7, 0, "zeta", Some (cN 0));
  (8, 0, "zeta", Some (cN 1));
  (9, 0, "zeta", Some (cN 1));
  (10, 0, "zeta", Some (cN 2));
  (11, 0, "zeta", Some (cN 2));
  (12, 0, "zeta", Some (cN 0));
  (13, 0, "zeta", Some (cN 1));
  (14, 0, "zeta", Some (cN 1));
  (15, 0, "zeta", Some (cN 2));
  (16, 0, "zeta", Some (cN 1));
  (1, 1, "zeta", Some (cN 1));
  (2, 1, "zeta", Some (cN 1));
  (3, 1, "zeta", Some (cN 0));
  (4, 1, "zeta", Some (cN 2));
  (5, 1, "zeta", Some (cN 1));
  (6, 1, "zeta", Some (cN 0));
  (7, 1, "zeta", Some (cN 2));
  (8, 1, "zeta", Some (cN 1));
  (9, 1, "zeta", Some (cN 1));
  (10, 1, "zeta", Some (cN 0));
  (11, 1, "zeta", Some (cN 2));
  (12, 1, "zeta", Some (cN 1));
  (13, 1, "zeta", Some (cN 0));
  (14, 1, "zeta", Some (cN 2));
  (15, 1, "zeta", Some (cN 1));
  (16, 1, "zeta", Some (cN 1))].
(** /repo/c++/symmetry/sym-SPU1-impl.hpp, make_matrix_nonpolarized if (!P.substeps) *)
Definition spu1_2ch_m0_f : list dof_line := [
  (2, 5, 0, "2*delta", Some (cQ 1 2));
  (6, 10, 0, "2*delta", Some (cQ 1 2));
  (7, 11, 0, "2*delta", Some (cQ 1 2));
  (12, 15, 0, "2*delta", Some (cQ 1 2));
  (3, 4, 1, "2*delta", Some (cQ 1 2));
  (6, 7, 1, "2*delta", Some (cQ 1 2));
  (10, 11, 1, "2*delta", Some (cQ 1 2));
  (13, 14, 1, "2*delta", Some (cQ 1 2))].
(** /repo/c++/symmetry/sym-SPU1-impl.hpp, make_matrix_polarized  *)
Definition spu1_2ch_m1_o : list off_line := [
  (1, 5, 0, 0, "xiUP", Some (cN 1));
  (2, 9, 0, 0, "xiUP", Some (cN (-1)));
  (3, 10, 0, 0, "xiUP", Some (cN (-1)));
  (4, 11, 0, 0, "xiUP", Some (cN (-1)));
  (6, 13, 0, 0, "xiUP", Some (cN 1));
  (7, 14, 0, 0, "xiUP", Some (cN 1));
  (8, 15, 0, 0, "xiUP", Some (cN 1));
  (12, 16, 0, 0, "xiUP", Some (cN (-1)));
  (1, 4, 1, 0, "xiUP", Some (cN (-1)));
  (2, 7, 1, 0, "xiUP", Some (cN (-1)));
  (3, 8, 1, 0, "xiUP", Some (cN 1));
  (5, 11, 1, 0, "xiUP", Some (cN (-1)));
  (6, 12, 1, 0, "xiUP", Some (cN 1));
  (9, 14, 1, 0, "xiUP", Some (cN (-1)));
  (10, 15, 1, 0, "xiUP", Some (cN 1));
  (13, 16, 1, 0, "xiUP", Some (cN 1));
  (2, 1, 0, 0, "xiDOWN", Some (cN (-1)));
  (6, 3, 0, 0, "xiDOWN", Some (cN 1));
  (7, 4, 0, 0, "xiDOWN", Some (cN 1));
  (9, 5, 0, 0, "xiDOWN", Some (cN (-1)));
  (12, 8, 0, 0, "xiDOWN", Some (cN (-1)));
  (13, 10, 0, 0, "xiDOWN", Some (cN 1));
  (14, 11, 0, 0, "xiDOWN", Some (cN 1));
  (16, 15, 0, 0, "xiDOWN", Some (cN (-1)));
  (3, 1, 1, 0, "xiDOWN", Some (cN 1));
  (6, 2, 1, 0, "xiDOWN", Some (cN 1));
  (8, 4, 1, 0, "xiDOWN", Some (cN 1));
  (10, 5, 1, 0, "xiDOWN", Some (cN 1));
  (12, 7, 1, 0, "xiDOWN", Some (cN 1));
  (13, 9, 1, 0, "xiDOWN", Some (cN 1));
  (15, 11, 1, 0, "xiDOWN", Some (cN 1));
  (16, 14, 1, 0, "xiDOWN", Some (cN 1));
  (1, 2, 0, 0, "kappa", Some (cN 1));
  (3, 6, 0, 0, "kappa", Some (cN (-1)));
  (4, 7, 0, 0, "kappa", Some (cN (-1)));
  (5, 1, 0, 0, "kappa", Some (cN 1));
  (5, 9, 0, 0, "kappa", Some (cN 1));
  (8, 12, 0, 0, "kappa", Some (cN 1));
  (9, 2, 0, 0, "kappa", Some (cN (-1)));
  (10, 3, 0, 0, "kappa", Some (cN (-1)));
  (10, 13, 0, 0, "kappa", Some (cN (-1)));
  (11, 4, 0, 0, "kappa", Some (cN (-1)));
  (11, 14, 0, 0, "kappa", Some (cN (-1)));
  (13, 6, 0, 0, "kappa", Some (cN 1));
  (14, 7, 0, 0, "kappa", Some (cN 1));
  (15, 8, 0, 0, "kappa", Some (cN 1));
  (15, 16, 0, 0, "kappa", Some (cN 1));
  (16, 12, 0, 0, "kappa", Some (cN (-1)));
  (1, 3, 1, 0, "kappa", Some (cN (-1)));
  (2, 6, 1, 0, "kappa", Some (cN (-1)));
  (4, 1, 1, 0, "kappa", Some (cN (-1)));
  (4, 8, 1, 0, "kappa", Some (cN (-1)));
  (5, 10, 1, 0, "kappa", Some (cN (-1)));
  (7, 2, 1, 0, "kappa", Some (cN (-1)));
  (7, 12, 1, 0, "kappa", Some (cN (-1)));
  (8, 3, 1, 0, "kappa", Some (cN 1));
  (9, 13, 1, 0, "kappa", Some (cN (-1)));
  (11, 5, 1, 0, "kappa", Some (cN (-1)));
  (11, 15, 1, 0, "kappa", Some (cN (-1)));
  (12, 6, 1, 0, "kappa", Some (cN 1));
  (14, 9, 1, 0, "kappa", Some (cN (-1)));
  (14, 16, 1, 0, "kappa", Some (cN (-1)));
  (15, 10, 1, 0, "kappa", Some (cN 1));
  (16, 13, 1, 0, "kappa", Some (cN 1))].
(** /repo/c++/symmetry/sym-SPU1-impl.hpp, make_matrix_polarized  *)
Definition spu1_2ch_m1_d : list diag_line := [
  (1, 0, "zetaUP half", Some (cN 0));
  (2, 0, "zetaUP half", Some (cN 0));
  (3, 0, "zetaUP half", Some (cN 0));
  (4, 0, "zetaUP half", Some (cN 0));
  (5, 0, "zetaUP half", Some (cN 1));
  (6, 0, "zetaUP half", Some (cN 0));
  (7, 0, "zetaUP half", Some (cN 0));
  (8, 0, "zetaUP half", Some (cN 0));
  (9, 0, "zetaUP half", Some (cN 1));
  (10, 0, "zetaUP half", Some (cN 1));
  (11, 0, "zetaUP half", Some (cN 1));
  (12, 0, "zetaUP half", Some (cN 0));
  (13, 0, "zetaUP half", Some (cN 1));
  (14, 0, "zetaUP half", Some (cN 1));
  (15, 0, "zetaUP half", Some (cN 1));
  (16, 0, "zetaUP half", Some (cN 1));
  (1, 1, "zetaUP half", Some (cN 0));
  (2, 1, "zetaUP half", Some (cN 0));
  (3, 1, "zetaUP half", Some (cN 0));
  (4, 1, "zetaUP half", Some (cN 1));
  (5, 1, "zetaUP half", Some (cN 0));
  (6, 1, "zetaUP half", Some (cN 0));
  (7, 1, "zetaUP half", Some (cN 1));
  (8, 1, "zetaUP half", Some (cN 1));
  (9, 1, "zetaUP half", Some (cN 0));
  (10, 1, "zetaUP half", Some (cN 0));
  (11, 1, "zetaUP half", Some (cN 1));
  (12, 1, "zetaUP half", Some (cN 1));
  (13, 1, "zetaUP half", Some (cN 0));
  (14, 1, "zetaUP half", Some (cN 1));
  (15, 1, "zetaUP half", Some (cN 1));
  (16, 1, "zetaUP half", Some (cN 1));
  (1, 0, "zetaDOWN half", Some (cN 1));
  (2, 0, "zetaDOWN half", Some (cN 0));
  (3, 0, "zetaDOWN half", Some (cN 1));
  (4, 0, "zetaDOWN half", Some (cN 1));
  (5, 0, "zetaDOWN half", Some (cN 1));
  (6, 0, "zetaDOWN half", Some (cN 0));
  (7, 0, "zetaDOWN half", Some (cN 0));
  (8, 0, "zetaDOWN half", Some (cN 1));
  (9, 0, "zetaDOWN half", Some (cN 0));
  (10, 0, "zetaDOWN half", Some (cN 1));
  (11, 0, "zetaDOWN half", Some (cN 1));
  (12, 0, "zetaDOWN half", Some (cN 0));
  (13, 0, "zetaDOWN half", Some (cN 0));
  (14, 0, "zetaDOWN half", Some (cN 0));
  (15, 0, "zetaDOWN half", Some (cN 1));
  (16, 0, "zetaDOWN half", Some (cN 0));
  (1, 1, "zetaDOWN half", Some (cN 1));
  (2, 1, "zetaDOWN half", Some (cN 1));
  (3, 1, "zetaDOWN half", Some (cN 0));
  (4, 1, "zetaDOWN half", Some (cN 1));
  (5, 1, "zetaDOWN half", Some (cN 1));
  (6, 1, "zetaDOWN half", Some (cN 0));
  (7, 1, "zetaDOWN half", Some (cN 1));
  (8, 1, "zetaDOWN half", Some (cN 0));
  (9, 1, "zetaDOWN half", Some (cN 1));
  (10, 1, "zetaDOWN half", Some (cN 0));
  (11, 1, "zetaDOWN half", Some (cN 1));
  (12, 1, "zetaDOWN half", Some (cN 0));
  (13, 1, "zetaDOWN half", Some (cN 0));
  (14, 1, "zetaDOWN half", Some (cN 1));
  (15, 1, "zetaDOWN half", Some (cN 0));
  (16, 1, "zetaDOWN half", Some (cN 0))].
(** /repo/c++/symmetry/sym-SPU1-impl.hpp, make_matrix_polarized  *)
Definition spu1_2ch_m1_f : list dof_line := [
  (2, 5, 0, "2*delta", Some (cQ 1 2));
  (6, 10, 0, "2*delta", Some (cQ 1 2));
  (7, 11, 0, "2*delta", Some (cQ 1 2));
  (12, 15, 0, "2*delta", Some (cQ 1 2));
  (3, 4, 1, "2*delta", Some (cQ 1 2));
  (6, 7, 1, "2*delta", Some (cQ 1 2));
  (10, 11, 1, "2*delta", Some (cQ 1 2));
  (13, 14, 1, "2*delta", Some (cQ 1 2))].
Definition coef_spu1_2ch : coef_set := mk_coef "SPU1" 2%nat sym_SPU1 {| tb_In := spu1_2ch_In; tb_QN := spu1_2ch_QN |}
  [spu1_2ch_t2; spu1_2ch_t3; spu1_2ch_t4; spu1_2ch_t5]
  [spu1_2ch_t0; spu1_2ch_t1; spu1_2ch_t6; spu1_2ch_t7; spu1_2ch_t8]
  [mk_mode "nonpolarized" spu1_2ch_m0_o spu1_2ch_m0_d spu1_2ch_m0_f;
   mk_mode "polarized" spu1_2ch_m1_o spu1_2ch_m1_d spu1_2ch_m1_f].
