(** Generated by gen/gen_coef.py from /repo/c++/symmetry/{sym-DBLQSZ-impl.hpp, nrg-recalc-DBLQSZ.hpp, coefnew}. Do not edit. *)
From Coq Require Import List ZArith String.
From Verif Require Import Base Invar_model Symmetry_model Symmetry_tables Coef_model.
Import ListNotations.
Local Open Scope string_scope.
Local Open Scope list_scope.
Local Open Scope Z_scope.


(** /repo/c++/symmetry/nrg-recalc-DBLQSZ.hpp recalc_doublet, dblqsz/dblqsz-2ch-doubletm0p.dat *)
Definition dblqsz_2ch_t0 : ten_table := mk_ten "doublet" [ShLin 0%nat 1 (-1); ShLin 1%nat 1 0; ShLin 2%nat 1 1] [1; 0; (-1)] [
  (1, 1, [ShLin 0%nat 1 1; ShLin 1%nat 1 1; ShLin 2%nat 1 0], [ShLin 0%nat 1 0; ShLin 1%nat 1 1; ShLin 2%nat 1 1], Some (cN 1));
  (2, 2, [ShLin 0%nat 1 1; ShLin 1%nat 1 0; ShLin 2%nat 1 1], [ShLin 0%nat 1 0; ShLin 1%nat 1 0; ShLin 2%nat 1 2], Some (cN (-1)));
  (3, 3, [ShLin 0%nat 1 1; ShLin 1%nat 1 0; ShLin 2%nat 1 (-1)], [ShLin 0%nat 1 0; ShLin 1%nat 1 0; ShLin 2%nat 1 0], Some (cN (-1)));
  (4, 4, [ShLin 0%nat 1 1; ShLin 1%nat 1 (-1); ShLin 2%nat 1 0], [ShLin 0%nat 1 0; ShLin 1%nat 1 (-1); ShLin 2%nat 1 1], Some (cN 1));
  (5, 5, [ShLin 0%nat 1 0; ShLin 1%nat 1 1; ShLin 2%nat 1 1], [ShLin 0%nat 1 (-1); ShLin 1%nat 1 1; ShLin 2%nat 1 2], Some (cN (-1)));
  (6, 6, [ShLin 0%nat 1 0; ShLin 1%nat 1 1; ShLin 2%nat 1 (-1)], [ShLin 0%nat 1 (-1); ShLin 1%nat 1 1; ShLin 2%nat 1 0], Some (cN (-1)));
  (7, 7, [ShLin 0%nat 1 0; ShLin 1%nat 1 0; ShLin 2%nat 1 2], [ShLin 0%nat 1 (-1); ShLin 1%nat 1 0; ShLin 2%nat 1 3], Some (cN 1));
  (8, 8, [ShLin 0%nat 1 0; ShLin 1%nat 1 0; ShLin 2%nat 1 0], [ShLin 0%nat 1 (-1); ShLin 1%nat 1 0; ShLin 2%nat 1 1], Some (cN 1));
  (9, 9, [ShLin 0%nat 1 0; ShLin 1%nat 1 0; ShLin 2%nat 1 0], [ShLin 0%nat 1 (-1); ShLin 1%nat 1 0; ShLin 2%nat 1 1], Some (cN 1));
  (10, 10, [ShLin 0%nat 1 0; ShLin 1%nat 1 0; ShLin 2%nat 1 (-2)], [ShLin 0%nat 1 (-1); ShLin 1%nat 1 0; ShLin 2%nat 1 (-1)], Some (cN 1));
  (11, 11, [ShLin 0%nat 1 0; ShLin 1%nat 1 (-1); ShLin 2%nat 1 1], [ShLin 0%nat 1 (-1); ShLin 1%nat 1 (-1); ShLin 2%nat 1 2], Some (cN (-1)));
  (12, 12, [ShLin 0%nat 1 0; ShLin 1%nat 1 (-1); ShLin 2%nat 1 (-1)], [ShLin 0%nat 1 (-1); ShLin 1%nat 1 (-1); ShLin 2%nat 1 0], Some (cN (-1)));
  (13, 13, [ShLin 0%nat 1 (-1); ShLin 1%nat 1 1; ShLin 2%nat 1 0], [ShLin 0%nat 1 (-2); ShLin 1%nat 1 1; ShLin 2%nat 1 1], Some (cN 1));
  (14, 14, [ShLin 0%nat 1 (-1); ShLin 1%nat 1 0; ShLin 2%nat 1 1], [ShLin 0%nat 1 (-2); ShLin 1%nat 1 0; ShLin 2%nat 1 2], Some (cN (-1)));
  (15, 15, [ShLin 0%nat 1 (-1); ShLin 1%nat 1 0; ShLin 2%nat 1 (-1)], [ShLin 0%nat 1 (-2); ShLin 1%nat 1 0; ShLin 2%nat 1 0], Some (cN (-1)));
  (16, 16, [ShLin 0%nat 1 (-1); ShLin 1%nat 1 (-1); ShLin 2%nat 1 0], [ShLin 0%nat 1 (-2); ShLin 1%nat 1 (-1); ShLin 2%nat 1 1], Some (cN 1))].
(** /repo/c++/symmetry/nrg-recalc-DBLQSZ.hpp recalc_doublet, dblqsz/dblqsz-2ch-doubletm0m.dat *)
Definition dblqsz_2ch_t1 : ten_table := mk_ten "doublet" [ShLin 0%nat 1 (-1); ShLin 1%nat 1 0; ShLin 2%nat 1 (-1)] [1; 0; 1] [
  (1, 1, [ShLin 0%nat 1 1; ShLin 1%nat 1 1; ShLin 2%nat 1 0], [ShLin 0%nat 1 0; ShLin 1%nat 1 1; ShLin 2%nat 1 (-1)], Some (cN 1));
  (2, 2, [ShLin 0%nat 1 1; ShLin 1%nat 1 0; ShLin 2%nat 1 1], [ShLin 0%nat 1 0; ShLin 1%nat 1 0; ShLin 2%nat 1 0], Some (cN (-1)));
  (3, 3, [ShLin 0%nat 1 1; ShLin 1%nat 1 0; ShLin 2%nat 1 (-1)], [ShLin 0%nat 1 0; ShLin 1%nat 1 0; ShLin 2%nat 1 (-2)], Some (cN (-1)));
  (4, 4, [ShLin 0%nat 1 1; ShLin 1%nat 1 (-1); ShLin 2%nat 1 0], [ShLin 0%nat 1 0; ShLin 1%nat 1 (-1); ShLin 2%nat 1 (-1)], Some (cN 1));
  (5, 5, [ShLin 0%nat 1 0; ShLin 1%nat 1 1; ShLin 2%nat 1 1], [ShLin 0%nat 1 (-1); ShLin 1%nat 1 1; ShLin 2%nat 1 0], Some (cN (-1)));
  (6, 6, [ShLin 0%nat 1 0; ShLin 1%nat 1 1; ShLin 2%nat 1 (-1)], [ShLin 0%nat 1 (-1); ShLin 1%nat 1 1; ShLin 2%nat 1 (-2)], Some (cN (-1)));
  (7, 7, [ShLin 0%nat 1 0; ShLin 1%nat 1 0; ShLin 2%nat 1 2], [ShLin 0%nat 1 (-1); ShLin 1%nat 1 0; ShLin 2%nat 1 1], Some (cN 1));
  (8, 8, [ShLin 0%nat 1 0; ShLin 1%nat 1 0; ShLin 2%nat 1 0], [ShLin 0%nat 1 (-1); ShLin 1%nat 1 0; ShLin 2%nat 1 (-1)], Some (cN 1));
  (9, 9, [ShLin 0%nat 1 0; ShLin 1%nat 1 0; ShLin 2%nat 1 0], [ShLin 0%nat 1 (-1); ShLin 1%nat 1 0; ShLin 2%nat 1 (-1)], Some (cN 1));
  (10, 10, [ShLin 0%nat 1 0; ShLin 1%nat 1 0; ShLin 2%nat 1 (-2)], [ShLin 0%nat 1 (-1); ShLin 1%nat 1 0; ShLin 2%nat 1 (-3)], Some (cN 1));
  (11, 11, [ShLin 0%nat 1 0; ShLin 1%nat 1 (-1); ShLin 2%nat 1 1], [ShLin 0%nat 1 (-1); ShLin 1%nat 1 (-1); ShLin 2%nat 1 0], Some (cN (-1)));
  (12, 12, [ShLin 0%nat 1 0; ShLin 1%nat 1 (-1); ShLin 2%nat 1 (-1)], [ShLin 0%nat 1 (-1); ShLin 1%nat 1 (-1); ShLin 2%nat 1 (-2)], Some (cN (-1)));
  (13, 13, [ShLin 0%nat 1 (-1); ShLin 1%nat 1 1; ShLin 2%nat 1 0], [ShLin 0%nat 1 (-2); ShLin 1%nat 1 1; ShLin 2%nat 1 (-1)], Some (cN 1));
  (14, 14, [ShLin 0%nat 1 (-1); ShLin 1%nat 1 0; ShLin 2%nat 1 1], [ShLin 0%nat 1 (-2); ShLin 1%nat 1 0; ShLin 2%nat 1 0], Some (cN (-1)));
  (15, 15, [ShLin 0%nat 1 (-1); ShLin 1%nat 1 0; ShLin 2%nat 1 (-1)], [ShLin 0%nat 1 (-2); ShLin 1%nat 1 0; ShLin 2%nat 1 (-2)], Some (cN (-1)));
  (16, 16, [ShLin 0%nat 1 (-1); ShLin 1%nat 1 (-1); ShLin 2%nat 1 0], [ShLin 0%nat 1 (-2); ShLin 1%nat 1 (-1); ShLin 2%nat 1 (-1)], Some (cN 1))].
(** /repo/c++/symmetry/nrg-recalc-DBLQSZ.hpp recalc_doublet, dblqsz/dblqsz-2ch-doublet0mp.dat *)
Definition dblqsz_2ch_t2 : ten_table := mk_ten "doublet" [ShLin 0%nat 1 0; ShLin 1%nat 1 (-1); ShLin 2%nat 1 1] [0; 1; (-1)] [
  (1, 1, [ShLin 0%nat 1 1; ShLin 1%nat 1 1; ShLin 2%nat 1 0], [ShLin 0%nat 1 1; ShLin 1%nat 1 0; ShLin 2%nat 1 1], Some (cN 1));
  (2, 2, [ShLin 0%nat 1 1; ShLin 1%nat 1 0; ShLin 2%nat 1 1], [ShLin 0%nat 1 1; ShLin 1%nat 1 (-1); ShLin 2%nat 1 2], Some (cN (-1)));
  (3, 3, [ShLin 0%nat 1 1; ShLin 1%nat 1 0; ShLin 2%nat 1 (-1)], [ShLin 0%nat 1 1; ShLin 1%nat 1 (-1); ShLin 2%nat 1 0], Some (cN (-1)));
  (4, 4, [ShLin 0%nat 1 1; ShLin 1%nat 1 (-1); ShLin 2%nat 1 0], [ShLin 0%nat 1 1; ShLin 1%nat 1 (-2); ShLin 2%nat 1 1], Some (cN 1));
  (5, 5, [ShLin 0%nat 1 0; ShLin 1%nat 1 1; ShLin 2%nat 1 1], [ShLin 0%nat 1 0; ShLin 1%nat 1 0; ShLin 2%nat 1 2], Some (cN (-1)));
  (6, 6, [ShLin 0%nat 1 0; ShLin 1%nat 1 1; ShLin 2%nat 1 (-1)], [ShLin 0%nat 1 0; ShLin 1%nat 1 0; ShLin 2%nat 1 0], Some (cN (-1)));
  (7, 7, [ShLin 0%nat 1 0; ShLin 1%nat 1 0; ShLin 2%nat 1 2], [ShLin 0%nat 1 0; ShLin 1%nat 1 (-1); ShLin 2%nat 1 3], Some (cN 1));
  (8, 8, [ShLin 0%nat 1 0; ShLin 1%nat 1 0; ShLin 2%nat 1 0], [ShLin 0%nat 1 0; ShLin 1%nat 1 (-1); ShLin 2%nat 1 1], Some (cN 1));
  (9, 9, [ShLin 0%nat 1 0; ShLin 1%nat 1 0; ShLin 2%nat 1 0], [ShLin 0%nat 1 0; ShLin 1%nat 1 (-1); ShLin 2%nat 1 1], Some (cN 1));
  (10, 10, [ShLin 0%nat 1 0; ShLin 1%nat 1 0; ShLin 2%nat 1 (-2)], [ShLin 0%nat 1 0; ShLin 1%nat 1 (-1); ShLin 2%nat 1 (-1)], Some (cN 1));
  (11, 11, [ShLin 0%nat 1 0; ShLin 1%nat 1 (-1); ShLin 2%nat 1 1], [ShLin 0%nat 1 0; ShLin 1%nat 1 (-2); ShLin 2%nat 1 2], Some (cN (-1)));
  (12, 12, [ShLin 0%nat 1 0; ShLin 1%nat 1 (-1); ShLin 2%nat 1 (-1)], [ShLin 0%nat 1 0; ShLin 1%nat 1 (-2); ShLin 2%nat 1 0], Some (cN (-1)));
  (13, 13, [ShLin 0%nat 1 (-1); ShLin 1%nat 1 1; ShLin 2%nat 1 0], [ShLin 0%nat 1 (-1); ShLin 1%nat 1 0; ShLin 2%nat 1 1], Some (cN 1));
  (14, 14, [ShLin 0%nat 1 (-1); ShLin 1%nat 1 0; ShLin 2%nat 1 1], [ShLin 0%nat 1 (-1); ShLin 1%nat 1 (-1); ShLin 2%nat 1 2], Some (cN (-1)));
  (15, 15, [ShLin 0%nat 1 (-1); ShLin 1%nat 1 0; ShLin 2%nat 1 (-1)], [ShLin 0%nat 1 (-1); ShLin 1%nat 1 (-1); ShLin 2%nat 1 0], Some (cN (-1)));
  (16, 16, [ShLin 0%nat 1 (-1); ShLin 1%nat 1 (-1); ShLin 2%nat 1 0], [ShLin 0%nat 1 (-1); ShLin 1%nat 1 (-2); ShLin 2%nat 1 1], Some (cN 1))].
(** /repo/c++/symmetry/nrg-recalc-DBLQSZ.hpp recalc_doublet, dblqsz/dblqsz-2ch-doublet0mm.dat *)
Definition dblqsz_2ch_t3 : ten_table := mk_ten "doublet" [ShLin 0%nat 1 0; ShLin 1%nat 1 (-1); ShLin 2%nat 1 (-1)] [0; 1; 1] [
  (1, 1, [ShLin 0%nat 1 1; ShLin 1%nat 1 1; ShLin 2%nat 1 0], [ShLin 0%nat 1 1; ShLin 1%nat 1 0; ShLin 2%nat 1 (-1)], Some (cN 1));
  (2, 2, [ShLin 0%nat 1 1; ShLin 1%nat 1 0; ShLin 2%nat 1 1], [ShLin 0%nat 1 1; ShLin 1%nat 1 (-1); ShLin 2%nat 1 0], Some (cN (-1)));
  (3, 3, [ShLin 0%nat 1 1; ShLin 1%nat 1 0; ShLin 2%nat 1 (-1)], [ShLin 0%nat 1 1; ShLin 1%nat 1 (-1); ShLin 2%nat 1 (-2)], Some (cN (-1)));
  (4, 4, [ShLin 0%nat 1 1; ShLin 1%nat 1 (-1); ShLin 2%nat 1 0], [ShLin 0%nat 1 1; ShLin 1%nat 1 (-2); ShLin 2%nat 1 (-1)], Some (cN 1));
  (5, 5, [ShLin 0%nat 1 0; ShLin 1%nat 1 1; ShLin 2%nat 1 1], [ShLin 0%nat 1 0; ShLin 1%nat 1 0; ShLin 2%nat 1 0], Some (cN (-1)));
  (6, 6, [ShLin 0%nat 1 0; ShLin 1%nat 1 1; ShLin 2%nat 1 (-1)], [ShLin 0%nat 1 0; ShLin 1%nat 1 0; ShLin 2%nat 1 (-2)], Some (cN (-1)));
  (7, 7, [ShLin 0%nat 1 0; ShLin 1%nat 1 0; ShLin 2%nat 1 2], [ShLin 0%nat 1 0; ShLin 1%nat 1 (-1); ShLin 2%nat 1 1], Some (cN 1));
  (8, 8, [ShLin 0%nat 1 0; ShLin 1%nat 1 0; ShLin 2%nat 1 0], [ShLin 0%nat 1 0; ShLin 1%nat 1 (-1); ShLin 2%nat 1 (-1)], Some (cN 1));
  (9, 9, [ShLin 0%nat 1 0; ShLin 1%nat 1 0; ShLin 2%nat 1 0], [ShLin 0%nat 1 0; ShLin 1%nat 1 (-1); ShLin 2%nat 1 (-1)], Some (cN 1));
  (10, 10, [ShLin 0%nat 1 0; ShLin 1%nat 1 0; ShLin 2%nat 1 (-2)], [ShLin 0%nat 1 0; ShLin 1%nat 1 (-1); ShLin 2%nat 1 (-3)], Some (cN 1));
  (11, 11, [ShLin 0%nat 1 0; ShLin 1%nat 1 (-1); ShLin 2%nat 1 1], [ShLin 0%nat 1 0; ShLin 1%nat 1 (-2); ShLin 2%nat 1 0], Some (cN (-1)));
  (12, 12, [ShLin 0%nat 1 0; ShLin 1%nat 1 (-1); ShLin 2%nat 1 (-1)], [ShLin 0%nat 1 0; ShLin 1%nat 1 (-2); ShLin 2%nat 1 (-2)], Some (cN (-1)));
  (13, 13, [ShLin 0%nat 1 (-1); ShLin 1%nat 1 1; ShLin 2%nat 1 0], [ShLin 0%nat 1 (-1); ShLin 1%nat 1 0; ShLin 2%nat 1 (-1)], Some (cN 1));
  (14, 14, [ShLin 0%nat 1 (-1); ShLin 1%nat 1 0; ShLin 2%nat 1 1], [ShLin 0%nat 1 (-1); ShLin 1%nat 1 (-1); ShLin 2%nat 1 0], Some (cN (-1)));
  (15, 15, [ShLin 0%nat 1 (-1); ShLin 1%nat 1 0; ShLin 2%nat 1 (-1)], [ShLin 0%nat 1 (-1); ShLin 1%nat 1 (-1); ShLin 2%nat 1 (-2)], Some (cN (-1)));
  (16, 16, [ShLin 0%nat 1 (-1); ShLin 1%nat 1 (-1); ShLin 2%nat 1 0], [ShLin 0%nat 1 (-1); ShLin 1%nat 1 (-2); ShLin 2%nat 1 (-1)], Some (cN 1))].
(** /repo/c++/symmetry/nrg-recalc-DBLQSZ.hpp recalc_irreduc, dblqsz/dblqsz-2ch-spinup-a.dat *)
Definition dblqsz_2ch_t4 : irr_table := mk_irr 0 0 [ShLin 0%nat 1 1; ShLin 1%nat 1 0; ShLin 2%nat 1 1]  [
  (6, 1, Some (cN 1));
  (9, 2, Some (cN 1));
  (10, 3, Some (cN 1));
  (12, 4, Some (cN 1));
  (13, 5, Some (cN 1));
  (14, 7, Some (cN 1));
  (15, 8, Some (cN 1));
  (16, 11, Some (cN 1))].
(** /repo/c++/symmetry/nrg-recalc-DBLQSZ.hpp recalc_irreduc, dblqsz/dblqsz-2ch-spindown-a.dat *)
Definition dblqsz_2ch_t5 : irr_table := mk_irr 0 0 [ShLin 0%nat 1 1; ShLin 1%nat 1 0; ShLin 2%nat 1 (-1)]  [
  (5, 1, Some (cN 1));
  (7, 2, Some (cN 1));
  (8, 3, Some (cN 1));
  (11, 4, Some (cN 1));
  (13, 6, Some (cN (-1)));
  (14, 9, Some (cN (-1)));
  (15, 10, Some (cN (-1)));
  (16, 12, Some (cN (-1)))].
(** /repo/c++/symmetry/nrg-recalc-DBLQSZ.hpp recalc_irreduc, dblqsz/dblqsz-2ch-spinup-b.dat *)
Definition dblqsz_2ch_t6 : irr_table := mk_irr 1 0 [ShLin 0%nat 1 0; ShLin 1%nat 1 1; ShLin 2%nat 1 1]  [
  (3, 1, Some (cN 1));
  (4, 2, Some (cN 1));
  (8, 5, Some (cN (-1)));
  (10, 6, Some (cN (-1)));
  (11, 7, Some (cN (-1)));
  (12, 9, Some (cN (-1)));
  (15, 13, Some (cN 1));
  (16, 14, Some (cN 1))].
(** /repo/c++/symmetry/nrg-recalc-DBLQSZ.hpp recalc_irreduc, dblqsz/dblqsz-2ch-spindown-b.dat *)
Definition dblqsz_2ch_t7 : irr_table := mk_irr 1 0 [ShLin 0%nat 1 0; ShLin 1%nat 1 1; ShLin 2%nat 1 (-1)]  [
  (2, 1, Some (cN 1));
  (4, 3, Some (cN (-1)));
  (7, 5, Some (cN (-1)));
  (9, 6, Some (cN (-1)));
  (11, 8, Some (cN 1));
  (12, 10, Some (cN 1));
  (14, 13, Some (cN 1));
  (16, 15, Some (cN (-1)))].
(** /repo/c++/symmetry/sym-DBLQSZ-impl.hpp, make_matrix  *)
Definition dblqsz_2ch_m0_o : list off_line := [
  (1, 5, 0, 0, "xi", Some (cN 1));
  (1, 6, 0, 0, "xi", Some (cN 1));
  (2, 7, 0, 0, "xi", Some (cN (-1)));
  (2, 9, 0, 0, "xi", Some (cN (-1)));
  (3, 8, 0, 0, "xi", Some (cN (-1)));
  (3, 10, 0, 0, "xi", Some (cN (-1)));
  (4, 11, 0, 0, "xi", Some (cN 1));
  (4, 12, 0, 0, "xi", Some (cN 1));
  (5, 13, 0, 0, "xi", Some (cN (-1)));
  (6, 13, 0, 0, "xi", Some (cN 1));
  (7, 14, 0, 0, "xi", Some (cN 1));
  (8, 15, 0, 0, "xi", Some (cN 1));
  (9, 14, 0, 0, "xi", Some (cN (-1)));
  (10, 15, 0, 0, "xi", Some (cN (-1)));
  (11, 16, 0, 0, "xi", Some (cN (-1)));
  (12, 16, 0, 0, "xi", Some (cN 1));
  (1, 2, 1, 0, "xi", Some (cN 1));
  (1, 3, 1, 0, "xi", Some (cN 1));
  (2, 4, 1, 0, "xi", Some (cN (-1)));
  (3, 4, 1, 0, "xi", Some (cN 1));
  (5, 7, 1, 0, "xi", Some (cN 1));
  (5, 8, 1, 0, "xi", Some (cN 1));
  (6, 9, 1, 0, "xi", Some (cN 1));
  (6, 10, 1, 0, "xi", Some (cN 1));
  (7, 11, 1, 0, "xi", Some (cN (-1)));
  (8, 11, 1, 0, "xi", Some (cN 1));
  (9, 12, 1, 0, "xi", Some (cN (-1)));
  (10, 12, 1, 0, "xi", Some (cN 1));
  (13, 14, 1, 0, "xi", Some (cN 1));
  (13, 15, 1, 0, "xi", Some (cN 1));
  (14, 16, 1, 0, "xi", Some (cN (-1)));
  (15, 16, 1, 0, "xi", Some (cN 1))].
(** /repo/c++/symmetry/sym-DBLQSZ-impl.hpp, make_matrix  *)
Definition dblqsz_2ch_m0_d : list diag_line := [
  (1, 0, "zeta", Some (cN 0));
  (2, 0, "zeta", Some (cN 0));
  (3, 0, "zeta", Some (cN 0));
  (4, 0, "zeta", Some (cN 0));
  (5, 0, "zeta", Some (cN 1));
  (6, 0, "zeta", Some (cN 1));
  (7, 0, "zeta", Some (cN 1));
  (8, 0, "zeta", Some (cN 1));
  (9, 0, "zeta", Some (cN 1));
  (10, 0, "zeta", Some (cN 1));
  (11, 0, "zeta", Some (cN 1));
  (12, 0, "zeta", Some (cN 1));
  (13, 0, "zeta", Some (cN 2));
  (14, 0, "zeta", Some (cN 2));
  (15, 0, "zeta", Some (cN 2));
  (16, 0, "zeta", Some (cN 2));
  (1, 1, "zeta", Some (cN 0));
  (2, 1, "zeta", Some (cN 1));
  (3, 1, "zeta", Some (cN 1));
  (4, 1, "zeta", Some (cN 2));
  (5, 1, "zeta", Some (cN 0));
  (6, 1, "zeta", Some (cN 0));
  (7, 1, "zeta", Some (cN 1));
  (8, 1, "zeta", Some (cN 1));
  (9, 1, "zeta", Some (cN 1));
  (10, 1, "zeta", Some (cN 1));
  (11, 1, "zeta", Some (cN 2));
  (12, 1, "zeta", Some (cN 2));
  (13, 1, "zeta", Some (cN 0));
  (14, 1, "zeta", Some (cN 1));
  (15, 1, "zeta", Some (cN 1));
  (16, 1, "zeta", Some (cN 2))].
(** /repo/c++/symmetry/sym-DBLQSZ-impl.hpp, make_matrix  *)
Definition dblqsz_2ch_m0_f : list dof_line := [
  ].
Definition coef_dblqsz_2ch : coef_set := mk_coef "DBLQSZ" 2%nat sym_DBLQSZ {| tb_In := dblqsz_2ch_In; tb_QN := dblqsz_2ch_QN |}
  [dblqsz_2ch_t4; dblqsz_2ch_t5; dblqsz_2ch_t6; dblqsz_2ch_t7]
  [dblqsz_2ch_t0; dblqsz_2ch_t1; dblqsz_2ch_t2; dblqsz_2ch_t3]
  [mk_mode "default" dblqsz_2ch_m0_o dblqsz_2ch_m0_d dblqsz_2ch_m0_f].
