(** Generated by gen/gen_coef.py from /repo/c++/symmetry/{sym-QJ-impl.hpp, nrg-recalc-QJ.hpp, coefnew}. Do not edit. *)
From Coq Require Import List ZArith String.
From Verif Require Import Base Invar_model Symmetry_model Symmetry_tables Coef_model.
Import ListNotations.
Local Open Scope string_scope.
Local Open Scope list_scope.
Local Open Scope Z_scope.


(** /repo/c++/symmetry/nrg-recalc-QJ.hpp recalc_doublet, qj/qj-doubletp.dat *)
Definition qj_t0 : ten_table := mk_ten "doublet" [ShLin 0%nat 1 (-1); ShLin 1%nat 1 1] [1; 2] [
  (1, 1, [ShLin 0%nat 1 3; ShLin 1%nat 1 0], [ShLin 0%nat 1 2; ShLin 1%nat 1 1], None);
  (2, 2, [ShLin 0%nat 1 2; ShLin 1%nat 1 (-1)], [ShLin 0%nat 1 1; ShLin 1%nat 1 0], None);
  (3, 2, [ShLin 0%nat 1 2; ShLin 1%nat 1 1], [ShLin 0%nat 1 1; ShLin 1%nat 1 0], None);
  (3, 3, [ShLin 0%nat 1 2; ShLin 1%nat 1 1], [ShLin 0%nat 1 1; ShLin 1%nat 1 2], None);
  (4, 4, [ShLin 0%nat 1 2; ShLin 1%nat 1 (-3)], [ShLin 0%nat 1 1; ShLin 1%nat 1 (-2)], None);
  (5, 4, [ShLin 0%nat 1 2; ShLin 1%nat 1 (-1)], [ShLin 0%nat 1 1; ShLin 1%nat 1 (-2)], None);
  (5, 5, [ShLin 0%nat 1 2; ShLin 1%nat 1 (-1)], [ShLin 0%nat 1 1; ShLin 1%nat 1 0], None);
  (6, 5, [ShLin 0%nat 1 2; ShLin 1%nat 1 1], [ShLin 0%nat 1 1; ShLin 1%nat 1 0], None);
  (6, 6, [ShLin 0%nat 1 2; ShLin 1%nat 1 1], [ShLin 0%nat 1 1; ShLin 1%nat 1 2], None);
  (7, 6, [ShLin 0%nat 1 2; ShLin 1%nat 1 3], [ShLin 0%nat 1 1; ShLin 1%nat 1 2], None);
  (7, 7, [ShLin 0%nat 1 2; ShLin 1%nat 1 3], [ShLin 0%nat 1 1; ShLin 1%nat 1 4], None);
  (8, 8, [ShLin 0%nat 1 1; ShLin 1%nat 1 0], [ShLin 0%nat 1 0; ShLin 1%nat 1 1], None);
  (9, 9, [ShLin 0%nat 1 1; ShLin 1%nat 1 0], [ShLin 0%nat 1 0; ShLin 1%nat 1 1], None);
  (10, 10, [ShLin 0%nat 1 1; ShLin 1%nat 1 (-2)], [ShLin 0%nat 1 0; ShLin 1%nat 1 (-1)], None);
  (11, 10, [ShLin 0%nat 1 1; ShLin 1%nat 1 0], [ShLin 0%nat 1 0; ShLin 1%nat 1 (-1)], None);
  (11, 11, [ShLin 0%nat 1 1; ShLin 1%nat 1 0], [ShLin 0%nat 1 0; ShLin 1%nat 1 1], None);
  (12, 11, [ShLin 0%nat 1 1; ShLin 1%nat 1 2], [ShLin 0%nat 1 0; ShLin 1%nat 1 1], None);
  (12, 12, [ShLin 0%nat 1 1; ShLin 1%nat 1 2], [ShLin 0%nat 1 0; ShLin 1%nat 1 3], None);
  (13, 13, [ShLin 0%nat 1 1; ShLin 1%nat 1 (-4)], [ShLin 0%nat 1 0; ShLin 1%nat 1 (-3)], None);
  (14, 13, [ShLin 0%nat 1 1; ShLin 1%nat 1 (-2)], [ShLin 0%nat 1 0; ShLin 1%nat 1 (-3)], None);
  (14, 14, [ShLin 0%nat 1 1; ShLin 1%nat 1 (-2)], [ShLin 0%nat 1 0; ShLin 1%nat 1 (-1)], None);
  (15, 14, [ShLin 0%nat 1 1; ShLin 1%nat 1 0], [ShLin 0%nat 1 0; ShLin 1%nat 1 (-1)], None);
  (15, 15, [ShLin 0%nat 1 1; ShLin 1%nat 1 0], [ShLin 0%nat 1 0; ShLin 1%nat 1 1], None);
  (16, 15, [ShLin 0%nat 1 1; ShLin 1%nat 1 2], [ShLin 0%nat 1 0; ShLin 1%nat 1 1], None);
  (16, 16, [ShLin 0%nat 1 1; ShLin 1%nat 1 2], [ShLin 0%nat 1 0; ShLin 1%nat 1 3], None);
  (17, 16, [ShLin 0%nat 1 1; ShLin 1%nat 1 4], [ShLin 0%nat 1 0; ShLin 1%nat 1 3], None);
  (17, 17, [ShLin 0%nat 1 1; ShLin 1%nat 1 4], [ShLin 0%nat 1 0; ShLin 1%nat 1 5], None);
  (18, 18, [ShLin 0%nat 1 1; ShLin 1%nat 1 (-4)], [ShLin 0%nat 1 0; ShLin 1%nat 1 (-3)], None);
  (19, 18, [ShLin 0%nat 1 1; ShLin 1%nat 1 (-2)], [ShLin 0%nat 1 0; ShLin 1%nat 1 (-3)], None);
  (19, 19, [ShLin 0%nat 1 1; ShLin 1%nat 1 (-2)], [ShLin 0%nat 1 0; ShLin 1%nat 1 (-1)], None);
  (20, 19, [ShLin 0%nat 1 1; ShLin 1%nat 1 0], [ShLin 0%nat 1 0; ShLin 1%nat 1 (-1)], None);
  (20, 20, [ShLin 0%nat 1 1; ShLin 1%nat 1 0], [ShLin 0%nat 1 0; ShLin 1%nat 1 1], None);
  (21, 20, [ShLin 0%nat 1 1; ShLin 1%nat 1 2], [ShLin 0%nat 1 0; ShLin 1%nat 1 1], None);
  (21, 21, [ShLin 0%nat 1 1; ShLin 1%nat 1 2], [ShLin 0%nat 1 0; ShLin 1%nat 1 3], None);
  (22, 21, [ShLin 0%nat 1 1; ShLin 1%nat 1 4], [ShLin 0%nat 1 0; ShLin 1%nat 1 3], None);
  (22, 22, [ShLin 0%nat 1 1; ShLin 1%nat 1 4], [ShLin 0%nat 1 0; ShLin 1%nat 1 5], None);
  (23, 23, [ShLin 0%nat 1 0; ShLin 1%nat 1 (-1)], [ShLin 0%nat 1 (-1); ShLin 1%nat 1 0], None);
  (24, 23, [ShLin 0%nat 1 0; ShLin 1%nat 1 1], [ShLin 0%nat 1 (-1); ShLin 1%nat 1 0], None);
  (24, 24, [ShLin 0%nat 1 0; ShLin 1%nat 1 1], [ShLin 0%nat 1 (-1); ShLin 1%nat 1 2], None);
  (25, 25, [ShLin 0%nat 1 0; ShLin 1%nat 1 (-3)], [ShLin 0%nat 1 (-1); ShLin 1%nat 1 (-2)], None);
  (26, 25, [ShLin 0%nat 1 0; ShLin 1%nat 1 (-1)], [ShLin 0%nat 1 (-1); ShLin 1%nat 1 (-2)], None);
  (26, 26, [ShLin 0%nat 1 0; ShLin 1%nat 1 (-1)], [ShLin 0%nat 1 (-1); ShLin 1%nat 1 0], None);
  (27, 26, [ShLin 0%nat 1 0; ShLin 1%nat 1 1], [ShLin 0%nat 1 (-1); ShLin 1%nat 1 0], None);
  (27, 27, [ShLin 0%nat 1 0; ShLin 1%nat 1 1], [ShLin 0%nat 1 (-1); ShLin 1%nat 1 2], None);
  (28, 27, [ShLin 0%nat 1 0; ShLin 1%nat 1 3], [ShLin 0%nat 1 (-1); ShLin 1%nat 1 2], None);
  (28, 28, [ShLin 0%nat 1 0; ShLin 1%nat 1 3], [ShLin 0%nat 1 (-1); ShLin 1%nat 1 4], None);
  (29, 29, [ShLin 0%nat 1 0; ShLin 1%nat 1 (-3)], [ShLin 0%nat 1 (-1); ShLin 1%nat 1 (-2)], None);
  (30, 29, [ShLin 0%nat 1 0; ShLin 1%nat 1 (-1)], [ShLin 0%nat 1 (-1); ShLin 1%nat 1 (-2)], None);
  (30, 30, [ShLin 0%nat 1 0; ShLin 1%nat 1 (-1)], [ShLin 0%nat 1 (-1); ShLin 1%nat 1 0], None);
  (31, 30, [ShLin 0%nat 1 0; ShLin 1%nat 1 1], [ShLin 0%nat 1 (-1); ShLin 1%nat 1 0], None);
  (31, 31, [ShLin 0%nat 1 0; ShLin 1%nat 1 1], [ShLin 0%nat 1 (-1); ShLin 1%nat 1 2], None);
  (32, 31, [ShLin 0%nat 1 0; ShLin 1%nat 1 3], [ShLin 0%nat 1 (-1); ShLin 1%nat 1 2], None);
  (32, 32, [ShLin 0%nat 1 0; ShLin 1%nat 1 3], [ShLin 0%nat 1 (-1); ShLin 1%nat 1 4], None);
  (33, 33, [ShLin 0%nat 1 0; ShLin 1%nat 1 (-3)], [ShLin 0%nat 1 (-1); ShLin 1%nat 1 (-2)], None);
  (34, 33, [ShLin 0%nat 1 0; ShLin 1%nat 1 (-1)], [ShLin 0%nat 1 (-1); ShLin 1%nat 1 (-2)], None);
  (34, 34, [ShLin 0%nat 1 0; ShLin 1%nat 1 (-1)], [ShLin 0%nat 1 (-1); ShLin 1%nat 1 0], None);
  (35, 34, [ShLin 0%nat 1 0; ShLin 1%nat 1 1], [ShLin 0%nat 1 (-1); ShLin 1%nat 1 0], None);
  (35, 35, [ShLin 0%nat 1 0; ShLin 1%nat 1 1], [ShLin 0%nat 1 (-1); ShLin 1%nat 1 2], None);
  (36, 35, [ShLin 0%nat 1 0; ShLin 1%nat 1 3], [ShLin 0%nat 1 (-1); ShLin 1%nat 1 2], None);
  (36, 36, [ShLin 0%nat 1 0; ShLin 1%nat 1 3], [ShLin 0%nat 1 (-1); ShLin 1%nat 1 4], None);
  (37, 37, [ShLin 0%nat 1 0; ShLin 1%nat 1 (-5)], [ShLin 0%nat 1 (-1); ShLin 1%nat 1 (-4)], None);
  (38, 37, [ShLin 0%nat 1 0; ShLin 1%nat 1 (-3)], [ShLin 0%nat 1 (-1); ShLin 1%nat 1 (-4)], None);
  (38, 38, [ShLin 0%nat 1 0; ShLin 1%nat 1 (-3)], [ShLin 0%nat 1 (-1); ShLin 1%nat 1 (-2)], None);
  (39, 38, [ShLin 0%nat 1 0; ShLin 1%nat 1 (-1)], [ShLin 0%nat 1 (-1); ShLin 1%nat 1 (-2)], None);
  (39, 39, [ShLin 0%nat 1 0; ShLin 1%nat 1 (-1)], [ShLin 0%nat 1 (-1); ShLin 1%nat 1 0], None);
  (40, 39, [ShLin 0%nat 1 0; ShLin 1%nat 1 1], [ShLin 0%nat 1 (-1); ShLin 1%nat 1 0], None);
  (40, 40, [ShLin 0%nat 1 0; ShLin 1%nat 1 1], [ShLin 0%nat 1 (-1); ShLin 1%nat 1 2], None);
  (41, 40, [ShLin 0%nat 1 0; ShLin 1%nat 1 3], [ShLin 0%nat 1 (-1); ShLin 1%nat 1 2], None);
  (41, 41, [ShLin 0%nat 1 0; ShLin 1%nat 1 3], [ShLin 0%nat 1 (-1); ShLin 1%nat 1 4], None);
  (42, 41, [ShLin 0%nat 1 0; ShLin 1%nat 1 5], [ShLin 0%nat 1 (-1); ShLin 1%nat 1 4], None);
  (42, 42, [ShLin 0%nat 1 0; ShLin 1%nat 1 5], [ShLin 0%nat 1 (-1); ShLin 1%nat 1 6], None);
  (43, 43, [ShLin 0%nat 1 (-1); ShLin 1%nat 1 0], [ShLin 0%nat 1 (-2); ShLin 1%nat 1 1], None);
  (44, 44, [ShLin 0%nat 1 (-1); ShLin 1%nat 1 0], [ShLin 0%nat 1 (-2); ShLin 1%nat 1 1], None);
  (45, 45, [ShLin 0%nat 1 (-1); ShLin 1%nat 1 (-2)], [ShLin 0%nat 1 (-2); ShLin 1%nat 1 (-1)], None);
  (46, 45, [ShLin 0%nat 1 (-1); ShLin 1%nat 1 0], [ShLin 0%nat 1 (-2); ShLin 1%nat 1 (-1)], None);
  (46, 46, [ShLin 0%nat 1 (-1); ShLin 1%nat 1 0], [ShLin 0%nat 1 (-2); ShLin 1%nat 1 1], None);
  (47, 46, [ShLin 0%nat 1 (-1); ShLin 1%nat 1 2], [ShLin 0%nat 1 (-2); ShLin 1%nat 1 1], None);
  (47, 47, [ShLin 0%nat 1 (-1); ShLin 1%nat 1 2], [ShLin 0%nat 1 (-2); ShLin 1%nat 1 3], None);
  (48, 48, [ShLin 0%nat 1 (-1); ShLin 1%nat 1 (-4)], [ShLin 0%nat 1 (-2); ShLin 1%nat 1 (-3)], None);
  (49, 48, [ShLin 0%nat 1 (-1); ShLin 1%nat 1 (-2)], [ShLin 0%nat 1 (-2); ShLin 1%nat 1 (-3)], None);
  (49, 49, [ShLin 0%nat 1 (-1); ShLin 1%nat 1 (-2)], [ShLin 0%nat 1 (-2); ShLin 1%nat 1 (-1)], None);
  (50, 49, [ShLin 0%nat 1 (-1); ShLin 1%nat 1 0], [ShLin 0%nat 1 (-2); ShLin 1%nat 1 (-1)], None);
  (50, 50, [ShLin 0%nat 1 (-1); ShLin 1%nat 1 0], [ShLin 0%nat 1 (-2); ShLin 1%nat 1 1], None);
  (51, 50, [ShLin 0%nat 1 (-1); ShLin 1%nat 1 2], [ShLin 0%nat 1 (-2); ShLin 1%nat 1 1], None);
  (51, 51, [ShLin 0%nat 1 (-1); ShLin 1%nat 1 2], [ShLin 0%nat 1 (-2); ShLin 1%nat 1 3], None);
  (52, 51, [ShLin 0%nat 1 (-1); ShLin 1%nat 1 4], [ShLin 0%nat 1 (-2); ShLin 1%nat 1 3], None);
  (52, 52, [ShLin 0%nat 1 (-1); ShLin 1%nat 1 4], [ShLin 0%nat 1 (-2); ShLin 1%nat 1 5], None);
  (53, 53, [ShLin 0%nat 1 (-1); ShLin 1%nat 1 (-4)], [ShLin 0%nat 1 (-2); ShLin 1%nat 1 (-3)], None);
  (54, 53, [ShLin 0%nat 1 (-1); ShLin 1%nat 1 (-2)], [ShLin 0%nat 1 (-2); ShLin 1%nat 1 (-3)], None);
  (54, 54, [ShLin 0%nat 1 (-1); ShLin 1%nat 1 (-2)], [ShLin 0%nat 1 (-2); ShLin 1%nat 1 (-1)], None);
  (55, 54, [ShLin 0%nat 1 (-1); ShLin 1%nat 1 0], [ShLin 0%nat 1 (-2); ShLin 1%nat 1 (-1)], None);
  (55, 55, [ShLin 0%nat 1 (-1); ShLin 1%nat 1 0], [ShLin 0%nat 1 (-2); ShLin 1%nat 1 1], None);
  (56, 55, [ShLin 0%nat 1 (-1); ShLin 1%nat 1 2], [ShLin 0%nat 1 (-2); ShLin 1%nat 1 1], None);
  (56, 56, [ShLin 0%nat 1 (-1); ShLin 1%nat 1 2], [ShLin 0%nat 1 (-2); ShLin 1%nat 1 3], None);
  (57, 56, [ShLin 0%nat 1 (-1); ShLin 1%nat 1 4], [ShLin 0%nat 1 (-2); ShLin 1%nat 1 3], None);
  (57, 57, [ShLin 0%nat 1 (-1); ShLin 1%nat 1 4], [ShLin 0%nat 1 (-2); ShLin 1%nat 1 5], None);
  (58, 58, [ShLin 0%nat 1 (-2); ShLin 1%nat 1 (-1)], [ShLin 0%nat 1 (-3); ShLin 1%nat 1 0], None);
  (59, 58, [ShLin 0%nat 1 (-2); ShLin 1%nat 1 1], [ShLin 0%nat 1 (-3); ShLin 1%nat 1 0], None);
  (59, 59, [ShLin 0%nat 1 (-2); ShLin 1%nat 1 1], [ShLin 0%nat 1 (-3); ShLin 1%nat 1 2], None);
  (60, 60, [ShLin 0%nat 1 (-2); ShLin 1%nat 1 (-3)], [ShLin 0%nat 1 (-3); ShLin 1%nat 1 (-2)], None);
  (61, 60, [ShLin 0%nat 1 (-2); ShLin 1%nat 1 (-1)], [ShLin 0%nat 1 (-3); ShLin 1%nat 1 (-2)], None);
  (61, 61, [ShLin 0%nat 1 (-2); ShLin 1%nat 1 (-1)], [ShLin 0%nat 1 (-3); ShLin 1%nat 1 0], None);
  (62, 61, [ShLin 0%nat 1 (-2); ShLin 1%nat 1 1], [ShLin 0%nat 1 (-3); ShLin 1%nat 1 0], None);
  (62, 62, [ShLin 0%nat 1 (-2); ShLin 1%nat 1 1], [ShLin 0%nat 1 (-3); ShLin 1%nat 1 2], None);
  (63, 62, [ShLin 0%nat 1 (-2); ShLin 1%nat 1 3], [ShLin 0%nat 1 (-3); ShLin 1%nat 1 2], None);
  (63, 63, [ShLin 0%nat 1 (-2); ShLin 1%nat 1 3], [ShLin 0%nat 1 (-3); ShLin 1%nat 1 4], None);
  (64, 64, [ShLin 0%nat 1 (-3); ShLin 1%nat 1 0], [ShLin 0%nat 1 (-4); ShLin 1%nat 1 1], None)].
(** /repo/c++/symmetry/nrg-recalc-QJ.hpp recalc_doublet, qj/qj-doubletm.dat *)
Definition qj_t1 : ten_table := mk_ten "doublet" [ShLin 0%nat 1 (-1); ShLin 1%nat 1 (-1)] [1; 2] [
  (1, 1, [ShLin 0%nat 1 3; ShLin 1%nat 1 0], [ShLin 0%nat 1 2; ShLin 1%nat 1 (-1)], None);
  (2, 2, [ShLin 0%nat 1 2; ShLin 1%nat 1 (-1)], [ShLin 0%nat 1 1; ShLin 1%nat 1 (-2)], None);
  (2, 3, [ShLin 0%nat 1 2; ShLin 1%nat 1 (-1)], [ShLin 0%nat 1 1; ShLin 1%nat 1 0], None);
  (3, 3, [ShLin 0%nat 1 2; ShLin 1%nat 1 1], [ShLin 0%nat 1 1; ShLin 1%nat 1 0], None);
  (4, 4, [ShLin 0%nat 1 2; ShLin 1%nat 1 (-3)], [ShLin 0%nat 1 1; ShLin 1%nat 1 (-4)], None);
  (4, 5, [ShLin 0%nat 1 2; ShLin 1%nat 1 (-3)], [ShLin 0%nat 1 1; ShLin 1%nat 1 (-2)], None);
  (5, 5, [ShLin 0%nat 1 2; ShLin 1%nat 1 (-1)], [ShLin 0%nat 1 1; ShLin 1%nat 1 (-2)], None);
  (5, 6, [ShLin 0%nat 1 2; ShLin 1%nat 1 (-1)], [ShLin 0%nat 1 1; ShLin 1%nat 1 0], None);
  (6, 6, [ShLin 0%nat 1 2; ShLin 1%nat 1 1], [ShLin 0%nat 1 1; ShLin 1%nat 1 0], None);
  (6, 7, [ShLin 0%nat 1 2; ShLin 1%nat 1 1], [ShLin 0%nat 1 1; ShLin 1%nat 1 2], None);
  (7, 7, [ShLin 0%nat 1 2; ShLin 1%nat 1 3], [ShLin 0%nat 1 1; ShLin 1%nat 1 2], None);
  (8, 8, [ShLin 0%nat 1 1; ShLin 1%nat 1 0], [ShLin 0%nat 1 0; ShLin 1%nat 1 (-1)], None);
  (9, 9, [ShLin 0%nat 1 1; ShLin 1%nat 1 0], [ShLin 0%nat 1 0; ShLin 1%nat 1 (-1)], None);
  (10, 10, [ShLin 0%nat 1 1; ShLin 1%nat 1 (-2)], [ShLin 0%nat 1 0; ShLin 1%nat 1 (-3)], None);
  (10, 11, [ShLin 0%nat 1 1; ShLin 1%nat 1 (-2)], [ShLin 0%nat 1 0; ShLin 1%nat 1 (-1)], None);
  (11, 11, [ShLin 0%nat 1 1; ShLin 1%nat 1 0], [ShLin 0%nat 1 0; ShLin 1%nat 1 (-1)], None);
  (11, 12, [ShLin 0%nat 1 1; ShLin 1%nat 1 0], [ShLin 0%nat 1 0; ShLin 1%nat 1 1], None);
  (12, 12, [ShLin 0%nat 1 1; ShLin 1%nat 1 2], [ShLin 0%nat 1 0; ShLin 1%nat 1 1], None);
  (13, 13, [ShLin 0%nat 1 1; ShLin 1%nat 1 (-4)], [ShLin 0%nat 1 0; ShLin 1%nat 1 (-5)], None);
  (13, 14, [ShLin 0%nat 1 1; ShLin 1%nat 1 (-4)], [ShLin 0%nat 1 0; ShLin 1%nat 1 (-3)], None);
  (14, 14, [ShLin 0%nat 1 1; ShLin 1%nat 1 (-2)], [ShLin 0%nat 1 0; ShLin 1%nat 1 (-3)], None);
  (14, 15, [ShLin 0%nat 1 1; ShLin 1%nat 1 (-2)], [ShLin 0%nat 1 0; ShLin 1%nat 1 (-1)], None);
  (15, 15, [ShLin 0%nat 1 1; ShLin 1%nat 1 0], [ShLin 0%nat 1 0; ShLin 1%nat 1 (-1)], None);
  (15, 16, [ShLin 0%nat 1 1; ShLin 1%nat 1 0], [ShLin 0%nat 1 0; ShLin 1%nat 1 1], None);
  (16, 16, [ShLin 0%nat 1 1; ShLin 1%nat 1 2], [ShLin 0%nat 1 0; ShLin 1%nat 1 1], None);
  (16, 17, [ShLin 0%nat 1 1; ShLin 1%nat 1 2], [ShLin 0%nat 1 0; ShLin 1%nat 1 3], None);
  (17, 17, [ShLin 0%nat 1 1; ShLin 1%nat 1 4], [ShLin 0%nat 1 0; ShLin 1%nat 1 3], None);
  (18, 18, [ShLin 0%nat 1 1; ShLin 1%nat 1 (-4)], [ShLin 0%nat 1 0; ShLin 1%nat 1 (-5)], None);
  (18, 19, [ShLin 0%nat 1 1; ShLin 1%nat 1 (-4)], [ShLin 0%nat 1 0; ShLin 1%nat 1 (-3)], None);
  (19, 19, [ShLin 0%nat 1 1; ShLin 1%nat 1 (-2)], [ShLin 0%nat 1 0; ShLin 1%nat 1 (-3)], None);
  (19, 20, [ShLin 0%nat 1 1; ShLin 1%nat 1 (-2)], [ShLin 0%nat 1 0; ShLin 1%nat 1 (-1)], None);
  (20, 20, [ShLin 0%nat 1 1; ShLin 1%nat 1 0], [ShLin 0%nat 1 0; ShLin 1%nat 1 (-1)], None);
  (20, 21, [ShLin 0%nat 1 1; ShLin 1%nat 1 0], [ShLin 0%nat 1 0; ShLin 1%nat 1 1], None);
  (21, 21, [ShLin 0%nat 1 1; ShLin 1%nat 1 2], [ShLin 0%nat 1 0; ShLin 1%nat 1 1], None);
  (21, 22, [ShLin 0%nat 1 1; ShLin 1%nat 1 2], [ShLin 0%nat 1 0; ShLin 1%nat 1 3], None);
  (22, 22, [ShLin 0%nat 1 1; ShLin 1%nat 1 4], [ShLin 0%nat 1 0; ShLin 1%nat 1 3], None);
  (23, 23, [ShLin 0%nat 1 0; ShLin 1%nat 1 (-1)], [ShLin 0%nat 1 (-1); ShLin 1%nat 1 (-2)], None);
  (23, 24, [ShLin 0%nat 1 0; ShLin 1%nat 1 (-1)], [ShLin 0%nat 1 (-1); ShLin 1%nat 1 0], None);
  (24, 24, [ShLin 0%nat 1 0; ShLin 1%nat 1 1], [ShLin 0%nat 1 (-1); ShLin 1%nat 1 0], None);
  (25, 25, [ShLin 0%nat 1 0; ShLin 1%nat 1 (-3)], [ShLin 0%nat 1 (-1); ShLin 1%nat 1 (-4)], None);
  (25, 26, [ShLin 0%nat 1 0; ShLin 1%nat 1 (-3)], [ShLin 0%nat 1 (-1); ShLin 1%nat 1 (-2)], None);
  (26, 26, [ShLin 0%nat 1 0; ShLin 1%nat 1 (-1)], [ShLin 0%nat 1 (-1); ShLin 1%nat 1 (-2)], None);
  (26, 27, [ShLin 0%nat 1 0; ShLin 1%nat 1 (-1)], [ShLin 0%nat 1 (-1); ShLin 1%nat 1 0], None);
  (27, 27, [ShLin 0%nat 1 0; ShLin 1%nat 1 1], [ShLin 0%nat 1 (-1); ShLin 1%nat 1 0], None);
  (27, 28, [ShLin 0%nat 1 0; ShLin 1%nat 1 1], [ShLin 0%nat 1 (-1); ShLin 1%nat 1 2], None);
  (28, 28, [ShLin 0%nat 1 0; ShLin 1%nat 1 3], [ShLin 0%nat 1 (-1); ShLin 1%nat 1 2], None);
  (29, 29, [ShLin 0%nat 1 0; ShLin 1%nat 1 (-3)], [ShLin 0%nat 1 (-1); ShLin 1%nat 1 (-4)], None);
  (29, 30, [ShLin 0%nat 1 0; ShLin 1%nat 1 (-3)], [ShLin 0%nat 1 (-1); ShLin 1%nat 1 (-2)], None);
  (30, 30, [ShLin 0%nat 1 0; ShLin 1%nat 1 (-1)], [ShLin 0%nat 1 (-1); ShLin 1%nat 1 (-2)], None);
  (30, 31, [ShLin 0%nat 1 0; ShLin 1%nat 1 (-1)], [ShLin 0%nat 1 (-1); ShLin 1%nat 1 0], None);
  (31, 31, [ShLin 0%nat 1 0; ShLin 1%nat 1 1], [ShLin 0%nat 1 (-1); ShLin 1%nat 1 0], None);
  (31, 32, [ShLin 0%nat 1 0; ShLin 1%nat 1 1], [ShLin 0%nat 1 (-1); ShLin 1%nat 1 2], None);
  (32, 32, [ShLin 0%nat 1 0; ShLin 1%nat 1 3], [ShLin 0%nat 1 (-1); ShLin 1%nat 1 2], None);
  (33, 33, [ShLin 0%nat 1 0; ShLin 1%nat 1 (-3)], [ShLin 0%nat 1 (-1); ShLin 1%nat 1 (-4)], None);
  (33, 34, [ShLin 0%nat 1 0; ShLin 1%nat 1 (-3)], [ShLin 0%nat 1 (-1); ShLin 1%nat 1 (-2)], None);
  (34, 34, [ShLin 0%nat 1 0; ShLin 1%nat 1 (-1)], [ShLin 0%nat 1 (-1); ShLin 1%nat 1 (-2)], None);
  (34, 35, [ShLin 0%nat 1 0; ShLin 1%nat 1 (-1)], [ShLin 0%nat 1 (-1); ShLin 1%nat 1 0], None);
  (35, 35, [ShLin 0%nat 1 0; ShLin 1%nat 1 1], [ShLin 0%nat 1 (-1); ShLin 1%nat 1 0], None);
  (35, 36, [ShLin 0%nat 1 0; ShLin 1%nat 1 1], [ShLin 0%nat 1 (-1); ShLin 1%nat 1 2], None);
  (36, 36, [ShLin 0%nat 1 0; ShLin 1%nat 1 3], [ShLin 0%nat 1 (-1); ShLin 1%nat 1 2], None);
  (37, 37, [ShLin 0%nat 1 0; ShLin 1%nat 1 (-5)], [ShLin 0%nat 1 (-1); ShLin 1%nat 1 (-6)], None);
  (37, 38, [ShLin 0%nat 1 0; ShLin 1%nat 1 (-5)], [ShLin 0%nat 1 (-1); ShLin 1%nat 1 (-4)], None);
  (38, 38, [ShLin 0%nat 1 0; ShLin 1%nat 1 (-3)], [ShLin 0%nat 1 (-1); ShLin 1%nat 1 (-4)], None);
  (38, 39, [ShLin 0%nat 1 0; ShLin 1%nat 1 (-3)], [ShLin 0%nat 1 (-1); ShLin 1%nat 1 (-2)], None);
  (39, 39, [ShLin 0%nat 1 0; ShLin 1%nat 1 (-1)], [ShLin 0%nat 1 (-1); ShLin 1%nat 1 (-2)], None);
  (39, 40, [ShLin 0%nat 1 0; ShLin 1%nat 1 (-1)], [ShLin 0%nat 1 (-1); ShLin 1%nat 1 0], None);
  (40, 40, [ShLin 0%nat 1 0; ShLin 1%nat 1 1], [ShLin 0%nat 1 (-1); ShLin 1%nat 1 0], None);
  (40, 41, [ShLin 0%nat 1 0; ShLin 1%nat 1 1], [ShLin 0%nat 1 (-1); ShLin 1%nat 1 2], None);
  (41, 41, [ShLin 0%nat 1 0; ShLin 1%nat 1 3], [ShLin 0%nat 1 (-1); ShLin 1%nat 1 2], None);
  (41, 42, [ShLin 0%nat 1 0; ShLin 1%nat 1 3], [ShLin 0%nat 1 (-1); ShLin 1%nat 1 4], None);
  (42, 42, [ShLin 0%nat 1 0; ShLin 1%nat 1 5], [ShLin 0%nat 1 (-1); ShLin 1%nat 1 4], None);
  (43, 43, [ShLin 0%nat 1 (-1); ShLin 1%nat 1 0], [ShLin 0%nat 1 (-2); ShLin 1%nat 1 (-1)], None);
  (44, 44, [ShLin 0%nat 1 (-1); ShLin 1%nat 1 0], [ShLin 0%nat 1 (-2); ShLin 1%nat 1 (-1)], None);
  (45, 45, [ShLin 0%nat 1 (-1); ShLin 1%nat 1 (-2)], [ShLin 0%nat 1 (-2); ShLin 1%nat 1 (-3)], None);
  (45, 46, [ShLin 0%nat 1 (-1); ShLin 1%nat 1 (-2)], [ShLin 0%nat 1 (-2); ShLin 1%nat 1 (-1)], None);
  (46, 46, [ShLin 0%nat 1 (-1); ShLin 1%nat 1 0], [ShLin 0%nat 1 (-2); ShLin 1%nat 1 (-1)], None);
  (46, 47, [ShLin 0%nat 1 (-1); ShLin 1%nat 1 0], [ShLin 0%nat 1 (-2); ShLin 1%nat 1 1], None);
  (47, 47, [ShLin 0%nat 1 (-1); ShLin 1%nat 1 2], [ShLin 0%nat 1 (-2); ShLin 1%nat 1 1], None);
  (48, 48, [ShLin 0%nat 1 (-1); ShLin 1%nat 1 (-4)], [ShLin 0%nat 1 (-2); ShLin 1%nat 1 (-5)], None);
  (48, 49, [ShLin 0%nat 1 (-1); ShLin 1%nat 1 (-4)], [ShLin 0%nat 1 (-2); ShLin 1%nat 1 (-3)], None);
  (49, 49, [ShLin 0%nat 1 (-1); ShLin 1%nat 1 (-2)], [ShLin 0%nat 1 (-2); ShLin 1%nat 1 (-3)], None);
  (49, 50, [ShLin 0%nat 1 (-1); ShLin 1%nat 1 (-2)], [ShLin 0%nat 1 (-2); ShLin 1%nat 1 (-1)], None);
  (50, 50, [ShLin 0%nat 1 (-1); ShLin 1%nat 1 0], [ShLin 0%nat 1 (-2); ShLin 1%nat 1 (-1)], None);
  (50, 51, [ShLin 0%nat 1 (-1); ShLin 1%nat 1 0], [ShLin 0%nat 1 (-2); ShLin 1%nat 1 1], None);
  (51, 51, [ShLin 0%nat 1 (-1); ShLin 1%nat 1 2], [ShLin 0%nat 1 (-2); ShLin 1%nat 1 1], None);
  (51, 52, [ShLin 0%nat 1 (-1); ShLin 1%nat 1 2], [ShLin 0%nat 1 (-2); ShLin 1%nat 1 3], None);
  (52, 52, [ShLin 0%nat 1 (-1); ShLin 1%nat 1 4], [ShLin 0%nat 1 (-2); ShLin 1%nat 1 3], None);
  (53, 53, [ShLin 0%nat 1 (-1); ShLin 1%nat 1 (-4)], [ShLin 0%nat 1 (-2); ShLin 1%nat 1 (-5)], None);
  (53, 54, [ShLin 0%nat 1 (-1); ShLin 1%nat 1 (-4)], [ShLin 0%nat 1 (-2); ShLin 1%nat 1 (-3)], None);
  (54, 54, [ShLin 0%nat 1 (-1); ShLin 1%nat 1 (-2)], [ShLin 0%nat 1 (-2); ShLin 1%nat 1 (-3)], None);
  (54, 55, [ShLin 0%nat 1 (-1); ShLin 1%nat 1 (-2)], [ShLin 0%nat 1 (-2); ShLin 1%nat 1 (-1)], None);
  (55, 55, [ShLin 0%nat 1 (-1); ShLin 1%nat 1 0], [ShLin 0%nat 1 (-2); ShLin 1%nat 1 (-1)], None);
  (55, 56, [ShLin 0%nat 1 (-1); ShLin 1%nat 1 0], [ShLin 0%nat 1 (-2); ShLin 1%nat 1 1], None);
  (56, 56, [ShLin 0%nat 1 (-1); ShLin 1%nat 1 2], [ShLin 0%nat 1 (-2); ShLin 1%nat 1 1], None);
  (56, 57, [ShLin 0%nat 1 (-1); ShLin 1%nat 1 2], [ShLin 0%nat 1 (-2); ShLin 1%nat 1 3], None);
  (57, 57, [ShLin 0%nat 1 (-1); ShLin 1%nat 1 4], [ShLin 0%nat 1 (-2); ShLin 1%nat 1 3], None);
  (58, 58, [ShLin 0%nat 1 (-2); ShLin 1%nat 1 (-1)], [ShLin 0%nat 1 (-3); ShLin 1%nat 1 (-2)], None);
  (58, 59, [ShLin 0%nat 1 (-2); ShLin 1%nat 1 (-1)], [ShLin 0%nat 1 (-3); ShLin 1%nat 1 0], None);
  (59, 59, [ShLin 0%nat 1 (-2); ShLin 1%nat 1 1], [ShLin 0%nat 1 (-3); ShLin 1%nat 1 0], None);
  (60, 60, [ShLin 0%nat 1 (-2); ShLin 1%nat 1 (-3)], [ShLin 0%nat 1 (-3); ShLin 1%nat 1 (-4)], None);
  (60, 61, [ShLin 0%nat 1 (-2); ShLin 1%nat 1 (-3)], [ShLin 0%nat 1 (-3); ShLin 1%nat 1 (-2)], None);
  (61, 61, [ShLin 0%nat 1 (-2); ShLin 1%nat 1 (-1)], [ShLin 0%nat 1 (-3); ShLin 1%nat 1 (-2)], None);
  (61, 62, [ShLin 0%nat 1 (-2); ShLin 1%nat 1 (-1)], [ShLin 0%nat 1 (-3); ShLin 1%nat 1 0], None);
  (62, 62, [ShLin 0%nat 1 (-2); ShLin 1%nat 1 1], [ShLin 0%nat 1 (-3); ShLin 1%nat 1 0], None);
  (62, 63, [ShLin 0%nat 1 (-2); ShLin 1%nat 1 1], [ShLin 0%nat 1 (-3); ShLin 1%nat 1 2], None);
  (63, 63, [ShLin 0%nat 1 (-2); ShLin 1%nat 1 3], [ShLin 0%nat 1 (-3); ShLin 1%nat 1 2], None);
  (64, 64, [ShLin 0%nat 1 (-3); ShLin 1%nat 1 0], [ShLin 0%nat 1 (-4); ShLin 1%nat 1 (-1)], None)].
(** /repo/c++/symmetry/nrg-recalc-QJ.hpp recalc_quadruplet, qj/qj-quad1.dat *)
Definition qj_t2 : ten_table := mk_ten "quadruplet" [ShLin 0%nat 1 (-1); ShLin 1%nat 1 3] [1; 4] [
  (1, 1, [ShLin 0%nat 1 3; ShLin 1%nat 1 0], [ShLin 0%nat 1 2; ShLin 1%nat 1 3], None);
  (2, 2, [ShLin 0%nat 1 2; ShLin 1%nat 1 (-1)], [ShLin 0%nat 1 1; ShLin 1%nat 1 2], None);
  (3, 2, [ShLin 0%nat 1 2; ShLin 1%nat 1 1], [ShLin 0%nat 1 1; ShLin 1%nat 1 2], None);
  (3, 3, [ShLin 0%nat 1 2; ShLin 1%nat 1 1], [ShLin 0%nat 1 1; ShLin 1%nat 1 4], None);
  (4, 4, [ShLin 0%nat 1 2; ShLin 1%nat 1 (-3)], [ShLin 0%nat 1 1; ShLin 1%nat 1 0], None);
  (5, 4, [ShLin 0%nat 1 2; ShLin 1%nat 1 (-1)], [ShLin 0%nat 1 1; ShLin 1%nat 1 0], None);
  (5, 5, [ShLin 0%nat 1 2; ShLin 1%nat 1 (-1)], [ShLin 0%nat 1 1; ShLin 1%nat 1 2], None);
  (6, 4, [ShLin 0%nat 1 2; ShLin 1%nat 1 1], [ShLin 0%nat 1 1; ShLin 1%nat 1 0], None);
  (6, 5, [ShLin 0%nat 1 2; ShLin 1%nat 1 1], [ShLin 0%nat 1 1; ShLin 1%nat 1 2], None);
  (6, 6, [ShLin 0%nat 1 2; ShLin 1%nat 1 1], [ShLin 0%nat 1 1; ShLin 1%nat 1 4], None);
  (7, 4, [ShLin 0%nat 1 2; ShLin 1%nat 1 3], [ShLin 0%nat 1 1; ShLin 1%nat 1 0], None);
  (7, 5, [ShLin 0%nat 1 2; ShLin 1%nat 1 3], [ShLin 0%nat 1 1; ShLin 1%nat 1 2], None);
  (7, 6, [ShLin 0%nat 1 2; ShLin 1%nat 1 3], [ShLin 0%nat 1 1; ShLin 1%nat 1 4], None);
  (7, 7, [ShLin 0%nat 1 2; ShLin 1%nat 1 3], [ShLin 0%nat 1 1; ShLin 1%nat 1 6], None);
  (8, 8, [ShLin 0%nat 1 1; ShLin 1%nat 1 0], [ShLin 0%nat 1 0; ShLin 1%nat 1 3], None);
  (9, 9, [ShLin 0%nat 1 1; ShLin 1%nat 1 0], [ShLin 0%nat 1 0; ShLin 1%nat 1 3], None);
  (10, 10, [ShLin 0%nat 1 1; ShLin 1%nat 1 (-2)], [ShLin 0%nat 1 0; ShLin 1%nat 1 1], None);
  (11, 10, [ShLin 0%nat 1 1; ShLin 1%nat 1 0], [ShLin 0%nat 1 0; ShLin 1%nat 1 1], None);
  (11, 11, [ShLin 0%nat 1 1; ShLin 1%nat 1 0], [ShLin 0%nat 1 0; ShLin 1%nat 1 3], None);
  (12, 10, [ShLin 0%nat 1 1; ShLin 1%nat 1 2], [ShLin 0%nat 1 0; ShLin 1%nat 1 1], None);
  (12, 11, [ShLin 0%nat 1 1; ShLin 1%nat 1 2], [ShLin 0%nat 1 0; ShLin 1%nat 1 3], None);
  (12, 12, [ShLin 0%nat 1 1; ShLin 1%nat 1 2], [ShLin 0%nat 1 0; ShLin 1%nat 1 5], None);
  (13, 13, [ShLin 0%nat 1 1; ShLin 1%nat 1 (-4)], [ShLin 0%nat 1 0; ShLin 1%nat 1 (-1)], None);
  (14, 13, [ShLin 0%nat 1 1; ShLin 1%nat 1 (-2)], [ShLin 0%nat 1 0; ShLin 1%nat 1 (-1)], None);
  (14, 14, [ShLin 0%nat 1 1; ShLin 1%nat 1 (-2)], [ShLin 0%nat 1 0; ShLin 1%nat 1 1], None);
  (15, 13, [ShLin 0%nat 1 1; ShLin 1%nat 1 0], [ShLin 0%nat 1 0; ShLin 1%nat 1 (-1)], None);
  (15, 14, [ShLin 0%nat 1 1; ShLin 1%nat 1 0], [ShLin 0%nat 1 0; ShLin 1%nat 1 1], None);
  (15, 15, [ShLin 0%nat 1 1; ShLin 1%nat 1 0], [ShLin 0%nat 1 0; ShLin 1%nat 1 3], None);
  (16, 13, [ShLin 0%nat 1 1; ShLin 1%nat 1 2], [ShLin 0%nat 1 0; ShLin 1%nat 1 (-1)], None);
  (16, 14, [ShLin 0%nat 1 1; ShLin 1%nat 1 2], [ShLin 0%nat 1 0; ShLin 1%nat 1 1], None);
  (16, 15, [ShLin 0%nat 1 1; ShLin 1%nat 1 2], [ShLin 0%nat 1 0; ShLin 1%nat 1 3], None);
  (16, 16, [ShLin 0%nat 1 1; ShLin 1%nat 1 2], [ShLin 0%nat 1 0; ShLin 1%nat 1 5], None);
  (17, 14, [ShLin 0%nat 1 1; ShLin 1%nat 1 4], [ShLin 0%nat 1 0; ShLin 1%nat 1 1], None);
  (17, 15, [ShLin 0%nat 1 1; ShLin 1%nat 1 4], [ShLin 0%nat 1 0; ShLin 1%nat 1 3], None);
  (17, 16, [ShLin 0%nat 1 1; ShLin 1%nat 1 4], [ShLin 0%nat 1 0; ShLin 1%nat 1 5], None);
  (17, 17, [ShLin 0%nat 1 1; ShLin 1%nat 1 4], [ShLin 0%nat 1 0; ShLin 1%nat 1 7], None);
  (18, 18, [ShLin 0%nat 1 1; ShLin 1%nat 1 (-4)], [ShLin 0%nat 1 0; ShLin 1%nat 1 (-1)], None);
  (19, 18, [ShLin 0%nat 1 1; ShLin 1%nat 1 (-2)], [ShLin 0%nat 1 0; ShLin 1%nat 1 (-1)], None);
  (19, 19, [ShLin 0%nat 1 1; ShLin 1%nat 1 (-2)], [ShLin 0%nat 1 0; ShLin 1%nat 1 1], None);
  (20, 18, [ShLin 0%nat 1 1; ShLin 1%nat 1 0], [ShLin 0%nat 1 0; ShLin 1%nat 1 (-1)], None);
  (20, 19, [ShLin 0%nat 1 1; ShLin 1%nat 1 0], [ShLin 0%nat 1 0; ShLin 1%nat 1 1], None);
  (20, 20, [ShLin 0%nat 1 1; ShLin 1%nat 1 0], [ShLin 0%nat 1 0; ShLin 1%nat 1 3], None);
  (21, 18, [ShLin 0%nat 1 1; ShLin 1%nat 1 2], [ShLin 0%nat 1 0; ShLin 1%nat 1 (-1)], None);
  (21, 19, [ShLin 0%nat 1 1; ShLin 1%nat 1 2], [ShLin 0%nat 1 0; ShLin 1%nat 1 1], None);
  (21, 20, [ShLin 0%nat 1 1; ShLin 1%nat 1 2], [ShLin 0%nat 1 0; ShLin 1%nat 1 3], None);
  (21, 21, [ShLin 0%nat 1 1; ShLin 1%nat 1 2], [ShLin 0%nat 1 0; ShLin 1%nat 1 5], None);
  (22, 19, [ShLin 0%nat 1 1; ShLin 1%nat 1 4], [ShLin 0%nat 1 0; ShLin 1%nat 1 1], None);
  (22, 20, [ShLin 0%nat 1 1; ShLin 1%nat 1 4], [ShLin 0%nat 1 0; ShLin 1%nat 1 3], None);
  (22, 21, [ShLin 0%nat 1 1; ShLin 1%nat 1 4], [ShLin 0%nat 1 0; ShLin 1%nat 1 5], None);
  (22, 22, [ShLin 0%nat 1 1; ShLin 1%nat 1 4], [ShLin 0%nat 1 0; ShLin 1%nat 1 7], None);
  (23, 23, [ShLin 0%nat 1 0; ShLin 1%nat 1 (-1)], [ShLin 0%nat 1 (-1); ShLin 1%nat 1 2], None);
  (24, 23, [ShLin 0%nat 1 0; ShLin 1%nat 1 1], [ShLin 0%nat 1 (-1); ShLin 1%nat 1 2], None);
  (24, 24, [ShLin 0%nat 1 0; ShLin 1%nat 1 1], [ShLin 0%nat 1 (-1); ShLin 1%nat 1 4], None);
  (25, 25, [ShLin 0%nat 1 0; ShLin 1%nat 1 (-3)], [ShLin 0%nat 1 (-1); ShLin 1%nat 1 0], None);
  (26, 25, [ShLin 0%nat 1 0; ShLin 1%nat 1 (-1)], [ShLin 0%nat 1 (-1); ShLin 1%nat 1 0], None);
  (26, 26, [ShLin 0%nat 1 0; ShLin 1%nat 1 (-1)], [ShLin 0%nat 1 (-1); ShLin 1%nat 1 2], None);
  (27, 25, [ShLin 0%nat 1 0; ShLin 1%nat 1 1], [ShLin 0%nat 1 (-1); ShLin 1%nat 1 0], None);
  (27, 26, [ShLin 0%nat 1 0; ShLin 1%nat 1 1], [ShLin 0%nat 1 (-1); ShLin 1%nat 1 2], None);
  (27, 27, [ShLin 0%nat 1 0; ShLin 1%nat 1 1], [ShLin 0%nat 1 (-1); ShLin 1%nat 1 4], None);
  (28, 25, [ShLin 0%nat 1 0; ShLin 1%nat 1 3], [ShLin 0%nat 1 (-1); ShLin 1%nat 1 0], None);
  (28, 26, [ShLin 0%nat 1 0; ShLin 1%nat 1 3], [ShLin 0%nat 1 (-1); ShLin 1%nat 1 2], None);
  (28, 27, [ShLin 0%nat 1 0; ShLin 1%nat 1 3], [ShLin 0%nat 1 (-1); ShLin 1%nat 1 4], None);
  (28, 28, [ShLin 0%nat 1 0; ShLin 1%nat 1 3], [ShLin 0%nat 1 (-1); ShLin 1%nat 1 6], None);
  (29, 29, [ShLin 0%nat 1 0; ShLin 1%nat 1 (-3)], [ShLin 0%nat 1 (-1); ShLin 1%nat 1 0], None);
  (30, 29, [ShLin 0%nat 1 0; ShLin 1%nat 1 (-1)], [ShLin 0%nat 1 (-1); ShLin 1%nat 1 0], None);
  (30, 30, [ShLin 0%nat 1 0; ShLin 1%nat 1 (-1)], [ShLin 0%nat 1 (-1); ShLin 1%nat 1 2], None);
  (31, 29, [ShLin 0%nat 1 0; ShLin 1%nat 1 1], [ShLin 0%nat 1 (-1); ShLin 1%nat 1 0], None);
  (31, 30, [ShLin 0%nat 1 0; ShLin 1%nat 1 1], [ShLin 0%nat 1 (-1); ShLin 1%nat 1 2], None);
  (31, 31, [ShLin 0%nat 1 0; ShLin 1%nat 1 1], [ShLin 0%nat 1 (-1); ShLin 1%nat 1 4], None);
  (32, 29, [ShLin 0%nat 1 0; ShLin 1%nat 1 3], [ShLin 0%nat 1 (-1); ShLin 1%nat 1 0], None);
  (32, 30, [ShLin 0%nat 1 0; ShLin 1%nat 1 3], [ShLin 0%nat 1 (-1); ShLin 1%nat 1 2], None);
  (32, 31, [ShLin 0%nat 1 0; ShLin 1%nat 1 3], [ShLin 0%nat 1 (-1); ShLin 1%nat 1 4], None);
  (32, 32, [ShLin 0%nat 1 0; ShLin 1%nat 1 3], [ShLin 0%nat 1 (-1); ShLin 1%nat 1 6], None);
  (33, 33, [ShLin 0%nat 1 0; ShLin 1%nat 1 (-3)], [ShLin 0%nat 1 (-1); ShLin 1%nat 1 0], None);
  (34, 33, [ShLin 0%nat 1 0; ShLin 1%nat 1 (-1)], [ShLin 0%nat 1 (-1); ShLin 1%nat 1 0], None);
  (34, 34, [ShLin 0%nat 1 0; ShLin 1%nat 1 (-1)], [ShLin 0%nat 1 (-1); ShLin 1%nat 1 2], None);
  (35, 33, [ShLin 0%nat 1 0; ShLin 1%nat 1 1], [ShLin 0%nat 1 (-1); ShLin 1%nat 1 0], None);
  (35, 34, [ShLin 0%nat 1 0; ShLin 1%nat 1 1], [ShLin 0%nat 1 (-1); ShLin 1%nat 1 2], None);
  (35, 35, [ShLin 0%nat 1 0; ShLin 1%nat 1 1], [ShLin 0%nat 1 (-1); ShLin 1%nat 1 4], None);
  (36, 33, [ShLin 0%nat 1 0; ShLin 1%nat 1 3], [ShLin 0%nat 1 (-1); ShLin 1%nat 1 0], None);
  (36, 34, [ShLin 0%nat 1 0; ShLin 1%nat 1 3], [ShLin 0%nat 1 (-1); ShLin 1%nat 1 2], None);
  (36, 35, [ShLin 0%nat 1 0; ShLin 1%nat 1 3], [ShLin 0%nat 1 (-1); ShLin 1%nat 1 4], None);
  (36, 36, [ShLin 0%nat 1 0; ShLin 1%nat 1 3], [ShLin 0%nat 1 (-1); ShLin 1%nat 1 6], None);
  (37, 37, [ShLin 0%nat 1 0; ShLin 1%nat 1 (-5)], [ShLin 0%nat 1 (-1); ShLin 1%nat 1 (-2)], None);
  (38, 37, [ShLin 0%nat 1 0; ShLin 1%nat 1 (-3)], [ShLin 0%nat 1 (-1); ShLin 1%nat 1 (-2)], None);
  (38, 38, [ShLin 0%nat 1 0; ShLin 1%nat 1 (-3)], [ShLin 0%nat 1 (-1); ShLin 1%nat 1 0], None);
  (39, 37, [ShLin 0%nat 1 0; ShLin 1%nat 1 (-1)], [ShLin 0%nat 1 (-1); ShLin 1%nat 1 (-2)], None);
  (39, 38, [ShLin 0%nat 1 0; ShLin 1%nat 1 (-1)], [ShLin 0%nat 1 (-1); ShLin 1%nat 1 0], None);
  (39, 39, [ShLin 0%nat 1 0; ShLin 1%nat 1 (-1)], [ShLin 0%nat 1 (-1); ShLin 1%nat 1 2], None);
  (40, 37, [ShLin 0%nat 1 0; ShLin 1%nat 1 1], [ShLin 0%nat 1 (-1); ShLin 1%nat 1 (-2)], None);
  (40, 38, [ShLin 0%nat 1 0; ShLin 1%nat 1 1], [ShLin 0%nat 1 (-1); ShLin 1%nat 1 0], None);
  (40, 39, [ShLin 0%nat 1 0; ShLin 1%nat 1 1], [ShLin 0%nat 1 (-1); ShLin 1%nat 1 2], None);
  (40, 40, [ShLin 0%nat 1 0; ShLin 1%nat 1 1], [ShLin 0%nat 1 (-1); ShLin 1%nat 1 4], None);
  (41, 38, [ShLin 0%nat 1 0; ShLin 1%nat 1 3], [ShLin 0%nat 1 (-1); ShLin 1%nat 1 0], None);
  (41, 39, [ShLin 0%nat 1 0; ShLin 1%nat 1 3], [ShLin 0%nat 1 (-1); ShLin 1%nat 1 2], None);
  (41, 40, [ShLin 0%nat 1 0; ShLin 1%nat 1 3], [ShLin 0%nat 1 (-1); ShLin 1%nat 1 4], None);
  (41, 41, [ShLin 0%nat 1 0; ShLin 1%nat 1 3], [ShLin 0%nat 1 (-1); ShLin 1%nat 1 6], None);
  (42, 39, [ShLin 0%nat 1 0; ShLin 1%nat 1 5], [ShLin 0%nat 1 (-1); ShLin 1%nat 1 2], None);
  (42, 40, [ShLin 0%nat 1 0; ShLin 1%nat 1 5], [ShLin 0%nat 1 (-1); ShLin 1%nat 1 4], None);
  (42, 41, [ShLin 0%nat 1 0; ShLin 1%nat 1 5], [ShLin 0%nat 1 (-1); ShLin 1%nat 1 6], None);
  (42, 42, [ShLin 0%nat 1 0; ShLin 1%nat 1 5], [ShLin 0%nat 1 (-1); ShLin 1%nat 1 8], None);
  (43, 43, [ShLin 0%nat 1 (-1); ShLin 1%nat 1 0], [ShLin 0%nat 1 (-2); ShLin 1%nat 1 3], None);
  (44, 44, [ShLin 0%nat 1 (-1); ShLin 1%nat 1 0], [ShLin 0%nat 1 (-2); ShLin 1%nat 1 3], None);
  (45, 45, [ShLin 0%nat 1 (-1); ShLin 1%nat 1 (-2)], [ShLin 0%nat 1 (-2); ShLin 1%nat 1 1], None);
  (46, 45, [ShLin 0%nat 1 (-1); ShLin 1%nat 1 0], [ShLin 0%nat 1 (-2); ShLin 1%nat 1 1], None);
  (46, 46, [ShLin 0%nat 1 (-1); ShLin 1%nat 1 0], [ShLin 0%nat 1 (-2); ShLin 1%nat 1 3], None);
  (47, 45, [ShLin 0%nat 1 (-1); ShLin 1%nat 1 2], [ShLin 0%nat 1 (-2); ShLin 1%nat 1 1], None);
  (47, 46, [ShLin 0%nat 1 (-1); ShLin 1%nat 1 2], [ShLin 0%nat 1 (-2); ShLin 1%nat 1 3], None);
  (47, 47, [ShLin 0%nat 1 (-1); ShLin 1%nat 1 2], [ShLin 0%nat 1 (-2); ShLin 1%nat 1 5], None);
  (48, 48, [ShLin 0%nat 1 (-1); ShLin 1%nat 1 (-4)], [ShLin 0%nat 1 (-2); ShLin 1%nat 1 (-1)], None);
  (49, 48, [ShLin 0%nat 1 (-1); ShLin 1%nat 1 (-2)], [ShLin 0%nat 1 (-2); ShLin 1%nat 1 (-1)], None);
  (49, 49, [ShLin 0%nat 1 (-1); ShLin 1%nat 1 (-2)], [ShLin 0%nat 1 (-2); ShLin 1%nat 1 1], None);
  (50, 48, [ShLin 0%nat 1 (-1); ShLin 1%nat 1 0], [ShLin 0%nat 1 (-2); ShLin 1%nat 1 (-1)], None);
  (50, 49, [ShLin 0%nat 1 (-1); ShLin 1%nat 1 0], [ShLin 0%nat 1 (-2); ShLin 1%nat 1 1], None);
  (50, 50, [ShLin 0%nat 1 (-1); ShLin 1%nat 1 0], [ShLin 0%nat 1 (-2); ShLin 1%nat 1 3], None);
  (51, 48, [ShLin 0%nat 1 (-1); ShLin 1%nat 1 2], [ShLin 0%nat 1 (-2); ShLin 1%nat 1 (-1)], None);
  (51, 49, [ShLin 0%nat 1 (-1); ShLin 1%nat 1 2], [ShLin 0%nat 1 (-2); ShLin 1%nat 1 1], None);
  (51, 50, [ShLin 0%nat 1 (-1); ShLin 1%nat 1 2], [ShLin 0%nat 1 (-2); ShLin 1%nat 1 3], None);
  (51, 51, [ShLin 0%nat 1 (-1); ShLin 1%nat 1 2], [ShLin 0%nat 1 (-2); ShLin 1%nat 1 5], None);
  (52, 49, [ShLin 0%nat 1 (-1); ShLin 1%nat 1 4], [ShLin 0%nat 1 (-2); ShLin 1%nat 1 1], None);
  (52, 50, [ShLin 0%nat 1 (-1); ShLin 1%nat 1 4], [ShLin 0%nat 1 (-2); ShLin 1%nat 1 3], None);
  (52, 51, [ShLin 0%nat 1 (-1); ShLin 1%nat 1 4], [ShLin 0%nat 1 (-2); ShLin 1%nat 1 5], None);
  (52, 52, [ShLin 0%nat 1 (-1); ShLin 1%nat 1 4], [ShLin 0%nat 1 (-2); ShLin 1%nat 1 7], None);
  (53, 53, [ShLin 0%nat 1 (-1); ShLin 1%nat 1 (-4)], [ShLin 0%nat 1 (-2); ShLin 1%nat 1 (-1)], None);
  (54, 53, [ShLin 0%nat 1 (-1); ShLin 1%nat 1 (-2)], [ShLin 0%nat 1 (-2); ShLin 1%nat 1 (-1)], None);
  (54, 54, [ShLin 0%nat 1 (-1); ShLin 1%nat 1 (-2)], [ShLin 0%nat 1 (-2); ShLin 1%nat 1 1], None);
  (55, 53, [ShLin 0%nat 1 (-1); ShLin 1%nat 1 0], [ShLin 0%nat 1 (-2); ShLin 1%nat 1 (-1)], None);
  (55, 54, [ShLin 0%nat 1 (-1); ShLin 1%nat 1 0], [ShLin 0%nat 1 (-2); ShLin 1%nat 1 1], None);
  (55, 55, [ShLin 0%nat 1 (-1); ShLin 1%nat 1 0], [ShLin 0%nat 1 (-2); ShLin 1%nat 1 3], None);
  (56, 53, [ShLin 0%nat 1 (-1); ShLin 1%nat 1 2], [ShLin 0%nat 1 (-2); ShLin 1%nat 1 (-1)], None);
  (56, 54, [ShLin 0%nat 1 (-1); ShLin 1%nat 1 2], [ShLin 0%nat 1 (-2); ShLin 1%nat 1 1], None);
  (56, 55, [ShLin 0%nat 1 (-1); ShLin 1%nat 1 2], [ShLin 0%nat 1 (-2); ShLin 1%nat 1 3], None);
  (56, 56, [ShLin 0%nat 1 (-1); ShLin 1%nat 1 2], [ShLin 0%nat 1 (-2); ShLin 1%nat 1 5], None);
  (57, 54, [ShLin 0%nat 1 (-1); ShLin 1%nat 1 4], [ShLin 0%nat 1 (-2); ShLin 1%nat 1 1], None);
  (57, 55, [ShLin 0%nat 1 (-1); ShLin 1%nat 1 4], [ShLin 0%nat 1 (-2); ShLin 1%nat 1 3], None);
  (57, 56, [ShLin 0%nat 1 (-1); ShLin 1%nat 1 4], [ShLin 0%nat 1 (-2); ShLin 1%nat 1 5], None);
  (57, 57, [ShLin 0%nat 1 (-1); ShLin 1%nat 1 4], [ShLin 0%nat 1 (-2); ShLin 1%nat 1 7], None);
  (58, 58, [ShLin 0%nat 1 (-2); ShLin 1%nat 1 (-1)], [ShLin 0%nat 1 (-3); ShLin 1%nat 1 2], None);
  (59, 58, [ShLin 0%nat 1 (-2); ShLin 1%nat 1 1], [ShLin 0%nat 1 (-3); ShLin 1%nat 1 2], None);
  (59, 59, [ShLin 0%nat 1 (-2); ShLin 1%nat 1 1], [ShLin 0%nat 1 (-3); ShLin 1%nat 1 4], None);
  (60, 60, [ShLin 0%nat 1 (-2); ShLin 1%nat 1 (-3)], [ShLin 0%nat 1 (-3); ShLin 1%nat 1 0], None);
  (61, 60, [ShLin 0%nat 1 (-2); ShLin 1%nat 1 (-1)], [ShLin 0%nat 1 (-3); ShLin 1%nat 1 0], None);
  (61, 61, [ShLin 0%nat 1 (-2); ShLin 1%nat 1 (-1)], [ShLin 0%nat 1 (-3); ShLin 1%nat 1 2], None);
  (62, 60, [ShLin 0%nat 1 (-2); ShLin 1%nat 1 1], [ShLin 0%nat 1 (-3); ShLin 1%nat 1 0], None);
  (62, 61, [ShLin 0%nat 1 (-2); ShLin 1%nat 1 1], [ShLin 0%nat 1 (-3); ShLin 1%nat 1 2], None);
  (62, 62, [ShLin 0%nat 1 (-2); ShLin 1%nat 1 1], [ShLin 0%nat 1 (-3); ShLin 1%nat 1 4], None);
  (63, 60, [ShLin 0%nat 1 (-2); ShLin 1%nat 1 3], [ShLin 0%nat 1 (-3); ShLin 1%nat 1 0], None);
  (63, 61, [ShLin 0%nat 1 (-2); ShLin 1%nat 1 3], [ShLin 0%nat 1 (-3); ShLin 1%nat 1 2], None);
  (63, 62, [ShLin 0%nat 1 (-2); ShLin 1%nat 1 3], [ShLin 0%nat 1 (-3); ShLin 1%nat 1 4], None);
  (63, 63, [ShLin 0%nat 1 (-2); ShLin 1%nat 1 3], [ShLin 0%nat 1 (-3); ShLin 1%nat 1 6], None);
  (64, 64, [ShLin 0%nat 1 (-3); ShLin 1%nat 1 0], [ShLin 0%nat 1 (-4); ShLin 1%nat 1 3], None)].
(** /repo/c++/symmetry/nrg-recalc-QJ.hpp recalc_quadruplet, qj/qj-quad2.dat *)
Definition qj_t3 : ten_table := mk_ten "quadruplet" [ShLin 0%nat 1 (-1); ShLin 1%nat 1 1] [1; 4] [
  (1, 1, [ShLin 0%nat 1 3; ShLin 1%nat 1 0], [ShLin 0%nat 1 2; ShLin 1%nat 1 1], None);
  (2, 2, [ShLin 0%nat 1 2; ShLin 1%nat 1 (-1)], [ShLin 0%nat 1 1; ShLin 1%nat 1 0], None);
  (2, 3, [ShLin 0%nat 1 2; ShLin 1%nat 1 (-1)], [ShLin 0%nat 1 1; ShLin 1%nat 1 2], None);
  (3, 2, [ShLin 0%nat 1 2; ShLin 1%nat 1 1], [ShLin 0%nat 1 1; ShLin 1%nat 1 0], None);
  (3, 3, [ShLin 0%nat 1 2; ShLin 1%nat 1 1], [ShLin 0%nat 1 1; ShLin 1%nat 1 2], None);
  (4, 4, [ShLin 0%nat 1 2; ShLin 1%nat 1 (-3)], [ShLin 0%nat 1 1; ShLin 1%nat 1 (-2)], None);
  (4, 5, [ShLin 0%nat 1 2; ShLin 1%nat 1 (-3)], [ShLin 0%nat 1 1; ShLin 1%nat 1 0], None);
  (5, 4, [ShLin 0%nat 1 2; ShLin 1%nat 1 (-1)], [ShLin 0%nat 1 1; ShLin 1%nat 1 (-2)], None);
  (5, 5, [ShLin 0%nat 1 2; ShLin 1%nat 1 (-1)], [ShLin 0%nat 1 1; ShLin 1%nat 1 0], None);
  (5, 6, [ShLin 0%nat 1 2; ShLin 1%nat 1 (-1)], [ShLin 0%nat 1 1; ShLin 1%nat 1 2], None);
  (6, 4, [ShLin 0%nat 1 2; ShLin 1%nat 1 1], [ShLin 0%nat 1 1; ShLin 1%nat 1 (-2)], None);
  (6, 5, [ShLin 0%nat 1 2; ShLin 1%nat 1 1], [ShLin 0%nat 1 1; ShLin 1%nat 1 0], None);
  (6, 6, [ShLin 0%nat 1 2; ShLin 1%nat 1 1], [ShLin 0%nat 1 1; ShLin 1%nat 1 2], None);
  (6, 7, [ShLin 0%nat 1 2; ShLin 1%nat 1 1], [ShLin 0%nat 1 1; ShLin 1%nat 1 4], None);
  (7, 5, [ShLin 0%nat 1 2; ShLin 1%nat 1 3], [ShLin 0%nat 1 1; ShLin 1%nat 1 0], None);
  (7, 6, [ShLin 0%nat 1 2; ShLin 1%nat 1 3], [ShLin 0%nat 1 1; ShLin 1%nat 1 2], None);
  (7, 7, [ShLin 0%nat 1 2; ShLin 1%nat 1 3], [ShLin 0%nat 1 1; ShLin 1%nat 1 4], None);
  (8, 8, [ShLin 0%nat 1 1; ShLin 1%nat 1 0], [ShLin 0%nat 1 0; ShLin 1%nat 1 1], None);
  (9, 9, [ShLin 0%nat 1 1; ShLin 1%nat 1 0], [ShLin 0%nat 1 0; ShLin 1%nat 1 1], None);
  (10, 10, [ShLin 0%nat 1 1; ShLin 1%nat 1 (-2)], [ShLin 0%nat 1 0; ShLin 1%nat 1 (-1)], None);
  (10, 11, [ShLin 0%nat 1 1; ShLin 1%nat 1 (-2)], [ShLin 0%nat 1 0; ShLin 1%nat 1 1], None);
  (11, 10, [ShLin 0%nat 1 1; ShLin 1%nat 1 0], [ShLin 0%nat 1 0; ShLin 1%nat 1 (-1)], None);
  (11, 11, [ShLin 0%nat 1 1; ShLin 1%nat 1 0], [ShLin 0%nat 1 0; ShLin 1%nat 1 1], None);
  (11, 12, [ShLin 0%nat 1 1; ShLin 1%nat 1 0], [ShLin 0%nat 1 0; ShLin 1%nat 1 3], None);
  (12, 10, [ShLin 0%nat 1 1; ShLin 1%nat 1 2], [ShLin 0%nat 1 0; ShLin 1%nat 1 (-1)], None);
  (12, 11, [ShLin 0%nat 1 1; ShLin 1%nat 1 2], [ShLin 0%nat 1 0; ShLin 1%nat 1 1], None);
  (12, 12, [ShLin 0%nat 1 1; ShLin 1%nat 1 2], [ShLin 0%nat 1 0; ShLin 1%nat 1 3], None);
  (13, 13, [ShLin 0%nat 1 1; ShLin 1%nat 1 (-4)], [ShLin 0%nat 1 0; ShLin 1%nat 1 (-3)], None);
  (13, 14, [ShLin 0%nat 1 1; ShLin 1%nat 1 (-4)], [ShLin 0%nat 1 0; ShLin 1%nat 1 (-1)], None);
  (14, 13, [ShLin 0%nat 1 1; ShLin 1%nat 1 (-2)], [ShLin 0%nat 1 0; ShLin 1%nat 1 (-3)], None);
  (14, 14, [ShLin 0%nat 1 1; ShLin 1%nat 1 (-2)], [ShLin 0%nat 1 0; ShLin 1%nat 1 (-1)], None);
  (14, 15, [ShLin 0%nat 1 1; ShLin 1%nat 1 (-2)], [ShLin 0%nat 1 0; ShLin 1%nat 1 1], None);
  (15, 13, [ShLin 0%nat 1 1; ShLin 1%nat 1 0], [ShLin 0%nat 1 0; ShLin 1%nat 1 (-3)], None);
  (15, 14, [ShLin 0%nat 1 1; ShLin 1%nat 1 0], [ShLin 0%nat 1 0; ShLin 1%nat 1 (-1)], None);
  (15, 15, [ShLin 0%nat 1 1; ShLin 1%nat 1 0], [ShLin 0%nat 1 0; ShLin 1%nat 1 1], None);
  (15, 16, [ShLin 0%nat 1 1; ShLin 1%nat 1 0], [ShLin 0%nat 1 0; ShLin 1%nat 1 3], None);
  (16, 14, [ShLin 0%nat 1 1; ShLin 1%nat 1 2], [ShLin 0%nat 1 0; ShLin 1%nat 1 (-1)], None);
  (16, 15, [ShLin 0%nat 1 1; ShLin 1%nat 1 2], [ShLin 0%nat 1 0; ShLin 1%nat 1 1], None);
  (16, 16, [ShLin 0%nat 1 1; ShLin 1%nat 1 2], [ShLin 0%nat 1 0; ShLin 1%nat 1 3], None);
  (16, 17, [ShLin 0%nat 1 1; ShLin 1%nat 1 2], [ShLin 0%nat 1 0; ShLin 1%nat 1 5], None);
  (17, 15, [ShLin 0%nat 1 1; ShLin 1%nat 1 4], [ShLin 0%nat 1 0; ShLin 1%nat 1 1], None);
  (17, 16, [ShLin 0%nat 1 1; ShLin 1%nat 1 4], [ShLin 0%nat 1 0; ShLin 1%nat 1 3], None);
  (17, 17, [ShLin 0%nat 1 1; ShLin 1%nat 1 4], [ShLin 0%nat 1 0; ShLin 1%nat 1 5], None);
  (18, 18, [ShLin 0%nat 1 1; ShLin 1%nat 1 (-4)], [ShLin 0%nat 1 0; ShLin 1%nat 1 (-3)], None);
  (18, 19, [ShLin 0%nat 1 1; ShLin 1%nat 1 (-4)], [ShLin 0%nat 1 0; ShLin 1%nat 1 (-1)], None);
  (19, 18, [ShLin 0%nat 1 1; ShLin 1%nat 1 (-2)], [ShLin 0%nat 1 0; ShLin 1%nat 1 (-3)], None);
  (19, 19, [ShLin 0%nat 1 1; ShLin 1%nat 1 (-2)], [ShLin 0%nat 1 0; ShLin 1%nat 1 (-1)], None);
  (19, 20, [ShLin 0%nat 1 1; ShLin 1%nat 1 (-2)], [ShLin 0%nat 1 0; ShLin 1%nat 1 1], None);
  (20, 18, [ShLin 0%nat 1 1; ShLin 1%nat 1 0], [ShLin 0%nat 1 0; ShLin 1%nat 1 (-3)], None);
  (20, 19, [ShLin 0%nat 1 1; ShLin 1%nat 1 0], [ShLin 0%nat 1 0; ShLin 1%nat 1 (-1)], None);
  (20, 20, [ShLin 0%nat 1 1; ShLin 1%nat 1 0], [ShLin 0%nat 1 0; ShLin 1%nat 1 1], None);
  (20, 21, [ShLin 0%nat 1 1; ShLin 1%nat 1 0], [ShLin 0%nat 1 0; ShLin 1%nat 1 3], None);
  (21, 19, [ShLin 0%nat 1 1; ShLin 1%nat 1 2], [ShLin 0%nat 1 0; ShLin 1%nat 1 (-1)], None);
  (21, 20, [ShLin 0%nat 1 1; ShLin 1%nat 1 2], [ShLin 0%nat 1 0; ShLin 1%nat 1 1], None);
  (21, 21, [ShLin 0%nat 1 1; ShLin 1%nat 1 2], [ShLin 0%nat 1 0; ShLin 1%nat 1 3], None);
  (21, 22, [ShLin 0%nat 1 1; ShLin 1%nat 1 2], [ShLin 0%nat 1 0; ShLin 1%nat 1 5], None);
  (22, 20, [ShLin 0%nat 1 1; ShLin 1%nat 1 4], [ShLin 0%nat 1 0; ShLin 1%nat 1 1], None);
  (22, 21, [ShLin 0%nat 1 1; ShLin 1%nat 1 4], [ShLin 0%nat 1 0; ShLin 1%nat 1 3], None);
  (22, 22, [ShLin 0%nat 1 1; ShLin 1%nat 1 4], [ShLin 0%nat 1 0; ShLin 1%nat 1 5], None);
  (23, 23, [ShLin 0%nat 1 0; ShLin 1%nat 1 (-1)], [ShLin 0%nat 1 (-1); ShLin 1%nat 1 0], None);
  (23, 24, [ShLin 0%nat 1 0; ShLin 1%nat 1 (-1)], [ShLin 0%nat 1 (-1); ShLin 1%nat 1 2], None);
  (24, 23, [ShLin 0%nat 1 0; ShLin 1%nat 1 1], [ShLin 0%nat 1 (-1); ShLin 1%nat 1 0], None);
  (24, 24, [ShLin 0%nat 1 0; ShLin 1%nat 1 1], [ShLin 0%nat 1 (-1); ShLin 1%nat 1 2], None);
  (25, 25, [ShLin 0%nat 1 0; ShLin 1%nat 1 (-3)], [ShLin 0%nat 1 (-1); ShLin 1%nat 1 (-2)], None);
  (25, 26, [ShLin 0%nat 1 0; ShLin 1%nat 1 (-3)], [ShLin 0%nat 1 (-1); ShLin 1%nat 1 0], None);
  (26, 25, [ShLin 0%nat 1 0; ShLin 1%nat 1 (-1)], [ShLin 0%nat 1 (-1); ShLin 1%nat 1 (-2)], None);
  (26, 26, [ShLin 0%nat 1 0; ShLin 1%nat 1 (-1)], [ShLin 0%nat 1 (-1); ShLin 1%nat 1 0], None);
  (26, 27, [ShLin 0%nat 1 0; ShLin 1%nat 1 (-1)], [ShLin 0%nat 1 (-1); ShLin 1%nat 1 2], None);
  (27, 25, [ShLin 0%nat 1 0; ShLin 1%nat 1 1], [ShLin 0%nat 1 (-1); ShLin 1%nat 1 (-2)], None);
  (27, 26, [ShLin 0%nat 1 0; ShLin 1%nat 1 1], [ShLin 0%nat 1 (-1); ShLin 1%nat 1 0], None);
  (27, 27, [ShLin 0%nat 1 0; ShLin 1%nat 1 1], [ShLin 0%nat 1 (-1); ShLin 1%nat 1 2], None);
  (27, 28, [ShLin 0%nat 1 0; ShLin 1%nat 1 1], [ShLin 0%nat 1 (-1); ShLin 1%nat 1 4], None);
  (28, 26, [ShLin 0%nat 1 0; ShLin 1%nat 1 3], [ShLin 0%nat 1 (-1); ShLin 1%nat 1 0], None);
  (28, 27, [ShLin 0%nat 1 0; ShLin 1%nat 1 3], [ShLin 0%nat 1 (-1); ShLin 1%nat 1 2], None);
  (28, 28, [ShLin 0%nat 1 0; ShLin 1%nat 1 3], [ShLin 0%nat 1 (-1); ShLin 1%nat 1 4], None);
  (29, 29, [ShLin 0%nat 1 0; ShLin 1%nat 1 (-3)], [ShLin 0%nat 1 (-1); ShLin 1%nat 1 (-2)], None);
  (29, 30, [ShLin 0%nat 1 0; ShLin 1%nat 1 (-3)], [ShLin 0%nat 1 (-1); ShLin 1%nat 1 0], None);
  (30, 29, [ShLin 0%nat 1 0; ShLin 1%nat 1 (-1)], [ShLin 0%nat 1 (-1); ShLin 1%nat 1 (-2)], None);
  (30, 30, [ShLin 0%nat 1 0; ShLin 1%nat 1 (-1)], [ShLin 0%nat 1 (-1); ShLin 1%nat 1 0], None);
  (30, 31, [ShLin 0%nat 1 0; ShLin 1%nat 1 (-1)], [ShLin 0%nat 1 (-1); ShLin 1%nat 1 2], None);
  (31, 29, [ShLin 0%nat 1 0; ShLin 1%nat 1 1], [ShLin 0%nat 1 (-1); ShLin 1%nat 1 (-2)], None);
  (31, 30, [ShLin 0%nat 1 0; ShLin 1%nat 1 1], [ShLin 0%nat 1 (-1); ShLin 1%nat 1 0], None);
  (31, 31, [ShLin 0%nat 1 0; ShLin 1%nat 1 1], [ShLin 0%nat 1 (-1); ShLin 1%nat 1 2], None);
  (31, 32, [ShLin 0%nat 1 0; ShLin 1%nat 1 1], [ShLin 0%nat 1 (-1); ShLin 1%nat 1 4], None);
  (32, 30, [ShLin 0%nat 1 0; ShLin 1%nat 1 3], [ShLin 0%nat 1 (-1); ShLin 1%nat 1 0], None);
  (32, 31, [ShLin 0%nat 1 0; ShLin 1%nat 1 3], [ShLin 0%nat 1 (-1); ShLin 1%nat 1 2], None);
  (32, 32, [ShLin 0%nat 1 0; ShLin 1%nat 1 3], [ShLin 0%nat 1 (-1); ShLin 1%nat 1 4], None);
  (33, 33, [ShLin 0%nat 1 0; ShLin 1%nat 1 (-3)], [ShLin 0%nat 1 (-1); ShLin 1%nat 1 (-2)], None);
  (33, 34, [ShLin 0%nat 1 0; ShLin 1%nat 1 (-3)], [ShLin 0%nat 1 (-1); ShLin 1%nat 1 0], None);
  (34, 33, [ShLin 0%nat 1 0; ShLin 1%nat 1 (-1)], [ShLin 0%nat 1 (-1); ShLin 1%nat 1 (-2)], None);
  (34, 34, [ShLin 0%nat 1 0; ShLin 1%nat 1 (-1)], [ShLin 0%nat 1 (-1); ShLin 1%nat 1 0], None);
  (34, 35, [ShLin 0%nat 1 0; ShLin 1%nat 1 (-1)], [ShLin 0%nat 1 (-1); ShLin 1%nat 1 2], None);
  (35, 33, [ShLin 0%nat 1 0; ShLin 1%nat 1 1], [ShLin 0%nat 1 (-1); ShLin 1%nat 1 (-2)], None);
  (35, 34, [ShLin 0%nat 1 0; ShLin 1%nat 1 1], [ShLin 0%nat 1 (-1); ShLin 1%nat 1 0], None);
  (35, 35, [ShLin 0%nat 1 0; ShLin 1%nat 1 1], [ShLin 0%nat 1 (-1); ShLin 1%nat 1 2], None);
  (35, 36, [ShLin 0%nat 1 0; ShLin 1%nat 1 1], [ShLin 0%nat 1 (-1); ShLin 1%nat 1 4], None);
  (36, 34, [ShLin 0%nat 1 0; ShLin 1%nat 1 3], [ShLin 0%nat 1 (-1); ShLin 1%nat 1 0], None);
  (36, 35, [ShLin 0%nat 1 0; ShLin 1%nat 1 3], [ShLin 0%nat 1 (-1); ShLin 1%nat 1 2], None);
  (36, 36, [ShLin 0%nat 1 0; ShLin 1%nat 1 3], [ShLin 0%nat 1 (-1); ShLin 1%nat 1 4], None);
  (37, 37, [ShLin 0%nat 1 0; ShLin 1%nat 1 (-5)], [ShLin 0%nat 1 (-1); ShLin 1%nat 1 (-4)], None);
  (37, 38, [ShLin 0%nat 1 0; ShLin 1%nat 1 (-5)], [ShLin 0%nat 1 (-1); ShLin 1%nat 1 (-2)], None);
  (38, 37, [ShLin 0%nat 1 0; ShLin 1%nat 1 (-3)], [ShLin 0%nat 1 (-1); ShLin 1%nat 1 (-4)], None);
  (38, 38, [ShLin 0%nat 1 0; ShLin 1%nat 1 (-3)], [ShLin 0%nat 1 (-1); ShLin 1%nat 1 (-2)], None);
  (38, 39, [ShLin 0%nat 1 0; ShLin 1%nat 1 (-3)], [ShLin 0%nat 1 (-1); ShLin 1%nat 1 0], None);
  (39, 37, [ShLin 0%nat 1 0; ShLin 1%nat 1 (-1)], [ShLin 0%nat 1 (-1); ShLin 1%nat 1 (-4)], None);
  (39, 38, [ShLin 0%nat 1 0; ShLin 1%nat 1 (-1)], [ShLin 0%nat 1 (-1); ShLin 1%nat 1 (-2)], None);
  (39, 39, [ShLin 0%nat 1 0; ShLin 1%nat 1 (-1)], [ShLin 0%nat 1 (-1); ShLin 1%nat 1 0], None);
  (39, 40, [ShLin 0%nat 1 0; ShLin 1%nat 1 (-1)], [ShLin 0%nat 1 (-1); ShLin 1%nat 1 2], None);
  (40, 38, [ShLin 0%nat 1 0; ShLin 1%nat 1 1], [ShLin 0%nat 1 (-1); ShLin 1%nat 1 (-2)], None);
  (40, 39, [ShLin 0%nat 1 0; ShLin 1%nat 1 1], [ShLin 0%nat 1 (-1); ShLin 1%nat 1 0], None);
  (40, 40, [ShLin 0%nat 1 0; ShLin 1%nat 1 1], [ShLin 0%nat 1 (-1); ShLin 1%nat 1 2], None);
  (40, 41, [ShLin 0%nat 1 0; ShLin 1%nat 1 1], [ShLin 0%nat 1 (-1); ShLin 1%nat 1 4], None);
  (41, 39, [ShLin 0%nat 1 0; ShLin 1%nat 1 3], [ShLin 0%nat 1 (-1); ShLin 1%nat 1 0], None);
  (41, 40, [ShLin 0%nat 1 0; ShLin 1%nat 1 3], [ShLin 0%nat 1 (-1); ShLin 1%nat 1 2], None);
  (41, 41, [ShLin 0%nat 1 0; ShLin 1%nat 1 3], [ShLin 0%nat 1 (-1); ShLin 1%nat 1 4], None);
  (41, 42, [ShLin 0%nat 1 0; ShLin 1%nat 1 3], [ShLin 0%nat 1 (-1); ShLin 1%nat 1 6], None);
  (42, 40, [ShLin 0%nat 1 0; ShLin 1%nat 1 5], [ShLin 0%nat 1 (-1); ShLin 1%nat 1 2], None);
  (42, 41, [ShLin 0%nat 1 0; ShLin 1%nat 1 5], [ShLin 0%nat 1 (-1); ShLin 1%nat 1 4], None);
  (42, 42, [ShLin 0%nat 1 0; ShLin 1%nat 1 5], [ShLin 0%nat 1 (-1); ShLin 1%nat 1 6], None);
  (43, 43, [ShLin 0%nat 1 (-1); ShLin 1%nat 1 0], [ShLin 0%nat 1 (-2); ShLin 1%nat 1 1], None);
  (44, 44, [ShLin 0%nat 1 (-1); ShLin 1%nat 1 0], [ShLin 0%nat 1 (-2); ShLin 1%nat 1 1], None);
  (45, 45, [ShLin 0%nat 1 (-1); ShLin 1%nat 1 (-2)], [ShLin 0%nat 1 (-2); ShLin 1%nat 1 (-1)], None);
  (45, 46, [ShLin 0%nat 1 (-1); ShLin 1%nat 1 (-2)], [ShLin 0%nat 1 (-2); ShLin 1%nat 1 1], None);
  (46, 45, [ShLin 0%nat 1 (-1); ShLin 1%nat 1 0], [ShLin 0%nat 1 (-2); ShLin 1%nat 1 (-1)], None);
  (46, 46, [ShLin 0%nat 1 (-1); ShLin 1%nat 1 0], [ShLin 0%nat 1 (-2); ShLin 1%nat 1 1], None);
  (46, 47, [ShLin 0%nat 1 (-1); ShLin 1%nat 1 0], [ShLin 0%nat 1 (-2); ShLin 1%nat 1 3], None);
  (47, 45, [ShLin 0%nat 1 (-1); ShLin 1%nat 1 2], [ShLin 0%nat 1 (-2); ShLin 1%nat 1 (-1)], None);
  (47, 46, [ShLin 0%nat 1 (-1); ShLin 1%nat 1 2], [ShLin 0%nat 1 (-2); ShLin 1%nat 1 1], None);
  (47, 47, [ShLin 0%nat 1 (-1); ShLin 1%nat 1 2], [ShLin 0%nat 1 (-2); ShLin 1%nat 1 3], None);
  (48, 48, [ShLin 0%nat 1 (-1); ShLin 1%nat 1 (-4)], [ShLin 0%nat 1 (-2); ShLin 1%nat 1 (-3)], None);
  (48, 49, [ShLin 0%nat 1 (-1); ShLin 1%nat 1 (-4)], [ShLin 0%nat 1 (-2); ShLin 1%nat 1 (-1)], None);
  (49, 48, [ShLin 0%nat 1 (-1); ShLin 1%nat 1 (-2)], [ShLin 0%nat 1 (-2); ShLin 1%nat 1 (-3)], None);
  (49, 49, [ShLin 0%nat 1 (-1); ShLin 1%nat 1 (-2)], [ShLin 0%nat 1 (-2); ShLin 1%nat 1 (-1)], None);
  (49, 50, [ShLin 0%nat 1 (-1); ShLin 1%nat 1 (-2)], [ShLin 0%nat 1 (-2); ShLin 1%nat 1 1], None);
  (50, 48, [ShLin 0%nat 1 (-1); ShLin 1%nat 1 0], [ShLin 0%nat 1 (-2); ShLin 1%nat 1 (-3)], None);
  (50, 49, [ShLin 0%nat 1 (-1); ShLin 1%nat 1 0], [ShLin 0%nat 1 (-2); ShLin 1%nat 1 (-1)], None);
  (50, 50, [ShLin 0%nat 1 (-1); ShLin 1%nat 1 0], [ShLin 0%nat 1 (-2); ShLin 1%nat 1 1], None);
  (50, 51, [ShLin 0%nat 1 (-1); ShLin 1%nat 1 0], [ShLin 0%nat 1 (-2); ShLin 1%nat 1 3], None);
  (51, 49, [ShLin 0%nat 1 (-1); ShLin 1%nat 1 2], [ShLin 0%nat 1 (-2); ShLin 1%nat 1 (-1)], None);
  (51, 50, [ShLin 0%nat 1 (-1); ShLin 1%nat 1 2], [ShLin 0%nat 1 (-2); ShLin 1%nat 1 1], None);
  (51, 51, [ShLin 0%nat 1 (-1); ShLin 1%nat 1 2], [ShLin 0%nat 1 (-2); ShLin 1%nat 1 3], None);
  (51, 52, [ShLin 0%nat 1 (-1); ShLin 1%nat 1 2], [ShLin 0%nat 1 (-2); ShLin 1%nat 1 5], None);
  (52, 50, [ShLin 0%nat 1 (-1); ShLin 1%nat 1 4], [ShLin 0%nat 1 (-2); ShLin 1%nat 1 1], None);
  (52, 51, [ShLin 0%nat 1 (-1); ShLin 1%nat 1 4], [ShLin 0%nat 1 (-2); ShLin 1%nat 1 3], None);
  (52, 52, [ShLin 0%nat 1 (-1); ShLin 1%nat 1 4], [ShLin 0%nat 1 (-2); ShLin 1%nat 1 5], None);
  (53, 53, [ShLin 0%nat 1 (-1); ShLin 1%nat 1 (-4)], [ShLin 0%nat 1 (-2); ShLin 1%nat 1 (-3)], None);
  (53, 54, [ShLin 0%nat 1 (-1); ShLin 1%nat 1 (-4)], [ShLin 0%nat 1 (-2); ShLin 1%nat 1 (-1)], None);
  (54, 53, [ShLin 0%nat 1 (-1); ShLin 1%nat 1 (-2)], [ShLin 0%nat 1 (-2); ShLin 1%nat 1 (-3)], None);
  (54, 54, [ShLin 0%nat 1 (-1); ShLin 1%nat 1 (-2)], [ShLin 0%nat 1 (-2); ShLin 1%nat 1 (-1)], None);
  (54, 55, [ShLin 0%nat 1 (-1); ShLin 1%nat 1 (-2)], [ShLin 0%nat 1 (-2); ShLin 1%nat 1 1], None);
  (55, 53, [ShLin 0%nat 1 (-1); ShLin 1%nat 1 0], [ShLin 0%nat 1 (-2); ShLin 1%nat 1 (-3)], None);
  (55, 54, [ShLin 0%nat 1 (-1); ShLin 1%nat 1 0], [ShLin 0%nat 1 (-2); ShLin 1%nat 1 (-1)], None);
  (55, 55, [ShLin 0%nat 1 (-1); ShLin 1%nat 1 0], [ShLin 0%nat 1 (-2); ShLin 1%nat 1 1], None);
  (55, 56, [ShLin 0%nat 1 (-1); ShLin 1%nat 1 0], [ShLin 0%nat 1 (-2); ShLin 1%nat 1 3], None);
  (56, 54, [ShLin 0%nat 1 (-1); ShLin 1%nat 1 2], [ShLin 0%nat 1 (-2); ShLin 1%nat 1 (-1)], None);
  (56, 55, [ShLin 0%nat 1 (-1); ShLin 1%nat 1 2], [ShLin 0%nat 1 (-2); ShLin 1%nat 1 1], None);
  (56, 56, [ShLin 0%nat 1 (-1); ShLin 1%nat 1 2], [ShLin 0%nat 1 (-2); ShLin 1%nat 1 3], None);
  (56, 57, [ShLin 0%nat 1 (-1); ShLin 1%nat 1 2], [ShLin 0%nat 1 (-2); ShLin 1%nat 1 5], None);
  (57, 55, [ShLin 0%nat 1 (-1); ShLin 1%nat 1 4], [ShLin 0%nat 1 (-2); ShLin 1%nat 1 1], None);
  (57, 56, [ShLin 0%nat 1 (-1); ShLin 1%nat 1 4], [ShLin 0%nat 1 (-2); ShLin 1%nat 1 3], None);
  (57, 57, [ShLin 0%nat 1 (-1); ShLin 1%nat 1 4], [ShLin 0%nat 1 (-2); ShLin 1%nat 1 5], None);
  (58, 58, [ShLin 0%nat 1 (-2); ShLin 1%nat 1 (-1)], [ShLin 0%nat 1 (-3); ShLin 1%nat 1 0], None);
  (58, 59, [ShLin 0%nat 1 (-2); ShLin 1%nat 1 (-1)], [ShLin 0%nat 1 (-3); ShLin 1%nat 1 2], None);
  (59, 58, [ShLin 0%nat 1 (-2); ShLin 1%nat 1 1], [ShLin 0%nat 1 (-3); ShLin 1%nat 1 0], None);
  (59, 59, [ShLin 0%nat 1 (-2); ShLin 1%nat 1 1], [ShLin 0%nat 1 (-3); ShLin 1%nat 1 2], None);
  (60, 60, [ShLin 0%nat 1 (-2); ShLin 1%nat 1 (-3)], [ShLin 0%nat 1 (-3); ShLin 1%nat 1 (-2)], None);
  (60, 61, [ShLin 0%nat 1 (-2); ShLin 1%nat 1 (-3)], [ShLin 0%nat 1 (-3); ShLin 1%nat 1 0], None);
  (61, 60, [ShLin 0%nat 1 (-2); ShLin 1%nat 1 (-1)], [ShLin 0%nat 1 (-3); ShLin 1%nat 1 (-2)], None);
  (61, 61, [ShLin 0%nat 1 (-2); ShLin 1%nat 1 (-1)], [ShLin 0%nat 1 (-3); ShLin 1%nat 1 0], None);
  (61, 62, [ShLin 0%nat 1 (-2); ShLin 1%nat 1 (-1)], [ShLin 0%nat 1 (-3); ShLin 1%nat 1 2], None);
  (62, 60, [ShLin 0%nat 1 (-2); ShLin 1%nat 1 1], [ShLin 0%nat 1 (-3); ShLin 1%nat 1 (-2)], None);
  (62, 61, [ShLin 0%nat 1 (-2); ShLin 1%nat 1 1], [ShLin 0%nat 1 (-3); ShLin 1%nat 1 0], None);
  (62, 62, [ShLin 0%nat 1 (-2); ShLin 1%nat 1 1], [ShLin 0%nat 1 (-3); ShLin 1%nat 1 2], None);
  (62, 63, [ShLin 0%nat 1 (-2); ShLin 1%nat 1 1], [ShLin 0%nat 1 (-3); ShLin 1%nat 1 4], None);
  (63, 61, [ShLin 0%nat 1 (-2); ShLin 1%nat 1 3], [ShLin 0%nat 1 (-3); ShLin 1%nat 1 0], None);
  (63, 62, [ShLin 0%nat 1 (-2); ShLin 1%nat 1 3], [ShLin 0%nat 1 (-3); ShLin 1%nat 1 2], None);
  (63, 63, [ShLin 0%nat 1 (-2); ShLin 1%nat 1 3], [ShLin 0%nat 1 (-3); ShLin 1%nat 1 4], None);
  (64, 64, [ShLin 0%nat 1 (-3); ShLin 1%nat 1 0], [ShLin 0%nat 1 (-4); ShLin 1%nat 1 1], None)].
(** /repo/c++/symmetry/nrg-recalc-QJ.hpp recalc_quadruplet, qj/qj-quad3.dat *)
Definition qj_t4 : ten_table := mk_ten "quadruplet" [ShLin 0%nat 1 (-1); ShLin 1%nat 1 (-1)] [1; 4] [
  (1, 1, [ShLin 0%nat 1 3; ShLin 1%nat 1 0], [ShLin 0%nat 1 2; ShLin 1%nat 1 (-1)], None);
  (2, 2, [ShLin 0%nat 1 2; ShLin 1%nat 1 (-1)], [ShLin 0%nat 1 1; ShLin 1%nat 1 (-2)], None);
  (2, 3, [ShLin 0%nat 1 2; ShLin 1%nat 1 (-1)], [ShLin 0%nat 1 1; ShLin 1%nat 1 0], None);
  (3, 2, [ShLin 0%nat 1 2; ShLin 1%nat 1 1], [ShLin 0%nat 1 1; ShLin 1%nat 1 (-2)], None);
  (3, 3, [ShLin 0%nat 1 2; ShLin 1%nat 1 1], [ShLin 0%nat 1 1; ShLin 1%nat 1 0], None);
  (4, 4, [ShLin 0%nat 1 2; ShLin 1%nat 1 (-3)], [ShLin 0%nat 1 1; ShLin 1%nat 1 (-4)], None);
  (4, 5, [ShLin 0%nat 1 2; ShLin 1%nat 1 (-3)], [ShLin 0%nat 1 1; ShLin 1%nat 1 (-2)], None);
  (4, 6, [ShLin 0%nat 1 2; ShLin 1%nat 1 (-3)], [ShLin 0%nat 1 1; ShLin 1%nat 1 0], None);
  (5, 4, [ShLin 0%nat 1 2; ShLin 1%nat 1 (-1)], [ShLin 0%nat 1 1; ShLin 1%nat 1 (-4)], None);
  (5, 5, [ShLin 0%nat 1 2; ShLin 1%nat 1 (-1)], [ShLin 0%nat 1 1; ShLin 1%nat 1 (-2)], None);
  (5, 6, [ShLin 0%nat 1 2; ShLin 1%nat 1 (-1)], [ShLin 0%nat 1 1; ShLin 1%nat 1 0], None);
  (5, 7, [ShLin 0%nat 1 2; ShLin 1%nat 1 (-1)], [ShLin 0%nat 1 1; ShLin 1%nat 1 2], None);
  (6, 5, [ShLin 0%nat 1 2; ShLin 1%nat 1 1], [ShLin 0%nat 1 1; ShLin 1%nat 1 (-2)], None);
  (6, 6, [ShLin 0%nat 1 2; ShLin 1%nat 1 1], [ShLin 0%nat 1 1; ShLin 1%nat 1 0], None);
  (6, 7, [ShLin 0%nat 1 2; ShLin 1%nat 1 1], [ShLin 0%nat 1 1; ShLin 1%nat 1 2], None);
  (7, 6, [ShLin 0%nat 1 2; ShLin 1%nat 1 3], [ShLin 0%nat 1 1; ShLin 1%nat 1 0], None);
  (7, 7, [ShLin 0%nat 1 2; ShLin 1%nat 1 3], [ShLin 0%nat 1 1; ShLin 1%nat 1 2], None);
  (8, 8, [ShLin 0%nat 1 1; ShLin 1%nat 1 0], [ShLin 0%nat 1 0; ShLin 1%nat 1 (-1)], None);
  (9, 9, [ShLin 0%nat 1 1; ShLin 1%nat 1 0], [ShLin 0%nat 1 0; ShLin 1%nat 1 (-1)], None);
  (10, 10, [ShLin 0%nat 1 1; ShLin 1%nat 1 (-2)], [ShLin 0%nat 1 0; ShLin 1%nat 1 (-3)], None);
  (10, 11, [ShLin 0%nat 1 1; ShLin 1%nat 1 (-2)], [ShLin 0%nat 1 0; ShLin 1%nat 1 (-1)], None);
  (10, 12, [ShLin 0%nat 1 1; ShLin 1%nat 1 (-2)], [ShLin 0%nat 1 0; ShLin 1%nat 1 1], None);
  (11, 10, [ShLin 0%nat 1 1; ShLin 1%nat 1 0], [ShLin 0%nat 1 0; ShLin 1%nat 1 (-3)], None);
  (11, 11, [ShLin 0%nat 1 1; ShLin 1%nat 1 0], [ShLin 0%nat 1 0; ShLin 1%nat 1 (-1)], None);
  (11, 12, [ShLin 0%nat 1 1; ShLin 1%nat 1 0], [ShLin 0%nat 1 0; ShLin 1%nat 1 1], None);
  (12, 11, [ShLin 0%nat 1 1; ShLin 1%nat 1 2], [ShLin 0%nat 1 0; ShLin 1%nat 1 (-1)], None);
  (12, 12, [ShLin 0%nat 1 1; ShLin 1%nat 1 2], [ShLin 0%nat 1 0; ShLin 1%nat 1 1], None);
  (13, 13, [ShLin 0%nat 1 1; ShLin 1%nat 1 (-4)], [ShLin 0%nat 1 0; ShLin 1%nat 1 (-5)], None);
  (13, 14, [ShLin 0%nat 1 1; ShLin 1%nat 1 (-4)], [ShLin 0%nat 1 0; ShLin 1%nat 1 (-3)], None);
  (13, 15, [ShLin 0%nat 1 1; ShLin 1%nat 1 (-4)], [ShLin 0%nat 1 0; ShLin 1%nat 1 (-1)], None);
  (14, 13, [ShLin 0%nat 1 1; ShLin 1%nat 1 (-2)], [ShLin 0%nat 1 0; ShLin 1%nat 1 (-5)], None);
  (14, 14, [ShLin 0%nat 1 1; ShLin 1%nat 1 (-2)], [ShLin 0%nat 1 0; ShLin 1%nat 1 (-3)], None);
  (14, 15, [ShLin 0%nat 1 1; ShLin 1%nat 1 (-2)], [ShLin 0%nat 1 0; ShLin 1%nat 1 (-1)], None);
  (14, 16, [ShLin 0%nat 1 1; ShLin 1%nat 1 (-2)], [ShLin 0%nat 1 0; ShLin 1%nat 1 1], None);
  (15, 14, [ShLin 0%nat 1 1; ShLin 1%nat 1 0], [ShLin 0%nat 1 0; ShLin 1%nat 1 (-3)], None);
  (15, 15, [ShLin 0%nat 1 1; ShLin 1%nat 1 0], [ShLin 0%nat 1 0; ShLin 1%nat 1 (-1)], None);
  (15, 16, [ShLin 0%nat 1 1; ShLin 1%nat 1 0], [ShLin 0%nat 1 0; ShLin 1%nat 1 1], None);
  (15, 17, [ShLin 0%nat 1 1; ShLin 1%nat 1 0], [ShLin 0%nat 1 0; ShLin 1%nat 1 3], None);
  (16, 15, [ShLin 0%nat 1 1; ShLin 1%nat 1 2], [ShLin 0%nat 1 0; ShLin 1%nat 1 (-1)], None);
  (16, 16, [ShLin 0%nat 1 1; ShLin 1%nat 1 2], [ShLin 0%nat 1 0; ShLin 1%nat 1 1], None);
  (16, 17, [ShLin 0%nat 1 1; ShLin 1%nat 1 2], [ShLin 0%nat 1 0; ShLin 1%nat 1 3], None);
  (17, 16, [ShLin 0%nat 1 1; ShLin 1%nat 1 4], [ShLin 0%nat 1 0; ShLin 1%nat 1 1], None);
  (17, 17, [ShLin 0%nat 1 1; ShLin 1%nat 1 4], [ShLin 0%nat 1 0; ShLin 1%nat 1 3], None);
  (18, 18, [ShLin 0%nat 1 1; ShLin 1%nat 1 (-4)], [ShLin 0%nat 1 0; ShLin 1%nat 1 (-5)], None);
  (18, 19, [ShLin 0%nat 1 1; ShLin 1%nat 1 (-4)], [ShLin 0%nat 1 0; ShLin 1%nat 1 (-3)], None);
  (18, 20, [ShLin 0%nat 1 1; ShLin 1%nat 1 (-4)], [ShLin 0%nat 1 0; ShLin 1%nat 1 (-1)], None);
  (19, 18, [ShLin 0%nat 1 1; ShLin 1%nat 1 (-2)], [ShLin 0%nat 1 0; ShLin 1%nat 1 (-5)], None);
  (19, 19, [ShLin 0%nat 1 1; ShLin 1%nat 1 (-2)], [ShLin 0%nat 1 0; ShLin 1%nat 1 (-3)], None);
  (19, 20, [ShLin 0%nat 1 1; ShLin 1%nat 1 (-2)], [ShLin 0%nat 1 0; ShLin 1%nat 1 (-1)], None);
  (19, 21, [ShLin 0%nat 1 1; ShLin 1%nat 1 (-2)], [ShLin 0%nat 1 0; ShLin 1%nat 1 1], None);
  (20, 19, [ShLin 0%nat 1 1; ShLin 1%nat 1 0], [ShLin 0%nat 1 0; ShLin 1%nat 1 (-3)], None);
  (20, 20, [ShLin 0%nat 1 1; ShLin 1%nat 1 0], [ShLin 0%nat 1 0; ShLin 1%nat 1 (-1)], None);
  (20, 21, [ShLin 0%nat 1 1; ShLin 1%nat 1 0], [ShLin 0%nat 1 0; ShLin 1%nat 1 1], None);
  (20, 22, [ShLin 0%nat 1 1; ShLin 1%nat 1 0], [ShLin 0%nat 1 0; ShLin 1%nat 1 3], None);
  (21, 20, [ShLin 0%nat 1 1; ShLin 1%nat 1 2], [ShLin 0%nat 1 0; ShLin 1%nat 1 (-1)], None);
  (21, 21, [ShLin 0%nat 1 1; ShLin 1%nat 1 2], [ShLin 0%nat 1 0; ShLin 1%nat 1 1], None);
  (21, 22, [ShLin 0%nat 1 1; ShLin 1%nat 1 2], [ShLin 0%nat 1 0; ShLin 1%nat 1 3], None);
  (22, 21, [ShLin 0%nat 1 1; ShLin 1%nat 1 4], [ShLin 0%nat 1 0; ShLin 1%nat 1 1], None);
  (22, 22, [ShLin 0%nat 1 1; ShLin 1%nat 1 4], [ShLin 0%nat 1 0; ShLin 1%nat 1 3], None);
  (23, 23, [ShLin 0%nat 1 0; ShLin 1%nat 1 (-1)], [ShLin 0%nat 1 (-1); ShLin 1%nat 1 (-2)], None);
  (23, 24, [ShLin 0%nat 1 0; ShLin 1%nat 1 (-1)], [ShLin 0%nat 1 (-1); ShLin 1%nat 1 0], None);
  (24, 23, [ShLin 0%nat 1 0; ShLin 1%nat 1 1], [ShLin 0%nat 1 (-1); ShLin 1%nat 1 (-2)], None);
  (24, 24, [ShLin 0%nat 1 0; ShLin 1%nat 1 1], [ShLin 0%nat 1 (-1); ShLin 1%nat 1 0], None);
  (25, 25, [ShLin 0%nat 1 0; ShLin 1%nat 1 (-3)], [ShLin 0%nat 1 (-1); ShLin 1%nat 1 (-4)], None);
  (25, 26, [ShLin 0%nat 1 0; ShLin 1%nat 1 (-3)], [ShLin 0%nat 1 (-1); ShLin 1%nat 1 (-2)], None);
  (25, 27, [ShLin 0%nat 1 0; ShLin 1%nat 1 (-3)], [ShLin 0%nat 1 (-1); ShLin 1%nat 1 0], None);
  (26, 25, [ShLin 0%nat 1 0; ShLin 1%nat 1 (-1)], [ShLin 0%nat 1 (-1); ShLin 1%nat 1 (-4)], None);
  (26, 26, [ShLin 0%nat 1 0; ShLin 1%nat 1 (-1)], [ShLin 0%nat 1 (-1); ShLin 1%nat 1 (-2)], None);
  (26, 27, [ShLin 0%nat 1 0; ShLin 1%nat 1 (-1)], [ShLin 0%nat 1 (-1); ShLin 1%nat 1 0], None);
  (26, 28, [ShLin 0%nat 1 0; ShLin 1%nat 1 (-1)], [ShLin 0%nat 1 (-1); ShLin 1%nat 1 2], None);
  (27, 26, [ShLin 0%nat 1 0; ShLin 1%nat 1 1], [ShLin 0%nat 1 (-1); ShLin 1%nat 1 (-2)], None);
  (27, 27, [ShLin 0%nat 1 0; ShLin 1%nat 1 1], [ShLin 0%nat 1 (-1); ShLin 1%nat 1 0], None);
  (27, 28, [ShLin 0%nat 1 0; ShLin 1%nat 1 1], [ShLin 0%nat 1 (-1); ShLin 1%nat 1 2], None);
  (28, 27, [ShLin 0%nat 1 0; ShLin 1%nat 1 3], [ShLin 0%nat 1 (-1); ShLin 1%nat 1 0], None);
  (28, 28, [ShLin 0%nat 1 0; ShLin 1%nat 1 3], [ShLin 0%nat 1 (-1); ShLin 1%nat 1 2], None);
  (29, 29, [ShLin 0%nat 1 0; ShLin 1%nat 1 (-3)], [ShLin 0%nat 1 (-1); ShLin 1%nat 1 (-4)], None);
  (29, 30, [ShLin 0%nat 1 0; ShLin 1%nat 1 (-3)], [ShLin 0%nat 1 (-1); ShLin 1%nat 1 (-2)], None);
  (29, 31, [ShLin 0%nat 1 0; ShLin 1%nat 1 (-3)], [ShLin 0%nat 1 (-1); ShLin 1%nat 1 0], None);
  (30, 29, [ShLin 0%nat 1 0; ShLin 1%nat 1 (-1)], [ShLin 0%nat 1 (-1); ShLin 1%nat 1 (-4)], None);
  (30, 30, [ShLin 0%nat 1 0; ShLin 1%nat 1 (-1)], [ShLin 0%nat 1 (-1); ShLin 1%nat 1 (-2)], None);
  (30, 31, [ShLin 0%nat 1 0; ShLin 1%nat 1 (-1)], [ShLin 0%nat 1 (-1); ShLin 1%nat 1 0], None);
  (30, 32, [ShLin 0%nat 1 0; ShLin 1%nat 1 (-1)], [ShLin 0%nat 1 (-1); ShLin 1%nat 1 2], None);
  (31, 30, [ShLin 0%nat 1 0; ShLin 1%nat 1 1], [ShLin 0%nat 1 (-1); ShLin 1%nat 1 (-2)], None);
  (31, 31, [ShLin 0%nat 1 0; ShLin 1%nat 1 1], [ShLin 0%nat 1 (-1); ShLin 1%nat 1 0], None);
  (31, 32, [ShLin 0%nat 1 0; ShLin 1%nat 1 1], [ShLin 0%nat 1 (-1); ShLin 1%nat 1 2], None);
  (32, 31, [ShLin 0%nat 1 0; ShLin 1%nat 1 3], [ShLin 0%nat 1 (-1); ShLin 1%nat 1 0], None);
  (32, 32, [ShLin 0%nat 1 0; ShLin 1%nat 1 3], [ShLin 0%nat 1 (-1); ShLin 1%nat 1 2], None);
  (33, 33, [ShLin 0%nat 1 0; ShLin 1%nat 1 (-3)], [ShLin 0%nat 1 (-1); ShLin 1%nat 1 (-4)], None);
  (33, 34, [ShLin 0%nat 1 0; ShLin 1%nat 1 (-3)], [ShLin 0%nat 1 (-1); ShLin 1%nat 1 (-2)], None);
  (33, 35, [ShLin 0%nat 1 0; ShLin 1%nat 1 (-3)], [ShLin 0%nat 1 (-1); ShLin 1%nat 1 0], None);
  (34, 33, [ShLin 0%nat 1 0; ShLin 1%nat 1 (-1)], [ShLin 0%nat 1 (-1); ShLin 1%nat 1 (-4)], None);
  (34, 34, [ShLin 0%nat 1 0; ShLin 1%nat 1 (-1)], [ShLin 0%nat 1 (-1); ShLin 1%nat 1 (-2)], None);
  (34, 35, [ShLin 0%nat 1 0; ShLin 1%nat 1 (-1)], [ShLin 0%nat 1 (-1); ShLin 1%nat 1 0], None);
  (34, 36, [ShLin 0%nat 1 0; ShLin 1%nat 1 (-1)], [ShLin 0%nat 1 (-1); ShLin 1%nat 1 2], None);
  (35, 34, [ShLin 0%nat 1 0; ShLin 1%nat 1 1], [ShLin 0%nat 1 (-1); ShLin 1%nat 1 (-2)], None);
  (35, 35, [ShLin 0%nat 1 0; ShLin 1%nat 1 1], [ShLin 0%nat 1 (-1); ShLin 1%nat 1 0], None);
  (35, 36, [ShLin 0%nat 1 0; ShLin 1%nat 1 1], [ShLin 0%nat 1 (-1); ShLin 1%nat 1 2], None);
  (36, 35, [ShLin 0%nat 1 0; ShLin 1%nat 1 3], [ShLin 0%nat 1 (-1); ShLin 1%nat 1 0], None);
  (36, 36, [ShLin 0%nat 1 0; ShLin 1%nat 1 3], [ShLin 0%nat 1 (-1); ShLin 1%nat 1 2], None);
  (37, 37, [ShLin 0%nat 1 0; ShLin 1%nat 1 (-5)], [ShLin 0%nat 1 (-1); ShLin 1%nat 1 (-6)], None);
  (37, 38, [ShLin 0%nat 1 0; ShLin 1%nat 1 (-5)], [ShLin 0%nat 1 (-1); ShLin 1%nat 1 (-4)], None);
  (37, 39, [ShLin 0%nat 1 0; ShLin 1%nat 1 (-5)], [ShLin 0%nat 1 (-1); ShLin 1%nat 1 (-2)], None);
  (38, 37, [ShLin 0%nat 1 0; ShLin 1%nat 1 (-3)], [ShLin 0%nat 1 (-1); ShLin 1%nat 1 (-6)], None);
  (38, 38, [ShLin 0%nat 1 0; ShLin 1%nat 1 (-3)], [ShLin 0%nat 1 (-1); ShLin 1%nat 1 (-4)], None);
  (38, 39, [ShLin 0%nat 1 0; ShLin 1%nat 1 (-3)], [ShLin 0%nat 1 (-1); ShLin 1%nat 1 (-2)], None);
  (38, 40, [ShLin 0%nat 1 0; ShLin 1%nat 1 (-3)], [ShLin 0%nat 1 (-1); ShLin 1%nat 1 0], None);
  (39, 38, [ShLin 0%nat 1 0; ShLin 1%nat 1 (-1)], [ShLin 0%nat 1 (-1); ShLin 1%nat 1 (-4)], None);
  (39, 39, [ShLin 0%nat 1 0; ShLin 1%nat 1 (-1)], [ShLin 0%nat 1 (-1); ShLin 1%nat 1 (-2)], None);
  (39, 40, [ShLin 0%nat 1 0; ShLin 1%nat 1 (-1)], [ShLin 0%nat 1 (-1); ShLin 1%nat 1 0], None);
  (39, 41, [ShLin 0%nat 1 0; ShLin 1%nat 1 (-1)], [ShLin 0%nat 1 (-1); ShLin 1%nat 1 2], None);
  (40, 39, [ShLin 0%nat 1 0; ShLin 1%nat 1 1], [ShLin 0%nat 1 (-1); ShLin 1%nat 1 (-2)], None);
  (40, 40, [ShLin 0%nat 1 0; ShLin 1%nat 1 1], [ShLin 0%nat 1 (-1); ShLin 1%nat 1 0], None);
  (40, 41, [ShLin 0%nat 1 0; ShLin 1%nat 1 1], [ShLin 0%nat 1 (-1); ShLin 1%nat 1 2], None);
  (40, 42, [ShLin 0%nat 1 0; ShLin 1%nat 1 1], [ShLin 0%nat 1 (-1); ShLin 1%nat 1 4], None);
  (41, 40, [ShLin 0%nat 1 0; ShLin 1%nat 1 3], [ShLin 0%nat 1 (-1); ShLin 1%nat 1 0], None);
  (41, 41, [ShLin 0%nat 1 0; ShLin 1%nat 1 3], [ShLin 0%nat 1 (-1); ShLin 1%nat 1 2], None);
  (41, 42, [ShLin 0%nat 1 0; ShLin 1%nat 1 3], [ShLin 0%nat 1 (-1); ShLin 1%nat 1 4], None);
  (42, 41, [ShLin 0%nat 1 0; ShLin 1%nat 1 5], [ShLin 0%nat 1 (-1); ShLin 1%nat 1 2], None);
  (42, 42, [ShLin 0%nat 1 0; ShLin 1%nat 1 5], [ShLin 0%nat 1 (-1); ShLin 1%nat 1 4], None);
  (43, 43, [ShLin 0%nat 1 (-1); ShLin 1%nat 1 0], [ShLin 0%nat 1 (-2); ShLin 1%nat 1 (-1)], None);
  (44, 44, [ShLin 0%nat 1 (-1); ShLin 1%nat 1 0], [ShLin 0%nat 1 (-2); ShLin 1%nat 1 (-1)], None);
  (45, 45, [ShLin 0%nat 1 (-1); ShLin 1%nat 1 (-2)], [ShLin 0%nat 1 (-2); ShLin 1%nat 1 (-3)], None);
  (45, 46, [ShLin 0%nat 1 (-1); ShLin 1%nat 1 (-2)], [ShLin 0%nat 1 (-2); ShLin 1%nat 1 (-1)], None);
  (45, 47, [ShLin 0%nat 1 (-1); ShLin 1%nat 1 (-2)], [ShLin 0%nat 1 (-2); ShLin 1%nat 1 1], None);
  (46, 45, [ShLin 0%nat 1 (-1); ShLin 1%nat 1 0], [ShLin 0%nat 1 (-2); ShLin 1%nat 1 (-3)], None);
  (46, 46, [ShLin 0%nat 1 (-1); ShLin 1%nat 1 0], [ShLin 0%nat 1 (-2); ShLin 1%nat 1 (-1)], None);
  (46, 47, [ShLin 0%nat 1 (-1); ShLin 1%nat 1 0], [ShLin 0%nat 1 (-2); ShLin 1%nat 1 1], None);
  (47, 46, [ShLin 0%nat 1 (-1); ShLin 1%nat 1 2], [ShLin 0%nat 1 (-2); ShLin 1%nat 1 (-1)], None);
  (47, 47, [ShLin 0%nat 1 (-1); ShLin 1%nat 1 2], [ShLin 0%nat 1 (-2); ShLin 1%nat 1 1], None);
  (48, 48, [ShLin 0%nat 1 (-1); ShLin 1%nat 1 (-4)], [ShLin 0%nat 1 (-2); ShLin 1%nat 1 (-5)], None);
  (48, 49, [ShLin 0%nat 1 (-1); ShLin 1%nat 1 (-4)], [ShLin 0%nat 1 (-2); ShLin 1%nat 1 (-3)], None);
  (48, 50, [ShLin 0%nat 1 (-1); ShLin 1%nat 1 (-4)], [ShLin 0%nat 1 (-2); ShLin 1%nat 1 (-1)], None);
  (49, 48, [ShLin 0%nat 1 (-1); ShLin 1%nat 1 (-2)], [ShLin 0%nat 1 (-2); ShLin 1%nat 1 (-5)], None);
  (49, 49, [ShLin 0%nat 1 (-1); ShLin 1%nat 1 (-2)], [ShLin 0%nat 1 (-2); ShLin 1%nat 1 (-3)], None);
  (49, 50, [ShLin 0%nat 1 (-1); ShLin 1%nat 1 (-2)], [ShLin 0%nat 1 (-2); ShLin 1%nat 1 (-1)], None);
  (49, 51, [ShLin 0%nat 1 (-1); ShLin 1%nat 1 (-2)], [ShLin 0%nat 1 (-2); ShLin 1%nat 1 1], None);
  (50, 49, [ShLin 0%nat 1 (-1); ShLin 1%nat 1 0], [ShLin 0%nat 1 (-2); ShLin 1%nat 1 (-3)], None);
  (50, 50, [ShLin 0%nat 1 (-1); ShLin 1%nat 1 0], [ShLin 0%nat 1 (-2); ShLin 1%nat 1 (-1)], None);
  (50, 51, [ShLin 0%nat 1 (-1); ShLin 1%nat 1 0], [ShLin 0%nat 1 (-2); ShLin 1%nat 1 1], None);
  (50, 52, [ShLin 0%nat 1 (-1); ShLin 1%nat 1 0], [ShLin 0%nat 1 (-2); ShLin 1%nat 1 3], None);
  (51, 50, [ShLin 0%nat 1 (-1); ShLin 1%nat 1 2], [ShLin 0%nat 1 (-2); ShLin 1%nat 1 (-1)], None);
  (51, 51, [ShLin 0%nat 1 (-1); ShLin 1%nat 1 2], [ShLin 0%nat 1 (-2); ShLin 1%nat 1 1], None);
  (51, 52, [ShLin 0%nat 1 (-1); ShLin 1%nat 1 2], [ShLin 0%nat 1 (-2); ShLin 1%nat 1 3], None);
  (52, 51, [ShLin 0%nat 1 (-1); ShLin 1%nat 1 4], [ShLin 0%nat 1 (-2); ShLin 1%nat 1 1], None);
  (52, 52, [ShLin 0%nat 1 (-1); ShLin 1%nat 1 4], [ShLin 0%nat 1 (-2); ShLin 1%nat 1 3], None);
  (53, 53, [ShLin 0%nat 1 (-1); ShLin 1%nat 1 (-4)], [ShLin 0%nat 1 (-2); ShLin 1%nat 1 (-5)], None);
  (53, 54, [ShLin 0%nat 1 (-1); ShLin 1%nat 1 (-4)], [ShLin 0%nat 1 (-2); ShLin 1%nat 1 (-3)], None);
  (53, 55, [ShLin 0%nat 1 (-1); ShLin 1%nat 1 (-4)], [ShLin 0%nat 1 (-2); ShLin 1%nat 1 (-1)], None);
  (54, 53, [ShLin 0%nat 1 (-1); ShLin 1%nat 1 (-2)], [ShLin 0%nat 1 (-2); ShLin 1%nat 1 (-5)], None);
  (54, 54, [ShLin 0%nat 1 (-1); ShLin 1%nat 1 (-2)], [ShLin 0%nat 1 (-2); ShLin 1%nat 1 (-3)], None);
  (54, 55, [ShLin 0%nat 1 (-1); ShLin 1%nat 1 (-2)], [ShLin 0%nat 1 (-2); ShLin 1%nat 1 (-1)], None);
  (54, 56, [ShLin 0%nat 1 (-1); ShLin 1%nat 1 (-2)], [ShLin 0%nat 1 (-2); ShLin 1%nat 1 1], None);
  (55, 54, [ShLin 0%nat 1 (-1); ShLin 1%nat 1 0], [ShLin 0%nat 1 (-2); ShLin 1%nat 1 (-3)], None);
  (55, 55, [ShLin 0%nat 1 (-1); ShLin 1%nat 1 0], [ShLin 0%nat 1 (-2); ShLin 1%nat 1 (-1)], None);
  (55, 56, [ShLin 0%nat 1 (-1); ShLin 1%nat 1 0], [ShLin 0%nat 1 (-2); ShLin 1%nat 1 1], None);
  (55, 57, [ShLin 0%nat 1 (-1); ShLin 1%nat 1 0], [ShLin 0%nat 1 (-2); ShLin 1%nat 1 3], None);
  (56, 55, [ShLin 0%nat 1 (-1); ShLin 1%nat 1 2], [ShLin 0%nat 1 (-2); ShLin 1%nat 1 (-1)], None);
  (56, 56, [ShLin 0%nat 1 (-1); ShLin 1%nat 1 2], [ShLin 0%nat 1 (-2); ShLin 1%nat 1 1], None);
  (56, 57, [ShLin 0%nat 1 (-1); ShLin 1%nat 1 2], [ShLin 0%nat 1 (-2); ShLin 1%nat 1 3], None);
  (57, 56, [ShLin 0%nat 1 (-1); ShLin 1%nat 1 4], [ShLin 0%nat 1 (-2); ShLin 1%nat 1 1], None);
  (57, 57, [ShLin 0%nat 1 (-1); ShLin 1%nat 1 4], [ShLin 0%nat 1 (-2); ShLin 1%nat 1 3], None);
  (58, 58, [ShLin 0%nat 1 (-2); ShLin 1%nat 1 (-1)], [ShLin 0%nat 1 (-3); ShLin 1%nat 1 (-2)], None);
  (58, 59, [ShLin 0%nat 1 (-2); ShLin 1%nat 1 (-1)], [ShLin 0%nat 1 (-3); ShLin 1%nat 1 0], None);
  (59, 58, [ShLin 0%nat 1 (-2); ShLin 1%nat 1 1], [ShLin 0%nat 1 (-3); ShLin 1%nat 1 (-2)], None);
  (59, 59, [ShLin 0%nat 1 (-2); ShLin 1%nat 1 1], [ShLin 0%nat 1 (-3); ShLin 1%nat 1 0], None);
  (60, 60, [ShLin 0%nat 1 (-2); ShLin 1%nat 1 (-3)], [ShLin 0%nat 1 (-3); ShLin 1%nat 1 (-4)], None);
  (60, 61, [ShLin 0%nat 1 (-2); ShLin 1%nat 1 (-3)], [ShLin 0%nat 1 (-3); ShLin 1%nat 1 (-2)], None);
  (60, 62, [ShLin 0%nat 1 (-2); ShLin 1%nat 1 (-3)], [ShLin 0%nat 1 (-3); ShLin 1%nat 1 0], None);
  (61, 60, [ShLin 0%nat 1 (-2); ShLin 1%nat 1 (-1)], [ShLin 0%nat 1 (-3); ShLin 1%nat 1 (-4)], None);
  (61, 61, [ShLin 0%nat 1 (-2); ShLin 1%nat 1 (-1)], [ShLin 0%nat 1 (-3); ShLin 1%nat 1 (-2)], None);
  (61, 62, [ShLin 0%nat 1 (-2); ShLin 1%nat 1 (-1)], [ShLin 0%nat 1 (-3); ShLin 1%nat 1 0], None);
  (61, 63, [ShLin 0%nat 1 (-2); ShLin 1%nat 1 (-1)], [ShLin 0%nat 1 (-3); ShLin 1%nat 1 2], None);
  (62, 61, [ShLin 0%nat 1 (-2); ShLin 1%nat 1 1], [ShLin 0%nat 1 (-3); ShLin 1%nat 1 (-2)], None);
  (62, 62, [ShLin 0%nat 1 (-2); ShLin 1%nat 1 1], [ShLin 0%nat 1 (-3); ShLin 1%nat 1 0], None);
  (62, 63, [ShLin 0%nat 1 (-2); ShLin 1%nat 1 1], [ShLin 0%nat 1 (-3); ShLin 1%nat 1 2], None);
  (63, 62, [ShLin 0%nat 1 (-2); ShLin 1%nat 1 3], [ShLin 0%nat 1 (-3); ShLin 1%nat 1 0], None);
  (63, 63, [ShLin 0%nat 1 (-2); ShLin 1%nat 1 3], [ShLin 0%nat 1 (-3); ShLin 1%nat 1 2], None);
  (64, 64, [ShLin 0%nat 1 (-3); ShLin 1%nat 1 0], [ShLin 0%nat 1 (-4); ShLin 1%nat 1 (-1)], None)].
(** /repo/c++/symmetry/nrg-recalc-QJ.hpp recalc_quadruplet, qj/qj-quad4.dat *)
Definition qj_t5 : ten_table := mk_ten "quadruplet" [ShLin 0%nat 1 (-1); ShLin 1%nat 1 (-3)] [1; 4] [
  (1, 1, [ShLin 0%nat 1 3; ShLin 1%nat 1 0], [ShLin 0%nat 1 2; ShLin 1%nat 1 (-3)], None);
  (2, 2, [ShLin 0%nat 1 2; ShLin 1%nat 1 (-1)], [ShLin 0%nat 1 1; ShLin 1%nat 1 (-4)], None);
  (2, 3, [ShLin 0%nat 1 2; ShLin 1%nat 1 (-1)], [ShLin 0%nat 1 1; ShLin 1%nat 1 (-2)], None);
  (3, 3, [ShLin 0%nat 1 2; ShLin 1%nat 1 1], [ShLin 0%nat 1 1; ShLin 1%nat 1 (-2)], None);
  (4, 4, [ShLin 0%nat 1 2; ShLin 1%nat 1 (-3)], [ShLin 0%nat 1 1; ShLin 1%nat 1 (-6)], None);
  (4, 5, [ShLin 0%nat 1 2; ShLin 1%nat 1 (-3)], [ShLin 0%nat 1 1; ShLin 1%nat 1 (-4)], None);
  (4, 6, [ShLin 0%nat 1 2; ShLin 1%nat 1 (-3)], [ShLin 0%nat 1 1; ShLin 1%nat 1 (-2)], None);
  (4, 7, [ShLin 0%nat 1 2; ShLin 1%nat 1 (-3)], [ShLin 0%nat 1 1; ShLin 1%nat 1 0], None);
  (5, 5, [ShLin 0%nat 1 2; ShLin 1%nat 1 (-1)], [ShLin 0%nat 1 1; ShLin 1%nat 1 (-4)], None);
  (5, 6, [ShLin 0%nat 1 2; ShLin 1%nat 1 (-1)], [ShLin 0%nat 1 1; ShLin 1%nat 1 (-2)], None);
  (5, 7, [ShLin 0%nat 1 2; ShLin 1%nat 1 (-1)], [ShLin 0%nat 1 1; ShLin 1%nat 1 0], None);
  (6, 6, [ShLin 0%nat 1 2; ShLin 1%nat 1 1], [ShLin 0%nat 1 1; ShLin 1%nat 1 (-2)], None);
  (6, 7, [ShLin 0%nat 1 2; ShLin 1%nat 1 1], [ShLin 0%nat 1 1; ShLin 1%nat 1 0], None);
  (7, 7, [ShLin 0%nat 1 2; ShLin 1%nat 1 3], [ShLin 0%nat 1 1; ShLin 1%nat 1 0], None);
  (8, 8, [ShLin 0%nat 1 1; ShLin 1%nat 1 0], [ShLin 0%nat 1 0; ShLin 1%nat 1 (-3)], None);
  (9, 9, [ShLin 0%nat 1 1; ShLin 1%nat 1 0], [ShLin 0%nat 1 0; ShLin 1%nat 1 (-3)], None);
  (10, 10, [ShLin 0%nat 1 1; ShLin 1%nat 1 (-2)], [ShLin 0%nat 1 0; ShLin 1%nat 1 (-5)], None);
  (10, 11, [ShLin 0%nat 1 1; ShLin 1%nat 1 (-2)], [ShLin 0%nat 1 0; ShLin 1%nat 1 (-3)], None);
  (10, 12, [ShLin 0%nat 1 1; ShLin 1%nat 1 (-2)], [ShLin 0%nat 1 0; ShLin 1%nat 1 (-1)], None);
  (11, 11, [ShLin 0%nat 1 1; ShLin 1%nat 1 0], [ShLin 0%nat 1 0; ShLin 1%nat 1 (-3)], None);
  (11, 12, [ShLin 0%nat 1 1; ShLin 1%nat 1 0], [ShLin 0%nat 1 0; ShLin 1%nat 1 (-1)], None);
  (12, 12, [ShLin 0%nat 1 1; ShLin 1%nat 1 2], [ShLin 0%nat 1 0; ShLin 1%nat 1 (-1)], None);
  (13, 13, [ShLin 0%nat 1 1; ShLin 1%nat 1 (-4)], [ShLin 0%nat 1 0; ShLin 1%nat 1 (-7)], None);
  (13, 14, [ShLin 0%nat 1 1; ShLin 1%nat 1 (-4)], [ShLin 0%nat 1 0; ShLin 1%nat 1 (-5)], None);
  (13, 15, [ShLin 0%nat 1 1; ShLin 1%nat 1 (-4)], [ShLin 0%nat 1 0; ShLin 1%nat 1 (-3)], None);
  (13, 16, [ShLin 0%nat 1 1; ShLin 1%nat 1 (-4)], [ShLin 0%nat 1 0; ShLin 1%nat 1 (-1)], None);
  (14, 14, [ShLin 0%nat 1 1; ShLin 1%nat 1 (-2)], [ShLin 0%nat 1 0; ShLin 1%nat 1 (-5)], None);
  (14, 15, [ShLin 0%nat 1 1; ShLin 1%nat 1 (-2)], [ShLin 0%nat 1 0; ShLin 1%nat 1 (-3)], None);
  (14, 16, [ShLin 0%nat 1 1; ShLin 1%nat 1 (-2)], [ShLin 0%nat 1 0; ShLin 1%nat 1 (-1)], None);
  (14, 17, [ShLin 0%nat 1 1; ShLin 1%nat 1 (-2)], [ShLin 0%nat 1 0; ShLin 1%nat 1 1], None);
  (15, 15, [ShLin 0%nat 1 1; ShLin 1%nat 1 0], [ShLin 0%nat 1 0; ShLin 1%nat 1 (-3)], None);
  (15, 16, [ShLin 0%nat 1 1; ShLin 1%nat 1 0], [ShLin 0%nat 1 0; ShLin 1%nat 1 (-1)], None);
  (15, 17, [ShLin 0%nat 1 1; ShLin 1%nat 1 0], [ShLin 0%nat 1 0; ShLin 1%nat 1 1], None);
  (16, 16, [ShLin 0%nat 1 1; ShLin 1%nat 1 2], [ShLin 0%nat 1 0; ShLin 1%nat 1 (-1)], None);
  (16, 17, [ShLin 0%nat 1 1; ShLin 1%nat 1 2], [ShLin 0%nat 1 0; ShLin 1%nat 1 1], None);
  (17, 17, [ShLin 0%nat 1 1; ShLin 1%nat 1 4], [ShLin 0%nat 1 0; ShLin 1%nat 1 1], None);
  (18, 18, [ShLin 0%nat 1 1; ShLin 1%nat 1 (-4)], [ShLin 0%nat 1 0; ShLin 1%nat 1 (-7)], None);
  (18, 19, [ShLin 0%nat 1 1; ShLin 1%nat 1 (-4)], [ShLin 0%nat 1 0; ShLin 1%nat 1 (-5)], None);
  (18, 20, [ShLin 0%nat 1 1; ShLin 1%nat 1 (-4)], [ShLin 0%nat 1 0; ShLin 1%nat 1 (-3)], None);
  (18, 21, [ShLin 0%nat 1 1; ShLin 1%nat 1 (-4)], [ShLin 0%nat 1 0; ShLin 1%nat 1 (-1)], None);
  (19, 19, [ShLin 0%nat 1 1; ShLin 1%nat 1 (-2)], [ShLin 0%nat 1 0; ShLin 1%nat 1 (-5)], None);
  (19, 20, [ShLin 0%nat 1 1; ShLin 1%nat 1 (-2)], [ShLin 0%nat 1 0; ShLin 1%nat 1 (-3)], None);
  (19, 21, [ShLin 0%nat 1 1; ShLin 1%nat 1 (-2)], [ShLin 0%nat 1 0; ShLin 1%nat 1 (-1)], None);
  (19, 22, [ShLin 0%nat 1 1; ShLin 1%nat 1 (-2)], [ShLin 0%nat 1 0; ShLin 1%nat 1 1], None);
  (20, 20, [ShLin 0%nat 1 1; ShLin 1%nat 1 0], [ShLin 0%nat 1 0; ShLin 1%nat 1 (-3)], None);
  (20, 21, [ShLin 0%nat 1 1; ShLin 1%nat 1 0], [ShLin 0%nat 1 0; ShLin 1%nat 1 (-1)], None);
  (20, 22, [ShLin 0%nat 1 1; ShLin 1%nat 1 0], [ShLin 0%nat 1 0; ShLin 1%nat 1 1], None);
  (21, 21, [ShLin 0%nat 1 1; ShLin 1%nat 1 2], [ShLin 0%nat 1 0; ShLin 1%nat 1 (-1)], None);
  (21, 22, [ShLin 0%nat 1 1; ShLin 1%nat 1 2], [ShLin 0%nat 1 0; ShLin 1%nat 1 1], None);
  (22, 22, [ShLin 0%nat 1 1; ShLin 1%nat 1 4], [ShLin 0%nat 1 0; ShLin 1%nat 1 1], None);
  (23, 23, [ShLin 0%nat 1 0; ShLin 1%nat 1 (-1)], [ShLin 0%nat 1 (-1); ShLin 1%nat 1 (-4)], None);
  (23, 24, [ShLin 0%nat 1 0; ShLin 1%nat 1 (-1)], [ShLin 0%nat 1 (-1); ShLin 1%nat 1 (-2)], None);
  (24, 24, [ShLin 0%nat 1 0; ShLin 1%nat 1 1], [ShLin 0%nat 1 (-1); ShLin 1%nat 1 (-2)], None);
  (25, 25, [ShLin 0%nat 1 0; ShLin 1%nat 1 (-3)], [ShLin 0%nat 1 (-1); ShLin 1%nat 1 (-6)], None);
  (25, 26, [ShLin 0%nat 1 0; ShLin 1%nat 1 (-3)], [ShLin 0%nat 1 (-1); ShLin 1%nat 1 (-4)], None);
  (25, 27, [ShLin 0%nat 1 0; ShLin 1%nat 1 (-3)], [ShLin 0%nat 1 (-1); ShLin 1%nat 1 (-2)], None);
  (25, 28, [ShLin 0%nat 1 0; ShLin 1%nat 1 (-3)], [ShLin 0%nat 1 (-1); ShLin 1%nat 1 0], None);
  (26, 26, [ShLin 0%nat 1 0; ShLin 1%nat 1 (-1)], [ShLin 0%nat 1 (-1); ShLin 1%nat 1 (-4)], None);
  (26, 27, [ShLin 0%nat 1 0; ShLin 1%nat 1 (-1)], [ShLin 0%nat 1 (-1); ShLin 1%nat 1 (-2)], None);
  (26, 28, [ShLin 0%nat 1 0; ShLin 1%nat 1 (-1)], [ShLin 0%nat 1 (-1); ShLin 1%nat 1 0], None);
  (27, 27, [ShLin 0%nat 1 0; ShLin 1%nat 1 1], [ShLin 0%nat 1 (-1); ShLin 1%nat 1 (-2)], None);
  (27, 28, [ShLin 0%nat 1 0; ShLin 1%nat 1 1], [ShLin 0%nat 1 (-1); ShLin 1%nat 1 0], None);
  (28, 28, [ShLin 0%nat 1 0; ShLin 1%nat 1 3], [ShLin 0%nat 1 (-1); ShLin 1%nat 1 0], None);
  (29, 29, [ShLin 0%nat 1 0; ShLin 1%nat 1 (-3)], [ShLin 0%nat 1 (-1); ShLin 1%nat 1 (-6)], None);
  (29, 30, [ShLin 0%nat 1 0; ShLin 1%nat 1 (-3)], [ShLin 0%nat 1 (-1); ShLin 1%nat 1 (-4)], None);
  (29, 31, [ShLin 0%nat 1 0; ShLin 1%nat 1 (-3)], [ShLin 0%nat 1 (-1); ShLin 1%nat 1 (-2)], None);
  (29, 32, [ShLin 0%nat 1 0; ShLin 1%nat 1 (-3)], [ShLin 0%nat 1 (-1); ShLin 1%nat 1 0], None);
  (30, 30, [ShLin 0%nat 1 0; ShLin 1%nat 1 (-1)], [ShLin 0%nat 1 (-1); ShLin 1%nat 1 (-4)], None);
  (30, 31, [ShLin 0%nat 1 0; ShLin 1%nat 1 (-1)], [ShLin 0%nat 1 (-1); ShLin 1%nat 1 (-2)], None);
  (30, 32, [ShLin 0%nat 1 0; ShLin 1%nat 1 (-1)], [ShLin 0%nat 1 (-1); ShLin 1%nat 1 0], None);
  (31, 31, [ShLin 0%nat 1 0; ShLin 1%nat 1 1], [ShLin 0%nat 1 (-1); ShLin 1%nat 1 (-2)], None);
  (31, 32, [ShLin 0%nat 1 0; ShLin 1%nat 1 1], [ShLin 0%nat 1 (-1); ShLin 1%nat 1 0], None);
  (32, 32, [ShLin 0%nat 1 0; ShLin 1%nat 1 3], [ShLin 0%nat 1 (-1); ShLin 1%nat 1 0], None);
  (33, 33, [ShLin 0%nat 1 0; ShLin 1%nat 1 (-3)], [ShLin 0%nat 1 (-1); ShLin 1%nat 1 (-6)], None);
  (33, 34, [ShLin 0%nat 1 0; ShLin 1%nat 1 (-3)], [ShLin 0%nat 1 (-1); ShLin 1%nat 1 (-4)], None);
  (33, 35, [ShLin 0%nat 1 0; ShLin 1%nat 1 (-3)], [ShLin 0%nat 1 (-1); ShLin 1%nat 1 (-2)], None);
  (33, 36, [ShLin 0%nat 1 0; ShLin 1%nat 1 (-3)], [ShLin 0%nat 1 (-1); ShLin 1%nat 1 0], None);
  (34, 34, [ShLin 0%nat 1 0; ShLin 1%nat 1 (-1)], [ShLin 0%nat 1 (-1); ShLin 1%nat 1 (-4)], None);
  (34, 35, [ShLin 0%nat 1 0; ShLin 1%nat 1 (-1)], [ShLin 0%nat 1 (-1); ShLin 1%nat 1 (-2)], None);
  (34, 36, [ShLin 0%nat 1 0; ShLin 1%nat 1 (-1)], [ShLin 0%nat 1 (-1); ShLin 1%nat 1 0], None);
  (35, 35, [ShLin 0%nat 1 0; ShLin 1%nat 1 1], [ShLin 0%nat 1 (-1); ShLin 1%nat 1 (-2)], None);
  (35, 36, [ShLin 0%nat 1 0; ShLin 1%nat 1 1], [ShLin 0%nat 1 (-1); ShLin 1%nat 1 0], None);
  (36, 36, [ShLin 0%nat 1 0; ShLin 1%nat 1 3], [ShLin 0%nat 1 (-1); ShLin 1%nat 1 0], None);
  (37, 37, [ShLin 0%nat 1 0; ShLin 1%nat 1 (-5)], [ShLin 0%nat 1 (-1); ShLin 1%nat 1 (-8)], None);
  (37, 38, [ShLin 0%nat 1 0; ShLin 1%nat 1 (-5)], [ShLin 0%nat 1 (-1); ShLin 1%nat 1 (-6)], None);
  (37, 39, [ShLin 0%nat 1 0; ShLin 1%nat 1 (-5)], [ShLin 0%nat 1 (-1); ShLin 1%nat 1 (-4)], None);
  (37, 40, [ShLin 0%nat 1 0; ShLin 1%nat 1 (-5)], [ShLin 0%nat 1 (-1); ShLin 1%nat 1 (-2)], None);
  (38, 38, [ShLin 0%nat 1 0; ShLin 1%nat 1 (-3)], [ShLin 0%nat 1 (-1); ShLin 1%nat 1 (-6)], None);
  (38, 39, [ShLin 0%nat 1 0; ShLin 1%nat 1 (-3)], [ShLin 0%nat 1 (-1); ShLin 1%nat 1 (-4)], None);
  (38, 40, [ShLin 0%nat 1 0; ShLin 1%nat 1 (-3)], [ShLin 0%nat 1 (-1); ShLin 1%nat 1 (-2)], None);
  (38, 41, [ShLin 0%nat 1 0; ShLin 1%nat 1 (-3)], [ShLin 0%nat 1 (-1); ShLin 1%nat 1 0], None);
  (39, 39, [ShLin 0%nat 1 0; ShLin 1%nat 1 (-1)], [ShLin 0%nat 1 (-1); ShLin 1%nat 1 (-4)], None);
  (39, 40, [ShLin 0%nat 1 0; ShLin 1%nat 1 (-1)], [ShLin 0%nat 1 (-1); ShLin 1%nat 1 (-2)], None);
  (39, 41, [ShLin 0%nat 1 0; ShLin 1%nat 1 (-1)], [ShLin 0%nat 1 (-1); ShLin 1%nat 1 0], None);
  (39, 42, [ShLin 0%nat 1 0; ShLin 1%nat 1 (-1)], [ShLin 0%nat 1 (-1); ShLin 1%nat 1 2], None);
  (40, 40, [ShLin 0%nat 1 0; ShLin 1%nat 1 1], [ShLin 0%nat 1 (-1); ShLin 1%nat 1 (-2)], None);
  (40, 41, [ShLin 0%nat 1 0; ShLin 1%nat 1 1], [ShLin 0%nat 1 (-1); ShLin 1%nat 1 0], None);
  (40, 42, [ShLin 0%nat 1 0; ShLin 1%nat 1 1], [ShLin 0%nat 1 (-1); ShLin 1%nat 1 2], None);
  (41, 41, [ShLin 0%nat 1 0; ShLin 1%nat 1 3], [ShLin 0%nat 1 (-1); ShLin 1%nat 1 0], None);
  (41, 42, [ShLin 0%nat 1 0; ShLin 1%nat 1 3], [ShLin 0%nat 1 (-1); ShLin 1%nat 1 2], None);
  (42, 42, [ShLin 0%nat 1 0; ShLin 1%nat 1 5], [ShLin 0%nat 1 (-1); ShLin 1%nat 1 2], None);
  (43, 43, [ShLin 0%nat 1 (-1); ShLin 1%nat 1 0], [ShLin 0%nat 1 (-2); ShLin 1%nat 1 (-3)], None);
  (44, 44, [ShLin 0%nat 1 (-1); ShLin 1%nat 1 0], [ShLin 0%nat 1 (-2); ShLin 1%nat 1 (-3)], None);
  (45, 45, [ShLin 0%nat 1 (-1); ShLin 1%nat 1 (-2)], [ShLin 0%nat 1 (-2); ShLin 1%nat 1 (-5)], None);
  (45, 46, [ShLin 0%nat 1 (-1); ShLin 1%nat 1 (-2)], [ShLin 0%nat 1 (-2); ShLin 1%nat 1 (-3)], None);
  (45, 47, [ShLin 0%nat 1 (-1); ShLin 1%nat 1 (-2)], [ShLin 0%nat 1 (-2); ShLin 1%nat 1 (-1)], None);
  (46, 46, [ShLin 0%nat 1 (-1); ShLin 1%nat 1 0], [ShLin 0%nat 1 (-2); ShLin 1%nat 1 (-3)], None);
  (46, 47, [ShLin 0%nat 1 (-1); ShLin 1%nat 1 0], [ShLin 0%nat 1 (-2); ShLin 1%nat 1 (-1)], None);
  (47, 47, [ShLin 0%nat 1 (-1); ShLin 1%nat 1 2], [ShLin 0%nat 1 (-2); ShLin 1%nat 1 (-1)], None);
  (48, 48, [ShLin 0%nat 1 (-1); ShLin 1%nat 1 (-4)], [ShLin 0%nat 1 (-2); ShLin 1%nat 1 (-7)], None);
  (48, 49, [ShLin 0%nat 1 (-1); ShLin 1%nat 1 (-4)], [ShLin 0%nat 1 (-2); ShLin 1%nat 1 (-5)], None);
  (48, 50, [ShLin 0%nat 1 (-1); ShLin 1%nat 1 (-4)], [ShLin 0%nat 1 (-2); ShLin 1%nat 1 (-3)], None);
  (48, 51, [ShLin 0%nat 1 (-1); ShLin 1%nat 1 (-4)], [ShLin 0%nat 1 (-2); ShLin 1%nat 1 (-1)], None);
  (49, 49, [ShLin 0%nat 1 (-1); ShLin 1%nat 1 (-2)], [ShLin 0%nat 1 (-2); ShLin 1%nat 1 (-5)], None);
  (49, 50, [ShLin 0%nat 1 (-1); ShLin 1%nat 1 (-2)], [ShLin 0%nat 1 (-2); ShLin 1%nat 1 (-3)], None);
  (49, 51, [ShLin 0%nat 1 (-1); ShLin 1%nat 1 (-2)], [ShLin 0%nat 1 (-2); ShLin 1%nat 1 (-1)], None);
  (49, 52, [ShLin 0%nat 1 (-1); ShLin 1%nat 1 (-2)], [ShLin 0%nat 1 (-2); ShLin 1%nat 1 1], None);
  (50, 50, [ShLin 0%nat 1 (-1); ShLin 1%nat 1 0], [ShLin 0%nat 1 (-2); ShLin 1%nat 1 (-3)], None);
  (50, 51, [ShLin 0%nat 1 (-1); ShLin 1%nat 1 0], [ShLin 0%nat 1 (-2); ShLin 1%nat 1 (-1)], None);
  (50, 52, [ShLin 0%nat 1 (-1); ShLin 1%nat 1 0], [ShLin 0%nat 1 (-2); ShLin 1%nat 1 1], None);
  (51, 51, [ShLin 0%nat 1 (-1); ShLin 1%nat 1 2], [ShLin 0%nat 1 (-2); ShLin 1%nat 1 (-1)], None);
  (51, 52, [ShLin 0%nat 1 (-1); ShLin 1%nat 1 2], [ShLin 0%nat 1 (-2); ShLin 1%nat 1 1], None);
  (52, 52, [ShLin 0%nat 1 (-1); ShLin 1%nat 1 4], [ShLin 0%nat 1 (-2); ShLin 1%nat 1 1], None);
  (53, 53, [ShLin 0%nat 1 (-1); ShLin 1%nat 1 (-4)], [ShLin 0%nat 1 (-2); ShLin 1%nat 1 (-7)], None);
  (53, 54, [ShLin 0%nat 1 (-1); ShLin 1%nat 1 (-4)], [ShLin 0%nat 1 (-2); ShLin 1%nat 1 (-5)], None);
  (53, 55, [ShLin 0%nat 1 (-1); ShLin 1%nat 1 (-4)], [ShLin 0%nat 1 (-2); ShLin 1%nat 1 (-3)], None);
  (53, 56, [ShLin 0%nat 1 (-1); ShLin 1%nat 1 (-4)], [ShLin 0%nat 1 (-2); ShLin 1%nat 1 (-1)], None);
  (54, 54, [ShLin 0%nat 1 (-1); ShLin 1%nat 1 (-2)], [ShLin 0%nat 1 (-2); ShLin 1%nat 1 (-5)], None);
  (54, 55, [ShLin 0%nat 1 (-1); ShLin 1%nat 1 (-2)], [ShLin 0%nat 1 (-2); ShLin 1%nat 1 (-3)], None);
  (54, 56, [ShLin 0%nat 1 (-1); ShLin 1%nat 1 (-2)], [ShLin 0%nat 1 (-2); ShLin 1%nat 1 (-1)], None);
  (54, 57, [ShLin 0%nat 1 (-1); ShLin 1%nat 1 (-2)], [ShLin 0%nat 1 (-2); ShLin 1%nat 1 1], None);
  (55, 55, [ShLin 0%nat 1 (-1); ShLin 1%nat 1 0], [ShLin 0%nat 1 (-2); ShLin 1%nat 1 (-3)], None);
  (55, 56, [ShLin 0%nat 1 (-1); ShLin 1%nat 1 0], [ShLin 0%nat 1 (-2); ShLin 1%nat 1 (-1)], None);
  (55, 57, [ShLin 0%nat 1 (-1); ShLin 1%nat 1 0], [ShLin 0%nat 1 (-2); ShLin 1%nat 1 1], None);
  (56, 56, [ShLin 0%nat 1 (-1); ShLin 1%nat 1 2], [ShLin 0%nat 1 (-2); ShLin 1%nat 1 (-1)], None);
  (56, 57, [ShLin 0%nat 1 (-1); ShLin 1%nat 1 2], [ShLin 0%nat 1 (-2); ShLin 1%nat 1 1], None);
  (57, 57, [ShLin 0%nat 1 (-1); ShLin 1%nat 1 4], [ShLin 0%nat 1 (-2); ShLin 1%nat 1 1], None);
  (58, 58, [ShLin 0%nat 1 (-2); ShLin 1%nat 1 (-1)], [ShLin 0%nat 1 (-3); ShLin 1%nat 1 (-4)], None);
  (58, 59, [ShLin 0%nat 1 (-2); ShLin 1%nat 1 (-1)], [ShLin 0%nat 1 (-3); ShLin 1%nat 1 (-2)], None);
  (59, 59, [ShLin 0%nat 1 (-2); ShLin 1%nat 1 1], [ShLin 0%nat 1 (-3); ShLin 1%nat 1 (-2)], None);
  (60, 60, [ShLin 0%nat 1 (-2); ShLin 1%nat 1 (-3)], [ShLin 0%nat 1 (-3); ShLin 1%nat 1 (-6)], None);
  (60, 61, [ShLin 0%nat 1 (-2); ShLin 1%nat 1 (-3)], [ShLin 0%nat 1 (-3); ShLin 1%nat 1 (-4)], None);
  (60, 62, [ShLin 0%nat 1 (-2); ShLin 1%nat 1 (-3)], [ShLin 0%nat 1 (-3); ShLin 1%nat 1 (-2)], None);
  (60, 63, [ShLin 0%nat 1 (-2); ShLin 1%nat 1 (-3)], [ShLin 0%nat 1 (-3); ShLin 1%nat 1 0], None);
  (61, 61, [ShLin 0%nat 1 (-2); ShLin 1%nat 1 (-1)], [ShLin 0%nat 1 (-3); ShLin 1%nat 1 (-4)], None);
  (61, 62, [ShLin 0%nat 1 (-2); ShLin 1%nat 1 (-1)], [ShLin 0%nat 1 (-3); ShLin 1%nat 1 (-2)], None);
  (61, 63, [ShLin 0%nat 1 (-2); ShLin 1%nat 1 (-1)], [ShLin 0%nat 1 (-3); ShLin 1%nat 1 0], None);
  (62, 62, [ShLin 0%nat 1 (-2); ShLin 1%nat 1 1], [ShLin 0%nat 1 (-3); ShLin 1%nat 1 (-2)], None);
  (62, 63, [ShLin 0%nat 1 (-2); ShLin 1%nat 1 1], [ShLin 0%nat 1 (-3); ShLin 1%nat 1 0], None);
  (63, 63, [ShLin 0%nat 1 (-2); ShLin 1%nat 1 3], [ShLin 0%nat 1 (-3); ShLin 1%nat 1 0], None);
  (64, 64, [ShLin 0%nat 1 (-3); ShLin 1%nat 1 0], [ShLin 0%nat 1 (-4); ShLin 1%nat 1 (-3)], None)].
(** /repo/c++/symmetry/nrg-recalc-QJ.hpp recalc_irreduc, qj/qj-spin_j3_2-jz3_2.dat *)
Definition qj_t6 : irr_table := mk_irr 1 0 [ShLin 0%nat 1 1; ShLin 1%nat 1 3]  [
  (4, 1, None);
  (8, 7, None);
  (9, 7, None);
  (10, 3, None);
  (13, 2, None);
  (13, 5, None);
  (14, 3, None);
  (14, 6, None);
  (15, 7, None);
  (18, 2, None);
  (18, 5, None);
  (19, 3, None);
  (19, 6, None);
  (20, 7, None);
  (23, 12, None);
  (23, 16, None);
  (23, 21, None);
  (24, 17, None);
  (24, 22, None);
  (25, 8, None);
  (25, 9, None);
  (25, 15, None);
  (25, 20, None);
  (26, 16, None);
  (26, 21, None);
  (27, 17, None);
  (27, 22, None);
  (29, 9, None);
  (29, 11, None);
  (29, 15, None);
  (29, 20, None);
  (30, 12, None);
  (30, 16, None);
  (30, 21, None);
  (31, 17, None);
  (31, 22, None);
  (33, 9, None);
  (33, 11, None);
  (33, 20, None);
  (34, 12, None);
  (34, 21, None);
  (35, 22, None);
  (37, 10, None);
  (37, 14, None);
  (37, 19, None);
  (38, 11, None);
  (38, 15, None);
  (38, 20, None);
  (39, 12, None);
  (39, 16, None);
  (39, 21, None);
  (40, 17, None);
  (40, 22, None);
  (43, 28, None);
  (44, 28, None);
  (44, 32, None);
  (44, 36, None);
  (45, 24, None);
  (45, 31, None);
  (45, 35, None);
  (45, 40, None);
  (46, 32, None);
  (46, 36, None);
  (46, 41, None);
  (47, 42, None);
  (48, 23, None);
  (48, 26, None);
  (48, 30, None);
  (48, 39, None);
  (49, 24, None);
  (49, 27, None);
  (49, 31, None);
  (49, 40, None);
  (50, 28, None);
  (50, 32, None);
  (50, 41, None);
  (51, 42, None);
  (53, 23, None);
  (53, 26, None);
  (53, 30, None);
  (53, 34, None);
  (53, 39, None);
  (54, 24, None);
  (54, 27, None);
  (54, 31, None);
  (54, 35, None);
  (54, 40, None);
  (55, 28, None);
  (55, 32, None);
  (55, 36, None);
  (55, 41, None);
  (56, 42, None);
  (58, 47, None);
  (58, 51, None);
  (58, 56, None);
  (59, 52, None);
  (59, 57, None);
  (60, 43, None);
  (60, 44, None);
  (60, 50, None);
  (60, 55, None);
  (61, 51, None);
  (61, 56, None);
  (62, 52, None);
  (62, 57, None);
  (64, 63, None)].
(** /repo/c++/symmetry/nrg-recalc-QJ.hpp recalc_irreduc, qj/qj-spin_j1_2-jz1_2.dat *)
Definition qj_t7 : irr_table := mk_irr 0 0 [ShLin 0%nat 1 1; ShLin 1%nat 1 1]  [
  (2, 1, None);
  (8, 3, None);
  (9, 3, None);
  (10, 5, None);
  (11, 6, None);
  (12, 7, None);
  (13, 4, None);
  (14, 5, None);
  (15, 6, None);
  (16, 7, None);
  (18, 4, None);
  (19, 5, None);
  (20, 6, None);
  (21, 7, None);
  (23, 8, None);
  (23, 9, None);
  (25, 10, None);
  (25, 14, None);
  (25, 19, None);
  (26, 11, None);
  (26, 15, None);
  (26, 20, None);
  (27, 12, None);
  (27, 16, None);
  (27, 21, None);
  (28, 17, None);
  (28, 22, None);
  (29, 10, None);
  (29, 14, None);
  (29, 19, None);
  (30, 11, None);
  (30, 15, None);
  (30, 20, None);
  (31, 12, None);
  (31, 16, None);
  (31, 21, None);
  (32, 17, None);
  (32, 22, None);
  (33, 10, None);
  (33, 19, None);
  (34, 11, None);
  (34, 20, None);
  (35, 12, None);
  (35, 21, None);
  (36, 22, None);
  (37, 13, None);
  (37, 18, None);
  (38, 14, None);
  (38, 19, None);
  (39, 15, None);
  (39, 20, None);
  (40, 16, None);
  (40, 21, None);
  (41, 17, None);
  (41, 22, None);
  (43, 24, None);
  (44, 24, None);
  (45, 26, None);
  (45, 30, None);
  (45, 34, None);
  (46, 27, None);
  (46, 31, None);
  (46, 35, None);
  (47, 28, None);
  (47, 32, None);
  (47, 36, None);
  (48, 25, None);
  (48, 29, None);
  (48, 38, None);
  (49, 26, None);
  (49, 30, None);
  (49, 39, None);
  (50, 27, None);
  (50, 31, None);
  (50, 40, None);
  (51, 28, None);
  (51, 32, None);
  (51, 41, None);
  (52, 42, None);
  (53, 25, None);
  (53, 29, None);
  (53, 33, None);
  (53, 38, None);
  (54, 26, None);
  (54, 30, None);
  (54, 34, None);
  (54, 39, None);
  (55, 27, None);
  (55, 31, None);
  (55, 35, None);
  (55, 40, None);
  (56, 28, None);
  (56, 32, None);
  (56, 36, None);
  (56, 41, None);
  (57, 42, None);
  (58, 43, None);
  (58, 44, None);
  (60, 45, None);
  (60, 49, None);
  (60, 54, None);
  (61, 46, None);
  (61, 50, None);
  (61, 55, None);
  (62, 47, None);
  (62, 51, None);
  (62, 56, None);
  (63, 52, None);
  (63, 57, None);
  (64, 59, None)].
(** /repo/c++/symmetry/nrg-recalc-QJ.hpp recalc_irreduc, qj/qj-spin_j3_2-jz1_2.dat *)
Definition qj_t8 : irr_table := mk_irr 1 0 [ShLin 0%nat 1 1; ShLin 1%nat 1 1]  [
  (5, 1, None);
  (8, 6, None);
  (9, 6, None);
  (10, 2, None);
  (11, 3, None);
  (13, 4, None);
  (14, 2, None);
  (14, 5, None);
  (15, 3, None);
  (15, 6, None);
  (16, 7, None);
  (18, 4, None);
  (19, 2, None);
  (19, 5, None);
  (20, 3, None);
  (20, 6, None);
  (21, 7, None);
  (23, 11, None);
  (23, 15, None);
  (23, 20, None);
  (24, 12, None);
  (24, 16, None);
  (24, 21, None);
  (25, 14, None);
  (25, 19, None);
  (26, 8, None);
  (26, 9, None);
  (26, 15, None);
  (26, 20, None);
  (27, 16, None);
  (27, 21, None);
  (28, 17, None);
  (28, 22, None);
  (29, 10, None);
  (29, 14, None);
  (29, 19, None);
  (30, 9, None);
  (30, 11, None);
  (30, 15, None);
  (30, 20, None);
  (31, 12, None);
  (31, 16, None);
  (31, 21, None);
  (32, 17, None);
  (32, 22, None);
  (33, 10, None);
  (33, 19, None);
  (34, 9, None);
  (34, 11, None);
  (34, 20, None);
  (35, 12, None);
  (35, 21, None);
  (36, 22, None);
  (37, 13, None);
  (37, 18, None);
  (38, 10, None);
  (38, 14, None);
  (38, 19, None);
  (39, 11, None);
  (39, 15, None);
  (39, 20, None);
  (40, 12, None);
  (40, 16, None);
  (40, 21, None);
  (41, 17, None);
  (41, 22, None);
  (43, 27, None);
  (44, 27, None);
  (44, 31, None);
  (44, 35, None);
  (45, 23, None);
  (45, 30, None);
  (45, 34, None);
  (45, 39, None);
  (46, 24, None);
  (46, 31, None);
  (46, 35, None);
  (46, 40, None);
  (47, 32, None);
  (47, 36, None);
  (47, 41, None);
  (48, 25, None);
  (48, 29, None);
  (48, 38, None);
  (49, 23, None);
  (49, 26, None);
  (49, 30, None);
  (49, 39, None);
  (50, 24, None);
  (50, 27, None);
  (50, 31, None);
  (50, 40, None);
  (51, 28, None);
  (51, 32, None);
  (51, 41, None);
  (52, 42, None);
  (53, 25, None);
  (53, 29, None);
  (53, 33, None);
  (53, 38, None);
  (54, 23, None);
  (54, 26, None);
  (54, 30, None);
  (54, 34, None);
  (54, 39, None);
  (55, 24, None);
  (55, 27, None);
  (55, 31, None);
  (55, 35, None);
  (55, 40, None);
  (56, 28, None);
  (56, 32, None);
  (56, 36, None);
  (56, 41, None);
  (57, 42, None);
  (58, 46, None);
  (58, 50, None);
  (58, 55, None);
  (59, 47, None);
  (59, 51, None);
  (59, 56, None);
  (60, 49, None);
  (60, 54, None);
  (61, 43, None);
  (61, 44, None);
  (61, 50, None);
  (61, 55, None);
  (62, 51, None);
  (62, 56, None);
  (63, 52, None);
  (63, 57, None);
  (64, 62, None)].
(** /repo/c++/symmetry/nrg-recalc-QJ.hpp recalc_irreduc, qj/qj-spin_j1_2-jz-1_2.dat *)
Definition qj_t9 : irr_table := mk_irr 0 0 [ShLin 0%nat 1 1; ShLin 1%nat 1 (-1)]  [
  (3, 1, None);
  (8, 2, None);
  (9, 2, None);
  (10, 4, None);
  (11, 5, None);
  (12, 6, None);
  (14, 4, None);
  (15, 5, None);
  (16, 6, None);
  (17, 7, None);
  (19, 4, None);
  (20, 5, None);
  (21, 6, None);
  (22, 7, None);
  (24, 8, None);
  (24, 9, None);
  (25, 13, None);
  (25, 18, None);
  (26, 10, None);
  (26, 14, None);
  (26, 19, None);
  (27, 11, None);
  (27, 15, None);
  (27, 20, None);
  (28, 12, None);
  (28, 16, None);
  (28, 21, None);
  (29, 13, None);
  (29, 18, None);
  (30, 10, None);
  (30, 14, None);
  (30, 19, None);
  (31, 11, None);
  (31, 15, None);
  (31, 20, None);
  (32, 12, None);
  (32, 16, None);
  (32, 21, None);
  (33, 18, None);
  (34, 10, None);
  (34, 19, None);
  (35, 11, None);
  (35, 20, None);
  (36, 12, None);
  (36, 21, None);
  (38, 13, None);
  (38, 18, None);
  (39, 14, None);
  (39, 19, None);
  (40, 15, None);
  (40, 20, None);
  (41, 16, None);
  (41, 21, None);
  (42, 17, None);
  (42, 22, None);
  (43, 23, None);
  (44, 23, None);
  (45, 25, None);
  (45, 29, None);
  (45, 33, None);
  (46, 26, None);
  (46, 30, None);
  (46, 34, None);
  (47, 27, None);
  (47, 31, None);
  (47, 35, None);
  (48, 37, None);
  (49, 25, None);
  (49, 29, None);
  (49, 38, None);
  (50, 26, None);
  (50, 30, None);
  (50, 39, None);
  (51, 27, None);
  (51, 31, None);
  (51, 40, None);
  (52, 28, None);
  (52, 32, None);
  (52, 41, None);
  (53, 37, None);
  (54, 25, None);
  (54, 29, None);
  (54, 33, None);
  (54, 38, None);
  (55, 26, None);
  (55, 30, None);
  (55, 34, None);
  (55, 39, None);
  (56, 27, None);
  (56, 31, None);
  (56, 35, None);
  (56, 40, None);
  (57, 28, None);
  (57, 32, None);
  (57, 36, None);
  (57, 41, None);
  (59, 43, None);
  (59, 44, None);
  (60, 48, None);
  (60, 53, None);
  (61, 45, None);
  (61, 49, None);
  (61, 54, None);
  (62, 46, None);
  (62, 50, None);
  (62, 55, None);
  (63, 47, None);
  (63, 51, None);
  (63, 56, None);
  (64, 58, None)].
(** /repo/c++/symmetry/nrg-recalc-QJ.hpp recalc_irreduc, qj/qj-spin_j3_2-jz-1_2.dat *)
Definition qj_t10 : irr_table := mk_irr 1 0 [ShLin 0%nat 1 1; ShLin 1%nat 1 (-1)]  [
  (6, 1, None);
  (8, 5, None);
  (9, 5, None);
  (11, 2, None);
  (12, 3, None);
  (14, 4, None);
  (15, 2, None);
  (15, 5, None);
  (16, 3, None);
  (16, 6, None);
  (17, 7, None);
  (19, 4, None);
  (20, 2, None);
  (20, 5, None);
  (21, 3, None);
  (21, 6, None);
  (22, 7, None);
  (23, 10, None);
  (23, 14, None);
  (23, 19, None);
  (24, 11, None);
  (24, 15, None);
  (24, 20, None);
  (25, 13, None);
  (25, 18, None);
  (26, 14, None);
  (26, 19, None);
  (27, 8, None);
  (27, 9, None);
  (27, 15, None);
  (27, 20, None);
  (28, 16, None);
  (28, 21, None);
  (29, 13, None);
  (29, 18, None);
  (30, 10, None);
  (30, 14, None);
  (30, 19, None);
  (31, 9, None);
  (31, 11, None);
  (31, 15, None);
  (31, 20, None);
  (32, 12, None);
  (32, 16, None);
  (32, 21, None);
  (33, 18, None);
  (34, 10, None);
  (34, 19, None);
  (35, 9, None);
  (35, 11, None);
  (35, 20, None);
  (36, 12, None);
  (36, 21, None);
  (38, 13, None);
  (38, 18, None);
  (39, 10, None);
  (39, 14, None);
  (39, 19, None);
  (40, 11, None);
  (40, 15, None);
  (40, 20, None);
  (41, 12, None);
  (41, 16, None);
  (41, 21, None);
  (42, 17, None);
  (42, 22, None);
  (43, 26, None);
  (44, 26, None);
  (44, 30, None);
  (44, 34, None);
  (45, 29, None);
  (45, 33, None);
  (45, 38, None);
  (46, 23, None);
  (46, 30, None);
  (46, 34, None);
  (46, 39, None);
  (47, 24, None);
  (47, 31, None);
  (47, 35, None);
  (47, 40, None);
  (48, 37, None);
  (49, 25, None);
  (49, 29, None);
  (49, 38, None);
  (50, 23, None);
  (50, 26, None);
  (50, 30, None);
  (50, 39, None);
  (51, 24, None);
  (51, 27, None);
  (51, 31, None);
  (51, 40, None);
  (52, 28, None);
  (52, 32, None);
  (52, 41, None);
  (53, 37, None);
  (54, 25, None);
  (54, 29, None);
  (54, 33, None);
  (54, 38, None);
  (55, 23, None);
  (55, 26, None);
  (55, 30, None);
  (55, 34, None);
  (55, 39, None);
  (56, 24, None);
  (56, 27, None);
  (56, 31, None);
  (56, 35, None);
  (56, 40, None);
  (57, 28, None);
  (57, 32, None);
  (57, 36, None);
  (57, 41, None);
  (58, 45, None);
  (58, 49, None);
  (58, 54, None);
  (59, 46, None);
  (59, 50, None);
  (59, 55, None);
  (60, 48, None);
  (60, 53, None);
  (61, 49, None);
  (61, 54, None);
  (62, 43, None);
  (62, 44, None);
  (62, 50, None);
  (62, 55, None);
  (63, 51, None);
  (63, 56, None);
  (64, 61, None)].
(** /repo/c++/symmetry/nrg-recalc-QJ.hpp recalc_irreduc, qj/qj-spin_j3_2-jz-3_2.dat *)
Definition qj_t11 : irr_table := mk_irr 1 0 [ShLin 0%nat 1 1; ShLin 1%nat 1 (-3)]  [
  (7, 1, None);
  (8, 4, None);
  (9, 4, None);
  (12, 2, None);
  (15, 4, None);
  (16, 2, None);
  (16, 5, None);
  (17, 3, None);
  (17, 6, None);
  (20, 4, None);
  (21, 2, None);
  (21, 5, None);
  (22, 3, None);
  (22, 6, None);
  (23, 13, None);
  (23, 18, None);
  (24, 10, None);
  (24, 14, None);
  (24, 19, None);
  (26, 13, None);
  (26, 18, None);
  (27, 14, None);
  (27, 19, None);
  (28, 8, None);
  (28, 9, None);
  (28, 15, None);
  (28, 20, None);
  (30, 13, None);
  (30, 18, None);
  (31, 10, None);
  (31, 14, None);
  (31, 19, None);
  (32, 9, None);
  (32, 11, None);
  (32, 15, None);
  (32, 20, None);
  (34, 18, None);
  (35, 10, None);
  (35, 19, None);
  (36, 9, None);
  (36, 11, None);
  (36, 20, None);
  (39, 13, None);
  (39, 18, None);
  (40, 10, None);
  (40, 14, None);
  (40, 19, None);
  (41, 11, None);
  (41, 15, None);
  (41, 20, None);
  (42, 12, None);
  (42, 16, None);
  (42, 21, None);
  (43, 25, None);
  (44, 25, None);
  (44, 29, None);
  (44, 33, None);
  (45, 37, None);
  (46, 29, None);
  (46, 33, None);
  (46, 38, None);
  (47, 23, None);
  (47, 30, None);
  (47, 34, None);
  (47, 39, None);
  (49, 37, None);
  (50, 25, None);
  (50, 29, None);
  (50, 38, None);
  (51, 23, None);
  (51, 26, None);
  (51, 30, None);
  (51, 39, None);
  (52, 24, None);
  (52, 27, None);
  (52, 31, None);
  (52, 40, None);
  (54, 37, None);
  (55, 25, None);
  (55, 29, None);
  (55, 33, None);
  (55, 38, None);
  (56, 23, None);
  (56, 26, None);
  (56, 30, None);
  (56, 34, None);
  (56, 39, None);
  (57, 24, None);
  (57, 27, None);
  (57, 31, None);
  (57, 35, None);
  (57, 40, None);
  (58, 48, None);
  (58, 53, None);
  (59, 45, None);
  (59, 49, None);
  (59, 54, None);
  (61, 48, None);
  (61, 53, None);
  (62, 49, None);
  (62, 54, None);
  (63, 43, None);
  (63, 44, None);
  (63, 50, None);
  (63, 55, None);
  (64, 60, None)].
(** /repo/c++/symmetry/sym-QJ-impl.hpp, make_matrix  *)
Definition qj_m0_o : list off_line := [
  (1, 2, 0, 0, "xi", None);
  (1, 3, 0, 0, "xi", None);
  (2, 8, 0, 0, "xi", None);
  (2, 9, 0, 0, "xi", None);
  (3, 8, 0, 0, "xi", None);
  (3, 9, 0, 0, "xi", None);
  (4, 10, 0, 0, "xi", None);
  (4, 13, 0, 0, "xi", None);
  (4, 14, 0, 0, "xi", None);
  (4, 18, 0, 0, "xi", None);
  (4, 19, 0, 0, "xi", None);
  (5, 10, 0, 0, "xi", None);
  (5, 11, 0, 0, "xi", None);
  (5, 14, 0, 0, "xi", None);
  (5, 15, 0, 0, "xi", None);
  (5, 19, 0, 0, "xi", None);
  (5, 20, 0, 0, "xi", None);
  (6, 11, 0, 0, "xi", None);
  (6, 12, 0, 0, "xi", None);
  (6, 15, 0, 0, "xi", None);
  (6, 16, 0, 0, "xi", None);
  (6, 20, 0, 0, "xi", None);
  (6, 21, 0, 0, "xi", None);
  (7, 12, 0, 0, "xi", None);
  (7, 16, 0, 0, "xi", None);
  (7, 17, 0, 0, "xi", None);
  (7, 21, 0, 0, "xi", None);
  (7, 22, 0, 0, "xi", None);
  (8, 23, 0, 0, "xi", None);
  (8, 24, 0, 0, "xi", None);
  (9, 23, 0, 0, "xi", None);
  (9, 24, 0, 0, "xi", None);
  (10, 25, 0, 0, "xi", None);
  (10, 26, 0, 0, "xi", None);
  (10, 29, 0, 0, "xi", None);
  (10, 30, 0, 0, "xi", None);
  (10, 33, 0, 0, "xi", None);
  (10, 34, 0, 0, "xi", None);
  (11, 26, 0, 0, "xi", None);
  (11, 27, 0, 0, "xi", None);
  (11, 30, 0, 0, "xi", None);
  (11, 31, 0, 0, "xi", None);
  (11, 34, 0, 0, "xi", None);
  (11, 35, 0, 0, "xi", None);
  (12, 27, 0, 0, "xi", None);
  (12, 28, 0, 0, "xi", None);
  (12, 31, 0, 0, "xi", None);
  (12, 32, 0, 0, "xi", None);
  (12, 35, 0, 0, "xi", None);
  (12, 36, 0, 0, "xi", None);
  (13, 25, 0, 0, "xi", None);
  (13, 29, 0, 0, "xi", None);
  (13, 37, 0, 0, "xi", None);
  (13, 38, 0, 0, "xi", None);
  (14, 25, 0, 0, "xi", None);
  (14, 26, 0, 0, "xi", None);
  (14, 29, 0, 0, "xi", None);
  (14, 30, 0, 0, "xi", None);
  (14, 38, 0, 0, "xi", None);
  (14, 39, 0, 0, "xi", None);
  (15, 26, 0, 0, "xi", None);
  (15, 27, 0, 0, "xi", None);
  (15, 30, 0, 0, "xi", None);
  (15, 31, 0, 0, "xi", None);
  (15, 39, 0, 0, "xi", None);
  (15, 40, 0, 0, "xi", None);
  (16, 27, 0, 0, "xi", None);
  (16, 28, 0, 0, "xi", None);
  (16, 31, 0, 0, "xi", None);
  (16, 32, 0, 0, "xi", None);
  (16, 40, 0, 0, "xi", None);
  (16, 41, 0, 0, "xi", None);
  (17, 28, 0, 0, "xi", None);
  (17, 32, 0, 0, "xi", None);
  (17, 41, 0, 0, "xi", None);
  (17, 42, 0, 0, "xi", None);
  (18, 25, 0, 0, "xi", None);
  (18, 29, 0, 0, "xi", None);
  (18, 33, 0, 0, "xi", None);
  (18, 37, 0, 0, "xi", None);
  (18, 38, 0, 0, "xi", None);
  (19, 25, 0, 0, "xi", None);
  (19, 26, 0, 0, "xi", None);
  (19, 29, 0, 0, "xi", None);
  (19, 30, 0, 0, "xi", None);
  (19, 33, 0, 0, "xi", None);
  (19, 34, 0, 0, "xi", None);
  (19, 38, 0, 0, "xi", None);
  (19, 39, 0, 0, "xi", None);
  (20, 26, 0, 0, "xi", None);
  (20, 27, 0, 0, "xi", None);
  (20, 30, 0, 0, "xi", None);
  (20, 31, 0, 0, "xi", None);
  (20, 34, 0, 0, "xi", None);
  (20, 35, 0, 0, "xi", None);
  (20, 39, 0, 0, "xi", None);
  (20, 40, 0, 0, "xi", None);
  (21, 27, 0, 0, "xi", None);
  (21, 28, 0, 0, "xi", None);
  (21, 31, 0, 0, "xi", None);
  (21, 32, 0, 0, "xi", None);
  (21, 35, 0, 0, "xi", None);
  (21, 36, 0, 0, "xi", None);
  (21, 40, 0, 0, "xi", None);
  (21, 41, 0, 0, "xi", None);
  (22, 28, 0, 0, "xi", None);
  (22, 32, 0, 0, "xi", None);
  (22, 36, 0, 0, "xi", None);
  (22, 41, 0, 0, "xi", None);
  (22, 42, 0, 0, "xi", None);
  (23, 43, 0, 0, "xi", None);
  (23, 44, 0, 0, "xi", None);
  (24, 43, 0, 0, "xi", None);
  (24, 44, 0, 0, "xi", None);
  (25, 45, 0, 0, "xi", None);
  (25, 48, 0, 0, "xi", None);
  (25, 49, 0, 0, "xi", None);
  (25, 53, 0, 0, "xi", None);
  (25, 54, 0, 0, "xi", None);
  (26, 45, 0, 0, "xi", None);
  (26, 46, 0, 0, "xi", None);
  (26, 49, 0, 0, "xi", None);
  (26, 50, 0, 0, "xi", None);
  (26, 54, 0, 0, "xi", None);
  (26, 55, 0, 0, "xi", None);
  (27, 46, 0, 0, "xi", None);
  (27, 47, 0, 0, "xi", None);
  (27, 50, 0, 0, "xi", None);
  (27, 51, 0, 0, "xi", None);
  (27, 55, 0, 0, "xi", None);
  (27, 56, 0, 0, "xi", None);
  (28, 47, 0, 0, "xi", None);
  (28, 51, 0, 0, "xi", None);
  (28, 52, 0, 0, "xi", None);
  (28, 56, 0, 0, "xi", None);
  (28, 57, 0, 0, "xi", None);
  (29, 45, 0, 0, "xi", None);
  (29, 48, 0, 0, "xi", None);
  (29, 49, 0, 0, "xi", None);
  (29, 53, 0, 0, "xi", None);
  (29, 54, 0, 0, "xi", None);
  (30, 45, 0, 0, "xi", None);
  (30, 46, 0, 0, "xi", None);
  (30, 49, 0, 0, "xi", None);
  (30, 50, 0, 0, "xi", None);
  (30, 54, 0, 0, "xi", None);
  (30, 55, 0, 0, "xi", None);
  (31, 46, 0, 0, "xi", None);
  (31, 47, 0, 0, "xi", None);
  (31, 50, 0, 0, "xi", None);
  (31, 51, 0, 0, "xi", None);
  (31, 55, 0, 0, "xi", None);
  (31, 56, 0, 0, "xi", None);
  (32, 47, 0, 0, "xi", None);
  (32, 51, 0, 0, "xi", None);
  (32, 52, 0, 0, "xi", None);
  (32, 56, 0, 0, "xi", None);
  (32, 57, 0, 0, "xi", None);
  (33, 45, 0, 0, "xi", None);
  (33, 53, 0, 0, "xi", None);
  (33, 54, 0, 0, "xi", None);
  (34, 45, 0, 0, "xi", None);
  (34, 46, 0, 0, "xi", None);
  (34, 54, 0, 0, "xi", None);
  (34, 55, 0, 0, "xi", None);
  (35, 46, 0, 0, "xi", None);
  (35, 47, 0, 0, "xi", None);
  (35, 55, 0, 0, "xi", None);
  (35, 56, 0, 0, "xi", None);
  (36, 47, 0, 0, "xi", None);
  (36, 56, 0, 0, "xi", None);
  (36, 57, 0, 0, "xi", None);
  (37, 48, 0, 0, "xi", None);
  (37, 53, 0, 0, "xi", None);
  (38, 48, 0, 0, "xi", None);
  (38, 49, 0, 0, "xi", None);
  (38, 53, 0, 0, "xi", None);
  (38, 54, 0, 0, "xi", None);
  (39, 49, 0, 0, "xi", None);
  (39, 50, 0, 0, "xi", None);
  (39, 54, 0, 0, "xi", None);
  (39, 55, 0, 0, "xi", None);
  (40, 50, 0, 0, "xi", None);
  (40, 51, 0, 0, "xi", None);
  (40, 55, 0, 0, "xi", None);
  (40, 56, 0, 0, "xi", None);
  (41, 51, 0, 0, "xi", None);
  (41, 52, 0, 0, "xi", None);
  (41, 56, 0, 0, "xi", None);
  (41, 57, 0, 0, "xi", None);
  (42, 52, 0, 0, "xi", None);
  (42, 57, 0, 0, "xi", None);
  (43, 58, 0, 0, "xi", None);
  (43, 59, 0, 0, "xi", None);
  (44, 58, 0, 0, "xi", None);
  (44, 59, 0, 0, "xi", None);
  (45, 60, 0, 0, "xi", None);
  (45, 61, 0, 0, "xi", None);
  (46, 61, 0, 0, "xi", None);
  (46, 62, 0, 0, "xi", None);
  (47, 62, 0, 0, "xi", None);
  (47, 63, 0, 0, "xi", None);
  (48, 60, 0, 0, "xi", None);
  (49, 60, 0, 0, "xi", None);
  (49, 61, 0, 0, "xi", None);
  (50, 61, 0, 0, "xi", None);
  (50, 62, 0, 0, "xi", None);
  (51, 62, 0, 0, "xi", None);
  (51, 63, 0, 0, "xi", None);
  (52, 63, 0, 0, "xi", None);
  (53, 60, 0, 0, "xi", None);
  (54, 60, 0, 0, "xi", None);
  (54, 61, 0, 0, "xi", None);
  (55, 61, 0, 0, "xi", None);
  (55, 62, 0, 0, "xi", None);
  (56, 62, 0, 0, "xi", None);
  (56, 63, 0, 0, "xi", None);
  (57, 63, 0, 0, "xi", None);
  (58, 64, 0, 0, "xi", None);
  (59, 64, 0, 0, "xi", None);
  (1, 4, 1, 0, "xi", None);
  (1, 5, 1, 0, "xi", None);
  (1, 6, 1, 0, "xi", None);
  (1, 7, 1, 0, "xi", None);
  (2, 10, 1, 0, "xi", None);
  (2, 11, 1, 0, "xi", None);
  (2, 12, 1, 0, "xi", None);
  (2, 13, 1, 0, "xi", None);
  (2, 14, 1, 0, "xi", None);
  (2, 15, 1, 0, "xi", None);
  (2, 16, 1, 0, "xi", None);
  (2, 18, 1, 0, "xi", None);
  (2, 19, 1, 0, "xi", None);
  (2, 20, 1, 0, "xi", None);
  (2, 21, 1, 0, "xi", None);
  (3, 10, 1, 0, "xi", None);
  (3, 11, 1, 0, "xi", None);
  (3, 12, 1, 0, "xi", None);
  (3, 14, 1, 0, "xi", None);
  (3, 15, 1, 0, "xi", None);
  (3, 16, 1, 0, "xi", None);
  (3, 17, 1, 0, "xi", None);
  (3, 19, 1, 0, "xi", None);
  (3, 20, 1, 0, "xi", None);
  (3, 21, 1, 0, "xi", None);
  (3, 22, 1, 0, "xi", None);
  (4, 8, 1, 0, "xi", None);
  (4, 9, 1, 0, "xi", None);
  (4, 13, 1, 0, "xi", None);
  (4, 14, 1, 0, "xi", None);
  (4, 15, 1, 0, "xi", None);
  (4, 18, 1, 0, "xi", None);
  (4, 19, 1, 0, "xi", None);
  (4, 20, 1, 0, "xi", None);
  (5, 8, 1, 0, "xi", None);
  (5, 9, 1, 0, "xi", None);
  (5, 13, 1, 0, "xi", None);
  (5, 14, 1, 0, "xi", None);
  (5, 15, 1, 0, "xi", None);
  (5, 16, 1, 0, "xi", None);
  (5, 18, 1, 0, "xi", None);
  (5, 19, 1, 0, "xi", None);
  (5, 20, 1, 0, "xi", None);
  (5, 21, 1, 0, "xi", None);
  (6, 8, 1, 0, "xi", None);
  (6, 9, 1, 0, "xi", None);
  (6, 14, 1, 0, "xi", None);
  (6, 15, 1, 0, "xi", None);
  (6, 16, 1, 0, "xi", None);
  (6, 17, 1, 0, "xi", None);
  (6, 19, 1, 0, "xi", None);
  (6, 20, 1, 0, "xi", None);
  (6, 21, 1, 0, "xi", None);
  (6, 22, 1, 0, "xi", None);
  (7, 8, 1, 0, "xi", None);
  (7, 9, 1, 0, "xi", None);
  (7, 15, 1, 0, "xi", None);
  (7, 16, 1, 0, "xi", None);
  (7, 17, 1, 0, "xi", None);
  (7, 20, 1, 0, "xi", None);
  (7, 21, 1, 0, "xi", None);
  (7, 22, 1, 0, "xi", None);
  (8, 25, 1, 0, "xi", None);
  (8, 26, 1, 0, "xi", None);
  (8, 27, 1, 0, "xi", None);
  (8, 28, 1, 0, "xi", None);
  (9, 25, 1, 0, "xi", None);
  (9, 26, 1, 0, "xi", None);
  (9, 27, 1, 0, "xi", None);
  (9, 28, 1, 0, "xi", None);
  (9, 29, 1, 0, "xi", None);
  (9, 30, 1, 0, "xi", None);
  (9, 31, 1, 0, "xi", None);
  (9, 32, 1, 0, "xi", None);
  (9, 33, 1, 0, "xi", None);
  (9, 34, 1, 0, "xi", None);
  (9, 35, 1, 0, "xi", None);
  (9, 36, 1, 0, "xi", None);
  (10, 23, 1, 0, "xi", None);
  (10, 24, 1, 0, "xi", None);
  (10, 29, 1, 0, "xi", None);
  (10, 30, 1, 0, "xi", None);
  (10, 31, 1, 0, "xi", None);
  (10, 33, 1, 0, "xi", None);
  (10, 34, 1, 0, "xi", None);
  (10, 35, 1, 0, "xi", None);
  (10, 37, 1, 0, "xi", None);
  (10, 38, 1, 0, "xi", None);
  (10, 39, 1, 0, "xi", None);
  (10, 40, 1, 0, "xi", None);
  (11, 23, 1, 0, "xi", None);
  (11, 24, 1, 0, "xi", None);
  (11, 29, 1, 0, "xi", None);
  (11, 30, 1, 0, "xi", None);
  (11, 31, 1, 0, "xi", None);
  (11, 32, 1, 0, "xi", None);
  (11, 33, 1, 0, "xi", None);
  (11, 34, 1, 0, "xi", None);
  (11, 35, 1, 0, "xi", None);
  (11, 36, 1, 0, "xi", None);
  (11, 38, 1, 0, "xi", None);
  (11, 39, 1, 0, "xi", None);
  (11, 40, 1, 0, "xi", None);
  (11, 41, 1, 0, "xi", None);
  (12, 23, 1, 0, "xi", None);
  (12, 24, 1, 0, "xi", None);
  (12, 30, 1, 0, "xi", None);
  (12, 31, 1, 0, "xi", None);
  (12, 32, 1, 0, "xi", None);
  (12, 34, 1, 0, "xi", None);
  (12, 35, 1, 0, "xi", None);
  (12, 36, 1, 0, "xi", None);
  (12, 39, 1, 0, "xi", None);
  (12, 40, 1, 0, "xi", None);
  (12, 41, 1, 0, "xi", None);
  (12, 42, 1, 0, "xi", None);
  (13, 23, 1, 0, "xi", None);
  (13, 25, 1, 0, "xi", None);
  (13, 26, 1, 0, "xi", None);
  (13, 29, 1, 0, "xi", None);
  (13, 30, 1, 0, "xi", None);
  (13, 37, 1, 0, "xi", None);
  (13, 38, 1, 0, "xi", None);
  (13, 39, 1, 0, "xi", None);
  (14, 23, 1, 0, "xi", None);
  (14, 24, 1, 0, "xi", None);
  (14, 25, 1, 0, "xi", None);
  (14, 26, 1, 0, "xi", None);
  (14, 27, 1, 0, "xi", None);
  (14, 29, 1, 0, "xi", None);
  (14, 30, 1, 0, "xi", None);
  (14, 31, 1, 0, "xi", None);
  (14, 37, 1, 0, "xi", None);
  (14, 38, 1, 0, "xi", None);
  (14, 39, 1, 0, "xi", None);
  (14, 40, 1, 0, "xi", None);
  (15, 23, 1, 0, "xi", None);
  (15, 24, 1, 0, "xi", None);
  (15, 25, 1, 0, "xi", None);
  (15, 26, 1, 0, "xi", None);
  (15, 27, 1, 0, "xi", None);
  (15, 28, 1, 0, "xi", None);
  (15, 29, 1, 0, "xi", None);
  (15, 30, 1, 0, "xi", None);
  (15, 31, 1, 0, "xi", None);
  (15, 32, 1, 0, "xi", None);
  (15, 38, 1, 0, "xi", None);
  (15, 39, 1, 0, "xi", None);
  (15, 40, 1, 0, "xi", None);
  (15, 41, 1, 0, "xi", None);
  (16, 23, 1, 0, "xi", None);
  (16, 24, 1, 0, "xi", None);
  (16, 26, 1, 0, "xi", None);
  (16, 27, 1, 0, "xi", None);
  (16, 28, 1, 0, "xi", None);
  (16, 30, 1, 0, "xi", None);
  (16, 31, 1, 0, "xi", None);
  (16, 32, 1, 0, "xi", None);
  (16, 39, 1, 0, "xi", None);
  (16, 40, 1, 0, "xi", None);
  (16, 41, 1, 0, "xi", None);
  (16, 42, 1, 0, "xi", None);
  (17, 24, 1, 0, "xi", None);
  (17, 27, 1, 0, "xi", None);
  (17, 28, 1, 0, "xi", None);
  (17, 31, 1, 0, "xi", None);
  (17, 32, 1, 0, "xi", None);
  (17, 40, 1, 0, "xi", None);
  (17, 41, 1, 0, "xi", None);
  (17, 42, 1, 0, "xi", None);
  (18, 23, 1, 0, "xi", None);
  (18, 25, 1, 0, "xi", None);
  (18, 26, 1, 0, "xi", None);
  (18, 29, 1, 0, "xi", None);
  (18, 30, 1, 0, "xi", None);
  (18, 33, 1, 0, "xi", None);
  (18, 34, 1, 0, "xi", None);
  (18, 37, 1, 0, "xi", None);
  (18, 38, 1, 0, "xi", None);
  (18, 39, 1, 0, "xi", None);
  (19, 23, 1, 0, "xi", None);
  (19, 24, 1, 0, "xi", None);
  (19, 25, 1, 0, "xi", None);
  (19, 26, 1, 0, "xi", None);
  (19, 27, 1, 0, "xi", None);
  (19, 29, 1, 0, "xi", None);
  (19, 30, 1, 0, "xi", None);
  (19, 31, 1, 0, "xi", None);
  (19, 33, 1, 0, "xi", None);
  (19, 34, 1, 0, "xi", None);
  (19, 35, 1, 0, "xi", None);
  (19, 37, 1, 0, "xi", None);
  (19, 38, 1, 0, "xi", None);
  (19, 39, 1, 0, "xi", None);
  (19, 40, 1, 0, "xi", None);
  (20, 23, 1, 0, "xi", None);
  (20, 24, 1, 0, "xi", None);
  (20, 25, 1, 0, "xi", None);
  (20, 26, 1, 0, "xi", None);
  (20, 27, 1, 0, "xi", None);
  (20, 28, 1, 0, "xi", None);
  (20, 29, 1, 0, "xi", None);
  (20, 30, 1, 0, "xi", None);
  (20, 31, 1, 0, "xi", None);
  (20, 32, 1, 0, "xi", None);
  (20, 33, 1, 0, "xi", None);
  (20, 34, 1, 0, "xi", None);
  (20, 35, 1, 0, "xi", None);
  (20, 36, 1, 0, "xi", None);
  (20, 38, 1, 0, "xi", None);
  (20, 39, 1, 0, "xi", None);
  (20, 40, 1, 0, "xi", None);
  (20, 41, 1, 0, "xi", None);
  (21, 23, 1, 0, "xi", None);
  (21, 24, 1, 0, "xi", None);
  (21, 26, 1, 0, "xi", None);
  (21, 27, 1, 0, "xi", None);
  (21, 28, 1, 0, "xi", None);
  (21, 30, 1, 0, "xi", None);
  (21, 31, 1, 0, "xi", None);
  (21, 32, 1, 0, "xi", None);
  (21, 34, 1, 0, "xi", None);
  (21, 35, 1, 0, "xi", None);
  (21, 36, 1, 0, "xi", None);
  (21, 39, 1, 0, "xi", None);
  (21, 40, 1, 0, "xi", None);
  (21, 41, 1, 0, "xi", None);
  (21, 42, 1, 0, "xi", None);
  (22, 24, 1, 0, "xi", None);
  (22, 27, 1, 0, "xi", None);
  (22, 28, 1, 0, "xi", None);
  (22, 31, 1, 0, "xi", None);
  (22, 32, 1, 0, "xi", None);
  (22, 35, 1, 0, "xi", None);
  (22, 36, 1, 0, "xi", None);
  (22, 40, 1, 0, "xi", None);
  (22, 41, 1, 0, "xi", None);
  (22, 42, 1, 0, "xi", None);
  (23, 45, 1, 0, "xi", None);
  (23, 46, 1, 0, "xi", None);
  (23, 47, 1, 0, "xi", None);
  (23, 48, 1, 0, "xi", None);
  (23, 49, 1, 0, "xi", None);
  (23, 50, 1, 0, "xi", None);
  (23, 51, 1, 0, "xi", None);
  (23, 53, 1, 0, "xi", None);
  (23, 54, 1, 0, "xi", None);
  (23, 55, 1, 0, "xi", None);
  (23, 56, 1, 0, "xi", None);
  (24, 45, 1, 0, "xi", None);
  (24, 46, 1, 0, "xi", None);
  (24, 47, 1, 0, "xi", None);
  (24, 49, 1, 0, "xi", None);
  (24, 50, 1, 0, "xi", None);
  (24, 51, 1, 0, "xi", None);
  (24, 52, 1, 0, "xi", None);
  (24, 54, 1, 0, "xi", None);
  (24, 55, 1, 0, "xi", None);
  (24, 56, 1, 0, "xi", None);
  (24, 57, 1, 0, "xi", None);
  (25, 43, 1, 0, "xi", None);
  (25, 44, 1, 0, "xi", None);
  (25, 48, 1, 0, "xi", None);
  (25, 49, 1, 0, "xi", None);
  (25, 50, 1, 0, "xi", None);
  (25, 53, 1, 0, "xi", None);
  (25, 54, 1, 0, "xi", None);
  (25, 55, 1, 0, "xi", None);
  (26, 43, 1, 0, "xi", None);
  (26, 44, 1, 0, "xi", None);
  (26, 48, 1, 0, "xi", None);
  (26, 49, 1, 0, "xi", None);
  (26, 50, 1, 0, "xi", None);
  (26, 51, 1, 0, "xi", None);
  (26, 53, 1, 0, "xi", None);
  (26, 54, 1, 0, "xi", None);
  (26, 55, 1, 0, "xi", None);
  (26, 56, 1, 0, "xi", None);
  (27, 43, 1, 0, "xi", None);
  (27, 44, 1, 0, "xi", None);
  (27, 49, 1, 0, "xi", None);
  (27, 50, 1, 0, "xi", None);
  (27, 51, 1, 0, "xi", None);
  (27, 52, 1, 0, "xi", None);
  (27, 54, 1, 0, "xi", None);
  (27, 55, 1, 0, "xi", None);
  (27, 56, 1, 0, "xi", None);
  (27, 57, 1, 0, "xi", None);
  (28, 43, 1, 0, "xi", None);
  (28, 44, 1, 0, "xi", None);
  (28, 50, 1, 0, "xi", None);
  (28, 51, 1, 0, "xi", None);
  (28, 52, 1, 0, "xi", None);
  (28, 55, 1, 0, "xi", None);
  (28, 56, 1, 0, "xi", None);
  (28, 57, 1, 0, "xi", None);
  (29, 44, 1, 0, "xi", None);
  (29, 45, 1, 0, "xi", None);
  (29, 46, 1, 0, "xi", None);
  (29, 48, 1, 0, "xi", None);
  (29, 49, 1, 0, "xi", None);
  (29, 50, 1, 0, "xi", None);
  (29, 53, 1, 0, "xi", None);
  (29, 54, 1, 0, "xi", None);
  (29, 55, 1, 0, "xi", None);
  (30, 44, 1, 0, "xi", None);
  (30, 45, 1, 0, "xi", None);
  (30, 46, 1, 0, "xi", None);
  (30, 47, 1, 0, "xi", None);
  (30, 48, 1, 0, "xi", None);
  (30, 49, 1, 0, "xi", None);
  (30, 50, 1, 0, "xi", None);
  (30, 51, 1, 0, "xi", None);
  (30, 53, 1, 0, "xi", None);
  (30, 54, 1, 0, "xi", None);
  (30, 55, 1, 0, "xi", None);
  (30, 56, 1, 0, "xi", None);
  (31, 44, 1, 0, "xi", None);
  (31, 45, 1, 0, "xi", None);
  (31, 46, 1, 0, "xi", None);
  (31, 47, 1, 0, "xi", None);
  (31, 49, 1, 0, "xi", None);
  (31, 50, 1, 0, "xi", None);
  (31, 51, 1, 0, "xi", None);
  (31, 52, 1, 0, "xi", None);
  (31, 54, 1, 0, "xi", None);
  (31, 55, 1, 0, "xi", None);
  (31, 56, 1, 0, "xi", None);
  (31, 57, 1, 0, "xi", None);
  (32, 44, 1, 0, "xi", None);
  (32, 46, 1, 0, "xi", None);
  (32, 47, 1, 0, "xi", None);
  (32, 50, 1, 0, "xi", None);
  (32, 51, 1, 0, "xi", None);
  (32, 52, 1, 0, "xi", None);
  (32, 55, 1, 0, "xi", None);
  (32, 56, 1, 0, "xi", None);
  (32, 57, 1, 0, "xi", None);
  (33, 44, 1, 0, "xi", None);
  (33, 45, 1, 0, "xi", None);
  (33, 46, 1, 0, "xi", None);
  (33, 53, 1, 0, "xi", None);
  (33, 54, 1, 0, "xi", None);
  (33, 55, 1, 0, "xi", None);
  (34, 44, 1, 0, "xi", None);
  (34, 45, 1, 0, "xi", None);
  (34, 46, 1, 0, "xi", None);
  (34, 47, 1, 0, "xi", None);
  (34, 53, 1, 0, "xi", None);
  (34, 54, 1, 0, "xi", None);
  (34, 55, 1, 0, "xi", None);
  (34, 56, 1, 0, "xi", None);
  (35, 44, 1, 0, "xi", None);
  (35, 45, 1, 0, "xi", None);
  (35, 46, 1, 0, "xi", None);
  (35, 47, 1, 0, "xi", None);
  (35, 54, 1, 0, "xi", None);
  (35, 55, 1, 0, "xi", None);
  (35, 56, 1, 0, "xi", None);
  (35, 57, 1, 0, "xi", None);
  (36, 44, 1, 0, "xi", None);
  (36, 46, 1, 0, "xi", None);
  (36, 47, 1, 0, "xi", None);
  (36, 55, 1, 0, "xi", None);
  (36, 56, 1, 0, "xi", None);
  (36, 57, 1, 0, "xi", None);
  (37, 45, 1, 0, "xi", None);
  (37, 48, 1, 0, "xi", None);
  (37, 49, 1, 0, "xi", None);
  (37, 53, 1, 0, "xi", None);
  (37, 54, 1, 0, "xi", None);
  (38, 45, 1, 0, "xi", None);
  (38, 46, 1, 0, "xi", None);
  (38, 48, 1, 0, "xi", None);
  (38, 49, 1, 0, "xi", None);
  (38, 50, 1, 0, "xi", None);
  (38, 53, 1, 0, "xi", None);
  (38, 54, 1, 0, "xi", None);
  (38, 55, 1, 0, "xi", None);
  (39, 45, 1, 0, "xi", None);
  (39, 46, 1, 0, "xi", None);
  (39, 47, 1, 0, "xi", None);
  (39, 48, 1, 0, "xi", None);
  (39, 49, 1, 0, "xi", None);
  (39, 50, 1, 0, "xi", None);
  (39, 51, 1, 0, "xi", None);
  (39, 53, 1, 0, "xi", None);
  (39, 54, 1, 0, "xi", None);
  (39, 55, 1, 0, "xi", None);
  (39, 56, 1, 0, "xi", None);
  (40, 45, 1, 0, "xi", None);
  (40, 46, 1, 0, "xi", None);
  (40, 47, 1, 0, "xi", None);
  (40, 49, 1, 0, "xi", None);
  (40, 50, 1, 0, "xi", None);
  (40, 51, 1, 0, "xi", None);
  (40, 52, 1, 0, "xi", None);
  (40, 54, 1, 0, "xi", None);
  (40, 55, 1, 0, "xi", None);
  (40, 56, 1, 0, "xi", None);
  (40, 57, 1, 0, "xi", None);
  (41, 46, 1, 0, "xi", None);
  (41, 47, 1, 0, "xi", None);
  (41, 50, 1, 0, "xi", None);
  (41, 51, 1, 0, "xi", None);
  (41, 52, 1, 0, "xi", None);
  (41, 55, 1, 0, "xi", None);
  (41, 56, 1, 0, "xi", None);
  (41, 57, 1, 0, "xi", None);
  (42, 47, 1, 0, "xi", None);
  (42, 51, 1, 0, "xi", None);
  (42, 52, 1, 0, "xi", None);
  (42, 56, 1, 0, "xi", None);
  (42, 57, 1, 0, "xi", None);
  (43, 60, 1, 0, "xi", None);
  (43, 61, 1, 0, "xi", None);
  (43, 62, 1, 0, "xi", None);
  (43, 63, 1, 0, "xi", None);
  (44, 60, 1, 0, "xi", None);
  (44, 61, 1, 0, "xi", None);
  (44, 62, 1, 0, "xi", None);
  (44, 63, 1, 0, "xi", None);
  (45, 58, 1, 0, "xi", None);
  (45, 59, 1, 0, "xi", None);
  (46, 58, 1, 0, "xi", None);
  (46, 59, 1, 0, "xi", None);
  (47, 58, 1, 0, "xi", None);
  (47, 59, 1, 0, "xi", None);
  (48, 58, 1, 0, "xi", None);
  (48, 60, 1, 0, "xi", None);
  (48, 61, 1, 0, "xi", None);
  (49, 58, 1, 0, "xi", None);
  (49, 59, 1, 0, "xi", None);
  (49, 60, 1, 0, "xi", None);
  (49, 61, 1, 0, "xi", None);
  (49, 62, 1, 0, "xi", None);
  (50, 58, 1, 0, "xi", None);
  (50, 59, 1, 0, "xi", None);
  (50, 60, 1, 0, "xi", None);
  (50, 61, 1, 0, "xi", None);
  (50, 62, 1, 0, "xi", None);
  (50, 63, 1, 0, "xi", None);
  (51, 58, 1, 0, "xi", None);
  (51, 59, 1, 0, "xi", None);
  (51, 61, 1, 0, "xi", None);
  (51, 62, 1, 0, "xi", None);
  (51, 63, 1, 0, "xi", None);
  (52, 59, 1, 0, "xi", None);
  (52, 62, 1, 0, "xi", None);
  (52, 63, 1, 0, "xi", None);
  (53, 58, 1, 0, "xi", None);
  (53, 60, 1, 0, "xi", None);
  (53, 61, 1, 0, "xi", None);
  (54, 58, 1, 0, "xi", None);
  (54, 59, 1, 0, "xi", None);
  (54, 60, 1, 0, "xi", None);
  (54, 61, 1, 0, "xi", None);
  (54, 62, 1, 0, "xi", None);
  (55, 58, 1, 0, "xi", None);
  (55, 59, 1, 0, "xi", None);
  (55, 60, 1, 0, "xi", None);
  (55, 61, 1, 0, "xi", None);
  (55, 62, 1, 0, "xi", None);
  (55, 63, 1, 0, "xi", None);
  (56, 58, 1, 0, "xi", None);
  (56, 59, 1, 0, "xi", None);
  (56, 61, 1, 0, "xi", None);
  (56, 62, 1, 0, "xi", None);
  (56, 63, 1, 0, "xi", None);
  (57, 59, 1, 0, "xi", None);
  (57, 62, 1, 0, "xi", None);
  (57, 63, 1, 0, "xi", None);
  (60, 64, 1, 0, "xi", None);
  (61, 64, 1, 0, "xi", None);
  (62, 64, 1, 0, "xi", None);
  (63, 64, 1, 0, "xi", None)].
(** /repo/c++/symmetry/sym-QJ-impl.hpp, make_matrix  *)
Definition qj_m0_d : list diag_line := [
  (1, 0, "zeta", None);
  (2, 0, "zeta", None);
  (3, 0, "zeta", None);
  (4, 0, "zeta", None);
  (5, 0, "zeta", None);
  (6, 0, "zeta", None);
  (7, 0, "zeta", None);
  (8, 0, "zeta", None);
  (9, 0, "zeta", None);
  (10, 0, "zeta", None);
  (11, 0, "zeta", None);
  (12, 0, "zeta", None);
  (13, 0, "zeta", None);
  (14, 0, "zeta", None);
  (15, 0, "zeta", None);
  (16, 0, "zeta", None);
  (17, 0, "zeta", None);
  (18, 0, "zeta", None);
  (19, 0, "zeta", None);
  (20, 0, "zeta", None);
  (21, 0, "zeta", None);
  (22, 0, "zeta", None);
  (23, 0, "zeta", None);
  (24, 0, "zeta", None);
  (25, 0, "zeta", None);
  (26, 0, "zeta", None);
  (27, 0, "zeta", None);
  (28, 0, "zeta", None);
  (29, 0, "zeta", None);
  (30, 0, "zeta", None);
  (31, 0, "zeta", None);
  (32, 0, "zeta", None);
  (33, 0, "zeta", None);
  (34, 0, "zeta", None);
  (35, 0, "zeta", None);
  (36, 0, "zeta", None);
  (37, 0, "zeta", None);
  (38, 0, "zeta", None);
  (39, 0, "zeta", None);
  (40, 0, "zeta", None);
  (41, 0, "zeta", None);
  (42, 0, "zeta", None);
  (43, 0, "zeta", None);
  (44, 0, "zeta", None);
  (45, 0, "zeta", None);
  (46, 0, "zeta", None);
  (47, 0, "zeta", None);
  (48, 0, "zeta", None);
  (49, 0, "zeta", None);
  (50, 0, "zeta", None);
  (51, 0, "zeta", None);
  (52, 0, "zeta", None);
  (53, 0, "zeta", None);
  (54, 0, "zeta", None);
  (55, 0, "zeta", None);
  (56, 0, "zeta", None);
  (57, 0, "zeta", None);
  (58, 0, "zeta", None);
  (59, 0, "zeta", None);
  (60, 0, "zeta", None);
  (61, 0, "zeta", None);
  (62, 0, "zeta", None);
  (63, 0, "zeta", None);
  (64, 0, "zeta", None)].
(** /repo/c++/symmetry/sym-QJ-impl.hpp, make_matrix  *)
Definition qj_m0_f : list dof_line := [
  ].
Definition coef_qj : coef_set := mk_coef "QJ" 3%nat sym_QJ {| tb_In := qj_In; tb_QN := qj_QN |}
  [qj_t6; qj_t7; qj_t8; qj_t9; qj_t10; qj_t11]
  [qj_t0; qj_t1; qj_t2; qj_t3; qj_t4; qj_t5]
  [mk_mode "default" qj_m0_o qj_m0_d qj_m0_f].
