(** Generated by gen/gen_coef.py from /repo/c++/symmetry/{sym-QSZTZ-impl.hpp, nrg-recalc-QSZTZ.hpp, coefnew}. Do not edit. *)
From Coq Require Import List ZArith String.
From Verif Require Import Base Invar_model Symmetry_model Symmetry_tables Coef_model.
Import ListNotations.
Local Open Scope string_scope.
Local Open Scope list_scope.
Local Open Scope Z_scope.

Definition QSZTZ_e0 := (cO (cD (cN 1) (cR (cN 6)))).
Definition QSZTZ_e1 := (cO (cD (cN 1) (cR (cN 2)))).
Definition QSZTZ_e2 := (cD (cM (cQ (-1) 2) (cN 1)) (cR (cN 3))).
Definition QSZTZ_e3 := (cD (cN 1) (cM (cN 2) (cR (cN 3)))).
Definition QSZTZ_e4 := (cM (cQ (-1) 2) (cR (cN 3))).
Definition QSZTZ_e5 := (cO (cD (cN 1) (cR (cN 3)))).

(** /repo/c++/symmetry/nrg-recalc-QSZTZ.hpp recalc_doublet, qsztz/qsztz-doubletp-1.dat *)
Definition qsztz_t0 : ten_table := mk_ten "doublet" [ShLin 0%nat 1 (-1); ShLin 1%nat 1 1; ShLin 2%nat 1 (-1)] [1; (-1); 1] [
  (1, 1, [ShLin 0%nat 1 3; ShLin 1%nat 1 0; ShLin 2%nat 1 0], [ShLin 0%nat 1 2; ShLin 1%nat 1 1; ShLin 2%nat 1 (-1)], Some (cN 1));
  (2, 2, [ShLin 0%nat 1 2; ShLin 1%nat 1 1; ShLin 2%nat 1 1], [ShLin 0%nat 1 1; ShLin 1%nat 1 2; ShLin 2%nat 1 0], Some (cN (-1)));
  (3, 3, [ShLin 0%nat 1 2; ShLin 1%nat 1 1; ShLin 2%nat 1 0], [ShLin 0%nat 1 1; ShLin 1%nat 1 2; ShLin 2%nat 1 (-1)], Some (cN (-1)));
  (4, 4, [ShLin 0%nat 1 2; ShLin 1%nat 1 1; ShLin 2%nat 1 (-1)], [ShLin 0%nat 1 1; ShLin 1%nat 1 2; ShLin 2%nat 1 (-2)], Some (cN (-1)));
  (5, 5, [ShLin 0%nat 1 2; ShLin 1%nat 1 (-1); ShLin 2%nat 1 1], [ShLin 0%nat 1 1; ShLin 1%nat 1 0; ShLin 2%nat 1 0], Some (cN (-1)));
  (6, 6, [ShLin 0%nat 1 2; ShLin 1%nat 1 (-1); ShLin 2%nat 1 0], [ShLin 0%nat 1 1; ShLin 1%nat 1 0; ShLin 2%nat 1 (-1)], Some (cN (-1)));
  (7, 7, [ShLin 0%nat 1 2; ShLin 1%nat 1 (-1); ShLin 2%nat 1 (-1)], [ShLin 0%nat 1 1; ShLin 1%nat 1 0; ShLin 2%nat 1 (-2)], Some (cN (-1)));
  (8, 8, [ShLin 0%nat 1 1; ShLin 1%nat 1 2; ShLin 2%nat 1 1], [ShLin 0%nat 1 0; ShLin 1%nat 1 3; ShLin 2%nat 1 0], Some (cN 1));
  (9, 9, [ShLin 0%nat 1 1; ShLin 1%nat 1 2; ShLin 2%nat 1 0], [ShLin 0%nat 1 0; ShLin 1%nat 1 3; ShLin 2%nat 1 (-1)], Some (cN 1));
  (10, 10, [ShLin 0%nat 1 1; ShLin 1%nat 1 2; ShLin 2%nat 1 (-1)], [ShLin 0%nat 1 0; ShLin 1%nat 1 3; ShLin 2%nat 1 (-2)], Some (cN 1));
  (11, 11, [ShLin 0%nat 1 1; ShLin 1%nat 1 0; ShLin 2%nat 1 2], [ShLin 0%nat 1 0; ShLin 1%nat 1 1; ShLin 2%nat 1 1], Some (cN 1));
  (12, 12, [ShLin 0%nat 1 1; ShLin 1%nat 1 0; ShLin 2%nat 1 1], [ShLin 0%nat 1 0; ShLin 1%nat 1 1; ShLin 2%nat 1 0], Some (cN 1));
  (13, 13, [ShLin 0%nat 1 1; ShLin 1%nat 1 0; ShLin 2%nat 1 1], [ShLin 0%nat 1 0; ShLin 1%nat 1 1; ShLin 2%nat 1 0], Some (cN 1));
  (14, 14, [ShLin 0%nat 1 1; ShLin 1%nat 1 0; ShLin 2%nat 1 0], [ShLin 0%nat 1 0; ShLin 1%nat 1 1; ShLin 2%nat 1 (-1)], Some (cN 1));
  (15, 15, [ShLin 0%nat 1 1; ShLin 1%nat 1 0; ShLin 2%nat 1 0], [ShLin 0%nat 1 0; ShLin 1%nat 1 1; ShLin 2%nat 1 (-1)], Some (cN 1));
  (16, 16, [ShLin 0%nat 1 1; ShLin 1%nat 1 0; ShLin 2%nat 1 0], [ShLin 0%nat 1 0; ShLin 1%nat 1 1; ShLin 2%nat 1 (-1)], Some (cN 1));
  (17, 17, [ShLin 0%nat 1 1; ShLin 1%nat 1 0; ShLin 2%nat 1 (-1)], [ShLin 0%nat 1 0; ShLin 1%nat 1 1; ShLin 2%nat 1 (-2)], Some (cN 1));
  (18, 18, [ShLin 0%nat 1 1; ShLin 1%nat 1 0; ShLin 2%nat 1 (-1)], [ShLin 0%nat 1 0; ShLin 1%nat 1 1; ShLin 2%nat 1 (-2)], Some (cN 1));
  (19, 19, [ShLin 0%nat 1 1; ShLin 1%nat 1 0; ShLin 2%nat 1 (-2)], [ShLin 0%nat 1 0; ShLin 1%nat 1 1; ShLin 2%nat 1 (-3)], Some (cN 1));
  (20, 20, [ShLin 0%nat 1 1; ShLin 1%nat 1 (-2); ShLin 2%nat 1 1], [ShLin 0%nat 1 0; ShLin 1%nat 1 (-1); ShLin 2%nat 1 0], Some (cN 1));
  (21, 21, [ShLin 0%nat 1 1; ShLin 1%nat 1 (-2); ShLin 2%nat 1 0], [ShLin 0%nat 1 0; ShLin 1%nat 1 (-1); ShLin 2%nat 1 (-1)], Some (cN 1));
  (22, 22, [ShLin 0%nat 1 1; ShLin 1%nat 1 (-2); ShLin 2%nat 1 (-1)], [ShLin 0%nat 1 0; ShLin 1%nat 1 (-1); ShLin 2%nat 1 (-2)], Some (cN 1));
  (23, 23, [ShLin 0%nat 1 0; ShLin 1%nat 1 3; ShLin 2%nat 1 0], [ShLin 0%nat 1 (-1); ShLin 1%nat 1 4; ShLin 2%nat 1 (-1)], Some (cN (-1)));
  (24, 24, [ShLin 0%nat 1 0; ShLin 1%nat 1 1; ShLin 2%nat 1 2], [ShLin 0%nat 1 (-1); ShLin 1%nat 1 2; ShLin 2%nat 1 1], Some (cN (-1)));
  (25, 25, [ShLin 0%nat 1 0; ShLin 1%nat 1 1; ShLin 2%nat 1 1], [ShLin 0%nat 1 (-1); ShLin 1%nat 1 2; ShLin 2%nat 1 0], Some (cN (-1)));
  (26, 26, [ShLin 0%nat 1 0; ShLin 1%nat 1 1; ShLin 2%nat 1 1], [ShLin 0%nat 1 (-1); ShLin 1%nat 1 2; ShLin 2%nat 1 0], Some (cN (-1)));
  (27, 27, [ShLin 0%nat 1 0; ShLin 1%nat 1 1; ShLin 2%nat 1 0], [ShLin 0%nat 1 (-1); ShLin 1%nat 1 2; ShLin 2%nat 1 (-1)], Some (cN (-1)));
  (28, 28, [ShLin 0%nat 1 0; ShLin 1%nat 1 1; ShLin 2%nat 1 0], [ShLin 0%nat 1 (-1); ShLin 1%nat 1 2; ShLin 2%nat 1 (-1)], Some (cN (-1)));
  (29, 29, [ShLin 0%nat 1 0; ShLin 1%nat 1 1; ShLin 2%nat 1 0], [ShLin 0%nat 1 (-1); ShLin 1%nat 1 2; ShLin 2%nat 1 (-1)], Some (cN (-1)));
  (30, 30, [ShLin 0%nat 1 0; ShLin 1%nat 1 1; ShLin 2%nat 1 (-1)], [ShLin 0%nat 1 (-1); ShLin 1%nat 1 2; ShLin 2%nat 1 (-2)], Some (cN (-1)));
  (31, 31, [ShLin 0%nat 1 0; ShLin 1%nat 1 1; ShLin 2%nat 1 (-1)], [ShLin 0%nat 1 (-1); ShLin 1%nat 1 2; ShLin 2%nat 1 (-2)], Some (cN (-1)));
  (32, 32, [ShLin 0%nat 1 0; ShLin 1%nat 1 1; ShLin 2%nat 1 (-2)], [ShLin 0%nat 1 (-1); ShLin 1%nat 1 2; ShLin 2%nat 1 (-3)], Some (cN (-1)));
  (33, 33, [ShLin 0%nat 1 0; ShLin 1%nat 1 (-1); ShLin 2%nat 1 2], [ShLin 0%nat 1 (-1); ShLin 1%nat 1 0; ShLin 2%nat 1 1], Some (cN (-1)));
  (34, 34, [ShLin 0%nat 1 0; ShLin 1%nat 1 (-1); ShLin 2%nat 1 1], [ShLin 0%nat 1 (-1); ShLin 1%nat 1 0; ShLin 2%nat 1 0], Some (cN (-1)));
  (35, 35, [ShLin 0%nat 1 0; ShLin 1%nat 1 (-1); ShLin 2%nat 1 1], [ShLin 0%nat 1 (-1); ShLin 1%nat 1 0; ShLin 2%nat 1 0], Some (cN (-1)));
  (36, 36, [ShLin 0%nat 1 0; ShLin 1%nat 1 (-1); ShLin 2%nat 1 0], [ShLin 0%nat 1 (-1); ShLin 1%nat 1 0; ShLin 2%nat 1 (-1)], Some (cN (-1)));
  (37, 37, [ShLin 0%nat 1 0; ShLin 1%nat 1 (-1); ShLin 2%nat 1 0], [ShLin 0%nat 1 (-1); ShLin 1%nat 1 0; ShLin 2%nat 1 (-1)], Some (cN (-1)));
  (38, 38, [ShLin 0%nat 1 0; ShLin 1%nat 1 (-1); ShLin 2%nat 1 0], [ShLin 0%nat 1 (-1); ShLin 1%nat 1 0; ShLin 2%nat 1 (-1)], Some (cN (-1)));
  (39, 39, [ShLin 0%nat 1 0; ShLin 1%nat 1 (-1); ShLin 2%nat 1 (-1)], [ShLin 0%nat 1 (-1); ShLin 1%nat 1 0; ShLin 2%nat 1 (-2)], Some (cN (-1)));
  (40, 40, [ShLin 0%nat 1 0; ShLin 1%nat 1 (-1); ShLin 2%nat 1 (-1)], [ShLin 0%nat 1 (-1); ShLin 1%nat 1 0; ShLin 2%nat 1 (-2)], Some (cN (-1)));
  (41, 41, [ShLin 0%nat 1 0; ShLin 1%nat 1 (-1); ShLin 2%nat 1 (-2)], [ShLin 0%nat 1 (-1); ShLin 1%nat 1 0; ShLin 2%nat 1 (-3)], Some (cN (-1)));
  (42, 42, [ShLin 0%nat 1 0; ShLin 1%nat 1 (-3); ShLin 2%nat 1 0], [ShLin 0%nat 1 (-1); ShLin 1%nat 1 (-2); ShLin 2%nat 1 (-1)], Some (cN (-1)));
  (43, 43, [ShLin 0%nat 1 (-1); ShLin 1%nat 1 2; ShLin 2%nat 1 1], [ShLin 0%nat 1 (-2); ShLin 1%nat 1 3; ShLin 2%nat 1 0], Some (cN 1));
  (44, 44, [ShLin 0%nat 1 (-1); ShLin 1%nat 1 2; ShLin 2%nat 1 0], [ShLin 0%nat 1 (-2); ShLin 1%nat 1 3; ShLin 2%nat 1 (-1)], Some (cN 1));
  (45, 45, [ShLin 0%nat 1 (-1); ShLin 1%nat 1 2; ShLin 2%nat 1 (-1)], [ShLin 0%nat 1 (-2); ShLin 1%nat 1 3; ShLin 2%nat 1 (-2)], Some (cN 1));
  (46, 46, [ShLin 0%nat 1 (-1); ShLin 1%nat 1 0; ShLin 2%nat 1 2], [ShLin 0%nat 1 (-2); ShLin 1%nat 1 1; ShLin 2%nat 1 1], Some (cN 1));
  (47, 47, [ShLin 0%nat 1 (-1); ShLin 1%nat 1 0; ShLin 2%nat 1 1], [ShLin 0%nat 1 (-2); ShLin 1%nat 1 1; ShLin 2%nat 1 0], Some (cN 1));
  (48, 48, [ShLin 0%nat 1 (-1); ShLin 1%nat 1 0; ShLin 2%nat 1 1], [ShLin 0%nat 1 (-2); ShLin 1%nat 1 1; ShLin 2%nat 1 0], Some (cN 1));
  (49, 49, [ShLin 0%nat 1 (-1); ShLin 1%nat 1 0; ShLin 2%nat 1 0], [ShLin 0%nat 1 (-2); ShLin 1%nat 1 1; ShLin 2%nat 1 (-1)], Some (cN 1));
  (50, 50, [ShLin 0%nat 1 (-1); ShLin 1%nat 1 0; ShLin 2%nat 1 0], [ShLin 0%nat 1 (-2); ShLin 1%nat 1 1; ShLin 2%nat 1 (-1)], Some (cN 1));
  (51, 51, [ShLin 0%nat 1 (-1); ShLin 1%nat 1 0; ShLin 2%nat 1 0], [ShLin 0%nat 1 (-2); ShLin 1%nat 1 1; ShLin 2%nat 1 (-1)], Some (cN 1));
  (52, 52, [ShLin 0%nat 1 (-1); ShLin 1%nat 1 0; ShLin 2%nat 1 (-1)], [ShLin 0%nat 1 (-2); ShLin 1%nat 1 1; ShLin 2%nat 1 (-2)], Some (cN 1));
  (53, 53, [ShLin 0%nat 1 (-1); ShLin 1%nat 1 0; ShLin 2%nat 1 (-1)], [ShLin 0%nat 1 (-2); ShLin 1%nat 1 1; ShLin 2%nat 1 (-2)], Some (cN 1));
  (54, 54, [ShLin 0%nat 1 (-1); ShLin 1%nat 1 0; ShLin 2%nat 1 (-2)], [ShLin 0%nat 1 (-2); ShLin 1%nat 1 1; ShLin 2%nat 1 (-3)], Some (cN 1));
  (55, 55, [ShLin 0%nat 1 (-1); ShLin 1%nat 1 (-2); ShLin 2%nat 1 1], [ShLin 0%nat 1 (-2); ShLin 1%nat 1 (-1); ShLin 2%nat 1 0], Some (cN 1));
  (56, 56, [ShLin 0%nat 1 (-1); ShLin 1%nat 1 (-2); ShLin 2%nat 1 0], [ShLin 0%nat 1 (-2); ShLin 1%nat 1 (-1); ShLin 2%nat 1 (-1)], Some (cN 1));
  (57, 57, [ShLin 0%nat 1 (-1); ShLin 1%nat 1 (-2); ShLin 2%nat 1 (-1)], [ShLin 0%nat 1 (-2); ShLin 1%nat 1 (-1); ShLin 2%nat 1 (-2)], Some (cN 1));
  (58, 58, [ShLin 0%nat 1 (-2); ShLin 1%nat 1 1; ShLin 2%nat 1 1], [ShLin 0%nat 1 (-3); ShLin 1%nat 1 2; ShLin 2%nat 1 0], Some (cN (-1)));
  (59, 59, [ShLin 0%nat 1 (-2); ShLin 1%nat 1 1; ShLin 2%nat 1 0], [ShLin 0%nat 1 (-3); ShLin 1%nat 1 2; ShLin 2%nat 1 (-1)], Some (cN (-1)));
  (60, 60, [ShLin 0%nat 1 (-2); ShLin 1%nat 1 1; ShLin 2%nat 1 (-1)], [ShLin 0%nat 1 (-3); ShLin 1%nat 1 2; ShLin 2%nat 1 (-2)], Some (cN (-1)));
  (61, 61, [ShLin 0%nat 1 (-2); ShLin 1%nat 1 (-1); ShLin 2%nat 1 1], [ShLin 0%nat 1 (-3); ShLin 1%nat 1 0; ShLin 2%nat 1 0], Some (cN (-1)));
  (62, 62, [ShLin 0%nat 1 (-2); ShLin 1%nat 1 (-1); ShLin 2%nat 1 0], [ShLin 0%nat 1 (-3); ShLin 1%nat 1 0; ShLin 2%nat 1 (-1)], Some (cN (-1)));
  (63, 63, [ShLin 0%nat 1 (-2); ShLin 1%nat 1 (-1); ShLin 2%nat 1 (-1)], [ShLin 0%nat 1 (-3); ShLin 1%nat 1 0; ShLin 2%nat 1 (-2)], Some (cN (-1)));
  (64, 64, [ShLin 0%nat 1 (-3); ShLin 1%nat 1 0; ShLin 2%nat 1 0], [ShLin 0%nat 1 (-4); ShLin 1%nat 1 1; ShLin 2%nat 1 (-1)], Some (cN 1))].
(** /repo/c++/symmetry/nrg-recalc-QSZTZ.hpp recalc_doublet, qsztz/qsztz-doubletm-1.dat *)
Definition qsztz_t1 : ten_table := mk_ten "doublet" [ShLin 0%nat 1 (-1); ShLin 1%nat 1 (-1); ShLin 2%nat 1 (-1)] [1; 1; 1] [
  (1, 1, [ShLin 0%nat 1 3; ShLin 1%nat 1 0; ShLin 2%nat 1 0], [ShLin 0%nat 1 2; ShLin 1%nat 1 (-1); ShLin 2%nat 1 (-1)], Some (cN 1));
  (2, 2, [ShLin 0%nat 1 2; ShLin 1%nat 1 1; ShLin 2%nat 1 1], [ShLin 0%nat 1 1; ShLin 1%nat 1 0; ShLin 2%nat 1 0], Some (cN (-1)));
  (3, 3, [ShLin 0%nat 1 2; ShLin 1%nat 1 1; ShLin 2%nat 1 0], [ShLin 0%nat 1 1; ShLin 1%nat 1 0; ShLin 2%nat 1 (-1)], Some (cN (-1)));
  (4, 4, [ShLin 0%nat 1 2; ShLin 1%nat 1 1; ShLin 2%nat 1 (-1)], [ShLin 0%nat 1 1; ShLin 1%nat 1 0; ShLin 2%nat 1 (-2)], Some (cN (-1)));
  (5, 5, [ShLin 0%nat 1 2; ShLin 1%nat 1 (-1); ShLin 2%nat 1 1], [ShLin 0%nat 1 1; ShLin 1%nat 1 (-2); ShLin 2%nat 1 0], Some (cN (-1)));
  (6, 6, [ShLin 0%nat 1 2; ShLin 1%nat 1 (-1); ShLin 2%nat 1 0], [ShLin 0%nat 1 1; ShLin 1%nat 1 (-2); ShLin 2%nat 1 (-1)], Some (cN (-1)));
  (7, 7, [ShLin 0%nat 1 2; ShLin 1%nat 1 (-1); ShLin 2%nat 1 (-1)], [ShLin 0%nat 1 1; ShLin 1%nat 1 (-2); ShLin 2%nat 1 (-2)], Some (cN (-1)));
  (8, 8, [ShLin 0%nat 1 1; ShLin 1%nat 1 2; ShLin 2%nat 1 1], [ShLin 0%nat 1 0; ShLin 1%nat 1 1; ShLin 2%nat 1 0], Some (cN 1));
  (9, 9, [ShLin 0%nat 1 1; ShLin 1%nat 1 2; ShLin 2%nat 1 0], [ShLin 0%nat 1 0; ShLin 1%nat 1 1; ShLin 2%nat 1 (-1)], Some (cN 1));
  (10, 10, [ShLin 0%nat 1 1; ShLin 1%nat 1 2; ShLin 2%nat 1 (-1)], [ShLin 0%nat 1 0; ShLin 1%nat 1 1; ShLin 2%nat 1 (-2)], Some (cN 1));
  (11, 11, [ShLin 0%nat 1 1; ShLin 1%nat 1 0; ShLin 2%nat 1 2], [ShLin 0%nat 1 0; ShLin 1%nat 1 (-1); ShLin 2%nat 1 1], Some (cN 1));
  (12, 12, [ShLin 0%nat 1 1; ShLin 1%nat 1 0; ShLin 2%nat 1 1], [ShLin 0%nat 1 0; ShLin 1%nat 1 (-1); ShLin 2%nat 1 0], Some (cN 1));
  (13, 13, [ShLin 0%nat 1 1; ShLin 1%nat 1 0; ShLin 2%nat 1 1], [ShLin 0%nat 1 0; ShLin 1%nat 1 (-1); ShLin 2%nat 1 0], Some (cN 1));
  (14, 14, [ShLin 0%nat 1 1; ShLin 1%nat 1 0; ShLin 2%nat 1 0], [ShLin 0%nat 1 0; ShLin 1%nat 1 (-1); ShLin 2%nat 1 (-1)], Some (cN 1));
  (15, 15, [ShLin 0%nat 1 1; ShLin 1%nat 1 0; ShLin 2%nat 1 0], [ShLin 0%nat 1 0; ShLin 1%nat 1 (-1); ShLin 2%nat 1 (-1)], Some (cN 1));
  (16, 16, [ShLin 0%nat 1 1; ShLin 1%nat 1 0; ShLin 2%nat 1 0], [ShLin 0%nat 1 0; ShLin 1%nat 1 (-1); ShLin 2%nat 1 (-1)], Some (cN 1));
  (17, 17, [ShLin 0%nat 1 1; ShLin 1%nat 1 0; ShLin 2%nat 1 (-1)], [ShLin 0%nat 1 0; ShLin 1%nat 1 (-1); ShLin 2%nat 1 (-2)], Some (cN 1));
  (18, 18, [ShLin 0%nat 1 1; ShLin 1%nat 1 0; ShLin 2%nat 1 (-1)], [ShLin 0%nat 1 0; ShLin 1%nat 1 (-1); ShLin 2%nat 1 (-2)], Some (cN 1));
  (19, 19, [ShLin 0%nat 1 1; ShLin 1%nat 1 0; ShLin 2%nat 1 (-2)], [ShLin 0%nat 1 0; ShLin 1%nat 1 (-1); ShLin 2%nat 1 (-3)], Some (cN 1));
  (20, 20, [ShLin 0%nat 1 1; ShLin 1%nat 1 (-2); ShLin 2%nat 1 1], [ShLin 0%nat 1 0; ShLin 1%nat 1 (-3); ShLin 2%nat 1 0], Some (cN 1));
  (21, 21, [ShLin 0%nat 1 1; ShLin 1%nat 1 (-2); ShLin 2%nat 1 0], [ShLin 0%nat 1 0; ShLin 1%nat 1 (-3); ShLin 2%nat 1 (-1)], Some (cN 1));
  (22, 22, [ShLin 0%nat 1 1; ShLin 1%nat 1 (-2); ShLin 2%nat 1 (-1)], [ShLin 0%nat 1 0; ShLin 1%nat 1 (-3); ShLin 2%nat 1 (-2)], Some (cN 1));
  (23, 23, [ShLin 0%nat 1 0; ShLin 1%nat 1 3; ShLin 2%nat 1 0], [ShLin 0%nat 1 (-1); ShLin 1%nat 1 2; ShLin 2%nat 1 (-1)], Some (cN (-1)));
  (24, 24, [ShLin 0%nat 1 0; ShLin 1%nat 1 1; ShLin 2%nat 1 2], [ShLin 0%nat 1 (-1); ShLin 1%nat 1 0; ShLin 2%nat 1 1], Some (cN (-1)));
  (25, 25, [ShLin 0%nat 1 0; ShLin 1%nat 1 1; ShLin 2%nat 1 1], [ShLin 0%nat 1 (-1); ShLin 1%nat 1 0; ShLin 2%nat 1 0], Some (cN (-1)));
  (26, 26, [ShLin 0%nat 1 0; ShLin 1%nat 1 1; ShLin 2%nat 1 1], [ShLin 0%nat 1 (-1); ShLin 1%nat 1 0; ShLin 2%nat 1 0], Some (cN (-1)));
  (27, 27, [ShLin 0%nat 1 0; ShLin 1%nat 1 1; ShLin 2%nat 1 0], [ShLin 0%nat 1 (-1); ShLin 1%nat 1 0; ShLin 2%nat 1 (-1)], Some (cN (-1)));
  (28, 28, [ShLin 0%nat 1 0; ShLin 1%nat 1 1; ShLin 2%nat 1 0], [ShLin 0%nat 1 (-1); ShLin 1%nat 1 0; ShLin 2%nat 1 (-1)], Some (cN (-1)));
  (29, 29, [ShLin 0%nat 1 0; ShLin 1%nat 1 1; ShLin 2%nat 1 0], [ShLin 0%nat 1 (-1); ShLin 1%nat 1 0; ShLin 2%nat 1 (-1)], Some (cN (-1)));
  (30, 30, [ShLin 0%nat 1 0; ShLin 1%nat 1 1; ShLin 2%nat 1 (-1)], [ShLin 0%nat 1 (-1); ShLin 1%nat 1 0; ShLin 2%nat 1 (-2)], Some (cN (-1)));
  (31, 31, [ShLin 0%nat 1 0; ShLin 1%nat 1 1; ShLin 2%nat 1 (-1)], [ShLin 0%nat 1 (-1); ShLin 1%nat 1 0; ShLin 2%nat 1 (-2)], Some (cN (-1)));
  (32, 32, [ShLin 0%nat 1 0; ShLin 1%nat 1 1; ShLin 2%nat 1 (-2)], [ShLin 0%nat 1 (-1); ShLin 1%nat 1 0; ShLin 2%nat 1 (-3)], Some (cN (-1)));
  (33, 33, [ShLin 0%nat 1 0; ShLin 1%nat 1 (-1); ShLin 2%nat 1 2], [ShLin 0%nat 1 (-1); ShLin 1%nat 1 (-2); ShLin 2%nat 1 1], Some (cN (-1)));
  (34, 34, [ShLin 0%nat 1 0; ShLin 1%nat 1 (-1); ShLin 2%nat 1 1], [ShLin 0%nat 1 (-1); ShLin 1%nat 1 (-2); ShLin 2%nat 1 0], Some (cN (-1)));
  (35, 35, [ShLin 0%nat 1 0; ShLin 1%nat 1 (-1); ShLin 2%nat 1 1], [ShLin 0%nat 1 (-1); ShLin 1%nat 1 (-2); ShLin 2%nat 1 0], Some (cN (-1)));
  (36, 36, [ShLin 0%nat 1 0; ShLin 1%nat 1 (-1); ShLin 2%nat 1 0], [ShLin 0%nat 1 (-1); ShLin 1%nat 1 (-2); ShLin 2%nat 1 (-1)], Some (cN (-1)));
  (37, 37, [ShLin 0%nat 1 0; ShLin 1%nat 1 (-1); ShLin 2%nat 1 0], [ShLin 0%nat 1 (-1); ShLin 1%nat 1 (-2); ShLin 2%nat 1 (-1)], Some (cN (-1)));
  (38, 38, [ShLin 0%nat 1 0; ShLin 1%nat 1 (-1); ShLin 2%nat 1 0], [ShLin 0%nat 1 (-1); ShLin 1%nat 1 (-2); ShLin 2%nat 1 (-1)], Some (cN (-1)));
  (39, 39, [ShLin 0%nat 1 0; ShLin 1%nat 1 (-1); ShLin 2%nat 1 (-1)], [ShLin 0%nat 1 (-1); ShLin 1%nat 1 (-2); ShLin 2%nat 1 (-2)], Some (cN (-1)));
  (40, 40, [ShLin 0%nat 1 0; ShLin 1%nat 1 (-1); ShLin 2%nat 1 (-1)], [ShLin 0%nat 1 (-1); ShLin 1%nat 1 (-2); ShLin 2%nat 1 (-2)], Some (cN (-1)));
  (41, 41, [ShLin 0%nat 1 0; ShLin 1%nat 1 (-1); ShLin 2%nat 1 (-2)], [ShLin 0%nat 1 (-1); ShLin 1%nat 1 (-2); ShLin 2%nat 1 (-3)], Some (cN (-1)));
  (42, 42, [ShLin 0%nat 1 0; ShLin 1%nat 1 (-3); ShLin 2%nat 1 0], [ShLin 0%nat 1 (-1); ShLin 1%nat 1 (-4); ShLin 2%nat 1 (-1)], Some (cN (-1)));
  (43, 43, [ShLin 0%nat 1 (-1); ShLin 1%nat 1 2; ShLin 2%nat 1 1], [ShLin 0%nat 1 (-2); ShLin 1%nat 1 1; ShLin 2%nat 1 0], Some (cN 1));
  (44, 44, [ShLin 0%nat 1 (-1); ShLin 1%nat 1 2; ShLin 2%nat 1 0], [ShLin 0%nat 1 (-2); ShLin 1%nat 1 1; ShLin 2%nat 1 (-1)], Some (cN 1));
  (45, 45, [ShLin 0%nat 1 (-1); ShLin 1%nat 1 2; ShLin 2%nat 1 (-1)], [ShLin 0%nat 1 (-2); ShLin 1%nat 1 1; ShLin 2%nat 1 (-2)], Some (cN 1));
  (46, 46, [ShLin 0%nat 1 (-1); ShLin 1%nat 1 0; ShLin 2%nat 1 2], [ShLin 0%nat 1 (-2); ShLin 1%nat 1 (-1); ShLin 2%nat 1 1], Some (cN 1));
  (47, 47, [ShLin 0%nat 1 (-1); ShLin 1%nat 1 0; ShLin 2%nat 1 1], [ShLin 0%nat 1 (-2); ShLin 1%nat 1 (-1); ShLin 2%nat 1 0], Some (cN 1));
  (48, 48, [ShLin 0%nat 1 (-1); ShLin 1%nat 1 0; ShLin 2%nat 1 1], [ShLin 0%nat 1 (-2); ShLin 1%nat 1 (-1); ShLin 2%nat 1 0], Some (cN 1));
  (49, 49, [ShLin 0%nat 1 (-1); ShLin 1%nat 1 0; ShLin 2%nat 1 0], [ShLin 0%nat 1 (-2); ShLin 1%nat 1 (-1); ShLin 2%nat 1 (-1)], Some (cN 1));
  (50, 50, [ShLin 0%nat 1 (-1); ShLin 1%nat 1 0; ShLin 2%nat 1 0], [ShLin 0%nat 1 (-2); ShLin 1%nat 1 (-1); ShLin 2%nat 1 (-1)], Some (cN 1));
  (51, 51, [ShLin 0%nat 1 (-1); ShLin 1%nat 1 0; ShLin 2%nat 1 0], [ShLin 0%nat 1 (-2); ShLin 1%nat 1 (-1); ShLin 2%nat 1 (-1)], Some (cN 1));
  (52, 52, [ShLin 0%nat 1 (-1); ShLin 1%nat 1 0; ShLin 2%nat 1 (-1)], [ShLin 0%nat 1 (-2); ShLin 1%nat 1 (-1); ShLin 2%nat 1 (-2)], Some (cN 1));
  (53, 53, [ShLin 0%nat 1 (-1); ShLin 1%nat 1 0; ShLin 2%nat 1 (-1)], [ShLin 0%nat 1 (-2); ShLin 1%nat 1 (-1); ShLin 2%nat 1 (-2)], Some (cN 1));
  (54, 54, [ShLin 0%nat 1 (-1); ShLin 1%nat 1 0; ShLin 2%nat 1 (-2)], [ShLin 0%nat 1 (-2); ShLin 1%nat 1 (-1); ShLin 2%nat 1 (-3)], Some (cN 1));
  (55, 55, [ShLin 0%nat 1 (-1); ShLin 1%nat 1 (-2); ShLin 2%nat 1 1], [ShLin 0%nat 1 (-2); ShLin 1%nat 1 (-3); ShLin 2%nat 1 0], Some (cN 1));
  (56, 56, [ShLin 0%nat 1 (-1); ShLin 1%nat 1 (-2); ShLin 2%nat 1 0], [ShLin 0%nat 1 (-2); ShLin 1%nat 1 (-3); ShLin 2%nat 1 (-1)], Some (cN 1));
  (57, 57, [ShLin 0%nat 1 (-1); ShLin 1%nat 1 (-2); ShLin 2%nat 1 (-1)], [ShLin 0%nat 1 (-2); ShLin 1%nat 1 (-3); ShLin 2%nat 1 (-2)], Some (cN 1));
  (58, 58, [ShLin 0%nat 1 (-2); ShLin 1%nat 1 1; ShLin 2%nat 1 1], [ShLin 0%nat 1 (-3); ShLin 1%nat 1 0; ShLin 2%nat 1 0], Some (cN (-1)));
  (59, 59, [ShLin 0%nat 1 (-2); ShLin 1%nat 1 1; ShLin 2%nat 1 0], [ShLin 0%nat 1 (-3); ShLin 1%nat 1 0; ShLin 2%nat 1 (-1)], Some (cN (-1)));
  (60, 60, [ShLin 0%nat 1 (-2); ShLin 1%nat 1 1; ShLin 2%nat 1 (-1)], [ShLin 0%nat 1 (-3); ShLin 1%nat 1 0; ShLin 2%nat 1 (-2)], Some (cN (-1)));
  (61, 61, [ShLin 0%nat 1 (-2); ShLin 1%nat 1 (-1); ShLin 2%nat 1 1], [ShLin 0%nat 1 (-3); ShLin 1%nat 1 (-2); ShLin 2%nat 1 0], Some (cN (-1)));
  (62, 62, [ShLin 0%nat 1 (-2); ShLin 1%nat 1 (-1); ShLin 2%nat 1 0], [ShLin 0%nat 1 (-3); ShLin 1%nat 1 (-2); ShLin 2%nat 1 (-1)], Some (cN (-1)));
  (63, 63, [ShLin 0%nat 1 (-2); ShLin 1%nat 1 (-1); ShLin 2%nat 1 (-1)], [ShLin 0%nat 1 (-3); ShLin 1%nat 1 (-2); ShLin 2%nat 1 (-2)], Some (cN (-1)));
  (64, 64, [ShLin 0%nat 1 (-3); ShLin 1%nat 1 0; ShLin 2%nat 1 0], [ShLin 0%nat 1 (-4); ShLin 1%nat 1 (-1); ShLin 2%nat 1 (-1)], Some (cN 1))].
(** /repo/c++/symmetry/nrg-recalc-QSZTZ.hpp recalc_doublet, qsztz/qsztz-doubletp0.dat *)
Definition qsztz_t2 : ten_table := mk_ten "doublet" [ShLin 0%nat 1 (-1); ShLin 1%nat 1 1; ShLin 2%nat 1 0] [1; (-1); 0] [
  (1, 1, [ShLin 0%nat 1 3; ShLin 1%nat 1 0; ShLin 2%nat 1 0], [ShLin 0%nat 1 2; ShLin 1%nat 1 1; ShLin 2%nat 1 0], Some (cN 1));
  (2, 2, [ShLin 0%nat 1 2; ShLin 1%nat 1 1; ShLin 2%nat 1 1], [ShLin 0%nat 1 1; ShLin 1%nat 1 2; ShLin 2%nat 1 1], Some (cN (-1)));
  (3, 3, [ShLin 0%nat 1 2; ShLin 1%nat 1 1; ShLin 2%nat 1 0], [ShLin 0%nat 1 1; ShLin 1%nat 1 2; ShLin 2%nat 1 0], Some (cN (-1)));
  (4, 4, [ShLin 0%nat 1 2; ShLin 1%nat 1 1; ShLin 2%nat 1 (-1)], [ShLin 0%nat 1 1; ShLin 1%nat 1 2; ShLin 2%nat 1 (-1)], Some (cN (-1)));
  (5, 5, [ShLin 0%nat 1 2; ShLin 1%nat 1 (-1); ShLin 2%nat 1 1], [ShLin 0%nat 1 1; ShLin 1%nat 1 0; ShLin 2%nat 1 1], Some (cN (-1)));
  (6, 6, [ShLin 0%nat 1 2; ShLin 1%nat 1 (-1); ShLin 2%nat 1 0], [ShLin 0%nat 1 1; ShLin 1%nat 1 0; ShLin 2%nat 1 0], Some (cN (-1)));
  (7, 7, [ShLin 0%nat 1 2; ShLin 1%nat 1 (-1); ShLin 2%nat 1 (-1)], [ShLin 0%nat 1 1; ShLin 1%nat 1 0; ShLin 2%nat 1 (-1)], Some (cN (-1)));
  (8, 8, [ShLin 0%nat 1 1; ShLin 1%nat 1 2; ShLin 2%nat 1 1], [ShLin 0%nat 1 0; ShLin 1%nat 1 3; ShLin 2%nat 1 1], Some (cN 1));
  (9, 9, [ShLin 0%nat 1 1; ShLin 1%nat 1 2; ShLin 2%nat 1 0], [ShLin 0%nat 1 0; ShLin 1%nat 1 3; ShLin 2%nat 1 0], Some (cN 1));
  (10, 10, [ShLin 0%nat 1 1; ShLin 1%nat 1 2; ShLin 2%nat 1 (-1)], [ShLin 0%nat 1 0; ShLin 1%nat 1 3; ShLin 2%nat 1 (-1)], Some (cN 1));
  (11, 11, [ShLin 0%nat 1 1; ShLin 1%nat 1 0; ShLin 2%nat 1 2], [ShLin 0%nat 1 0; ShLin 1%nat 1 1; ShLin 2%nat 1 2], Some (cN 1));
  (12, 12, [ShLin 0%nat 1 1; ShLin 1%nat 1 0; ShLin 2%nat 1 1], [ShLin 0%nat 1 0; ShLin 1%nat 1 1; ShLin 2%nat 1 1], Some (cN 1));
  (13, 13, [ShLin 0%nat 1 1; ShLin 1%nat 1 0; ShLin 2%nat 1 1], [ShLin 0%nat 1 0; ShLin 1%nat 1 1; ShLin 2%nat 1 1], Some (cN 1));
  (14, 14, [ShLin 0%nat 1 1; ShLin 1%nat 1 0; ShLin 2%nat 1 0], [ShLin 0%nat 1 0; ShLin 1%nat 1 1; ShLin 2%nat 1 0], Some (cN 1));
  (15, 15, [ShLin 0%nat 1 1; ShLin 1%nat 1 0; ShLin 2%nat 1 0], [ShLin 0%nat 1 0; ShLin 1%nat 1 1; ShLin 2%nat 1 0], Some (cN 1));
  (16, 16, [ShLin 0%nat 1 1; ShLin 1%nat 1 0; ShLin 2%nat 1 0], [ShLin 0%nat 1 0; ShLin 1%nat 1 1; ShLin 2%nat 1 0], Some (cN 1));
  (17, 17, [ShLin 0%nat 1 1; ShLin 1%nat 1 0; ShLin 2%nat 1 (-1)], [ShLin 0%nat 1 0; ShLin 1%nat 1 1; ShLin 2%nat 1 (-1)], Some (cN 1));
  (18, 18, [ShLin 0%nat 1 1; ShLin 1%nat 1 0; ShLin 2%nat 1 (-1)], [ShLin 0%nat 1 0; ShLin 1%nat 1 1; ShLin 2%nat 1 (-1)], Some (cN 1));
  (19, 19, [ShLin 0%nat 1 1; ShLin 1%nat 1 0; ShLin 2%nat 1 (-2)], [ShLin 0%nat 1 0; ShLin 1%nat 1 1; ShLin 2%nat 1 (-2)], Some (cN 1));
  (20, 20, [ShLin 0%nat 1 1; ShLin 1%nat 1 (-2); ShLin 2%nat 1 1], [ShLin 0%nat 1 0; ShLin 1%nat 1 (-1); ShLin 2%nat 1 1], Some (cN 1));
  (21, 21, [ShLin 0%nat 1 1; ShLin 1%nat 1 (-2); ShLin 2%nat 1 0], [ShLin 0%nat 1 0; ShLin 1%nat 1 (-1); ShLin 2%nat 1 0], Some (cN 1));
  (22, 22, [ShLin 0%nat 1 1; ShLin 1%nat 1 (-2); ShLin 2%nat 1 (-1)], [ShLin 0%nat 1 0; ShLin 1%nat 1 (-1); ShLin 2%nat 1 (-1)], Some (cN 1));
  (23, 23, [ShLin 0%nat 1 0; ShLin 1%nat 1 3; ShLin 2%nat 1 0], [ShLin 0%nat 1 (-1); ShLin 1%nat 1 4; ShLin 2%nat 1 0], Some (cN (-1)));
  (24, 24, [ShLin 0%nat 1 0; ShLin 1%nat 1 1; ShLin 2%nat 1 2], [ShLin 0%nat 1 (-1); ShLin 1%nat 1 2; ShLin 2%nat 1 2], Some (cN (-1)));
  (25, 25, [ShLin 0%nat 1 0; ShLin 1%nat 1 1; ShLin 2%nat 1 1], [ShLin 0%nat 1 (-1); ShLin 1%nat 1 2; ShLin 2%nat 1 1], Some (cN (-1)));
  (26, 26, [ShLin 0%nat 1 0; ShLin 1%nat 1 1; ShLin 2%nat 1 1], [ShLin 0%nat 1 (-1); ShLin 1%nat 1 2; ShLin 2%nat 1 1], Some (cN (-1)));
  (27, 27, [ShLin 0%nat 1 0; ShLin 1%nat 1 1; ShLin 2%nat 1 0], [ShLin 0%nat 1 (-1); ShLin 1%nat 1 2; ShLin 2%nat 1 0], Some (cN (-1)));
  (28, 28, [ShLin 0%nat 1 0; ShLin 1%nat 1 1; ShLin 2%nat 1 0], [ShLin 0%nat 1 (-1); ShLin 1%nat 1 2; ShLin 2%nat 1 0], Some (cN (-1)));
  (29, 29, [ShLin 0%nat 1 0; ShLin 1%nat 1 1; ShLin 2%nat 1 0], [ShLin 0%nat 1 (-1); ShLin 1%nat 1 2; ShLin 2%nat 1 0], Some (cN (-1)));
  (30, 30, [ShLin 0%nat 1 0; ShLin 1%nat 1 1; ShLin 2%nat 1 (-1)], [ShLin 0%nat 1 (-1); ShLin 1%nat 1 2; ShLin 2%nat 1 (-1)], Some (cN (-1)));
  (31, 31, [ShLin 0%nat 1 0; ShLin 1%nat 1 1; ShLin 2%nat 1 (-1)], [ShLin 0%nat 1 (-1); ShLin 1%nat 1 2; ShLin 2%nat 1 (-1)], Some (cN (-1)));
  (32, 32, [ShLin 0%nat 1 0; ShLin 1%nat 1 1; ShLin 2%nat 1 (-2)], [ShLin 0%nat 1 (-1); ShLin 1%nat 1 2; ShLin 2%nat 1 (-2)], Some (cN (-1)));
  (33, 33, [ShLin 0%nat 1 0; ShLin 1%nat 1 (-1); ShLin 2%nat 1 2], [ShLin 0%nat 1 (-1); ShLin 1%nat 1 0; ShLin 2%nat 1 2], Some (cN (-1)));
  (34, 34, [ShLin 0%nat 1 0; ShLin 1%nat 1 (-1); ShLin 2%nat 1 1], [ShLin 0%nat 1 (-1); ShLin 1%nat 1 0; ShLin 2%nat 1 1], Some (cN (-1)));
  (35, 35, [ShLin 0%nat 1 0; ShLin 1%nat 1 (-1); ShLin 2%nat 1 1], [ShLin 0%nat 1 (-1); ShLin 1%nat 1 0; ShLin 2%nat 1 1], Some (cN (-1)));
  (36, 36, [ShLin 0%nat 1 0; ShLin 1%nat 1 (-1); ShLin 2%nat 1 0], [ShLin 0%nat 1 (-1); ShLin 1%nat 1 0; ShLin 2%nat 1 0], Some (cN (-1)));
  (37, 37, [ShLin 0%nat 1 0; ShLin 1%nat 1 (-1); ShLin 2%nat 1 0], [ShLin 0%nat 1 (-1); ShLin 1%nat 1 0; ShLin 2%nat 1 0], Some (cN (-1)));
  (38, 38, [ShLin 0%nat 1 0; ShLin 1%nat 1 (-1); ShLin 2%nat 1 0], [ShLin 0%nat 1 (-1); ShLin 1%nat 1 0; ShLin 2%nat 1 0], Some (cN (-1)));
  (39, 39, [ShLin 0%nat 1 0; ShLin 1%nat 1 (-1); ShLin 2%nat 1 (-1)], [ShLin 0%nat 1 (-1); ShLin 1%nat 1 0; ShLin 2%nat 1 (-1)], Some (cN (-1)));
  (40, 40, [ShLin 0%nat 1 0; ShLin 1%nat 1 (-1); ShLin 2%nat 1 (-1)], [ShLin 0%nat 1 (-1); ShLin 1%nat 1 0; ShLin 2%nat 1 (-1)], Some (cN (-1)));
  (41, 41, [ShLin 0%nat 1 0; ShLin 1%nat 1 (-1); ShLin 2%nat 1 (-2)], [ShLin 0%nat 1 (-1); ShLin 1%nat 1 0; ShLin 2%nat 1 (-2)], Some (cN (-1)));
  (42, 42, [ShLin 0%nat 1 0; ShLin 1%nat 1 (-3); ShLin 2%nat 1 0], [ShLin 0%nat 1 (-1); ShLin 1%nat 1 (-2); ShLin 2%nat 1 0], Some (cN (-1)));
  (43, 43, [ShLin 0%nat 1 (-1); ShLin 1%nat 1 2; ShLin 2%nat 1 1], [ShLin 0%nat 1 (-2); ShLin 1%nat 1 3; ShLin 2%nat 1 1], Some (cN 1));
  (44, 44, [ShLin 0%nat 1 (-1); ShLin 1%nat 1 2; ShLin 2%nat 1 0], [ShLin 0%nat 1 (-2); ShLin 1%nat 1 3; ShLin 2%nat 1 0], Some (cN 1));
  (45, 45, [ShLin 0%nat 1 (-1); ShLin 1%nat 1 2; ShLin 2%nat 1 (-1)], [ShLin 0%nat 1 (-2); ShLin 1%nat 1 3; ShLin 2%nat 1 (-1)], Some (cN 1));
  (46, 46, [ShLin 0%nat 1 (-1); ShLin 1%nat 1 0; ShLin 2%nat 1 2], [ShLin 0%nat 1 (-2); ShLin 1%nat 1 1; ShLin 2%nat 1 2], Some (cN 1));
  (47, 47, [ShLin 0%nat 1 (-1); ShLin 1%nat 1 0; ShLin 2%nat 1 1], [ShLin 0%nat 1 (-2); ShLin 1%nat 1 1; ShLin 2%nat 1 1], Some (cN 1));
  (48, 48, [ShLin 0%nat 1 (-1); ShLin 1%nat 1 0; ShLin 2%nat 1 1], [ShLin 0%nat 1 (-2); ShLin 1%nat 1 1; ShLin 2%nat 1 1], Some (cN 1));
  (49, 49, [ShLin 0%nat 1 (-1); ShLin 1%nat 1 0; ShLin 2%nat 1 0], [ShLin 0%nat 1 (-2); ShLin 1%nat 1 1; ShLin 2%nat 1 0], Some (cN 1));
  (50, 50, [ShLin 0%nat 1 (-1); ShLin 1%nat 1 0; ShLin 2%nat 1 0], [ShLin 0%nat 1 (-2); ShLin 1%nat 1 1; ShLin 2%nat 1 0], Some (cN 1));
  (51, 51, [ShLin 0%nat 1 (-1); ShLin 1%nat 1 0; ShLin 2%nat 1 0], [ShLin 0%nat 1 (-2); ShLin 1%nat 1 1; ShLin 2%nat 1 0], Some (cN 1));
  (52, 52, [ShLin 0%nat 1 (-1); ShLin 1%nat 1 0; ShLin 2%nat 1 (-1)], [ShLin 0%nat 1 (-2); ShLin 1%nat 1 1; ShLin 2%nat 1 (-1)], Some (cN 1));
  (53, 53, [ShLin 0%nat 1 (-1); ShLin 1%nat 1 0; ShLin 2%nat 1 (-1)], [ShLin 0%nat 1 (-2); ShLin 1%nat 1 1; ShLin 2%nat 1 (-1)], Some (cN 1));
  (54, 54, [ShLin 0%nat 1 (-1); ShLin 1%nat 1 0; ShLin 2%nat 1 (-2)], [ShLin 0%nat 1 (-2); ShLin 1%nat 1 1; ShLin 2%nat 1 (-2)], Some (cN 1));
  (55, 55, [ShLin 0%nat 1 (-1); ShLin 1%nat 1 (-2); ShLin 2%nat 1 1], [ShLin 0%nat 1 (-2); ShLin 1%nat 1 (-1); ShLin 2%nat 1 1], Some (cN 1));
  (56, 56, [ShLin 0%nat 1 (-1); ShLin 1%nat 1 (-2); ShLin 2%nat 1 0], [ShLin 0%nat 1 (-2); ShLin 1%nat 1 (-1); ShLin 2%nat 1 0], Some (cN 1));
  (57, 57, [ShLin 0%nat 1 (-1); ShLin 1%nat 1 (-2); ShLin 2%nat 1 (-1)], [ShLin 0%nat 1 (-2); ShLin 1%nat 1 (-1); ShLin 2%nat 1 (-1)], Some (cN 1));
  (58, 58, [ShLin 0%nat 1 (-2); ShLin 1%nat 1 1; ShLin 2%nat 1 1], [ShLin 0%nat 1 (-3); ShLin 1%nat 1 2; ShLin 2%nat 1 1], Some (cN (-1)));
  (59, 59, [ShLin 0%nat 1 (-2); ShLin 1%nat 1 1; ShLin 2%nat 1 0], [ShLin 0%nat 1 (-3); ShLin 1%nat 1 2; ShLin 2%nat 1 0], Some (cN (-1)));
  (60, 60, [ShLin 0%nat 1 (-2); ShLin 1%nat 1 1; ShLin 2%nat 1 (-1)], [ShLin 0%nat 1 (-3); ShLin 1%nat 1 2; ShLin 2%nat 1 (-1)], Some (cN (-1)));
  (61, 61, [ShLin 0%nat 1 (-2); ShLin 1%nat 1 (-1); ShLin 2%nat 1 1], [ShLin 0%nat 1 (-3); ShLin 1%nat 1 0; ShLin 2%nat 1 1], Some (cN (-1)));
  (62, 62, [ShLin 0%nat 1 (-2); ShLin 1%nat 1 (-1); ShLin 2%nat 1 0], [ShLin 0%nat 1 (-3); ShLin 1%nat 1 0; ShLin 2%nat 1 0], Some (cN (-1)));
  (63, 63, [ShLin 0%nat 1 (-2); ShLin 1%nat 1 (-1); ShLin 2%nat 1 (-1)], [ShLin 0%nat 1 (-3); ShLin 1%nat 1 0; ShLin 2%nat 1 (-1)], Some (cN (-1)));
  (64, 64, [ShLin 0%nat 1 (-3); ShLin 1%nat 1 0; ShLin 2%nat 1 0], [ShLin 0%nat 1 (-4); ShLin 1%nat 1 1; ShLin 2%nat 1 0], Some (cN 1))].
(** /repo/c++/symmetry/nrg-recalc-QSZTZ.hpp recalc_doublet, qsztz/qsztz-doubletm0.dat *)
Definition qsztz_t3 : ten_table := mk_ten "doublet" [ShLin 0%nat 1 (-1); ShLin 1%nat 1 (-1); ShLin 2%nat 1 0] [1; 1; 0] [
  (1, 1, [ShLin 0%nat 1 3; ShLin 1%nat 1 0; ShLin 2%nat 1 0], [ShLin 0%nat 1 2; ShLin 1%nat 1 (-1); ShLin 2%nat 1 0], Some (cN 1));
  (2, 2, [ShLin 0%nat 1 2; ShLin 1%nat 1 1; ShLin 2%nat 1 1], [ShLin 0%nat 1 1; ShLin 1%nat 1 0; ShLin 2%nat 1 1], Some (cN (-1)));
  (3, 3, [ShLin 0%nat 1 2; ShLin 1%nat 1 1; ShLin 2%nat 1 0], [ShLin 0%nat 1 1; ShLin 1%nat 1 0; ShLin 2%nat 1 0], Some (cN (-1)));
  (4, 4, [ShLin 0%nat 1 2; ShLin 1%nat 1 1; ShLin 2%nat 1 (-1)], [ShLin 0%nat 1 1; ShLin 1%nat 1 0; ShLin 2%nat 1 (-1)], Some (cN (-1)));
  (5, 5, [ShLin 0%nat 1 2; ShLin 1%nat 1 (-1); ShLin 2%nat 1 1], [ShLin 0%nat 1 1; ShLin 1%nat 1 (-2); ShLin 2%nat 1 1], Some (cN (-1)));
  (6, 6, [ShLin 0%nat 1 2; ShLin 1%nat 1 (-1); ShLin 2%nat 1 0], [ShLin 0%nat 1 1; ShLin 1%nat 1 (-2); ShLin 2%nat 1 0], Some (cN (-1)));
  (7, 7, [ShLin 0%nat 1 2; ShLin 1%nat 1 (-1); ShLin 2%nat 1 (-1)], [ShLin 0%nat 1 1; ShLin 1%nat 1 (-2); ShLin 2%nat 1 (-1)], Some (cN (-1)));
  (8, 8, [ShLin 0%nat 1 1; ShLin 1%nat 1 2; ShLin 2%nat 1 1], [ShLin 0%nat 1 0; ShLin 1%nat 1 1; ShLin 2%nat 1 1], Some (cN 1));
  (9, 9, [ShLin 0%nat 1 1; ShLin 1%nat 1 2; ShLin 2%nat 1 0], [ShLin 0%nat 1 0; ShLin 1%nat 1 1; ShLin 2%nat 1 0], Some (cN 1));
  (10, 10, [ShLin 0%nat 1 1; ShLin 1%nat 1 2; ShLin 2%nat 1 (-1)], [ShLin 0%nat 1 0; ShLin 1%nat 1 1; ShLin 2%nat 1 (-1)], Some (cN 1));
  (11, 11, [ShLin 0%nat 1 1; ShLin 1%nat 1 0; ShLin 2%nat 1 2], [ShLin 0%nat 1 0; ShLin 1%nat 1 (-1); ShLin 2%nat 1 2], Some (cN 1));
  (12, 12, [ShLin 0%nat 1 1; ShLin 1%nat 1 0; ShLin 2%nat 1 1], [ShLin 0%nat 1 0; ShLin 1%nat 1 (-1); ShLin 2%nat 1 1], Some (cN 1));
  (13, 13, [ShLin 0%nat 1 1; ShLin 1%nat 1 0; ShLin 2%nat 1 1], [ShLin 0%nat 1 0; ShLin 1%nat 1 (-1); ShLin 2%nat 1 1], Some (cN 1));
  (14, 14, [ShLin 0%nat 1 1; ShLin 1%nat 1 0; ShLin 2%nat 1 0], [ShLin 0%nat 1 0; ShLin 1%nat 1 (-1); ShLin 2%nat 1 0], Some (cN 1));
  (15, 15, [ShLin 0%nat 1 1; ShLin 1%nat 1 0; ShLin 2%nat 1 0], [ShLin 0%nat 1 0; ShLin 1%nat 1 (-1); ShLin 2%nat 1 0], Some (cN 1));
  (16, 16, [ShLin 0%nat 1 1; ShLin 1%nat 1 0; ShLin 2%nat 1 0], [ShLin 0%nat 1 0; ShLin 1%nat 1 (-1); ShLin 2%nat 1 0], Some (cN 1));
  (17, 17, [ShLin 0%nat 1 1; ShLin 1%nat 1 0; ShLin 2%nat 1 (-1)], [ShLin 0%nat 1 0; ShLin 1%nat 1 (-1); ShLin 2%nat 1 (-1)], Some (cN 1));
  (18, 18, [ShLin 0%nat 1 1; ShLin 1%nat 1 0; ShLin 2%nat 1 (-1)], [ShLin 0%nat 1 0; ShLin 1%nat 1 (-1); ShLin 2%nat 1 (-1)], Some (cN 1));
  (19, 19, [ShLin 0%nat 1 1; ShLin 1%nat 1 0; ShLin 2%nat 1 (-2)], [ShLin 0%nat 1 0; ShLin 1%nat 1 (-1); ShLin 2%nat 1 (-2)], Some (cN 1));
  (20, 20, [ShLin 0%nat 1 1; ShLin 1%nat 1 (-2); ShLin 2%nat 1 1], [ShLin 0%nat 1 0; ShLin 1%nat 1 (-3); ShLin 2%nat 1 1], Some (cN 1));
  (21, 21, [ShLin 0%nat 1 1; ShLin 1%nat 1 (-2); ShLin 2%nat 1 0], [ShLin 0%nat 1 0; ShLin 1%nat 1 (-3); ShLin 2%nat 1 0], Some (cN 1));
  (22, 22, [ShLin 0%nat 1 1; ShLin 1%nat 1 (-2); ShLin 2%nat 1 (-1)], [ShLin 0%nat 1 0; ShLin 1%nat 1 (-3); ShLin 2%nat 1 (-1)], Some (cN 1));
  (23, 23, [ShLin 0%nat 1 0; ShLin 1%nat 1 3; ShLin 2%nat 1 0], [ShLin 0%nat 1 (-1); ShLin 1%nat 1 2; ShLin 2%nat 1 0], Some (cN (-1)));
  (24, 24, [ShLin 0%nat 1 0; ShLin 1%nat 1 1; ShLin 2%nat 1 2], [ShLin 0%nat 1 (-1); ShLin 1%nat 1 0; ShLin 2%nat 1 2], Some (cN (-1)));
  (25, 25, [ShLin 0%nat 1 0; ShLin 1%nat 1 1; ShLin 2%nat 1 1], [ShLin 0%nat 1 (-1); ShLin 1%nat 1 0; ShLin 2%nat 1 1], Some (cN (-1)));
  (26, 26, [ShLin 0%nat 1 0; ShLin 1%nat 1 1; ShLin 2%nat 1 1], [ShLin 0%nat 1 (-1); ShLin 1%nat 1 0; ShLin 2%nat 1 1], Some (cN (-1)));
  (27, 27, [ShLin 0%nat 1 0; ShLin 1%nat 1 1; ShLin 2%nat 1 0], [ShLin 0%nat 1 (-1); ShLin 1%nat 1 0; ShLin 2%nat 1 0], Some (cN (-1)));
  (28, 28, [ShLin 0%nat 1 0; ShLin 1%nat 1 1; ShLin 2%nat 1 0], [ShLin 0%nat 1 (-1); ShLin 1%nat 1 0; ShLin 2%nat 1 0], Some (cN (-1)));
  (29, 29, [ShLin 0%nat 1 0; ShLin 1%nat 1 1; ShLin 2%nat 1 0], [ShLin 0%nat 1 (-1); ShLin 1%nat 1 0; ShLin 2%nat 1 0], Some (cN (-1)));
  (30, 30, [ShLin 0%nat 1 0; ShLin 1%nat 1 1; ShLin 2%nat 1 (-1)], [ShLin 0%nat 1 (-1); ShLin 1%nat 1 0; ShLin 2%nat 1 (-1)], Some (cN (-1)));
  (31, 31, [ShLin 0%nat 1 0; ShLin 1%nat 1 1; ShLin 2%nat 1 (-1)], [ShLin 0%nat 1 (-1); ShLin 1%nat 1 0; ShLin 2%nat 1 (-1)], Some (cN (-1)));
  (32, 32, [ShLin 0%nat 1 0; ShLin 1%nat 1 1; ShLin 2%nat 1 (-2)], [ShLin 0%nat 1 (-1); ShLin 1%nat 1 0; ShLin 2%nat 1 (-2)], Some (cN (-1)));
  (33, 33, [ShLin 0%nat 1 0; ShLin 1%nat 1 (-1); ShLin 2%nat 1 2], [ShLin 0%nat 1 (-1); ShLin 1%nat 1 (-2); ShLin 2%nat 1 2], Some (cN (-1)));
  (34, 34, [ShLin 0%nat 1 0; ShLin 1%nat 1 (-1); ShLin 2%nat 1 1], [ShLin 0%nat 1 (-1); ShLin 1%nat 1 (-2); ShLin 2%nat 1 1], Some (cN (-1)));
  (35, 35, [ShLin 0%nat 1 0; ShLin 1%nat 1 (-1); ShLin 2%nat 1 1], [ShLin 0%nat 1 (-1); ShLin 1%nat 1 (-2); ShLin 2%nat 1 1], Some (cN (-1)));
  (36, 36, [ShLin 0%nat 1 0; ShLin 1%nat 1 (-1); ShLin 2%nat 1 0], [ShLin 0%nat 1 (-1); ShLin 1%nat 1 (-2); ShLin 2%nat 1 0], Some (cN (-1)));
  (37, 37, [ShLin 0%nat 1 0; ShLin 1%nat 1 (-1); ShLin 2%nat 1 0], [ShLin 0%nat 1 (-1); ShLin 1%nat 1 (-2); ShLin 2%nat 1 0], Some (cN (-1)));
  (38, 38, [ShLin 0%nat 1 0; ShLin 1%nat 1 (-1); ShLin 2%nat 1 0], [ShLin 0%nat 1 (-1); ShLin 1%nat 1 (-2); ShLin 2%nat 1 0], Some (cN (-1)));
  (39, 39, [ShLin 0%nat 1 0; ShLin 1%nat 1 (-1); ShLin 2%nat 1 (-1)], [ShLin 0%nat 1 (-1); ShLin 1%nat 1 (-2); ShLin 2%nat 1 (-1)], Some (cN (-1)));
  (40, 40, [ShLin 0%nat 1 0; ShLin 1%nat 1 (-1); ShLin 2%nat 1 (-1)], [ShLin 0%nat 1 (-1); ShLin 1%nat 1 (-2); ShLin 2%nat 1 (-1)], Some (cN (-1)));
  (41, 41, [ShLin 0%nat 1 0; ShLin 1%nat 1 (-1); ShLin 2%nat 1 (-2)], [ShLin 0%nat 1 (-1); ShLin 1%nat 1 (-2); ShLin 2%nat 1 (-2)], Some (cN (-1)));
  (42, 42, [ShLin 0%nat 1 0; ShLin 1%nat 1 (-3); ShLin 2%nat 1 0], [ShLin 0%nat 1 (-1); ShLin 1%nat 1 (-4); ShLin 2%nat 1 0], Some (cN (-1)));
  (43, 43, [ShLin 0%nat 1 (-1); ShLin 1%nat 1 2; ShLin 2%nat 1 1], [ShLin 0%nat 1 (-2); ShLin 1%nat 1 1; ShLin 2%nat 1 1], Some (cN 1));
  (44, 44, [ShLin 0%nat 1 (-1); ShLin 1%nat 1 2; ShLin 2%nat 1 0], [ShLin 0%nat 1 (-2); ShLin 1%nat 1 1; ShLin 2%nat 1 0], Some (cN 1));
  (45, 45, [ShLin 0%nat 1 (-1); ShLin 1%nat 1 2; ShLin 2%nat 1 (-1)], [ShLin 0%nat 1 (-2); ShLin 1%nat 1 1; ShLin 2%nat 1 (-1)], Some (cN 1));
  (46, 46, [ShLin 0%nat 1 (-1); ShLin 1%nat 1 0; ShLin 2%nat 1 2], [ShLin 0%nat 1 (-2); ShLin 1%nat 1 (-1); ShLin 2%nat 1 2], Some (cN 1));
  (47, 47, [ShLin 0%nat 1 (-1); ShLin 1%nat 1 0; ShLin 2%nat 1 1], [ShLin 0%nat 1 (-2); ShLin 1%nat 1 (-1); ShLin 2%nat 1 1], Some (cN 1));
  (48, 48, [ShLin 0%nat 1 (-1); ShLin 1%nat 1 0; ShLin 2%nat 1 1], [ShLin 0%nat 1 (-2); ShLin 1%nat 1 (-1); ShLin 2%nat 1 1], Some (cN 1));
  (49, 49, [ShLin 0%nat 1 (-1); ShLin 1%nat 1 0; ShLin 2%nat 1 0], [ShLin 0%nat 1 (-2); ShLin 1%nat 1 (-1); ShLin 2%nat 1 0], Some (cN 1));
  (50, 50, [ShLin 0%nat 1 (-1); ShLin 1%nat 1 0; ShLin 2%nat 1 0], [ShLin 0%nat 1 (-2); ShLin 1%nat 1 (-1); ShLin 2%nat 1 0], Some (cN 1));
  (51, 51, [ShLin 0%nat 1 (-1); ShLin 1%nat 1 0; ShLin 2%nat 1 0], [ShLin 0%nat 1 (-2); ShLin 1%nat 1 (-1); ShLin 2%nat 1 0], Some (cN 1));
  (52, 52, [ShLin 0%nat 1 (-1); ShLin 1%nat 1 0; ShLin 2%nat 1 (-1)], [ShLin 0%nat 1 (-2); ShLin 1%nat 1 (-1); ShLin 2%nat 1 (-1)], Some (cN 1));
  (53, 53, [ShLin 0%nat 1 (-1); ShLin 1%nat 1 0; ShLin 2%nat 1 (-1)], [ShLin 0%nat 1 (-2); ShLin 1%nat 1 (-1); ShLin 2%nat 1 (-1)], Some (cN 1));
  (54, 54, [ShLin 0%nat 1 (-1); ShLin 1%nat 1 0; ShLin 2%nat 1 (-2)], [ShLin 0%nat 1 (-2); ShLin 1%nat 1 (-1); ShLin 2%nat 1 (-2)], Some (cN 1));
  (55, 55, [ShLin 0%nat 1 (-1); ShLin 1%nat 1 (-2); ShLin 2%nat 1 1], [ShLin 0%nat 1 (-2); ShLin 1%nat 1 (-3); ShLin 2%nat 1 1], Some (cN 1));
  (56, 56, [ShLin 0%nat 1 (-1); ShLin 1%nat 1 (-2); ShLin 2%nat 1 0], [ShLin 0%nat 1 (-2); ShLin 1%nat 1 (-3); ShLin 2%nat 1 0], Some (cN 1));
  (57, 57, [ShLin 0%nat 1 (-1); ShLin 1%nat 1 (-2); ShLin 2%nat 1 (-1)], [ShLin 0%nat 1 (-2); ShLin 1%nat 1 (-3); ShLin 2%nat 1 (-1)], Some (cN 1));
  (58, 58, [ShLin 0%nat 1 (-2); ShLin 1%nat 1 1; ShLin 2%nat 1 1], [ShLin 0%nat 1 (-3); ShLin 1%nat 1 0; ShLin 2%nat 1 1], Some (cN (-1)));
  (59, 59, [ShLin 0%nat 1 (-2); ShLin 1%nat 1 1; ShLin 2%nat 1 0], [ShLin 0%nat 1 (-3); ShLin 1%nat 1 0; ShLin 2%nat 1 0], Some (cN (-1)));
  (60, 60, [ShLin 0%nat 1 (-2); ShLin 1%nat 1 1; ShLin 2%nat 1 (-1)], [ShLin 0%nat 1 (-3); ShLin 1%nat 1 0; ShLin 2%nat 1 (-1)], Some (cN (-1)));
  (61, 61, [ShLin 0%nat 1 (-2); ShLin 1%nat 1 (-1); ShLin 2%nat 1 1], [ShLin 0%nat 1 (-3); ShLin 1%nat 1 (-2); ShLin 2%nat 1 1], Some (cN (-1)));
  (62, 62, [ShLin 0%nat 1 (-2); ShLin 1%nat 1 (-1); ShLin 2%nat 1 0], [ShLin 0%nat 1 (-3); ShLin 1%nat 1 (-2); ShLin 2%nat 1 0], Some (cN (-1)));
  (63, 63, [ShLin 0%nat 1 (-2); ShLin 1%nat 1 (-1); ShLin 2%nat 1 (-1)], [ShLin 0%nat 1 (-3); ShLin 1%nat 1 (-2); ShLin 2%nat 1 (-1)], Some (cN (-1)));
  (64, 64, [ShLin 0%nat 1 (-3); ShLin 1%nat 1 0; ShLin 2%nat 1 0], [ShLin 0%nat 1 (-4); ShLin 1%nat 1 (-1); ShLin 2%nat 1 0], Some (cN 1))].
(** /repo/c++/symmetry/nrg-recalc-QSZTZ.hpp recalc_doublet, qsztz/qsztz-doubletp+1.dat *)
Definition qsztz_t4 : ten_table := mk_ten "doublet" [ShLin 0%nat 1 (-1); ShLin 1%nat 1 1; ShLin 2%nat 1 1] [1; (-1); (-1)] [
  (1, 1, [ShLin 0%nat 1 3; ShLin 1%nat 1 0; ShLin 2%nat 1 0], [ShLin 0%nat 1 2; ShLin 1%nat 1 1; ShLin 2%nat 1 1], Some (cN 1));
  (2, 2, [ShLin 0%nat 1 2; ShLin 1%nat 1 1; ShLin 2%nat 1 1], [ShLin 0%nat 1 1; ShLin 1%nat 1 2; ShLin 2%nat 1 2], Some (cN (-1)));
  (3, 3, [ShLin 0%nat 1 2; ShLin 1%nat 1 1; ShLin 2%nat 1 0], [ShLin 0%nat 1 1; ShLin 1%nat 1 2; ShLin 2%nat 1 1], Some (cN (-1)));
  (4, 4, [ShLin 0%nat 1 2; ShLin 1%nat 1 1; ShLin 2%nat 1 (-1)], [ShLin 0%nat 1 1; ShLin 1%nat 1 2; ShLin 2%nat 1 0], Some (cN (-1)));
  (5, 5, [ShLin 0%nat 1 2; ShLin 1%nat 1 (-1); ShLin 2%nat 1 1], [ShLin 0%nat 1 1; ShLin 1%nat 1 0; ShLin 2%nat 1 2], Some (cN (-1)));
  (6, 6, [ShLin 0%nat 1 2; ShLin 1%nat 1 (-1); ShLin 2%nat 1 0], [ShLin 0%nat 1 1; ShLin 1%nat 1 0; ShLin 2%nat 1 1], Some (cN (-1)));
  (7, 7, [ShLin 0%nat 1 2; ShLin 1%nat 1 (-1); ShLin 2%nat 1 (-1)], [ShLin 0%nat 1 1; ShLin 1%nat 1 0; ShLin 2%nat 1 0], Some (cN (-1)));
  (8, 8, [ShLin 0%nat 1 1; ShLin 1%nat 1 2; ShLin 2%nat 1 1], [ShLin 0%nat 1 0; ShLin 1%nat 1 3; ShLin 2%nat 1 2], Some (cN 1));
  (9, 9, [ShLin 0%nat 1 1; ShLin 1%nat 1 2; ShLin 2%nat 1 0], [ShLin 0%nat 1 0; ShLin 1%nat 1 3; ShLin 2%nat 1 1], Some (cN 1));
  (10, 10, [ShLin 0%nat 1 1; ShLin 1%nat 1 2; ShLin 2%nat 1 (-1)], [ShLin 0%nat 1 0; ShLin 1%nat 1 3; ShLin 2%nat 1 0], Some (cN 1));
  (11, 11, [ShLin 0%nat 1 1; ShLin 1%nat 1 0; ShLin 2%nat 1 2], [ShLin 0%nat 1 0; ShLin 1%nat 1 1; ShLin 2%nat 1 3], Some (cN 1));
  (12, 12, [ShLin 0%nat 1 1; ShLin 1%nat 1 0; ShLin 2%nat 1 1], [ShLin 0%nat 1 0; ShLin 1%nat 1 1; ShLin 2%nat 1 2], Some (cN 1));
  (13, 13, [ShLin 0%nat 1 1; ShLin 1%nat 1 0; ShLin 2%nat 1 1], [ShLin 0%nat 1 0; ShLin 1%nat 1 1; ShLin 2%nat 1 2], Some (cN 1));
  (14, 14, [ShLin 0%nat 1 1; ShLin 1%nat 1 0; ShLin 2%nat 1 0], [ShLin 0%nat 1 0; ShLin 1%nat 1 1; ShLin 2%nat 1 1], Some (cN 1));
  (15, 15, [ShLin 0%nat 1 1; ShLin 1%nat 1 0; ShLin 2%nat 1 0], [ShLin 0%nat 1 0; ShLin 1%nat 1 1; ShLin 2%nat 1 1], Some (cN 1));
  (16, 16, [ShLin 0%nat 1 1; ShLin 1%nat 1 0; ShLin 2%nat 1 0], [ShLin 0%nat 1 0; ShLin 1%nat 1 1; ShLin 2%nat 1 1], Some (cN 1));
  (17, 17, [ShLin 0%nat 1 1; ShLin 1%nat 1 0; ShLin 2%nat 1 (-1)], [ShLin 0%nat 1 0; ShLin 1%nat 1 1; ShLin 2%nat 1 0], Some (cN 1));
  (18, 18, [ShLin 0%nat 1 1; ShLin 1%nat 1 0; ShLin 2%nat 1 (-1)], [ShLin 0%nat 1 0; ShLin 1%nat 1 1; ShLin 2%nat 1 0], Some (cN 1));
  (19, 19, [ShLin 0%nat 1 1; ShLin 1%nat 1 0; ShLin 2%nat 1 (-2)], [ShLin 0%nat 1 0; ShLin 1%nat 1 1; ShLin 2%nat 1 (-1)], Some (cN 1));
  (20, 20, [ShLin 0%nat 1 1; ShLin 1%nat 1 (-2); ShLin 2%nat 1 1], [ShLin 0%nat 1 0; ShLin 1%nat 1 (-1); ShLin 2%nat 1 2], Some (cN 1));
  (21, 21, [ShLin 0%nat 1 1; ShLin 1%nat 1 (-2); ShLin 2%nat 1 0], [ShLin 0%nat 1 0; ShLin 1%nat 1 (-1); ShLin 2%nat 1 1], Some (cN 1));
  (22, 22, [ShLin 0%nat 1 1; ShLin 1%nat 1 (-2); ShLin 2%nat 1 (-1)], [ShLin 0%nat 1 0; ShLin 1%nat 1 (-1); ShLin 2%nat 1 0], Some (cN 1));
  (23, 23, [ShLin 0%nat 1 0; ShLin 1%nat 1 3; ShLin 2%nat 1 0], [ShLin 0%nat 1 (-1); ShLin 1%nat 1 4; ShLin 2%nat 1 1], Some (cN (-1)));
  (24, 24, [ShLin 0%nat 1 0; ShLin 1%nat 1 1; ShLin 2%nat 1 2], [ShLin 0%nat 1 (-1); ShLin 1%nat 1 2; ShLin 2%nat 1 3], Some (cN (-1)));
  (25, 25, [ShLin 0%nat 1 0; ShLin 1%nat 1 1; ShLin 2%nat 1 1], [ShLin 0%nat 1 (-1); ShLin 1%nat 1 2; ShLin 2%nat 1 2], Some (cN (-1)));
  (26, 26, [ShLin 0%nat 1 0; ShLin 1%nat 1 1; ShLin 2%nat 1 1], [ShLin 0%nat 1 (-1); ShLin 1%nat 1 2; ShLin 2%nat 1 2], Some (cN (-1)));
  (27, 27, [ShLin 0%nat 1 0; ShLin 1%nat 1 1; ShLin 2%nat 1 0], [ShLin 0%nat 1 (-1); ShLin 1%nat 1 2; ShLin 2%nat 1 1], Some (cN (-1)));
  (28, 28, [ShLin 0%nat 1 0; ShLin 1%nat 1 1; ShLin 2%nat 1 0], [ShLin 0%nat 1 (-1); ShLin 1%nat 1 2; ShLin 2%nat 1 1], Some (cN (-1)));
  (29, 29, [ShLin 0%nat 1 0; ShLin 1%nat 1 1; ShLin 2%nat 1 0], [ShLin 0%nat 1 (-1); ShLin 1%nat 1 2; ShLin 2%nat 1 1], Some (cN (-1)));
  (30, 30, [ShLin 0%nat 1 0; ShLin 1%nat 1 1; ShLin 2%nat 1 (-1)], [ShLin 0%nat 1 (-1); ShLin 1%nat 1 2; ShLin 2%nat 1 0], Some (cN (-1)));
  (31, 31, [ShLin 0%nat 1 0; ShLin 1%nat 1 1; ShLin 2%nat 1 (-1)], [ShLin 0%nat 1 (-1); ShLin 1%nat 1 2; ShLin 2%nat 1 0], Some (cN (-1)));
  (32, 32, [ShLin 0%nat 1 0; ShLin 1%nat 1 1; ShLin 2%nat 1 (-2)], [ShLin 0%nat 1 (-1); ShLin 1%nat 1 2; ShLin 2%nat 1 (-1)], Some (cN (-1)));
  (33, 33, [ShLin 0%nat 1 0; ShLin 1%nat 1 (-1); ShLin 2%nat 1 2], [ShLin 0%nat 1 (-1); ShLin 1%nat 1 0; ShLin 2%nat 1 3], Some (cN (-1)));
  (34, 34, [ShLin 0%nat 1 0; ShLin 1%nat 1 (-1); ShLin 2%nat 1 1], [ShLin 0%nat 1 (-1); ShLin 1%nat 1 0; ShLin 2%nat 1 2], Some (cN (-1)));
  (35, 35, [ShLin 0%nat 1 0; ShLin 1%nat 1 (-1); ShLin 2%nat 1 1], [ShLin 0%nat 1 (-1); ShLin 1%nat 1 0; ShLin 2%nat 1 2], Some (cN (-1)));
  (36, 36, [ShLin 0%nat 1 0; ShLin 1%nat 1 (-1); ShLin 2%nat 1 0], [ShLin 0%nat 1 (-1); ShLin 1%nat 1 0; ShLin 2%nat 1 1], Some (cN (-1)));
  (37, 37, [ShLin 0%nat 1 0; ShLin 1%nat 1 (-1); ShLin 2%nat 1 0], [ShLin 0%nat 1 (-1); ShLin 1%nat 1 0; ShLin 2%nat 1 1], Some (cN (-1)));
  (38, 38, [ShLin 0%nat 1 0; ShLin 1%nat 1 (-1); ShLin 2%nat 1 0], [ShLin 0%nat 1 (-1); ShLin 1%nat 1 0; ShLin 2%nat 1 1], Some (cN (-1)));
  (39, 39, [ShLin 0%nat 1 0; ShLin 1%nat 1 (-1); ShLin 2%nat 1 (-1)], [ShLin 0%nat 1 (-1); ShLin 1%nat 1 0; ShLin 2%nat 1 0], Some (cN (-1)));
  (40, 40, [ShLin 0%nat 1 0; ShLin 1%nat 1 (-1); ShLin 2%nat 1 (-1)], [ShLin 0%nat 1 (-1); ShLin 1%nat 1 0; ShLin 2%nat 1 0], Some (cN (-1)));
  (41, 41, [ShLin 0%nat 1 0; ShLin 1%nat 1 (-1); ShLin 2%nat 1 (-2)], [ShLin 0%nat 1 (-1); ShLin 1%nat 1 0; ShLin 2%nat 1 (-1)], Some (cN (-1)));
  (42, 42, [ShLin 0%nat 1 0; ShLin 1%nat 1 (-3); ShLin 2%nat 1 0], [ShLin 0%nat 1 (-1); ShLin 1%nat 1 (-2); ShLin 2%nat 1 1], Some (cN (-1)));
  (43, 43, [ShLin 0%nat 1 (-1); ShLin 1%nat 1 2; ShLin 2%nat 1 1], [ShLin 0%nat 1 (-2); ShLin 1%nat 1 3; ShLin 2%nat 1 2], Some (cN 1));
  (44, 44, [ShLin 0%nat 1 (-1); ShLin 1%nat 1 2; ShLin 2%nat 1 0], [ShLin 0%nat 1 (-2); ShLin 1%nat 1 3; ShLin 2%nat 1 1], Some (cN 1));
  (45, 45, [ShLin 0%nat 1 (-1); ShLin 1%nat 1 2; ShLin 2%nat 1 (-1)], [ShLin 0%nat 1 (-2); ShLin 1%nat 1 3; ShLin 2%nat 1 0], Some (cN 1));
  (46, 46, [ShLin 0%nat 1 (-1); ShLin 1%nat 1 0; ShLin 2%nat 1 2], [ShLin 0%nat 1 (-2); ShLin 1%nat 1 1; ShLin 2%nat 1 3], Some (cN 1));
  (47, 47, [ShLin 0%nat 1 (-1); ShLin 1%nat 1 0; ShLin 2%nat 1 1], [ShLin 0%nat 1 (-2); ShLin 1%nat 1 1; ShLin 2%nat 1 2], Some (cN 1));
  (48, 48, [ShLin 0%nat 1 (-1); ShLin 1%nat 1 0; ShLin 2%nat 1 1], [ShLin 0%nat 1 (-2); ShLin 1%nat 1 1; ShLin 2%nat 1 2], Some (cN 1));
  (49, 49, [ShLin 0%nat 1 (-1); ShLin 1%nat 1 0; ShLin 2%nat 1 0], [ShLin 0%nat 1 (-2); ShLin 1%nat 1 1; ShLin 2%nat 1 1], Some (cN 1));
  (50, 50, [ShLin 0%nat 1 (-1); ShLin 1%nat 1 0; ShLin 2%nat 1 0], [ShLin 0%nat 1 (-2); ShLin 1%nat 1 1; ShLin 2%nat 1 1], Some (cN 1));
  (51, 51, [ShLin 0%nat 1 (-1); ShLin 1%nat 1 0; ShLin 2%nat 1 0], [ShLin 0%nat 1 (-2); ShLin 1%nat 1 1; ShLin 2%nat 1 1], Some (cN 1));
  (52, 52, [ShLin 0%nat 1 (-1); ShLin 1%nat 1 0; ShLin 2%nat 1 (-1)], [ShLin 0%nat 1 (-2); ShLin 1%nat 1 1; ShLin 2%nat 1 0], Some (cN 1));
  (53, 53, [ShLin 0%nat 1 (-1); ShLin 1%nat 1 0; ShLin 2%nat 1 (-1)], [ShLin 0%nat 1 (-2); ShLin 1%nat 1 1; ShLin 2%nat 1 0], Some (cN 1));
  (54, 54, [ShLin 0%nat 1 (-1); ShLin 1%nat 1 0; ShLin 2%nat 1 (-2)], [ShLin 0%nat 1 (-2); ShLin 1%nat 1 1; ShLin 2%nat 1 (-1)], Some (cN 1));
  (55, 55, [ShLin 0%nat 1 (-1); ShLin 1%nat 1 (-2); ShLin 2%nat 1 1], [ShLin 0%nat 1 (-2); ShLin 1%nat 1 (-1); ShLin 2%nat 1 2], Some (cN 1));
  (56, 56, [ShLin 0%nat 1 (-1); ShLin 1%nat 1 (-2); ShLin 2%nat 1 0], [ShLin 0%nat 1 (-2); ShLin 1%nat 1 (-1); ShLin 2%nat 1 1], Some (cN 1));
  (57, 57, [ShLin 0%nat 1 (-1); ShLin 1%nat 1 (-2); ShLin 2%nat 1 (-1)], [ShLin 0%nat 1 (-2); ShLin 1%nat 1 (-1); ShLin 2%nat 1 0], Some (cN 1));
  (58, 58, [ShLin 0%nat 1 (-2); ShLin 1%nat 1 1; ShLin 2%nat 1 1], [ShLin 0%nat 1 (-3); ShLin 1%nat 1 2; ShLin 2%nat 1 2], Some (cN (-1)));
  (59, 59, [ShLin 0%nat 1 (-2); ShLin 1%nat 1 1; ShLin 2%nat 1 0], [ShLin 0%nat 1 (-3); ShLin 1%nat 1 2; ShLin 2%nat 1 1], Some (cN (-1)));
  (60, 60, [ShLin 0%nat 1 (-2); ShLin 1%nat 1 1; ShLin 2%nat 1 (-1)], [ShLin 0%nat 1 (-3); ShLin 1%nat 1 2; ShLin 2%nat 1 0], Some (cN (-1)));
  (61, 61, [ShLin 0%nat 1 (-2); ShLin 1%nat 1 (-1); ShLin 2%nat 1 1], [ShLin 0%nat 1 (-3); ShLin 1%nat 1 0; ShLin 2%nat 1 2], Some (cN (-1)));
  (62, 62, [ShLin 0%nat 1 (-2); ShLin 1%nat 1 (-1); ShLin 2%nat 1 0], [ShLin 0%nat 1 (-3); ShLin 1%nat 1 0; ShLin 2%nat 1 1], Some (cN (-1)));
  (63, 63, [ShLin 0%nat 1 (-2); ShLin 1%nat 1 (-1); ShLin 2%nat 1 (-1)], [ShLin 0%nat 1 (-3); ShLin 1%nat 1 0; ShLin 2%nat 1 0], Some (cN (-1)));
  (64, 64, [ShLin 0%nat 1 (-3); ShLin 1%nat 1 0; ShLin 2%nat 1 0], [ShLin 0%nat 1 (-4); ShLin 1%nat 1 1; ShLin 2%nat 1 1], Some (cN 1))].
(** /repo/c++/symmetry/nrg-recalc-QSZTZ.hpp recalc_doublet, qsztz/qsztz-doubletm+1.dat *)
Definition qsztz_t5 : ten_table := mk_ten "doublet" [ShLin 0%nat 1 (-1); ShLin 1%nat 1 (-1); ShLin 2%nat 1 1] [1; 1; (-1)] [
  (1, 1, [ShLin 0%nat 1 3; ShLin 1%nat 1 0; ShLin 2%nat 1 0], [ShLin 0%nat 1 2; ShLin 1%nat 1 (-1); ShLin 2%nat 1 1], Some (cN 1));
  (2, 2, [ShLin 0%nat 1 2; ShLin 1%nat 1 1; ShLin 2%nat 1 1], [ShLin 0%nat 1 1; ShLin 1%nat 1 0; ShLin 2%nat 1 2], Some (cN (-1)));
  (3, 3, [ShLin 0%nat 1 2; ShLin 1%nat 1 1; ShLin 2%nat 1 0], [ShLin 0%nat 1 1; ShLin 1%nat 1 0; ShLin 2%nat 1 1], Some (cN (-1)));
  (4, 4, [ShLin 0%nat 1 2; ShLin 1%nat 1 1; ShLin 2%nat 1 (-1)], [ShLin 0%nat 1 1; ShLin 1%nat 1 0; ShLin 2%nat 1 0], Some (cN (-1)));
  (5, 5, [ShLin 0%nat 1 2; ShLin 1%nat 1 (-1); ShLin 2%nat 1 1], [ShLin 0%nat 1 1; ShLin 1%nat 1 (-2); ShLin 2%nat 1 2], Some (cN (-1)));
  (6, 6, [ShLin 0%nat 1 2; ShLin 1%nat 1 (-1); ShLin 2%nat 1 0], [ShLin 0%nat 1 1; ShLin 1%nat 1 (-2); ShLin 2%nat 1 1], Some (cN (-1)));
  (7, 7, [ShLin 0%nat 1 2; ShLin 1%nat 1 (-1); ShLin 2%nat 1 (-1)], [ShLin 0%nat 1 1; ShLin 1%nat 1 (-2); ShLin 2%nat 1 0], Some (cN (-1)));
  (8, 8, [ShLin 0%nat 1 1; ShLin 1%nat 1 2; ShLin 2%nat 1 1], [ShLin 0%nat 1 0; ShLin 1%nat 1 1; ShLin 2%nat 1 2], Some (cN 1));
  (9, 9, [ShLin 0%nat 1 1; ShLin 1%nat 1 2; ShLin 2%nat 1 0], [ShLin 0%nat 1 0; ShLin 1%nat 1 1; ShLin 2%nat 1 1], Some (cN 1));
  (10, 10, [ShLin 0%nat 1 1; ShLin 1%nat 1 2; ShLin 2%nat 1 (-1)], [ShLin 0%nat 1 0; ShLin 1%nat 1 1; ShLin 2%nat 1 0], Some (cN 1));
  (11, 11, [ShLin 0%nat 1 1; ShLin 1%nat 1 0; ShLin 2%nat 1 2], [ShLin 0%nat 1 0; ShLin 1%nat 1 (-1); ShLin 2%nat 1 3], Some (cN 1));
  (12, 12, [ShLin 0%nat 1 1; ShLin 1%nat 1 0; ShLin 2%nat 1 1], [ShLin 0%nat 1 0; ShLin 1%nat 1 (-1); ShLin 2%nat 1 2], Some (cN 1));
  (13, 13, [ShLin 0%nat 1 1; ShLin 1%nat 1 0; ShLin 2%nat 1 1], [ShLin 0%nat 1 0; ShLin 1%nat 1 (-1); ShLin 2%nat 1 2], Some (cN 1));
  (14, 14, [ShLin 0%nat 1 1; ShLin 1%nat 1 0; ShLin 2%nat 1 0], [ShLin 0%nat 1 0; ShLin 1%nat 1 (-1); ShLin 2%nat 1 1], Some (cN 1));
  (15, 15, [ShLin 0%nat 1 1; ShLin 1%nat 1 0; ShLin 2%nat 1 0], [ShLin 0%nat 1 0; ShLin 1%nat 1 (-1); ShLin 2%nat 1 1], Some (cN 1));
  (16, 16, [ShLin 0%nat 1 1; ShLin 1%nat 1 0; ShLin 2%nat 1 0], [ShLin 0%nat 1 0; ShLin 1%nat 1 (-1); ShLin 2%nat 1 1], Some (cN 1));
  (17, 17, [ShLin 0%nat 1 1; ShLin 1%nat 1 0; ShLin 2%nat 1 (-1)], [ShLin 0%nat 1 0; ShLin 1%nat 1 (-1); ShLin 2%nat 1 0], Some (cN 1));
  (18, 18, [ShLin 0%nat 1 1; ShLin 1%nat 1 0; ShLin 2%nat 1 (-1)], [ShLin 0%nat 1 0; ShLin 1%nat 1 (-1); ShLin 2%nat 1 0], Some (cN 1));
  (19, 19, [ShLin 0%nat 1 1; ShLin 1%nat 1 0; ShLin 2%nat 1 (-2)], [ShLin 0%nat 1 0; ShLin 1%nat 1 (-1); ShLin 2%nat 1 (-1)], Some (cN 1));
  (20, 20, [ShLin 0%nat 1 1; ShLin 1%nat 1 (-2); ShLin 2%nat 1 1], [ShLin 0%nat 1 0; ShLin 1%nat 1 (-3); ShLin 2%nat 1 2], Some (cN 1));
  (21, 21, [ShLin 0%nat 1 1; ShLin 1%nat 1 (-2); ShLin 2%nat 1 0], [ShLin 0%nat 1 0; ShLin 1%nat 1 (-3); ShLin 2%nat 1 1], Some (cN 1));
  (22, 22, [ShLin 0%nat 1 1; ShLin 1%nat 1 (-2); ShLin 2%nat 1 (-1)], [ShLin 0%nat 1 0; ShLin 1%nat 1 (-3); ShLin 2%nat 1 0], Some (cN 1));
  (23, 23, [ShLin 0%nat 1 0; ShLin 1%nat 1 3; ShLin 2%nat 1 0], [ShLin 0%nat 1 (-1); ShLin 1%nat 1 2; ShLin 2%nat 1 1], Some (cN (-1)));
  (24, 24, [ShLin 0%nat 1 0; ShLin 1%nat 1 1; ShLin 2%nat 1 2], [ShLin 0%nat 1 (-1); ShLin 1%nat 1 0; ShLin 2%nat 1 3], Some (cN (-1)));
  (25, 25, [ShLin 0%nat 1 0; ShLin 1%nat 1 1; ShLin 2%nat 1 1], [ShLin 0%nat 1 (-1); ShLin 1%nat 1 0; ShLin 2%nat 1 2], Some (cN (-1)));
  (26, 26, [ShLin 0%nat 1 0; ShLin 1%nat 1 1; ShLin 2%nat 1 1], [ShLin 0%nat 1 (-1); ShLin 1%nat 1 0; ShLin 2%nat 1 2], Some (cN (-1)));
  (27, 27, [ShLin 0%nat 1 0; ShLin 1%nat 1 1; ShLin 2%nat 1 0], [ShLin 0%nat 1 (-1); ShLin 1%nat 1 0; ShLin 2%nat 1 1], Some (cN (-1)));
  (28, 28, [ShLin 0%nat 1 0; ShLin 1%nat 1 1; ShLin 2%nat 1 0], [ShLin 0%nat 1 (-1); ShLin 1%nat 1 0; ShLin 2%nat 1 1], Some (cN (-1)));
  (29, 29, [ShLin 0%nat 1 0; ShLin 1%nat 1 1; ShLin 2%nat 1 0], [ShLin 0%nat 1 (-1); ShLin 1%nat 1 0; ShLin 2%nat 1 1], Some (cN (-1)));
  (30, 30, [ShLin 0%nat 1 0; ShLin 1%nat 1 1; ShLin 2%nat 1 (-1)], [ShLin 0%nat 1 (-1); ShLin 1%nat 1 0; ShLin 2%nat 1 0], Some (cN (-1)));
  (31, 31, [ShLin 0%nat 1 0; ShLin 1%nat 1 1; ShLin 2%nat 1 (-1)], [ShLin 0%nat 1 (-1); ShLin 1%nat 1 0; ShLin 2%nat 1 0], Some (cN (-1)));
  (32, 32, [ShLin 0%nat 1 0; ShLin 1%nat 1 1; ShLin 2%nat 1 (-2)], [ShLin 0%nat 1 (-1); ShLin 1%nat 1 0; ShLin 2%nat 1 (-1)], Some (cN (-1)));
  (33, 33, [ShLin 0%nat 1 0; ShLin 1%nat 1 (-1); ShLin 2%nat 1 2], [ShLin 0%nat 1 (-1); ShLin 1%nat 1 (-2); ShLin 2%nat 1 3], Some (cN (-1)));
  (34, 34, [ShLin 0%nat 1 0; ShLin 1%nat 1 (-1); ShLin 2%nat 1 1], [ShLin 0%nat 1 (-1); ShLin 1%nat 1 (-2); ShLin 2%nat 1 2], Some (cN (-1)));
  (35, 35, [ShLin 0%nat 1 0; ShLin 1%nat 1 (-1); ShLin 2%nat 1 1], [ShLin 0%nat 1 (-1); ShLin 1%nat 1 (-2); ShLin 2%nat 1 2], Some (cN (-1)));
  (36, 36, [ShLin 0%nat 1 0; ShLin 1%nat 1 (-1); ShLin 2%nat 1 0], [ShLin 0%nat 1 (-1); ShLin 1%nat 1 (-2); ShLin 2%nat 1 1], Some (cN (-1)));
  (37, 37, [ShLin 0%nat 1 0; ShLin 1%nat 1 (-1); ShLin 2%nat 1 0], [ShLin 0%nat 1 (-1); ShLin 1%nat 1 (-2); ShLin 2%nat 1 1], Some (cN (-1)));
  (38, 38, [ShLin 0%nat 1 0; ShLin 1%nat 1 (-1); ShLin 2%nat 1 0], [ShLin 0%nat 1 (-1); ShLin 1%nat 1 (-2); ShLin 2%nat 1 1], Some (cN (-1)));
  (39, 39, [ShLin 0%nat 1 0; ShLin 1%nat 1 (-1); ShLin 2%nat 1 (-1)], [ShLin 0%nat 1 (-1); ShLin 1%nat 1 (-2); ShLin 2%nat 1 0], Some (cN (-1)));
  (40, 40, [ShLin 0%nat 1 0; ShLin 1%nat 1 (-1); ShLin 2%nat 1 (-1)], [ShLin 0%nat 1 (-1); ShLin 1%nat 1 (-2); ShLin 2%nat 1 0], Some (cN (-1)));
  (41, 41, [ShLin 0%nat 1 0; ShLin 1%nat 1 (-1); ShLin 2%nat 1 (-2)], [ShLin 0%nat 1 (-1); ShLin 1%nat 1 (-2); ShLin 2%nat 1 (-1)], Some (cN (-1)));
  (42, 42, [ShLin 0%nat 1 0; ShLin 1%nat 1 (-3); ShLin 2%nat 1 0], [ShLin 0%nat 1 (-1); ShLin 1%nat 1 (-4); ShLin 2%nat 1 1], Some (cN (-1)));
  (43, 43, [ShLin 0%nat 1 (-1); ShLin 1%nat 1 2; ShLin 2%nat 1 1], [ShLin 0%nat 1 (-2); ShLin 1%nat 1 1; ShLin 2%nat 1 2], Some (cN 1));
  (44, 44, [ShLin 0%nat 1 (-1); ShLin 1%nat 1 2; ShLin 2%nat 1 0], [ShLin 0%nat 1 (-2); ShLin 1%nat 1 1; ShLin 2%nat 1 1], Some (cN 1));
  (45, 45, [ShLin 0%nat 1 (-1); ShLin 1%nat 1 2; ShLin 2%nat 1 (-1)], [ShLin 0%nat 1 (-2); ShLin 1%nat 1 1; ShLin 2%nat 1 0], Some (cN 1));
  (46, 46, [ShLin 0%nat 1 (-1); ShLin 1%nat 1 0; ShLin 2%nat 1 2], [ShLin 0%nat 1 (-2); ShLin 1%nat 1 (-1); ShLin 2%nat 1 3], Some (cN 1));
  (47, 47, [ShLin 0%nat 1 (-1); ShLin 1%nat 1 0; ShLin 2%nat 1 1], [ShLin 0%nat 1 (-2); ShLin 1%nat 1 (-1); ShLin 2%nat 1 2], Some (cN 1));
  (48, 48, [ShLin 0%nat 1 (-1); ShLin 1%nat 1 0; ShLin 2%nat 1 1], [ShLin 0%nat 1 (-2); ShLin 1%nat 1 (-1); ShLin 2%nat 1 2], Some (cN 1));
  (49, 49, [ShLin 0%nat 1 (-1); ShLin 1%nat 1 0; ShLin 2%nat 1 0], [ShLin 0%nat 1 (-2); ShLin 1%nat 1 (-1); ShLin 2%nat 1 1], Some (cN 1));
  (50, 50, [ShLin 0%nat 1 (-1); ShLin 1%nat 1 0; ShLin 2%nat 1 0], [ShLin 0%nat 1 (-2); ShLin 1%nat 1 (-1); ShLin 2%nat 1 1], Some (cN 1));
  (51, 51, [ShLin 0%nat 1 (-1); ShLin 1%nat 1 0; ShLin 2%nat 1 0], [ShLin 0%nat 1 (-2); ShLin 1%nat 1 (-1); ShLin 2%nat 1 1], Some (cN 1));
  (52, 52, [ShLin 0%nat 1 (-1); ShLin 1%nat 1 0; ShLin 2%nat 1 (-1)], [ShLin 0%nat 1 (-2); ShLin 1%nat 1 (-1); ShLin 2%nat 1 0], Some (cN 1));
  (53, 53, [ShLin 0%nat 1 (-1); ShLin 1%nat 1 0; ShLin 2%nat 1 (-1)], [ShLin 0%nat 1 (-2); ShLin 1%nat 1 (-1); ShLin 2%nat 1 0], Some (cN 1));
  (54, 54, [ShLin 0%nat 1 (-1); ShLin 1%nat 1 0; ShLin 2%nat 1 (-2)], [ShLin 0%nat 1 (-2); ShLin 1%nat 1 (-1); ShLin 2%nat 1 (-1)], Some (cN 1));
  (55, 55, [ShLin 0%nat 1 (-1); ShLin 1%nat 1 (-2); ShLin 2%nat 1 1], [ShLin 0%nat 1 (-2); ShLin 1%nat 1 (-3); ShLin 2%nat 1 2], Some (cN 1));
  (56, 56, [ShLin 0%nat 1 (-1); ShLin 1%nat 1 (-2); ShLin 2%nat 1 0], [ShLin 0%nat 1 (-2); ShLin 1%nat 1 (-3); ShLin 2%nat 1 1], Some (cN 1));
  (57, 57, [ShLin 0%nat 1 (-1); ShLin 1%nat 1 (-2); ShLin 2%nat 1 (-1)], [ShLin 0%nat 1 (-2); ShLin 1%nat 1 (-3); ShLin 2%nat 1 0], Some (cN 1));
  (58, 58, [ShLin 0%nat 1 (-2); ShLin 1%nat 1 1; ShLin 2%nat 1 1], [ShLin 0%nat 1 (-3); ShLin 1%nat 1 0; ShLin 2%nat 1 2], Some (cN (-1)));
  (59, 59, [ShLin 0%nat 1 (-2); ShLin 1%nat 1 1; ShLin 2%nat 1 0], [ShLin 0%nat 1 (-3); ShLin 1%nat 1 0; ShLin 2%nat 1 1], Some (cN (-1)));
  (60, 60, [ShLin 0%nat 1 (-2); ShLin 1%nat 1 1; ShLin 2%nat 1 (-1)], [ShLin 0%nat 1 (-3); ShLin 1%nat 1 0; ShLin 2%nat 1 0], Some (cN (-1)));
  (61, 61, [ShLin 0%nat 1 (-2); ShLin 1%nat 1 (-1); ShLin 2%nat 1 1], [ShLin 0%nat 1 (-3); ShLin 1%nat 1 (-2); ShLin 2%nat 1 2], Some (cN (-1)));
  (62, 62, [ShLin 0%nat 1 (-2); ShLin 1%nat 1 (-1); ShLin 2%nat 1 0], [ShLin 0%nat 1 (-3); ShLin 1%nat 1 (-2); ShLin 2%nat 1 1], Some (cN (-1)));
  (63, 63, [ShLin 0%nat 1 (-2); ShLin 1%nat 1 (-1); ShLin 2%nat 1 (-1)], [ShLin 0%nat 1 (-3); ShLin 1%nat 1 (-2); ShLin 2%nat 1 0], Some (cN (-1)));
  (64, 64, [ShLin 0%nat 1 (-3); ShLin 1%nat 1 0; ShLin 2%nat 1 0], [ShLin 0%nat 1 (-4); ShLin 1%nat 1 (-1); ShLin 2%nat 1 1], Some (cN 1))].
(** /repo/c++/symmetry/nrg-recalc-QSZTZ.hpp recalc_irreduc, qsztz/qsztz-spinup+1.dat *)
Definition qsztz_t6 : irr_table := mk_irr 0 0 [ShLin 0%nat 1 1; ShLin 1%nat 1 1; ShLin 2%nat 1 1]  [
  (7, 1, Some (cN 1));
  (14, 2, Some (cD (cN 1) (cR (cN 3))));
  (15, 2, Some (cD (cN 1) (cR (cN 6))));
  (16, 2, Some (cD (cN 1) (cR (cN 2))));
  (17, 3, Some (cD (cN 1) (cR (cN 2))));
  (18, 3, Some (cD (cN 1) (cR (cN 2))));
  (19, 4, Some (cN 1));
  (21, 5, Some (cN 1));
  (22, 6, Some (cN 1));
  (27, 8, Some (cD (cN 1) (cR (cN 2))));
  (28, 8, Some QSZTZ_e0);
  (29, 8, Some (cD (cN 1) (cR (cN 3))));
  (30, 9, Some (cD (cN 1) (cR (cN 2))));
  (31, 9, Some QSZTZ_e1);
  (32, 10, Some (cN (-1)));
  (34, 11, Some (cD (cN 1) (cR (cN 2))));
  (35, 11, Some (cD (cN 1) (cR (cN 2))));
  (36, 12, Some (cQ 1 2));
  (36, 13, Some (cQ 1 2));
  (37, 12, Some (cD (cR (cN 3)) (cN 2)));
  (37, 13, Some QSZTZ_e2);
  (38, 13, Some (cR (cQ 2 3)));
  (39, 14, Some (cO (cR (cQ 2 3))));
  (39, 15, Some QSZTZ_e3);
  (39, 16, Some (cQ 1 2));
  (40, 15, Some (cD (cR (cN 3)) (cN 2)));
  (40, 16, Some (cQ (-1) 2));
  (41, 17, Some (cD (cN 1) (cR (cN 2))));
  (41, 18, Some QSZTZ_e1);
  (42, 20, Some (cN 1));
  (45, 23, Some (cN (-1)));
  (47, 24, Some QSZTZ_e1);
  (48, 24, Some QSZTZ_e1);
  (49, 25, Some (cO (cR (cQ 2 3))));
  (50, 25, Some QSZTZ_e2);
  (50, 26, Some QSZTZ_e4);
  (51, 25, Some (cQ 1 2));
  (51, 26, Some (cQ (-1) 2));
  (52, 27, Some (cQ (-1) 2));
  (52, 28, Some QSZTZ_e4);
  (53, 27, Some (cQ 1 2));
  (53, 28, Some QSZTZ_e2);
  (53, 29, Some (cO (cR (cQ 2 3))));
  (54, 30, Some QSZTZ_e1);
  (54, 31, Some QSZTZ_e1);
  (55, 33, Some (cN (-1)));
  (56, 34, Some (cD (cN 1) (cR (cN 2))));
  (56, 35, Some QSZTZ_e1);
  (57, 36, Some (cD (cN 1) (cR (cN 2))));
  (57, 37, Some QSZTZ_e0);
  (57, 38, Some QSZTZ_e5);
  (59, 43, Some (cN (-1)));
  (60, 44, Some (cN (-1)));
  (61, 46, Some (cN 1));
  (62, 47, Some (cD (cN 1) (cR (cN 2))));
  (62, 48, Some QSZTZ_e1);
  (63, 49, Some QSZTZ_e5);
  (63, 50, Some (cD (cN 1) (cR (cN 6))));
  (63, 51, Some QSZTZ_e1);
  (64, 58, Some (cN (-1)))].
(** /repo/c++/symmetry/nrg-recalc-QSZTZ.hpp recalc_irreduc, qsztz/qsztz-spinup0.dat *)
Definition qsztz_t7 : irr_table := mk_irr 0 0 [ShLin 0%nat 1 1; ShLin 1%nat 1 1; ShLin 2%nat 1 0]  [
  (6, 1, Some (cN 1));
  (12, 2, Some (cD (cN 1) (cR (cN 2))));
  (13, 2, Some (cD (cN 1) (cR (cN 2))));
  (14, 3, Some QSZTZ_e5);
  (15, 3, Some (cR (cQ 2 3)));
  (17, 4, Some (cD (cN 1) (cR (cN 2))));
  (18, 4, Some QSZTZ_e1);
  (20, 5, Some (cN 1));
  (22, 7, Some (cN (-1)));
  (25, 8, Some (cD (cN 1) (cR (cN 2))));
  (26, 8, Some QSZTZ_e1);
  (28, 9, Some (cO (cR (cQ 2 3))));
  (29, 9, Some QSZTZ_e5);
  (30, 10, Some QSZTZ_e1);
  (31, 10, Some QSZTZ_e1);
  (33, 11, Some (cN 1));
  (34, 12, Some (cQ (-1) 2));
  (34, 13, Some (cQ 1 2));
  (35, 12, Some (cQ 1 2));
  (35, 13, Some (cQ (-1) 2));
  (36, 14, Some (cO (cR (cQ 2 3))));
  (36, 15, Some QSZTZ_e5);
  (37, 16, Some QSZTZ_e5);
  (38, 16, Some (cO (cR (cQ 2 3))));
  (39, 17, Some (cQ (-1) 2));
  (39, 18, Some (cQ (-1) 2));
  (40, 17, Some (cQ (-1) 2));
  (40, 18, Some (cQ (-1) 2));
  (41, 19, Some (cN (-1)));
  (42, 21, Some (cN (-1)));
  (44, 23, Some (cN (-1)));
  (46, 24, Some (cN (-1)));
  (47, 25, Some (cQ (-1) 2));
  (47, 26, Some (cQ (-1) 2));
  (48, 25, Some (cQ 1 2));
  (48, 26, Some (cQ 1 2));
  (49, 27, Some (cR (cQ 2 3)));
  (50, 27, Some QSZTZ_e5);
  (51, 28, Some (cD (cN 1) (cR (cN 3))));
  (51, 29, Some (cO (cR (cQ 2 3))));
  (52, 30, Some (cQ (-1) 2));
  (52, 31, Some (cQ 1 2));
  (53, 30, Some (cQ (-1) 2));
  (53, 31, Some (cQ 1 2));
  (54, 32, Some (cN 1));
  (55, 34, Some (cD (cN 1) (cR (cN 2))));
  (55, 35, Some (cD (cN 1) (cR (cN 2))));
  (56, 37, Some (cR (cQ 2 3)));
  (56, 38, Some QSZTZ_e5);
  (57, 39, Some QSZTZ_e1);
  (57, 40, Some (cD (cN 1) (cR (cN 2))));
  (58, 43, Some (cN (-1)));
  (60, 45, Some (cN 1));
  (61, 47, Some QSZTZ_e1);
  (61, 48, Some QSZTZ_e1);
  (62, 49, Some QSZTZ_e5);
  (62, 50, Some (cO (cR (cQ 2 3))));
  (63, 52, Some QSZTZ_e1);
  (63, 53, Some (cD (cN 1) (cR (cN 2))));
  (64, 59, Some (cN 1))].
(** /repo/c++/symmetry/nrg-recalc-QSZTZ.hpp recalc_irreduc, qsztz/qsztz-spinup-1.dat *)
Definition qsztz_t8 : irr_table := mk_irr 0 0 [ShLin 0%nat 1 1; ShLin 1%nat 1 1; ShLin 2%nat 1 (-1)]  [
  (5, 1, Some (cN 1));
  (11, 2, Some (cN 1));
  (12, 3, Some (cD (cN 1) (cR (cN 2))));
  (13, 3, Some QSZTZ_e1);
  (14, 4, Some (cD (cN 1) (cR (cN 3))));
  (15, 4, Some (cD (cN 1) (cR (cN 6))));
  (16, 4, Some QSZTZ_e1);
  (20, 6, Some (cN (-1)));
  (21, 7, Some (cN (-1)));
  (24, 8, Some (cN (-1)));
  (25, 9, Some QSZTZ_e1);
  (26, 9, Some QSZTZ_e1);
  (27, 10, Some QSZTZ_e1);
  (28, 10, Some QSZTZ_e0);
  (29, 10, Some (cD (cN 1) (cR (cN 3))));
  (33, 12, Some QSZTZ_e1);
  (33, 13, Some QSZTZ_e1);
  (34, 14, Some (cO (cR (cQ 2 3))));
  (34, 15, Some QSZTZ_e3);
  (34, 16, Some (cQ (-1) 2));
  (35, 15, Some QSZTZ_e4);
  (35, 16, Some (cQ (-1) 2));
  (36, 17, Some (cQ 1 2));
  (36, 18, Some (cQ (-1) 2));
  (37, 17, Some QSZTZ_e4);
  (37, 18, Some QSZTZ_e2);
  (38, 18, Some (cR (cQ 2 3)));
  (39, 19, Some (cD (cN 1) (cR (cN 2))));
  (40, 19, Some QSZTZ_e1);
  (42, 22, Some (cN 1));
  (43, 23, Some (cN (-1)));
  (46, 25, Some QSZTZ_e1);
  (46, 26, Some (cD (cN 1) (cR (cN 2))));
  (47, 27, Some (cQ (-1) 2));
  (47, 28, Some (cD (cR (cN 3)) (cN 2)));
  (48, 27, Some (cQ (-1) 2));
  (48, 28, Some QSZTZ_e2);
  (48, 29, Some (cO (cR (cQ 2 3))));
  (49, 30, Some (cO (cR (cQ 2 3))));
  (50, 30, Some QSZTZ_e2);
  (50, 31, Some (cD (cR (cN 3)) (cN 2)));
  (51, 30, Some (cQ (-1) 2));
  (51, 31, Some (cQ (-1) 2));
  (52, 32, Some (cD (cN 1) (cR (cN 2))));
  (53, 32, Some QSZTZ_e1);
  (55, 36, Some QSZTZ_e1);
  (55, 37, Some QSZTZ_e0);
  (55, 38, Some QSZTZ_e5);
  (56, 39, Some QSZTZ_e1);
  (56, 40, Some QSZTZ_e1);
  (57, 41, Some (cN (-1)));
  (58, 44, Some (cN 1));
  (59, 45, Some (cN 1));
  (61, 49, Some QSZTZ_e5);
  (61, 50, Some (cD (cN 1) (cR (cN 6))));
  (61, 51, Some (cD (cN 1) (cR (cN 2))));
  (62, 52, Some (cD (cN 1) (cR (cN 2))));
  (62, 53, Some (cD (cN 1) (cR (cN 2))));
  (63, 54, Some (cN 1));
  (64, 60, Some (cN (-1)))].
(** /repo/c++/symmetry/nrg-recalc-QSZTZ.hpp recalc_irreduc, qsztz/qsztz-spindo+1.dat *)
Definition qsztz_t9 : irr_table := mk_irr 0 0 [ShLin 0%nat 1 1; ShLin 1%nat 1 (-1); ShLin 2%nat 1 1]  [
  (4, 1, Some (cN 1));
  (9, 2, Some (cN 1));
  (10, 3, Some (cN 1));
  (14, 5, Some QSZTZ_e5);
  (15, 5, Some QSZTZ_e0);
  (16, 5, Some (cD (cN 1) (cR (cN 2))));
  (17, 6, Some QSZTZ_e1);
  (18, 6, Some (cD (cN 1) (cR (cN 2))));
  (19, 7, Some (cN (-1)));
  (23, 8, Some (cN 1));
  (25, 11, Some (cD (cN 1) (cR (cN 2))));
  (26, 11, Some (cD (cN 1) (cR (cN 2))));
  (27, 12, Some (cQ 1 2));
  (27, 13, Some (cQ (-1) 2));
  (28, 12, Some (cD (cR (cN 3)) (cN 2)));
  (28, 13, Some QSZTZ_e3);
  (29, 13, Some (cR (cQ 2 3)));
  (30, 14, Some (cO (cR (cQ 2 3))));
  (30, 15, Some QSZTZ_e3);
  (30, 16, Some (cQ (-1) 2));
  (31, 15, Some (cD (cR (cN 3)) (cN 2)));
  (31, 16, Some (cQ 1 2));
  (32, 17, Some (cD (cN 1) (cR (cN 2))));
  (32, 18, Some (cD (cN 1) (cR (cN 2))));
  (36, 20, Some QSZTZ_e1);
  (37, 20, Some (cD (cN 1) (cR (cN 6))));
  (38, 20, Some (cD (cN 1) (cR (cN 3))));
  (39, 21, Some QSZTZ_e1);
  (40, 21, Some (cD (cN 1) (cR (cN 2))));
  (41, 22, Some (cN 1));
  (43, 24, Some (cN (-1)));
  (44, 25, Some (cD (cN 1) (cR (cN 2))));
  (44, 26, Some QSZTZ_e1);
  (45, 27, Some (cD (cN 1) (cR (cN 2))));
  (45, 28, Some QSZTZ_e0);
  (45, 29, Some (cD (cN 1) (cR (cN 3))));
  (47, 33, Some (cD (cN 1) (cR (cN 2))));
  (48, 33, Some QSZTZ_e1);
  (49, 34, Some (cR (cQ 2 3)));
  (50, 34, Some QSZTZ_e3);
  (50, 35, Some (cD (cR (cN 3)) (cN 2)));
  (51, 34, Some (cQ 1 2));
  (51, 35, Some (cQ (-1) 2));
  (52, 36, Some (cQ 1 2));
  (52, 37, Some (cD (cR (cN 3)) (cN 2)));
  (53, 36, Some (cQ 1 2));
  (53, 37, Some QSZTZ_e2);
  (53, 38, Some (cR (cQ 2 3)));
  (54, 39, Some (cD (cN 1) (cR (cN 2))));
  (54, 40, Some (cD (cN 1) (cR (cN 2))));
  (57, 42, Some (cN 1));
  (58, 46, Some (cN 1));
  (59, 47, Some (cD (cN 1) (cR (cN 2))));
  (59, 48, Some (cD (cN 1) (cR (cN 2))));
  (60, 49, Some QSZTZ_e5);
  (60, 50, Some (cD (cN 1) (cR (cN 6))));
  (60, 51, Some (cD (cN 1) (cR (cN 2))));
  (62, 55, Some (cN 1));
  (63, 56, Some (cN 1));
  (64, 61, Some (cN 1))].
(** /repo/c++/symmetry/nrg-recalc-QSZTZ.hpp recalc_irreduc, qsztz/qsztz-spindo0.dat *)
Definition qsztz_t10 : irr_table := mk_irr 0 0 [ShLin 0%nat 1 1; ShLin 1%nat 1 (-1); ShLin 2%nat 1 0]  [
  (3, 1, Some (cN 1));
  (8, 2, Some (cN 1));
  (10, 4, Some (cN (-1)));
  (12, 5, Some QSZTZ_e1);
  (13, 5, Some (cD (cN 1) (cR (cN 2))));
  (14, 6, Some (cD (cN 1) (cR (cN 3))));
  (15, 6, Some (cO (cR (cQ 2 3))));
  (17, 7, Some QSZTZ_e1);
  (18, 7, Some QSZTZ_e1);
  (23, 9, Some (cN (-1)));
  (24, 11, Some (cN 1));
  (25, 12, Some (cQ (-1) 2));
  (25, 13, Some (cQ (-1) 2));
  (26, 12, Some (cQ 1 2));
  (26, 13, Some (cQ 1 2));
  (27, 14, Some (cO (cR (cQ 2 3))));
  (27, 15, Some QSZTZ_e5);
  (28, 16, Some (cD (cN 1) (cR (cN 3))));
  (29, 16, Some (cO (cR (cQ 2 3))));
  (30, 17, Some (cQ (-1) 2));
  (30, 18, Some (cQ 1 2));
  (31, 17, Some (cQ (-1) 2));
  (31, 18, Some (cQ 1 2));
  (32, 19, Some (cN (-1)));
  (34, 20, Some QSZTZ_e1);
  (35, 20, Some (cD (cN 1) (cR (cN 2))));
  (37, 21, Some (cR (cQ 2 3)));
  (38, 21, Some QSZTZ_e5);
  (39, 22, Some (cD (cN 1) (cR (cN 2))));
  (40, 22, Some (cD (cN 1) (cR (cN 2))));
  (43, 25, Some (cD (cN 1) (cR (cN 2))));
  (43, 26, Some (cD (cN 1) (cR (cN 2))));
  (44, 28, Some (cR (cQ 2 3)));
  (44, 29, Some (cD (cN 1) (cR (cN 3))));
  (45, 30, Some QSZTZ_e1);
  (45, 31, Some (cD (cN 1) (cR (cN 2))));
  (46, 33, Some (cN 1));
  (47, 34, Some (cQ 1 2));
  (47, 35, Some (cQ 1 2));
  (48, 34, Some (cQ 1 2));
  (48, 35, Some (cQ 1 2));
  (49, 36, Some (cO (cR (cQ 2 3))));
  (50, 36, Some (cD (cN 1) (cR (cN 3))));
  (51, 37, Some (cD (cN 1) (cR (cN 3))));
  (51, 38, Some (cR (cQ 2 3)));
  (52, 39, Some (cQ 1 2));
  (52, 40, Some (cQ (-1) 2));
  (53, 39, Some (cQ (-1) 2));
  (53, 40, Some (cQ 1 2));
  (54, 41, Some (cN (-1)));
  (56, 42, Some (cN 1));
  (58, 47, Some QSZTZ_e1);
  (58, 48, Some (cD (cN 1) (cR (cN 2))));
  (59, 49, Some QSZTZ_e5);
  (59, 50, Some (cO (cR (cQ 2 3))));
  (60, 52, Some QSZTZ_e1);
  (60, 53, Some QSZTZ_e1);
  (61, 55, Some (cN 1));
  (63, 57, Some (cN (-1)));
  (64, 62, Some (cN (-1)))].
(** /repo/c++/symmetry/nrg-recalc-QSZTZ.hpp recalc_irreduc, qsztz/qsztz-spindo-1.dat *)
Definition qsztz_t11 : irr_table := mk_irr 0 0 [ShLin 0%nat 1 1; ShLin 1%nat 1 (-1); ShLin 2%nat 1 (-1)]  [
  (2, 1, Some (cN 1));
  (8, 3, Some (cN (-1)));
  (9, 4, Some (cN (-1)));
  (11, 5, Some (cN (-1)));
  (12, 6, Some QSZTZ_e1);
  (13, 6, Some QSZTZ_e1);
  (14, 7, Some QSZTZ_e5);
  (15, 7, Some QSZTZ_e0);
  (16, 7, Some QSZTZ_e1);
  (23, 10, Some (cN 1));
  (24, 12, Some QSZTZ_e1);
  (24, 13, Some (cD (cN 1) (cR (cN 2))));
  (25, 14, Some (cO (cR (cQ 2 3))));
  (25, 15, Some QSZTZ_e3);
  (25, 16, Some (cQ 1 2));
  (26, 15, Some QSZTZ_e4);
  (26, 16, Some (cQ 1 2));
  (27, 17, Some (cQ 1 2));
  (27, 18, Some (cQ 1 2));
  (28, 17, Some QSZTZ_e4);
  (28, 18, Some QSZTZ_e3);
  (29, 18, Some (cR (cQ 2 3)));
  (30, 19, Some (cD (cN 1) (cR (cN 2))));
  (31, 19, Some QSZTZ_e1);
  (33, 20, Some (cN 1));
  (34, 21, Some (cD (cN 1) (cR (cN 2))));
  (35, 21, Some (cD (cN 1) (cR (cN 2))));
  (36, 22, Some (cD (cN 1) (cR (cN 2))));
  (37, 22, Some (cD (cN 1) (cR (cN 6))));
  (38, 22, Some (cD (cN 1) (cR (cN 3))));
  (43, 27, Some QSZTZ_e1);
  (43, 28, Some QSZTZ_e0);
  (43, 29, Some (cD (cN 1) (cR (cN 3))));
  (44, 30, Some QSZTZ_e1);
  (44, 31, Some QSZTZ_e1);
  (45, 32, Some (cN (-1)));
  (46, 34, Some (cD (cN 1) (cR (cN 2))));
  (46, 35, Some QSZTZ_e1);
  (47, 36, Some (cQ 1 2));
  (47, 37, Some QSZTZ_e4);
  (48, 36, Some (cQ (-1) 2));
  (48, 37, Some QSZTZ_e2);
  (48, 38, Some (cR (cQ 2 3)));
  (49, 39, Some (cR (cQ 2 3)));
  (50, 39, Some QSZTZ_e3);
  (50, 40, Some QSZTZ_e4);
  (51, 39, Some (cQ (-1) 2));
  (51, 40, Some (cQ (-1) 2));
  (52, 41, Some QSZTZ_e1);
  (53, 41, Some QSZTZ_e1);
  (55, 42, Some (cN 1));
  (58, 49, Some QSZTZ_e5);
  (58, 50, Some (cD (cN 1) (cR (cN 6))));
  (58, 51, Some QSZTZ_e1);
  (59, 52, Some (cD (cN 1) (cR (cN 2))));
  (59, 53, Some QSZTZ_e1);
  (60, 54, Some (cN 1));
  (61, 56, Some (cN (-1)));
  (62, 57, Some (cN (-1)));
  (64, 63, Some (cN 1))].
(** /repo/c++/symmetry/nrg-recalc-QSZTZ.hpp recalc_triplet, qsztz/qsztz-triplets.dat *)
Definition qsztz_t12 : ten_table := mk_ten "triplet" [ShLin 0%nat 1 0; ShLin 1%nat 1 0; ShLin 2%nat 1 0] [0; 3; 0] [
  (1, 1, [ShLin 0%nat 1 3; ShLin 1%nat 1 0; ShLin 2%nat 1 0], [ShLin 0%nat 1 3; ShLin 1%nat 1 0; ShLin 2%nat 1 0], Some (cN 1));
  (2, 2, [ShLin 0%nat 1 2; ShLin 1%nat 1 1; ShLin 2%nat 1 1], [ShLin 0%nat 1 2; ShLin 1%nat 1 1; ShLin 2%nat 1 1], Some (cN 1));
  (3, 3, [ShLin 0%nat 1 2; ShLin 1%nat 1 1; ShLin 2%nat 1 0], [ShLin 0%nat 1 2; ShLin 1%nat 1 1; ShLin 2%nat 1 0], Some (cN 1));
  (4, 4, [ShLin 0%nat 1 2; ShLin 1%nat 1 1; ShLin 2%nat 1 (-1)], [ShLin 0%nat 1 2; ShLin 1%nat 1 1; ShLin 2%nat 1 (-1)], Some (cN 1));
  (5, 5, [ShLin 0%nat 1 2; ShLin 1%nat 1 (-1); ShLin 2%nat 1 1], [ShLin 0%nat 1 2; ShLin 1%nat 1 (-1); ShLin 2%nat 1 1], Some (cN 1));
  (6, 6, [ShLin 0%nat 1 2; ShLin 1%nat 1 (-1); ShLin 2%nat 1 0], [ShLin 0%nat 1 2; ShLin 1%nat 1 (-1); ShLin 2%nat 1 0], Some (cN 1));
  (7, 7, [ShLin 0%nat 1 2; ShLin 1%nat 1 (-1); ShLin 2%nat 1 (-1)], [ShLin 0%nat 1 2; ShLin 1%nat 1 (-1); ShLin 2%nat 1 (-1)], Some (cN 1));
  (8, 8, [ShLin 0%nat 1 1; ShLin 1%nat 1 2; ShLin 2%nat 1 1], [ShLin 0%nat 1 1; ShLin 1%nat 1 2; ShLin 2%nat 1 1], Some (cN 1));
  (9, 9, [ShLin 0%nat 1 1; ShLin 1%nat 1 2; ShLin 2%nat 1 0], [ShLin 0%nat 1 1; ShLin 1%nat 1 2; ShLin 2%nat 1 0], Some (cN 1));
  (10, 10, [ShLin 0%nat 1 1; ShLin 1%nat 1 2; ShLin 2%nat 1 (-1)], [ShLin 0%nat 1 1; ShLin 1%nat 1 2; ShLin 2%nat 1 (-1)], Some (cN 1));
  (11, 11, [ShLin 0%nat 1 1; ShLin 1%nat 1 0; ShLin 2%nat 1 2], [ShLin 0%nat 1 1; ShLin 1%nat 1 0; ShLin 2%nat 1 2], Some (cN 1));
  (12, 12, [ShLin 0%nat 1 1; ShLin 1%nat 1 0; ShLin 2%nat 1 1], [ShLin 0%nat 1 1; ShLin 1%nat 1 0; ShLin 2%nat 1 1], Some (cN 1));
  (13, 13, [ShLin 0%nat 1 1; ShLin 1%nat 1 0; ShLin 2%nat 1 1], [ShLin 0%nat 1 1; ShLin 1%nat 1 0; ShLin 2%nat 1 1], Some (cN 1));
  (14, 14, [ShLin 0%nat 1 1; ShLin 1%nat 1 0; ShLin 2%nat 1 0], [ShLin 0%nat 1 1; ShLin 1%nat 1 0; ShLin 2%nat 1 0], Some (cN 1));
  (15, 15, [ShLin 0%nat 1 1; ShLin 1%nat 1 0; ShLin 2%nat 1 0], [ShLin 0%nat 1 1; ShLin 1%nat 1 0; ShLin 2%nat 1 0], Some (cN 1));
  (16, 16, [ShLin 0%nat 1 1; ShLin 1%nat 1 0; ShLin 2%nat 1 0], [ShLin 0%nat 1 1; ShLin 1%nat 1 0; ShLin 2%nat 1 0], Some (cN 1));
  (17, 17, [ShLin 0%nat 1 1; ShLin 1%nat 1 0; ShLin 2%nat 1 (-1)], [ShLin 0%nat 1 1; ShLin 1%nat 1 0; ShLin 2%nat 1 (-1)], Some (cN 1));
  (18, 18, [ShLin 0%nat 1 1; ShLin 1%nat 1 0; ShLin 2%nat 1 (-1)], [ShLin 0%nat 1 1; ShLin 1%nat 1 0; ShLin 2%nat 1 (-1)], Some (cN 1));
  (19, 19, [ShLin 0%nat 1 1; ShLin 1%nat 1 0; ShLin 2%nat 1 (-2)], [ShLin 0%nat 1 1; ShLin 1%nat 1 0; ShLin 2%nat 1 (-2)], Some (cN 1));
  (20, 20, [ShLin 0%nat 1 1; ShLin 1%nat 1 (-2); ShLin 2%nat 1 1], [ShLin 0%nat 1 1; ShLin 1%nat 1 (-2); ShLin 2%nat 1 1], Some (cN 1));
  (21, 21, [ShLin 0%nat 1 1; ShLin 1%nat 1 (-2); ShLin 2%nat 1 0], [ShLin 0%nat 1 1; ShLin 1%nat 1 (-2); ShLin 2%nat 1 0], Some (cN 1));
  (22, 22, [ShLin 0%nat 1 1; ShLin 1%nat 1 (-2); ShLin 2%nat 1 (-1)], [ShLin 0%nat 1 1; ShLin 1%nat 1 (-2); ShLin 2%nat 1 (-1)], Some (cN 1));
  (23, 23, [ShLin 0%nat 1 0; ShLin 1%nat 1 3; ShLin 2%nat 1 0], [ShLin 0%nat 1 0; ShLin 1%nat 1 3; ShLin 2%nat 1 0], Some (cN 1));
  (24, 24, [ShLin 0%nat 1 0; ShLin 1%nat 1 1; ShLin 2%nat 1 2], [ShLin 0%nat 1 0; ShLin 1%nat 1 1; ShLin 2%nat 1 2], Some (cN 1));
  (25, 25, [ShLin 0%nat 1 0; ShLin 1%nat 1 1; ShLin 2%nat 1 1], [ShLin 0%nat 1 0; ShLin 1%nat 1 1; ShLin 2%nat 1 1], Some (cN 1));
  (26, 26, [ShLin 0%nat 1 0; ShLin 1%nat 1 1; ShLin 2%nat 1 1], [ShLin 0%nat 1 0; ShLin 1%nat 1 1; ShLin 2%nat 1 1], Some (cN 1));
  (27, 27, [ShLin 0%nat 1 0; ShLin 1%nat 1 1; ShLin 2%nat 1 0], [ShLin 0%nat 1 0; ShLin 1%nat 1 1; ShLin 2%nat 1 0], Some (cN 1));
  (28, 28, [ShLin 0%nat 1 0; ShLin 1%nat 1 1; ShLin 2%nat 1 0], [ShLin 0%nat 1 0; ShLin 1%nat 1 1; ShLin 2%nat 1 0], Some (cN 1));
  (29, 29, [ShLin 0%nat 1 0; ShLin 1%nat 1 1; ShLin 2%nat 1 0], [ShLin 0%nat 1 0; ShLin 1%nat 1 1; ShLin 2%nat 1 0], Some (cN 1));
  (30, 30, [ShLin 0%nat 1 0; ShLin 1%nat 1 1; ShLin 2%nat 1 (-1)], [ShLin 0%nat 1 0; ShLin 1%nat 1 1; ShLin 2%nat 1 (-1)], Some (cN 1));
  (31, 31, [ShLin 0%nat 1 0; ShLin 1%nat 1 1; ShLin 2%nat 1 (-1)], [ShLin 0%nat 1 0; ShLin 1%nat 1 1; ShLin 2%nat 1 (-1)], Some (cN 1));
  (32, 32, [ShLin 0%nat 1 0; ShLin 1%nat 1 1; ShLin 2%nat 1 (-2)], [ShLin 0%nat 1 0; ShLin 1%nat 1 1; ShLin 2%nat 1 (-2)], Some (cN 1));
  (33, 33, [ShLin 0%nat 1 0; ShLin 1%nat 1 (-1); ShLin 2%nat 1 2], [ShLin 0%nat 1 0; ShLin 1%nat 1 (-1); ShLin 2%nat 1 2], Some (cN 1));
  (34, 34, [ShLin 0%nat 1 0; ShLin 1%nat 1 (-1); ShLin 2%nat 1 1], [ShLin 0%nat 1 0; ShLin 1%nat 1 (-1); ShLin 2%nat 1 1], Some (cN 1));
  (35, 35, [ShLin 0%nat 1 0; ShLin 1%nat 1 (-1); ShLin 2%nat 1 1], [ShLin 0%nat 1 0; ShLin 1%nat 1 (-1); ShLin 2%nat 1 1], Some (cN 1));
  (36, 36, [ShLin 0%nat 1 0; ShLin 1%nat 1 (-1); ShLin 2%nat 1 0], [ShLin 0%nat 1 0; ShLin 1%nat 1 (-1); ShLin 2%nat 1 0], Some (cN 1));
  (37, 37, [ShLin 0%nat 1 0; ShLin 1%nat 1 (-1); ShLin 2%nat 1 0], [ShLin 0%nat 1 0; ShLin 1%nat 1 (-1); ShLin 2%nat 1 0], Some (cN 1));
  (38, 38, [ShLin 0%nat 1 0; ShLin 1%nat 1 (-1); ShLin 2%nat 1 0], [ShLin 0%nat 1 0; ShLin 1%nat 1 (-1); ShLin 2%nat 1 0], Some (cN 1));
  (39, 39, [ShLin 0%nat 1 0; ShLin 1%nat 1 (-1); ShLin 2%nat 1 (-1)], [ShLin 0%nat 1 0; ShLin 1%nat 1 (-1); ShLin 2%nat 1 (-1)], Some (cN 1));
  (40, 40, [ShLin 0%nat 1 0; ShLin 1%nat 1 (-1); ShLin 2%nat 1 (-1)], [ShLin 0%nat 1 0; ShLin 1%nat 1 (-1); ShLin 2%nat 1 (-1)], Some (cN 1));
  (41, 41, [ShLin 0%nat 1 0; ShLin 1%nat 1 (-1); ShLin 2%nat 1 (-2)], [ShLin 0%nat 1 0; ShLin 1%nat 1 (-1); ShLin 2%nat 1 (-2)], Some (cN 1));
  (42, 42, [ShLin 0%nat 1 0; ShLin 1%nat 1 (-3); ShLin 2%nat 1 0], [ShLin 0%nat 1 0; ShLin 1%nat 1 (-3); ShLin 2%nat 1 0], Some (cN 1));
  (43, 43, [ShLin 0%nat 1 (-1); ShLin 1%nat 1 2; ShLin 2%nat 1 1], [ShLin 0%nat 1 (-1); ShLin 1%nat 1 2; ShLin 2%nat 1 1], Some (cN 1));
  (44, 44, [ShLin 0%nat 1 (-1); ShLin 1%nat 1 2; ShLin 2%nat 1 0], [ShLin 0%nat 1 (-1); ShLin 1%nat 1 2; ShLin 2%nat 1 0], Some (cN 1));
  (45, 45, [ShLin 0%nat 1 (-1); ShLin 1%nat 1 2; ShLin 2%nat 1 (-1)], [ShLin 0%nat 1 (-1); ShLin 1%nat 1 2; ShLin 2%nat 1 (-1)], Some (cN 1));
  (46, 46, [ShLin 0%nat 1 (-1); ShLin 1%nat 1 0; ShLin 2%nat 1 2], [ShLin 0%nat 1 (-1); ShLin 1%nat 1 0; ShLin 2%nat 1 2], Some (cN 1));
  (47, 47, [ShLin 0%nat 1 (-1); ShLin 1%nat 1 0; ShLin 2%nat 1 1], [ShLin 0%nat 1 (-1); ShLin 1%nat 1 0; ShLin 2%nat 1 1], Some (cN 1));
  (48, 48, [ShLin 0%nat 1 (-1); ShLin 1%nat 1 0; ShLin 2%nat 1 1], [ShLin 0%nat 1 (-1); ShLin 1%nat 1 0; ShLin 2%nat 1 1], Some (cN 1));
  (49, 49, [ShLin 0%nat 1 (-1); ShLin 1%nat 1 0; ShLin 2%nat 1 0], [ShLin 0%nat 1 (-1); ShLin 1%nat 1 0; ShLin 2%nat 1 0], Some (cN 1));
  (50, 50, [ShLin 0%nat 1 (-1); ShLin 1%nat 1 0; ShLin 2%nat 1 0], [ShLin 0%nat 1 (-1); ShLin 1%nat 1 0; ShLin 2%nat 1 0], Some (cN 1));
  (51, 51, [ShLin 0%nat 1 (-1); ShLin 1%nat 1 0; ShLin 2%nat 1 0], [ShLin 0%nat 1 (-1); ShLin 1%nat 1 0; ShLin 2%nat 1 0], Some (cN 1));
  (52, 52, [ShLin 0%nat 1 (-1); ShLin 1%nat 1 0; ShLin 2%nat 1 (-1)], [ShLin 0%nat 1 (-1); ShLin 1%nat 1 0; ShLin 2%nat 1 (-1)], Some (cN 1));
  (53, 53, [ShLin 0%nat 1 (-1); ShLin 1%nat 1 0; ShLin 2%nat 1 (-1)], [ShLin 0%nat 1 (-1); ShLin 1%nat 1 0; ShLin 2%nat 1 (-1)], Some (cN 1));
  (54, 54, [ShLin 0%nat 1 (-1); ShLin 1%nat 1 0; ShLin 2%nat 1 (-2)], [ShLin 0%nat 1 (-1); ShLin 1%nat 1 0; ShLin 2%nat 1 (-2)], Some (cN 1));
  (55, 55, [ShLin 0%nat 1 (-1); ShLin 1%nat 1 (-2); ShLin 2%nat 1 1], [ShLin 0%nat 1 (-1); ShLin 1%nat 1 (-2); ShLin 2%nat 1 1], Some (cN 1));
  (56, 56, [ShLin 0%nat 1 (-1); ShLin 1%nat 1 (-2); ShLin 2%nat 1 0], [ShLin 0%nat 1 (-1); ShLin 1%nat 1 (-2); ShLin 2%nat 1 0], Some (cN 1));
  (57, 57, [ShLin 0%nat 1 (-1); ShLin 1%nat 1 (-2); ShLin 2%nat 1 (-1)], [ShLin 0%nat 1 (-1); ShLin 1%nat 1 (-2); ShLin 2%nat 1 (-1)], Some (cN 1));
  (58, 58, [ShLin 0%nat 1 (-2); ShLin 1%nat 1 1; ShLin 2%nat 1 1], [ShLin 0%nat 1 (-2); ShLin 1%nat 1 1; ShLin 2%nat 1 1], Some (cN 1));
  (59, 59, [ShLin 0%nat 1 (-2); ShLin 1%nat 1 1; ShLin 2%nat 1 0], [ShLin 0%nat 1 (-2); ShLin 1%nat 1 1; ShLin 2%nat 1 0], Some (cN 1));
  (60, 60, [ShLin 0%nat 1 (-2); ShLin 1%nat 1 1; ShLin 2%nat 1 (-1)], [ShLin 0%nat 1 (-2); ShLin 1%nat 1 1; ShLin 2%nat 1 (-1)], Some (cN 1));
  (61, 61, [ShLin 0%nat 1 (-2); ShLin 1%nat 1 (-1); ShLin 2%nat 1 1], [ShLin 0%nat 1 (-2); ShLin 1%nat 1 (-1); ShLin 2%nat 1 1], Some (cN 1));
  (62, 62, [ShLin 0%nat 1 (-2); ShLin 1%nat 1 (-1); ShLin 2%nat 1 0], [ShLin 0%nat 1 (-2); ShLin 1%nat 1 (-1); ShLin 2%nat 1 0], Some (cN 1));
  (63, 63, [ShLin 0%nat 1 (-2); ShLin 1%nat 1 (-1); ShLin 2%nat 1 (-1)], [ShLin 0%nat 1 (-2); ShLin 1%nat 1 (-1); ShLin 2%nat 1 (-1)], Some (cN 1));
  (64, 64, [ShLin 0%nat 1 (-3); ShLin 1%nat 1 0; ShLin 2%nat 1 0], [ShLin 0%nat 1 (-3); ShLin 1%nat 1 0; ShLin 2%nat 1 0], Some (cN 1))].
(** /repo/c++/symmetry/nrg-recalc-QSZTZ.hpp recalc_triplet, qsztz/qsztz-tripletp.dat *)
Definition qsztz_t13 : ten_table := mk_ten "triplet" [ShLin 0%nat 1 0; ShLin 1%nat 1 2; ShLin 2%nat 1 0] [0; 3; 0] [
  (1, 1, [ShLin 0%nat 1 3; ShLin 1%nat 1 0; ShLin 2%nat 1 0], [ShLin 0%nat 1 3; ShLin 1%nat 1 2; ShLin 2%nat 1 0], Some (cN 1));
  (2, 2, [ShLin 0%nat 1 2; ShLin 1%nat 1 1; ShLin 2%nat 1 1], [ShLin 0%nat 1 2; ShLin 1%nat 1 3; ShLin 2%nat 1 1], Some (cN 1));
  (3, 3, [ShLin 0%nat 1 2; ShLin 1%nat 1 1; ShLin 2%nat 1 0], [ShLin 0%nat 1 2; ShLin 1%nat 1 3; ShLin 2%nat 1 0], Some (cN 1));
  (4, 4, [ShLin 0%nat 1 2; ShLin 1%nat 1 1; ShLin 2%nat 1 (-1)], [ShLin 0%nat 1 2; ShLin 1%nat 1 3; ShLin 2%nat 1 (-1)], Some (cN 1));
  (5, 5, [ShLin 0%nat 1 2; ShLin 1%nat 1 (-1); ShLin 2%nat 1 1], [ShLin 0%nat 1 2; ShLin 1%nat 1 1; ShLin 2%nat 1 1], Some (cN 1));
  (6, 6, [ShLin 0%nat 1 2; ShLin 1%nat 1 (-1); ShLin 2%nat 1 0], [ShLin 0%nat 1 2; ShLin 1%nat 1 1; ShLin 2%nat 1 0], Some (cN 1));
  (7, 7, [ShLin 0%nat 1 2; ShLin 1%nat 1 (-1); ShLin 2%nat 1 (-1)], [ShLin 0%nat 1 2; ShLin 1%nat 1 1; ShLin 2%nat 1 (-1)], Some (cN 1));
  (8, 8, [ShLin 0%nat 1 1; ShLin 1%nat 1 2; ShLin 2%nat 1 1], [ShLin 0%nat 1 1; ShLin 1%nat 1 4; ShLin 2%nat 1 1], Some (cN 1));
  (9, 9, [ShLin 0%nat 1 1; ShLin 1%nat 1 2; ShLin 2%nat 1 0], [ShLin 0%nat 1 1; ShLin 1%nat 1 4; ShLin 2%nat 1 0], Some (cN 1));
  (10, 10, [ShLin 0%nat 1 1; ShLin 1%nat 1 2; ShLin 2%nat 1 (-1)], [ShLin 0%nat 1 1; ShLin 1%nat 1 4; ShLin 2%nat 1 (-1)], Some (cN 1));
  (11, 11, [ShLin 0%nat 1 1; ShLin 1%nat 1 0; ShLin 2%nat 1 2], [ShLin 0%nat 1 1; ShLin 1%nat 1 2; ShLin 2%nat 1 2], Some (cN 1));
  (12, 12, [ShLin 0%nat 1 1; ShLin 1%nat 1 0; ShLin 2%nat 1 1], [ShLin 0%nat 1 1; ShLin 1%nat 1 2; ShLin 2%nat 1 1], Some (cN 1));
  (13, 13, [ShLin 0%nat 1 1; ShLin 1%nat 1 0; ShLin 2%nat 1 1], [ShLin 0%nat 1 1; ShLin 1%nat 1 2; ShLin 2%nat 1 1], Some (cN 1));
  (14, 14, [ShLin 0%nat 1 1; ShLin 1%nat 1 0; ShLin 2%nat 1 0], [ShLin 0%nat 1 1; ShLin 1%nat 1 2; ShLin 2%nat 1 0], Some (cN 1));
  (15, 15, [ShLin 0%nat 1 1; ShLin 1%nat 1 0; ShLin 2%nat 1 0], [ShLin 0%nat 1 1; ShLin 1%nat 1 2; ShLin 2%nat 1 0], Some (cN 1));
  (16, 16, [ShLin 0%nat 1 1; ShLin 1%nat 1 0; ShLin 2%nat 1 0], [ShLin 0%nat 1 1; ShLin 1%nat 1 2; ShLin 2%nat 1 0], Some (cN 1));
  (17, 17, [ShLin 0%nat 1 1; ShLin 1%nat 1 0; ShLin 2%nat 1 (-1)], [ShLin 0%nat 1 1; ShLin 1%nat 1 2; ShLin 2%nat 1 (-1)], Some (cN 1));
  (18, 18, [ShLin 0%nat 1 1; ShLin 1%nat 1 0; ShLin 2%nat 1 (-1)], [ShLin 0%nat 1 1; ShLin 1%nat 1 2; ShLin 2%nat 1 (-1)], Some (cN 1));
  (19, 19, [ShLin 0%nat 1 1; ShLin 1%nat 1 0; ShLin 2%nat 1 (-2)], [ShLin 0%nat 1 1; ShLin 1%nat 1 2; ShLin 2%nat 1 (-2)], Some (cN 1));
  (20, 20, [ShLin 0%nat 1 1; ShLin 1%nat 1 (-2); ShLin 2%nat 1 1], [ShLin 0%nat 1 1; ShLin 1%nat 1 0; ShLin 2%nat 1 1], Some (cN 1));
  (21, 21, [ShLin 0%nat 1 1; ShLin 1%nat 1 (-2); ShLin 2%nat 1 0], [ShLin 0%nat 1 1; ShLin 1%nat 1 0; ShLin 2%nat 1 0], Some (cN 1));
  (22, 22, [ShLin 0%nat 1 1; ShLin 1%nat 1 (-2); ShLin 2%nat 1 (-1)], [ShLin 0%nat 1 1; ShLin 1%nat 1 0; ShLin 2%nat 1 (-1)], Some (cN 1));
  (23, 23, [ShLin 0%nat 1 0; ShLin 1%nat 1 3; ShLin 2%nat 1 0], [ShLin 0%nat 1 0; ShLin 1%nat 1 5; ShLin 2%nat 1 0], Some (cN 1));
  (24, 24, [ShLin 0%nat 1 0; ShLin 1%nat 1 1; ShLin 2%nat 1 2], [ShLin 0%nat 1 0; ShLin 1%nat 1 3; ShLin 2%nat 1 2], Some (cN 1));
  (25, 25, [ShLin 0%nat 1 0; ShLin 1%nat 1 1; ShLin 2%nat 1 1], [ShLin 0%nat 1 0; ShLin 1%nat 1 3; ShLin 2%nat 1 1], Some (cN 1));
  (26, 26, [ShLin 0%nat 1 0; ShLin 1%nat 1 1; ShLin 2%nat 1 1], [ShLin 0%nat 1 0; ShLin 1%nat 1 3; ShLin 2%nat 1 1], Some (cN 1));
  (27, 27, [ShLin 0%nat 1 0; ShLin 1%nat 1 1; ShLin 2%nat 1 0], [ShLin 0%nat 1 0; ShLin 1%nat 1 3; ShLin 2%nat 1 0], Some (cN 1));
  (28, 28, [ShLin 0%nat 1 0; ShLin 1%nat 1 1; ShLin 2%nat 1 0], [ShLin 0%nat 1 0; ShLin 1%nat 1 3; ShLin 2%nat 1 0], Some (cN 1));
  (29, 29, [ShLin 0%nat 1 0; ShLin 1%nat 1 1; ShLin 2%nat 1 0], [ShLin 0%nat 1 0; ShLin 1%nat 1 3; ShLin 2%nat 1 0], Some (cN 1));
  (30, 30, [ShLin 0%nat 1 0; ShLin 1%nat 1 1; ShLin 2%nat 1 (-1)], [ShLin 0%nat 1 0; ShLin 1%nat 1 3; ShLin 2%nat 1 (-1)], Some (cN 1));
  (31, 31, [ShLin 0%nat 1 0; ShLin 1%nat 1 1; ShLin 2%nat 1 (-1)], [ShLin 0%nat 1 0; ShLin 1%nat 1 3; ShLin 2%nat 1 (-1)], Some (cN 1));
  (32, 32, [ShLin 0%nat 1 0; ShLin 1%nat 1 1; ShLin 2%nat 1 (-2)], [ShLin 0%nat 1 0; ShLin 1%nat 1 3; ShLin 2%nat 1 (-2)], Some (cN 1));
  (33, 33, [ShLin 0%nat 1 0; ShLin 1%nat 1 (-1); ShLin 2%nat 1 2], [ShLin 0%nat 1 0; ShLin 1%nat 1 1; ShLin 2%nat 1 2], Some (cN 1));
  (34, 34, [ShLin 0%nat 1 0; ShLin 1%nat 1 (-1); ShLin 2%nat 1 1], [ShLin 0%nat 1 0; ShLin 1%nat 1 1; ShLin 2%nat 1 1], Some (cN 1));
  (35, 35, [ShLin 0%nat 1 0; ShLin 1%nat 1 (-1); ShLin 2%nat 1 1], [ShLin 0%nat 1 0; ShLin 1%nat 1 1; ShLin 2%nat 1 1], Some (cN 1));
  (36, 36, [ShLin 0%nat 1 0; ShLin 1%nat 1 (-1); ShLin 2%nat 1 0], [ShLin 0%nat 1 0; ShLin 1%nat 1 1; ShLin 2%nat 1 0], Some (cN 1));
  (37, 37, [ShLin 0%nat 1 0; ShLin 1%nat 1 (-1); ShLin 2%nat 1 0], [ShLin 0%nat 1 0; ShLin 1%nat 1 1; ShLin 2%nat 1 0], Some (cN 1));
  (38, 38, [ShLin 0%nat 1 0; ShLin 1%nat 1 (-1); ShLin 2%nat 1 0], [ShLin 0%nat 1 0; ShLin 1%nat 1 1; ShLin 2%nat 1 0], Some (cN 1));
  (39, 39, [ShLin 0%nat 1 0; ShLin 1%nat 1 (-1); ShLin 2%nat 1 (-1)], [ShLin 0%nat 1 0; ShLin 1%nat 1 1; ShLin 2%nat 1 (-1)], Some (cN 1));
  (40, 40, [ShLin 0%nat 1 0; ShLin 1%nat 1 (-1); ShLin 2%nat 1 (-1)], [ShLin 0%nat 1 0; ShLin 1%nat 1 1; ShLin 2%nat 1 (-1)], Some (cN 1));
  (41, 41, [ShLin 0%nat 1 0; ShLin 1%nat 1 (-1); ShLin 2%nat 1 (-2)], [ShLin 0%nat 1 0; ShLin 1%nat 1 1; ShLin 2%nat 1 (-2)], Some (cN 1));
  (42, 42, [ShLin 0%nat 1 0; ShLin 1%nat 1 (-3); ShLin 2%nat 1 0], [ShLin 0%nat 1 0; ShLin 1%nat 1 (-1); ShLin 2%nat 1 0], Some (cN 1));
  (43, 43, [ShLin 0%nat 1 (-1); ShLin 1%nat 1 2; ShLin 2%nat 1 1], [ShLin 0%nat 1 (-1); ShLin 1%nat 1 4; ShLin 2%nat 1 1], Some (cN 1));
  (44, 44, [ShLin 0%nat 1 (-1); ShLin 1%nat 1 2; ShLin 2%nat 1 0], [ShLin 0%nat 1 (-1); ShLin 1%nat 1 4; ShLin 2%nat 1 0], Some (cN 1));
  (45, 45, [ShLin 0%nat 1 (-1); ShLin 1%nat 1 2; ShLin 2%nat 1 (-1)], [ShLin 0%nat 1 (-1); ShLin 1%nat 1 4; ShLin 2%nat 1 (-1)], Some (cN 1));
  (46, 46, [ShLin 0%nat 1 (-1); ShLin 1%nat 1 0; ShLin 2%nat 1 2], [ShLin 0%nat 1 (-1); ShLin 1%nat 1 2; ShLin 2%nat 1 2], Some (cN 1));
  (47, 47, [ShLin 0%nat 1 (-1); ShLin 1%nat 1 0; ShLin 2%nat 1 1], [ShLin 0%nat 1 (-1); ShLin 1%nat 1 2; ShLin 2%nat 1 1], Some (cN 1));
  (48, 48, [ShLin 0%nat 1 (-1); ShLin 1%nat 1 0; ShLin 2%nat 1 1], [ShLin 0%nat 1 (-1); ShLin 1%nat 1 2; ShLin 2%nat 1 1], Some (cN 1));
  (49, 49, [ShLin 0%nat 1 (-1); ShLin 1%nat 1 0; ShLin 2%nat 1 0], [ShLin 0%nat 1 (-1); ShLin 1%nat 1 2; ShLin 2%nat 1 0], Some (cN 1));
  (50, 50, [ShLin 0%nat 1 (-1); ShLin 1%nat 1 0; ShLin 2%nat 1 0], [ShLin 0%nat 1 (-1); ShLin 1%nat 1 2; ShLin 2%nat 1 0], Some (cN 1));
  (51, 51, [ShLin 0%nat 1 (-1); ShLin 1%nat 1 0; ShLin 2%nat 1 0], [ShLin 0%nat 1 (-1); ShLin 1%nat 1 2; ShLin 2%nat 1 0], Some (cN 1));
  (52, 52, [ShLin 0%nat 1 (-1); ShLin 1%nat 1 0; ShLin 2%nat 1 (-1)], [ShLin 0%nat 1 (-1); ShLin 1%nat 1 2; ShLin 2%nat 1 (-1)], Some (cN 1));
  (53, 53, [ShLin 0%nat 1 (-1); ShLin 1%nat 1 0; ShLin 2%nat 1 (-1)], [ShLin 0%nat 1 (-1); ShLin 1%nat 1 2; ShLin 2%nat 1 (-1)], Some (cN 1));
  (54, 54, [ShLin 0%nat 1 (-1); ShLin 1%nat 1 0; ShLin 2%nat 1 (-2)], [ShLin 0%nat 1 (-1); ShLin 1%nat 1 2; ShLin 2%nat 1 (-2)], Some (cN 1));
  (55, 55, [ShLin 0%nat 1 (-1); ShLin 1%nat 1 (-2); ShLin 2%nat 1 1], [ShLin 0%nat 1 (-1); ShLin 1%nat 1 0; ShLin 2%nat 1 1], Some (cN 1));
  (56, 56, [ShLin 0%nat 1 (-1); ShLin 1%nat 1 (-2); ShLin 2%nat 1 0], [ShLin 0%nat 1 (-1); ShLin 1%nat 1 0; ShLin 2%nat 1 0], Some (cN 1));
  (57, 57, [ShLin 0%nat 1 (-1); ShLin 1%nat 1 (-2); ShLin 2%nat 1 (-1)], [ShLin 0%nat 1 (-1); ShLin 1%nat 1 0; ShLin 2%nat 1 (-1)], Some (cN 1));
  (58, 58, [ShLin 0%nat 1 (-2); ShLin 1%nat 1 1; ShLin 2%nat 1 1], [ShLin 0%nat 1 (-2); ShLin 1%nat 1 3; ShLin 2%nat 1 1], Some (cN 1));
  (59, 59, [ShLin 0%nat 1 (-2); ShLin 1%nat 1 1; ShLin 2%nat 1 0], [ShLin 0%nat 1 (-2); ShLin 1%nat 1 3; ShLin 2%nat 1 0], Some (cN 1));
  (60, 60, [ShLin 0%nat 1 (-2); ShLin 1%nat 1 1; ShLin 2%nat 1 (-1)], [ShLin 0%nat 1 (-2); ShLin 1%nat 1 3; ShLin 2%nat 1 (-1)], Some (cN 1));
  (61, 61, [ShLin 0%nat 1 (-2); ShLin 1%nat 1 (-1); ShLin 2%nat 1 1], [ShLin 0%nat 1 (-2); ShLin 1%nat 1 1; ShLin 2%nat 1 1], Some (cN 1));
  (62, 62, [ShLin 0%nat 1 (-2); ShLin 1%nat 1 (-1); ShLin 2%nat 1 0], [ShLin 0%nat 1 (-2); ShLin 1%nat 1 1; ShLin 2%nat 1 0], Some (cN 1));
  (63, 63, [ShLin 0%nat 1 (-2); ShLin 1%nat 1 (-1); ShLin 2%nat 1 (-1)], [ShLin 0%nat 1 (-2); ShLin 1%nat 1 1; ShLin 2%nat 1 (-1)], Some (cN 1));
  (64, 64, [ShLin 0%nat 1 (-3); ShLin 1%nat 1 0; ShLin 2%nat 1 0], [ShLin 0%nat 1 (-3); ShLin 1%nat 1 2; ShLin 2%nat 1 0], Some (cN 1))].
(** /repo/c++/symmetry/nrg-recalc-QSZTZ.hpp recalc_triplet, qsztz/qsztz-tripletm.dat *)
Definition qsztz_t14 : ten_table := mk_ten "triplet" [ShLin 0%nat 1 0; ShLin 1%nat 1 (-2); ShLin 2%nat 1 0] [0; 3; 0] [
  (1, 1, [ShLin 0%nat 1 3; ShLin 1%nat 1 0; ShLin 2%nat 1 0], [ShLin 0%nat 1 3; ShLin 1%nat 1 (-2); ShLin 2%nat 1 0], Some (cN 1));
  (2, 2, [ShLin 0%nat 1 2; ShLin 1%nat 1 1; ShLin 2%nat 1 1], [ShLin 0%nat 1 2; ShLin 1%nat 1 (-1); ShLin 2%nat 1 1], Some (cN 1));
  (3, 3, [ShLin 0%nat 1 2; ShLin 1%nat 1 1; ShLin 2%nat 1 0], [ShLin 0%nat 1 2; ShLin 1%nat 1 (-1); ShLin 2%nat 1 0], Some (cN 1));
  (4, 4, [ShLin 0%nat 1 2; ShLin 1%nat 1 1; ShLin 2%nat 1 (-1)], [ShLin 0%nat 1 2; ShLin 1%nat 1 (-1); ShLin 2%nat 1 (-1)], Some (cN 1));
  (5, 5, [ShLin 0%nat 1 2; ShLin 1%nat 1 (-1); ShLin 2%nat 1 1], [ShLin 0%nat 1 2; ShLin 1%nat 1 (-3); ShLin 2%nat 1 1], Some (cN 1));
  (6, 6, [ShLin 0%nat 1 2; ShLin 1%nat 1 (-1); ShLin 2%nat 1 0], [ShLin 0%nat 1 2; ShLin 1%nat 1 (-3); ShLin 2%nat 1 0], Some (cN 1));
  (7, 7, [ShLin 0%nat 1 2; ShLin 1%nat 1 (-1); ShLin 2%nat 1 (-1)], [ShLin 0%nat 1 2; ShLin 1%nat 1 (-3); ShLin 2%nat 1 (-1)], Some (cN 1));
  (8, 8, [ShLin 0%nat 1 1; ShLin 1%nat 1 2; ShLin 2%nat 1 1], [ShLin 0%nat 1 1; ShLin 1%nat 1 0; ShLin 2%nat 1 1], Some (cN 1));
  (9, 9, [ShLin 0%nat 1 1; ShLin 1%nat 1 2; ShLin 2%nat 1 0], [ShLin 0%nat 1 1; ShLin 1%nat 1 0; ShLin 2%nat 1 0], Some (cN 1));
  (10, 10, [ShLin 0%nat 1 1; ShLin 1%nat 1 2; ShLin 2%nat 1 (-1)], [ShLin 0%nat 1 1; ShLin 1%nat 1 0; ShLin 2%nat 1 (-1)], Some (cN 1));
  (11, 11, [ShLin 0%nat 1 1; ShLin 1%nat 1 0; ShLin 2%nat 1 2], [ShLin 0%nat 1 1; ShLin 1%nat 1 (-2); ShLin 2%nat 1 2], Some (cN 1));
  (12, 12, [ShLin 0%nat 1 1; ShLin 1%nat 1 0; ShLin 2%nat 1 1], [ShLin 0%nat 1 1; ShLin 1%nat 1 (-2); ShLin 2%nat 1 1], Some (cN 1));
  (13, 13, [ShLin 0%nat 1 1; ShLin 1%nat 1 0; ShLin 2%nat 1 1], [ShLin 0%nat 1 1; ShLin 1%nat 1 (-2); ShLin 2%nat 1 1], Some (cN 1));
  (14, 14, [ShLin 0%nat 1 1; ShLin 1%nat 1 0; ShLin 2%nat 1 0], [ShLin 0%nat 1 1; ShLin 1%nat 1 (-2); ShLin 2%nat 1 0], Some (cN 1));
  (15, 15, [ShLin 0%nat 1 1; ShLin 1%nat 1 0; ShLin 2%nat 1 0], [ShLin 0%nat 1 1; ShLin 1%nat 1 (-2); ShLin 2%nat 1 0], Some (cN 1));
  (16, 16, [ShLin 0%nat 1 1; ShLin 1%nat 1 0; ShLin 2%nat 1 0], [ShLin 0%nat 1 1; ShLin 1%nat 1 (-2); ShLin 2%nat 1 0], Some (cN 1));
  (17, 17, [ShLin 0%nat 1 1; ShLin 1%nat 1 0; ShLin 2%nat 1 (-1)], [ShLin 0%nat 1 1; ShLin 1%nat 1 (-2); ShLin 2%nat 1 (-1)], Some (cN 1));
  (18, 18, [ShLin 0%nat 1 1; ShLin 1%nat 1 0; ShLin 2%nat 1 (-1)], [ShLin 0%nat 1 1; ShLin 1%nat 1 (-2); ShLin 2%nat 1 (-1)], Some (cN 1));
  (19, 19, [ShLin 0%nat 1 1; ShLin 1%nat 1 0; ShLin 2%nat 1 (-2)], [ShLin 0%nat 1 1; ShLin 1%nat 1 (-2); ShLin 2%nat 1 (-2)], Some (cN 1));
  (20, 20, [ShLin 0%nat 1 1; ShLin 1%nat 1 (-2); ShLin 2%nat 1 1], [ShLin 0%nat 1 1; ShLin 1%nat 1 (-4); ShLin 2%nat 1 1], Some (cN 1));
  (21, 21, [ShLin 0%nat 1 1; ShLin 1%nat 1 (-2); ShLin 2%nat 1 0], [ShLin 0%nat 1 1; ShLin 1%nat 1 (-4); ShLin 2%nat 1 0], Some (cN 1));
  (22, 22, [ShLin 0%nat 1 1; ShLin 1%nat 1 (-2); ShLin 2%nat 1 (-1)], [ShLin 0%nat 1 1; ShLin 1%nat 1 (-4); ShLin 2%nat 1 (-1)], Some (cN 1));
  (23, 23, [ShLin 0%nat 1 0; ShLin 1%nat 1 3; ShLin 2%nat 1 0], [ShLin 0%nat 1 0; ShLin 1%nat 1 1; ShLin 2%nat 1 0], Some (cN 1));
  (24, 24, [ShLin 0%nat 1 0; ShLin 1%nat 1 1; ShLin 2%nat 1 2], [ShLin 0%nat 1 0; ShLin 1%nat 1 (-1); ShLin 2%nat 1 2], Some (cN 1));
  (25, 25, [ShLin 0%nat 1 0; ShLin 1%nat 1 1; ShLin 2%nat 1 1], [ShLin 0%nat 1 0; ShLin 1%nat 1 (-1); ShLin 2%nat 1 1], Some (cN 1));
  (26, 26, [ShLin 0%nat 1 0; ShLin 1%nat 1 1; ShLin 2%nat 1 1], [ShLin 0%nat 1 0; ShLin 1%nat 1 (-1); ShLin 2%nat 1 1], Some (cN 1));
  (27, 27, [ShLin 0%nat 1 0; ShLin 1%nat 1 1; ShLin 2%nat 1 0], [ShLin 0%nat 1 0; ShLin 1%nat 1 (-1); ShLin 2%nat 1 0], Some (cN 1));
  (28, 28, [ShLin 0%nat 1 0; ShLin 1%nat 1 1; ShLin 2%nat 1 0], [ShLin 0%nat 1 0; ShLin 1%nat 1 (-1); ShLin 2%nat 1 0], Some (cN 1));
  (29, 29, [ShLin 0%nat 1 0; ShLin 1%nat 1 1; ShLin 2%nat 1 0], [ShLin 0%nat 1 0; ShLin 1%nat 1 (-1); ShLin 2%nat 1 0], Some (cN 1));
  (30, 30, [ShLin 0%nat 1 0; ShLin 1%nat 1 1; ShLin 2%nat 1 (-1)], [ShLin 0%nat 1 0; ShLin 1%nat 1 (-1); ShLin 2%nat 1 (-1)], Some (cN 1));
  (31, 31, [ShLin 0%nat 1 0; ShLin 1%nat 1 1; ShLin 2%nat 1 (-1)], [ShLin 0%nat 1 0; ShLin 1%nat 1 (-1); ShLin 2%nat 1 (-1)], Some (cN 1));
  (32, 32, [ShLin 0%nat 1 0; ShLin 1%nat 1 1; ShLin 2%nat 1 (-2)], [ShLin 0%nat 1 0; ShLin 1%nat 1 (-1); ShLin 2%nat 1 (-2)], Some (cN 1));
  (33, 33, [ShLin 0%nat 1 0; ShLin 1%nat 1 (-1); ShLin 2%nat 1 2], [ShLin 0%nat 1 0; ShLin 1%nat 1 (-3); ShLin 2%nat 1 2], Some (cN 1));
  (34, 34, [ShLin 0%nat 1 0; ShLin 1%nat 1 (-1); ShLin 2%nat 1 1], [ShLin 0%nat 1 0; ShLin 1%nat 1 (-3); ShLin 2%nat 1 1], Some (cN 1));
  (35, 35, [ShLin 0%nat 1 0; ShLin 1%nat 1 (-1); ShLin 2%nat 1 1], [ShLin 0%nat 1 0; ShLin 1%nat 1 (-3); ShLin 2%nat 1 1], Some (cN 1));
  (36, 36, [ShLin 0%nat 1 0; ShLin 1%nat 1 (-1); ShLin 2%nat 1 0], [ShLin 0%nat 1 0; ShLin 1%nat 1 (-3); ShLin 2%nat 1 0], Some (cN 1));
  (37, 37, [ShLin 0%nat 1 0; ShLin 1%nat 1 (-1); ShLin 2%nat 1 0], [ShLin 0%nat 1 0; ShLin 1%nat 1 (-3); ShLin 2%nat 1 0], Some (cN 1));
  (38, 38, [ShLin 0%nat 1 0; ShLin 1%nat 1 (-1); ShLin 2%nat 1 0], [ShLin 0%nat 1 0; ShLin 1%nat 1 (-3); ShLin 2%nat 1 0], Some (cN 1));
  (39, 39, [ShLin 0%nat 1 0; ShLin 1%nat 1 (-1); ShLin 2%nat 1 (-1)], [ShLin 0%nat 1 0; ShLin 1%nat 1 (-3); ShLin 2%nat 1 (-1)], Some (cN 1));
  (40, 40, [ShLin 0%nat 1 0; ShLin 1%nat 1 (-1); ShLin 2%nat 1 (-1)], [ShLin 0%nat 1 0; ShLin 1%nat 1 (-3); ShLin 2%nat 1 (-1)], Some (cN 1));
  (41, 41, [ShLin 0%nat 1 0; ShLin 1%nat 1 (-1); ShLin 2%nat 1 (-2)], [ShLin 0%nat 1 0; ShLin 1%nat 1 (-3); ShLin 2%nat 1 (-2)], Some (cN 1));
  (42, 42, [ShLin 0%nat 1 0; ShLin 1%nat 1 (-3); ShLin 2%nat 1 0], [ShLin 0%nat 1 0; ShLin 1%nat 1 (-5); ShLin 2%nat 1 0], Some (cN 1));
  (43, 43, [ShLin 0%nat 1 (-1); ShLin 1%nat 1 2; ShLin 2%nat 1 1], [ShLin 0%nat 1 (-1); ShLin 1%nat 1 0; ShLin 2%nat 1 1], Some (cN 1));
  (44, 44, [ShLin 0%nat 1 (-1); ShLin 1%nat 1 2; ShLin 2%nat 1 0], [ShLin 0%nat 1 (-1); ShLin 1%nat 1 0; ShLin 2%nat 1 0], Some (cN 1));
  (45, 45, [ShLin 0%nat 1 (-1); ShLin 1%nat 1 2; ShLin 2%nat 1 (-1)], [ShLin 0%nat 1 (-1); ShLin 1%nat 1 0; ShLin 2%nat 1 (-1)], Some (cN 1));
  (46, 46, [ShLin 0%nat 1 (-1); ShLin 1%nat 1 0; ShLin 2%nat 1 2], [ShLin 0%nat 1 (-1); ShLin 1%nat 1 (-2); ShLin 2%nat 1 2], Some (cN 1));
  (47, 47, [ShLin 0%nat 1 (-1); ShLin 1%nat 1 0; ShLin 2%nat 1 1], [ShLin 0%nat 1 (-1); ShLin 1%nat 1 (-2); ShLin 2%nat 1 1], Some (cN 1));
  (48, 48, [ShLin 0%nat 1 (-1); ShLin 1%nat 1 0; ShLin 2%nat 1 1], [ShLin 0%nat 1 (-1); ShLin 1%nat 1 (-2); ShLin 2%nat 1 1], Some (cN 1));
  (49, 49, [ShLin 0%nat 1 (-1); ShLin 1%nat 1 0; ShLin 2%nat 1 0], [ShLin 0%nat 1 (-1); ShLin 1%nat 1 (-2); ShLin 2%nat 1 0], Some (cN 1));
  (50, 50, [ShLin 0%nat 1 (-1); ShLin 1%nat 1 0; ShLin 2%nat 1 0], [ShLin 0%nat 1 (-1); ShLin 1%nat 1 (-2); ShLin 2%nat 1 0], Some (cN 1));
  (51, 51, [ShLin 0%nat 1 (-1); ShLin 1%nat 1 0; ShLin 2%nat 1 0], [ShLin 0%nat 1 (-1); ShLin 1%nat 1 (-2); ShLin 2%nat 1 0], Some (cN 1));
  (52, 52, [ShLin 0%nat 1 (-1); ShLin 1%nat 1 0; ShLin 2%nat 1 (-1)], [ShLin 0%nat 1 (-1); ShLin 1%nat 1 (-2); ShLin 2%nat 1 (-1)], Some (cN 1));
  (53, 53, [ShLin 0%nat 1 (-1); ShLin 1%nat 1 0; ShLin 2%nat 1 (-1)], [ShLin 0%nat 1 (-1); ShLin 1%nat 1 (-2); ShLin 2%nat 1 (-1)], Some (cN 1));
  (54, 54, [ShLin 0%nat 1 (-1); ShLin 1%nat 1 0; ShLin 2%nat 1 (-2)], [ShLin 0%nat 1 (-1); ShLin 1%nat 1 (-2); ShLin 2%nat 1 (-2)], Some (cN 1));
  (55, 55, [ShLin 0%nat 1 (-1); ShLin 1%nat 1 (-2); ShLin 2%nat 1 1], [ShLin 0%nat 1 (-1); ShLin 1%nat 1 (-4); ShLin 2%nat 1 1], Some (cN 1));
  (56, 56, [ShLin 0%nat 1 (-1); ShLin 1%nat 1 (-2); ShLin 2%nat 1 0], [ShLin 0%nat 1 (-1); ShLin 1%nat 1 (-4); ShLin 2%nat 1 0], Some (cN 1));
  (57, 57, [ShLin 0%nat 1 (-1); ShLin 1%nat 1 (-2); ShLin 2%nat 1 (-1)], [ShLin 0%nat 1 (-1); ShLin 1%nat 1 (-4); ShLin 2%nat 1 (-1)], Some (cN 1));
  (58, 58, [ShLin 0%nat 1 (-2); ShLin 1%nat 1 1; ShLin 2%nat 1 1], [ShLin 0%nat 1 (-2); ShLin 1%nat 1 (-1); ShLin 2%nat 1 1], Some (cN 1));
  (59, 59, [ShLin 0%nat 1 (-2); ShLin 1%nat 1 1; ShLin 2%nat 1 0], [ShLin 0%nat 1 (-2); ShLin 1%nat 1 (-1); ShLin 2%nat 1 0], Some (cN 1));
  (60, 60, [ShLin 0%nat 1 (-2); ShLin 1%nat 1 1; ShLin 2%nat 1 (-1)], [ShLin 0%nat 1 (-2); ShLin 1%nat 1 (-1); ShLin 2%nat 1 (-1)], Some (cN 1));
  (61, 61, [ShLin 0%nat 1 (-2); ShLin 1%nat 1 (-1); ShLin 2%nat 1 1], [ShLin 0%nat 1 (-2); ShLin 1%nat 1 (-3); ShLin 2%nat 1 1], Some (cN 1));
  (62, 62, [ShLin 0%nat 1 (-2); ShLin 1%nat 1 (-1); ShLin 2%nat 1 0], [ShLin 0%nat 1 (-2); ShLin 1%nat 1 (-3); ShLin 2%nat 1 0], Some (cN 1));
  (63, 63, [ShLin 0%nat 1 (-2); ShLin 1%nat 1 (-1); ShLin 2%nat 1 (-1)], [ShLin 0%nat 1 (-2); ShLin 1%nat 1 (-3); ShLin 2%nat 1 (-1)], Some (cN 1));
  (64, 64, [ShLin 0%nat 1 (-3); ShLin 1%nat 1 0; ShLin 2%nat 1 0], [ShLin 0%nat 1 (-3); ShLin 1%nat 1 (-2); ShLin 2%nat 1 0], Some (cN 1))].
(** /repo/c++/symmetry/sym-QSZTZ-impl.hpp, make_matrix  *)
Definition qsztz_m0_o : list off_line := [
  (1, 2, 0, 0, "xi", Some (cN 1));
  (1, 3, 0, 0, "xi", Some (cN 1));
  (1, 4, 0, 0, "xi", Some (cN 1));
  (1, 5, 0, 0, "xi", Some (cN 1));
  (1, 6, 0, 0, "xi", Some (cN 1));
  (1, 7, 0, 0, "xi", Some (cN 1));
  (2, 8, 0, 0, "xi", Some (cN (-1)));
  (2, 9, 0, 0, "xi", Some (cN (-1)));
  (2, 11, 0, 0, "xi", Some (cN (-1)));
  (2, 12, 0, 0, "xi", Some QSZTZ_e1);
  (2, 13, 0, 0, "xi", Some QSZTZ_e1);
  (2, 14, 0, 0, "xi", Some QSZTZ_e5);
  (2, 15, 0, 0, "xi", Some QSZTZ_e0);
  (2, 16, 0, 0, "xi", Some QSZTZ_e1);
  (3, 8, 0, 0, "xi", Some (cN 1));
  (3, 10, 0, 0, "xi", Some (cN (-1)));
  (3, 12, 0, 0, "xi", Some QSZTZ_e1);
  (3, 13, 0, 0, "xi", Some (cD (cN 1) (cR (cN 2))));
  (3, 14, 0, 0, "xi", Some (cD (cN 1) (cR (cN 3))));
  (3, 15, 0, 0, "xi", Some (cO (cR (cQ 2 3))));
  (3, 17, 0, 0, "xi", Some QSZTZ_e1);
  (3, 18, 0, 0, "xi", Some QSZTZ_e1);
  (4, 9, 0, 0, "xi", Some (cN 1));
  (4, 10, 0, 0, "xi", Some (cN 1));
  (4, 14, 0, 0, "xi", Some QSZTZ_e5);
  (4, 15, 0, 0, "xi", Some QSZTZ_e0);
  (4, 16, 0, 0, "xi", Some (cD (cN 1) (cR (cN 2))));
  (4, 17, 0, 0, "xi", Some QSZTZ_e1);
  (4, 18, 0, 0, "xi", Some (cD (cN 1) (cR (cN 2))));
  (4, 19, 0, 0, "xi", Some (cN (-1)));
  (5, 11, 0, 0, "xi", Some (cN 1));
  (5, 12, 0, 0, "xi", Some (cD (cN 1) (cR (cN 2))));
  (5, 13, 0, 0, "xi", Some QSZTZ_e1);
  (5, 14, 0, 0, "xi", Some (cD (cN 1) (cR (cN 3))));
  (5, 15, 0, 0, "xi", Some (cD (cN 1) (cR (cN 6))));
  (5, 16, 0, 0, "xi", Some QSZTZ_e1);
  (5, 20, 0, 0, "xi", Some (cN (-1)));
  (5, 21, 0, 0, "xi", Some (cN (-1)));
  (6, 12, 0, 0, "xi", Some (cD (cN 1) (cR (cN 2))));
  (6, 13, 0, 0, "xi", Some (cD (cN 1) (cR (cN 2))));
  (6, 14, 0, 0, "xi", Some QSZTZ_e5);
  (6, 15, 0, 0, "xi", Some (cR (cQ 2 3)));
  (6, 17, 0, 0, "xi", Some (cD (cN 1) (cR (cN 2))));
  (6, 18, 0, 0, "xi", Some QSZTZ_e1);
  (6, 20, 0, 0, "xi", Some (cN 1));
  (6, 22, 0, 0, "xi", Some (cN (-1)));
  (7, 14, 0, 0, "xi", Some (cD (cN 1) (cR (cN 3))));
  (7, 15, 0, 0, "xi", Some (cD (cN 1) (cR (cN 6))));
  (7, 16, 0, 0, "xi", Some (cD (cN 1) (cR (cN 2))));
  (7, 17, 0, 0, "xi", Some (cD (cN 1) (cR (cN 2))));
  (7, 18, 0, 0, "xi", Some (cD (cN 1) (cR (cN 2))));
  (7, 19, 0, 0, "xi", Some (cN 1));
  (7, 21, 0, 0, "xi", Some (cN 1));
  (7, 22, 0, 0, "xi", Some (cN 1));
  (8, 23, 0, 0, "xi", Some (cN 1));
  (8, 24, 0, 0, "xi", Some (cN (-1)));
  (8, 25, 0, 0, "xi", Some (cD (cN 1) (cR (cN 2))));
  (8, 26, 0, 0, "xi", Some QSZTZ_e1);
  (8, 27, 0, 0, "xi", Some (cD (cN 1) (cR (cN 2))));
  (8, 28, 0, 0, "xi", Some QSZTZ_e0);
  (8, 29, 0, 0, "xi", Some (cD (cN 1) (cR (cN 3))));
  (9, 23, 0, 0, "xi", Some (cN (-1)));
  (9, 25, 0, 0, "xi", Some QSZTZ_e1);
  (9, 26, 0, 0, "xi", Some QSZTZ_e1);
  (9, 28, 0, 0, "xi", Some (cO (cR (cQ 2 3))));
  (9, 29, 0, 0, "xi", Some QSZTZ_e5);
  (9, 30, 0, 0, "xi", Some (cD (cN 1) (cR (cN 2))));
  (9, 31, 0, 0, "xi", Some QSZTZ_e1);
  (10, 23, 0, 0, "xi", Some (cN 1));
  (10, 27, 0, 0, "xi", Some QSZTZ_e1);
  (10, 28, 0, 0, "xi", Some QSZTZ_e0);
  (10, 29, 0, 0, "xi", Some (cD (cN 1) (cR (cN 3))));
  (10, 30, 0, 0, "xi", Some QSZTZ_e1);
  (10, 31, 0, 0, "xi", Some QSZTZ_e1);
  (10, 32, 0, 0, "xi", Some (cN (-1)));
  (11, 24, 0, 0, "xi", Some (cN 1));
  (11, 25, 0, 0, "xi", Some (cD (cN 1) (cR (cN 2))));
  (11, 26, 0, 0, "xi", Some (cD (cN 1) (cR (cN 2))));
  (11, 33, 0, 0, "xi", Some (cN 1));
  (11, 34, 0, 0, "xi", Some (cD (cN 1) (cR (cN 2))));
  (11, 35, 0, 0, "xi", Some (cD (cN 1) (cR (cN 2))));
  (12, 24, 0, 0, "xi", Some QSZTZ_e1);
  (12, 25, 0, 0, "xi", Some (cQ (-1) 2));
  (12, 26, 0, 0, "xi", Some (cQ 1 2));
  (12, 27, 0, 0, "xi", Some (cQ 1 2));
  (12, 28, 0, 0, "xi", Some (cD (cR (cN 3)) (cN 2)));
  (12, 33, 0, 0, "xi", Some QSZTZ_e1);
  (12, 34, 0, 0, "xi", Some (cQ (-1) 2));
  (12, 35, 0, 0, "xi", Some (cQ 1 2));
  (12, 36, 0, 0, "xi", Some (cQ 1 2));
  (12, 37, 0, 0, "xi", Some (cD (cR (cN 3)) (cN 2)));
  (13, 24, 0, 0, "xi", Some (cD (cN 1) (cR (cN 2))));
  (13, 25, 0, 0, "xi", Some (cQ (-1) 2));
  (13, 26, 0, 0, "xi", Some (cQ 1 2));
  (13, 27, 0, 0, "xi", Some (cQ (-1) 2));
  (13, 28, 0, 0, "xi", Some QSZTZ_e3);
  (13, 29, 0, 0, "xi", Some (cR (cQ 2 3)));
  (13, 33, 0, 0, "xi", Some QSZTZ_e1);
  (13, 34, 0, 0, "xi", Some (cQ 1 2));
  (13, 35, 0, 0, "xi", Some (cQ (-1) 2));
  (13, 36, 0, 0, "xi", Some (cQ 1 2));
  (13, 37, 0, 0, "xi", Some QSZTZ_e2);
  (13, 38, 0, 0, "xi", Some (cR (cQ 2 3)));
  (14, 25, 0, 0, "xi", Some (cO (cR (cQ 2 3))));
  (14, 27, 0, 0, "xi", Some (cO (cR (cQ 2 3))));
  (14, 30, 0, 0, "xi", Some (cO (cR (cQ 2 3))));
  (14, 34, 0, 0, "xi", Some (cO (cR (cQ 2 3))));
  (14, 36, 0, 0, "xi", Some (cO (cR (cQ 2 3))));
  (14, 39, 0, 0, "xi", Some (cO (cR (cQ 2 3))));
  (15, 25, 0, 0, "xi", Some QSZTZ_e3);
  (15, 26, 0, 0, "xi", Some QSZTZ_e4);
  (15, 27, 0, 0, "xi", Some QSZTZ_e5);
  (15, 30, 0, 0, "xi", Some QSZTZ_e3);
  (15, 31, 0, 0, "xi", Some (cD (cR (cN 3)) (cN 2)));
  (15, 34, 0, 0, "xi", Some QSZTZ_e3);
  (15, 35, 0, 0, "xi", Some QSZTZ_e4);
  (15, 36, 0, 0, "xi", Some QSZTZ_e5);
  (15, 39, 0, 0, "xi", Some QSZTZ_e3);
  (15, 40, 0, 0, "xi", Some (cD (cR (cN 3)) (cN 2)));
  (16, 25, 0, 0, "xi", Some (cQ 1 2));
  (16, 26, 0, 0, "xi", Some (cQ 1 2));
  (16, 28, 0, 0, "xi", Some (cD (cN 1) (cR (cN 3))));
  (16, 29, 0, 0, "xi", Some (cO (cR (cQ 2 3))));
  (16, 30, 0, 0, "xi", Some (cQ (-1) 2));
  (16, 31, 0, 0, "xi", Some (cQ 1 2));
  (16, 34, 0, 0, "xi", Some (cQ (-1) 2));
  (16, 35, 0, 0, "xi", Some (cQ (-1) 2));
  (16, 37, 0, 0, "xi", Some QSZTZ_e5);
  (16, 38, 0, 0, "xi", Some (cO (cR (cQ 2 3))));
  (16, 39, 0, 0, "xi", Some (cQ 1 2));
  (16, 40, 0, 0, "xi", Some (cQ (-1) 2));
  (17, 27, 0, 0, "xi", Some (cQ 1 2));
  (17, 28, 0, 0, "xi", Some QSZTZ_e4);
  (17, 30, 0, 0, "xi", Some (cQ (-1) 2));
  (17, 31, 0, 0, "xi", Some (cQ (-1) 2));
  (17, 32, 0, 0, "xi", Some (cD (cN 1) (cR (cN 2))));
  (17, 36, 0, 0, "xi", Some (cQ 1 2));
  (17, 37, 0, 0, "xi", Some QSZTZ_e4);
  (17, 39, 0, 0, "xi", Some (cQ (-1) 2));
  (17, 40, 0, 0, "xi", Some (cQ (-1) 2));
  (17, 41, 0, 0, "xi", Some (cD (cN 1) (cR (cN 2))));
  (18, 27, 0, 0, "xi", Some (cQ 1 2));
  (18, 28, 0, 0, "xi", Some QSZTZ_e3);
  (18, 29, 0, 0, "xi", Some (cR (cQ 2 3)));
  (18, 30, 0, 0, "xi", Some (cQ 1 2));
  (18, 31, 0, 0, "xi", Some (cQ 1 2));
  (18, 32, 0, 0, "xi", Some (cD (cN 1) (cR (cN 2))));
  (18, 36, 0, 0, "xi", Some (cQ (-1) 2));
  (18, 37, 0, 0, "xi", Some QSZTZ_e2);
  (18, 38, 0, 0, "xi", Some (cR (cQ 2 3)));
  (18, 39, 0, 0, "xi", Some (cQ (-1) 2));
  (18, 40, 0, 0, "xi", Some (cQ (-1) 2));
  (18, 41, 0, 0, "xi", Some QSZTZ_e1);
  (19, 30, 0, 0, "xi", Some (cD (cN 1) (cR (cN 2))));
  (19, 31, 0, 0, "xi", Some QSZTZ_e1);
  (19, 32, 0, 0, "xi", Some (cN (-1)));
  (19, 39, 0, 0, "xi", Some (cD (cN 1) (cR (cN 2))));
  (19, 40, 0, 0, "xi", Some QSZTZ_e1);
  (19, 41, 0, 0, "xi", Some (cN (-1)));
  (20, 33, 0, 0, "xi", Some (cN 1));
  (20, 34, 0, 0, "xi", Some QSZTZ_e1);
  (20, 35, 0, 0, "xi", Some (cD (cN 1) (cR (cN 2))));
  (20, 36, 0, 0, "xi", Some QSZTZ_e1);
  (20, 37, 0, 0, "xi", Some (cD (cN 1) (cR (cN 6))));
  (20, 38, 0, 0, "xi", Some (cD (cN 1) (cR (cN 3))));
  (20, 42, 0, 0, "xi", Some (cN 1));
  (21, 34, 0, 0, "xi", Some (cD (cN 1) (cR (cN 2))));
  (21, 35, 0, 0, "xi", Some (cD (cN 1) (cR (cN 2))));
  (21, 37, 0, 0, "xi", Some (cR (cQ 2 3)));
  (21, 38, 0, 0, "xi", Some QSZTZ_e5);
  (21, 39, 0, 0, "xi", Some QSZTZ_e1);
  (21, 40, 0, 0, "xi", Some (cD (cN 1) (cR (cN 2))));
  (21, 42, 0, 0, "xi", Some (cN (-1)));
  (22, 36, 0, 0, "xi", Some (cD (cN 1) (cR (cN 2))));
  (22, 37, 0, 0, "xi", Some (cD (cN 1) (cR (cN 6))));
  (22, 38, 0, 0, "xi", Some (cD (cN 1) (cR (cN 3))));
  (22, 39, 0, 0, "xi", Some (cD (cN 1) (cR (cN 2))));
  (22, 40, 0, 0, "xi", Some (cD (cN 1) (cR (cN 2))));
  (22, 41, 0, 0, "xi", Some (cN 1));
  (22, 42, 0, 0, "xi", Some (cN 1));
  (23, 43, 0, 0, "xi", Some (cN 1));
  (23, 44, 0, 0, "xi", Some (cN 1));
  (23, 45, 0, 0, "xi", Some (cN 1));
  (24, 43, 0, 0, "xi", Some (cN 1));
  (24, 46, 0, 0, "xi", Some (cN 1));
  (24, 47, 0, 0, "xi", Some (cD (cN 1) (cR (cN 2))));
  (24, 48, 0, 0, "xi", Some (cD (cN 1) (cR (cN 2))));
  (25, 43, 0, 0, "xi", Some QSZTZ_e1);
  (25, 44, 0, 0, "xi", Some QSZTZ_e1);
  (25, 46, 0, 0, "xi", Some (cD (cN 1) (cR (cN 2))));
  (25, 47, 0, 0, "xi", Some (cQ 1 2));
  (25, 48, 0, 0, "xi", Some (cQ (-1) 2));
  (25, 49, 0, 0, "xi", Some (cR (cQ 2 3)));
  (25, 50, 0, 0, "xi", Some QSZTZ_e3);
  (25, 51, 0, 0, "xi", Some (cQ (-1) 2));
  (26, 43, 0, 0, "xi", Some QSZTZ_e1);
  (26, 44, 0, 0, "xi", Some (cD (cN 1) (cR (cN 2))));
  (26, 46, 0, 0, "xi", Some QSZTZ_e1);
  (26, 47, 0, 0, "xi", Some (cQ 1 2));
  (26, 48, 0, 0, "xi", Some (cQ (-1) 2));
  (26, 50, 0, 0, "xi", Some (cD (cR (cN 3)) (cN 2)));
  (26, 51, 0, 0, "xi", Some (cQ 1 2));
  (27, 43, 0, 0, "xi", Some (cD (cN 1) (cR (cN 2))));
  (27, 45, 0, 0, "xi", Some QSZTZ_e1);
  (27, 47, 0, 0, "xi", Some (cQ 1 2));
  (27, 48, 0, 0, "xi", Some (cQ 1 2));
  (27, 49, 0, 0, "xi", Some (cO (cR (cQ 2 3))));
  (27, 50, 0, 0, "xi", Some (cD (cN 1) (cR (cN 3))));
  (27, 52, 0, 0, "xi", Some (cQ 1 2));
  (27, 53, 0, 0, "xi", Some (cQ (-1) 2));
  (28, 43, 0, 0, "xi", Some (cD (cN 1) (cR (cN 6))));
  (28, 44, 0, 0, "xi", Some (cO (cR (cQ 2 3))));
  (28, 45, 0, 0, "xi", Some (cD (cN 1) (cR (cN 6))));
  (28, 47, 0, 0, "xi", Some QSZTZ_e4);
  (28, 48, 0, 0, "xi", Some QSZTZ_e3);
  (28, 51, 0, 0, "xi", Some QSZTZ_e5);
  (28, 52, 0, 0, "xi", Some (cD (cR (cN 3)) (cN 2)));
  (28, 53, 0, 0, "xi", Some QSZTZ_e3);
  (29, 43, 0, 0, "xi", Some QSZTZ_e5);
  (29, 44, 0, 0, "xi", Some QSZTZ_e5);
  (29, 45, 0, 0, "xi", Some QSZTZ_e5);
  (29, 48, 0, 0, "xi", Some (cR (cQ 2 3)));
  (29, 51, 0, 0, "xi", Some (cR (cQ 2 3)));
  (29, 53, 0, 0, "xi", Some (cR (cQ 2 3)));
  (30, 44, 0, 0, "xi", Some (cD (cN 1) (cR (cN 2))));
  (30, 45, 0, 0, "xi", Some (cD (cN 1) (cR (cN 2))));
  (30, 49, 0, 0, "xi", Some (cR (cQ 2 3)));
  (30, 50, 0, 0, "xi", Some QSZTZ_e3);
  (30, 51, 0, 0, "xi", Some (cQ 1 2));
  (30, 52, 0, 0, "xi", Some (cQ 1 2));
  (30, 53, 0, 0, "xi", Some (cQ 1 2));
  (30, 54, 0, 0, "xi", Some (cD (cN 1) (cR (cN 2))));
  (31, 44, 0, 0, "xi", Some (cD (cN 1) (cR (cN 2))));
  (31, 45, 0, 0, "xi", Some QSZTZ_e1);
  (31, 50, 0, 0, "xi", Some QSZTZ_e4);
  (31, 51, 0, 0, "xi", Some (cQ 1 2));
  (31, 52, 0, 0, "xi", Some (cQ (-1) 2));
  (31, 53, 0, 0, "xi", Some (cQ (-1) 2));
  (31, 54, 0, 0, "xi", Some (cD (cN 1) (cR (cN 2))));
  (32, 45, 0, 0, "xi", Some (cN 1));
  (32, 52, 0, 0, "xi", Some QSZTZ_e1);
  (32, 53, 0, 0, "xi", Some (cD (cN 1) (cR (cN 2))));
  (32, 54, 0, 0, "xi", Some (cN (-1)));
  (33, 46, 0, 0, "xi", Some (cN (-1)));
  (33, 47, 0, 0, "xi", Some QSZTZ_e1);
  (33, 48, 0, 0, "xi", Some (cD (cN 1) (cR (cN 2))));
  (33, 55, 0, 0, "xi", Some (cN 1));
  (34, 46, 0, 0, "xi", Some QSZTZ_e1);
  (34, 47, 0, 0, "xi", Some (cQ (-1) 2));
  (34, 48, 0, 0, "xi", Some (cQ (-1) 2));
  (34, 49, 0, 0, "xi", Some (cO (cR (cQ 2 3))));
  (34, 50, 0, 0, "xi", Some QSZTZ_e2);
  (34, 51, 0, 0, "xi", Some (cQ (-1) 2));
  (34, 55, 0, 0, "xi", Some QSZTZ_e1);
  (34, 56, 0, 0, "xi", Some QSZTZ_e1);
  (35, 46, 0, 0, "xi", Some (cD (cN 1) (cR (cN 2))));
  (35, 47, 0, 0, "xi", Some (cQ (-1) 2));
  (35, 48, 0, 0, "xi", Some (cQ (-1) 2));
  (35, 50, 0, 0, "xi", Some QSZTZ_e4);
  (35, 51, 0, 0, "xi", Some (cQ 1 2));
  (35, 55, 0, 0, "xi", Some QSZTZ_e1);
  (35, 56, 0, 0, "xi", Some (cD (cN 1) (cR (cN 2))));
  (36, 47, 0, 0, "xi", Some (cQ (-1) 2));
  (36, 48, 0, 0, "xi", Some (cQ 1 2));
  (36, 49, 0, 0, "xi", Some (cR (cQ 2 3)));
  (36, 50, 0, 0, "xi", Some QSZTZ_e5);
  (36, 52, 0, 0, "xi", Some (cQ (-1) 2));
  (36, 53, 0, 0, "xi", Some (cQ (-1) 2));
  (36, 55, 0, 0, "xi", Some (cD (cN 1) (cR (cN 2))));
  (36, 57, 0, 0, "xi", Some QSZTZ_e1);
  (37, 47, 0, 0, "xi", Some (cD (cR (cN 3)) (cN 2)));
  (37, 48, 0, 0, "xi", Some QSZTZ_e3);
  (37, 51, 0, 0, "xi", Some QSZTZ_e5);
  (37, 52, 0, 0, "xi", Some QSZTZ_e4);
  (37, 53, 0, 0, "xi", Some QSZTZ_e3);
  (37, 55, 0, 0, "xi", Some (cD (cN 1) (cR (cN 6))));
  (37, 56, 0, 0, "xi", Some (cO (cR (cQ 2 3))));
  (37, 57, 0, 0, "xi", Some (cD (cN 1) (cR (cN 6))));
  (38, 48, 0, 0, "xi", Some (cO (cR (cQ 2 3))));
  (38, 51, 0, 0, "xi", Some (cO (cR (cQ 2 3))));
  (38, 53, 0, 0, "xi", Some (cO (cR (cQ 2 3))));
  (38, 55, 0, 0, "xi", Some (cD (cN 1) (cR (cN 3))));
  (38, 56, 0, 0, "xi", Some (cD (cN 1) (cR (cN 3))));
  (38, 57, 0, 0, "xi", Some (cD (cN 1) (cR (cN 3))));
  (39, 49, 0, 0, "xi", Some (cO (cR (cQ 2 3))));
  (39, 50, 0, 0, "xi", Some QSZTZ_e2);
  (39, 51, 0, 0, "xi", Some (cQ 1 2));
  (39, 52, 0, 0, "xi", Some (cQ (-1) 2));
  (39, 53, 0, 0, "xi", Some (cQ 1 2));
  (39, 54, 0, 0, "xi", Some QSZTZ_e1);
  (39, 56, 0, 0, "xi", Some (cD (cN 1) (cR (cN 2))));
  (39, 57, 0, 0, "xi", Some (cD (cN 1) (cR (cN 2))));
  (40, 50, 0, 0, "xi", Some (cD (cR (cN 3)) (cN 2)));
  (40, 51, 0, 0, "xi", Some (cQ 1 2));
  (40, 52, 0, 0, "xi", Some (cQ 1 2));
  (40, 53, 0, 0, "xi", Some (cQ (-1) 2));
  (40, 54, 0, 0, "xi", Some QSZTZ_e1);
  (40, 56, 0, 0, "xi", Some (cD (cN 1) (cR (cN 2))));
  (40, 57, 0, 0, "xi", Some QSZTZ_e1);
  (41, 52, 0, 0, "xi", Some (cD (cN 1) (cR (cN 2))));
  (41, 53, 0, 0, "xi", Some (cD (cN 1) (cR (cN 2))));
  (41, 54, 0, 0, "xi", Some (cN 1));
  (41, 57, 0, 0, "xi", Some (cN 1));
  (42, 55, 0, 0, "xi", Some (cN (-1)));
  (42, 56, 0, 0, "xi", Some (cN (-1)));
  (42, 57, 0, 0, "xi", Some (cN (-1)));
  (43, 58, 0, 0, "xi", Some (cN (-1)));
  (43, 59, 0, 0, "xi", Some (cN (-1)));
  (44, 58, 0, 0, "xi", Some (cN 1));
  (44, 60, 0, 0, "xi", Some (cN (-1)));
  (45, 59, 0, 0, "xi", Some (cN 1));
  (45, 60, 0, 0, "xi", Some (cN 1));
  (46, 58, 0, 0, "xi", Some (cN 1));
  (46, 61, 0, 0, "xi", Some (cN 1));
  (47, 58, 0, 0, "xi", Some QSZTZ_e1);
  (47, 59, 0, 0, "xi", Some (cD (cN 1) (cR (cN 2))));
  (47, 61, 0, 0, "xi", Some QSZTZ_e1);
  (47, 62, 0, 0, "xi", Some (cD (cN 1) (cR (cN 2))));
  (48, 58, 0, 0, "xi", Some (cD (cN 1) (cR (cN 2))));
  (48, 59, 0, 0, "xi", Some (cD (cN 1) (cR (cN 2))));
  (48, 61, 0, 0, "xi", Some QSZTZ_e1);
  (48, 62, 0, 0, "xi", Some QSZTZ_e1);
  (49, 58, 0, 0, "xi", Some QSZTZ_e5);
  (49, 59, 0, 0, "xi", Some QSZTZ_e5);
  (49, 60, 0, 0, "xi", Some QSZTZ_e5);
  (49, 61, 0, 0, "xi", Some QSZTZ_e5);
  (49, 62, 0, 0, "xi", Some QSZTZ_e5);
  (49, 63, 0, 0, "xi", Some QSZTZ_e5);
  (50, 58, 0, 0, "xi", Some (cD (cN 1) (cR (cN 6))));
  (50, 59, 0, 0, "xi", Some (cO (cR (cQ 2 3))));
  (50, 60, 0, 0, "xi", Some (cD (cN 1) (cR (cN 6))));
  (50, 61, 0, 0, "xi", Some (cD (cN 1) (cR (cN 6))));
  (50, 62, 0, 0, "xi", Some (cO (cR (cQ 2 3))));
  (50, 63, 0, 0, "xi", Some (cD (cN 1) (cR (cN 6))));
  (51, 58, 0, 0, "xi", Some QSZTZ_e1);
  (51, 60, 0, 0, "xi", Some (cD (cN 1) (cR (cN 2))));
  (51, 61, 0, 0, "xi", Some (cD (cN 1) (cR (cN 2))));
  (51, 63, 0, 0, "xi", Some QSZTZ_e1);
  (52, 59, 0, 0, "xi", Some (cD (cN 1) (cR (cN 2))));
  (52, 60, 0, 0, "xi", Some QSZTZ_e1);
  (52, 62, 0, 0, "xi", Some (cD (cN 1) (cR (cN 2))));
  (52, 63, 0, 0, "xi", Some QSZTZ_e1);
  (53, 59, 0, 0, "xi", Some QSZTZ_e1);
  (53, 60, 0, 0, "xi", Some QSZTZ_e1);
  (53, 62, 0, 0, "xi", Some (cD (cN 1) (cR (cN 2))));
  (53, 63, 0, 0, "xi", Some (cD (cN 1) (cR (cN 2))));
  (54, 60, 0, 0, "xi", Some (cN 1));
  (54, 63, 0, 0, "xi", Some (cN 1));
  (55, 61, 0, 0, "xi", Some (cN 1));
  (55, 62, 0, 0, "xi", Some (cN 1));
  (56, 61, 0, 0, "xi", Some (cN (-1)));
  (56, 63, 0, 0, "xi", Some (cN 1));
  (57, 62, 0, 0, "xi", Some (cN (-1)));
  (57, 63, 0, 0, "xi", Some (cN (-1)));
  (58, 64, 0, 0, "xi", Some (cN 1));
  (59, 64, 0, 0, "xi", Some (cN (-1)));
  (60, 64, 0, 0, "xi", Some (cN 1));
  (61, 64, 0, 0, "xi", Some (cN (-1)));
  (62, 64, 0, 0, "xi", Some (cN 1));
  (63, 64, 0, 0, "xi", Some (cN (-1)))].
(** /repo/c++/symmetry/sym-QSZTZ-impl.hpp, make_matrix  *)
Definition qsztz_m0_d : list diag_line := [
  (1, 0, "zeta", Some (cN 0));
  (2, 0, "zeta", Some (cN 1));
  (3, 0, "zeta", Some (cN 1));
  (4, 0, "zeta", Some (cN 1));
  (5, 0, "zeta", Some (cN 1));
  (6, 0, "zeta", Some (cN 1));
  (7, 0, "zeta", Some (cN 1));
  (8, 0, "zeta", Some (cN 2));
  (9, 0, "zeta", Some (cN 2));
  (10, 0, "zeta", Some (cN 2));
  (11, 0, "zeta", Some (cN 2));
  (12, 0, "zeta", Some (cN 2));
  (13, 0, "zeta", Some (cN 2));
  (14, 0, "zeta", Some (cN 2));
  (15, 0, "zeta", Some (cN 2));
  (16, 0, "zeta", Some (cN 2));
  (17, 0, "zeta", Some (cN 2));
  (18, 0, "zeta", Some (cN 2));
  (19, 0, "zeta", Some (cN 2));
  (20, 0, "zeta", Some (cN 2));
  (21, 0, "zeta", Some (cN 2));
  (22, 0, "zeta", Some (cN 2));
  (23, 0, "zeta", Some (cN 3));
  (24, 0, "zeta", Some (cN 3));
  (25, 0, "zeta", Some (cN 3));
  (26, 0, "zeta", Some (cN 3));
  (27, 0, "zeta", Some (cN 3));
  (28, 0, "zeta", Some (cN 3));
  (29, 0, "zeta", Some (cN 3));
  (30, 0, "zeta", Some (cN 3));
  (31, 0, "zeta", Some (cN 3));
  (32, 0, "zeta", Some (cN 3));
  (33, 0, "zeta", Some (cN 3));
  (34, 0, "zeta", Some (cN 3));
  (35, 0, "zeta", Some (cN 3));
  (36, 0, "zeta", Some (cN 3));
  (37, 0, "zeta", Some (cN 3));
  (38, 0, "zeta", Some (cN 3));
  (39, 0, "zeta", Some (cN 3));
  (40, 0, "zeta", Some (cN 3));
  (41, 0, "zeta", Some (cN 3));
  (42, 0, "zeta", Some (cN 3));
  (43, 0, "zeta", Some (cN 4));
  (44, 0, "zeta", Some (cN 4));
  (45, 0, "zeta", Some (cN 4));
  (46, 0, "zeta", Some (cN 4));
  (47, 0, "zeta", Some (cN 4));
  (48, 0, "zeta", Some (cN 4));
  (49, 0, "zeta", Some (cN 4));
  (50, 0, "zeta", Some (cN 4));
  (51, 0, "zeta", Some (cN 4));
  (52, 0, "zeta", Some (cN 4));
  (53, 0, "zeta", Some (cN 4));
  (54, 0, "zeta", Some (cN 4));
  (55, 0, "zeta", Some (cN 4));
  (56, 0, "zeta", Some (cN 4));
  (57, 0, "zeta", Some (cN 4));
  (58, 0, "zeta", Some (cN 5));
  (59, 0, "zeta", Some (cN 5));
  (60, 0, "zeta", Some (cN 5));
  (61, 0, "zeta", Some (cN 5));
  (62, 0, "zeta", Some (cN 5));
  (63, 0, "zeta", Some (cN 5));
  (64, 0, "zeta", Some (cN 6))].
(** /repo/c++/symmetry/sym-QSZTZ-impl.hpp, make_matrix  *)
Definition qsztz_m0_f : list dof_line := [
  ].
Definition coef_qsztz : coef_set := mk_coef "QSZTZ" 3%nat sym_QSZTZ {| tb_In := qsztz_In; tb_QN := qsztz_QN |}
  [qsztz_t6; qsztz_t7; qsztz_t8; qsztz_t9; qsztz_t10; qsztz_t11]
  [qsztz_t0; qsztz_t1; qsztz_t2; qsztz_t3; qsztz_t4; qsztz_t5; qsztz_t12; qsztz_t13; qsztz_t14]
  [mk_mode "default" qsztz_m0_o qsztz_m0_d qsztz_m0_f].
