(** Generated by gen/gen_coef.py from /repo/c++/symmetry/{sym-QSC3-impl.hpp, nrg-recalc-QSC3.hpp, coefnew}. Do not edit. *)
From Coq Require Import List ZArith String.
From Verif Require Import Base Invar_model Symmetry_model Symmetry_tables Coef_model.
Import ListNotations.
Local Open Scope string_scope.
Local Open Scope list_scope.
Local Open Scope Z_scope.


(** /repo/c++/symmetry/nrg-recalc-QSC3.hpp recalc_irreduc, qsc3/qsc3-spinup0-a.dat *)
Definition qsc3_t0 : irr_table := mk_irr 0 0 [ShLin 0%nat 1 1; ShLin 1%nat 1 1; ShMod3 2%nat 0]  [
  (2, 1, None);
  (8, 3, None);
  (9, 3, None);
  (10, 5, None);
  (11, 5, None);
  (12, 7, None);
  (13, 7, None);
  (17, 4, None);
  (18, 5, None);
  (20, 6, None);
  (21, 7, None);
  (23, 8, None);
  (23, 9, None);
  (23, 15, None);
  (24, 16, None);
  (25, 8, None);
  (25, 9, None);
  (25, 15, None);
  (26, 16, None);
  (27, 10, None);
  (27, 11, None);
  (27, 18, None);
  (28, 19, None);
  (29, 10, None);
  (29, 11, None);
  (29, 18, None);
  (30, 19, None);
  (31, 11, None);
  (31, 18, None);
  (32, 19, None);
  (33, 12, None);
  (33, 13, None);
  (33, 21, None);
  (34, 22, None);
  (35, 12, None);
  (35, 13, None);
  (35, 21, None);
  (36, 22, None);
  (37, 13, None);
  (37, 21, None);
  (38, 22, None);
  (39, 14, None);
  (40, 15, None);
  (41, 16, None);
  (43, 24, None);
  (43, 26, None);
  (44, 24, None);
  (44, 26, None);
  (45, 28, None);
  (45, 30, None);
  (46, 28, None);
  (46, 30, None);
  (46, 32, None);
  (47, 34, None);
  (47, 36, None);
  (48, 34, None);
  (48, 36, None);
  (48, 38, None);
  (49, 23, None);
  (49, 25, None);
  (49, 40, None);
  (50, 24, None);
  (50, 26, None);
  (50, 41, None);
  (51, 42, None);
  (52, 27, None);
  (52, 29, None);
  (52, 31, None);
  (53, 28, None);
  (53, 30, None);
  (53, 32, None);
  (55, 33, None);
  (55, 35, None);
  (55, 37, None);
  (56, 34, None);
  (56, 36, None);
  (56, 38, None);
  (58, 43, None);
  (58, 44, None);
  (60, 45, None);
  (60, 46, None);
  (60, 53, None);
  (61, 54, None);
  (62, 47, None);
  (62, 48, None);
  (62, 56, None);
  (63, 57, None);
  (64, 59, None)].
(** /repo/c++/symmetry/nrg-recalc-QSC3.hpp recalc_irreduc, qsc3/qsc3-spinup0-b.dat *)
Definition qsc3_t1 : irr_table := mk_irr 1 0 [ShLin 0%nat 1 1; ShLin 1%nat 1 1; ShMod3 2%nat 0]  [
  (2, 1, None);
  (8, 3, None);
  (9, 3, None);
  (10, 5, None);
  (11, 5, None);
  (12, 7, None);
  (13, 7, None);
  (17, 4, None);
  (18, 5, None);
  (20, 6, None);
  (21, 7, None);
  (23, 8, None);
  (23, 9, None);
  (23, 15, None);
  (24, 16, None);
  (25, 8, None);
  (25, 9, None);
  (25, 15, None);
  (26, 16, None);
  (27, 10, None);
  (27, 11, None);
  (27, 18, None);
  (28, 19, None);
  (29, 10, None);
  (29, 11, None);
  (29, 18, None);
  (30, 19, None);
  (31, 11, None);
  (31, 18, None);
  (32, 19, None);
  (33, 12, None);
  (33, 13, None);
  (33, 21, None);
  (34, 22, None);
  (35, 12, None);
  (35, 13, None);
  (35, 21, None);
  (36, 22, None);
  (37, 13, None);
  (37, 21, None);
  (38, 22, None);
  (39, 14, None);
  (40, 15, None);
  (41, 16, None);
  (43, 24, None);
  (43, 26, None);
  (44, 24, None);
  (44, 26, None);
  (45, 28, None);
  (45, 30, None);
  (46, 28, None);
  (46, 30, None);
  (46, 32, None);
  (47, 34, None);
  (47, 36, None);
  (48, 34, None);
  (48, 36, None);
  (48, 38, None);
  (49, 23, None);
  (49, 25, None);
  (49, 40, None);
  (50, 24, None);
  (50, 26, None);
  (50, 41, None);
  (51, 42, None);
  (52, 27, None);
  (52, 29, None);
  (52, 31, None);
  (53, 28, None);
  (53, 30, None);
  (53, 32, None);
  (55, 33, None);
  (55, 35, None);
  (55, 37, None);
  (56, 34, None);
  (56, 36, None);
  (56, 38, None);
  (58, 43, None);
  (58, 44, None);
  (60, 45, None);
  (60, 46, None);
  (60, 53, None);
  (61, 54, None);
  (62, 47, None);
  (62, 48, None);
  (62, 56, None);
  (63, 57, None);
  (64, 59, None)].
(** /repo/c++/symmetry/nrg-recalc-QSC3.hpp recalc_irreduc, qsc3/qsc3-spinup0-c.dat *)
Definition qsc3_t2 : irr_table := mk_irr 2 0 [ShLin 0%nat 1 1; ShLin 1%nat 1 1; ShMod3 2%nat 0]  [
  (2, 1, None);
  (8, 3, None);
  (9, 3, None);
  (10, 5, None);
  (11, 5, None);
  (12, 7, None);
  (13, 7, None);
  (17, 4, None);
  (18, 5, None);
  (20, 6, None);
  (21, 7, None);
  (23, 8, None);
  (23, 9, None);
  (23, 15, None);
  (24, 16, None);
  (25, 8, None);
  (25, 9, None);
  (25, 15, None);
  (26, 16, None);
  (27, 10, None);
  (27, 11, None);
  (27, 18, None);
  (28, 19, None);
  (29, 10, None);
  (29, 11, None);
  (29, 18, None);
  (30, 19, None);
  (31, 11, None);
  (31, 18, None);
  (32, 19, None);
  (33, 12, None);
  (33, 13, None);
  (33, 21, None);
  (34, 22, None);
  (35, 12, None);
  (35, 13, None);
  (35, 21, None);
  (36, 22, None);
  (37, 13, None);
  (37, 21, None);
  (38, 22, None);
  (39, 14, None);
  (40, 15, None);
  (41, 16, None);
  (43, 24, None);
  (43, 26, None);
  (44, 24, None);
  (44, 26, None);
  (45, 28, None);
  (45, 30, None);
  (46, 28, None);
  (46, 30, None);
  (46, 32, None);
  (47, 34, None);
  (47, 36, None);
  (48, 34, None);
  (48, 36, None);
  (48, 38, None);
  (49, 23, None);
  (49, 25, None);
  (49, 40, None);
  (50, 24, None);
  (50, 26, None);
  (50, 41, None);
  (51, 42, None);
  (52, 27, None);
  (52, 29, None);
  (52, 31, None);
  (53, 28, None);
  (53, 30, None);
  (53, 32, None);
  (55, 33, None);
  (55, 35, None);
  (55, 37, None);
  (56, 34, None);
  (56, 36, None);
  (56, 38, None);
  (58, 43, None);
  (58, 44, None);
  (60, 45, None);
  (60, 46, None);
  (60, 53, None);
  (61, 54, None);
  (62, 47, None);
  (62, 48, None);
  (62, 56, None);
  (63, 57, None);
  (64, 59, None)].
(** /repo/c++/symmetry/nrg-recalc-QSC3.hpp recalc_irreduc, qsc3/qsc3-spindown0-a.dat *)
Definition qsc3_t3 : irr_table := mk_irr 0 0 [ShLin 0%nat 1 1; ShLin 1%nat 1 (-1); ShMod3 2%nat 0]  [
  (3, 1, None);
  (8, 2, None);
  (9, 2, None);
  (10, 4, None);
  (11, 4, None);
  (12, 6, None);
  (13, 6, None);
  (18, 4, None);
  (19, 5, None);
  (21, 6, None);
  (22, 7, None);
  (23, 14, None);
  (24, 8, None);
  (24, 9, None);
  (24, 15, None);
  (25, 14, None);
  (26, 8, None);
  (26, 9, None);
  (26, 15, None);
  (27, 17, None);
  (28, 10, None);
  (28, 11, None);
  (28, 18, None);
  (29, 17, None);
  (30, 10, None);
  (30, 11, None);
  (30, 18, None);
  (31, 17, None);
  (32, 11, None);
  (32, 18, None);
  (33, 20, None);
  (34, 12, None);
  (34, 13, None);
  (34, 21, None);
  (35, 20, None);
  (36, 12, None);
  (36, 13, None);
  (36, 21, None);
  (37, 20, None);
  (38, 13, None);
  (38, 21, None);
  (40, 14, None);
  (41, 15, None);
  (42, 16, None);
  (43, 23, None);
  (43, 25, None);
  (44, 23, None);
  (44, 25, None);
  (45, 27, None);
  (45, 29, None);
  (46, 27, None);
  (46, 29, None);
  (46, 31, None);
  (47, 33, None);
  (47, 35, None);
  (48, 33, None);
  (48, 35, None);
  (48, 37, None);
  (49, 39, None);
  (50, 23, None);
  (50, 25, None);
  (50, 40, None);
  (51, 24, None);
  (51, 26, None);
  (51, 41, None);
  (53, 27, None);
  (53, 29, None);
  (53, 31, None);
  (54, 28, None);
  (54, 30, None);
  (54, 32, None);
  (56, 33, None);
  (56, 35, None);
  (56, 37, None);
  (57, 34, None);
  (57, 36, None);
  (57, 38, None);
  (59, 43, None);
  (59, 44, None);
  (60, 52, None);
  (61, 45, None);
  (61, 46, None);
  (61, 53, None);
  (62, 55, None);
  (63, 47, None);
  (63, 48, None);
  (63, 56, None);
  (64, 58, None)].
(** /repo/c++/symmetry/nrg-recalc-QSC3.hpp recalc_irreduc, qsc3/qsc3-spindown0-b.dat *)
Definition qsc3_t4 : irr_table := mk_irr 1 0 [ShLin 0%nat 1 1; ShLin 1%nat 1 (-1); ShMod3 2%nat 0]  [
  (3, 1, None);
  (8, 2, None);
  (9, 2, None);
  (10, 4, None);
  (11, 4, None);
  (12, 6, None);
  (13, 6, None);
  (18, 4, None);
  (19, 5, None);
  (21, 6, None);
  (22, 7, None);
  (23, 14, None);
  (24, 8, None);
  (24, 9, None);
  (24, 15, None);
  (25, 14, None);
  (26, 8, None);
  (26, 9, None);
  (26, 15, None);
  (27, 17, None);
  (28, 10, None);
  (28, 11, None);
  (28, 18, None);
  (29, 17, None);
  (30, 10, None);
  (30, 11, None);
  (30, 18, None);
  (31, 17, None);
  (32, 11, None);
  (32, 18, None);
  (33, 20, None);
  (34, 12, None);
  (34, 13, None);
  (34, 21, None);
  (35, 20, None);
  (36, 12, None);
  (36, 13, None);
  (36, 21, None);
  (37, 20, None);
  (38, 13, None);
  (38, 21, None);
  (40, 14, None);
  (41, 15, None);
  (42, 16, None);
  (43, 23, None);
  (43, 25, None);
  (44, 23, None);
  (44, 25, None);
  (45, 27, None);
  (45, 29, None);
  (46, 27, None);
  (46, 29, None);
  (46, 31, None);
  (47, 33, None);
  (47, 35, None);
  (48, 33, None);
  (48, 35, None);
  (48, 37, None);
  (49, 39, None);
  (50, 23, None);
  (50, 25, None);
  (50, 40, None);
  (51, 24, None);
  (51, 26, None);
  (51, 41, None);
  (53, 27, None);
  (53, 29, None);
  (53, 31, None);
  (54, 28, None);
  (54, 30, None);
  (54, 32, None);
  (56, 33, None);
  (56, 35, None);
  (56, 37, None);
  (57, 34, None);
  (57, 36, None);
  (57, 38, None);
  (59, 43, None);
  (59, 44, None);
  (60, 52, None);
  (61, 45, None);
  (61, 46, None);
  (61, 53, None);
  (62, 55, None);
  (63, 47, None);
  (63, 48, None);
  (63, 56, None);
  (64, 58, None)].
(** /repo/c++/symmetry/nrg-recalc-QSC3.hpp recalc_irreduc, qsc3/qsc3-spindown0-c.dat *)
Definition qsc3_t5 : irr_table := mk_irr 2 0 [ShLin 0%nat 1 1; ShLin 1%nat 1 (-1); ShMod3 2%nat 0]  [
  (3, 1, None);
  (8, 2, None);
  (9, 2, None);
  (10, 4, None);
  (11, 4, None);
  (12, 6, None);
  (13, 6, None);
  (18, 4, None);
  (19, 5, None);
  (21, 6, None);
  (22, 7, None);
  (23, 14, None);
  (24, 8, None);
  (24, 9, None);
  (24, 15, None);
  (25, 14, None);
  (26, 8, None);
  (26, 9, None);
  (26, 15, None);
  (27, 17, None);
  (28, 10, None);
  (28, 11, None);
  (28, 18, None);
  (29, 17, None);
  (30, 10, None);
  (30, 11, None);
  (30, 18, None);
  (31, 17, None);
  (32, 11, None);
  (32, 18, None);
  (33, 20, None);
  (34, 12, None);
  (34, 13, None);
  (34, 21, None);
  (35, 20, None);
  (36, 12, None);
  (36, 13, None);
  (36, 21, None);
  (37, 20, None);
  (38, 13, None);
  (38, 21, None);
  (40, 14, None);
  (41, 15, None);
  (42, 16, None);
  (43, 23, None);
  (43, 25, None);
  (44, 23, None);
  (44, 25, None);
  (45, 27, None);
  (45, 29, None);
  (46, 27, None);
  (46, 29, None);
  (46, 31, None);
  (47, 33, None);
  (47, 35, None);
  (48, 33, None);
  (48, 35, None);
  (48, 37, None);
  (49, 39, None);
  (50, 23, None);
  (50, 25, None);
  (50, 40, None);
  (51, 24, None);
  (51, 26, None);
  (51, 41, None);
  (53, 27, None);
  (53, 29, None);
  (53, 31, None);
  (54, 28, None);
  (54, 30, None);
  (54, 32, None);
  (56, 33, None);
  (56, 35, None);
  (56, 37, None);
  (57, 34, None);
  (57, 36, None);
  (57, 38, None);
  (59, 43, None);
  (59, 44, None);
  (60, 52, None);
  (61, 45, None);
  (61, 46, None);
  (61, 53, None);
  (62, 55, None);
  (63, 47, None);
  (63, 48, None);
  (63, 56, None);
  (64, 58, None)].
(** /repo/c++/symmetry/nrg-recalc-QSC3.hpp recalc_irreduc, qsc3/qsc3-spinup1-a.dat *)
Definition qsc3_t6 : irr_table := mk_irr 0 0 [ShLin 0%nat 1 1; ShLin 1%nat 1 1; ShMod3 2%nat 1]  [
  (4, 1, None);
  (8, 7, None);
  (9, 7, None);
  (10, 3, None);
  (11, 3, None);
  (12, 5, None);
  (13, 5, None);
  (14, 6, None);
  (15, 7, None);
  (17, 2, None);
  (18, 3, None);
  (23, 12, None);
  (23, 13, None);
  (23, 21, None);
  (24, 22, None);
  (25, 12, None);
  (25, 13, None);
  (25, 21, None);
  (26, 22, None);
  (27, 8, None);
  (27, 9, None);
  (27, 15, None);
  (28, 16, None);
  (29, 8, None);
  (29, 9, None);
  (29, 15, None);
  (30, 16, None);
  (31, 9, None);
  (31, 15, None);
  (32, 16, None);
  (33, 10, None);
  (33, 11, None);
  (33, 18, None);
  (34, 19, None);
  (35, 10, None);
  (35, 11, None);
  (35, 18, None);
  (36, 19, None);
  (37, 11, None);
  (37, 18, None);
  (38, 19, None);
  (39, 20, None);
  (40, 21, None);
  (41, 22, None);
  (43, 34, None);
  (43, 36, None);
  (44, 34, None);
  (44, 36, None);
  (44, 38, None);
  (45, 24, None);
  (45, 26, None);
  (46, 24, None);
  (46, 26, None);
  (47, 28, None);
  (47, 30, None);
  (48, 28, None);
  (48, 30, None);
  (48, 32, None);
  (49, 33, None);
  (49, 35, None);
  (49, 37, None);
  (50, 34, None);
  (50, 36, None);
  (50, 38, None);
  (52, 23, None);
  (52, 25, None);
  (52, 40, None);
  (53, 24, None);
  (53, 26, None);
  (53, 41, None);
  (54, 42, None);
  (55, 27, None);
  (55, 29, None);
  (55, 31, None);
  (56, 28, None);
  (56, 30, None);
  (56, 32, None);
  (58, 47, None);
  (58, 48, None);
  (58, 56, None);
  (59, 57, None);
  (60, 43, None);
  (60, 44, None);
  (60, 50, None);
  (61, 51, None);
  (62, 45, None);
  (62, 46, None);
  (64, 63, None)].
(** /repo/c++/symmetry/nrg-recalc-QSC3.hpp recalc_irreduc, qsc3/qsc3-spinup1-b.dat *)
Definition qsc3_t7 : irr_table := mk_irr 1 0 [ShLin 0%nat 1 1; ShLin 1%nat 1 1; ShMod3 2%nat 1]  [
  (4, 1, None);
  (8, 7, None);
  (9, 7, None);
  (10, 3, None);
  (11, 3, None);
  (12, 5, None);
  (13, 5, None);
  (14, 6, None);
  (15, 7, None);
  (17, 2, None);
  (18, 3, None);
  (23, 12, None);
  (23, 13, None);
  (23, 21, None);
  (24, 22, None);
  (25, 12, None);
  (25, 13, None);
  (25, 21, None);
  (26, 22, None);
  (27, 8, None);
  (27, 9, None);
  (27, 15, None);
  (28, 16, None);
  (29, 8, None);
  (29, 9, None);
  (29, 15, None);
  (30, 16, None);
  (31, 9, None);
  (31, 15, None);
  (32, 16, None);
  (33, 10, None);
  (33, 11, None);
  (33, 18, None);
  (34, 19, None);
  (35, 10, None);
  (35, 11, None);
  (35, 18, None);
  (36, 19, None);
  (37, 11, None);
  (37, 18, None);
  (38, 19, None);
  (39, 20, None);
  (40, 21, None);
  (41, 22, None);
  (43, 34, None);
  (43, 36, None);
  (44, 34, None);
  (44, 36, None);
  (44, 38, None);
  (45, 24, None);
  (45, 26, None);
  (46, 24, None);
  (46, 26, None);
  (47, 28, None);
  (47, 30, None);
  (48, 28, None);
  (48, 30, None);
  (48, 32, None);
  (49, 33, None);
  (49, 35, None);
  (49, 37, None);
  (50, 34, None);
  (50, 36, None);
  (50, 38, None);
  (52, 23, None);
  (52, 25, None);
  (52, 40, None);
  (53, 24, None);
  (53, 26, None);
  (53, 41, None);
  (54, 42, None);
  (55, 27, None);
  (55, 29, None);
  (55, 31, None);
  (56, 28, None);
  (56, 30, None);
  (56, 32, None);
  (58, 47, None);
  (58, 48, None);
  (58, 56, None);
  (59, 57, None);
  (60, 43, None);
  (60, 44, None);
  (60, 50, None);
  (61, 51, None);
  (62, 45, None);
  (62, 46, None);
  (64, 63, None)].
(** /repo/c++/symmetry/nrg-recalc-QSC3.hpp recalc_irreduc, qsc3/qsc3-spinup1-c.dat *)
Definition qsc3_t8 : irr_table := mk_irr 2 0 [ShLin 0%nat 1 1; ShLin 1%nat 1 1; ShMod3 2%nat 1]  [
  (4, 1, None);
  (8, 7, None);
  (9, 7, None);
  (10, 3, None);
  (11, 3, None);
  (12, 5, None);
  (13, 5, None);
  (14, 6, None);
  (15, 7, None);
  (17, 2, None);
  (18, 3, None);
  (23, 12, None);
  (23, 13, None);
  (23, 21, None);
  (24, 22, None);
  (25, 12, None);
  (25, 13, None);
  (25, 21, None);
  (26, 22, None);
  (27, 8, None);
  (27, 9, None);
  (27, 15, None);
  (28, 16, None);
  (29, 8, None);
  (29, 9, None);
  (29, 15, None);
  (30, 16, None);
  (31, 9, None);
  (31, 15, None);
  (32, 16, None);
  (33, 10, None);
  (33, 11, None);
  (33, 18, None);
  (34, 19, None);
  (35, 10, None);
  (35, 11, None);
  (35, 18, None);
  (36, 19, None);
  (37, 11, None);
  (37, 18, None);
  (38, 19, None);
  (39, 20, None);
  (40, 21, None);
  (41, 22, None);
  (43, 34, None);
  (43, 36, None);
  (44, 34, None);
  (44, 36, None);
  (44, 38, None);
  (45, 24, None);
  (45, 26, None);
  (46, 24, None);
  (46, 26, None);
  (47, 28, None);
  (47, 30, None);
  (48, 28, None);
  (48, 30, None);
  (48, 32, None);
  (49, 33, None);
  (49, 35, None);
  (49, 37, None);
  (50, 34, None);
  (50, 36, None);
  (50, 38, None);
  (52, 23, None);
  (52, 25, None);
  (52, 40, None);
  (53, 24, None);
  (53, 26, None);
  (53, 41, None);
  (54, 42, None);
  (55, 27, None);
  (55, 29, None);
  (55, 31, None);
  (56, 28, None);
  (56, 30, None);
  (56, 32, None);
  (58, 47, None);
  (58, 48, None);
  (58, 56, None);
  (59, 57, None);
  (60, 43, None);
  (60, 44, None);
  (60, 50, None);
  (61, 51, None);
  (62, 45, None);
  (62, 46, None);
  (64, 63, None)].
(** /repo/c++/symmetry/nrg-recalc-QSC3.hpp recalc_irreduc, qsc3/qsc3-spindown1-a.dat *)
Definition qsc3_t9 : irr_table := mk_irr 0 0 [ShLin 0%nat 1 1; ShLin 1%nat 1 (-1); ShMod3 2%nat 1]  [
  (5, 1, None);
  (8, 6, None);
  (9, 6, None);
  (10, 2, None);
  (11, 2, None);
  (12, 4, None);
  (13, 4, None);
  (15, 6, None);
  (16, 7, None);
  (18, 2, None);
  (19, 3, None);
  (23, 20, None);
  (24, 12, None);
  (24, 13, None);
  (24, 21, None);
  (25, 20, None);
  (26, 12, None);
  (26, 13, None);
  (26, 21, None);
  (27, 14, None);
  (28, 8, None);
  (28, 9, None);
  (28, 15, None);
  (29, 14, None);
  (30, 8, None);
  (30, 9, None);
  (30, 15, None);
  (31, 14, None);
  (32, 9, None);
  (32, 15, None);
  (33, 17, None);
  (34, 10, None);
  (34, 11, None);
  (34, 18, None);
  (35, 17, None);
  (36, 10, None);
  (36, 11, None);
  (36, 18, None);
  (37, 17, None);
  (38, 11, None);
  (38, 18, None);
  (40, 20, None);
  (41, 21, None);
  (42, 22, None);
  (43, 33, None);
  (43, 35, None);
  (44, 33, None);
  (44, 35, None);
  (44, 37, None);
  (45, 23, None);
  (45, 25, None);
  (46, 23, None);
  (46, 25, None);
  (47, 27, None);
  (47, 29, None);
  (48, 27, None);
  (48, 29, None);
  (48, 31, None);
  (50, 33, None);
  (50, 35, None);
  (50, 37, None);
  (51, 34, None);
  (51, 36, None);
  (51, 38, None);
  (52, 39, None);
  (53, 23, None);
  (53, 25, None);
  (53, 40, None);
  (54, 24, None);
  (54, 26, None);
  (54, 41, None);
  (56, 27, None);
  (56, 29, None);
  (56, 31, None);
  (57, 28, None);
  (57, 30, None);
  (57, 32, None);
  (58, 55, None);
  (59, 47, None);
  (59, 48, None);
  (59, 56, None);
  (60, 49, None);
  (61, 43, None);
  (61, 44, None);
  (61, 50, None);
  (63, 45, None);
  (63, 46, None);
  (64, 62, None)].
(** /repo/c++/symmetry/nrg-recalc-QSC3.hpp recalc_irreduc, qsc3/qsc3-spindown1-b.dat *)
Definition qsc3_t10 : irr_table := mk_irr 1 0 [ShLin 0%nat 1 1; ShLin 1%nat 1 (-1); ShMod3 2%nat 1]  [
  (5, 1, None);
  (8, 6, None);
  (9, 6, None);
  (10, 2, None);
  (11, 2, None);
  (12, 4, None);
  (13, 4, None);
  (15, 6, None);
  (16, 7, None);
  (18, 2, None);
  (19, 3, None);
  (23, 20, None);
  (24, 12, None);
  (24, 13, None);
  (24, 21, None);
  (25, 20, None);
  (26, 12, None);
  (26, 13, None);
  (26, 21, None);
  (27, 14, None);
  (28, 8, None);
  (28, 9, None);
  (28, 15, None);
  (29, 14, None);
  (30, 8, None);
  (30, 9, None);
  (30, 15, None);
  (31, 14, None);
  (32, 9, None);
  (32, 15, None);
  (33, 17, None);
  (34, 10, None);
  (34, 11, None);
  (34, 18, None);
  (35, 17, None);
  (36, 10, None);
  (36, 11, None);
  (36, 18, None);
  (37, 17, None);
  (38, 11, None);
  (38, 18, None);
  (40, 20, None);
  (41, 21, None);
  (42, 22, None);
  (43, 33, None);
  (43, 35, None);
  (44, 33, None);
  (44, 35, None);
  (44, 37, None);
  (45, 23, None);
  (45, 25, None);
  (46, 23, None);
  (46, 25, None);
  (47, 27, None);
  (47, 29, None);
  (48, 27, None);
  (48, 29, None);
  (48, 31, None);
  (50, 33, None);
  (50, 35, None);
  (50, 37, None);
  (51, 34, None);
  (51, 36, None);
  (51, 38, None);
  (52, 39, None);
  (53, 23, None);
  (53, 25, None);
  (53, 40, None);
  (54, 24, None);
  (54, 26, None);
  (54, 41, None);
  (56, 27, None);
  (56, 29, None);
  (56, 31, None);
  (57, 28, None);
  (57, 30, None);
  (57, 32, None);
  (58, 55, None);
  (59, 47, None);
  (59, 48, None);
  (59, 56, None);
  (60, 49, None);
  (61, 43, None);
  (61, 44, None);
  (61, 50, None);
  (63, 45, None);
  (63, 46, None);
  (64, 62, None)].
(** /repo/c++/symmetry/nrg-recalc-QSC3.hpp recalc_irreduc, qsc3/qsc3-spindown1-c.dat *)
Definition qsc3_t11 : irr_table := mk_irr 2 0 [ShLin 0%nat 1 1; ShLin 1%nat 1 (-1); ShMod3 2%nat 1]  [
  (5, 1, None);
  (8, 6, None);
  (9, 6, None);
  (10, 2, None);
  (11, 2, None);
  (12, 4, None);
  (13, 4, None);
  (15, 6, None);
  (16, 7, None);
  (18, 2, None);
  (19, 3, None);
  (23, 20, None);
  (24, 12, None);
  (24, 13, None);
  (24, 21, None);
  (25, 20, None);
  (26, 12, None);
  (26, 13, None);
  (26, 21, None);
  (27, 14, None);
  (28, 8, None);
  (28, 9, None);
  (28, 15, None);
  (29, 14, None);
  (30, 8, None);
  (30, 9, None);
  (30, 15, None);
  (31, 14, None);
  (32, 9, None);
  (32, 15, None);
  (33, 17, None);
  (34, 10, None);
  (34, 11, None);
  (34, 18, None);
  (35, 17, None);
  (36, 10, None);
  (36, 11, None);
  (36, 18, None);
  (37, 17, None);
  (38, 11, None);
  (38, 18, None);
  (40, 20, None);
  (41, 21, None);
  (42, 22, None);
  (43, 33, None);
  (43, 35, None);
  (44, 33, None);
  (44, 35, None);
  (44, 37, None);
  (45, 23, None);
  (45, 25, None);
  (46, 23, None);
  (46, 25, None);
  (47, 27, None);
  (47, 29, None);
  (48, 27, None);
  (48, 29, None);
  (48, 31, None);
  (50, 33, None);
  (50, 35, None);
  (50, 37, None);
  (51, 34, None);
  (51, 36, None);
  (51, 38, None);
  (52, 39, None);
  (53, 23, None);
  (53, 25, None);
  (53, 40, None);
  (54, 24, None);
  (54, 26, None);
  (54, 41, None);
  (56, 27, None);
  (56, 29, None);
  (56, 31, None);
  (57, 28, None);
  (57, 30, None);
  (57, 32, None);
  (58, 55, None);
  (59, 47, None);
  (59, 48, None);
  (59, 56, None);
  (60, 49, None);
  (61, 43, None);
  (61, 44, None);
  (61, 50, None);
  (63, 45, None);
  (63, 46, None);
  (64, 62, None)].
(** /repo/c++/symmetry/nrg-recalc-QSC3.hpp recalc_irreduc, qsc3/qsc3-spinup2-a.dat *)
Definition qsc3_t12 : irr_table := mk_irr 0 0 [ShLin 0%nat 1 1; ShLin 1%nat 1 1; ShMod3 2%nat 2]  [
  (6, 1, None);
  (8, 5, None);
  (9, 5, None);
  (10, 7, None);
  (11, 7, None);
  (12, 3, None);
  (13, 3, None);
  (14, 4, None);
  (15, 5, None);
  (20, 2, None);
  (21, 3, None);
  (23, 10, None);
  (23, 11, None);
  (23, 18, None);
  (24, 19, None);
  (25, 10, None);
  (25, 11, None);
  (25, 18, None);
  (26, 19, None);
  (27, 12, None);
  (27, 13, None);
  (27, 21, None);
  (28, 22, None);
  (29, 12, None);
  (29, 13, None);
  (29, 21, None);
  (30, 22, None);
  (31, 13, None);
  (31, 21, None);
  (32, 22, None);
  (33, 8, None);
  (33, 9, None);
  (33, 15, None);
  (34, 16, None);
  (35, 8, None);
  (35, 9, None);
  (35, 15, None);
  (36, 16, None);
  (37, 9, None);
  (37, 15, None);
  (38, 16, None);
  (39, 17, None);
  (40, 18, None);
  (41, 19, None);
  (43, 28, None);
  (43, 30, None);
  (44, 28, None);
  (44, 30, None);
  (44, 32, None);
  (45, 34, None);
  (45, 36, None);
  (46, 34, None);
  (46, 36, None);
  (46, 38, None);
  (47, 24, None);
  (47, 26, None);
  (48, 24, None);
  (48, 26, None);
  (49, 27, None);
  (49, 29, None);
  (49, 31, None);
  (50, 28, None);
  (50, 30, None);
  (50, 32, None);
  (52, 33, None);
  (52, 35, None);
  (52, 37, None);
  (53, 34, None);
  (53, 36, None);
  (53, 38, None);
  (55, 23, None);
  (55, 25, None);
  (55, 40, None);
  (56, 24, None);
  (56, 26, None);
  (56, 41, None);
  (57, 42, None);
  (58, 45, None);
  (58, 46, None);
  (58, 53, None);
  (59, 54, None);
  (60, 47, None);
  (60, 48, None);
  (62, 43, None);
  (62, 44, None);
  (62, 50, None);
  (63, 51, None);
  (64, 61, None)].
(** /repo/c++/symmetry/nrg-recalc-QSC3.hpp recalc_irreduc, qsc3/qsc3-spinup2-b.dat *)
Definition qsc3_t13 : irr_table := mk_irr 1 0 [ShLin 0%nat 1 1; ShLin 1%nat 1 1; ShMod3 2%nat 2]  [
  (6, 1, None);
  (8, 5, None);
  (9, 5, None);
  (10, 7, None);
  (11, 7, None);
  (12, 3, None);
  (13, 3, None);
  (14, 4, None);
  (15, 5, None);
  (20, 2, None);
  (21, 3, None);
  (23, 10, None);
  (23, 11, None);
  (23, 18, None);
  (24, 19, None);
  (25, 10, None);
  (25, 11, None);
  (25, 18, None);
  (26, 19, None);
  (27, 12, None);
  (27, 13, None);
  (27, 21, None);
  (28, 22, None);
  (29, 12, None);
  (29, 13, None);
  (29, 21, None);
  (30, 22, None);
  (31, 13, None);
  (31, 21, None);
  (32, 22, None);
  (33, 8, None);
  (33, 9, None);
  (33, 15, None);
  (34, 16, None);
  (35, 8, None);
  (35, 9, None);
  (35, 15, None);
  (36, 16, None);
  (37, 9, None);
  (37, 15, None);
  (38, 16, None);
  (39, 17, None);
  (40, 18, None);
  (41, 19, None);
  (43, 28, None);
  (43, 30, None);
  (44, 28, None);
  (44, 30, None);
  (44, 32, None);
  (45, 34, None);
  (45, 36, None);
  (46, 34, None);
  (46, 36, None);
  (46, 38, None);
  (47, 24, None);
  (47, 26, None);
  (48, 24, None);
  (48, 26, None);
  (49, 27, None);
  (49, 29, None);
  (49, 31, None);
  (50, 28, None);
  (50, 30, None);
  (50, 32, None);
  (52, 33, None);
  (52, 35, None);
  (52, 37, None);
  (53, 34, None);
  (53, 36, None);
  (53, 38, None);
  (55, 23, None);
  (55, 25, None);
  (55, 40, None);
  (56, 24, None);
  (56, 26, None);
  (56, 41, None);
  (57, 42, None);
  (58, 45, None);
  (58, 46, None);
  (58, 53, None);
  (59, 54, None);
  (60, 47, None);
  (60, 48, None);
  (62, 43, None);
  (62, 44, None);
  (62, 50, None);
  (63, 51, None);
  (64, 61, None)].
(** /repo/c++/symmetry/nrg-recalc-QSC3.hpp recalc_irreduc, qsc3/qsc3-spinup2-c.dat *)
Definition qsc3_t14 : irr_table := mk_irr 2 0 [ShLin 0%nat 1 1; ShLin 1%nat 1 1; ShMod3 2%nat 2]  [
  (6, 1, None);
  (8, 5, None);
  (9, 5, None);
  (10, 7, None);
  (11, 7, None);
  (12, 3, None);
  (13, 3, None);
  (14, 4, None);
  (15, 5, None);
  (20, 2, None);
  (21, 3, None);
  (23, 10, None);
  (23, 11, None);
  (23, 18, None);
  (24, 19, None);
  (25, 10, None);
  (25, 11, None);
  (25, 18, None);
  (26, 19, None);
  (27, 12, None);
  (27, 13, None);
  (27, 21, None);
  (28, 22, None);
  (29, 12, None);
  (29, 13, None);
  (29, 21, None);
  (30, 22, None);
  (31, 13, None);
  (31, 21, None);
  (32, 22, None);
  (33, 8, None);
  (33, 9, None);
  (33, 15, None);
  (34, 16, None);
  (35, 8, None);
  (35, 9, None);
  (35, 15, None);
  (36, 16, None);
  (37, 9, None);
  (37, 15, None);
  (38, 16, None);
  (39, 17, None);
  (40, 18, None);
  (41, 19, None);
  (43, 28, None);
  (43, 30, None);
  (44, 28, None);
  (44, 30, None);
  (44, 32, None);
  (45, 34, None);
  (45, 36, None);
  (46, 34, None);
  (46, 36, None);
  (46, 38, None);
  (47, 24, None);
  (47, 26, None);
  (48, 24, None);
  (48, 26, None);
  (49, 27, None);
  (49, 29, None);
  (49, 31, None);
  (50, 28, None);
  (50, 30, None);
  (50, 32, None);
  (52, 33, None);
  (52, 35, None);
  (52, 37, None);
  (53, 34, None);
  (53, 36, None);
  (53, 38, None);
  (55, 23, None);
  (55, 25, None);
  (55, 40, None);
  (56, 24, None);
  (56, 26, None);
  (56, 41, None);
  (57, 42, None);
  (58, 45, None);
  (58, 46, None);
  (58, 53, None);
  (59, 54, None);
  (60, 47, None);
  (60, 48, None);
  (62, 43, None);
  (62, 44, None);
  (62, 50, None);
  (63, 51, None);
  (64, 61, None)].
(** /repo/c++/symmetry/nrg-recalc-QSC3.hpp recalc_irreduc, qsc3/qsc3-spindown2-a.dat *)
Definition qsc3_t15 : irr_table := mk_irr 0 0 [ShLin 0%nat 1 1; ShLin 1%nat 1 (-1); ShMod3 2%nat 2]  [
  (7, 1, None);
  (8, 4, None);
  (9, 4, None);
  (10, 6, None);
  (11, 6, None);
  (12, 2, None);
  (13, 2, None);
  (15, 4, None);
  (16, 5, None);
  (21, 2, None);
  (22, 3, None);
  (23, 17, None);
  (24, 10, None);
  (24, 11, None);
  (24, 18, None);
  (25, 17, None);
  (26, 10, None);
  (26, 11, None);
  (26, 18, None);
  (27, 20, None);
  (28, 12, None);
  (28, 13, None);
  (28, 21, None);
  (29, 20, None);
  (30, 12, None);
  (30, 13, None);
  (30, 21, None);
  (31, 20, None);
  (32, 13, None);
  (32, 21, None);
  (33, 14, None);
  (34, 8, None);
  (34, 9, None);
  (34, 15, None);
  (35, 14, None);
  (36, 8, None);
  (36, 9, None);
  (36, 15, None);
  (37, 14, None);
  (38, 9, None);
  (38, 15, None);
  (40, 17, None);
  (41, 18, None);
  (42, 19, None);
  (43, 27, None);
  (43, 29, None);
  (44, 27, None);
  (44, 29, None);
  (44, 31, None);
  (45, 33, None);
  (45, 35, None);
  (46, 33, None);
  (46, 35, None);
  (46, 37, None);
  (47, 23, None);
  (47, 25, None);
  (48, 23, None);
  (48, 25, None);
  (50, 27, None);
  (50, 29, None);
  (50, 31, None);
  (51, 28, None);
  (51, 30, None);
  (51, 32, None);
  (53, 33, None);
  (53, 35, None);
  (53, 37, None);
  (54, 34, None);
  (54, 36, None);
  (54, 38, None);
  (55, 39, None);
  (56, 23, None);
  (56, 25, None);
  (56, 40, None);
  (57, 24, None);
  (57, 26, None);
  (57, 41, None);
  (58, 52, None);
  (59, 45, None);
  (59, 46, None);
  (59, 53, None);
  (61, 47, None);
  (61, 48, None);
  (62, 49, None);
  (63, 43, None);
  (63, 44, None);
  (63, 50, None);
  (64, 60, None)].
(** /repo/c++/symmetry/nrg-recalc-QSC3.hpp recalc_irreduc, qsc3/qsc3-spindown2-b.dat *)
Definition qsc3_t16 : irr_table := mk_irr 1 0 [ShLin 0%nat 1 1; ShLin 1%nat 1 (-1); ShMod3 2%nat 2]  [
  (7, 1, None);
  (8, 4, None);
  (9, 4, None);
  (10, 6, None);
  (11, 6, None);
  (12, 2, None);
  (13, 2, None);
  (15, 4, None);
  (16, 5, None);
  (21, 2, None);
  (22, 3, None);
  (23, 17, None);
  (24, 10, None);
  (24, 11, None);
  (24, 18, None);
  (25, 17, None);
  (26, 10, None);
  (26, 11, None);
  (26, 18, None);
  (27, 20, None);
  (28, 12, None);
  (28, 13, None);
  (28, 21, None);
  (29, 20, None);
  (30, 12, None);
  (30, 13, None);
  (30, 21, None);
  (31, 20, None);
  (32, 13, None);
  (32, 21, None);
  (33, 14, None);
  (34, 8, None);
  (34, 9, None);
  (34, 15, None);
  (35, 14, None);
  (36, 8, None);
  (36, 9, None);
  (36, 15, None);
  (37, 14, None);
  (38, 9, None);
  (38, 15, None);
  (40, 17, None);
  (41, 18, None);
  (42, 19, None);
  (43, 27, None);
  (43, 29, None);
  (44, 27, None);
  (44, 29, None);
  (44, 31, None);
  (45, 33, None);
  (45, 35, None);
  (46, 33, None);
  (46, 35, None);
  (46, 37, None);
  (47, 23, None);
  (47, 25, None);
  (48, 23, None);
  (48, 25, None);
  (50, 27, None);
  (50, 29, None);
  (50, 31, None);
  (51, 28, None);
  (51, 30, None);
  (51, 32, None);
  (53, 33, None);
  (53, 35, None);
  (53, 37, None);
  (54, 34, None);
  (54, 36, None);
  (54, 38, None);
  (55, 39, None);
  (56, 23, None);
  (56, 25, None);
  (56, 40, None);
  (57, 24, None);
  (57, 26, None);
  (57, 41, None);
  (58, 52, None);
  (59, 45, None);
  (59, 46, None);
  (59, 53, None);
  (61, 47, None);
  (61, 48, None);
  (62, 49, None);
  (63, 43, None);
  (63, 44, None);
  (63, 50, None);
  (64, 60, None)].
(** /repo/c++/symmetry/nrg-recalc-QSC3.hpp recalc_irreduc, qsc3/qsc3-spindown2-c.dat *)
Definition qsc3_t17 : irr_table := mk_irr 2 0 [ShLin 0%nat 1 1; ShLin 1%nat 1 (-1); ShMod3 2%nat 2]  [
  (7, 1, None);
  (8, 4, None);
  (9, 4, None);
  (10, 6, None);
  (11, 6, None);
  (12, 2, None);
  (13, 2, None);
  (15, 4, None);
  (16, 5, None);
  (21, 2, None);
  (22, 3, None);
  (23, 17, None);
  (24, 10, None);
  (24, 11, None);
  (24, 18, None);
  (25, 17, None);
  (26, 10, None);
  (26, 11, None);
  (26, 18, None);
  (27, 20, None);
  (28, 12, None);
  (28, 13, None);
  (28, 21, None);
  (29, 20, None);
  (30, 12, None);
  (30, 13, None);
  (30, 21, None);
  (31, 20, None);
  (32, 13, None);
  (32, 21, None);
  (33, 14, None);
  (34, 8, None);
  (34, 9, None);
  (34, 15, None);
  (35, 14, None);
  (36, 8, None);
  (36, 9, None);
  (36, 15, None);
  (37, 14, None);
  (38, 9, None);
  (38, 15, None);
  (40, 17, None);
  (41, 18, None);
  (42, 19, None);
  (43, 27, None);
  (43, 29, None);
  (44, 27, None);
  (44, 29, None);
  (44, 31, None);
  (45, 33, None);
  (45, 35, None);
  (46, 33, None);
  (46, 35, None);
  (46, 37, None);
  (47, 23, None);
  (47, 25, None);
  (48, 23, None);
  (48, 25, None);
  (50, 27, None);
  (50, 29, None);
  (50, 31, None);
  (51, 28, None);
  (51, 30, None);
  (51, 32, None);
  (53, 33, None);
  (53, 35, None);
  (53, 37, None);
  (54, 34, None);
  (54, 36, None);
  (54, 38, None);
  (55, 39, None);
  (56, 23, None);
  (56, 25, None);
  (56, 40, None);
  (57, 24, None);
  (57, 26, None);
  (57, 41, None);
  (58, 52, None);
  (59, 45, None);
  (59, 46, None);
  (59, 53, None);
  (61, 47, None);
  (61, 48, None);
  (62, 49, None);
  (63, 43, None);
  (63, 44, None);
  (63, 50, None);
  (64, 60, None)].
(** /repo/c++/symmetry/sym-QSC3-impl.hpp, make_matrix  *)
Definition qsc3_m0_o : list off_line := [
  (1, 2, 0, 0, "xi", None);
  (1, 3, 0, 0, "xi", None);
  (1, 4, 0, 0, "xi", None);
  (1, 5, 0, 0, "xi", None);
  (1, 6, 0, 0, "xi", None);
  (1, 7, 0, 0, "xi", None);
  (2, 8, 0, 0, "xi", None);
  (2, 9, 0, 0, "xi", None);
  (2, 10, 0, 0, "xi", None);
  (2, 11, 0, 0, "xi", None);
  (2, 12, 0, 0, "xi", None);
  (2, 13, 0, 0, "xi", None);
  (2, 17, 0, 0, "xi", None);
  (2, 18, 0, 0, "xi", None);
  (2, 20, 0, 0, "xi", None);
  (2, 21, 0, 0, "xi", None);
  (3, 8, 0, 0, "xi", None);
  (3, 9, 0, 0, "xi", None);
  (3, 10, 0, 0, "xi", None);
  (3, 11, 0, 0, "xi", None);
  (3, 12, 0, 0, "xi", None);
  (3, 13, 0, 0, "xi", None);
  (3, 18, 0, 0, "xi", None);
  (3, 19, 0, 0, "xi", None);
  (3, 21, 0, 0, "xi", None);
  (3, 22, 0, 0, "xi", None);
  (4, 8, 0, 0, "xi", None);
  (4, 9, 0, 0, "xi", None);
  (4, 10, 0, 0, "xi", None);
  (4, 11, 0, 0, "xi", None);
  (4, 12, 0, 0, "xi", None);
  (4, 13, 0, 0, "xi", None);
  (4, 14, 0, 0, "xi", None);
  (4, 15, 0, 0, "xi", None);
  (4, 17, 0, 0, "xi", None);
  (4, 18, 0, 0, "xi", None);
  (5, 8, 0, 0, "xi", None);
  (5, 9, 0, 0, "xi", None);
  (5, 10, 0, 0, "xi", None);
  (5, 11, 0, 0, "xi", None);
  (5, 12, 0, 0, "xi", None);
  (5, 13, 0, 0, "xi", None);
  (5, 15, 0, 0, "xi", None);
  (5, 16, 0, 0, "xi", None);
  (5, 18, 0, 0, "xi", None);
  (5, 19, 0, 0, "xi", None);
  (6, 8, 0, 0, "xi", None);
  (6, 9, 0, 0, "xi", None);
  (6, 10, 0, 0, "xi", None);
  (6, 11, 0, 0, "xi", None);
  (6, 12, 0, 0, "xi", None);
  (6, 13, 0, 0, "xi", None);
  (6, 14, 0, 0, "xi", None);
  (6, 15, 0, 0, "xi", None);
  (6, 20, 0, 0, "xi", None);
  (6, 21, 0, 0, "xi", None);
  (7, 8, 0, 0, "xi", None);
  (7, 9, 0, 0, "xi", None);
  (7, 10, 0, 0, "xi", None);
  (7, 11, 0, 0, "xi", None);
  (7, 12, 0, 0, "xi", None);
  (7, 13, 0, 0, "xi", None);
  (7, 15, 0, 0, "xi", None);
  (7, 16, 0, 0, "xi", None);
  (7, 21, 0, 0, "xi", None);
  (7, 22, 0, 0, "xi", None);
  (8, 23, 0, 0, "xi", None);
  (8, 24, 0, 0, "xi", None);
  (8, 25, 0, 0, "xi", None);
  (8, 26, 0, 0, "xi", None);
  (8, 27, 0, 0, "xi", None);
  (8, 28, 0, 0, "xi", None);
  (8, 29, 0, 0, "xi", None);
  (8, 30, 0, 0, "xi", None);
  (8, 33, 0, 0, "xi", None);
  (8, 34, 0, 0, "xi", None);
  (8, 35, 0, 0, "xi", None);
  (8, 36, 0, 0, "xi", None);
  (9, 23, 0, 0, "xi", None);
  (9, 24, 0, 0, "xi", None);
  (9, 25, 0, 0, "xi", None);
  (9, 26, 0, 0, "xi", None);
  (9, 27, 0, 0, "xi", None);
  (9, 28, 0, 0, "xi", None);
  (9, 29, 0, 0, "xi", None);
  (9, 30, 0, 0, "xi", None);
  (9, 31, 0, 0, "xi", None);
  (9, 32, 0, 0, "xi", None);
  (9, 33, 0, 0, "xi", None);
  (9, 34, 0, 0, "xi", None);
  (9, 35, 0, 0, "xi", None);
  (9, 36, 0, 0, "xi", None);
  (9, 37, 0, 0, "xi", None);
  (9, 38, 0, 0, "xi", None);
  (10, 23, 0, 0, "xi", None);
  (10, 24, 0, 0, "xi", None);
  (10, 25, 0, 0, "xi", None);
  (10, 26, 0, 0, "xi", None);
  (10, 27, 0, 0, "xi", None);
  (10, 28, 0, 0, "xi", None);
  (10, 29, 0, 0, "xi", None);
  (10, 30, 0, 0, "xi", None);
  (10, 33, 0, 0, "xi", None);
  (10, 34, 0, 0, "xi", None);
  (10, 35, 0, 0, "xi", None);
  (10, 36, 0, 0, "xi", None);
  (11, 23, 0, 0, "xi", None);
  (11, 24, 0, 0, "xi", None);
  (11, 25, 0, 0, "xi", None);
  (11, 26, 0, 0, "xi", None);
  (11, 27, 0, 0, "xi", None);
  (11, 28, 0, 0, "xi", None);
  (11, 29, 0, 0, "xi", None);
  (11, 30, 0, 0, "xi", None);
  (11, 31, 0, 0, "xi", None);
  (11, 32, 0, 0, "xi", None);
  (11, 33, 0, 0, "xi", None);
  (11, 34, 0, 0, "xi", None);
  (11, 35, 0, 0, "xi", None);
  (11, 36, 0, 0, "xi", None);
  (11, 37, 0, 0, "xi", None);
  (11, 38, 0, 0, "xi", None);
  (12, 23, 0, 0, "xi", None);
  (12, 24, 0, 0, "xi", None);
  (12, 25, 0, 0, "xi", None);
  (12, 26, 0, 0, "xi", None);
  (12, 27, 0, 0, "xi", None);
  (12, 28, 0, 0, "xi", None);
  (12, 29, 0, 0, "xi", None);
  (12, 30, 0, 0, "xi", None);
  (12, 33, 0, 0, "xi", None);
  (12, 34, 0, 0, "xi", None);
  (12, 35, 0, 0, "xi", None);
  (12, 36, 0, 0, "xi", None);
  (13, 23, 0, 0, "xi", None);
  (13, 24, 0, 0, "xi", None);
  (13, 25, 0, 0, "xi", None);
  (13, 26, 0, 0, "xi", None);
  (13, 27, 0, 0, "xi", None);
  (13, 28, 0, 0, "xi", None);
  (13, 29, 0, 0, "xi", None);
  (13, 30, 0, 0, "xi", None);
  (13, 31, 0, 0, "xi", None);
  (13, 32, 0, 0, "xi", None);
  (13, 33, 0, 0, "xi", None);
  (13, 34, 0, 0, "xi", None);
  (13, 35, 0, 0, "xi", None);
  (13, 36, 0, 0, "xi", None);
  (13, 37, 0, 0, "xi", None);
  (13, 38, 0, 0, "xi", None);
  (14, 23, 0, 0, "xi", None);
  (14, 25, 0, 0, "xi", None);
  (14, 27, 0, 0, "xi", None);
  (14, 29, 0, 0, "xi", None);
  (14, 31, 0, 0, "xi", None);
  (14, 33, 0, 0, "xi", None);
  (14, 35, 0, 0, "xi", None);
  (14, 37, 0, 0, "xi", None);
  (14, 39, 0, 0, "xi", None);
  (14, 40, 0, 0, "xi", None);
  (15, 23, 0, 0, "xi", None);
  (15, 24, 0, 0, "xi", None);
  (15, 25, 0, 0, "xi", None);
  (15, 26, 0, 0, "xi", None);
  (15, 27, 0, 0, "xi", None);
  (15, 28, 0, 0, "xi", None);
  (15, 29, 0, 0, "xi", None);
  (15, 30, 0, 0, "xi", None);
  (15, 31, 0, 0, "xi", None);
  (15, 32, 0, 0, "xi", None);
  (15, 33, 0, 0, "xi", None);
  (15, 34, 0, 0, "xi", None);
  (15, 35, 0, 0, "xi", None);
  (15, 36, 0, 0, "xi", None);
  (15, 37, 0, 0, "xi", None);
  (15, 38, 0, 0, "xi", None);
  (15, 40, 0, 0, "xi", None);
  (15, 41, 0, 0, "xi", None);
  (16, 24, 0, 0, "xi", None);
  (16, 26, 0, 0, "xi", None);
  (16, 28, 0, 0, "xi", None);
  (16, 30, 0, 0, "xi", None);
  (16, 32, 0, 0, "xi", None);
  (16, 34, 0, 0, "xi", None);
  (16, 36, 0, 0, "xi", None);
  (16, 38, 0, 0, "xi", None);
  (16, 41, 0, 0, "xi", None);
  (16, 42, 0, 0, "xi", None);
  (17, 23, 0, 0, "xi", None);
  (17, 25, 0, 0, "xi", None);
  (17, 27, 0, 0, "xi", None);
  (17, 29, 0, 0, "xi", None);
  (17, 31, 0, 0, "xi", None);
  (17, 33, 0, 0, "xi", None);
  (17, 35, 0, 0, "xi", None);
  (17, 37, 0, 0, "xi", None);
  (17, 39, 0, 0, "xi", None);
  (17, 40, 0, 0, "xi", None);
  (18, 23, 0, 0, "xi", None);
  (18, 24, 0, 0, "xi", None);
  (18, 25, 0, 0, "xi", None);
  (18, 26, 0, 0, "xi", None);
  (18, 27, 0, 0, "xi", None);
  (18, 28, 0, 0, "xi", None);
  (18, 29, 0, 0, "xi", None);
  (18, 30, 0, 0, "xi", None);
  (18, 31, 0, 0, "xi", None);
  (18, 32, 0, 0, "xi", None);
  (18, 33, 0, 0, "xi", None);
  (18, 34, 0, 0, "xi", None);
  (18, 35, 0, 0, "xi", None);
  (18, 36, 0, 0, "xi", None);
  (18, 37, 0, 0, "xi", None);
  (18, 38, 0, 0, "xi", None);
  (18, 40, 0, 0, "xi", None);
  (18, 41, 0, 0, "xi", None);
  (19, 24, 0, 0, "xi", None);
  (19, 26, 0, 0, "xi", None);
  (19, 28, 0, 0, "xi", None);
  (19, 30, 0, 0, "xi", None);
  (19, 32, 0, 0, "xi", None);
  (19, 34, 0, 0, "xi", None);
  (19, 36, 0, 0, "xi", None);
  (19, 38, 0, 0, "xi", None);
  (19, 41, 0, 0, "xi", None);
  (19, 42, 0, 0, "xi", None);
  (20, 23, 0, 0, "xi", None);
  (20, 25, 0, 0, "xi", None);
  (20, 27, 0, 0, "xi", None);
  (20, 29, 0, 0, "xi", None);
  (20, 31, 0, 0, "xi", None);
  (20, 33, 0, 0, "xi", None);
  (20, 35, 0, 0, "xi", None);
  (20, 37, 0, 0, "xi", None);
  (20, 39, 0, 0, "xi", None);
  (20, 40, 0, 0, "xi", None);
  (21, 23, 0, 0, "xi", None);
  (21, 24, 0, 0, "xi", None);
  (21, 25, 0, 0, "xi", None);
  (21, 26, 0, 0, "xi", None);
  (21, 27, 0, 0, "xi", None);
  (21, 28, 0, 0, "xi", None);
  (21, 29, 0, 0, "xi", None);
  (21, 30, 0, 0, "xi", None);
  (21, 31, 0, 0, "xi", None);
  (21, 32, 0, 0, "xi", None);
  (21, 33, 0, 0, "xi", None);
  (21, 34, 0, 0, "xi", None);
  (21, 35, 0, 0, "xi", None);
  (21, 36, 0, 0, "xi", None);
  (21, 37, 0, 0, "xi", None);
  (21, 38, 0, 0, "xi", None);
  (21, 40, 0, 0, "xi", None);
  (21, 41, 0, 0, "xi", None);
  (22, 24, 0, 0, "xi", None);
  (22, 26, 0, 0, "xi", None);
  (22, 28, 0, 0, "xi", None);
  (22, 30, 0, 0, "xi", None);
  (22, 32, 0, 0, "xi", None);
  (22, 34, 0, 0, "xi", None);
  (22, 36, 0, 0, "xi", None);
  (22, 38, 0, 0, "xi", None);
  (22, 41, 0, 0, "xi", None);
  (22, 42, 0, 0, "xi", None);
  (23, 43, 0, 0, "xi", None);
  (23, 44, 0, 0, "xi", None);
  (23, 45, 0, 0, "xi", None);
  (23, 46, 0, 0, "xi", None);
  (23, 47, 0, 0, "xi", None);
  (23, 48, 0, 0, "xi", None);
  (23, 49, 0, 0, "xi", None);
  (23, 50, 0, 0, "xi", None);
  (23, 52, 0, 0, "xi", None);
  (23, 53, 0, 0, "xi", None);
  (23, 55, 0, 0, "xi", None);
  (23, 56, 0, 0, "xi", None);
  (24, 43, 0, 0, "xi", None);
  (24, 44, 0, 0, "xi", None);
  (24, 45, 0, 0, "xi", None);
  (24, 46, 0, 0, "xi", None);
  (24, 47, 0, 0, "xi", None);
  (24, 48, 0, 0, "xi", None);
  (24, 50, 0, 0, "xi", None);
  (24, 51, 0, 0, "xi", None);
  (24, 53, 0, 0, "xi", None);
  (24, 54, 0, 0, "xi", None);
  (24, 56, 0, 0, "xi", None);
  (24, 57, 0, 0, "xi", None);
  (25, 43, 0, 0, "xi", None);
  (25, 44, 0, 0, "xi", None);
  (25, 45, 0, 0, "xi", None);
  (25, 46, 0, 0, "xi", None);
  (25, 47, 0, 0, "xi", None);
  (25, 48, 0, 0, "xi", None);
  (25, 49, 0, 0, "xi", None);
  (25, 50, 0, 0, "xi", None);
  (25, 52, 0, 0, "xi", None);
  (25, 53, 0, 0, "xi", None);
  (25, 55, 0, 0, "xi", None);
  (25, 56, 0, 0, "xi", None);
  (26, 43, 0, 0, "xi", None);
  (26, 44, 0, 0, "xi", None);
  (26, 45, 0, 0, "xi", None);
  (26, 46, 0, 0, "xi", None);
  (26, 47, 0, 0, "xi", None);
  (26, 48, 0, 0, "xi", None);
  (26, 50, 0, 0, "xi", None);
  (26, 51, 0, 0, "xi", None);
  (26, 53, 0, 0, "xi", None);
  (26, 54, 0, 0, "xi", None);
  (26, 56, 0, 0, "xi", None);
  (26, 57, 0, 0, "xi", None);
  (27, 43, 0, 0, "xi", None);
  (27, 44, 0, 0, "xi", None);
  (27, 45, 0, 0, "xi", None);
  (27, 46, 0, 0, "xi", None);
  (27, 47, 0, 0, "xi", None);
  (27, 48, 0, 0, "xi", None);
  (27, 49, 0, 0, "xi", None);
  (27, 50, 0, 0, "xi", None);
  (27, 52, 0, 0, "xi", None);
  (27, 53, 0, 0, "xi", None);
  (27, 55, 0, 0, "xi", None);
  (27, 56, 0, 0, "xi", None);
  (28, 43, 0, 0, "xi", None);
  (28, 44, 0, 0, "xi", None);
  (28, 45, 0, 0, "xi", None);
  (28, 46, 0, 0, "xi", None);
  (28, 47, 0, 0, "xi", None);
  (28, 48, 0, 0, "xi", None);
  (28, 50, 0, 0, "xi", None);
  (28, 51, 0, 0, "xi", None);
  (28, 53, 0, 0, "xi", None);
  (28, 54, 0, 0, "xi", None);
  (28, 56, 0, 0, "xi", None);
  (28, 57, 0, 0, "xi", None);
  (29, 43, 0, 0, "xi", None);
  (29, 44, 0, 0, "xi", None);
  (29, 45, 0, 0, "xi", None);
  (29, 46, 0, 0, "xi", None);
  (29, 47, 0, 0, "xi", None);
  (29, 48, 0, 0, "xi", None);
  (29, 49, 0, 0, "xi", None);
  (29, 50, 0, 0, "xi", None);
  (29, 52, 0, 0, "xi", None);
  (29, 53, 0, 0, "xi", None);
  (29, 55, 0, 0, "xi", None);
  (29, 56, 0, 0, "xi", None);
  (30, 43, 0, 0, "xi", None);
  (30, 44, 0, 0, "xi", None);
  (30, 45, 0, 0, "xi", None);
  (30, 46, 0, 0, "xi", None);
  (30, 47, 0, 0, "xi", None);
  (30, 48, 0, 0, "xi", None);
  (30, 50, 0, 0, "xi", None);
  (30, 51, 0, 0, "xi", None);
  (30, 53, 0, 0, "xi", None);
  (30, 54, 0, 0, "xi", None);
  (30, 56, 0, 0, "xi", None);
  (30, 57, 0, 0, "xi", None);
  (31, 44, 0, 0, "xi", None);
  (31, 46, 0, 0, "xi", None);
  (31, 48, 0, 0, "xi", None);
  (31, 49, 0, 0, "xi", None);
  (31, 50, 0, 0, "xi", None);
  (31, 52, 0, 0, "xi", None);
  (31, 53, 0, 0, "xi", None);
  (31, 55, 0, 0, "xi", None);
  (31, 56, 0, 0, "xi", None);
  (32, 44, 0, 0, "xi", None);
  (32, 46, 0, 0, "xi", None);
  (32, 48, 0, 0, "xi", None);
  (32, 50, 0, 0, "xi", None);
  (32, 51, 0, 0, "xi", None);
  (32, 53, 0, 0, "xi", None);
  (32, 54, 0, 0, "xi", None);
  (32, 56, 0, 0, "xi", None);
  (32, 57, 0, 0, "xi", None);
  (33, 43, 0, 0, "xi", None);
  (33, 44, 0, 0, "xi", None);
  (33, 45, 0, 0, "xi", None);
  (33, 46, 0, 0, "xi", None);
  (33, 47, 0, 0, "xi", None);
  (33, 48, 0, 0, "xi", None);
  (33, 49, 0, 0, "xi", None);
  (33, 50, 0, 0, "xi", None);
  (33, 52, 0, 0, "xi", None);
  (33, 53, 0, 0, "xi", None);
  (33, 55, 0, 0, "xi", None);
  (33, 56, 0, 0, "xi", None);
  (34, 43, 0, 0, "xi", None);
  (34, 44, 0, 0, "xi", None);
  (34, 45, 0, 0, "xi", None);
  (34, 46, 0, 0, "xi", None);
  (34, 47, 0, 0, "xi", None);
  (34, 48, 0, 0, "xi", None);
  (34, 50, 0, 0, "xi", None);
  (34, 51, 0, 0, "xi", None);
  (34, 53, 0, 0, "xi", None);
  (34, 54, 0, 0, "xi", None);
  (34, 56, 0, 0, "xi", None);
  (34, 57, 0, 0, "xi", None);
  (35, 43, 0, 0, "xi", None);
  (35, 44, 0, 0, "xi", None);
  (35, 45, 0, 0, "xi", None);
  (35, 46, 0, 0, "xi", None);
  (35, 47, 0, 0, "xi", None);
  (35, 48, 0, 0, "xi", None);
  (35, 49, 0, 0, "xi", None);
  (35, 50, 0, 0, "xi", None);
  (35, 52, 0, 0, "xi", None);
  (35, 53, 0, 0, "xi", None);
  (35, 55, 0, 0, "xi", None);
  (35, 56, 0, 0, "xi", None);
  (36, 43, 0, 0, "xi", None);
  (36, 44, 0, 0, "xi", None);
  (36, 45, 0, 0, "xi", None);
  (36, 46, 0, 0, "xi", None);
  (36, 47, 0, 0, "xi", None);
  (36, 48, 0, 0, "xi", None);
  (36, 50, 0, 0, "xi", None);
  (36, 51, 0, 0, "xi", None);
  (36, 53, 0, 0, "xi", None);
  (36, 54, 0, 0, "xi", None);
  (36, 56, 0, 0, "xi", None);
  (36, 57, 0, 0, "xi", None);
  (37, 44, 0, 0, "xi", None);
  (37, 46, 0, 0, "xi", None);
  (37, 48, 0, 0, "xi", None);
  (37, 49, 0, 0, "xi", None);
  (37, 50, 0, 0, "xi", None);
  (37, 52, 0, 0, "xi", None);
  (37, 53, 0, 0, "xi", None);
  (37, 55, 0, 0, "xi", None);
  (37, 56, 0, 0, "xi", None);
  (38, 44, 0, 0, "xi", None);
  (38, 46, 0, 0, "xi", None);
  (38, 48, 0, 0, "xi", None);
  (38, 50, 0, 0, "xi", None);
  (38, 51, 0, 0, "xi", None);
  (38, 53, 0, 0, "xi", None);
  (38, 54, 0, 0, "xi", None);
  (38, 56, 0, 0, "xi", None);
  (38, 57, 0, 0, "xi", None);
  (39, 49, 0, 0, "xi", None);
  (39, 52, 0, 0, "xi", None);
  (39, 55, 0, 0, "xi", None);
  (40, 49, 0, 0, "xi", None);
  (40, 50, 0, 0, "xi", None);
  (40, 52, 0, 0, "xi", None);
  (40, 53, 0, 0, "xi", None);
  (40, 55, 0, 0, "xi", None);
  (40, 56, 0, 0, "xi", None);
  (41, 50, 0, 0, "xi", None);
  (41, 51, 0, 0, "xi", None);
  (41, 53, 0, 0, "xi", None);
  (41, 54, 0, 0, "xi", None);
  (41, 56, 0, 0, "xi", None);
  (41, 57, 0, 0, "xi", None);
  (42, 51, 0, 0, "xi", None);
  (42, 54, 0, 0, "xi", None);
  (42, 57, 0, 0, "xi", None);
  (43, 58, 0, 0, "xi", None);
  (43, 59, 0, 0, "xi", None);
  (43, 60, 0, 0, "xi", None);
  (43, 61, 0, 0, "xi", None);
  (43, 62, 0, 0, "xi", None);
  (43, 63, 0, 0, "xi", None);
  (44, 58, 0, 0, "xi", None);
  (44, 59, 0, 0, "xi", None);
  (44, 60, 0, 0, "xi", None);
  (44, 61, 0, 0, "xi", None);
  (44, 62, 0, 0, "xi", None);
  (44, 63, 0, 0, "xi", None);
  (45, 58, 0, 0, "xi", None);
  (45, 59, 0, 0, "xi", None);
  (45, 60, 0, 0, "xi", None);
  (45, 61, 0, 0, "xi", None);
  (45, 62, 0, 0, "xi", None);
  (45, 63, 0, 0, "xi", None);
  (46, 58, 0, 0, "xi", None);
  (46, 59, 0, 0, "xi", None);
  (46, 60, 0, 0, "xi", None);
  (46, 61, 0, 0, "xi", None);
  (46, 62, 0, 0, "xi", None);
  (46, 63, 0, 0, "xi", None);
  (47, 58, 0, 0, "xi", None);
  (47, 59, 0, 0, "xi", None);
  (47, 60, 0, 0, "xi", None);
  (47, 61, 0, 0, "xi", None);
  (47, 62, 0, 0, "xi", None);
  (47, 63, 0, 0, "xi", None);
  (48, 58, 0, 0, "xi", None);
  (48, 59, 0, 0, "xi", None);
  (48, 60, 0, 0, "xi", None);
  (48, 61, 0, 0, "xi", None);
  (48, 62, 0, 0, "xi", None);
  (48, 63, 0, 0, "xi", None);
  (49, 60, 0, 0, "xi", None);
  (49, 62, 0, 0, "xi", None);
  (50, 60, 0, 0, "xi", None);
  (50, 61, 0, 0, "xi", None);
  (50, 62, 0, 0, "xi", None);
  (50, 63, 0, 0, "xi", None);
  (51, 61, 0, 0, "xi", None);
  (51, 63, 0, 0, "xi", None);
  (52, 58, 0, 0, "xi", None);
  (52, 60, 0, 0, "xi", None);
  (53, 58, 0, 0, "xi", None);
  (53, 59, 0, 0, "xi", None);
  (53, 60, 0, 0, "xi", None);
  (53, 61, 0, 0, "xi", None);
  (54, 59, 0, 0, "xi", None);
  (54, 61, 0, 0, "xi", None);
  (55, 58, 0, 0, "xi", None);
  (55, 62, 0, 0, "xi", None);
  (56, 58, 0, 0, "xi", None);
  (56, 59, 0, 0, "xi", None);
  (56, 62, 0, 0, "xi", None);
  (56, 63, 0, 0, "xi", None);
  (57, 59, 0, 0, "xi", None);
  (57, 63, 0, 0, "xi", None);
  (58, 64, 0, 0, "xi", None);
  (59, 64, 0, 0, "xi", None);
  (60, 64, 0, 0, "xi", None);
  (61, 64, 0, 0, "xi", None);
  (62, 64, 0, 0, "xi", None);
  (63, 64, 0, 0, "xi", None);
  (1, 2, 1, 0, "xi", None);
  (1, 3, 1, 0, "xi", None);
  (1, 4, 1, 0, "xi", None);
  (1, 5, 1, 0, "xi", None);
  (1, 6, 1, 0, "xi", None);
  (1, 7, 1, 0, "xi", None);
  (2, 8, 1, 0, "xi", None);
  (2, 9, 1, 0, "xi", None);
  (2, 10, 1, 0, "xi", None);
  (2, 11, 1, 0, "xi", None);
  (2, 12, 1, 0, "xi", None);
  (2, 13, 1, 0, "xi", None);
  (2, 17, 1, 0, "xi", None);
  (2, 18, 1, 0, "xi", None);
  (2, 20, 1, 0, "xi", None);
  (2, 21, 1, 0, "xi", None);
  (3, 8, 1, 0, "xi", None);
  (3, 9, 1, 0, "xi", None);
  (3, 10, 1, 0, "xi", None);
  (3, 11, 1, 0, "xi", None);
  (3, 12, 1, 0, "xi", None);
  (3, 13, 1, 0, "xi", None);
  (3, 18, 1, 0, "xi", None);
  (3, 19, 1, 0, "xi", None);
  (3, 21, 1, 0, "xi", None);
  (3, 22, 1, 0, "xi", None);
  (4, 8, 1, 0, "xi", None);
  (4, 9, 1, 0, "xi", None);
  (4, 10, 1, 0, "xi", None);
  (4, 11, 1, 0, "xi", None);
  (4, 12, 1, 0, "xi", None);
  (4, 13, 1, 0, "xi", None);
  (4, 14, 1, 0, "xi", None);
  (4, 15, 1, 0, "xi", None);
  (4, 17, 1, 0, "xi", None);
  (4, 18, 1, 0, "xi", None);
  (5, 8, 1, 0, "xi", None);
  (5, 9, 1, 0, "xi", None);
  (5, 10, 1, 0, "xi", None);
  (5, 11, 1, 0, "xi", None);
  (5, 12, 1, 0, "xi", None);
  (5, 13, 1, 0, "xi", None);
  (5, 15, 1, 0, "xi", None);
  (5, 16, 1, 0, "xi", None);
  (5, 18, 1, 0, "xi", None);
  (5, 19, 1, 0, "xi", None);
  (6, 8, 1, 0, "xi", None);
  (6, 9, 1, 0, "xi", None);
  (6, 10, 1, 0, "xi", None);
  (6, 11, 1, 0, "xi", None);
  (6, 12, 1, 0, "xi", None);
  (6, 13, 1, 0, "xi", None);
  (6, 14, 1, 0, "xi", None);
  (6, 15, 1, 0, "xi", None);
  (6, 20, 1, 0, "xi", None);
  (6, 21, 1, 0, "xi", None);
  (7, 8, 1, 0, "xi", None);
  (7, 9, 1, 0, "xi", None);
  (7, 10, 1, 0, "xi", None);
  (7, 11, 1, 0, "xi", None);
  (7, 12, 1, 0, "xi", None);
  (7, 13, 1, 0, "xi", None);
  (7, 15, 1, 0, "xi", None);
  (7, 16, 1, 0, "xi", None);
  (7, 21, 1, 0, "xi", None);
  (7, 22, 1, 0, "xi", None);
  (8, 23, 1, 0, "xi", None);
  (8, 24, 1, 0, "xi", None);
  (8, 25, 1, 0, "xi", None);
  (8, 26, 1, 0, "xi", None);
  (8, 27, 1, 0, "xi", None);
  (8, 28, 1, 0, "xi", None);
  (8, 29, 1, 0, "xi", None);
  (8, 30, 1, 0, "xi", None);
  (8, 33, 1, 0, "xi", None);
  (8, 34, 1, 0, "xi", None);
  (8, 35, 1, 0, "xi", None);
  (8, 36, 1, 0, "xi", None);
  (9, 23, 1, 0, "xi", None);
  (9, 24, 1, 0, "xi", None);
  (9, 25, 1, 0, "xi", None);
  (9, 26, 1, 0, "xi", None);
  (9, 27, 1, 0, "xi", None);
  (9, 28, 1, 0, "xi", None);
  (9, 29, 1, 0, "xi", None);
  (9, 30, 1, 0, "xi", None);
  (9, 31, 1, 0, "xi", None);
  (9, 32, 1, 0, "xi", None);
  (9, 33, 1, 0, "xi", None);
  (9, 34, 1, 0, "xi", None);
  (9, 35, 1, 0, "xi", None);
  (9, 36, 1, 0, "xi", None);
  (9, 37, 1, 0, "xi", None);
  (9, 38, 1, 0, "xi", None);
  (10, 23, 1, 0, "xi", None);
  (10, 24, 1, 0, "xi", None);
  (10, 25, 1, 0, "xi", None);
  (10, 26, 1, 0, "xi", None);
  (10, 27, 1, 0, "xi", None);
  (10, 28, 1, 0, "xi", None);
  (10, 29, 1, 0, "xi", None);
  (10, 30, 1, 0, "xi", None);
  (10, 33, 1, 0, "xi", None);
  (10, 34, 1, 0, "xi", None);
  (10, 35, 1, 0, "xi", None);
  (10, 36, 1, 0, "xi", None);
  (11, 23, 1, 0, "xi", None);
  (11, 24, 1, 0, "xi", None);
  (11, 25, 1, 0, "xi", None);
  (11, 26, 1, 0, "xi", None);
  (11, 27, 1, 0, "xi", None);
  (11, 28, 1, 0, "xi", None);
  (11, 29, 1, 0, "xi", None);
  (11, 30, 1, 0, "xi", None);
  (11, 31, 1, 0, "xi", None);
  (11, 32, 1, 0, "xi", None);
  (11, 33, 1, 0, "xi", None);
  (11, 34, 1, 0, "xi", None);
  (11, 35, 1, 0, "xi", None);
  (11, 36, 1, 0, "xi", None);
  (11, 37, 1, 0, "xi", None);
  (11, 38, 1, 0, "xi", None);
  (12, 23, 1, 0, "xi", None);
  (12, 24, 1, 0, "xi", None);
  (12, 25, 1, 0, "xi", None);
  (12, 26, 1, 0, "xi", None);
  (12, 27, 1, 0, "xi", None);
  (12, 28, 1, 0, "xi", None);
  (12, 29, 1, 0, "xi", None);
  (12, 30, 1, 0, "xi", None);
  (12, 33, 1, 0, "xi", None);
  (12, 34, 1, 0, "xi", None);
  (12, 35, 1, 0, "xi", None);
  (12, 36, 1, 0, "xi", None);
  (13, 23, 1, 0, "xi", None);
  (13, 24, 1, 0, "xi", None);
  (13, 25, 1, 0, "xi", None);
  (13, 26, 1, 0, "xi", None);
  (13, 27, 1, 0, "xi", None);
  (13, 28, 1, 0, "xi", None);
  (13, 29, 1, 0, "xi", None);
  (13, 30, 1, 0, "xi", None);
  (13, 31, 1, 0, "xi", None);
  (13, 32, 1, 0, "xi", None);
  (13, 33, 1, 0, "xi", None);
  (13, 34, 1, 0, "xi", None);
  (13, 35, 1, 0, "xi", None);
  (13, 36, 1, 0, "xi", None);
  (13, 37, 1, 0, "xi", None);
  (13, 38, 1, 0, "xi", None);
  (14, 23, 1, 0, "xi", None);
  (14, 25, 1, 0, "xi", None);
  (14, 27, 1, 0, "xi", None);
  (14, 29, 1, 0, "xi", None);
  (14, 31, 1, 0, "xi", None);
  (14, 33, 1, 0, "xi", None);
  (14, 35, 1, 0, "xi", None);
  (14, 37, 1, 0, "xi", None);
  (14, 39, 1, 0, "xi", None);
  (14, 40, 1, 0, "xi", None);
  (15, 23, 1, 0, "xi", None);
  (15, 24, 1, 0, "xi", None);
  (15, 25, 1, 0, "xi", None);
  (15, 26, 1, 0, "xi", None);
  (15, 27, 1, 0, "xi", None);
  (15, 28, 1, 0, "xi", None);
  (15, 29, 1, 0, "xi", None);
  (15, 30, 1, 0, "xi", None);
  (15, 31, 1, 0, "xi", None);
  (15, 32, 1, 0, "xi", None);
  (15, 33, 1, 0, "xi", None);
  (15, 34, 1, 0, "xi", None);
  (15, 35, 1, 0, "xi", None);
  (15, 36, 1, 0, "xi", None);
  (15, 37, 1, 0, "xi", None);
  (15, 38, 1, 0, "xi", None);
  (15, 40, 1, 0, "xi", None);
  (15, 41, 1, 0, "xi", None);
  (16, 24, 1, 0, "xi", None);
  (16, 26, 1, 0, "xi", None);
  (16, 28, 1, 0, "xi", None);
  (16, 30, 1, 0, "xi", None);
  (16, 32, 1, 0, "xi", None);
  (16, 34, 1, 0, "xi", None);
  (16, 36, 1, 0, "xi", None);
  (16, 38, 1, 0, "xi", None);
  (16, 41, 1, 0, "xi", None);
  (16, 42, 1, 0, "xi", None);
  (17, 23, 1, 0, "xi", None);
  (17, 25, 1, 0, "xi", None);
  (17, 27, 1, 0, "xi", None);
  (17, 29, 1, 0, "xi", None);
  (17, 31, 1, 0, "xi", None);
  (17, 33, 1, 0, "xi", None);
  (17, 35, 1, 0, "xi", None);
  (17, 37, 1, 0, "xi", None);
  (17, 39, 1, 0, "xi", None);
  (17, 40, 1, 0, "xi", None);
  (18, 23, 1, 0, "xi", None);
  (18, 24, 1, 0, "xi", None);
  (18, 25, 1, 0, "xi", None);
  (18, 26, 1, 0, "xi", None);
  (18, 27, 1, 0, "xi", None);
  (18, 28, 1, 0, "xi", None);
  (18, 29, 1, 0, "xi", None);
  (18, 30, 1, 0, "xi", None);
  (18, 31, 1, 0, "xi", None);
  (18, 32, 1, 0, "xi", None);
  (18, 33, 1, 0, "xi", None);
  (18, 34, 1, 0, "xi", None);
  (18, 35, 1, 0, "xi", None);
  (18, 36, 1, 0, "xi", None);
  (18, 37, 1, 0, "xi", None);
  (18, 38, 1, 0, "xi", None);
  (18, 40, 1, 0, "xi", None);
  (18, 41, 1, 0, "xi", None);
  (19, 24, 1, 0, "xi", None);
  (19, 26, 1, 0, "xi", None);
  (19, 28, 1, 0, "xi", None);
  (19, 30, 1, 0, "xi", None);
  (19, 32, 1, 0, "xi", None);
  (19, 34, 1, 0, "xi", None);
  (19, 36, 1, 0, "xi", None);
  (19, 38, 1, 0, "xi", None);
  (19, 41, 1, 0, "xi", None);
  (19, 42, 1, 0, "xi", None);
  (20, 23, 1, 0, "xi", None);
  (20, 25, 1, 0, "xi", None);
  (20, 27, 1, 0, "xi", None);
  (20, 29, 1, 0, "xi", None);
  (20, 31, 1, 0, "xi", None);
  (20, 33, 1, 0, "xi", None);
  (20, 35, 1, 0, "xi", None);
  (20, 37, 1, 0, "xi", None);
  (20, 39, 1, 0, "xi", None);
  (20, 40, 1, 0, "xi", None);
  (21, 23, 1, 0, "xi", None);
  (21, 24, 1, 0, "xi", None);
  (21, 25, 1, 0, "xi", None);
  (21, 26, 1, 0, "xi", None);
  (21, 27, 1, 0, "xi", None);
  (21, 28, 1, 0, "xi", None);
  (21, 29, 1, 0, "xi", None);
  (21, 30, 1, 0, "xi", None);
  (21, 31, 1, 0, "xi", None);
  (21, 32, 1, 0, "xi", None);
  (21, 33, 1, 0, "xi", None);
  (21, 34, 1, 0, "xi", None);
  (21, 35, 1, 0, "xi", None);
  (21, 36, 1, 0, "xi", None);
  (21, 37, 1, 0, "xi", None);
  (21, 38, 1, 0, "xi", None);
  (21, 40, 1, 0, "xi", None);
  (21, 41, 1, 0, "xi", None);
  (22, 24, 1, 0, "xi", None);
  (22, 26, 1, 0, "xi", None);
  (22, 28, 1, 0, "xi", None);
  (22, 30, 1, 0, "xi", None);
  (22, 32, 1, 0, "xi", None);
  (22, 34, 1, 0, "xi", None);
  (22, 36, 1, 0, "xi", None);
  (22, 38, 1, 0, "xi", None);
  (22, 41, 1, 0, "xi", None);
  (22, 42, 1, 0, "xi", None);
  (23, 43, 1, 0, "xi", None);
  (23, 44, 1, 0, "xi", None);
  (23, 45, 1, 0, "xi", None);
  (23, 46, 1, 0, "xi", None);
  (23, 47, 1, 0, "xi", None);
  (23, 48, 1, 0, "xi", None);
  (23, 49, 1, 0, "xi", None);
  (23, 50, 1, 0, "xi", None);
  (23, 52, 1, 0, "xi", None);
  (23, 53, 1, 0, "xi", None);
  (23, 55, 1, 0, "xi", None);
  (23, 56, 1, 0, "xi", None);
  (24, 43, 1, 0, "xi", None);
  (24, 44, 1, 0, "xi", None);
  (24, 45, 1, 0, "xi", None);
  (24, 46, 1, 0, "xi", None);
  (24, 47, 1, 0, "xi", None);
  (24, 48, 1, 0, "xi", None);
  (24, 50, 1, 0, "xi", None);
  (24, 51, 1, 0, "xi", None);
  (24, 53, 1, 0, "xi", None);
  (24, 54, 1, 0, "xi", None);
  (24, 56, 1, 0, "xi", None);
  (24, 57, 1, 0, "xi", None);
  (25, 43, 1, 0, "xi", None);
  (25, 44, 1, 0, "xi", None);
  (25, 45, 1, 0, "xi", None);
  (25, 46, 1, 0, "xi", None);
  (25, 47, 1, 0, "xi", None);
  (25, 48, 1, 0, "xi", None);
  (25, 49, 1, 0, "xi", None);
  (25, 50, 1, 0, "xi", None);
  (25, 52, 1, 0, "xi", None);
  (25, 53, 1, 0, "xi", None);
  (25, 55, 1, 0, "xi", None);
  (25, 56, 1, 0, "xi", None);
  (26, 43, 1, 0, "xi", None);
  (26, 44, 1, 0, "xi", None);
  (26, 45, 1, 0, "xi", None);
  (26, 46, 1, 0, "xi", None);
  (26, 47, 1, 0, "xi", None);
  (26, 48, 1, 0, "xi", None);
  (26, 50, 1, 0, "xi", None);
  (26, 51, 1, 0, "xi", None);
  (26, 53, 1, 0, "xi", None);
  (26, 54, 1, 0, "xi", None);
  (26, 56, 1, 0, "xi", None);
  (26, 57, 1, 0, "xi", None);
  (27, 43, 1, 0, "xi", None);
  (27, 44, 1, 0, "xi", None);
  (27, 45, 1, 0, "xi", None);
  (27, 46, 1, 0, "xi", None);
  (27, 47, 1, 0, "xi", None);
  (27, 48, 1, 0, "xi", None);
  (27, 49, 1, 0, "xi", None);
  (27, 50, 1, 0, "xi", None);
  (27, 52, 1, 0, "xi", None);
  (27, 53, 1, 0, "xi", None);
  (27, 55, 1, 0, "xi", None);
  (27, 56, 1, 0, "xi", None);
  (28, 43, 1, 0, "xi", None);
  (28, 44, 1, 0, "xi", None);
  (28, 45, 1, 0, "xi", None);
  (28, 46, 1, 0, "xi", None);
  (28, 47, 1, 0, "xi", None);
  (28, 48, 1, 0, "xi", None);
  (28, 50, 1, 0, "xi", None);
  (28, 51, 1, 0, "xi", None);
  (28, 53, 1, 0, "xi", None);
  (28, 54, 1, 0, "xi", None);
  (28, 56, 1, 0, "xi", None);
  (28, 57, 1, 0, "xi", None);
  (29, 43, 1, 0, "xi", None);
  (29, 44, 1, 0, "xi", None);
  (29, 45, 1, 0, "xi", None);
  (29, 46, 1, 0, "xi", None);
  (29, 47, 1, 0, "xi", None);
  (29, 48, 1, 0, "xi", None);
  (29, 49, 1, 0, "xi", None);
  (29, 50, 1, 0, "xi", None);
  (29, 52, 1, 0, "xi", None);
  (29, 53, 1, 0, "xi", None);
  (29, 55, 1, 0, "xi", None);
  (29, 56, 1, 0, "xi", None);
  (30, 43, 1, 0, "xi", None);
  (30, 44, 1, 0, "xi", None);
  (30, 45, 1, 0, "xi", None);
  (30, 46, 1, 0, "xi", None);
  (30, 47, 1, 0, "xi", None);
  (30, 48, 1, 0, "xi", None);
  (30, 50, 1, 0, "xi", None);
  (30, 51, 1, 0, "xi", None);
  (30, 53, 1, 0, "xi", None);
  (30, 54, 1, 0, "xi", None);
  (30, 56, 1, 0, "xi", None);
  (30, 57, 1, 0, "xi", None);
  (31, 44, 1, 0, "xi", None);
  (31, 46, 1, 0, "xi", None);
  (31, 48, 1, 0, "xi", None);
  (31, 49, 1, 0, "xi", None);
  (31, 50, 1, 0, "xi", None);
  (31, 52, 1, 0, "xi", None);
  (31, 53, 1, 0, "xi", None);
  (31, 55, 1, 0, "xi", None);
  (31, 56, 1, 0, "xi", None);
  (32, 44, 1, 0, "xi", None);
  (32, 46, 1, 0, "xi", None);
  (32, 48, 1, 0, "xi", None);
  (32, 50, 1, 0, "xi", None);
  (32, 51, 1, 0, "xi", None);
  (32, 53, 1, 0, "xi", None);
  (32, 54, 1, 0, "xi", None);
  (32, 56, 1, 0, "xi", None);
  (32, 57, 1, 0, "xi", None);
  (33, 43, 1, 0, "xi", None);
  (33, 44, 1, 0, "xi", None);
  (33, 45, 1, 0, "xi", None);
  (33, 46, 1, 0, "xi", None);
  (33, 47, 1, 0, "xi", None);
  (33, 48, 1, 0, "xi", None);
  (33, 49, 1, 0, "xi", None);
  (33, 50, 1, 0, "xi", None);
  (33, 52, 1, 0, "xi", None);
  (33, 53, 1, 0, "xi", None);
  (33, 55, 1, 0, "xi", None);
  (33, 56, 1, 0, "xi", None);
  (34, 43, 1, 0, "xi", None);
  (34, 44, 1, 0, "xi", None);
  (34, 45, 1, 0, "xi", None);
  (34, 46, 1, 0, "xi", None);
  (34, 47, 1, 0, "xi", None);
  (34, 48, 1, 0, "xi", None);
  (34, 50, 1, 0, "xi", None);
  (34, 51, 1, 0, "xi", None);
  (34, 53, 1, 0, "xi", None);
  (34, 54, 1, 0, "xi", None);
  (34, 56, 1, 0, "xi", None);
  (34, 57, 1, 0, "xi", None);
  (35, 43, 1, 0, "xi", None);
  (35, 44, 1, 0, "xi", None);
  (35, 45, 1, 0, "xi", None);
  (35, 46, 1, 0, "xi", None);
  (35, 47, 1, 0, "xi", None);
  (35, 48, 1, 0, "xi", None);
  (35, 49, 1, 0, "xi", None);
  (35, 50, 1, 0, "xi", None);
  (35, 52, 1, 0, "xi", None);
  (35, 53, 1, 0, "xi", None);
  (35, 55, 1, 0, "xi", None);
  (35, 56, 1, 0, "xi", None);
  (36, 43, 1, 0, "xi", None);
  (36, 44, 1, 0, "xi", None);
  (36, 45, 1, 0, "xi", None);
  (36, 46, 1, 0, "xi", None);
  (36, 47, 1, 0, "xi", None);
  (36, 48, 1, 0, "xi", None);
  (36, 50, 1, 0, "xi", None);
  (36, 51, 1, 0, "xi", None);
  (36, 53, 1, 0, "xi", None);
  (36, 54, 1, 0, "xi", None);
  (36, 56, 1, 0, "xi", None);
  (36, 57, 1, 0, "xi", None);
  (37, 44, 1, 0, "xi", None);
  (37, 46, 1, 0, "xi", None);
  (37, 48, 1, 0, "xi", None);
  (37, 49, 1, 0, "xi", None);
  (37, 50, 1, 0, "xi", None);
  (37, 52, 1, 0, "xi", None);
  (37, 53, 1, 0, "xi", None);
  (37, 55, 1, 0, "xi", None);
  (37, 56, 1, 0, "xi", None);
  (38, 44, 1, 0, "xi", None);
  (38, 46, 1, 0, "xi", None);
  (38, 48, 1, 0, "xi", None);
  (38, 50, 1, 0, "xi", None);
  (38, 51, 1, 0, "xi", None);
  (38, 53, 1, 0, "xi", None);
  (38, 54, 1, 0, "xi", None);
  (38, 56, 1, 0, "xi", None);
  (38, 57, 1, 0, "xi", None);
  (39, 49, 1, 0, "xi", None);
  (39, 52, 1, 0, "xi", None);
  (39, 55, 1, 0, "xi", None);
  (40, 49, 1, 0, "xi", None);
  (40, 50, 1, 0, "xi", None);
  (40, 52, 1, 0, "xi", None);
  (40, 53, 1, 0, "xi", None);
  (40, 55, 1, 0, "xi", None);
  (40, 56, 1, 0, "xi", None);
  (41, 50, 1, 0, "xi", None);
  (41, 51, 1, 0, "xi", None);
  (41, 53, 1, 0, "xi", None);
  (41, 54, 1, 0, "xi", None);
  (41, 56, 1, 0, "xi", None);
  (41, 57, 1, 0, "xi", None);
  (42, 51, 1, 0, "xi", None);
  (42, 54, 1, 0, "xi", None);
  (42, 57, 1, 0, "xi", None);
  (43, 58, 1, 0, "xi", None);
  (43, 59, 1, 0, "xi", None);
  (43, 60, 1, 0, "xi", None);
  (43, 61, 1, 0, "xi", None);
  (43, 62, 1, 0, "xi", None);
  (43, 63, 1, 0, "xi", None);
  (44, 58, 1, 0, "xi", None);
  (44, 59, 1, 0, "xi", None);
  (44, 60, 1, 0, "xi", None);
  (44, 61, 1, 0, "xi", None);
  (44, 62, 1, 0, "xi", None);
  (44, 63, 1, 0, "xi", None);
  (45, 58, 1, 0, "xi", None);
  (45, 59, 1, 0, "xi", None);
  (45, 60, 1, 0, "xi", None);
  (45, 61, 1, 0, "xi", None);
  (45, 62, 1, 0, "xi", None);
  (45, 63, 1, 0, "xi", None);
  (46, 58, 1, 0, "xi", None);
  (46, 59, 1, 0, "xi", None);
  (46, 60, 1, 0, "xi", None);
  (46, 61, 1, 0, "xi", None);
  (46, 62, 1, 0, "xi", None);
  (46, 63, 1, 0, "xi", None);
  (47, 58, 1, 0, "xi", None);
  (47, 59, 1, 0, "xi", None);
  (47, 60, 1, 0, "xi", None);
  (47, 61, 1, 0, "xi", None);
  (47, 62, 1, 0, "xi", None);
  (47, 63, 1, 0, "xi", None);
  (48, 58, 1, 0, "xi", None);
  (48, 59, 1, 0, "xi", None);
  (48, 60, 1, 0, "xi", None);
  (48, 61, 1, 0, "xi", None);
  (48, 62, 1, 0, "xi", None);
  (48, 63, 1, 0, "xi", None);
  (49, 60, 1, 0, "xi", None);
  (49, 62, 1, 0, "xi", None);
  (50, 60, 1, 0, "xi", None);
  (50, 61, 1, 0, "xi", None);
  (50, 62, 1, 0, "xi", None);
  (50, 63, 1, 0, "xi", None);
  (51, 61, 1, 0, "xi", None);
  (51, 63, 1, 0, "xi", None);
  (52, 58, 1, 0, "xi", None);
  (52, 60, 1, 0, "xi", None);
  (53, 58, 1, 0, "xi", None);
  (53, 59, 1, 0, "xi", None);
  (53, 60, 1, 0, "xi", None);
  (53, 61, 1, 0, "xi", None);
  (54, 59, 1, 0, "xi", None);
  (54, 61, 1, 0, "xi", None);
  (55, 58, 1, 0, "xi", None);
  (55, 62, 1, 0, "xi", None);
  (56, 58, 1, 0, "xi", None);
  (56, 59, 1, 0, "xi", None);
  (56, 62, 1, 0, "xi", None);
  (56, 63, 1, 0, "xi", None);
  (57, 59, 1, 0, "xi", None);
  (57, 63, 1, 0, "xi", None);
  (58, 64, 1, 0, "xi", None);
  (59, 64, 1, 0, "xi", None);
  (60, 64, 1, 0, "xi", None);
  (61, 64, 1, 0, "xi", None);
  (62, 64, 1, 0, "xi", None);
  (63, 64, 1, 0, "xi", None);
  (1, 2, 2, 0, "xi", None);
  (1, 3, 2, 0, "xi", None);
  (1, 4, 2, 0, "xi", None);
  (1, 5, 2, 0, "xi", None);
  (1, 6, 2, 0, "xi", None);
  (1, 7, 2, 0, "xi", None);
  (2, 8, 2, 0, "xi", None);
  (2, 9, 2, 0, "xi", None);
  (2, 10, 2, 0, "xi", None);
  (2, 11, 2, 0, "xi", None);
  (2, 12, 2, 0, "xi", None);
  (2, 13, 2, 0, "xi", None);
  (2, 17, 2, 0, "xi", None);
  (2, 18, 2, 0, "xi", None);
  (2, 20, 2, 0, "xi", None);
  (2, 21, 2, 0, "xi", None);
  (3, 8, 2, 0, "xi", None);
  (3, 9, 2, 0, "xi", None);
  (3, 10, 2, 0, "xi", None);
  (3, 11, 2, 0, "xi", None);
  (3, 12, 2, 0, "xi", None);
  (3, 13, 2, 0, "xi", None);
  (3, 18, 2, 0, "xi", None);
  (3, 19, 2, 0, "xi", None);
  (3, 21, 2, 0, "xi", None);
  (3, 22, 2, 0, "xi", None);
  (4, 8, 2, 0, "xi", None);
  (4, 9, 2, 0, "xi", None);
  (4, 10, 2, 0, "xi", None);
  (4, 11, 2, 0, "xi", None);
  (4, 12, 2, 0, "xi", None);
  (4, 13, 2, 0, "xi", None);
  (4, 14, 2, 0, "xi", None);
  (4, 15, 2, 0, "xi", None);
  (4, 17, 2, 0, "xi", None);
  (4, 18, 2, 0, "xi", None);
  (5, 8, 2, 0, "xi", None);
  (5, 9, 2, 0, "xi", None);
  (5, 10, 2, 0, "xi", None);
  (5, 11, 2, 0, "xi", None);
  (5, 12, 2, 0, "xi", None);
  (5, 13, 2, 0, "xi", None);
  (5, 15, 2, 0, "xi", None);
  (5, 16, 2, 0, "xi", None);
  (5, 18, 2, 0, "xi", None);
  (5, 19, 2, 0, "xi", None);
  (6, 8, 2, 0, "xi", None);
  (6, 9, 2, 0, "xi", None);
  (6, 10, 2, 0, "xi", None);
  (6, 11, 2, 0, "xi", None);
  (6, 12, 2, 0, "xi", None);
  (6, 13, 2, 0, "xi", None);
  (6, 14, 2, 0, "xi", None);
  (6, 15, 2, 0, "xi", None);
  (6, 20, 2, 0, "xi", None);
  (6, 21, 2, 0, "xi", None);
  (7, 8, 2, 0, "xi", None);
  (7, 9, 2, 0, "xi", None);
  (7, 10, 2, 0, "xi", None);
  (7, 11, 2, 0, "xi", None);
  (7, 12, 2, 0, "xi", None);
  (7, 13, 2, 0, "xi", None);
  (7, 15, 2, 0, "xi", None);
  (7, 16, 2, 0, "xi", None);
  (7, 21, 2, 0, "xi", None);
  (7, 22, 2, 0, "xi", None);
  (8, 23, 2, 0, "xi", None);
  (8, 24, 2, 0, "xi", None);
  (8, 25, 2, 0, "xi", None);
  (8, 26, 2, 0, "xi", None);
  (8, 27, 2, 0, "xi", None);
  (8, 28, 2, 0, "xi", None);
  (8, 29, 2, 0, "xi", None);
  (8, 30, 2, 0, "xi", None);
  (8, 33, 2, 0, "xi", None);
  (8, 34, 2, 0, "xi", None);
  (8, 35, 2, 0, "xi", None);
  (8, 36, 2, 0, "xi", None);
  (9, 23, 2, 0, "xi", None);
  (9, 24, 2, 0, "xi", None);
  (9, 25, 2, 0, "xi", None);
  (9, 26, 2, 0, "xi", None);
  (9, 27, 2, 0, "xi", None);
  (9, 28, 2, 0, "xi", None);
  (9, 29, 2, 0, "xi", None);
  (9, 30, 2, 0, "xi", None);
  (9, 31, 2, 0, "xi", None);
  (9, 32, 2, 0, "xi", None);
  (9, 33, 2, 0, "xi", None);
  (9, 34, 2, 0, "xi", None);
  (9, 35, 2, 0, "xi", None);
  (9, 36, 2, 0, "xi", None);
  (9, 37, 2, 0, "xi", None);
  (9, 38, 2, 0, "xi", None);
  (10, 23, 2, 0, "xi", None);
  (10, 24, 2, 0, "xi", None);
  (10, 25, 2, 0, "xi", None);
  (10, 26, 2, 0, "xi", None);
  (10, 27, 2, 0, "xi", None);
  (10, 28, 2, 0, "xi", None);
  (10, 29, 2, 0, "xi", None);
  (10, 30, 2, 0, "xi", None);
  (10, 33, 2, 0, "xi", None);
  (10, 34, 2, 0, "xi", None);
  (10, 35, 2, 0, "xi", None);
  (10, 36, 2, 0, "xi", None);
  (11, 23, 2, 0, "xi", None);
  (11, 24, 2, 0, "xi", None);
  (11, 25, 2, 0, "xi", None);
  (11, 26, 2, 0, "xi", None);
  (11, 27, 2, 0, "xi", None);
  (11, 28, 2, 0, "xi", None);
  (11, 29, 2, 0, "xi", None);
  (11, 30, 2, 0, "xi", None);
  (11, 31, 2, 0, "xi", None);
  (11, 32, 2, 0, "xi", None);
  (11, 33, 2, 0, "xi", None);
  (11, 34, 2, 0, "xi", None);
  (11, 35, 2, 0, "xi", None);
  (11, 36, 2, 0, "xi", None);
  (11, 37, 2, 0, "xi", None);
  (11, 38, 2, 0, "xi", None);
  (12, 23, 2, 0, "xi", None);
  (12, 24, 2, 0, "xi", None);
  (12, 25, 2, 0, "xi", None);
  (12, 26, 2, 0, "xi", None);
  (12, 27, 2, 0, "xi", None);
  (12, 28, 2, 0, "xi", None);
  (12, 29, 2, 0, "xi", None);
  (12, 30, 2, 0, "xi", None);
  (12, 33, 2, 0, "xi", None);
  (12, 34, 2, 0, "xi", None);
  (12, 35, 2, 0, "xi", None);
  (12, 36, 2, 0, "xi", None);
  (13, 23, 2, 0, "xi", None);
  (13, 24, 2, 0, "xi", None);
  (13, 25, 2, 0, "xi", None);
  (13, 26, 2, 0, "xi", None);
  (13, 27, 2, 0, "xi", None);
  (13, 28, 2, 0, "xi", None);
  (13, 29, 2, 0, "xi", None);
  (13, 30, 2, 0, "xi", None);
  (13, 31, 2, 0, "xi", None);
  (13, 32, 2, 0, "xi", None);
  (13, 33, 2, 0, "xi", None);
  (13, 34, 2, 0, "xi", None);
  (13, 35, 2, 0, "xi", None);
  (13, 36, 2, 0, "xi", None);
  (13, 37, 2, 0, "xi", None);
  (13, 38, 2, 0, "xi", None);
  (14, 23, 2, 0, "xi", None);
  (14, 25, 2, 0, "xi", None);
  (14, 27, 2, 0, "xi", None);
  (14, 29, 2, 0, "xi", None);
  (14, 31, 2, 0, "xi", None);
  (14, 33, 2, 0, "xi", None);
  (14, 35, 2, 0, "xi", None);
  (14, 37, 2, 0, "xi", None);
  (14, 39, 2, 0, "xi", None);
  (14, 40, 2, 0, "xi", None);
  (15, 23, 2, 0, "xi", None);
  (15, 24, 2, 0, "xi", None);
  (15, 25, 2, 0, "xi", None);
  (15, 26, 2, 0, "xi", None);
  (15, 27, 2, 0, "xi", None);
  (15, 28, 2, 0, "xi", None);
  (15, 29, 2, 0, "xi", None);
  (15, 30, 2, 0, "xi", None);
  (15, 31, 2, 0, "xi", None);
  (15, 32, 2, 0, "xi", None);
  (15, 33, 2, 0, "xi", None);
  (15, 34, 2, 0, "xi", None);
  (15, 35, 2, 0, "xi", None);
  (15, 36, 2, 0, "xi", None);
  (15, 37, 2, 0, "xi", None);
  (15, 38, 2, 0, "xi", None);
  (15, 40, 2, 0, "xi", None);
  (15, 41, 2, 0, "xi", None);
  (16, 24, 2, 0, "xi", None);
  (16, 26, 2, 0, "xi", None);
  (16, 28, 2, 0, "xi", None);
  (16, 30, 2, 0, "xi", None);
  (16, 32, 2, 0, "xi", None);
  (16, 34, 2, 0, "xi", None);
  (16, 36, 2, 0, "xi", None);
  (16, 38, 2, 0, "xi", None);
  (16, 41, 2, 0, "xi", None);
  (16, 42, 2, 0, "xi", None);
  (17, 23, 2, 0, "xi", None);
  (17, 25, 2, 0, "xi", None);
  (17, 27, 2, 0, "xi", None);
  (17, 29, 2, 0, "xi", None);
  (17, 31, 2, 0, "xi", None);
  (17, 33, 2, 0, "xi", None);
  (17, 35, 2, 0, "xi", None);
  (17, 37, 2, 0, "xi", None);
  (17, 39, 2, 0, "xi", None);
  (17, 40, 2, 0, "xi", None);
  (18, 23, 2, 0, "xi", None);
  (18, 24, 2, 0, "xi", None);
  (18, 25, 2, 0, "xi", None);
  (18, 26, 2, 0, "xi", None);
  (18, 27, 2, 0, "xi", None);
  (18, 28, 2, 0, "xi", None);
  (18, 29, 2, 0, "xi", None);
  (18, 30, 2, 0, "xi", None);
  (18, 31, 2, 0, "xi", None);
  (18, 32, 2, 0, "xi", None);
  (18, 33, 2, 0, "xi", None);
  (18, 34, 2, 0, "xi", None);
  (18, 35, 2, 0, "xi", None);
  (18, 36, 2, 0, "xi", None);
  (18, 37, 2, 0, "xi", None);
  (18, 38, 2, 0, "xi", None);
  (18, 40, 2, 0, "xi", None);
  (18, 41, 2, 0, "xi", None);
  (19, 24, 2, 0, "xi", None);
  (19, 26, 2, 0, "xi", None);
  (19, 28, 2, 0, "xi", None);
  (19, 30, 2, 0, "xi", None);
  (19, 32, 2, 0, "xi", None);
  (19, 34, 2, 0, "xi", None);
  (19, 36, 2, 0, "xi", None);
  (19, 38, 2, 0, "xi", None);
  (19, 41, 2, 0, "xi", None);
  (19, 42, 2, 0, "xi", None);
  (20, 23, 2, 0, "xi", None);
  (20, 25, 2, 0, "xi", None);
  (20, 27, 2, 0, "xi", None);
  (20, 29, 2, 0, "xi", None);
  (20, 31, 2, 0, "xi", None);
  (20, 33, 2, 0, "xi", None);
  (20, 35, 2, 0, "xi", None);
  (20, 37, 2, 0, "xi", None);
  (20, 39, 2, 0, "xi", None);
  (20, 40, 2, 0, "xi", None);
  (21, 23, 2, 0, "xi", None);
  (21, 24, 2, 0, "xi", None);
  (21, 25, 2, 0, "xi", None);
  (21, 26, 2, 0, "xi", None);
  (21, 27, 2, 0, "xi", None);
  (21, 28, 2, 0, "xi", None);
  (21, 29, 2, 0, "xi", None);
  (21, 30, 2, 0, "xi", None);
  (21, 31, 2, 0, "xi", None);
  (21, 32, 2, 0, "xi", None);
  (21, 33, 2, 0, "xi", None);
  (21, 34, 2, 0, "xi", None);
  (21, 35, 2, 0, "xi", None);
  (21, 36, 2, 0, "xi", None);
  (21, 37, 2, 0, "xi", None);
  (21, 38, 2, 0, "xi", None);
  (21, 40, 2, 0, "xi", None);
  (21, 41, 2, 0, "xi", None);
  (22, 24, 2, 0, "xi", None);
  (22, 26, 2, 0, "xi", None);
  (22, 28, 2, 0, "xi", None);
  (22, 30, 2, 0, "xi", None);
  (22, 32, 2, 0, "xi", None);
  (22, 34, 2, 0, "xi", None);
  (22, 36, 2, 0, "xi", None);
  (22, 38, 2, 0, "xi", None);
  (22, 41, 2, 0, "xi", None);
  (22, 42, 2, 0, "xi", None);
  (23, 43, 2, 0, "xi", None);
  (23, 44, 2, 0, "xi", None);
  (23, 45, 2, 0, "xi", None);
  (23, 46, 2, 0, "xi", None);
  (23, 47, 2, 0, "xi", None);
  (23, 48, 2, 0, "xi", None);
  (23, 49, 2, 0, "xi", None);
  (23, 50, 2, 0, "xi", None);
  (23, 52, 2, 0, "xi", None);
  (23, 53, 2, 0, "xi", None);
  (23, 55, 2, 0, "xi", None);
  (23, 56, 2, 0, "xi", None);
  (24, 43, 2, 0, "xi", None);
  (24, 44, 2, 0, "xi", None);
  (24, 45, 2, 0, "xi", None);
  (24, 46, 2, 0, "xi", None);
  (24, 47, 2, 0, "xi", None);
  (24, 48, 2, 0, "xi", None);
  (24, 50, 2, 0, "xi", None);
  (24, 51, 2, 0, "xi", None);
  (24, 53, 2, 0, "xi", None);
  (24, 54, 2, 0, "xi", None);
  (24, 56, 2, 0, "xi", None);
  (24, 57, 2, 0, "xi", None);
  (25, 43, 2, 0, "xi", None);
  (25, 44, 2, 0, "xi", None);
  (25, 45, 2, 0, "xi", None);
  (25, 46, 2, 0, "xi", None);
  (25, 47, 2, 0, "xi", None);
  (25, 48, 2, 0, "xi", None);
  (25, 49, 2, 0, "xi", None);
  (25, 50, 2, 0, "xi", None);
  (25, 52, 2, 0, "xi", None);
  (25, 53, 2, 0, "xi", None);
  (25, 55, 2, 0, "xi", None);
  (25, 56, 2, 0, "xi", None);
  (26, 43, 2, 0, "xi", None);
  (26, 44, 2, 0, "xi", None);
  (26, 45, 2, 0, "xi", None);
  (26, 46, 2, 0, "xi", None);
  (26, 47, 2, 0, "xi", None);
  (26, 48, 2, 0, "xi", None);
  (26, 50, 2, 0, "xi", None);
  (26, 51, 2, 0, "xi", None);
  (26, 53, 2, 0, "xi", None);
  (26, 54, 2, 0, "xi", None);
  (26, 56, 2, 0, "xi", None);
  (26, 57, 2, 0, "xi", None);
  (27, 43, 2, 0, "xi", None);
  (27, 44, 2, 0, "xi", None);
  (27, 45, 2, 0, "xi", None);
  (27, 46, 2, 0, "xi", None);
  (27, 47, 2, 0, "xi", None);
  (27, 48, 2, 0, "xi", None);
  (27, 49, 2, 0, "xi", None);
  (27, 50, 2, 0, "xi", None);
  (27, 52, 2, 0, "xi", None);
  (27, 53, 2, 0, "xi", None);
  (27, 55, 2, 0, "xi", None);
  (27, 56, 2, 0, "xi", None);
  (28, 43, 2, 0, "xi", None);
  (28, 44, 2, 0, "xi", None);
  (28, 45, 2, 0, "xi", None);
  (28, 46, 2, 0, "xi", None);
  (28, 47, 2, 0, "xi", None);
  (28, 48, 2, 0, "xi", None);
  (28, 50, 2, 0, "xi", None);
  (28, 51, 2, 0, "xi", None);
  (28, 53, 2, 0, "xi", None);
  (28, 54, 2, 0, "xi", None);
  (28, 56, 2, 0, "xi", None);
  (28, 57, 2, 0, "xi", None);
  (29, 43, 2, 0, "xi", None);
  (29, 44, 2, 0, "xi", None);
  (29, 45, 2, 0, "xi", None);
  (29, 46, 2, 0, "xi", None);
  (29, 47, 2, 0, "xi", None);
  (29, 48, 2, 0, "xi", None);
  (29, 49, 2, 0, "xi", None);
  (29, 50, 2, 0, "xi", None);
  (29, 52, 2, 0, "xi", None);
  (29, 53, 2, 0, "xi", None);
  (29, 55, 2, 0, "xi", None);
  (29, 56, 2, 0, "xi", None);
  (30, 43, 2, 0, "xi", None);
  (30, 44, 2, 0, "xi", None);
  (30, 45, 2, 0, "xi", None);
  (30, 46, 2, 0, "xi", None);
  (30, 47, 2, 0, "xi", None);
  (30, 48, 2, 0, "xi", None);
  (30, 50, 2, 0, "xi", None);
  (30, 51, 2, 0, "xi", None);
  (30, 53, 2, 0, "xi", None);
  (30, 54, 2, 0, "xi", None);
  (30, 56, 2, 0, "xi", None);
  (30, 57, 2, 0, "xi", None);
  (31, 44, 2, 0, "xi", None);
  (31, 46, 2, 0, "xi", None);
  (31, 48, 2, 0, "xi", None);
  (31, 49, 2, 0, "xi", None);
  (31, 50, 2, 0, "xi", None);
  (31, 52, 2, 0, "xi", None);
  (31, 53, 2, 0, "xi", None);
  (31, 55, 2, 0, "xi", None);
  (31, 56, 2, 0, "xi", None);
  (32, 44, 2, 0, "xi", None);
  (32, 46, 2, 0, "xi", None);
  (32, 48, 2, 0, "xi", None);
  (32, 50, 2, 0, "xi", None);
  (32, 51, 2, 0, "xi", None);
  (32, 53, 2, 0, "xi", None);
  (32, 54, 2, 0, "xi", None);
  (32, 56, 2, 0, "xi", None);
  (32, 57, 2, 0, "xi", None);
  (33, 43, 2, 0, "xi", None);
  (33, 44, 2, 0, "xi", None);
  (33, 45, 2, 0, "xi", None);
  (33, 46, 2, 0, "xi", None);
  (33, 47, 2, 0, "xi", None);
  (33, 48, 2, 0, "xi", None);
  (33, 49, 2, 0, "xi", None);
  (33, 50, 2, 0, "xi", None);
  (33, 52, 2, 0, "xi", None);
  (33, 53, 2, 0, "xi", None);
  (33, 55, 2, 0, "xi", None);
  (33, 56, 2, 0, "xi", None);
  (34, 43, 2, 0, "xi", None);
  (34, 44, 2, 0, "xi", None);
  (34, 45, 2, 0, "xi", None);
  (34, 46, 2, 0, "xi", None);
  (34, 47, 2, 0, "xi", None);
  (34, 48, 2, 0, "xi", None);
  (34, 50, 2, 0, "xi", None);
  (34, 51, 2, 0, "xi", None);
  (34, 53, 2, 0, "xi", None);
  (34, 54, 2, 0, "xi", None);
  (34, 56, 2, 0, "xi", None);
  (34, 57, 2, 0, "xi", None);
  (35, 43, 2, 0, "xi", None);
  (35, 44, 2, 0, "xi", None);
  (35, 45, 2, 0, "xi", None);
  (35, 46, 2, 0, "xi", None);
  (35, 47, 2, 0, "xi", None);
  (35, 48, 2, 0, "xi", None);
  (35, 49, 2, 0, "xi", None);
  (35, 50, 2, 0, "xi", None);
  (35, 52, 2, 0, "xi", None);
  (35, 53, 2, 0, "xi", None);
  (35, 55, 2, 0, "xi", None);
  (35, 56, 2, 0, "xi", None);
  (36, 43, 2, 0, "xi", None);
  (36, 44, 2, 0, "xi", None);
  (36, 45, 2, 0, "xi", None);
  (36, 46, 2, 0, "xi", None);
  (36, 47, 2, 0, "xi", None);
  (36, 48, 2, 0, "xi", None);
  (36, 50, 2, 0, "xi", None);
  (36, 51, 2, 0, "xi", None);
  (36, 53, 2, 0, "xi", None);
  (36, 54, 2, 0, "xi", None);
  (36, 56, 2, 0, "xi", None);
  (36, 57, 2, 0, "xi", None);
  (37, 44, 2, 0, "xi", None);
  (37, 46, 2, 0, "xi", None);
  (37, 48, 2, 0, "xi", None);
  (37, 49, 2, 0, "xi", None);
  (37, 50, 2, 0, "xi", None);
  (37, 52, 2, 0, "xi", None);
  (37, 53, 2, 0, "xi", None);
  (37, 55, 2, 0, "xi", None);
  (37, 56, 2, 0, "xi", None);
  (38, 44, 2, 0, "xi", None);
  (38, 46, 2, 0, "xi", None);
  (38, 48, 2, 0, "xi", None);
  (38, 50, 2, 0, "xi", None);
  (38, 51, 2, 0, "xi", None);
  (38, 53, 2, 0, "xi", None);
  (38, 54, 2, 0, "xi", None);
  (38, 56, 2, 0, "xi", None);
  (38, 57, 2, 0, "xi", None);
  (39, 49, 2, 0, "xi", None);
  (39, 52, 2, 0, "xi", None);
  (39, 55, 2, 0, "xi", None);
  (40, 49, 2, 0, "xi", None);
  (40, 50, 2, 0, "xi", None);
  (40, 52, 2, 0, "xi", None);
  (40, 53, 2, 0, "xi", None);
  (40, 55, 2, 0, "xi", None);
  (40, 56, 2, 0, "xi", None);
  (41, 50, 2, 0, "xi", None);
  (41, 51, 2, 0, "xi", None);
  (41, 53, 2, 0, "xi", None);
  (41, 54, 2, 0, "xi", None);
  (41, 56, 2, 0, "xi", None);
  (41, 57, 2, 0, "xi", None);
  (42, 51, 2, 0, "xi", None);
  (42, 54, 2, 0, "xi", None);
  (42, 57, 2, 0, "xi", None);
  (43, 58, 2, 0, "xi", None);
  (43, 59, 2, 0, "xi", None);
  (43, 60, 2, 0, "xi", None);
  (43, 61, 2, 0, "xi", None);
  (43, 62, 2, 0, "xi", None);
  (43, 63, 2, 0, "xi", None);
  (44, 58, 2, 0, "xi", None);
  (44, 59, 2, 0, "xi", None);
  (44, 60, 2, 0, "xi", None);
  (44, 61, 2, 0, "xi", None);
  (44, 62, 2, 0, "xi", None);
  (44, 63, 2, 0, "xi", None);
  (45, 58, 2, 0, "xi", None);
  (45, 59, 2, 0, "xi", None);
  (45, 60, 2, 0, "xi", None);
  (45, 61, 2, 0, "xi", None);
  (45, 62, 2, 0, "xi", None);
  (45, 63, 2, 0, "xi", None);
  (46, 58, 2, 0, "xi", None);
  (46, 59, 2, 0, "xi", None);
  (46, 60, 2, 0, "xi", None);
  (46, 61, 2, 0, "xi", None);
  (46, 62, 2, 0, "xi", None);
  (46, 63, 2, 0, "xi", None);
  (47, 58, 2, 0, "xi", None);
  (47, 59, 2, 0, "xi", None);
  (47, 60, 2, 0, "xi", None);
  (47, 61, 2, 0, "xi", None);
  (47, 62, 2, 0, "xi", None);
  (47, 63, 2, 0, "xi", None);
  (48, 58, 2, 0, "xi", None);
  (48, 59, 2, 0, "xi", None);
  (48, 60, 2, 0, "xi", None);
  (48, 61, 2, 0, "xi", None);
  (48, 62, 2, 0, "xi", None);
  (48, 63, 2, 0, "xi", None);
  (49, 60, 2, 0, "xi", None);
  (49, 62, 2, 0, "xi", None);
  (50, 60, 2, 0, "xi", None);
  (50, 61, 2, 0, "xi", None);
  (50, 62, 2, 0, "xi", None);
  (50, 63, 2, 0, "xi", None);
  (51, 61, 2, 0, "xi", None);
  (51, 63, 2, 0, "xi", None);
  (52, 58, 2, 0, "xi", None);
  (52, 60, 2, 0, "xi", None);
  (53, 58, 2, 0, "xi", None);
  (53, 59, 2, 0, "xi", None);
  (53, 60, 2, 0, "xi", None);
  (53, 61, 2, 0, "xi", None);
  (54, 59, 2, 0, "xi", None);
  (54, 61, 2, 0, "xi", None);
  (55, 58, 2, 0, "xi", None);
  (55, 62, 2, 0, "xi", None);
  (56, 58, 2, 0, "xi", None);
  (56, 59, 2, 0, "xi", None);
  (56, 62, 2, 0, "xi", None);
  (56, 63, 2, 0, "xi", None);
  (57, 59, 2, 0, "xi", None);
  (57, 63, 2, 0, "xi", None);
  (58, 64, 2, 0, "xi", None);
  (59, 64, 2, 0, "xi", None);
  (60, 64, 2, 0, "xi", None);
  (61, 64, 2, 0, "xi", None);
  (62, 64, 2, 0, "xi", None);
  (63, 64, 2, 0, "xi", None)].
(** /repo/c++/symmetry/sym-QSC3-impl.hpp, make_matrix  *)
Definition qsc3_m0_d : list diag_line := [
  (1, 0, "zeta", None);
  (2, 0, "zeta", None);
  (3, 0, "zeta", None);
  (4, 0, "zeta", None);
  (5, 0, "zeta", None);
  (6, 0, "zeta", None);
  (7, 0, "zeta", None);
  (8, 0, "zeta", None);
  (9, 0, "zeta", None);
  (10, 0, "zeta", None);
  (11, 0, "zeta", None);
  (12, 0, "zeta", None);
  (13, 0, "zeta", None);
  (14, 0, "zeta", None);
  (15, 0, "zeta", None);
  (16, 0, "zeta", None);
  (17, 0, "zeta", None);
  (18, 0, "zeta", None);
  (19, 0, "zeta", None);
  (20, 0, "zeta", None);
  (21, 0, "zeta", None);
  (22, 0, "zeta", None);
  (23, 0, "zeta", None);
  (24, 0, "zeta", None);
  (25, 0, "zeta", None);
  (26, 0, "zeta", None);
  (27, 0, "zeta", None);
  (28, 0, "zeta", None);
  (29, 0, "zeta", None);
  (30, 0, "zeta", None);
  (31, 0, "zeta", None);
  (32, 0, "zeta", None);
  (33, 0, "zeta", None);
  (34, 0, "zeta", None);
  (35, 0, "zeta", None);
  (36, 0, "zeta", None);
  (37, 0, "zeta", None);
  (38, 0, "zeta", None);
  (39, 0, "zeta", None);
  (40, 0, "zeta", None);
  (41, 0, "zeta", None);
  (42, 0, "zeta", None);
  (43, 0, "zeta", None);
  (44, 0, "zeta", None);
  (45, 0, "zeta", None);
  (46, 0, "zeta", None);
  (47, 0, "zeta", None);
  (48, 0, "zeta", None);
  (49, 0, "zeta", None);
  (50, 0, "zeta", None);
  (51, 0, "zeta", None);
  (52, 0, "zeta", None);
  (53, 0, "zeta", None);
  (54, 0, "zeta", None);
  (55, 0, "zeta", None);
  (56, 0, "zeta", None);
  (57, 0, "zeta", None);
  (58, 0, "zeta", None);
  (59, 0, "zeta", None);
  (60, 0, "zeta", None);
  (61, 0, "zeta", None);
  (62, 0, "zeta", None);
  (63, 0, "zeta", None);
  (64, 0, "zeta", None)].
(** /repo/c++/symmetry/sym-QSC3-impl.hpp, make_matrix  *)
Definition qsc3_m0_f : list dof_line := [
  ].
Definition coef_qsc3 : coef_set := mk_coef "QSC3" 3%nat sym_QSC3 {| tb_In := qsc3_In; tb_QN := qsc3_QN |}
  [qsc3_t0; qsc3_t1; qsc3_t2; qsc3_t3; qsc3_t4; qsc3_t5; qsc3_t6; qsc3_t7; qsc3_t8; qsc3_t9; qsc3_t10; qsc3_t11; qsc3_t12; qsc3_t13; qsc3_t14; qsc3_t15; qsc3_t16; qsc3_t17]
  []
  [mk_mode "default" qsc3_m0_o qsc3_m0_d qsc3_m0_f].
