(** Generated by gen/gen_coef.py from /repo/c++/symmetry/{sym-SPSU2C3-impl.hpp, nrg-recalc-SPSU2C3.hpp, coefnew}. Do not edit. *)
From Coq Require Import List ZArith String.
From Verif Require Import Base Invar_model Symmetry_model Symmetry_tables Coef_model.
Import ListNotations.
Local Open Scope string_scope.
Local Open Scope list_scope.
Local Open Scope Z_scope.


(** /repo/c++/symmetry/nrg-recalc-SPSU2C3.hpp recalc_irreduc, spsu2c3/spsu2c3-spinup0-a.dat *)
Definition spsu2c3_t0 : irr_table := mk_irr 0 0 [ShLin 0%nat 1 1; ShMod3 1%nat 0]  [
  (2, 16, None);
  (3, 16, None);
  (4, 18, None);
  (4, 20, None);
  (5, 18, None);
  (5, 20, None);
  (6, 22, None);
  (7, 24, None);
  (8, 24, None);
  (9, 26, None);
  (9, 28, None);
  (10, 26, None);
  (10, 28, None);
  (10, 30, None);
  (11, 34, None);
  (12, 34, None);
  (13, 36, None);
  (13, 38, None);
  (14, 36, None);
  (14, 38, None);
  (14, 40, None);
  (15, 1, None);
  (17, 2, None);
  (17, 3, None);
  (17, 44, None);
  (18, 45, None);
  (19, 2, None);
  (19, 3, None);
  (19, 44, None);
  (20, 45, None);
  (21, 4, None);
  (21, 5, None);
  (25, 7, None);
  (25, 8, None);
  (25, 50, None);
  (26, 51, None);
  (27, 7, None);
  (27, 8, None);
  (27, 50, None);
  (28, 51, None);
  (29, 8, None);
  (29, 50, None);
  (30, 51, None);
  (31, 9, None);
  (31, 10, None);
  (31, 53, None);
  (32, 54, None);
  (35, 11, None);
  (35, 12, None);
  (35, 56, None);
  (36, 57, None);
  (37, 11, None);
  (37, 12, None);
  (37, 56, None);
  (38, 57, None);
  (39, 12, None);
  (39, 56, None);
  (40, 57, None);
  (41, 13, None);
  (41, 14, None);
  (41, 59, None);
  (42, 60, None);
  (46, 17, None);
  (46, 19, None);
  (46, 62, None);
  (47, 18, None);
  (47, 20, None);
  (47, 63, None);
  (48, 64, None);
  (49, 23, None);
  (50, 24, None);
  (52, 25, None);
  (52, 27, None);
  (52, 29, None);
  (53, 26, None);
  (53, 28, None);
  (53, 30, None);
  (55, 33, None);
  (56, 34, None);
  (58, 35, None);
  (58, 37, None);
  (58, 39, None);
  (59, 36, None);
  (59, 38, None);
  (59, 40, None);
  (61, 43, None);
  (62, 44, None);
  (63, 45, None)].
(** /repo/c++/symmetry/nrg-recalc-SPSU2C3.hpp recalc_irreduc, spsu2c3/spsu2c3-spinup0-b.dat *)
Definition spsu2c3_t1 : irr_table := mk_irr 1 0 [ShLin 0%nat 1 1; ShMod3 1%nat 0]  [
  (2, 16, None);
  (3, 16, None);
  (4, 18, None);
  (4, 20, None);
  (5, 18, None);
  (5, 20, None);
  (6, 22, None);
  (7, 24, None);
  (8, 24, None);
  (9, 26, None);
  (9, 28, None);
  (10, 26, None);
  (10, 28, None);
  (10, 30, None);
  (11, 34, None);
  (12, 34, None);
  (13, 36, None);
  (13, 38, None);
  (14, 36, None);
  (14, 38, None);
  (14, 40, None);
  (15, 1, None);
  (17, 2, None);
  (17, 3, None);
  (17, 44, None);
  (18, 45, None);
  (19, 2, None);
  (19, 3, None);
  (19, 44, None);
  (20, 45, None);
  (21, 4, None);
  (21, 5, None);
  (25, 7, None);
  (25, 8, None);
  (25, 50, None);
  (26, 51, None);
  (27, 7, None);
  (27, 8, None);
  (27, 50, None);
  (28, 51, None);
  (29, 8, None);
  (29, 50, None);
  (30, 51, None);
  (31, 9, None);
  (31, 10, None);
  (31, 53, None);
  (32, 54, None);
  (35, 11, None);
  (35, 12, None);
  (35, 56, None);
  (36, 57, None);
  (37, 11, None);
  (37, 12, None);
  (37, 56, None);
  (38, 57, None);
  (39, 12, None);
  (39, 56, None);
  (40, 57, None);
  (41, 13, None);
  (41, 14, None);
  (41, 59, None);
  (42, 60, None);
  (46, 17, None);
  (46, 19, None);
  (46, 62, None);
  (47, 18, None);
  (47, 20, None);
  (47, 63, None);
  (48, 64, None);
  (49, 23, None);
  (50, 24, None);
  (52, 25, None);
  (52, 27, None);
  (52, 29, None);
  (53, 26, None);
  (53, 28, None);
  (53, 30, None);
  (55, 33, None);
  (56, 34, None);
  (58, 35, None);
  (58, 37, None);
  (58, 39, None);
  (59, 36, None);
  (59, 38, None);
  (59, 40, None);
  (61, 43, None);
  (62, 44, None);
  (63, 45, None)].
(** /repo/c++/symmetry/nrg-recalc-SPSU2C3.hpp recalc_irreduc, spsu2c3/spsu2c3-spinup0-c.dat *)
Definition spsu2c3_t2 : irr_table := mk_irr 2 0 [ShLin 0%nat 1 1; ShMod3 1%nat 0]  [
  (2, 16, None);
  (3, 16, None);
  (4, 18, None);
  (4, 20, None);
  (5, 18, None);
  (5, 20, None);
  (6, 22, None);
  (7, 24, None);
  (8, 24, None);
  (9, 26, None);
  (9, 28, None);
  (10, 26, None);
  (10, 28, None);
  (10, 30, None);
  (11, 34, None);
  (12, 34, None);
  (13, 36, None);
  (13, 38, None);
  (14, 36, None);
  (14, 38, None);
  (14, 40, None);
  (15, 1, None);
  (17, 2, None);
  (17, 3, None);
  (17, 44, None);
  (18, 45, None);
  (19, 2, None);
  (19, 3, None);
  (19, 44, None);
  (20, 45, None);
  (21, 4, None);
  (21, 5, None);
  (25, 7, None);
  (25, 8, None);
  (25, 50, None);
  (26, 51, None);
  (27, 7, None);
  (27, 8, None);
  (27, 50, None);
  (28, 51, None);
  (29, 8, None);
  (29, 50, None);
  (30, 51, None);
  (31, 9, None);
  (31, 10, None);
  (31, 53, None);
  (32, 54, None);
  (35, 11, None);
  (35, 12, None);
  (35, 56, None);
  (36, 57, None);
  (37, 11, None);
  (37, 12, None);
  (37, 56, None);
  (38, 57, None);
  (39, 12, None);
  (39, 56, None);
  (40, 57, None);
  (41, 13, None);
  (41, 14, None);
  (41, 59, None);
  (42, 60, None);
  (46, 17, None);
  (46, 19, None);
  (46, 62, None);
  (47, 18, None);
  (47, 20, None);
  (47, 63, None);
  (48, 64, None);
  (49, 23, None);
  (50, 24, None);
  (52, 25, None);
  (52, 27, None);
  (52, 29, None);
  (53, 26, None);
  (53, 28, None);
  (53, 30, None);
  (55, 33, None);
  (56, 34, None);
  (58, 35, None);
  (58, 37, None);
  (58, 39, None);
  (59, 36, None);
  (59, 38, None);
  (59, 40, None);
  (61, 43, None);
  (62, 44, None);
  (63, 45, None)].
(** /repo/c++/symmetry/nrg-recalc-SPSU2C3.hpp recalc_irreduc, spsu2c3/spsu2c3-spindown0-a.dat *)
Definition spsu2c3_t3 : irr_table := mk_irr 0 0 [ShLin 0%nat 1 (-1); ShMod3 1%nat 0]  [
  (2, 15, None);
  (3, 15, None);
  (4, 17, None);
  (4, 19, None);
  (5, 17, None);
  (5, 19, None);
  (6, 21, None);
  (7, 23, None);
  (8, 23, None);
  (9, 25, None);
  (9, 27, None);
  (10, 25, None);
  (10, 27, None);
  (10, 29, None);
  (11, 33, None);
  (12, 33, None);
  (13, 35, None);
  (13, 37, None);
  (14, 35, None);
  (14, 37, None);
  (14, 39, None);
  (16, 1, None);
  (17, 43, None);
  (18, 2, None);
  (18, 3, None);
  (18, 44, None);
  (19, 43, None);
  (20, 2, None);
  (20, 3, None);
  (20, 44, None);
  (22, 4, None);
  (22, 5, None);
  (25, 49, None);
  (26, 7, None);
  (26, 8, None);
  (26, 50, None);
  (27, 49, None);
  (28, 7, None);
  (28, 8, None);
  (28, 50, None);
  (29, 49, None);
  (30, 8, None);
  (30, 50, None);
  (31, 52, None);
  (32, 9, None);
  (32, 10, None);
  (32, 53, None);
  (35, 55, None);
  (36, 11, None);
  (36, 12, None);
  (36, 56, None);
  (37, 55, None);
  (38, 11, None);
  (38, 12, None);
  (38, 56, None);
  (39, 55, None);
  (40, 12, None);
  (40, 56, None);
  (41, 58, None);
  (42, 13, None);
  (42, 14, None);
  (42, 59, None);
  (46, 61, None);
  (47, 17, None);
  (47, 19, None);
  (47, 62, None);
  (48, 18, None);
  (48, 20, None);
  (48, 63, None);
  (50, 23, None);
  (51, 24, None);
  (53, 25, None);
  (53, 27, None);
  (53, 29, None);
  (54, 26, None);
  (54, 28, None);
  (54, 30, None);
  (56, 33, None);
  (57, 34, None);
  (59, 35, None);
  (59, 37, None);
  (59, 39, None);
  (60, 36, None);
  (60, 38, None);
  (60, 40, None);
  (62, 43, None);
  (63, 44, None);
  (64, 45, None)].
(** /repo/c++/symmetry/nrg-recalc-SPSU2C3.hpp recalc_irreduc, spsu2c3/spsu2c3-spindown0-b.dat *)
Definition spsu2c3_t4 : irr_table := mk_irr 1 0 [ShLin 0%nat 1 (-1); ShMod3 1%nat 0]  [
  (2, 15, None);
  (3, 15, None);
  (4, 17, None);
  (4, 19, None);
  (5, 17, None);
  (5, 19, None);
  (6, 21, None);
  (7, 23, None);
  (8, 23, None);
  (9, 25, None);
  (9, 27, None);
  (10, 25, None);
  (10, 27, None);
  (10, 29, None);
  (11, 33, None);
  (12, 33, None);
  (13, 35, None);
  (13, 37, None);
  (14, 35, None);
  (14, 37, None);
  (14, 39, None);
  (16, 1, None);
  (17, 43, None);
  (18, 2, None);
  (18, 3, None);
  (18, 44, None);
  (19, 43, None);
  (20, 2, None);
  (20, 3, None);
  (20, 44, None);
  (22, 4, None);
  (22, 5, None);
  (25, 49, None);
  (26, 7, None);
  (26, 8, None);
  (26, 50, None);
  (27, 49, None);
  (28, 7, None);
  (28, 8, None);
  (28, 50, None);
  (29, 49, None);
  (30, 8, None);
  (30, 50, None);
  (31, 52, None);
  (32, 9, None);
  (32, 10, None);
  (32, 53, None);
  (35, 55, None);
  (36, 11, None);
  (36, 12, None);
  (36, 56, None);
  (37, 55, None);
  (38, 11, None);
  (38, 12, None);
  (38, 56, None);
  (39, 55, None);
  (40, 12, None);
  (40, 56, None);
  (41, 58, None);
  (42, 13, None);
  (42, 14, None);
  (42, 59, None);
  (46, 61, None);
  (47, 17, None);
  (47, 19, None);
  (47, 62, None);
  (48, 18, None);
  (48, 20, None);
  (48, 63, None);
  (50, 23, None);
  (51, 24, None);
  (53, 25, None);
  (53, 27, None);
  (53, 29, None);
  (54, 26, None);
  (54, 28, None);
  (54, 30, None);
  (56, 33, None);
  (57, 34, None);
  (59, 35, None);
  (59, 37, None);
  (59, 39, None);
  (60, 36, None);
  (60, 38, None);
  (60, 40, None);
  (62, 43, None);
  (63, 44, None);
  (64, 45, None)].
(** /repo/c++/symmetry/nrg-recalc-SPSU2C3.hpp recalc_irreduc, spsu2c3/spsu2c3-spindown0-c.dat *)
Definition spsu2c3_t5 : irr_table := mk_irr 2 0 [ShLin 0%nat 1 (-1); ShMod3 1%nat 0]  [
  (2, 15, None);
  (3, 15, None);
  (4, 17, None);
  (4, 19, None);
  (5, 17, None);
  (5, 19, None);
  (6, 21, None);
  (7, 23, None);
  (8, 23, None);
  (9, 25, None);
  (9, 27, None);
  (10, 25, None);
  (10, 27, None);
  (10, 29, None);
  (11, 33, None);
  (12, 33, None);
  (13, 35, None);
  (13, 37, None);
  (14, 35, None);
  (14, 37, None);
  (14, 39, None);
  (16, 1, None);
  (17, 43, None);
  (18, 2, None);
  (18, 3, None);
  (18, 44, None);
  (19, 43, None);
  (20, 2, None);
  (20, 3, None);
  (20, 44, None);
  (22, 4, None);
  (22, 5, None);
  (25, 49, None);
  (26, 7, None);
  (26, 8, None);
  (26, 50, None);
  (27, 49, None);
  (28, 7, None);
  (28, 8, None);
  (28, 50, None);
  (29, 49, None);
  (30, 8, None);
  (30, 50, None);
  (31, 52, None);
  (32, 9, None);
  (32, 10, None);
  (32, 53, None);
  (35, 55, None);
  (36, 11, None);
  (36, 12, None);
  (36, 56, None);
  (37, 55, None);
  (38, 11, None);
  (38, 12, None);
  (38, 56, None);
  (39, 55, None);
  (40, 12, None);
  (40, 56, None);
  (41, 58, None);
  (42, 13, None);
  (42, 14, None);
  (42, 59, None);
  (46, 61, None);
  (47, 17, None);
  (47, 19, None);
  (47, 62, None);
  (48, 18, None);
  (48, 20, None);
  (48, 63, None);
  (50, 23, None);
  (51, 24, None);
  (53, 25, None);
  (53, 27, None);
  (53, 29, None);
  (54, 26, None);
  (54, 28, None);
  (54, 30, None);
  (56, 33, None);
  (57, 34, None);
  (59, 35, None);
  (59, 37, None);
  (59, 39, None);
  (60, 36, None);
  (60, 38, None);
  (60, 40, None);
  (62, 43, None);
  (63, 44, None);
  (64, 45, None)].
(** /repo/c++/symmetry/nrg-recalc-SPSU2C3.hpp recalc_irreduc, spsu2c3/spsu2c3-spinup1-a.dat *)
Definition spsu2c3_t6 : irr_table := mk_irr 0 0 [ShLin 0%nat 1 1; ShMod3 1%nat 1]  [
  (2, 34, None);
  (3, 34, None);
  (4, 36, None);
  (4, 38, None);
  (5, 36, None);
  (5, 38, None);
  (5, 40, None);
  (6, 42, None);
  (7, 16, None);
  (8, 16, None);
  (9, 18, None);
  (9, 20, None);
  (10, 18, None);
  (10, 20, None);
  (11, 24, None);
  (12, 24, None);
  (13, 26, None);
  (13, 28, None);
  (14, 26, None);
  (14, 28, None);
  (14, 30, None);
  (17, 11, None);
  (17, 12, None);
  (17, 56, None);
  (18, 57, None);
  (19, 11, None);
  (19, 12, None);
  (19, 56, None);
  (20, 57, None);
  (21, 13, None);
  (21, 14, None);
  (21, 59, None);
  (22, 60, None);
  (23, 1, None);
  (25, 2, None);
  (25, 3, None);
  (25, 44, None);
  (26, 45, None);
  (27, 2, None);
  (27, 3, None);
  (27, 44, None);
  (28, 45, None);
  (29, 3, None);
  (29, 44, None);
  (30, 45, None);
  (31, 4, None);
  (31, 5, None);
  (31, 47, None);
  (32, 48, None);
  (35, 7, None);
  (35, 8, None);
  (35, 50, None);
  (36, 51, None);
  (37, 7, None);
  (37, 8, None);
  (37, 50, None);
  (38, 51, None);
  (39, 8, None);
  (39, 50, None);
  (40, 51, None);
  (41, 9, None);
  (41, 10, None);
  (43, 33, None);
  (44, 34, None);
  (46, 35, None);
  (46, 37, None);
  (46, 39, None);
  (47, 36, None);
  (47, 38, None);
  (47, 40, None);
  (49, 15, None);
  (50, 16, None);
  (52, 17, None);
  (52, 19, None);
  (52, 62, None);
  (53, 18, None);
  (53, 20, None);
  (53, 63, None);
  (54, 64, None);
  (58, 25, None);
  (58, 27, None);
  (58, 29, None);
  (59, 26, None);
  (59, 28, None);
  (59, 30, None);
  (61, 55, None);
  (62, 56, None);
  (63, 57, None)].
(** /repo/c++/symmetry/nrg-recalc-SPSU2C3.hpp recalc_irreduc, spsu2c3/spsu2c3-spinup1-b.dat *)
Definition spsu2c3_t7 : irr_table := mk_irr 1 0 [ShLin 0%nat 1 1; ShMod3 1%nat 1]  [
  (2, 34, None);
  (3, 34, None);
  (4, 36, None);
  (4, 38, None);
  (5, 36, None);
  (5, 38, None);
  (5, 40, None);
  (6, 42, None);
  (7, 16, None);
  (8, 16, None);
  (9, 18, None);
  (9, 20, None);
  (10, 18, None);
  (10, 20, None);
  (11, 24, None);
  (12, 24, None);
  (13, 26, None);
  (13, 28, None);
  (14, 26, None);
  (14, 28, None);
  (14, 30, None);
  (17, 11, None);
  (17, 12, None);
  (17, 56, None);
  (18, 57, None);
  (19, 11, None);
  (19, 12, None);
  (19, 56, None);
  (20, 57, None);
  (21, 13, None);
  (21, 14, None);
  (21, 59, None);
  (22, 60, None);
  (23, 1, None);
  (25, 2, None);
  (25, 3, None);
  (25, 44, None);
  (26, 45, None);
  (27, 2, None);
  (27, 3, None);
  (27, 44, None);
  (28, 45, None);
  (29, 3, None);
  (29, 44, None);
  (30, 45, None);
  (31, 4, None);
  (31, 5, None);
  (31, 47, None);
  (32, 48, None);
  (35, 7, None);
  (35, 8, None);
  (35, 50, None);
  (36, 51, None);
  (37, 7, None);
  (37, 8, None);
  (37, 50, None);
  (38, 51, None);
  (39, 8, None);
  (39, 50, None);
  (40, 51, None);
  (41, 9, None);
  (41, 10, None);
  (43, 33, None);
  (44, 34, None);
  (46, 35, None);
  (46, 37, None);
  (46, 39, None);
  (47, 36, None);
  (47, 38, None);
  (47, 40, None);
  (49, 15, None);
  (50, 16, None);
  (52, 17, None);
  (52, 19, None);
  (52, 62, None);
  (53, 18, None);
  (53, 20, None);
  (53, 63, None);
  (54, 64, None);
  (58, 25, None);
  (58, 27, None);
  (58, 29, None);
  (59, 26, None);
  (59, 28, None);
  (59, 30, None);
  (61, 55, None);
  (62, 56, None);
  (63, 57, None)].
(** /repo/c++/symmetry/nrg-recalc-SPSU2C3.hpp recalc_irreduc, spsu2c3/spsu2c3-spinup1-c.dat *)
Definition spsu2c3_t8 : irr_table := mk_irr 2 0 [ShLin 0%nat 1 1; ShMod3 1%nat 1]  [
  (2, 34, None);
  (3, 34, None);
  (4, 36, None);
  (4, 38, None);
  (5, 36, None);
  (5, 38, None);
  (5, 40, None);
  (6, 42, None);
  (7, 16, None);
  (8, 16, None);
  (9, 18, None);
  (9, 20, None);
  (10, 18, None);
  (10, 20, None);
  (11, 24, None);
  (12, 24, None);
  (13, 26, None);
  (13, 28, None);
  (14, 26, None);
  (14, 28, None);
  (14, 30, None);
  (17, 11, None);
  (17, 12, None);
  (17, 56, None);
  (18, 57, None);
  (19, 11, None);
  (19, 12, None);
  (19, 56, None);
  (20, 57, None);
  (21, 13, None);
  (21, 14, None);
  (21, 59, None);
  (22, 60, None);
  (23, 1, None);
  (25, 2, None);
  (25, 3, None);
  (25, 44, None);
  (26, 45, None);
  (27, 2, None);
  (27, 3, None);
  (27, 44, None);
  (28, 45, None);
  (29, 3, None);
  (29, 44, None);
  (30, 45, None);
  (31, 4, None);
  (31, 5, None);
  (31, 47, None);
  (32, 48, None);
  (35, 7, None);
  (35, 8, None);
  (35, 50, None);
  (36, 51, None);
  (37, 7, None);
  (37, 8, None);
  (37, 50, None);
  (38, 51, None);
  (39, 8, None);
  (39, 50, None);
  (40, 51, None);
  (41, 9, None);
  (41, 10, None);
  (43, 33, None);
  (44, 34, None);
  (46, 35, None);
  (46, 37, None);
  (46, 39, None);
  (47, 36, None);
  (47, 38, None);
  (47, 40, None);
  (49, 15, None);
  (50, 16, None);
  (52, 17, None);
  (52, 19, None);
  (52, 62, None);
  (53, 18, None);
  (53, 20, None);
  (53, 63, None);
  (54, 64, None);
  (58, 25, None);
  (58, 27, None);
  (58, 29, None);
  (59, 26, None);
  (59, 28, None);
  (59, 30, None);
  (61, 55, None);
  (62, 56, None);
  (63, 57, None)].
(** /repo/c++/symmetry/nrg-recalc-SPSU2C3.hpp recalc_irreduc, spsu2c3/spsu2c3-spindown1-a.dat *)
Definition spsu2c3_t9 : irr_table := mk_irr 0 0 [ShLin 0%nat 1 (-1); ShMod3 1%nat 1]  [
  (2, 33, None);
  (3, 33, None);
  (4, 35, None);
  (4, 37, None);
  (5, 35, None);
  (5, 37, None);
  (5, 39, None);
  (6, 41, None);
  (7, 15, None);
  (8, 15, None);
  (9, 17, None);
  (9, 19, None);
  (10, 17, None);
  (10, 19, None);
  (11, 23, None);
  (12, 23, None);
  (13, 25, None);
  (13, 27, None);
  (14, 25, None);
  (14, 27, None);
  (14, 29, None);
  (17, 55, None);
  (18, 11, None);
  (18, 12, None);
  (18, 56, None);
  (19, 55, None);
  (20, 11, None);
  (20, 12, None);
  (20, 56, None);
  (21, 58, None);
  (22, 13, None);
  (22, 14, None);
  (22, 59, None);
  (24, 1, None);
  (25, 43, None);
  (26, 2, None);
  (26, 3, None);
  (26, 44, None);
  (27, 43, None);
  (28, 2, None);
  (28, 3, None);
  (28, 44, None);
  (29, 43, None);
  (30, 3, None);
  (30, 44, None);
  (31, 46, None);
  (32, 4, None);
  (32, 5, None);
  (32, 47, None);
  (35, 49, None);
  (36, 7, None);
  (36, 8, None);
  (36, 50, None);
  (37, 49, None);
  (38, 7, None);
  (38, 8, None);
  (38, 50, None);
  (39, 49, None);
  (40, 8, None);
  (40, 50, None);
  (42, 9, None);
  (42, 10, None);
  (44, 33, None);
  (45, 34, None);
  (47, 35, None);
  (47, 37, None);
  (47, 39, None);
  (48, 36, None);
  (48, 38, None);
  (48, 40, None);
  (50, 15, None);
  (51, 16, None);
  (52, 61, None);
  (53, 17, None);
  (53, 19, None);
  (53, 62, None);
  (54, 18, None);
  (54, 20, None);
  (54, 63, None);
  (59, 25, None);
  (59, 27, None);
  (59, 29, None);
  (60, 26, None);
  (60, 28, None);
  (60, 30, None);
  (62, 55, None);
  (63, 56, None);
  (64, 57, None)].
(** /repo/c++/symmetry/nrg-recalc-SPSU2C3.hpp recalc_irreduc, spsu2c3/spsu2c3-spindown1-b.dat *)
Definition spsu2c3_t10 : irr_table := mk_irr 1 0 [ShLin 0%nat 1 (-1); ShMod3 1%nat 1]  [
  (2, 33, None);
  (3, 33, None);
  (4, 35, None);
  (4, 37, None);
  (5, 35, None);
  (5, 37, None);
  (5, 39, None);
  (6, 41, None);
  (7, 15, None);
  (8, 15, None);
  (9, 17, None);
  (9, 19, None);
  (10, 17, None);
  (10, 19, None);
  (11, 23, None);
  (12, 23, None);
  (13, 25, None);
  (13, 27, None);
  (14, 25, None);
  (14, 27, None);
  (14, 29, None);
  (17, 55, None);
  (18, 11, None);
  (18, 12, None);
  (18, 56, None);
  (19, 55, None);
  (20, 11, None);
  (20, 12, None);
  (20, 56, None);
  (21, 58, None);
  (22, 13, None);
  (22, 14, None);
  (22, 59, None);
  (24, 1, None);
  (25, 43, None);
  (26, 2, None);
  (26, 3, None);
  (26, 44, None);
  (27, 43, None);
  (28, 2, None);
  (28, 3, None);
  (28, 44, None);
  (29, 43, None);
  (30, 3, None);
  (30, 44, None);
  (31, 46, None);
  (32, 4, None);
  (32, 5, None);
  (32, 47, None);
  (35, 49, None);
  (36, 7, None);
  (36, 8, None);
  (36, 50, None);
  (37, 49, None);
  (38, 7, None);
  (38, 8, None);
  (38, 50, None);
  (39, 49, None);
  (40, 8, None);
  (40, 50, None);
  (42, 9, None);
  (42, 10, None);
  (44, 33, None);
  (45, 34, None);
  (47, 35, None);
  (47, 37, None);
  (47, 39, None);
  (48, 36, None);
  (48, 38, None);
  (48, 40, None);
  (50, 15, None);
  (51, 16, None);
  (52, 61, None);
  (53, 17, None);
  (53, 19, None);
  (53, 62, None);
  (54, 18, None);
  (54, 20, None);
  (54, 63, None);
  (59, 25, None);
  (59, 27, None);
  (59, 29, None);
  (60, 26, None);
  (60, 28, None);
  (60, 30, None);
  (62, 55, None);
  (63, 56, None);
  (64, 57, None)].
(** /repo/c++/symmetry/nrg-recalc-SPSU2C3.hpp recalc_irreduc, spsu2c3/spsu2c3-spindown1-c.dat *)
Definition spsu2c3_t11 : irr_table := mk_irr 2 0 [ShLin 0%nat 1 (-1); ShMod3 1%nat 1]  [
  (2, 33, None);
  (3, 33, None);
  (4, 35, None);
  (4, 37, None);
  (5, 35, None);
  (5, 37, None);
  (5, 39, None);
  (6, 41, None);
  (7, 15, None);
  (8, 15, None);
  (9, 17, None);
  (9, 19, None);
  (10, 17, None);
  (10, 19, None);
  (11, 23, None);
  (12, 23, None);
  (13, 25, None);
  (13, 27, None);
  (14, 25, None);
  (14, 27, None);
  (14, 29, None);
  (17, 55, None);
  (18, 11, None);
  (18, 12, None);
  (18, 56, None);
  (19, 55, None);
  (20, 11, None);
  (20, 12, None);
  (20, 56, None);
  (21, 58, None);
  (22, 13, None);
  (22, 14, None);
  (22, 59, None);
  (24, 1, None);
  (25, 43, None);
  (26, 2, None);
  (26, 3, None);
  (26, 44, None);
  (27, 43, None);
  (28, 2, None);
  (28, 3, None);
  (28, 44, None);
  (29, 43, None);
  (30, 3, None);
  (30, 44, None);
  (31, 46, None);
  (32, 4, None);
  (32, 5, None);
  (32, 47, None);
  (35, 49, None);
  (36, 7, None);
  (36, 8, None);
  (36, 50, None);
  (37, 49, None);
  (38, 7, None);
  (38, 8, None);
  (38, 50, None);
  (39, 49, None);
  (40, 8, None);
  (40, 50, None);
  (42, 9, None);
  (42, 10, None);
  (44, 33, None);
  (45, 34, None);
  (47, 35, None);
  (47, 37, None);
  (47, 39, None);
  (48, 36, None);
  (48, 38, None);
  (48, 40, None);
  (50, 15, None);
  (51, 16, None);
  (52, 61, None);
  (53, 17, None);
  (53, 19, None);
  (53, 62, None);
  (54, 18, None);
  (54, 20, None);
  (54, 63, None);
  (59, 25, None);
  (59, 27, None);
  (59, 29, None);
  (60, 26, None);
  (60, 28, None);
  (60, 30, None);
  (62, 55, None);
  (63, 56, None);
  (64, 57, None)].
(** /repo/c++/symmetry/nrg-recalc-SPSU2C3.hpp recalc_irreduc, spsu2c3/spsu2c3-spinup2-a.dat *)
Definition spsu2c3_t12 : irr_table := mk_irr 0 0 [ShLin 0%nat 1 1; ShMod3 1%nat 2]  [
  (2, 24, None);
  (3, 24, None);
  (4, 26, None);
  (4, 28, None);
  (5, 26, None);
  (5, 28, None);
  (5, 30, None);
  (6, 32, None);
  (7, 34, None);
  (8, 34, None);
  (9, 36, None);
  (9, 38, None);
  (10, 36, None);
  (10, 38, None);
  (10, 40, None);
  (11, 16, None);
  (12, 16, None);
  (13, 18, None);
  (13, 20, None);
  (14, 18, None);
  (14, 20, None);
  (17, 7, None);
  (17, 8, None);
  (17, 50, None);
  (18, 51, None);
  (19, 7, None);
  (19, 8, None);
  (19, 50, None);
  (20, 51, None);
  (21, 9, None);
  (21, 10, None);
  (21, 53, None);
  (22, 54, None);
  (25, 11, None);
  (25, 12, None);
  (25, 56, None);
  (26, 57, None);
  (27, 11, None);
  (27, 12, None);
  (27, 56, None);
  (28, 57, None);
  (29, 12, None);
  (29, 56, None);
  (30, 57, None);
  (31, 13, None);
  (31, 14, None);
  (33, 1, None);
  (35, 2, None);
  (35, 3, None);
  (35, 44, None);
  (36, 45, None);
  (37, 2, None);
  (37, 3, None);
  (37, 44, None);
  (38, 45, None);
  (39, 3, None);
  (39, 44, None);
  (40, 45, None);
  (41, 4, None);
  (41, 5, None);
  (41, 47, None);
  (42, 48, None);
  (43, 23, None);
  (44, 24, None);
  (46, 25, None);
  (46, 27, None);
  (46, 29, None);
  (47, 26, None);
  (47, 28, None);
  (47, 30, None);
  (52, 35, None);
  (52, 37, None);
  (52, 39, None);
  (53, 36, None);
  (53, 38, None);
  (53, 40, None);
  (55, 15, None);
  (56, 16, None);
  (58, 17, None);
  (58, 19, None);
  (58, 62, None);
  (59, 18, None);
  (59, 20, None);
  (59, 63, None);
  (60, 64, None);
  (61, 49, None);
  (62, 50, None);
  (63, 51, None)].
(** /repo/c++/symmetry/nrg-recalc-SPSU2C3.hpp recalc_irreduc, spsu2c3/spsu2c3-spinup2-b.dat *)
Definition spsu2c3_t13 : irr_table := mk_irr 1 0 [ShLin 0%nat 1 1; ShMod3 1%nat 2]  [
  (2, 24, None);
  (3, 24, None);
  (4, 26, None);
  (4, 28, None);
  (5, 26, None);
  (5, 28, None);
  (5, 30, None);
  (6, 32, None);
  (7, 34, None);
  (8, 34, None);
  (9, 36, None);
  (9, 38, None);
  (10, 36, None);
  (10, 38, None);
  (10, 40, None);
  (11, 16, None);
  (12, 16, None);
  (13, 18, None);
  (13, 20, None);
  (14, 18, None);
  (14, 20, None);
  (17, 7, None);
  (17, 8, None);
  (17, 50, None);
  (18, 51, None);
  (19, 7, None);
  (19, 8, None);
  (19, 50, None);
  (20, 51, None);
  (21, 9, None);
  (21, 10, None);
  (21, 53, None);
  (22, 54, None);
  (25, 11, None);
  (25, 12, None);
  (25, 56, None);
  (26, 57, None);
  (27, 11, None);
  (27, 12, None);
  (27, 56, None);
  (28, 57, None);
  (29, 12, None);
  (29, 56, None);
  (30, 57, None);
  (31, 13, None);
  (31, 14, None);
  (33, 1, None);
  (35, 2, None);
  (35, 3, None);
  (35, 44, None);
  (36, 45, None);
  (37, 2, None);
  (37, 3, None);
  (37, 44, None);
  (38, 45, None);
  (39, 3, None);
  (39, 44, None);
  (40, 45, None);
  (41, 4, None);
  (41, 5, None);
  (41, 47, None);
  (42, 48, None);
  (43, 23, None);
  (44, 24, None);
  (46, 25, None);
  (46, 27, None);
  (46, 29, None);
  (47, 26, None);
  (47, 28, None);
  (47, 30, None);
  (52, 35, None);
  (52, 37, None);
  (52, 39, None);
  (53, 36, None);
  (53, 38, None);
  (53, 40, None);
  (55, 15, None);
  (56, 16, None);
  (58, 17, None);
  (58, 19, None);
  (58, 62, None);
  (59, 18, None);
  (59, 20, None);
  (59, 63, None);
  (60, 64, None);
  (61, 49, None);
  (62, 50, None);
  (63, 51, None)].
(** /repo/c++/symmetry/nrg-recalc-SPSU2C3.hpp recalc_irreduc, spsu2c3/spsu2c3-spinup2-c.dat *)
Definition spsu2c3_t14 : irr_table := mk_irr 2 0 [ShLin 0%nat 1 1; ShMod3 1%nat 2]  [
  (2, 24, None);
  (3, 24, None);
  (4, 26, None);
  (4, 28, None);
  (5, 26, None);
  (5, 28, None);
  (5, 30, None);
  (6, 32, None);
  (7, 34, None);
  (8, 34, None);
  (9, 36, None);
  (9, 38, None);
  (10, 36, None);
  (10, 38, None);
  (10, 40, None);
  (11, 16, None);
  (12, 16, None);
  (13, 18, None);
  (13, 20, None);
  (14, 18, None);
  (14, 20, None);
  (17, 7, None);
  (17, 8, None);
  (17, 50, None);
  (18, 51, None);
  (19, 7, None);
  (19, 8, None);
  (19, 50, None);
  (20, 51, None);
  (21, 9, None);
  (21, 10, None);
  (21, 53, None);
  (22, 54, None);
  (25, 11, None);
  (25, 12, None);
  (25, 56, None);
  (26, 57, None);
  (27, 11, None);
  (27, 12, None);
  (27, 56, None);
  (28, 57, None);
  (29, 12, None);
  (29, 56, None);
  (30, 57, None);
  (31, 13, None);
  (31, 14, None);
  (33, 1, None);
  (35, 2, None);
  (35, 3, None);
  (35, 44, None);
  (36, 45, None);
  (37, 2, None);
  (37, 3, None);
  (37, 44, None);
  (38, 45, None);
  (39, 3, None);
  (39, 44, None);
  (40, 45, None);
  (41, 4, None);
  (41, 5, None);
  (41, 47, None);
  (42, 48, None);
  (43, 23, None);
  (44, 24, None);
  (46, 25, None);
  (46, 27, None);
  (46, 29, None);
  (47, 26, None);
  (47, 28, None);
  (47, 30, None);
  (52, 35, None);
  (52, 37, None);
  (52, 39, None);
  (53, 36, None);
  (53, 38, None);
  (53, 40, None);
  (55, 15, None);
  (56, 16, None);
  (58, 17, None);
  (58, 19, None);
  (58, 62, None);
  (59, 18, None);
  (59, 20, None);
  (59, 63, None);
  (60, 64, None);
  (61, 49, None);
  (62, 50, None);
  (63, 51, None)].
(** /repo/c++/symmetry/nrg-recalc-SPSU2C3.hpp recalc_irreduc, spsu2c3/spsu2c3-spindown2-a.dat *)
Definition spsu2c3_t15 : irr_table := mk_irr 0 0 [ShLin 0%nat 1 (-1); ShMod3 1%nat 2]  [
  (2, 23, None);
  (3, 23, None);
  (4, 25, None);
  (4, 27, None);
  (5, 25, None);
  (5, 27, None);
  (5, 29, None);
  (6, 31, None);
  (7, 33, None);
  (8, 33, None);
  (9, 35, None);
  (9, 37, None);
  (10, 35, None);
  (10, 37, None);
  (10, 39, None);
  (11, 15, None);
  (12, 15, None);
  (13, 17, None);
  (13, 19, None);
  (14, 17, None);
  (14, 19, None);
  (17, 49, None);
  (18, 7, None);
  (18, 8, None);
  (18, 50, None);
  (19, 49, None);
  (20, 7, None);
  (20, 8, None);
  (20, 50, None);
  (21, 52, None);
  (22, 9, None);
  (22, 10, None);
  (22, 53, None);
  (25, 55, None);
  (26, 11, None);
  (26, 12, None);
  (26, 56, None);
  (27, 55, None);
  (28, 11, None);
  (28, 12, None);
  (28, 56, None);
  (29, 55, None);
  (30, 12, None);
  (30, 56, None);
  (32, 13, None);
  (32, 14, None);
  (34, 1, None);
  (35, 43, None);
  (36, 2, None);
  (36, 3, None);
  (36, 44, None);
  (37, 43, None);
  (38, 2, None);
  (38, 3, None);
  (38, 44, None);
  (39, 43, None);
  (40, 3, None);
  (40, 44, None);
  (41, 46, None);
  (42, 4, None);
  (42, 5, None);
  (42, 47, None);
  (44, 23, None);
  (45, 24, None);
  (47, 25, None);
  (47, 27, None);
  (47, 29, None);
  (48, 26, None);
  (48, 28, None);
  (48, 30, None);
  (53, 35, None);
  (53, 37, None);
  (53, 39, None);
  (54, 36, None);
  (54, 38, None);
  (54, 40, None);
  (56, 15, None);
  (57, 16, None);
  (58, 61, None);
  (59, 17, None);
  (59, 19, None);
  (59, 62, None);
  (60, 18, None);
  (60, 20, None);
  (60, 63, None);
  (62, 49, None);
  (63, 50, None);
  (64, 51, None)].
(** /repo/c++/symmetry/nrg-recalc-SPSU2C3.hpp recalc_irreduc, spsu2c3/spsu2c3-spindown2-b.dat *)
Definition spsu2c3_t16 : irr_table := mk_irr 1 0 [ShLin 0%nat 1 (-1); ShMod3 1%nat 2]  [
  (2, 23, None);
  (3, 23, None);
  (4, 25, None);
  (4, 27, None);
  (5, 25, None);
  (5, 27, None);
  (5, 29, None);
  (6, 31, None);
  (7, 33, None);
  (8, 33, None);
  (9, 35, None);
  (9, 37, None);
  (10, 35, None);
  (10, 37, None);
  (10, 39, None);
  (11, 15, None);
  (12, 15, None);
  (13, 17, None);
  (13, 19, None);
  (14, 17, None);
  (14, 19, None);
  (17, 49, None);
  (18, 7, None);
  (18, 8, None);
  (18, 50, None);
  (19, 49, None);
  (20, 7, None);
  (20, 8, None);
  (20, 50, None);
  (21, 52, None);
  (22, 9, None);
  (22, 10, None);
  (22, 53, None);
  (25, 55, None);
  (26, 11, None);
  (26, 12, None);
  (26, 56, None);
  (27, 55, None);
  (28, 11, None);
  (28, 12, None);
  (28, 56, None);
  (29, 55, None);
  (30, 12, None);
  (30, 56, None);
  (32, 13, None);
  (32, 14, None);
  (34, 1, None);
  (35, 43, None);
  (36, 2, None);
  (36, 3, None);
  (36, 44, None);
  (37, 43, None);
  (38, 2, None);
  (38, 3, None);
  (38, 44, None);
  (39, 43, None);
  (40, 3, None);
  (40, 44, None);
  (41, 46, None);
  (42, 4, None);
  (42, 5, None);
  (42, 47, None);
  (44, 23, None);
  (45, 24, None);
  (47, 25, None);
  (47, 27, None);
  (47, 29, None);
  (48, 26, None);
  (48, 28, None);
  (48, 30, None);
  (53, 35, None);
  (53, 37, None);
  (53, 39, None);
  (54, 36, None);
  (54, 38, None);
  (54, 40, None);
  (56, 15, None);
  (57, 16, None);
  (58, 61, None);
  (59, 17, None);
  (59, 19, None);
  (59, 62, None);
  (60, 18, None);
  (60, 20, None);
  (60, 63, None);
  (62, 49, None);
  (63, 50, None);
  (64, 51, None)].
(** /repo/c++/symmetry/nrg-recalc-SPSU2C3.hpp recalc_irreduc, spsu2c3/spsu2c3-spindown2-c.dat *)
Definition spsu2c3_t17 : irr_table := mk_irr 2 0 [ShLin 0%nat 1 (-1); ShMod3 1%nat 2]  [
  (2, 23, None);
  (3, 23, None);
  (4, 25, None);
  (4, 27, None);
  (5, 25, None);
  (5, 27, None);
  (5, 29, None);
  (6, 31, None);
  (7, 33, None);
  (8, 33, None);
  (9, 35, None);
  (9, 37, None);
  (10, 35, None);
  (10, 37, None);
  (10, 39, None);
  (11, 15, None);
  (12, 15, None);
  (13, 17, None);
  (13, 19, None);
  (14, 17, None);
  (14, 19, None);
  (17, 49, None);
  (18, 7, None);
  (18, 8, None);
  (18, 50, None);
  (19, 49, None);
  (20, 7, None);
  (20, 8, None);
  (20, 50, None);
  (21, 52, None);
  (22, 9, None);
  (22, 10, None);
  (22, 53, None);
  (25, 55, None);
  (26, 11, None);
  (26, 12, None);
  (26, 56, None);
  (27, 55, None);
  (28, 11, None);
  (28, 12, None);
  (28, 56, None);
  (29, 55, None);
  (30, 12, None);
  (30, 56, None);
  (32, 13, None);
  (32, 14, None);
  (34, 1, None);
  (35, 43, None);
  (36, 2, None);
  (36, 3, None);
  (36, 44, None);
  (37, 43, None);
  (38, 2, None);
  (38, 3, None);
  (38, 44, None);
  (39, 43, None);
  (40, 3, None);
  (40, 44, None);
  (41, 46, None);
  (42, 4, None);
  (42, 5, None);
  (42, 47, None);
  (44, 23, None);
  (45, 24, None);
  (47, 25, None);
  (47, 27, None);
  (47, 29, None);
  (48, 26, None);
  (48, 28, None);
  (48, 30, None);
  (53, 35, None);
  (53, 37, None);
  (53, 39, None);
  (54, 36, None);
  (54, 38, None);
  (54, 40, None);
  (56, 15, None);
  (57, 16, None);
  (58, 61, None);
  (59, 17, None);
  (59, 19, None);
  (59, 62, None);
  (60, 18, None);
  (60, 20, None);
  (60, 63, None);
  (62, 49, None);
  (63, 50, None);
  (64, 51, None)].
(** /repo/c++/symmetry/sym-SPSU2C3-impl.hpp, make_matrix  *)
Definition spsu2c3_m0_o : list off_line := [
  (1, 15, 0, 0, "xi", None);
  (1, 16, 0, 0, "xi", None);
  (1, 23, 0, 0, "xi", None);
  (1, 24, 0, 0, "xi", None);
  (1, 33, 0, 0, "xi", None);
  (1, 34, 0, 0, "xi", None);
  (2, 17, 0, 0, "xi", None);
  (2, 18, 0, 0, "xi", None);
  (2, 19, 0, 0, "xi", None);
  (2, 20, 0, 0, "xi", None);
  (2, 25, 0, 0, "xi", None);
  (2, 26, 0, 0, "xi", None);
  (2, 27, 0, 0, "xi", None);
  (2, 28, 0, 0, "xi", None);
  (2, 35, 0, 0, "xi", None);
  (2, 36, 0, 0, "xi", None);
  (2, 37, 0, 0, "xi", None);
  (2, 38, 0, 0, "xi", None);
  (3, 17, 0, 0, "xi", None);
  (3, 18, 0, 0, "xi", None);
  (3, 19, 0, 0, "xi", None);
  (3, 20, 0, 0, "xi", None);
  (3, 25, 0, 0, "xi", None);
  (3, 26, 0, 0, "xi", None);
  (3, 27, 0, 0, "xi", None);
  (3, 28, 0, 0, "xi", None);
  (3, 29, 0, 0, "xi", None);
  (3, 30, 0, 0, "xi", None);
  (3, 35, 0, 0, "xi", None);
  (3, 36, 0, 0, "xi", None);
  (3, 37, 0, 0, "xi", None);
  (3, 38, 0, 0, "xi", None);
  (3, 39, 0, 0, "xi", None);
  (3, 40, 0, 0, "xi", None);
  (4, 21, 0, 0, "xi", None);
  (4, 22, 0, 0, "xi", None);
  (4, 31, 0, 0, "xi", None);
  (4, 32, 0, 0, "xi", None);
  (4, 41, 0, 0, "xi", None);
  (4, 42, 0, 0, "xi", None);
  (5, 21, 0, 0, "xi", None);
  (5, 22, 0, 0, "xi", None);
  (5, 31, 0, 0, "xi", None);
  (5, 32, 0, 0, "xi", None);
  (5, 41, 0, 0, "xi", None);
  (5, 42, 0, 0, "xi", None);
  (7, 17, 0, 0, "xi", None);
  (7, 18, 0, 0, "xi", None);
  (7, 19, 0, 0, "xi", None);
  (7, 20, 0, 0, "xi", None);
  (7, 25, 0, 0, "xi", None);
  (7, 26, 0, 0, "xi", None);
  (7, 27, 0, 0, "xi", None);
  (7, 28, 0, 0, "xi", None);
  (7, 35, 0, 0, "xi", None);
  (7, 36, 0, 0, "xi", None);
  (7, 37, 0, 0, "xi", None);
  (7, 38, 0, 0, "xi", None);
  (8, 17, 0, 0, "xi", None);
  (8, 18, 0, 0, "xi", None);
  (8, 19, 0, 0, "xi", None);
  (8, 20, 0, 0, "xi", None);
  (8, 25, 0, 0, "xi", None);
  (8, 26, 0, 0, "xi", None);
  (8, 27, 0, 0, "xi", None);
  (8, 28, 0, 0, "xi", None);
  (8, 29, 0, 0, "xi", None);
  (8, 30, 0, 0, "xi", None);
  (8, 35, 0, 0, "xi", None);
  (8, 36, 0, 0, "xi", None);
  (8, 37, 0, 0, "xi", None);
  (8, 38, 0, 0, "xi", None);
  (8, 39, 0, 0, "xi", None);
  (8, 40, 0, 0, "xi", None);
  (9, 21, 0, 0, "xi", None);
  (9, 22, 0, 0, "xi", None);
  (9, 31, 0, 0, "xi", None);
  (9, 32, 0, 0, "xi", None);
  (9, 41, 0, 0, "xi", None);
  (9, 42, 0, 0, "xi", None);
  (10, 21, 0, 0, "xi", None);
  (10, 22, 0, 0, "xi", None);
  (10, 31, 0, 0, "xi", None);
  (10, 32, 0, 0, "xi", None);
  (10, 41, 0, 0, "xi", None);
  (10, 42, 0, 0, "xi", None);
  (11, 17, 0, 0, "xi", None);
  (11, 18, 0, 0, "xi", None);
  (11, 19, 0, 0, "xi", None);
  (11, 20, 0, 0, "xi", None);
  (11, 25, 0, 0, "xi", None);
  (11, 26, 0, 0, "xi", None);
  (11, 27, 0, 0, "xi", None);
  (11, 28, 0, 0, "xi", None);
  (11, 35, 0, 0, "xi", None);
  (11, 36, 0, 0, "xi", None);
  (11, 37, 0, 0, "xi", None);
  (11, 38, 0, 0, "xi", None);
  (12, 17, 0, 0, "xi", None);
  (12, 18, 0, 0, "xi", None);
  (12, 19, 0, 0, "xi", None);
  (12, 20, 0, 0, "xi", None);
  (12, 25, 0, 0, "xi", None);
  (12, 26, 0, 0, "xi", None);
  (12, 27, 0, 0, "xi", None);
  (12, 28, 0, 0, "xi", None);
  (12, 29, 0, 0, "xi", None);
  (12, 30, 0, 0, "xi", None);
  (12, 35, 0, 0, "xi", None);
  (12, 36, 0, 0, "xi", None);
  (12, 37, 0, 0, "xi", None);
  (12, 38, 0, 0, "xi", None);
  (12, 39, 0, 0, "xi", None);
  (12, 40, 0, 0, "xi", None);
  (13, 21, 0, 0, "xi", None);
  (13, 22, 0, 0, "xi", None);
  (13, 31, 0, 0, "xi", None);
  (13, 32, 0, 0, "xi", None);
  (13, 41, 0, 0, "xi", None);
  (13, 42, 0, 0, "xi", None);
  (14, 21, 0, 0, "xi", None);
  (14, 22, 0, 0, "xi", None);
  (14, 31, 0, 0, "xi", None);
  (14, 32, 0, 0, "xi", None);
  (14, 41, 0, 0, "xi", None);
  (14, 42, 0, 0, "xi", None);
  (15, 2, 0, 0, "xi", None);
  (15, 3, 0, 0, "xi", None);
  (15, 7, 0, 0, "xi", None);
  (15, 8, 0, 0, "xi", None);
  (15, 11, 0, 0, "xi", None);
  (15, 12, 0, 0, "xi", None);
  (15, 49, 0, 0, "xi", None);
  (15, 50, 0, 0, "xi", None);
  (15, 55, 0, 0, "xi", None);
  (15, 56, 0, 0, "xi", None);
  (16, 2, 0, 0, "xi", None);
  (16, 3, 0, 0, "xi", None);
  (16, 7, 0, 0, "xi", None);
  (16, 8, 0, 0, "xi", None);
  (16, 11, 0, 0, "xi", None);
  (16, 12, 0, 0, "xi", None);
  (16, 50, 0, 0, "xi", None);
  (16, 51, 0, 0, "xi", None);
  (16, 56, 0, 0, "xi", None);
  (16, 57, 0, 0, "xi", None);
  (17, 4, 0, 0, "xi", None);
  (17, 5, 0, 0, "xi", None);
  (17, 9, 0, 0, "xi", None);
  (17, 10, 0, 0, "xi", None);
  (17, 13, 0, 0, "xi", None);
  (17, 14, 0, 0, "xi", None);
  (17, 46, 0, 0, "xi", None);
  (17, 47, 0, 0, "xi", None);
  (17, 52, 0, 0, "xi", None);
  (17, 53, 0, 0, "xi", None);
  (17, 58, 0, 0, "xi", None);
  (17, 59, 0, 0, "xi", None);
  (18, 4, 0, 0, "xi", None);
  (18, 5, 0, 0, "xi", None);
  (18, 9, 0, 0, "xi", None);
  (18, 10, 0, 0, "xi", None);
  (18, 13, 0, 0, "xi", None);
  (18, 14, 0, 0, "xi", None);
  (18, 47, 0, 0, "xi", None);
  (18, 48, 0, 0, "xi", None);
  (18, 53, 0, 0, "xi", None);
  (18, 54, 0, 0, "xi", None);
  (18, 59, 0, 0, "xi", None);
  (18, 60, 0, 0, "xi", None);
  (19, 4, 0, 0, "xi", None);
  (19, 5, 0, 0, "xi", None);
  (19, 9, 0, 0, "xi", None);
  (19, 10, 0, 0, "xi", None);
  (19, 13, 0, 0, "xi", None);
  (19, 14, 0, 0, "xi", None);
  (19, 46, 0, 0, "xi", None);
  (19, 47, 0, 0, "xi", None);
  (19, 52, 0, 0, "xi", None);
  (19, 53, 0, 0, "xi", None);
  (19, 58, 0, 0, "xi", None);
  (19, 59, 0, 0, "xi", None);
  (20, 4, 0, 0, "xi", None);
  (20, 5, 0, 0, "xi", None);
  (20, 9, 0, 0, "xi", None);
  (20, 10, 0, 0, "xi", None);
  (20, 13, 0, 0, "xi", None);
  (20, 14, 0, 0, "xi", None);
  (20, 47, 0, 0, "xi", None);
  (20, 48, 0, 0, "xi", None);
  (20, 53, 0, 0, "xi", None);
  (20, 54, 0, 0, "xi", None);
  (20, 59, 0, 0, "xi", None);
  (20, 60, 0, 0, "xi", None);
  (21, 6, 0, 0, "xi", None);
  (22, 6, 0, 0, "xi", None);
  (23, 2, 0, 0, "xi", None);
  (23, 3, 0, 0, "xi", None);
  (23, 7, 0, 0, "xi", None);
  (23, 8, 0, 0, "xi", None);
  (23, 11, 0, 0, "xi", None);
  (23, 12, 0, 0, "xi", None);
  (23, 43, 0, 0, "xi", None);
  (23, 44, 0, 0, "xi", None);
  (23, 49, 0, 0, "xi", None);
  (23, 50, 0, 0, "xi", None);
  (24, 2, 0, 0, "xi", None);
  (24, 3, 0, 0, "xi", None);
  (24, 7, 0, 0, "xi", None);
  (24, 8, 0, 0, "xi", None);
  (24, 11, 0, 0, "xi", None);
  (24, 12, 0, 0, "xi", None);
  (24, 44, 0, 0, "xi", None);
  (24, 45, 0, 0, "xi", None);
  (24, 50, 0, 0, "xi", None);
  (24, 51, 0, 0, "xi", None);
  (25, 4, 0, 0, "xi", None);
  (25, 5, 0, 0, "xi", None);
  (25, 9, 0, 0, "xi", None);
  (25, 10, 0, 0, "xi", None);
  (25, 13, 0, 0, "xi", None);
  (25, 14, 0, 0, "xi", None);
  (25, 46, 0, 0, "xi", None);
  (25, 47, 0, 0, "xi", None);
  (25, 52, 0, 0, "xi", None);
  (25, 53, 0, 0, "xi", None);
  (25, 58, 0, 0, "xi", None);
  (25, 59, 0, 0, "xi", None);
  (26, 4, 0, 0, "xi", None);
  (26, 5, 0, 0, "xi", None);
  (26, 9, 0, 0, "xi", None);
  (26, 10, 0, 0, "xi", None);
  (26, 13, 0, 0, "xi", None);
  (26, 14, 0, 0, "xi", None);
  (26, 47, 0, 0, "xi", None);
  (26, 48, 0, 0, "xi", None);
  (26, 53, 0, 0, "xi", None);
  (26, 54, 0, 0, "xi", None);
  (26, 59, 0, 0, "xi", None);
  (26, 60, 0, 0, "xi", None);
  (27, 4, 0, 0, "xi", None);
  (27, 5, 0, 0, "xi", None);
  (27, 9, 0, 0, "xi", None);
  (27, 10, 0, 0, "xi", None);
  (27, 13, 0, 0, "xi", None);
  (27, 14, 0, 0, "xi", None);
  (27, 46, 0, 0, "xi", None);
  (27, 47, 0, 0, "xi", None);
  (27, 52, 0, 0, "xi", None);
  (27, 53, 0, 0, "xi", None);
  (27, 58, 0, 0, "xi", None);
  (27, 59, 0, 0, "xi", None);
  (28, 4, 0, 0, "xi", None);
  (28, 5, 0, 0, "xi", None);
  (28, 9, 0, 0, "xi", None);
  (28, 10, 0, 0, "xi", None);
  (28, 13, 0, 0, "xi", None);
  (28, 14, 0, 0, "xi", None);
  (28, 47, 0, 0, "xi", None);
  (28, 48, 0, 0, "xi", None);
  (28, 53, 0, 0, "xi", None);
  (28, 54, 0, 0, "xi", None);
  (28, 59, 0, 0, "xi", None);
  (28, 60, 0, 0, "xi", None);
  (29, 5, 0, 0, "xi", None);
  (29, 10, 0, 0, "xi", None);
  (29, 14, 0, 0, "xi", None);
  (29, 46, 0, 0, "xi", None);
  (29, 47, 0, 0, "xi", None);
  (29, 52, 0, 0, "xi", None);
  (29, 53, 0, 0, "xi", None);
  (29, 58, 0, 0, "xi", None);
  (29, 59, 0, 0, "xi", None);
  (30, 5, 0, 0, "xi", None);
  (30, 10, 0, 0, "xi", None);
  (30, 14, 0, 0, "xi", None);
  (30, 47, 0, 0, "xi", None);
  (30, 48, 0, 0, "xi", None);
  (30, 53, 0, 0, "xi", None);
  (30, 54, 0, 0, "xi", None);
  (30, 59, 0, 0, "xi", None);
  (30, 60, 0, 0, "xi", None);
  (31, 6, 0, 0, "xi", None);
  (32, 6, 0, 0, "xi", None);
  (33, 2, 0, 0, "xi", None);
  (33, 3, 0, 0, "xi", None);
  (33, 7, 0, 0, "xi", None);
  (33, 8, 0, 0, "xi", None);
  (33, 11, 0, 0, "xi", None);
  (33, 12, 0, 0, "xi", None);
  (33, 43, 0, 0, "xi", None);
  (33, 44, 0, 0, "xi", None);
  (33, 55, 0, 0, "xi", None);
  (33, 56, 0, 0, "xi", None);
  (34, 2, 0, 0, "xi", None);
  (34, 3, 0, 0, "xi", None);
  (34, 7, 0, 0, "xi", None);
  (34, 8, 0, 0, "xi", None);
  (34, 11, 0, 0, "xi", None);
  (34, 12, 0, 0, "xi", None);
  (34, 44, 0, 0, "xi", None);
  (34, 45, 0, 0, "xi", None);
  (34, 56, 0, 0, "xi", None);
  (34, 57, 0, 0, "xi", None);
  (35, 4, 0, 0, "xi", None);
  (35, 5, 0, 0, "xi", None);
  (35, 9, 0, 0, "xi", None);
  (35, 10, 0, 0, "xi", None);
  (35, 13, 0, 0, "xi", None);
  (35, 14, 0, 0, "xi", None);
  (35, 46, 0, 0, "xi", None);
  (35, 47, 0, 0, "xi", None);
  (35, 52, 0, 0, "xi", None);
  (35, 53, 0, 0, "xi", None);
  (35, 58, 0, 0, "xi", None);
  (35, 59, 0, 0, "xi", None);
  (36, 4, 0, 0, "xi", None);
  (36, 5, 0, 0, "xi", None);
  (36, 9, 0, 0, "xi", None);
  (36, 10, 0, 0, "xi", None);
  (36, 13, 0, 0, "xi", None);
  (36, 14, 0, 0, "xi", None);
  (36, 47, 0, 0, "xi", None);
  (36, 48, 0, 0, "xi", None);
  (36, 53, 0, 0, "xi", None);
  (36, 54, 0, 0, "xi", None);
  (36, 59, 0, 0, "xi", None);
  (36, 60, 0, 0, "xi", None);
  (37, 4, 0, 0, "xi", None);
  (37, 5, 0, 0, "xi", None);
  (37, 9, 0, 0, "xi", None);
  (37, 10, 0, 0, "xi", None);
  (37, 13, 0, 0, "xi", None);
  (37, 14, 0, 0, "xi", None);
  (37, 46, 0, 0, "xi", None);
  (37, 47, 0, 0, "xi", None);
  (37, 52, 0, 0, "xi", None);
  (37, 53, 0, 0, "xi", None);
  (37, 58, 0, 0, "xi", None);
  (37, 59, 0, 0, "xi", None);
  (38, 4, 0, 0, "xi", None);
  (38, 5, 0, 0, "xi", None);
  (38, 9, 0, 0, "xi", None);
  (38, 10, 0, 0, "xi", None);
  (38, 13, 0, 0, "xi", None);
  (38, 14, 0, 0, "xi", None);
  (38, 47, 0, 0, "xi", None);
  (38, 48, 0, 0, "xi", None);
  (38, 53, 0, 0, "xi", None);
  (38, 54, 0, 0, "xi", None);
  (38, 59, 0, 0, "xi", None);
  (38, 60, 0, 0, "xi", None);
  (39, 5, 0, 0, "xi", None);
  (39, 10, 0, 0, "xi", None);
  (39, 14, 0, 0, "xi", None);
  (39, 46, 0, 0, "xi", None);
  (39, 47, 0, 0, "xi", None);
  (39, 52, 0, 0, "xi", None);
  (39, 53, 0, 0, "xi", None);
  (39, 58, 0, 0, "xi", None);
  (39, 59, 0, 0, "xi", None);
  (40, 5, 0, 0, "xi", None);
  (40, 10, 0, 0, "xi", None);
  (40, 14, 0, 0, "xi", None);
  (40, 47, 0, 0, "xi", None);
  (40, 48, 0, 0, "xi", None);
  (40, 53, 0, 0, "xi", None);
  (40, 54, 0, 0, "xi", None);
  (40, 59, 0, 0, "xi", None);
  (40, 60, 0, 0, "xi", None);
  (41, 6, 0, 0, "xi", None);
  (42, 6, 0, 0, "xi", None);
  (43, 17, 0, 0, "xi", None);
  (43, 19, 0, 0, "xi", None);
  (43, 25, 0, 0, "xi", None);
  (43, 27, 0, 0, "xi", None);
  (43, 29, 0, 0, "xi", None);
  (43, 35, 0, 0, "xi", None);
  (43, 37, 0, 0, "xi", None);
  (43, 39, 0, 0, "xi", None);
  (43, 61, 0, 0, "xi", None);
  (43, 62, 0, 0, "xi", None);
  (44, 17, 0, 0, "xi", None);
  (44, 18, 0, 0, "xi", None);
  (44, 19, 0, 0, "xi", None);
  (44, 20, 0, 0, "xi", None);
  (44, 25, 0, 0, "xi", None);
  (44, 26, 0, 0, "xi", None);
  (44, 27, 0, 0, "xi", None);
  (44, 28, 0, 0, "xi", None);
  (44, 29, 0, 0, "xi", None);
  (44, 30, 0, 0, "xi", None);
  (44, 35, 0, 0, "xi", None);
  (44, 36, 0, 0, "xi", None);
  (44, 37, 0, 0, "xi", None);
  (44, 38, 0, 0, "xi", None);
  (44, 39, 0, 0, "xi", None);
  (44, 40, 0, 0, "xi", None);
  (44, 62, 0, 0, "xi", None);
  (44, 63, 0, 0, "xi", None);
  (45, 18, 0, 0, "xi", None);
  (45, 20, 0, 0, "xi", None);
  (45, 26, 0, 0, "xi", None);
  (45, 28, 0, 0, "xi", None);
  (45, 30, 0, 0, "xi", None);
  (45, 36, 0, 0, "xi", None);
  (45, 38, 0, 0, "xi", None);
  (45, 40, 0, 0, "xi", None);
  (45, 63, 0, 0, "xi", None);
  (45, 64, 0, 0, "xi", None);
  (46, 31, 0, 0, "xi", None);
  (46, 41, 0, 0, "xi", None);
  (47, 31, 0, 0, "xi", None);
  (47, 32, 0, 0, "xi", None);
  (47, 41, 0, 0, "xi", None);
  (47, 42, 0, 0, "xi", None);
  (48, 32, 0, 0, "xi", None);
  (48, 42, 0, 0, "xi", None);
  (49, 17, 0, 0, "xi", None);
  (49, 19, 0, 0, "xi", None);
  (49, 25, 0, 0, "xi", None);
  (49, 27, 0, 0, "xi", None);
  (49, 29, 0, 0, "xi", None);
  (49, 35, 0, 0, "xi", None);
  (49, 37, 0, 0, "xi", None);
  (49, 39, 0, 0, "xi", None);
  (49, 61, 0, 0, "xi", None);
  (49, 62, 0, 0, "xi", None);
  (50, 17, 0, 0, "xi", None);
  (50, 18, 0, 0, "xi", None);
  (50, 19, 0, 0, "xi", None);
  (50, 20, 0, 0, "xi", None);
  (50, 25, 0, 0, "xi", None);
  (50, 26, 0, 0, "xi", None);
  (50, 27, 0, 0, "xi", None);
  (50, 28, 0, 0, "xi", None);
  (50, 29, 0, 0, "xi", None);
  (50, 30, 0, 0, "xi", None);
  (50, 35, 0, 0, "xi", None);
  (50, 36, 0, 0, "xi", None);
  (50, 37, 0, 0, "xi", None);
  (50, 38, 0, 0, "xi", None);
  (50, 39, 0, 0, "xi", None);
  (50, 40, 0, 0, "xi", None);
  (50, 62, 0, 0, "xi", None);
  (50, 63, 0, 0, "xi", None);
  (51, 18, 0, 0, "xi", None);
  (51, 20, 0, 0, "xi", None);
  (51, 26, 0, 0, "xi", None);
  (51, 28, 0, 0, "xi", None);
  (51, 30, 0, 0, "xi", None);
  (51, 36, 0, 0, "xi", None);
  (51, 38, 0, 0, "xi", None);
  (51, 40, 0, 0, "xi", None);
  (51, 63, 0, 0, "xi", None);
  (51, 64, 0, 0, "xi", None);
  (52, 21, 0, 0, "xi", None);
  (52, 31, 0, 0, "xi", None);
  (53, 21, 0, 0, "xi", None);
  (53, 22, 0, 0, "xi", None);
  (53, 31, 0, 0, "xi", None);
  (53, 32, 0, 0, "xi", None);
  (54, 22, 0, 0, "xi", None);
  (54, 32, 0, 0, "xi", None);
  (55, 17, 0, 0, "xi", None);
  (55, 19, 0, 0, "xi", None);
  (55, 25, 0, 0, "xi", None);
  (55, 27, 0, 0, "xi", None);
  (55, 29, 0, 0, "xi", None);
  (55, 35, 0, 0, "xi", None);
  (55, 37, 0, 0, "xi", None);
  (55, 39, 0, 0, "xi", None);
  (55, 61, 0, 0, "xi", None);
  (55, 62, 0, 0, "xi", None);
  (56, 17, 0, 0, "xi", None);
  (56, 18, 0, 0, "xi", None);
  (56, 19, 0, 0, "xi", None);
  (56, 20, 0, 0, "xi", None);
  (56, 25, 0, 0, "xi", None);
  (56, 26, 0, 0, "xi", None);
  (56, 27, 0, 0, "xi", None);
  (56, 28, 0, 0, "xi", None);
  (56, 29, 0, 0, "xi", None);
  (56, 30, 0, 0, "xi", None);
  (56, 35, 0, 0, "xi", None);
  (56, 36, 0, 0, "xi", None);
  (56, 37, 0, 0, "xi", None);
  (56, 38, 0, 0, "xi", None);
  (56, 39, 0, 0, "xi", None);
  (56, 40, 0, 0, "xi", None);
  (56, 62, 0, 0, "xi", None);
  (56, 63, 0, 0, "xi", None);
  (57, 18, 0, 0, "xi", None);
  (57, 20, 0, 0, "xi", None);
  (57, 26, 0, 0, "xi", None);
  (57, 28, 0, 0, "xi", None);
  (57, 30, 0, 0, "xi", None);
  (57, 36, 0, 0, "xi", None);
  (57, 38, 0, 0, "xi", None);
  (57, 40, 0, 0, "xi", None);
  (57, 63, 0, 0, "xi", None);
  (57, 64, 0, 0, "xi", None);
  (58, 21, 0, 0, "xi", None);
  (58, 41, 0, 0, "xi", None);
  (59, 21, 0, 0, "xi", None);
  (59, 22, 0, 0, "xi", None);
  (59, 41, 0, 0, "xi", None);
  (59, 42, 0, 0, "xi", None);
  (60, 22, 0, 0, "xi", None);
  (60, 42, 0, 0, "xi", None);
  (61, 46, 0, 0, "xi", None);
  (61, 52, 0, 0, "xi", None);
  (61, 58, 0, 0, "xi", None);
  (62, 46, 0, 0, "xi", None);
  (62, 47, 0, 0, "xi", None);
  (62, 52, 0, 0, "xi", None);
  (62, 53, 0, 0, "xi", None);
  (62, 58, 0, 0, "xi", None);
  (62, 59, 0, 0, "xi", None);
  (63, 47, 0, 0, "xi", None);
  (63, 48, 0, 0, "xi", None);
  (63, 53, 0, 0, "xi", None);
  (63, 54, 0, 0, "xi", None);
  (63, 59, 0, 0, "xi", None);
  (63, 60, 0, 0, "xi", None);
  (64, 48, 0, 0, "xi", None);
  (64, 54, 0, 0, "xi", None);
  (64, 60, 0, 0, "xi", None);
  (1, 15, 1, 0, "xi", None);
  (1, 16, 1, 0, "xi", None);
  (1, 23, 1, 0, "xi", None);
  (1, 24, 1, 0, "xi", None);
  (1, 33, 1, 0, "xi", None);
  (1, 34, 1, 0, "xi", None);
  (2, 17, 1, 0, "xi", None);
  (2, 18, 1, 0, "xi", None);
  (2, 19, 1, 0, "xi", None);
  (2, 20, 1, 0, "xi", None);
  (2, 25, 1, 0, "xi", None);
  (2, 26, 1, 0, "xi", None);
  (2, 27, 1, 0, "xi", None);
  (2, 28, 1, 0, "xi", None);
  (2, 35, 1, 0, "xi", None);
  (2, 36, 1, 0, "xi", None);
  (2, 37, 1, 0, "xi", None);
  (2, 38, 1, 0, "xi", None);
  (3, 17, 1, 0, "xi", None);
  (3, 18, 1, 0, "xi", None);
  (3, 19, 1, 0, "xi", None);
  (3, 20, 1, 0, "xi", None);
  (3, 25, 1, 0, "xi", None);
  (3, 26, 1, 0, "xi", None);
  (3, 27, 1, 0, "xi", None);
  (3, 28, 1, 0, "xi", None);
  (3, 29, 1, 0, "xi", None);
  (3, 30, 1, 0, "xi", None);
  (3, 35, 1, 0, "xi", None);
  (3, 36, 1, 0, "xi", None);
  (3, 37, 1, 0, "xi", None);
  (3, 38, 1, 0, "xi", None);
  (3, 39, 1, 0, "xi", None);
  (3, 40, 1, 0, "xi", None);
  (4, 21, 1, 0, "xi", None);
  (4, 22, 1, 0, "xi", None);
  (4, 31, 1, 0, "xi", None);
  (4, 32, 1, 0, "xi", None);
  (4, 41, 1, 0, "xi", None);
  (4, 42, 1, 0, "xi", None);
  (5, 21, 1, 0, "xi", None);
  (5, 22, 1, 0, "xi", None);
  (5, 31, 1, 0, "xi", None);
  (5, 32, 1, 0, "xi", None);
  (5, 41, 1, 0, "xi", None);
  (5, 42, 1, 0, "xi", None);
  (7, 17, 1, 0, "xi", None);
  (7, 18, 1, 0, "xi", None);
  (7, 19, 1, 0, "xi", None);
  (7, 20, 1, 0, "xi", None);
  (7, 25, 1, 0, "xi", None);
  (7, 26, 1, 0, "xi", None);
  (7, 27, 1, 0, "xi", None);
  (7, 28, 1, 0, "xi", None);
  (7, 35, 1, 0, "xi", None);
  (7, 36, 1, 0, "xi", None);
  (7, 37, 1, 0, "xi", None);
  (7, 38, 1, 0, "xi", None);
  (8, 17, 1, 0, "xi", None);
  (8, 18, 1, 0, "xi", None);
  (8, 19, 1, 0, "xi", None);
  (8, 20, 1, 0, "xi", None);
  (8, 25, 1, 0, "xi", None);
  (8, 26, 1, 0, "xi", None);
  (8, 27, 1, 0, "xi", None);
  (8, 28, 1, 0, "xi", None);
  (8, 29, 1, 0, "xi", None);
  (8, 30, 1, 0, "xi", None);
  (8, 35, 1, 0, "xi", None);
  (8, 36, 1, 0, "xi", None);
  (8, 37, 1, 0, "xi", None);
  (8, 38, 1, 0, "xi", None);
  (8, 39, 1, 0, "xi", None);
  (8, 40, 1, 0, "xi", None);
  (9, 21, 1, 0, "xi", None);
  (9, 22, 1, 0, "xi", None);
  (9, 31, 1, 0, "xi", None);
  (9, 32, 1, 0, "xi", None);
  (9, 41, 1, 0, "xi", None);
  (9, 42, 1, 0, "xi", None);
  (10, 21, 1, 0, "xi", None);
  (10, 22, 1, 0, "xi", None);
  (10, 31, 1, 0, "xi", None);
  (10, 32, 1, 0, "xi", None);
  (10, 41, 1, 0, "xi", None);
  (10, 42, 1, 0, "xi", None);
  (11, 17, 1, 0, "xi", None);
  (11, 18, 1, 0, "xi", None);
  (11, 19, 1, 0, "xi", None);
  (11, 20, 1, 0, "xi", None);
  (11, 25, 1, 0, "xi", None);
  (11, 26, 1, 0, "xi", None);
  (11, 27, 1, 0, "xi", None);
  (11, 28, 1, 0, "xi", None);
  (11, 35, 1, 0, "xi", None);
  (11, 36, 1, 0, "xi", None);
  (11, 37, 1, 0, "xi", None);
  (11, 38, 1, 0, "xi", None);
  (12, 17, 1, 0, "xi", None);
  (12, 18, 1, 0, "xi", None);
  (12, 19, 1, 0, "xi", None);
  (12, 20, 1, 0, "xi", None);
  (12, 25, 1, 0, "xi", None);
  (12, 26, 1, 0, "xi", None);
  (12, 27, 1, 0, "xi", None);
  (12, 28, 1, 0, "xi", None);
  (12, 29, 1, 0, "xi", None);
  (12, 30, 1, 0, "xi", None);
  (12, 35, 1, 0, "xi", None);
  (12, 36, 1, 0, "xi", None);
  (12, 37, 1, 0, "xi", None);
  (12, 38, 1, 0, "xi", None);
  (12, 39, 1, 0, "xi", None);
  (12, 40, 1, 0, "xi", None);
  (13, 21, 1, 0, "xi", None);
  (13, 22, 1, 0, "xi", None);
  (13, 31, 1, 0, "xi", None);
  (13, 32, 1, 0, "xi", None);
  (13, 41, 1, 0, "xi", None);
  (13, 42, 1, 0, "xi", None);
  (14, 21, 1, 0, "xi", None);
  (14, 22, 1, 0, "xi", None);
  (14, 31, 1, 0, "xi", None);
  (14, 32, 1, 0, "xi", None);
  (14, 41, 1, 0, "xi", None);
  (14, 42, 1, 0, "xi", None);
  (15, 2, 1, 0, "xi", None);
  (15, 3, 1, 0, "xi", None);
  (15, 7, 1, 0, "xi", None);
  (15, 8, 1, 0, "xi", None);
  (15, 11, 1, 0, "xi", None);
  (15, 12, 1, 0, "xi", None);
  (15, 49, 1, 0, "xi", None);
  (15, 50, 1, 0, "xi", None);
  (15, 55, 1, 0, "xi", None);
  (15, 56, 1, 0, "xi", None);
  (16, 2, 1, 0, "xi", None);
  (16, 3, 1, 0, "xi", None);
  (16, 7, 1, 0, "xi", None);
  (16, 8, 1, 0, "xi", None);
  (16, 11, 1, 0, "xi", None);
  (16, 12, 1, 0, "xi", None);
  (16, 50, 1, 0, "xi", None);
  (16, 51, 1, 0, "xi", None);
  (16, 56, 1, 0, "xi", None);
  (16, 57, 1, 0, "xi", None);
  (17, 4, 1, 0, "xi", None);
  (17, 5, 1, 0, "xi", None);
  (17, 9, 1, 0, "xi", None);
  (17, 10, 1, 0, "xi", None);
  (17, 13, 1, 0, "xi", None);
  (17, 14, 1, 0, "xi", None);
  (17, 46, 1, 0, "xi", None);
  (17, 47, 1, 0, "xi", None);
  (17, 52, 1, 0, "xi", None);
  (17, 53, 1, 0, "xi", None);
  (17, 58, 1, 0, "xi", None);
  (17, 59, 1, 0, "xi", None);
  (18, 4, 1, 0, "xi", None);
  (18, 5, 1, 0, "xi", None);
  (18, 9, 1, 0, "xi", None);
  (18, 10, 1, 0, "xi", None);
  (18, 13, 1, 0, "xi", None);
  (18, 14, 1, 0, "xi", None);
  (18, 47, 1, 0, "xi", None);
  (18, 48, 1, 0, "xi", None);
  (18, 53, 1, 0, "xi", None);
  (18, 54, 1, 0, "xi", None);
  (18, 59, 1, 0, "xi", None);
  (18, 60, 1, 0, "xi", None);
  (19, 4, 1, 0, "xi", None);
  (19, 5, 1, 0, "xi", None);
  (19, 9, 1, 0, "xi", None);
  (19, 10, 1, 0, "xi", None);
  (19, 13, 1, 0, "xi", None);
  (19, 14, 1, 0, "xi", None);
  (19, 46, 1, 0, "xi", None);
  (19, 47, 1, 0, "xi", None);
  (19, 52, 1, 0, "xi", None);
  (19, 53, 1, 0, "xi", None);
  (19, 58, 1, 0, "xi", None);
  (19, 59, 1, 0, "xi", None);
  (20, 4, 1, 0, "xi", None);
  (20, 5, 1, 0, "xi", None);
  (20, 9, 1, 0, "xi", None);
  (20, 10, 1, 0, "xi", None);
  (20, 13, 1, 0, "xi", None);
  (20, 14, 1, 0, "xi", None);
  (20, 47, 1, 0, "xi", None);
  (20, 48, 1, 0, "xi", None);
  (20, 53, 1, 0, "xi", None);
  (20, 54, 1, 0, "xi", None);
  (20, 59, 1, 0, "xi", None);
  (20, 60, 1, 0, "xi", None);
  (21, 6, 1, 0, "xi", None);
  (22, 6, 1, 0, "xi", None);
  (23, 2, 1, 0, "xi", None);
  (23, 3, 1, 0, "xi", None);
  (23, 7, 1, 0, "xi", None);
  (23, 8, 1, 0, "xi", None);
  (23, 11, 1, 0, "xi", None);
  (23, 12, 1, 0, "xi", None);
  (23, 43, 1, 0, "xi", None);
  (23, 44, 1, 0, "xi", None);
  (23, 49, 1, 0, "xi", None);
  (23, 50, 1, 0, "xi", None);
  (24, 2, 1, 0, "xi", None);
  (24, 3, 1, 0, "xi", None);
  (24, 7, 1, 0, "xi", None);
  (24, 8, 1, 0, "xi", None);
  (24, 11, 1, 0, "xi", None);
  (24, 12, 1, 0, "xi", None);
  (24, 44, 1, 0, "xi", None);
  (24, 45, 1, 0, "xi", None);
  (24, 50, 1, 0, "xi", None);
  (24, 51, 1, 0, "xi", None);
  (25, 4, 1, 0, "xi", None);
  (25, 5, 1, 0, "xi", None);
  (25, 9, 1, 0, "xi", None);
  (25, 10, 1, 0, "xi", None);
  (25, 13, 1, 0, "xi", None);
  (25, 14, 1, 0, "xi", None);
  (25, 46, 1, 0, "xi", None);
  (25, 47, 1, 0, "xi", None);
  (25, 52, 1, 0, "xi", None);
  (25, 53, 1, 0, "xi", None);
  (25, 58, 1, 0, "xi", None);
  (25, 59, 1, 0, "xi", None);
  (26, 4, 1, 0, "xi", None);
  (26, 5, 1, 0, "xi", None);
  (26, 9, 1, 0, "xi", None);
  (26, 10, 1, 0, "xi", None);
  (26, 13, 1, 0, "xi", None);
  (26, 14, 1, 0, "xi", None);
  (26, 47, 1, 0, "xi", None);
  (26, 48, 1, 0, "xi", None);
  (26, 53, 1, 0, "xi", None);
  (26, 54, 1, 0, "xi", None);
  (26, 59, 1, 0, "xi", None);
  (26, 60, 1, 0, "xi", None);
  (27, 4, 1, 0, "xi", None);
  (27, 5, 1, 0, "xi", None);
  (27, 9, 1, 0, "xi", None);
  (27, 10, 1, 0, "xi", None);
  (27, 13, 1, 0, "xi", None);
  (27, 14, 1, 0, "xi", None);
  (27, 46, 1, 0, "xi", None);
  (27, 47, 1, 0, "xi", None);
  (27, 52, 1, 0, "xi", None);
  (27, 53, 1, 0, "xi", None);
  (27, 58, 1, 0, "xi", None);
  (27, 59, 1, 0, "xi", None);
  (28, 4, 1, 0, "xi", None);
  (28, 5, 1, 0, "xi", None);
  (28, 9, 1, 0, "xi", None);
  (28, 10, 1, 0, "xi", None);
  (28, 13, 1, 0, "xi", None);
  (28, 14, 1, 0, "xi", None);
  (28, 47, 1, 0, "xi", None);
  (28, 48, 1, 0, "xi", None);
  (28, 53, 1, 0, "xi", None);
  (28, 54, 1, 0, "xi", None);
  (28, 59, 1, 0, "xi", None);
  (28, 60, 1, 0, "xi", None);
  (29, 5, 1, 0, "xi", None);
  (29, 10, 1, 0, "xi", None);
  (29, 14, 1, 0, "xi", None);
  (29, 46, 1, 0, "xi", None);
  (29, 47, 1, 0, "xi", None);
  (29, 52, 1, 0, "xi", None);
  (29, 53, 1, 0, "xi", None);
  (29, 58, 1, 0, "xi", None);
  (29, 59, 1, 0, "xi", None);
  (30, 5, 1, 0, "xi", None);
  (30, 10, 1, 0, "xi", None);
  (30, 14, 1, 0, "xi", None);
  (30, 47, 1, 0, "xi", None);
  (30, 48, 1, 0, "xi", None);
  (30, 53, 1, 0, "xi", None);
  (30, 54, 1, 0, "xi", None);
  (30, 59, 1, 0, "xi", None);
  (30, 60, 1, 0, "xi", None);
  (31, 6, 1, 0, "xi", None);
  (32, 6, 1, 0, "xi", None);
  (33, 2, 1, 0, "xi", None);
  (33, 3, 1, 0, "xi", None);
  (33, 7, 1, 0, "xi", None);
  (33, 8, 1, 0, "xi", None);
  (33, 11, 1, 0, "xi", None);
  (33, 12, 1, 0, "xi", None);
  (33, 43, 1, 0, "xi", None);
  (33, 44, 1, 0, "xi", None);
  (33, 55, 1, 0, "xi", None);
  (33, 56, 1, 0, "xi", None);
  (34, 2, 1, 0, "xi", None);
  (34, 3, 1, 0, "xi", None);
  (34, 7, 1, 0, "xi", None);
  (34, 8, 1, 0, "xi", None);
  (34, 11, 1, 0, "xi", None);
  (34, 12, 1, 0, "xi", None);
  (34, 44, 1, 0, "xi", None);
  (34, 45, 1, 0, "xi", None);
  (34, 56, 1, 0, "xi", None);
  (34, 57, 1, 0, "xi", None);
  (35, 4, 1, 0, "xi", None);
  (35, 5, 1, 0, "xi", None);
  (35, 9, 1, 0, "xi", None);
  (35, 10, 1, 0, "xi", None);
  (35, 13, 1, 0, "xi", None);
  (35, 14, 1, 0, "xi", None);
  (35, 46, 1, 0, "xi", None);
  (35, 47, 1, 0, "xi", None);
  (35, 52, 1, 0, "xi", None);
  (35, 53, 1, 0, "xi", None);
  (35, 58, 1, 0, "xi", None);
  (35, 59, 1, 0, "xi", None);
  (36, 4, 1, 0, "xi", None);
  (36, 5, 1, 0, "xi", None);
  (36, 9, 1, 0, "xi", None);
  (36, 10, 1, 0, "xi", None);
  (36, 13, 1, 0, "xi", None);
  (36, 14, 1, 0, "xi", None);
  (36, 47, 1, 0, "xi", None);
  (36, 48, 1, 0, "xi", None);
  (36, 53, 1, 0, "xi", None);
  (36, 54, 1, 0, "xi", None);
  (36, 59, 1, 0, "xi", None);
  (36, 60, 1, 0, "xi", None);
  (37, 4, 1, 0, "xi", None);
  (37, 5, 1, 0, "xi", None);
  (37, 9, 1, 0, "xi", None);
  (37, 10, 1, 0, "xi", None);
  (37, 13, 1, 0, "xi", None);
  (37, 14, 1, 0, "xi", None);
  (37, 46, 1, 0, "xi", None);
  (37, 47, 1, 0, "xi", None);
  (37, 52, 1, 0, "xi", None);
  (37, 53, 1, 0, "xi", None);
  (37, 58, 1, 0, "xi", None);
  (37, 59, 1, 0, "xi", None);
  (38, 4, 1, 0, "xi", None);
  (38, 5, 1, 0, "xi", None);
  (38, 9, 1, 0, "xi", None);
  (38, 10, 1, 0, "xi", None);
  (38, 13, 1, 0, "xi", None);
  (38, 14, 1, 0, "xi", None);
  (38, 47, 1, 0, "xi", None);
  (38, 48, 1, 0, "xi", None);
  (38, 53, 1, 0, "xi", None);
  (38, 54, 1, 0, "xi", None);
  (38, 59, 1, 0, "xi", None);
  (38, 60, 1, 0, "xi", None);
  (39, 5, 1, 0, "xi", None);
  (39, 10, 1, 0, "xi", None);
  (39, 14, 1, 0, "xi", None);
  (39, 46, 1, 0, "xi", None);
  (39, 47, 1, 0, "xi", None);
  (39, 52, 1, 0, "xi", None);
  (39, 53, 1, 0, "xi", None);
  (39, 58, 1, 0, "xi", None);
  (39, 59, 1, 0, "xi", None);
  (40, 5, 1, 0, "xi", None);
  (40, 10, 1, 0, "xi", None);
  (40, 14, 1, 0, "xi", None);
  (40, 47, 1, 0, "xi", None);
  (40, 48, 1, 0, "xi", None);
  (40, 53, 1, 0, "xi", None);
  (40, 54, 1, 0, "xi", None);
  (40, 59, 1, 0, "xi", None);
  (40, 60, 1, 0, "xi", None);
  (41, 6, 1, 0, "xi", None);
  (42, 6, 1, 0, "xi", None);
  (43, 17, 1, 0, "xi", None);
  (43, 19, 1, 0, "xi", None);
  (43, 25, 1, 0, "xi", None);
  (43, 27, 1, 0, "xi", None);
  (43, 29, 1, 0, "xi", None);
  (43, 35, 1, 0, "xi", None);
  (43, 37, 1, 0, "xi", None);
  (43, 39, 1, 0, "xi", None);
  (43, 61, 1, 0, "xi", None);
  (43, 62, 1, 0, "xi", None);
  (44, 17, 1, 0, "xi", None);
  (44, 18, 1, 0, "xi", None);
  (44, 19, 1, 0, "xi", None);
  (44, 20, 1, 0, "xi", None);
  (44, 25, 1, 0, "xi", None);
  (44, 26, 1, 0, "xi", None);
  (44, 27, 1, 0, "xi", None);
  (44, 28, 1, 0, "xi", None);
  (44, 29, 1, 0, "xi", None);
  (44, 30, 1, 0, "xi", None);
  (44, 35, 1, 0, "xi", None);
  (44, 36, 1, 0, "xi", None);
  (44, 37, 1, 0, "xi", None);
  (44, 38, 1, 0, "xi", None);
  (44, 39, 1, 0, "xi", None);
  (44, 40, 1, 0, "xi", None);
  (44, 62, 1, 0, "xi", None);
  (44, 63, 1, 0, "xi", None);
  (45, 18, 1, 0, "xi", None);
  (45, 20, 1, 0, "xi", None);
  (45, 26, 1, 0, "xi", None);
  (45, 28, 1, 0, "xi", None);
  (45, 30, 1, 0, "xi", None);
  (45, 36, 1, 0, "xi", None);
  (45, 38, 1, 0, "xi", None);
  (45, 40, 1, 0, "xi", None);
  (45, 63, 1, 0, "xi", None);
  (45, 64, 1, 0, "xi", None);
  (46, 31, 1, 0, "xi", None);
  (46, 41, 1, 0, "xi", None);
  (47, 31, 1, 0, "xi", None);
  (47, 32, 1, 0, "xi", None);
  (47, 41, 1, 0, "xi", None);
  (47, 42, 1, 0, "xi", None);
  (48, 32, 1, 0, "xi", None);
  (48, 42, 1, 0, "xi", None);
  (49, 17, 1, 0, "xi", None);
  (49, 19, 1, 0, "xi", None);
  (49, 25, 1, 0, "xi", None);
  (49, 27, 1, 0, "xi", None);
  (49, 29, 1, 0, "xi", None);
  (49, 35, 1, 0, "xi", None);
  (49, 37, 1, 0, "xi", None);
  (49, 39, 1, 0, "xi", None);
  (49, 61, 1, 0, "xi", None);
  (49, 62, 1, 0, "xi", None);
  (50, 17, 1, 0, "xi", None);
  (50, 18, 1, 0, "xi", None);
  (50, 19, 1, 0, "xi", None);
  (50, 20, 1, 0, "xi", None);
  (50, 25, 1, 0, "xi", None);
  (50, 26, 1, 0, "xi", None);
  (50, 27, 1, 0, "xi", None);
  (50, 28, 1, 0, "xi", None);
  (50, 29, 1, 0, "xi", None);
  (50, 30, 1, 0, "xi", None);
  (50, 35, 1, 0, "xi", None);
  (50, 36, 1, 0, "xi", None);
  (50, 37, 1, 0, "xi", None);
  (50, 38, 1, 0, "xi", None);
  (50, 39, 1, 0, "xi", None);
  (50, 40, 1, 0, "xi", None);
  (50, 62, 1, 0, "xi", None);
  (50, 63, 1, 0, "xi", None);
  (51, 18, 1, 0, "xi", None);
  (51, 20, 1, 0, "xi", None);
  (51, 26, 1, 0, "xi", None);
  (51, 28, 1, 0, "xi", None);
  (51, 30, 1, 0, "xi", None);
  (51, 36, 1, 0, "xi", None);
  (51, 38, 1, 0, "xi", None);
  (51, 40, 1, 0, "xi", None);
  (51, 63, 1, 0, "xi", None);
  (51, 64, 1, 0, "xi", None);
  (52, 21, 1, 0, "xi", None);
  (52, 31, 1, 0, "xi", None);
  (53, 21, 1, 0, "xi", None);
  (53, 22, 1, 0, "xi", None);
  (53, 31, 1, 0, "xi", None);
  (53, 32, 1, 0, "xi", None);
  (54, 22, 1, 0, "xi", None);
  (54, 32, 1, 0, "xi", None);
  (55, 17, 1, 0, "xi", None);
  (55, 19, 1, 0, "xi", None);
  (55, 25, 1, 0, "xi", None);
  (55, 27, 1, 0, "xi", None);
  (55, 29, 1, 0, "xi", None);
  (55, 35, 1, 0, "xi", None);
  (55, 37, 1, 0, "xi", None);
  (55, 39, 1, 0, "xi", None);
  (55, 61, 1, 0, "xi", None);
  (55, 62, 1, 0, "xi", None);
  (56, 17, 1, 0, "xi", None);
  (56, 18, 1, 0, "xi", None);
  (56, 19, 1, 0, "xi", None);
  (56, 20, 1, 0, "xi", None);
  (56, 25, 1, 0, "xi", None);
  (56, 26, 1, 0, "xi", None);
  (56, 27, 1, 0, "xi", None);
  (56, 28, 1, 0, "xi", None);
  (56, 29, 1, 0, "xi", None);
  (56, 30, 1, 0, "xi", None);
  (56, 35, 1, 0, "xi", None);
  (56, 36, 1, 0, "xi", None);
  (56, 37, 1, 0, "xi", None);
  (56, 38, 1, 0, "xi", None);
  (56, 39, 1, 0, "xi", None);
  (56, 40, 1, 0, "xi", None);
  (56, 62, 1, 0, "xi", None);
  (56, 63, 1, 0, "xi", None);
  (57, 18, 1, 0, "xi", None);
  (57, 20, 1, 0, "xi", None);
  (57, 26, 1, 0, "xi", None);
  (57, 28, 1, 0, "xi", None);
  (57, 30, 1, 0, "xi", None);
  (57, 36, 1, 0, "xi", None);
  (57, 38, 1, 0, "xi", None);
  (57, 40, 1, 0, "xi", None);
  (57, 63, 1, 0, "xi", None);
  (57, 64, 1, 0, "xi", None);
  (58, 21, 1, 0, "xi", None);
  (58, 41, 1, 0, "xi", None);
  (59, 21, 1, 0, "xi", None);
  (59, 22, 1, 0, "xi", None);
  (59, 41, 1, 0, "xi", None);
  (59, 42, 1, 0, "xi", None);
  (60, 22, 1, 0, "xi", None);
  (60, 42, 1, 0, "xi", None);
  (61, 46, 1, 0, "xi", None);
  (61, 52, 1, 0, "xi", None);
  (61, 58, 1, 0, "xi", None);
  (62, 46, 1, 0, "xi", None);
  (62, 47, 1, 0, "xi", None);
  (62, 52, 1, 0, "xi", None);
  (62, 53, 1, 0, "xi", None);
  (62, 58, 1, 0, "xi", None);
  (62, 59, 1, 0, "xi", None);
  (63, 47, 1, 0, "xi", None);
  (63, 48, 1, 0, "xi", None);
  (63, 53, 1, 0, "xi", None);
  (63, 54, 1, 0, "xi", None);
  (63, 59, 1, 0, "xi", None);
  (63, 60, 1, 0, "xi", None);
  (64, 48, 1, 0, "xi", None);
  (64, 54, 1, 0, "xi", None);
  (64, 60, 1, 0, "xi", None);
  (1, 15, 2, 0, "xi", None);
  (1, 16, 2, 0, "xi", None);
  (1, 23, 2, 0, "xi", None);
  (1, 24, 2, 0, "xi", None);
  (1, 33, 2, 0, "xi", None);
  (1, 34, 2, 0, "xi", None);
  (2, 17, 2, 0, "xi", None);
  (2, 18, 2, 0, "xi", None);
  (2, 19, 2, 0, "xi", None);
  (2, 20, 2, 0, "xi", None);
  (2, 25, 2, 0, "xi", None);
  (2, 26, 2, 0, "xi", None);
  (2, 27, 2, 0, "xi", None);
  (2, 28, 2, 0, "xi", None);
  (2, 35, 2, 0, "xi", None);
  (2, 36, 2, 0, "xi", None);
  (2, 37, 2, 0, "xi", None);
  (2, 38, 2, 0, "xi", None);
  (3, 17, 2, 0, "xi", None);
  (3, 18, 2, 0, "xi", None);
  (3, 19, 2, 0, "xi", None);
  (3, 20, 2, 0, "xi", None);
  (3, 25, 2, 0, "xi", None);
  (3, 26, 2, 0, "xi", None);
  (3, 27, 2, 0, "xi", None);
  (3, 28, 2, 0, "xi", None);
  (3, 29, 2, 0, "xi", None);
  (3, 30, 2, 0, "xi", None);
  (3, 35, 2, 0, "xi", None);
  (3, 36, 2, 0, "xi", None);
  (3, 37, 2, 0, "xi", None);
  (3, 38, 2, 0, "xi", None);
  (3, 39, 2, 0, "xi", None);
  (3, 40, 2, 0, "xi", None);
  (4, 21, 2, 0, "xi", None);
  (4, 22, 2, 0, "xi", None);
  (4, 31, 2, 0, "xi", None);
  (4, 32, 2, 0, "xi", None);
  (4, 41, 2, 0, "xi", None);
  (4, 42, 2, 0, "xi", None);
  (5, 21, 2, 0, "xi", None);
  (5, 22, 2, 0, "xi", None);
  (5, 31, 2, 0, "xi", None);
  (5, 32, 2, 0, "xi", None);
  (5, 41, 2, 0, "xi", None);
  (5, 42, 2, 0, "xi", None);
  (7, 17, 2, 0, "xi", None);
  (7, 18, 2, 0, "xi", None);
  (7, 19, 2, 0, "xi", None);
  (7, 20, 2, 0, "xi", None);
  (7, 25, 2, 0, "xi", None);
  (7, 26, 2, 0, "xi", None);
  (7, 27, 2, 0, "xi", None);
  (7, 28, 2, 0, "xi", None);
  (7, 35, 2, 0, "xi", None);
  (7, 36, 2, 0, "xi", None);
  (7, 37, 2, 0, "xi", None);
  (7, 38, 2, 0, "xi", None);
  (8, 17, 2, 0, "xi", None);
  (8, 18, 2, 0, "xi", None);
  (8, 19, 2, 0, "xi", None);
  (8, 20, 2, 0, "xi", None);
  (8, 25, 2, 0, "xi", None);
  (8, 26, 2, 0, "xi", None);
  (8, 27, 2, 0, "xi", None);
  (8, 28, 2, 0, "xi", None);
  (8, 29, 2, 0, "xi", None);
  (8, 30, 2, 0, "xi", None);
  (8, 35, 2, 0, "xi", None);
  (8, 36, 2, 0, "xi", None);
  (8, 37, 2, 0, "xi", None);
  (8, 38, 2, 0, "xi", None);
  (8, 39, 2, 0, "xi", None);
  (8, 40, 2, 0, "xi", None);
  (9, 21, 2, 0, "xi", None);
  (9, 22, 2, 0, "xi", None);
  (9, 31, 2, 0, "xi", None);
  (9, 32, 2, 0, "xi", None);
  (9, 41, 2, 0, "xi", None);
  (9, 42, 2, 0, "xi", None);
  (10, 21, 2, 0, "xi", None);
  (10, 22, 2, 0, "xi", None);
  (10, 31, 2, 0, "xi", None);
  (10, 32, 2, 0, "xi", None);
  (10, 41, 2, 0, "xi", None);
  (10, 42, 2, 0, "xi", None);
  (11, 17, 2, 0, "xi", None);
  (11, 18, 2, 0, "xi", None);
  (11, 19, 2, 0, "xi", None);
  (11, 20, 2, 0, "xi", None);
  (11, 25, 2, 0, "xi", None);
  (11, 26, 2, 0, "xi", None);
  (11, 27, 2, 0, "xi", None);
  (11, 28, 2, 0, "xi", None);
  (11, 35, 2, 0, "xi", None);
  (11, 36, 2, 0, "xi", None);
  (11, 37, 2, 0, "xi", None);
  (11, 38, 2, 0, "xi", None);
  (12, 17, 2, 0, "xi", None);
  (12, 18, 2, 0, "xi", None);
  (12, 19, 2, 0, "xi", None);
  (12, 20, 2, 0, "xi", None);
  (12, 25, 2, 0, "xi", None);
  (12, 26, 2, 0, "xi", None);
  (12, 27, 2, 0, "xi", None);
  (12, 28, 2, 0, "xi", None);
  (12, 29, 2, 0, "xi", None);
  (12, 30, 2, 0, "xi", None);
  (12, 35, 2, 0, "xi", None);
  (12, 36, 2, 0, "xi", None);
  (12, 37, 2, 0, "xi", None);
  (12, 38, 2, 0, "xi", None);
  (12, 39, 2, 0, "xi", None);
  (12, 40, 2, 0, "xi", None);
  (13, 21, 2, 0, "xi", None);
  (13, 22, 2, 0, "xi", None);
  (13, 31, 2, 0, "xi", None);
  (13, 32, 2, 0, "xi", None);
  (13, 41, 2, 0, "xi", None);
  (13, 42, 2, 0, "xi", None);
  (14, 21, 2, 0, "xi", None);
  (14, 22, 2, 0, "xi", None);
  (14, 31, 2, 0, "xi", None);
  (14, 32, 2, 0, "xi", None);
  (14, 41, 2, 0, "xi", None);
  (14, 42, 2, 0, "xi", None);
  (15, 2, 2, 0, "xi", None);
  (15, 3, 2, 0, "xi", None);
  (15, 7, 2, 0, "xi", None);
  (15, 8, 2, 0, "xi", None);
  (15, 11, 2, 0, "xi", None);
  (15, 12, 2, 0, "xi", None);
  (15, 49, 2, 0, "xi", None);
  (15, 50, 2, 0, "xi", None);
  (15, 55, 2, 0, "xi", None);
  (15, 56, 2, 0, "xi", None);
  (16, 2, 2, 0, "xi", None);
  (16, 3, 2, 0, "xi", None);
  (16, 7, 2, 0, "xi", None);
  (16, 8, 2, 0, "xi", None);
  (16, 11, 2, 0, "xi", None);
  (16, 12, 2, 0, "xi", None);
  (16, 50, 2, 0, "xi", None);
  (16, 51, 2, 0, "xi", None);
  (16, 56, 2, 0, "xi", None);
  (16, 57, 2, 0, "xi", None);
  (17, 4, 2, 0, "xi", None);
  (17, 5, 2, 0, "xi", None);
  (17, 9, 2, 0, "xi", None);
  (17, 10, 2, 0, "xi", None);
  (17, 13, 2, 0, "xi", None);
  (17, 14, 2, 0, "xi", None);
  (17, 46, 2, 0, "xi", None);
  (17, 47, 2, 0, "xi", None);
  (17, 52, 2, 0, "xi", None);
  (17, 53, 2, 0, "xi", None);
  (17, 58, 2, 0, "xi", None);
  (17, 59, 2, 0, "xi", None);
  (18, 4, 2, 0, "xi", None);
  (18, 5, 2, 0, "xi", None);
  (18, 9, 2, 0, "xi", None);
  (18, 10, 2, 0, "xi", None);
  (18, 13, 2, 0, "xi", None);
  (18, 14, 2, 0, "xi", None);
  (18, 47, 2, 0, "xi", None);
  (18, 48, 2, 0, "xi", None);
  (18, 53, 2, 0, "xi", None);
  (18, 54, 2, 0, "xi", None);
  (18, 59, 2, 0, "xi", None);
  (18, 60, 2, 0, "xi", None);
  (19, 4, 2, 0, "xi", None);
  (19, 5, 2, 0, "xi", None);
  (19, 9, 2, 0, "xi", None);
  (19, 10, 2, 0, "xi", None);
  (19, 13, 2, 0, "xi", None);
  (19, 14, 2, 0, "xi", None);
  (19, 46, 2, 0, "xi", None);
  (19, 47, 2, 0, "xi", None);
  (19, 52, 2, 0, "xi", None);
  (19, 53, 2, 0, "xi", None);
  (19, 58, 2, 0, "xi", None);
  (19, 59, 2, 0, "xi", None);
  (20, 4, 2, 0, "xi", None);
  (20, 5, 2, 0, "xi", None);
  (20, 9, 2, 0, "xi", None);
  (20, 10, 2, 0, "xi", None);
  (20, 13, 2, 0, "xi", None);
  (20, 14, 2, 0, "xi", None);
  (20, 47, 2, 0, "xi", None);
  (20, 48, 2, 0, "xi", None);
  (20, 53, 2, 0, "xi", None);
  (20, 54, 2, 0, "xi", None);
  (20, 59, 2, 0, "xi", None);
  (20, 60, 2, 0, "xi", None);
  (21, 6, 2, 0, "xi", None);
  (22, 6, 2, 0, "xi", None);
  (23, 2, 2, 0, "xi", None);
  (23, 3, 2, 0, "xi", None);
  (23, 7, 2, 0, "xi", None);
  (23, 8, 2, 0, "xi", None);
  (23, 11, 2, 0, "xi", None);
  (23, 12, 2, 0, "xi", None);
  (23, 43, 2, 0, "xi", None);
  (23, 44, 2, 0, "xi", None);
  (23, 49, 2, 0, "xi", None);
  (23, 50, 2, 0, "xi", None);
  (24, 2, 2, 0, "xi", None);
  (24, 3, 2, 0, "xi", None);
  (24, 7, 2, 0, "xi", None);
  (24, 8, 2, 0, "xi", None);
  (24, 11, 2, 0, "xi", None);
  (24, 12, 2, 0, "xi", None);
  (24, 44, 2, 0, "xi", None);
  (24, 45, 2, 0, "xi", None);
  (24, 50, 2, 0, "xi", None);
  (24, 51, 2, 0, "xi", None);
  (25, 4, 2, 0, "xi", None);
  (25, 5, 2, 0, "xi", None);
  (25, 9, 2, 0, "xi", None);
  (25, 10, 2, 0, "xi", None);
  (25, 13, 2, 0, "xi", None);
  (25, 14, 2, 0, "xi", None);
  (25, 46, 2, 0, "xi", None);
  (25, 47, 2, 0, "xi", None);
  (25, 52, 2, 0, "xi", None);
  (25, 53, 2, 0, "xi", None);
  (25, 58, 2, 0, "xi", None);
  (25, 59, 2, 0, "xi", None);
  (26, 4, 2, 0, "xi", None);
  (26, 5, 2, 0, "xi", None);
  (26, 9, 2, 0, "xi", None);
  (26, 10, 2, 0, "xi", None);
  (26, 13, 2, 0, "xi", None);
  (26, 14, 2, 0, "xi", None);
  (26, 47, 2, 0, "xi", None);
  (26, 48, 2, 0, "xi", None);
  (26, 53, 2, 0, "xi", None);
  (26, 54, 2, 0, "xi", None);
  (26, 59, 2, 0, "xi", None);
  (26, 60, 2, 0, "xi", None);
  (27, 4, 2, 0, "xi", None);
  (27, 5, 2, 0, "xi", None);
  (27, 9, 2, 0, "xi", None);
  (27, 10, 2, 0, "xi", None);
  (27, 13, 2, 0, "xi", None);
  (27, 14, 2, 0, "xi", None);
  (27, 46, 2, 0, "xi", None);
  (27, 47, 2, 0, "xi", None);
  (27, 52, 2, 0, "xi", None);
  (27, 53, 2, 0, "xi", None);
  (27, 58, 2, 0, "xi", None);
  (27, 59, 2, 0, "xi", None);
  (28, 4, 2, 0, "xi", None);
  (28, 5, 2, 0, "xi", None);
  (28, 9, 2, 0, "xi", None);
  (28, 10, 2, 0, "xi", None);
  (28, 13, 2, 0, "xi", None);
  (28, 14, 2, 0, "xi", None);
  (28, 47, 2, 0, "xi", None);
  (28, 48, 2, 0, "xi", None);
  (28, 53, 2, 0, "xi", None);
  (28, 54, 2, 0, "xi", None);
  (28, 59, 2, 0, "xi", None);
  (28, 60, 2, 0, "xi", None);
  (29, 5, 2, 0, "xi", None);
  (29, 10, 2, 0, "xi", None);
  (29, 14, 2, 0, "xi", None);
  (29, 46, 2, 0, "xi", None);
  (29, 47, 2, 0, "xi", None);
  (29, 52, 2, 0, "xi", None);
  (29, 53, 2, 0, "xi", None);
  (29, 58, 2, 0, "xi", None);
  (29, 59, 2, 0, "xi", None);
  (30, 5, 2, 0, "xi", None);
  (30, 10, 2, 0, "xi", None);
  (30, 14, 2, 0, "xi", None);
  (30, 47, 2, 0, "xi", None);
  (30, 48, 2, 0, "xi", None);
  (30, 53, 2, 0, "xi", None);
  (30, 54, 2, 0, "xi", None);
  (30, 59, 2, 0, "xi", None);
  (30, 60, 2, 0, "xi", None);
  (31, 6, 2, 0, "xi", None);
  (32, 6, 2, 0, "xi", None);
  (33, 2, 2, 0, "xi", None);
  (33, 3, 2, 0, "xi", None);
  (33, 7, 2, 0, "xi", None);
  (33, 8, 2, 0, "xi", None);
  (33, 11, 2, 0, "xi", None);
  (33, 12, 2, 0, "xi", None);
  (33, 43, 2, 0, "xi", None);
  (33, 44, 2, 0, "xi", None);
  (33, 55, 2, 0, "xi", None);
  (33, 56, 2, 0, "xi", None);
  (34, 2, 2, 0, "xi", None);
  (34, 3, 2, 0, "xi", None);
  (34, 7, 2, 0, "xi", None);
  (34, 8, 2, 0, "xi", None);
  (34, 11, 2, 0, "xi", None);
  (34, 12, 2, 0, "xi", None);
  (34, 44, 2, 0, "xi", None);
  (34, 45, 2, 0, "xi", None);
  (34, 56, 2, 0, "xi", None);
  (34, 57, 2, 0, "xi", None);
  (35, 4, 2, 0, "xi", None);
  (35, 5, 2, 0, "xi", None);
  (35, 9, 2, 0, "xi", None);
  (35, 10, 2, 0, "xi", None);
  (35, 13, 2, 0, "xi", None);
  (35, 14, 2, 0, "xi", None);
  (35, 46, 2, 0, "xi", None);
  (35, 47, 2, 0, "xi", None);
  (35, 52, 2, 0, "xi", None);
  (35, 53, 2, 0, "xi", None);
  (35, 58, 2, 0, "xi", None);
  (35, 59, 2, 0, "xi", None);
  (36, 4, 2, 0, "xi", None);
  (36, 5, 2, 0, "xi", None);
  (36, 9, 2, 0, "xi", None);
  (36, 10, 2, 0, "xi", None);
  (36, 13, 2, 0, "xi", None);
  (36, 14, 2, 0, "xi", None);
  (36, 47, 2, 0, "xi", None);
  (36, 48, 2, 0, "xi", None);
  (36, 53, 2, 0, "xi", None);
  (36, 54, 2, 0, "xi", None);
  (36, 59, 2, 0, "xi", None);
  (36, 60, 2, 0, "xi", None);
  (37, 4, 2, 0, "xi", None);
  (37, 5, 2, 0, "xi", None);
  (37, 9, 2, 0, "xi", None);
  (37, 10, 2, 0, "xi", None);
  (37, 13, 2, 0, "xi", None);
  (37, 14, 2, 0, "xi", None);
  (37, 46, 2, 0, "xi", None);
  (37, 47, 2, 0, "xi", None);
  (37, 52, 2, 0, "xi", None);
  (37, 53, 2, 0, "xi", None);
  (37, 58, 2, 0, "xi", None);
  (37, 59, 2, 0, "xi", None);
  (38, 4, 2, 0, "xi", None);
  (38, 5, 2, 0, "xi", None);
  (38, 9, 2, 0, "xi", None);
  (38, 10, 2, 0, "xi", None);
  (38, 13, 2, 0, "xi", None);
  (38, 14, 2, 0, "xi", None);
  (38, 47, 2, 0, "xi", None);
  (38, 48, 2, 0, "xi", None);
  (38, 53, 2, 0, "xi", None);
  (38, 54, 2, 0, "xi", None);
  (38, 59, 2, 0, "xi", None);
  (38, 60, 2, 0, "xi", None);
  (39, 5, 2, 0, "xi", None);
  (39, 10, 2, 0, "xi", None);
  (39, 14, 2, 0, "xi", None);
  (39, 46, 2, 0, "xi", None);
  (39, 47, 2, 0, "xi", None);
  (39, 52, 2, 0, "xi", None);
  (39, 53, 2, 0, "xi", None);
  (39, 58, 2, 0, "xi", None);
  (39, 59, 2, 0, "xi", None);
  (40, 5, 2, 0, "xi", None);
  (40, 10, 2, 0, "xi", None);
  (40, 14, 2, 0, "xi", None);
  (40, 47, 2, 0, "xi", None);
  (40, 48, 2, 0, "xi", None);
  (40, 53, 2, 0, "xi", None);
  (40, 54, 2, 0, "xi", None);
  (40, 59, 2, 0, "xi", None);
  (40, 60, 2, 0, "xi", None);
  (41, 6, 2, 0, "xi", None);
  (42, 6, 2, 0, "xi", None);
  (43, 17, 2, 0, "xi", None);
  (43, 19, 2, 0, "xi", None);
  (43, 25, 2, 0, "xi", None);
  (43, 27, 2, 0, "xi", None);
  (43, 29, 2, 0, "xi", None);
  (43, 35, 2, 0, "xi", None);
  (43, 37, 2, 0, "xi", None);
  (43, 39, 2, 0, "xi", None);
  (43, 61, 2, 0, "xi", None);
  (43, 62, 2, 0, "xi", None);
  (44, 17, 2, 0, "xi", None);
  (44, 18, 2, 0, "xi", None);
  (44, 19, 2, 0, "xi", None);
  (44, 20, 2, 0, "xi", None);
  (44, 25, 2, 0, "xi", None);
  (44, 26, 2, 0, "xi", None);
  (44, 27, 2, 0, "xi", None);
  (44, 28, 2, 0, "xi", None);
  (44, 29, 2, 0, "xi", None);
  (44, 30, 2, 0, "xi", None);
  (44, 35, 2, 0, "xi", None);
  (44, 36, 2, 0, "xi", None);
  (44, 37, 2, 0, "xi", None);
  (44, 38, 2, 0, "xi", None);
  (44, 39, 2, 0, "xi", None);
  (44, 40, 2, 0, "xi", None);
  (44, 62, 2, 0, "xi", None);
  (44, 63, 2, 0, "xi", None);
  (45, 18, 2, 0, "xi", None);
  (45, 20, 2, 0, "xi", None);
  (45, 26, 2, 0, "xi", None);
  (45, 28, 2, 0, "xi", None);
  (45, 30, 2, 0, "xi", None);
  (45, 36, 2, 0, "xi", None);
  (45, 38, 2, 0, "xi", None);
  (45, 40, 2, 0, "xi", None);
  (45, 63, 2, 0, "xi", None);
  (45, 64, 2, 0, "xi", None);
  (46, 31, 2, 0, "xi", None);
  (46, 41, 2, 0, "xi", None);
  (47, 31, 2, 0, "xi", None);
  (47, 32, 2, 0, "xi", None);
  (47, 41, 2, 0, "xi", None);
  (47, 42, 2, 0, "xi", None);
  (48, 32, 2, 0, "xi", None);
  (48, 42, 2, 0, "xi", None);
  (49, 17, 2, 0, "xi", None);
  (49, 19, 2, 0, "xi", None);
  (49, 25, 2, 0, "xi", None);
  (49, 27, 2, 0, "xi", None);
  (49, 29, 2, 0, "xi", None);
  (49, 35, 2, 0, "xi", None);
  (49, 37, 2, 0, "xi", None);
  (49, 39, 2, 0, "xi", None);
  (49, 61, 2, 0, "xi", None);
  (49, 62, 2, 0, "xi", None);
  (50, 17, 2, 0, "xi", None);
  (50, 18, 2, 0, "xi", None);
  (50, 19, 2, 0, "xi", None);
  (50, 20, 2, 0, "xi", None);
  (50, 25, 2, 0, "xi", None);
  (50, 26, 2, 0, "xi", None);
  (50, 27, 2, 0, "xi", None);
  (50, 28, 2, 0, "xi", None);
  (50, 29, 2, 0, "xi", None);
  (50, 30, 2, 0, "xi", None);
  (50, 35, 2, 0, "xi", None);
  (50, 36, 2, 0, "xi", None);
  (50, 37, 2, 0, "xi", None);
  (50, 38, 2, 0, "xi", None);
  (50, 39, 2, 0, "xi", None);
  (50, 40, 2, 0, "xi", None);
  (50, 62, 2, 0, "xi", None);
  (50, 63, 2, 0, "xi", None);
  (51, 18, 2, 0, "xi", None);
  (51, 20, 2, 0, "xi", None);
  (51, 26, 2, 0, "xi", None);
  (51, 28, 2, 0, "xi", None);
  (51, 30, 2, 0, "xi", None);
  (51, 36, 2, 0, "xi", None);
  (51, 38, 2, 0, "xi", None);
  (51, 40, 2, 0, "xi", None);
  (51, 63, 2, 0, "xi", None);
  (51, 64, 2, 0, "xi", None);
  (52, 21, 2, 0, "xi", None);
  (52, 31, 2, 0, "xi", None);
  (53, 21, 2, 0, "xi", None);
  (53, 22, 2, 0, "xi", None);
  (53, 31, 2, 0, "xi", None);
  (53, 32, 2, 0, "xi", None);
  (54, 22, 2, 0, "xi", None);
  (54, 32, 2, 0, "xi", None);
  (55, 17, 2, 0, "xi", None);
  (55, 19, 2, 0, "xi", None);
  (55, 25, 2, 0, "xi", None);
  (55, 27, 2, 0, "xi", None);
  (55, 29, 2, 0, "xi", None);
  (55, 35, 2, 0, "xi", None);
  (55, 37, 2, 0, "xi", None);
  (55, 39, 2, 0, "xi", None);
  (55, 61, 2, 0, "xi", None);
  (55, 62, 2, 0, "xi", None);
  (56, 17, 2, 0, "xi", None);
  (56, 18, 2, 0, "xi", None);
  (56, 19, 2, 0, "xi", None);
  (56, 20, 2, 0, "xi", None);
  (56, 25, 2, 0, "xi", None);
  (56, 26, 2, 0, "xi", None);
  (56, 27, 2, 0, "xi", None);
  (56, 28, 2, 0, "xi", None);
  (56, 29, 2, 0, "xi", None);
  (56, 30, 2, 0, "xi", None);
  (56, 35, 2, 0, "xi", None);
  (56, 36, 2, 0, "xi", None);
  (56, 37, 2, 0, "xi", None);
  (56, 38, 2, 0, "xi", None);
  (56, 39, 2, 0, "xi", None);
  (56, 40, 2, 0, "xi", None);
  (56, 62, 2, 0, "xi", None);
  (56, 63, 2, 0, "xi", None);
  (57, 18, 2, 0, "xi", None);
  (57, 20, 2, 0, "xi", None);
  (57, 26, 2, 0, "xi", None);
  (57, 28, 2, 0, "xi", None);
  (57, 30, 2, 0, "xi", None);
  (57, 36, 2, 0, "xi", None);
  (57, 38, 2, 0, "xi", None);
  (57, 40, 2, 0, "xi", None);
  (57, 63, 2, 0, "xi", None);
  (57, 64, 2, 0, "xi", None);
  (58, 21, 2, 0, "xi", None);
  (58, 41, 2, 0, "xi", None);
  (59, 21, 2, 0, "xi", None);
  (59, 22, 2, 0, "xi", None);
  (59, 41, 2, 0, "xi", None);
  (59, 42, 2, 0, "xi", None);
  (60, 22, 2, 0, "xi", None);
  (60, 42, 2, 0, "xi", None);
  (61, 46, 2, 0, "xi", None);
  (61, 52, 2, 0, "xi", None);
  (61, 58, 2, 0, "xi", None);
  (62, 46, 2, 0, "xi", None);
  (62, 47, 2, 0, "xi", None);
  (62, 52, 2, 0, "xi", None);
  (62, 53, 2, 0, "xi", None);
  (62, 58, 2, 0, "xi", None);
  (62, 59, 2, 0, "xi", None);
  (63, 47, 2, 0, "xi", None);
  (63, 48, 2, 0, "xi", None);
  (63, 53, 2, 0, "xi", None);
  (63, 54, 2, 0, "xi", None);
  (63, 59, 2, 0, "xi", None);
  (63, 60, 2, 0, "xi", None);
  (64, 48, 2, 0, "xi", None);
  (64, 54, 2, 0, "xi", None);
  (64, 60, 2, 0, "xi", None)].
(** /repo/c++/symmetry/sym-SPSU2C3-impl.hpp, make_matrix  *)
Definition spsu2c3_m0_d : list diag_line := [
  (1, 0, "zeta", None);
  (2, 0, "zeta", None);
  (3, 0, "zeta", None);
  (4, 0, "zeta", None);
  (5, 0, "zeta", None);
  (6, 0, "zeta", None);
  (7, 0, "zeta", None);
  (8, 0, "zeta", None);
  (9, 0, "zeta", None);
  (10, 0, "zeta", None);
  (11, 0, "zeta", None);
  (12, 0, "zeta", None);
  (13, 0, "zeta", None);
  (14, 0, "zeta", None);
  (15, 0, "zeta", None);
  (16, 0, "zeta", None);
  (17, 0, "zeta", None);
  (18, 0, "zeta", None);
  (19, 0, "zeta", None);
  (20, 0, "zeta", None);
  (21, 0, "zeta", None);
  (22, 0, "zeta", None);
  (23, 0, "zeta", None);
  (24, 0, "zeta", None);
  (25, 0, "zeta", None);
  (26, 0, "zeta", None);
  (27, 0, "zeta", None);
  (28, 0, "zeta", None);
  (29, 0, "zeta", None);
  (30, 0, "zeta", None);
  (31, 0, "zeta", None);
  (32, 0, "zeta", None);
  (33, 0, "zeta", None);
  (34, 0, "zeta", None);
  (35, 0, "zeta", None);
  (36, 0, "zeta", None);
  (37, 0, "zeta", None);
  (38, 0, "zeta", None);
  (39, 0, "zeta", None);
  (40, 0, "zeta", None);
  (41, 0, "zeta", None);
  (42, 0, "zeta", None);
  (43, 0, "zeta", None);
  (44, 0, "zeta", None);
  (45, 0, "zeta", None);
  (46, 0, "zeta", None);
  (47, 0, "zeta", None);
  (48, 0, "zeta", None);
  (49, 0, "zeta", None);
  (50, 0, "zeta", None);
  (51, 0, "zeta", None);
  (52, 0, "zeta", None);
  (53, 0, "zeta", None);
  (54, 0, "zeta", None);
  (55, 0, "zeta", None);
  (56, 0, "zeta", None);
  (57, 0, "zeta", None);
  (58, 0, "zeta", None);
  (59, 0, "zeta", None);
  (60, 0, "zeta", None);
  (61, 0, "zeta", None);
  (62, 0, "zeta", None);
  (63, 0, "zeta", None);
  (64, 0, "zeta", None)].
(** /repo/c++/symmetry/sym-SPSU2C3-impl.hpp, make_matrix  *)
Definition spsu2c3_m0_f : list dof_line := [
  (1, 2, 0, "2*delta", None);
  (2, 4, 0, "2*delta", None);
  (3, 5, 0, "2*delta", None);
  (4, 6, 0, "2*delta", None);
  (7, 9, 0, "2*delta", None);
  (8, 10, 0, "2*delta", None);
  (11, 13, 0, "2*delta", None);
  (12, 14, 0, "2*delta", None);
  (15, 17, 0, "2*delta", None);
  (15, 19, 0, "2*delta", None);
  (16, 18, 0, "2*delta", None);
  (16, 20, 0, "2*delta", None);
  (17, 21, 0, "2*delta", None);
  (18, 22, 0, "2*delta", None);
  (19, 21, 0, "2*delta", None);
  (20, 22, 0, "2*delta", None);
  (23, 25, 0, "2*delta", None);
  (23, 27, 0, "2*delta", None);
  (24, 26, 0, "2*delta", None);
  (24, 28, 0, "2*delta", None);
  (25, 31, 0, "2*delta", None);
  (26, 32, 0, "2*delta", None);
  (27, 31, 0, "2*delta", None);
  (28, 32, 0, "2*delta", None);
  (33, 35, 0, "2*delta", None);
  (33, 37, 0, "2*delta", None);
  (34, 36, 0, "2*delta", None);
  (34, 38, 0, "2*delta", None);
  (35, 41, 0, "2*delta", None);
  (36, 42, 0, "2*delta", None);
  (37, 41, 0, "2*delta", None);
  (38, 42, 0, "2*delta", None);
  (43, 46, 0, "2*delta", None);
  (44, 47, 0, "2*delta", None);
  (45, 48, 0, "2*delta", None);
  (49, 52, 0, "2*delta", None);
  (50, 53, 0, "2*delta", None);
  (51, 54, 0, "2*delta", None);
  (55, 58, 0, "2*delta", None);
  (56, 59, 0, "2*delta", None);
  (57, 60, 0, "2*delta", None)].
Definition coef_spsu2c3 : coef_set := mk_coef "SPSU2C3" 3%nat sym_SPSU2C3 {| tb_In := spsu2c3_In; tb_QN := spsu2c3_QN |}
  [spsu2c3_t0; spsu2c3_t1; spsu2c3_t2; spsu2c3_t3; spsu2c3_t4; spsu2c3_t5; spsu2c3_t6; spsu2c3_t7; spsu2c3_t8; spsu2c3_t9; spsu2c3_t10; spsu2c3_t11; spsu2c3_t12; spsu2c3_t13; spsu2c3_t14; spsu2c3_t15; spsu2c3_t16; spsu2c3_t17]
  []
  [mk_mode "default" spsu2c3_m0_o spsu2c3_m0_d spsu2c3_m0_f].
