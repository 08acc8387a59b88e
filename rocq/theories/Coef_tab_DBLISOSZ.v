(** Generated by gen/gen_coef.py from /repo/c++/symmetry/{sym-DBLISOSZ-impl.hpp, nrg-recalc-DBLISOSZ.hpp, coefnew}. Do not edit. *)
From Coq Require Import List ZArith String.
From Verif Require Import Base Invar_model Symmetry_model Symmetry_tables Coef_model.
Import ListNotations.
Local Open Scope string_scope.
Local Open Scope list_scope.
Local Open Scope Z_scope.

Definition DBLISOSZ_e0 := (cD (cN 1) (cB (cN (-1)) (cM (cN 2) (cH 0)))).
Definition DBLISOSZ_e1 := (cD (cM (cN (-2)) (cR (cM (cH 0) (cA (cN 1) (cH 0))))) (cA (cN 1) (cM (cN 2) (cH 0)))).
Definition DBLISOSZ_e2 := (cD (cN 1) (cA (cN 1) (cM (cN 2) (cH 0)))).
Definition DBLISOSZ_e3 := (cD (cM (cN 2) (cR (cM (cH 0) (cA (cN 1) (cH 0))))) (cA (cN 1) (cM (cN 2) (cH 0)))).
Definition DBLISOSZ_e4 := (cD (cN 1) (cB (cN (-1)) (cM (cN 2) (cH 1)))).
Definition DBLISOSZ_e5 := (cD (cM (cN (-2)) (cR (cM (cH 1) (cA (cN 1) (cH 1))))) (cA (cN 1) (cM (cN 2) (cH 1)))).
Definition DBLISOSZ_e6 := (cD (cN 1) (cA (cN 1) (cM (cN 2) (cH 1)))).
Definition DBLISOSZ_e7 := (cD (cM (cN 2) (cR (cM (cH 1) (cA (cN 1) (cH 1))))) (cA (cN 1) (cM (cN 2) (cH 1)))).
Definition DBLISOSZ_e8 := (cO (cD (cG [] 0) (cR (cA (cN 1) (cD (cN 1) (cA (cN 1) (cM (cN 2) (cH 0)))))))).
Definition DBLISOSZ_e9 := (cD (cG [] 0) (cR (cA (cN 1) (cD (cN 1) (cA (cN 1) (cM (cN 2) (cH 1))))))).
Definition DBLISOSZ_e10 := (cO (cD (cG [] 0) (cR (cA (cN 1) (cD (cN 1) (cA (cN 1) (cM (cN 2) (cH 1)))))))).
Definition DBLISOSZ_e11 := (cM (cG [] 0) (cR (cA (cN 1) (cD (cN 1) (cM (cN 2) (cH 0)))))).
Definition DBLISOSZ_e12 := (cO (cM (cG [] 0) (cR (cA (cN 1) (cD (cN 1) (cM (cN 2) (cH 1))))))).
Definition DBLISOSZ_e13 := (cM (cG [] 0) (cR (cA (cN 1) (cD (cN 1) (cM (cN 2) (cH 1)))))).

(** /repo/c++/symmetry/nrg-recalc-DBLISOSZ.hpp recalc_doublet, dblisosz/dblisosz-2ch-doubletm0m.dat *)
Definition dblisosz_2ch_t0 : ten_table := mk_ten "doublet" [ShLin 0%nat 1 (-1); ShLin 1%nat 1 0; ShLin 2%nat 1 (-1)] [2; 1; 1] [
  (1, 1, [ShLin 0%nat 1 0; ShLin 1%nat 1 0; ShLin 2%nat 1 2], [ShLin 0%nat 1 (-1); ShLin 1%nat 1 0; ShLin 2%nat 1 1], Some (cN 1));
  (2, 2, [ShLin 0%nat 1 0; ShLin 1%nat 1 0; ShLin 2%nat 1 0], [ShLin 0%nat 1 (-1); ShLin 1%nat 1 0; ShLin 2%nat 1 (-1)], Some (cN 1));
  (3, 3, [ShLin 0%nat 1 0; ShLin 1%nat 1 0; ShLin 2%nat 1 0], [ShLin 0%nat 1 (-1); ShLin 1%nat 1 0; ShLin 2%nat 1 (-1)], Some (cN 1));
  (4, 4, [ShLin 0%nat 1 0; ShLin 1%nat 1 0; ShLin 2%nat 1 (-2)], [ShLin 0%nat 1 (-1); ShLin 1%nat 1 0; ShLin 2%nat 1 (-3)], Some (cN 1));
  (5, 5, [ShLin 0%nat 1 0; ShLin 1%nat 1 (-1); ShLin 2%nat 1 1], [ShLin 0%nat 1 (-1); ShLin 1%nat 1 (-1); ShLin 2%nat 1 0], Some (cN (-1)));
  (6, 6, [ShLin 0%nat 1 0; ShLin 1%nat 1 1; ShLin 2%nat 1 1], [ShLin 0%nat 1 (-1); ShLin 1%nat 1 1; ShLin 2%nat 1 0], Some (cN (-1)));
  (7, 7, [ShLin 0%nat 1 0; ShLin 1%nat 1 (-1); ShLin 2%nat 1 (-1)], [ShLin 0%nat 1 (-1); ShLin 1%nat 1 (-1); ShLin 2%nat 1 (-2)], Some (cN (-1)));
  (8, 8, [ShLin 0%nat 1 0; ShLin 1%nat 1 1; ShLin 2%nat 1 (-1)], [ShLin 0%nat 1 (-1); ShLin 1%nat 1 1; ShLin 2%nat 1 (-2)], Some (cN (-1)));
  (9, 9, [ShLin 0%nat 1 (-1); ShLin 1%nat 1 0; ShLin 2%nat 1 1], [ShLin 0%nat 1 (-2); ShLin 1%nat 1 0; ShLin 2%nat 1 0], Some (cN (-1)));
  (9, 10, [ShLin 0%nat 1 (-1); ShLin 1%nat 1 0; ShLin 2%nat 1 1], [ShLin 0%nat 1 0; ShLin 1%nat 1 0; ShLin 2%nat 1 0], Some DBLISOSZ_e0);
  (10, 10, [ShLin 0%nat 1 1; ShLin 1%nat 1 0; ShLin 2%nat 1 1], [ShLin 0%nat 1 0; ShLin 1%nat 1 0; ShLin 2%nat 1 0], Some DBLISOSZ_e1);
  (11, 11, [ShLin 0%nat 1 (-1); ShLin 1%nat 1 0; ShLin 2%nat 1 (-1)], [ShLin 0%nat 1 (-2); ShLin 1%nat 1 0; ShLin 2%nat 1 (-2)], Some (cN (-1)));
  (11, 12, [ShLin 0%nat 1 (-1); ShLin 1%nat 1 0; ShLin 2%nat 1 (-1)], [ShLin 0%nat 1 0; ShLin 1%nat 1 0; ShLin 2%nat 1 (-2)], Some DBLISOSZ_e0);
  (12, 12, [ShLin 0%nat 1 1; ShLin 1%nat 1 0; ShLin 2%nat 1 (-1)], [ShLin 0%nat 1 0; ShLin 1%nat 1 0; ShLin 2%nat 1 (-2)], Some DBLISOSZ_e1);
  (13, 13, [ShLin 0%nat 1 (-1); ShLin 1%nat 1 (-1); ShLin 2%nat 1 0], [ShLin 0%nat 1 (-2); ShLin 1%nat 1 (-1); ShLin 2%nat 1 (-1)], Some (cN 1));
  (13, 15, [ShLin 0%nat 1 (-1); ShLin 1%nat 1 (-1); ShLin 2%nat 1 0], [ShLin 0%nat 1 0; ShLin 1%nat 1 (-1); ShLin 2%nat 1 (-1)], Some DBLISOSZ_e2);
  (14, 14, [ShLin 0%nat 1 (-1); ShLin 1%nat 1 1; ShLin 2%nat 1 0], [ShLin 0%nat 1 (-2); ShLin 1%nat 1 1; ShLin 2%nat 1 (-1)], Some (cN 1));
  (14, 16, [ShLin 0%nat 1 (-1); ShLin 1%nat 1 1; ShLin 2%nat 1 0], [ShLin 0%nat 1 0; ShLin 1%nat 1 1; ShLin 2%nat 1 (-1)], Some DBLISOSZ_e2);
  (15, 15, [ShLin 0%nat 1 1; ShLin 1%nat 1 (-1); ShLin 2%nat 1 0], [ShLin 0%nat 1 0; ShLin 1%nat 1 (-1); ShLin 2%nat 1 (-1)], Some DBLISOSZ_e3);
  (16, 16, [ShLin 0%nat 1 1; ShLin 1%nat 1 1; ShLin 2%nat 1 0], [ShLin 0%nat 1 0; ShLin 1%nat 1 1; ShLin 2%nat 1 (-1)], Some DBLISOSZ_e3)].
(** /repo/c++/symmetry/nrg-recalc-DBLISOSZ.hpp recalc_doublet, dblisosz/dblisosz-2ch-doubletm0p.dat *)
Definition dblisosz_2ch_t1 : ten_table := mk_ten "doublet" [ShLin 0%nat 1 (-1); ShLin 1%nat 1 0; ShLin 2%nat 1 1] [2; 1; (-1)] [
  (1, 1, [ShLin 0%nat 1 0; ShLin 1%nat 1 0; ShLin 2%nat 1 2], [ShLin 0%nat 1 (-1); ShLin 1%nat 1 0; ShLin 2%nat 1 3], Some (cN 1));
  (2, 2, [ShLin 0%nat 1 0; ShLin 1%nat 1 0; ShLin 2%nat 1 0], [ShLin 0%nat 1 (-1); ShLin 1%nat 1 0; ShLin 2%nat 1 1], Some (cN 1));
  (3, 3, [ShLin 0%nat 1 0; ShLin 1%nat 1 0; ShLin 2%nat 1 0], [ShLin 0%nat 1 (-1); ShLin 1%nat 1 0; ShLin 2%nat 1 1], Some (cN 1));
  (4, 4, [ShLin 0%nat 1 0; ShLin 1%nat 1 0; ShLin 2%nat 1 (-2)], [ShLin 0%nat 1 (-1); ShLin 1%nat 1 0; ShLin 2%nat 1 (-1)], Some (cN 1));
  (5, 5, [ShLin 0%nat 1 0; ShLin 1%nat 1 (-1); ShLin 2%nat 1 1], [ShLin 0%nat 1 (-1); ShLin 1%nat 1 (-1); ShLin 2%nat 1 2], Some (cN (-1)));
  (6, 6, [ShLin 0%nat 1 0; ShLin 1%nat 1 1; ShLin 2%nat 1 1], [ShLin 0%nat 1 (-1); ShLin 1%nat 1 1; ShLin 2%nat 1 2], Some (cN (-1)));
  (7, 7, [ShLin 0%nat 1 0; ShLin 1%nat 1 (-1); ShLin 2%nat 1 (-1)], [ShLin 0%nat 1 (-1); ShLin 1%nat 1 (-1); ShLin 2%nat 1 0], Some (cN (-1)));
  (8, 8, [ShLin 0%nat 1 0; ShLin 1%nat 1 1; ShLin 2%nat 1 (-1)], [ShLin 0%nat 1 (-1); ShLin 1%nat 1 1; ShLin 2%nat 1 0], Some (cN (-1)));
  (9, 9, [ShLin 0%nat 1 (-1); ShLin 1%nat 1 0; ShLin 2%nat 1 1], [ShLin 0%nat 1 (-2); ShLin 1%nat 1 0; ShLin 2%nat 1 2], Some (cN (-1)));
  (9, 10, [ShLin 0%nat 1 (-1); ShLin 1%nat 1 0; ShLin 2%nat 1 1], [ShLin 0%nat 1 0; ShLin 1%nat 1 0; ShLin 2%nat 1 2], Some DBLISOSZ_e0);
  (10, 10, [ShLin 0%nat 1 1; ShLin 1%nat 1 0; ShLin 2%nat 1 1], [ShLin 0%nat 1 0; ShLin 1%nat 1 0; ShLin 2%nat 1 2], Some DBLISOSZ_e1);
  (11, 11, [ShLin 0%nat 1 (-1); ShLin 1%nat 1 0; ShLin 2%nat 1 (-1)], [ShLin 0%nat 1 (-2); ShLin 1%nat 1 0; ShLin 2%nat 1 0], Some (cN (-1)));
  (11, 12, [ShLin 0%nat 1 (-1); ShLin 1%nat 1 0; ShLin 2%nat 1 (-1)], [ShLin 0%nat 1 0; ShLin 1%nat 1 0; ShLin 2%nat 1 0], Some DBLISOSZ_e0);
  (12, 12, [ShLin 0%nat 1 1; ShLin 1%nat 1 0; ShLin 2%nat 1 (-1)], [ShLin 0%nat 1 0; ShLin 1%nat 1 0; ShLin 2%nat 1 0], Some DBLISOSZ_e1);
  (13, 13, [ShLin 0%nat 1 (-1); ShLin 1%nat 1 (-1); ShLin 2%nat 1 0], [ShLin 0%nat 1 (-2); ShLin 1%nat 1 (-1); ShLin 2%nat 1 1], Some (cN 1));
  (13, 15, [ShLin 0%nat 1 (-1); ShLin 1%nat 1 (-1); ShLin 2%nat 1 0], [ShLin 0%nat 1 0; ShLin 1%nat 1 (-1); ShLin 2%nat 1 1], Some DBLISOSZ_e2);
  (14, 14, [ShLin 0%nat 1 (-1); ShLin 1%nat 1 1; ShLin 2%nat 1 0], [ShLin 0%nat 1 (-2); ShLin 1%nat 1 1; ShLin 2%nat 1 1], Some (cN 1));
  (14, 16, [ShLin 0%nat 1 (-1); ShLin 1%nat 1 1; ShLin 2%nat 1 0], [ShLin 0%nat 1 0; ShLin 1%nat 1 1; ShLin 2%nat 1 1], Some DBLISOSZ_e2);
  (15, 15, [ShLin 0%nat 1 1; ShLin 1%nat 1 (-1); ShLin 2%nat 1 0], [ShLin 0%nat 1 0; ShLin 1%nat 1 (-1); ShLin 2%nat 1 1], Some DBLISOSZ_e3);
  (16, 16, [ShLin 0%nat 1 1; ShLin 1%nat 1 1; ShLin 2%nat 1 0], [ShLin 0%nat 1 0; ShLin 1%nat 1 1; ShLin 2%nat 1 1], Some DBLISOSZ_e3)].
(** /repo/c++/symmetry/nrg-recalc-DBLISOSZ.hpp recalc_doublet, dblisosz/dblisosz-2ch-doubletp0m.dat *)
Definition dblisosz_2ch_t2 : ten_table := mk_ten "doublet" [ShLin 0%nat 1 1; ShLin 1%nat 1 0; ShLin 2%nat 1 (-1)] [2; 1; 1] [
  (1, 1, [ShLin 0%nat 1 0; ShLin 1%nat 1 0; ShLin 2%nat 1 2], [ShLin 0%nat 1 1; ShLin 1%nat 1 0; ShLin 2%nat 1 1], Some (cN 1));
  (2, 2, [ShLin 0%nat 1 0; ShLin 1%nat 1 0; ShLin 2%nat 1 0], [ShLin 0%nat 1 1; ShLin 1%nat 1 0; ShLin 2%nat 1 (-1)], Some (cN 1));
  (3, 3, [ShLin 0%nat 1 0; ShLin 1%nat 1 0; ShLin 2%nat 1 0], [ShLin 0%nat 1 1; ShLin 1%nat 1 0; ShLin 2%nat 1 (-1)], Some (cN 1));
  (4, 4, [ShLin 0%nat 1 0; ShLin 1%nat 1 0; ShLin 2%nat 1 (-2)], [ShLin 0%nat 1 1; ShLin 1%nat 1 0; ShLin 2%nat 1 (-3)], Some (cN 1));
  (5, 5, [ShLin 0%nat 1 0; ShLin 1%nat 1 (-1); ShLin 2%nat 1 1], [ShLin 0%nat 1 1; ShLin 1%nat 1 (-1); ShLin 2%nat 1 0], Some (cN (-1)));
  (6, 6, [ShLin 0%nat 1 0; ShLin 1%nat 1 1; ShLin 2%nat 1 1], [ShLin 0%nat 1 1; ShLin 1%nat 1 1; ShLin 2%nat 1 0], Some (cN (-1)));
  (7, 7, [ShLin 0%nat 1 0; ShLin 1%nat 1 (-1); ShLin 2%nat 1 (-1)], [ShLin 0%nat 1 1; ShLin 1%nat 1 (-1); ShLin 2%nat 1 (-2)], Some (cN (-1)));
  (8, 8, [ShLin 0%nat 1 0; ShLin 1%nat 1 1; ShLin 2%nat 1 (-1)], [ShLin 0%nat 1 1; ShLin 1%nat 1 1; ShLin 2%nat 1 (-2)], Some (cN (-1)));
  (9, 9, [ShLin 0%nat 1 (-1); ShLin 1%nat 1 0; ShLin 2%nat 1 1], [ShLin 0%nat 1 0; ShLin 1%nat 1 0; ShLin 2%nat 1 0], Some DBLISOSZ_e1);
  (10, 9, [ShLin 0%nat 1 1; ShLin 1%nat 1 0; ShLin 2%nat 1 1], [ShLin 0%nat 1 0; ShLin 1%nat 1 0; ShLin 2%nat 1 0], Some DBLISOSZ_e2);
  (10, 10, [ShLin 0%nat 1 1; ShLin 1%nat 1 0; ShLin 2%nat 1 1], [ShLin 0%nat 1 2; ShLin 1%nat 1 0; ShLin 2%nat 1 0], Some (cN (-1)));
  (11, 11, [ShLin 0%nat 1 (-1); ShLin 1%nat 1 0; ShLin 2%nat 1 (-1)], [ShLin 0%nat 1 0; ShLin 1%nat 1 0; ShLin 2%nat 1 (-2)], Some DBLISOSZ_e1);
  (12, 11, [ShLin 0%nat 1 1; ShLin 1%nat 1 0; ShLin 2%nat 1 (-1)], [ShLin 0%nat 1 0; ShLin 1%nat 1 0; ShLin 2%nat 1 (-2)], Some DBLISOSZ_e2);
  (12, 12, [ShLin 0%nat 1 1; ShLin 1%nat 1 0; ShLin 2%nat 1 (-1)], [ShLin 0%nat 1 2; ShLin 1%nat 1 0; ShLin 2%nat 1 (-2)], Some (cN (-1)));
  (13, 13, [ShLin 0%nat 1 (-1); ShLin 1%nat 1 (-1); ShLin 2%nat 1 0], [ShLin 0%nat 1 0; ShLin 1%nat 1 (-1); ShLin 2%nat 1 (-1)], Some DBLISOSZ_e3);
  (14, 14, [ShLin 0%nat 1 (-1); ShLin 1%nat 1 1; ShLin 2%nat 1 0], [ShLin 0%nat 1 0; ShLin 1%nat 1 1; ShLin 2%nat 1 (-1)], Some DBLISOSZ_e3);
  (15, 13, [ShLin 0%nat 1 1; ShLin 1%nat 1 (-1); ShLin 2%nat 1 0], [ShLin 0%nat 1 0; ShLin 1%nat 1 (-1); ShLin 2%nat 1 (-1)], Some DBLISOSZ_e0);
  (15, 15, [ShLin 0%nat 1 1; ShLin 1%nat 1 (-1); ShLin 2%nat 1 0], [ShLin 0%nat 1 2; ShLin 1%nat 1 (-1); ShLin 2%nat 1 (-1)], Some (cN 1));
  (16, 14, [ShLin 0%nat 1 1; ShLin 1%nat 1 1; ShLin 2%nat 1 0], [ShLin 0%nat 1 0; ShLin 1%nat 1 1; ShLin 2%nat 1 (-1)], Some DBLISOSZ_e0);
  (16, 16, [ShLin 0%nat 1 1; ShLin 1%nat 1 1; ShLin 2%nat 1 0], [ShLin 0%nat 1 2; ShLin 1%nat 1 1; ShLin 2%nat 1 (-1)], Some (cN 1))].
(** /repo/c++/symmetry/nrg-recalc-DBLISOSZ.hpp recalc_doublet, dblisosz/dblisosz-2ch-doubletp0p.dat *)
Definition dblisosz_2ch_t3 : ten_table := mk_ten "doublet" [ShLin 0%nat 1 1; ShLin 1%nat 1 0; ShLin 2%nat 1 1] [2; 1; (-1)] [
  (1, 1, [ShLin 0%nat 1 0; ShLin 1%nat 1 0; ShLin 2%nat 1 2], [ShLin 0%nat 1 1; ShLin 1%nat 1 0; ShLin 2%nat 1 3], Some (cN 1));
  (2, 2, [ShLin 0%nat 1 0; ShLin 1%nat 1 0; ShLin 2%nat 1 0], [ShLin 0%nat 1 1; ShLin 1%nat 1 0; ShLin 2%nat 1 1], Some (cN 1));
  (3, 3, [ShLin 0%nat 1 0; ShLin 1%nat 1 0; ShLin 2%nat 1 0], [ShLin 0%nat 1 1; ShLin 1%nat 1 0; ShLin 2%nat 1 1], Some (cN 1));
  (4, 4, [ShLin 0%nat 1 0; ShLin 1%nat 1 0; ShLin 2%nat 1 (-2)], [ShLin 0%nat 1 1; ShLin 1%nat 1 0; ShLin 2%nat 1 (-1)], Some (cN 1));
  (5, 5, [ShLin 0%nat 1 0; ShLin 1%nat 1 (-1); ShLin 2%nat 1 1], [ShLin 0%nat 1 1; ShLin 1%nat 1 (-1); ShLin 2%nat 1 2], Some (cN (-1)));
  (6, 6, [ShLin 0%nat 1 0; ShLin 1%nat 1 1; ShLin 2%nat 1 1], [ShLin 0%nat 1 1; ShLin 1%nat 1 1; ShLin 2%nat 1 2], Some (cN (-1)));
  (7, 7, [ShLin 0%nat 1 0; ShLin 1%nat 1 (-1); ShLin 2%nat 1 (-1)], [ShLin 0%nat 1 1; ShLin 1%nat 1 (-1); ShLin 2%nat 1 0], Some (cN (-1)));
  (8, 8, [ShLin 0%nat 1 0; ShLin 1%nat 1 1; ShLin 2%nat 1 (-1)], [ShLin 0%nat 1 1; ShLin 1%nat 1 1; ShLin 2%nat 1 0], Some (cN (-1)));
  (9, 9, [ShLin 0%nat 1 (-1); ShLin 1%nat 1 0; ShLin 2%nat 1 1], [ShLin 0%nat 1 0; ShLin 1%nat 1 0; ShLin 2%nat 1 2], Some DBLISOSZ_e1);
  (10, 9, [ShLin 0%nat 1 1; ShLin 1%nat 1 0; ShLin 2%nat 1 1], [ShLin 0%nat 1 0; ShLin 1%nat 1 0; ShLin 2%nat 1 2], Some DBLISOSZ_e2);
  (10, 10, [ShLin 0%nat 1 1; ShLin 1%nat 1 0; ShLin 2%nat 1 1], [ShLin 0%nat 1 2; ShLin 1%nat 1 0; ShLin 2%nat 1 2], Some (cN (-1)));
  (11, 11, [ShLin 0%nat 1 (-1); ShLin 1%nat 1 0; ShLin 2%nat 1 (-1)], [ShLin 0%nat 1 0; ShLin 1%nat 1 0; ShLin 2%nat 1 0], Some DBLISOSZ_e1);
  (12, 11, [ShLin 0%nat 1 1; ShLin 1%nat 1 0; ShLin 2%nat 1 (-1)], [ShLin 0%nat 1 0; ShLin 1%nat 1 0; ShLin 2%nat 1 0], Some DBLISOSZ_e2);
  (12, 12, [ShLin 0%nat 1 1; ShLin 1%nat 1 0; ShLin 2%nat 1 (-1)], [ShLin 0%nat 1 2; ShLin 1%nat 1 0; ShLin 2%nat 1 0], Some (cN (-1)));
  (13, 13, [ShLin 0%nat 1 (-1); ShLin 1%nat 1 (-1); ShLin 2%nat 1 0], [ShLin 0%nat 1 0; ShLin 1%nat 1 (-1); ShLin 2%nat 1 1], Some DBLISOSZ_e3);
  (14, 14, [ShLin 0%nat 1 (-1); ShLin 1%nat 1 1; ShLin 2%nat 1 0], [ShLin 0%nat 1 0; ShLin 1%nat 1 1; ShLin 2%nat 1 1], Some DBLISOSZ_e3);
  (15, 13, [ShLin 0%nat 1 1; ShLin 1%nat 1 (-1); ShLin 2%nat 1 0], [ShLin 0%nat 1 0; ShLin 1%nat 1 (-1); ShLin 2%nat 1 1], Some DBLISOSZ_e0);
  (15, 15, [ShLin 0%nat 1 1; ShLin 1%nat 1 (-1); ShLin 2%nat 1 0], [ShLin 0%nat 1 2; ShLin 1%nat 1 (-1); ShLin 2%nat 1 1], Some (cN 1));
  (16, 14, [ShLin 0%nat 1 1; ShLin 1%nat 1 1; ShLin 2%nat 1 0], [ShLin 0%nat 1 0; ShLin 1%nat 1 1; ShLin 2%nat 1 1], Some DBLISOSZ_e0);
  (16, 16, [ShLin 0%nat 1 1; ShLin 1%nat 1 1; ShLin 2%nat 1 0], [ShLin 0%nat 1 2; ShLin 1%nat 1 1; ShLin 2%nat 1 1], Some (cN 1))].
(** /repo/c++/symmetry/nrg-recalc-DBLISOSZ.hpp recalc_doublet, dblisosz/dblisosz-2ch-doublet0mm.dat *)
Definition dblisosz_2ch_t4 : ten_table := mk_ten "doublet" [ShLin 0%nat 1 0; ShLin 1%nat 1 (-1); ShLin 2%nat 1 (-1)] [1; 2; 1] [
  (1, 1, [ShLin 0%nat 1 0; ShLin 1%nat 1 0; ShLin 2%nat 1 2], [ShLin 0%nat 1 0; ShLin 1%nat 1 (-1); ShLin 2%nat 1 1], Some (cN 1));
  (2, 2, [ShLin 0%nat 1 0; ShLin 1%nat 1 0; ShLin 2%nat 1 0], [ShLin 0%nat 1 0; ShLin 1%nat 1 (-1); ShLin 2%nat 1 (-1)], Some (cN 1));
  (3, 3, [ShLin 0%nat 1 0; ShLin 1%nat 1 0; ShLin 2%nat 1 0], [ShLin 0%nat 1 0; ShLin 1%nat 1 (-1); ShLin 2%nat 1 (-1)], Some (cN 1));
  (4, 4, [ShLin 0%nat 1 0; ShLin 1%nat 1 0; ShLin 2%nat 1 (-2)], [ShLin 0%nat 1 0; ShLin 1%nat 1 (-1); ShLin 2%nat 1 (-3)], Some (cN 1));
  (5, 5, [ShLin 0%nat 1 0; ShLin 1%nat 1 (-1); ShLin 2%nat 1 1], [ShLin 0%nat 1 0; ShLin 1%nat 1 (-2); ShLin 2%nat 1 0], Some (cN (-1)));
  (5, 6, [ShLin 0%nat 1 0; ShLin 1%nat 1 (-1); ShLin 2%nat 1 1], [ShLin 0%nat 1 0; ShLin 1%nat 1 0; ShLin 2%nat 1 0], Some DBLISOSZ_e4);
  (6, 6, [ShLin 0%nat 1 0; ShLin 1%nat 1 1; ShLin 2%nat 1 1], [ShLin 0%nat 1 0; ShLin 1%nat 1 0; ShLin 2%nat 1 0], Some DBLISOSZ_e5);
  (7, 7, [ShLin 0%nat 1 0; ShLin 1%nat 1 (-1); ShLin 2%nat 1 (-1)], [ShLin 0%nat 1 0; ShLin 1%nat 1 (-2); ShLin 2%nat 1 (-2)], Some (cN (-1)));
  (7, 8, [ShLin 0%nat 1 0; ShLin 1%nat 1 (-1); ShLin 2%nat 1 (-1)], [ShLin 0%nat 1 0; ShLin 1%nat 1 0; ShLin 2%nat 1 (-2)], Some DBLISOSZ_e4);
  (8, 8, [ShLin 0%nat 1 0; ShLin 1%nat 1 1; ShLin 2%nat 1 (-1)], [ShLin 0%nat 1 0; ShLin 1%nat 1 0; ShLin 2%nat 1 (-2)], Some DBLISOSZ_e5);
  (9, 9, [ShLin 0%nat 1 (-1); ShLin 1%nat 1 0; ShLin 2%nat 1 1], [ShLin 0%nat 1 (-1); ShLin 1%nat 1 (-1); ShLin 2%nat 1 0], Some (cN (-1)));
  (10, 10, [ShLin 0%nat 1 1; ShLin 1%nat 1 0; ShLin 2%nat 1 1], [ShLin 0%nat 1 1; ShLin 1%nat 1 (-1); ShLin 2%nat 1 0], Some (cN (-1)));
  (11, 11, [ShLin 0%nat 1 (-1); ShLin 1%nat 1 0; ShLin 2%nat 1 (-1)], [ShLin 0%nat 1 (-1); ShLin 1%nat 1 (-1); ShLin 2%nat 1 (-2)], Some (cN (-1)));
  (12, 12, [ShLin 0%nat 1 1; ShLin 1%nat 1 0; ShLin 2%nat 1 (-1)], [ShLin 0%nat 1 1; ShLin 1%nat 1 (-1); ShLin 2%nat 1 (-2)], Some (cN (-1)));
  (13, 13, [ShLin 0%nat 1 (-1); ShLin 1%nat 1 (-1); ShLin 2%nat 1 0], [ShLin 0%nat 1 (-1); ShLin 1%nat 1 (-2); ShLin 2%nat 1 (-1)], Some (cN 1));
  (13, 14, [ShLin 0%nat 1 (-1); ShLin 1%nat 1 (-1); ShLin 2%nat 1 0], [ShLin 0%nat 1 (-1); ShLin 1%nat 1 0; ShLin 2%nat 1 (-1)], Some DBLISOSZ_e6);
  (14, 14, [ShLin 0%nat 1 (-1); ShLin 1%nat 1 1; ShLin 2%nat 1 0], [ShLin 0%nat 1 (-1); ShLin 1%nat 1 0; ShLin 2%nat 1 (-1)], Some DBLISOSZ_e7);
  (15, 15, [ShLin 0%nat 1 1; ShLin 1%nat 1 (-1); ShLin 2%nat 1 0], [ShLin 0%nat 1 1; ShLin 1%nat 1 (-2); ShLin 2%nat 1 (-1)], Some (cN 1));
  (15, 16, [ShLin 0%nat 1 1; ShLin 1%nat 1 (-1); ShLin 2%nat 1 0], [ShLin 0%nat 1 1; ShLin 1%nat 1 0; ShLin 2%nat 1 (-1)], Some DBLISOSZ_e6);
  (16, 16, [ShLin 0%nat 1 1; ShLin 1%nat 1 1; ShLin 2%nat 1 0], [ShLin 0%nat 1 1; ShLin 1%nat 1 0; ShLin 2%nat 1 (-1)], Some DBLISOSZ_e7)].
(** /repo/c++/symmetry/nrg-recalc-DBLISOSZ.hpp recalc_doublet, dblisosz/dblisosz-2ch-doublet0mp.dat *)
Definition dblisosz_2ch_t5 : ten_table := mk_ten "doublet" [ShLin 0%nat 1 0; ShLin 1%nat 1 (-1); ShLin 2%nat 1 1] [1; 2; (-1)] [
  (1, 1, [ShLin 0%nat 1 0; ShLin 1%nat 1 0; ShLin 2%nat 1 2], [ShLin 0%nat 1 0; ShLin 1%nat 1 (-1); ShLin 2%nat 1 3], Some (cN 1));
  (2, 2, [ShLin 0%nat 1 0; ShLin 1%nat 1 0; ShLin 2%nat 1 0], [ShLin 0%nat 1 0; ShLin 1%nat 1 (-1); ShLin 2%nat 1 1], Some (cN 1));
  (3, 3, [ShLin 0%nat 1 0; ShLin 1%nat 1 0; ShLin 2%nat 1 0], [ShLin 0%nat 1 0; ShLin 1%nat 1 (-1); ShLin 2%nat 1 1], Some (cN 1));
  (4, 4, [ShLin 0%nat 1 0; ShLin 1%nat 1 0; ShLin 2%nat 1 (-2)], [ShLin 0%nat 1 0; ShLin 1%nat 1 (-1); ShLin 2%nat 1 (-1)], Some (cN 1));
  (5, 5, [ShLin 0%nat 1 0; ShLin 1%nat 1 (-1); ShLin 2%nat 1 1], [ShLin 0%nat 1 0; ShLin 1%nat 1 (-2); ShLin 2%nat 1 2], Some (cN (-1)));
  (5, 6, [ShLin 0%nat 1 0; ShLin 1%nat 1 (-1); ShLin 2%nat 1 1], [ShLin 0%nat 1 0; ShLin 1%nat 1 0; ShLin 2%nat 1 2], Some DBLISOSZ_e4);
  (6, 6, [ShLin 0%nat 1 0; ShLin 1%nat 1 1; ShLin 2%nat 1 1], [ShLin 0%nat 1 0; ShLin 1%nat 1 0; ShLin 2%nat 1 2], Some DBLISOSZ_e5);
  (7, 7, [ShLin 0%nat 1 0; ShLin 1%nat 1 (-1); ShLin 2%nat 1 (-1)], [ShLin 0%nat 1 0; ShLin 1%nat 1 (-2); ShLin 2%nat 1 0], Some (cN (-1)));
  (7, 8, [ShLin 0%nat 1 0; ShLin 1%nat 1 (-1); ShLin 2%nat 1 (-1)], [ShLin 0%nat 1 0; ShLin 1%nat 1 0; ShLin 2%nat 1 0], Some DBLISOSZ_e4);
  (8, 8, [ShLin 0%nat 1 0; ShLin 1%nat 1 1; ShLin 2%nat 1 (-1)], [ShLin 0%nat 1 0; ShLin 1%nat 1 0; ShLin 2%nat 1 0], Some DBLISOSZ_e5);
  (9, 9, [ShLin 0%nat 1 (-1); ShLin 1%nat 1 0; ShLin 2%nat 1 1], [ShLin 0%nat 1 (-1); ShLin 1%nat 1 (-1); ShLin 2%nat 1 2], Some (cN (-1)));
  (10, 10, [ShLin 0%nat 1 1; ShLin 1%nat 1 0; ShLin 2%nat 1 1], [ShLin 0%nat 1 1; ShLin 1%nat 1 (-1); ShLin 2%nat 1 2], Some (cN (-1)));
  (11, 11, [ShLin 0%nat 1 (-1); ShLin 1%nat 1 0; ShLin 2%nat 1 (-1)], [ShLin 0%nat 1 (-1); ShLin 1%nat 1 (-1); ShLin 2%nat 1 0], Some (cN (-1)));
  (12, 12, [ShLin 0%nat 1 1; ShLin 1%nat 1 0; ShLin 2%nat 1 (-1)], [ShLin 0%nat 1 1; ShLin 1%nat 1 (-1); ShLin 2%nat 1 0], Some (cN (-1)));
  (13, 13, [ShLin 0%nat 1 (-1); ShLin 1%nat 1 (-1); ShLin 2%nat 1 0], [ShLin 0%nat 1 (-1); ShLin 1%nat 1 (-2); ShLin 2%nat 1 1], Some (cN 1));
  (13, 14, [ShLin 0%nat 1 (-1); ShLin 1%nat 1 (-1); ShLin 2%nat 1 0], [ShLin 0%nat 1 (-1); ShLin 1%nat 1 0; ShLin 2%nat 1 1], Some DBLISOSZ_e6);
  (14, 14, [ShLin 0%nat 1 (-1); ShLin 1%nat 1 1; ShLin 2%nat 1 0], [ShLin 0%nat 1 (-1); ShLin 1%nat 1 0; ShLin 2%nat 1 1], Some DBLISOSZ_e7);
  (15, 15, [ShLin 0%nat 1 1; ShLin 1%nat 1 (-1); ShLin 2%nat 1 0], [ShLin 0%nat 1 1; ShLin 1%nat 1 (-2); ShLin 2%nat 1 1], Some (cN 1));
  (15, 16, [ShLin 0%nat 1 1; ShLin 1%nat 1 (-1); ShLin 2%nat 1 0], [ShLin 0%nat 1 1; ShLin 1%nat 1 0; ShLin 2%nat 1 1], Some DBLISOSZ_e6);
  (16, 16, [ShLin 0%nat 1 1; ShLin 1%nat 1 1; ShLin 2%nat 1 0], [ShLin 0%nat 1 1; ShLin 1%nat 1 0; ShLin 2%nat 1 1], Some DBLISOSZ_e7)].
(** /repo/c++/symmetry/nrg-recalc-DBLISOSZ.hpp recalc_doublet, dblisosz/dblisosz-2ch-doublet0pm.dat *)
Definition dblisosz_2ch_t6 : ten_table := mk_ten "doublet" [ShLin 0%nat 1 0; ShLin 1%nat 1 1; ShLin 2%nat 1 (-1)] [1; 2; 1] [
  (1, 1, [ShLin 0%nat 1 0; ShLin 1%nat 1 0; ShLin 2%nat 1 2], [ShLin 0%nat 1 0; ShLin 1%nat 1 1; ShLin 2%nat 1 1], Some (cN 1));
  (2, 2, [ShLin 0%nat 1 0; ShLin 1%nat 1 0; ShLin 2%nat 1 0], [ShLin 0%nat 1 0; ShLin 1%nat 1 1; ShLin 2%nat 1 (-1)], Some (cN 1));
  (3, 3, [ShLin 0%nat 1 0; ShLin 1%nat 1 0; ShLin 2%nat 1 0], [ShLin 0%nat 1 0; ShLin 1%nat 1 1; ShLin 2%nat 1 (-1)], Some (cN 1));
  (4, 4, [ShLin 0%nat 1 0; ShLin 1%nat 1 0; ShLin 2%nat 1 (-2)], [ShLin 0%nat 1 0; ShLin 1%nat 1 1; ShLin 2%nat 1 (-3)], Some (cN 1));
  (5, 5, [ShLin 0%nat 1 0; ShLin 1%nat 1 (-1); ShLin 2%nat 1 1], [ShLin 0%nat 1 0; ShLin 1%nat 1 0; ShLin 2%nat 1 0], Some DBLISOSZ_e5);
  (6, 5, [ShLin 0%nat 1 0; ShLin 1%nat 1 1; ShLin 2%nat 1 1], [ShLin 0%nat 1 0; ShLin 1%nat 1 0; ShLin 2%nat 1 0], Some DBLISOSZ_e6);
  (6, 6, [ShLin 0%nat 1 0; ShLin 1%nat 1 1; ShLin 2%nat 1 1], [ShLin 0%nat 1 0; ShLin 1%nat 1 2; ShLin 2%nat 1 0], Some (cN (-1)));
  (7, 7, [ShLin 0%nat 1 0; ShLin 1%nat 1 (-1); ShLin 2%nat 1 (-1)], [ShLin 0%nat 1 0; ShLin 1%nat 1 0; ShLin 2%nat 1 (-2)], Some DBLISOSZ_e5);
  (8, 7, [ShLin 0%nat 1 0; ShLin 1%nat 1 1; ShLin 2%nat 1 (-1)], [ShLin 0%nat 1 0; ShLin 1%nat 1 0; ShLin 2%nat 1 (-2)], Some DBLISOSZ_e6);
  (8, 8, [ShLin 0%nat 1 0; ShLin 1%nat 1 1; ShLin 2%nat 1 (-1)], [ShLin 0%nat 1 0; ShLin 1%nat 1 2; ShLin 2%nat 1 (-2)], Some (cN (-1)));
  (9, 9, [ShLin 0%nat 1 (-1); ShLin 1%nat 1 0; ShLin 2%nat 1 1], [ShLin 0%nat 1 (-1); ShLin 1%nat 1 1; ShLin 2%nat 1 0], Some (cN (-1)));
  (10, 10, [ShLin 0%nat 1 1; ShLin 1%nat 1 0; ShLin 2%nat 1 1], [ShLin 0%nat 1 1; ShLin 1%nat 1 1; ShLin 2%nat 1 0], Some (cN (-1)));
  (11, 11, [ShLin 0%nat 1 (-1); ShLin 1%nat 1 0; ShLin 2%nat 1 (-1)], [ShLin 0%nat 1 (-1); ShLin 1%nat 1 1; ShLin 2%nat 1 (-2)], Some (cN (-1)));
  (12, 12, [ShLin 0%nat 1 1; ShLin 1%nat 1 0; ShLin 2%nat 1 (-1)], [ShLin 0%nat 1 1; ShLin 1%nat 1 1; ShLin 2%nat 1 (-2)], Some (cN (-1)));
  (13, 13, [ShLin 0%nat 1 (-1); ShLin 1%nat 1 (-1); ShLin 2%nat 1 0], [ShLin 0%nat 1 (-1); ShLin 1%nat 1 0; ShLin 2%nat 1 (-1)], Some DBLISOSZ_e7);
  (14, 13, [ShLin 0%nat 1 (-1); ShLin 1%nat 1 1; ShLin 2%nat 1 0], [ShLin 0%nat 1 (-1); ShLin 1%nat 1 0; ShLin 2%nat 1 (-1)], Some DBLISOSZ_e4);
  (14, 14, [ShLin 0%nat 1 (-1); ShLin 1%nat 1 1; ShLin 2%nat 1 0], [ShLin 0%nat 1 (-1); ShLin 1%nat 1 2; ShLin 2%nat 1 (-1)], Some (cN 1));
  (15, 15, [ShLin 0%nat 1 1; ShLin 1%nat 1 (-1); ShLin 2%nat 1 0], [ShLin 0%nat 1 1; ShLin 1%nat 1 0; ShLin 2%nat 1 (-1)], Some DBLISOSZ_e7);
  (16, 15, [ShLin 0%nat 1 1; ShLin 1%nat 1 1; ShLin 2%nat 1 0], [ShLin 0%nat 1 1; ShLin 1%nat 1 0; ShLin 2%nat 1 (-1)], Some DBLISOSZ_e4);
  (16, 16, [ShLin 0%nat 1 1; ShLin 1%nat 1 1; ShLin 2%nat 1 0], [ShLin 0%nat 1 1; ShLin 1%nat 1 2; ShLin 2%nat 1 (-1)], Some (cN 1))].
(** /repo/c++/symmetry/nrg-recalc-DBLISOSZ.hpp recalc_doublet, dblisosz/dblisosz-2ch-doublet0pp.dat *)
Definition dblisosz_2ch_t7 : ten_table := mk_ten "doublet" [ShLin 0%nat 1 0; ShLin 1%nat 1 1; ShLin 2%nat 1 1] [1; 2; (-1)] [
  (1, 1, [ShLin 0%nat 1 0; ShLin 1%nat 1 0; ShLin 2%nat 1 2], [ShLin 0%nat 1 0; ShLin 1%nat 1 1; ShLin 2%nat 1 3], Some (cN 1));
  (2, 2, [ShLin 0%nat 1 0; ShLin 1%nat 1 0; ShLin 2%nat 1 0], [ShLin 0%nat 1 0; ShLin 1%nat 1 1; ShLin 2%nat 1 1], Some (cN 1));
  (3, 3, [ShLin 0%nat 1 0; ShLin 1%nat 1 0; ShLin 2%nat 1 0], [ShLin 0%nat 1 0; ShLin 1%nat 1 1; ShLin 2%nat 1 1], Some (cN 1));
  (4, 4, [ShLin 0%nat 1 0; ShLin 1%nat 1 0; ShLin 2%nat 1 (-2)], [ShLin 0%nat 1 0; ShLin 1%nat 1 1; ShLin 2%nat 1 (-1)], Some (cN 1));
  (5, 5, [ShLin 0%nat 1 0; ShLin 1%nat 1 (-1); ShLin 2%nat 1 1], [ShLin 0%nat 1 0; ShLin 1%nat 1 0; ShLin 2%nat 1 2], Some DBLISOSZ_e5);
  (6, 5, [ShLin 0%nat 1 0; ShLin 1%nat 1 1; ShLin 2%nat 1 1], [ShLin 0%nat 1 0; ShLin 1%nat 1 0; ShLin 2%nat 1 2], Some DBLISOSZ_e6);
  (6, 6, [ShLin 0%nat 1 0; ShLin 1%nat 1 1; ShLin 2%nat 1 1], [ShLin 0%nat 1 0; ShLin 1%nat 1 2; ShLin 2%nat 1 2], Some (cN (-1)));
  (7, 7, [ShLin 0%nat 1 0; ShLin 1%nat 1 (-1); ShLin 2%nat 1 (-1)], [ShLin 0%nat 1 0; ShLin 1%nat 1 0; ShLin 2%nat 1 0], Some DBLISOSZ_e5);
  (8, 7, [ShLin 0%nat 1 0; ShLin 1%nat 1 1; ShLin 2%nat 1 (-1)], [ShLin 0%nat 1 0; ShLin 1%nat 1 0; ShLin 2%nat 1 0], Some DBLISOSZ_e6);
  (8, 8, [ShLin 0%nat 1 0; ShLin 1%nat 1 1; ShLin 2%nat 1 (-1)], [ShLin 0%nat 1 0; ShLin 1%nat 1 2; ShLin 2%nat 1 0], Some (cN (-1)));
  (9, 9, [ShLin 0%nat 1 (-1); ShLin 1%nat 1 0; ShLin 2%nat 1 1], [ShLin 0%nat 1 (-1); ShLin 1%nat 1 1; ShLin 2%nat 1 2], Some (cN (-1)));
  (10, 10, [ShLin 0%nat 1 1; ShLin 1%nat 1 0; ShLin 2%nat 1 1], [ShLin 0%nat 1 1; ShLin 1%nat 1 1; ShLin 2%nat 1 2], Some (cN (-1)));
  (11, 11, [ShLin 0%nat 1 (-1); ShLin 1%nat 1 0; ShLin 2%nat 1 (-1)], [ShLin 0%nat 1 (-1); ShLin 1%nat 1 1; ShLin 2%nat 1 0], Some (cN (-1)));
  (12, 12, [ShLin 0%nat 1 1; ShLin 1%nat 1 0; ShLin 2%nat 1 (-1)], [ShLin 0%nat 1 1; ShLin 1%nat 1 1; ShLin 2%nat 1 0], Some (cN (-1)));
  (13, 13, [ShLin 0%nat 1 (-1); ShLin 1%nat 1 (-1); ShLin 2%nat 1 0], [ShLin 0%nat 1 (-1); ShLin 1%nat 1 0; ShLin 2%nat 1 1], Some DBLISOSZ_e7);
  (14, 13, [ShLin 0%nat 1 (-1); ShLin 1%nat 1 1; ShLin 2%nat 1 0], [ShLin 0%nat 1 (-1); ShLin 1%nat 1 0; ShLin 2%nat 1 1], Some DBLISOSZ_e4);
  (14, 14, [ShLin 0%nat 1 (-1); ShLin 1%nat 1 1; ShLin 2%nat 1 0], [ShLin 0%nat 1 (-1); ShLin 1%nat 1 2; ShLin 2%nat 1 1], Some (cN 1));
  (15, 15, [ShLin 0%nat 1 1; ShLin 1%nat 1 (-1); ShLin 2%nat 1 0], [ShLin 0%nat 1 1; ShLin 1%nat 1 0; ShLin 2%nat 1 1], Some DBLISOSZ_e7);
  (16, 15, [ShLin 0%nat 1 1; ShLin 1%nat 1 1; ShLin 2%nat 1 0], [ShLin 0%nat 1 1; ShLin 1%nat 1 0; ShLin 2%nat 1 1], Some DBLISOSZ_e4);
  (16, 16, [ShLin 0%nat 1 1; ShLin 1%nat 1 1; ShLin 2%nat 1 0], [ShLin 0%nat 1 1; ShLin 1%nat 1 2; ShLin 2%nat 1 1], Some (cN 1))].
(** /repo/c++/symmetry/nrg-recalc-DBLISOSZ.hpp recalc_irreduc, dblisosz/dblisosz-2ch-type1-isoup-a.dat *)
Definition dblisosz_2ch_t8 : irr_table := mk_irr 0 0 [ShLin 0%nat 1 1; ShLin 1%nat 1 0; ShLin 2%nat 1 1]  [
  (2, 10, Some DBLISOSZ_e8);
  (4, 12, Some DBLISOSZ_e8);
  (7, 15, Some DBLISOSZ_e8);
  (8, 16, Some DBLISOSZ_e8);
  (9, 1, Some (cN 1));
  (11, 3, Some (cN 1));
  (13, 5, Some (cN 1));
  (14, 6, Some (cN 1))].
(** /repo/c++/symmetry/nrg-recalc-DBLISOSZ.hpp recalc_irreduc, dblisosz/dblisosz-2ch-type2-isoup-a.dat *)
Definition dblisosz_2ch_t9 : irr_table := mk_irr 0 0 [ShLin 0%nat 1 1; ShLin 1%nat 1 0; ShLin 2%nat 1 (-1)]  [
  (1, 10, Some DBLISOSZ_e8);
  (3, 12, Some DBLISOSZ_e8);
  (5, 15, Some DBLISOSZ_e8);
  (6, 16, Some DBLISOSZ_e8);
  (9, 2, Some (cN (-1)));
  (11, 4, Some (cN (-1)));
  (13, 7, Some (cN (-1)));
  (14, 8, Some (cN (-1)))].
(** /repo/c++/symmetry/nrg-recalc-DBLISOSZ.hpp recalc_irreduc, dblisosz/dblisosz-2ch-type1-isoup-b.dat *)
Definition dblisosz_2ch_t10 : irr_table := mk_irr 1 0 [ShLin 0%nat 1 0; ShLin 1%nat 1 1; ShLin 2%nat 1 1]  [
  (3, 6, Some DBLISOSZ_e9);
  (4, 8, Some DBLISOSZ_e9);
  (5, 1, Some (cN (-1)));
  (7, 2, Some (cN (-1)));
  (11, 14, Some DBLISOSZ_e10);
  (12, 16, Some DBLISOSZ_e10);
  (13, 9, Some (cN 1));
  (15, 10, Some (cN 1))].
(** /repo/c++/symmetry/nrg-recalc-DBLISOSZ.hpp recalc_irreduc, dblisosz/dblisosz-2ch-type2-isoup-b.dat *)
Definition dblisosz_2ch_t11 : irr_table := mk_irr 1 0 [ShLin 0%nat 1 0; ShLin 1%nat 1 1; ShLin 2%nat 1 (-1)]  [
  (1, 6, Some DBLISOSZ_e9);
  (2, 8, Some DBLISOSZ_e9);
  (5, 3, Some (cN 1));
  (7, 4, Some (cN 1));
  (9, 14, Some DBLISOSZ_e10);
  (10, 16, Some DBLISOSZ_e10);
  (13, 11, Some (cN (-1)));
  (15, 12, Some (cN (-1)))].
(** /repo/c++/symmetry/nrg-recalc-DBLISOSZ.hpp recalc_irreduc, dblisosz/dblisosz-2ch-type1-isodown-a.dat *)
Definition dblisosz_2ch_t12 : irr_table := mk_irr 0 0 [ShLin 0%nat 1 (-1); ShLin 1%nat 1 0; ShLin 2%nat 1 1]  [
  (2, 9, Some DBLISOSZ_e11);
  (4, 11, Some DBLISOSZ_e11);
  (7, 13, Some DBLISOSZ_e11);
  (8, 14, Some DBLISOSZ_e11);
  (10, 1, Some (cN 1));
  (12, 3, Some (cN 1));
  (15, 5, Some (cN 1));
  (16, 6, Some (cN 1))].
(** /repo/c++/symmetry/nrg-recalc-DBLISOSZ.hpp recalc_irreduc, dblisosz/dblisosz-2ch-type2-isodown-a.dat *)
Definition dblisosz_2ch_t13 : irr_table := mk_irr 0 0 [ShLin 0%nat 1 (-1); ShLin 1%nat 1 0; ShLin 2%nat 1 (-1)]  [
  (1, 9, Some DBLISOSZ_e11);
  (3, 11, Some DBLISOSZ_e11);
  (5, 13, Some DBLISOSZ_e11);
  (6, 14, Some DBLISOSZ_e11);
  (10, 2, Some (cN (-1)));
  (12, 4, Some (cN (-1)));
  (15, 7, Some (cN (-1)));
  (16, 8, Some (cN (-1)))].
(** /repo/c++/symmetry/nrg-recalc-DBLISOSZ.hpp recalc_irreduc, dblisosz/dblisosz-2ch-type1-isodown-b.dat *)
Definition dblisosz_2ch_t14 : irr_table := mk_irr 1 0 [ShLin 0%nat 1 0; ShLin 1%nat 1 (-1); ShLin 2%nat 1 1]  [
  (3, 5, Some DBLISOSZ_e12);
  (4, 7, Some DBLISOSZ_e12);
  (6, 1, Some (cN (-1)));
  (8, 2, Some (cN (-1)));
  (11, 13, Some DBLISOSZ_e13);
  (12, 15, Some DBLISOSZ_e13);
  (14, 9, Some (cN 1));
  (16, 10, Some (cN 1))].
(** /repo/c++/symmetry/nrg-recalc-DBLISOSZ.hpp recalc_irreduc, dblisosz/dblisosz-2ch-type2-isodown-b.dat *)
Definition dblisosz_2ch_t15 : irr_table := mk_irr 1 0 [ShLin 0%nat 1 0; ShLin 1%nat 1 (-1); ShLin 2%nat 1 (-1)]  [
  (1, 5, Some DBLISOSZ_e12);
  (2, 7, Some DBLISOSZ_e12);
  (6, 3, Some (cN 1));
  (8, 4, Some (cN 1));
  (9, 13, Some DBLISOSZ_e13);
  (10, 15, Some DBLISOSZ_e13);
  (14, 11, Some (cN (-1)));
  (16, 12, Some (cN (-1)))].
(** /repo/c++/symmetry/sym-DBLISOSZ-impl.hpp, make_matrix  *)
Definition dblisosz_2ch_m0_o : list off_line := [
  (1, 9, 0, 0, "xi", Some (cN 1));
  (1, 10, 0, 0, "xi", Some (cN 1));
  (2, 9, 0, 0, "xi", Some (cN (-1)));
  (2, 10, 0, 0, "xi", Some (cN (-1)));
  (3, 11, 0, 0, "xi", Some (cN 1));
  (3, 12, 0, 0, "xi", Some (cN 1));
  (4, 11, 0, 0, "xi", Some (cN (-1)));
  (4, 12, 0, 0, "xi", Some (cN (-1)));
  (5, 13, 0, 0, "xi", Some (cN (-1)));
  (5, 15, 0, 0, "xi", Some (cN (-1)));
  (6, 14, 0, 0, "xi", Some (cN (-1)));
  (6, 16, 0, 0, "xi", Some (cN (-1)));
  (7, 13, 0, 0, "xi", Some (cN 1));
  (7, 15, 0, 0, "xi", Some (cN 1));
  (8, 14, 0, 0, "xi", Some (cN 1));
  (8, 16, 0, 0, "xi", Some (cN 1));
  (1, 5, 1, 0, "xi", Some (cN (-1)));
  (1, 6, 1, 0, "xi", Some (cN (-1)));
  (2, 7, 1, 0, "xi", Some (cN (-1)));
  (2, 8, 1, 0, "xi", Some (cN (-1)));
  (3, 5, 1, 0, "xi", Some (cN 1));
  (3, 6, 1, 0, "xi", Some (cN 1));
  (4, 7, 1, 0, "xi", Some (cN 1));
  (4, 8, 1, 0, "xi", Some (cN 1));
  (9, 13, 1, 0, "xi", Some (cN (-1)));
  (9, 14, 1, 0, "xi", Some (cN (-1)));
  (10, 15, 1, 0, "xi", Some (cN (-1)));
  (10, 16, 1, 0, "xi", Some (cN (-1)));
  (11, 13, 1, 0, "xi", Some (cN 1));
  (11, 14, 1, 0, "xi", Some (cN 1));
  (12, 15, 1, 0, "xi", Some (cN 1));
  (12, 16, 1, 0, "xi", Some (cN 1))].
(** /repo/c++/symmetry/sym-DBLISOSZ-impl.hpp, make_matrix  *)
Definition dblisosz_2ch_m0_d : list diag_line := [
  ].
(** /repo/c++/symmetry/sym-DBLISOSZ-impl.hpp, make_matrix  *)
Definition dblisosz_2ch_m0_f : list dof_line := [
  ].
Definition coef_dblisosz_2ch : coef_set := mk_coef "DBLISOSZ" 2%nat sym_DBLISOSZ {| tb_In := dblisosz_2ch_In; tb_QN := dblisosz_2ch_QN |}
  [dblisosz_2ch_t8; dblisosz_2ch_t9; dblisosz_2ch_t10; dblisosz_2ch_t11; dblisosz_2ch_t12; dblisosz_2ch_t13; dblisosz_2ch_t14; dblisosz_2ch_t15]
  [dblisosz_2ch_t0; dblisosz_2ch_t1; dblisosz_2ch_t2; dblisosz_2ch_t3; dblisosz_2ch_t4; dblisosz_2ch_t5; dblisosz_2ch_t6; dblisosz_2ch_t7]
  [mk_mode "default" dblisosz_2ch_m0_o dblisosz_2ch_m0_d dblisosz_2ch_m0_f].
