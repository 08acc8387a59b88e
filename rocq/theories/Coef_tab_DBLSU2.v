(** Generated by gen/gen_coef.py from /repo/c++/symmetry/{sym-DBLSU2-impl.hpp, nrg-recalc-DBLSU2.hpp, coefnew}. Do not edit. *)
From Coq Require Import List ZArith String.
From Verif Require Import Base Invar_model Symmetry_model Symmetry_tables Coef_model.
Import ListNotations.
Local Open Scope string_scope.
Local Open Scope list_scope.
Local Open Scope Z_scope.

Definition DBLSU2_e0 := (cD (cN 1) (cB (cN (-1)) (cM (cN 2) (cH 0)))).
Definition DBLSU2_e1 := (cD (cM (cN (-2)) (cR (cM (cH 0) (cA (cN 1) (cH 0))))) (cA (cN 1) (cM (cN 2) (cH 0)))).
Definition DBLSU2_e2 := (cD (cN 1) (cA (cN 1) (cM (cN 2) (cH 0)))).
Definition DBLSU2_e3 := (cD (cM (cN 2) (cR (cM (cH 0) (cA (cN 1) (cH 0))))) (cA (cN 1) (cM (cN 2) (cH 0)))).
Definition DBLSU2_e4 := (cD (cN 1) (cB (cN (-1)) (cM (cN 2) (cH 1)))).
Definition DBLSU2_e5 := (cD (cM (cN (-2)) (cR (cM (cH 1) (cA (cN 1) (cH 1))))) (cA (cN 1) (cM (cN 2) (cH 1)))).
Definition DBLSU2_e6 := (cD (cN 1) (cA (cN 1) (cM (cN 2) (cH 1)))).
Definition DBLSU2_e7 := (cD (cM (cN 2) (cR (cM (cH 1) (cA (cN 1) (cH 1))))) (cA (cN 1) (cM (cN 2) (cH 1)))).
Definition DBLSU2_e8 := (cO (cD (cG [] 0) (cR (cA (cN 1) (cD (cN 1) (cA (cN 1) (cM (cN 2) (cH 0)))))))).
Definition DBLSU2_e9 := (cD (cG [] 0) (cR (cA (cN 1) (cD (cN 1) (cA (cN 1) (cM (cN 2) (cH 1))))))).
Definition DBLSU2_e10 := (cO (cD (cG [] 0) (cR (cA (cN 1) (cD (cN 1) (cA (cN 1) (cM (cN 2) (cH 1)))))))).
Definition DBLSU2_e11 := (cM (cG [] 0) (cR (cA (cN 1) (cD (cN 1) (cM (cN 2) (cH 0)))))).
Definition DBLSU2_e12 := (cO (cM (cG [] 0) (cR (cA (cN 1) (cD (cN 1) (cM (cN 2) (cH 1))))))).
Definition DBLSU2_e13 := (cM (cG [] 0) (cR (cA (cN 1) (cD (cN 1) (cM (cN 2) (cH 1)))))).

(** /repo/c++/symmetry/nrg-recalc-DBLSU2.hpp recalc_doublet, dblsu2/dblsu2-2ch-doubletm0.dat *)
Definition dblsu2_2ch_t0 : ten_table := mk_ten "doublet" [ShLin 0%nat 1 (-1); ShLin 1%nat 1 0] [2; 0] [
  (1, 1, [ShLin 0%nat 1 0; ShLin 1%nat 1 0], [ShLin 0%nat 1 (-1); ShLin 1%nat 1 0], Some (cN 1));
  (2, 2, [ShLin 0%nat 1 0; ShLin 1%nat 1 0], [ShLin 0%nat 1 (-1); ShLin 1%nat 1 0], Some (cN 1));
  (3, 3, [ShLin 0%nat 1 0; ShLin 1%nat 1 0], [ShLin 0%nat 1 (-1); ShLin 1%nat 1 0], Some (cN 1));
  (4, 4, [ShLin 0%nat 1 0; ShLin 1%nat 1 0], [ShLin 0%nat 1 (-1); ShLin 1%nat 1 0], Some (cN 1));
  (5, 5, [ShLin 0%nat 1 0; ShLin 1%nat 1 (-1)], [ShLin 0%nat 1 (-1); ShLin 1%nat 1 (-1)], Some (cN (-1)));
  (6, 6, [ShLin 0%nat 1 0; ShLin 1%nat 1 1], [ShLin 0%nat 1 (-1); ShLin 1%nat 1 1], Some (cN (-1)));
  (7, 7, [ShLin 0%nat 1 0; ShLin 1%nat 1 (-1)], [ShLin 0%nat 1 (-1); ShLin 1%nat 1 (-1)], Some (cN (-1)));
  (8, 8, [ShLin 0%nat 1 0; ShLin 1%nat 1 1], [ShLin 0%nat 1 (-1); ShLin 1%nat 1 1], Some (cN (-1)));
  (9, 9, [ShLin 0%nat 1 (-1); ShLin 1%nat 1 0], [ShLin 0%nat 1 (-2); ShLin 1%nat 1 0], Some (cN (-1)));
  (9, 10, [ShLin 0%nat 1 (-1); ShLin 1%nat 1 0], [ShLin 0%nat 1 0; ShLin 1%nat 1 0], Some DBLSU2_e0);
  (10, 10, [ShLin 0%nat 1 1; ShLin 1%nat 1 0], [ShLin 0%nat 1 0; ShLin 1%nat 1 0], Some DBLSU2_e1);
  (11, 11, [ShLin 0%nat 1 (-1); ShLin 1%nat 1 0], [ShLin 0%nat 1 (-2); ShLin 1%nat 1 0], Some (cN (-1)));
  (11, 12, [ShLin 0%nat 1 (-1); ShLin 1%nat 1 0], [ShLin 0%nat 1 0; ShLin 1%nat 1 0], Some DBLSU2_e0);
  (12, 12, [ShLin 0%nat 1 1; ShLin 1%nat 1 0], [ShLin 0%nat 1 0; ShLin 1%nat 1 0], Some DBLSU2_e1);
  (13, 13, [ShLin 0%nat 1 (-1); ShLin 1%nat 1 (-1)], [ShLin 0%nat 1 (-2); ShLin 1%nat 1 (-1)], Some (cN 1));
  (13, 15, [ShLin 0%nat 1 (-1); ShLin 1%nat 1 (-1)], [ShLin 0%nat 1 0; ShLin 1%nat 1 (-1)], Some DBLSU2_e2);
  (14, 14, [ShLin 0%nat 1 (-1); ShLin 1%nat 1 1], [ShLin 0%nat 1 (-2); ShLin 1%nat 1 1], Some (cN 1));
  (14, 16, [ShLin 0%nat 1 (-1); ShLin 1%nat 1 1], [ShLin 0%nat 1 0; ShLin 1%nat 1 1], Some DBLSU2_e2);
  (15, 15, [ShLin 0%nat 1 1; ShLin 1%nat 1 (-1)], [ShLin 0%nat 1 0; ShLin 1%nat 1 (-1)], Some DBLSU2_e3);
  (16, 16, [ShLin 0%nat 1 1; ShLin 1%nat 1 1], [ShLin 0%nat 1 0; ShLin 1%nat 1 1], Some DBLSU2_e3)].
(** /repo/c++/symmetry/nrg-recalc-DBLSU2.hpp recalc_doublet, dblsu2/dblsu2-2ch-doubletp0.dat *)
Definition dblsu2_2ch_t1 : ten_table := mk_ten "doublet" [ShLin 0%nat 1 1; ShLin 1%nat 1 0] [2; 0] [
  (1, 1, [ShLin 0%nat 1 0; ShLin 1%nat 1 0], [ShLin 0%nat 1 1; ShLin 1%nat 1 0], Some (cN 1));
  (2, 2, [ShLin 0%nat 1 0; ShLin 1%nat 1 0], [ShLin 0%nat 1 1; ShLin 1%nat 1 0], Some (cN 1));
  (3, 3, [ShLin 0%nat 1 0; ShLin 1%nat 1 0], [ShLin 0%nat 1 1; ShLin 1%nat 1 0], Some (cN 1));
  (4, 4, [ShLin 0%nat 1 0; ShLin 1%nat 1 0], [ShLin 0%nat 1 1; ShLin 1%nat 1 0], Some (cN 1));
  (5, 5, [ShLin 0%nat 1 0; ShLin 1%nat 1 (-1)], [ShLin 0%nat 1 1; ShLin 1%nat 1 (-1)], Some (cN (-1)));
  (6, 6, [ShLin 0%nat 1 0; ShLin 1%nat 1 1], [ShLin 0%nat 1 1; ShLin 1%nat 1 1], Some (cN (-1)));
  (7, 7, [ShLin 0%nat 1 0; ShLin 1%nat 1 (-1)], [ShLin 0%nat 1 1; ShLin 1%nat 1 (-1)], Some (cN (-1)));
  (8, 8, [ShLin 0%nat 1 0; ShLin 1%nat 1 1], [ShLin 0%nat 1 1; ShLin 1%nat 1 1], Some (cN (-1)));
  (9, 9, [ShLin 0%nat 1 (-1); ShLin 1%nat 1 0], [ShLin 0%nat 1 0; ShLin 1%nat 1 0], Some DBLSU2_e1);
  (10, 9, [ShLin 0%nat 1 1; ShLin 1%nat 1 0], [ShLin 0%nat 1 0; ShLin 1%nat 1 0], Some DBLSU2_e2);
  (10, 10, [ShLin 0%nat 1 1; ShLin 1%nat 1 0], [ShLin 0%nat 1 2; ShLin 1%nat 1 0], Some (cN (-1)));
  (11, 11, [ShLin 0%nat 1 (-1); ShLin 1%nat 1 0], [ShLin 0%nat 1 0; ShLin 1%nat 1 0], Some DBLSU2_e1);
  (12, 11, [ShLin 0%nat 1 1; ShLin 1%nat 1 0], [ShLin 0%nat 1 0; ShLin 1%nat 1 0], Some DBLSU2_e2);
  (12, 12, [ShLin 0%nat 1 1; ShLin 1%nat 1 0], [ShLin 0%nat 1 2; ShLin 1%nat 1 0], Some (cN (-1)));
  (13, 13, [ShLin 0%nat 1 (-1); ShLin 1%nat 1 (-1)], [ShLin 0%nat 1 0; ShLin 1%nat 1 (-1)], Some DBLSU2_e3);
  (14, 14, [ShLin 0%nat 1 (-1); ShLin 1%nat 1 1], [ShLin 0%nat 1 0; ShLin 1%nat 1 1], Some DBLSU2_e3);
  (15, 13, [ShLin 0%nat 1 1; ShLin 1%nat 1 (-1)], [ShLin 0%nat 1 0; ShLin 1%nat 1 (-1)], Some DBLSU2_e0);
  (15, 15, [ShLin 0%nat 1 1; ShLin 1%nat 1 (-1)], [ShLin 0%nat 1 2; ShLin 1%nat 1 (-1)], Some (cN 1));
  (16, 14, [ShLin 0%nat 1 1; ShLin 1%nat 1 1], [ShLin 0%nat 1 0; ShLin 1%nat 1 1], Some DBLSU2_e0);
  (16, 16, [ShLin 0%nat 1 1; ShLin 1%nat 1 1], [ShLin 0%nat 1 2; ShLin 1%nat 1 1], Some (cN 1))].
(** /repo/c++/symmetry/nrg-recalc-DBLSU2.hpp recalc_doublet, dblsu2/dblsu2-2ch-doublet0m.dat *)
Definition dblsu2_2ch_t2 : ten_table := mk_ten "doublet" [ShLin 0%nat 1 0; ShLin 1%nat 1 (-1)] [0; 2] [
  (1, 1, [ShLin 0%nat 1 0; ShLin 1%nat 1 0], [ShLin 0%nat 1 0; ShLin 1%nat 1 (-1)], Some (cN 1));
  (2, 2, [ShLin 0%nat 1 0; ShLin 1%nat 1 0], [ShLin 0%nat 1 0; ShLin 1%nat 1 (-1)], Some (cN 1));
  (3, 3, [ShLin 0%nat 1 0; ShLin 1%nat 1 0], [ShLin 0%nat 1 0; ShLin 1%nat 1 (-1)], Some (cN 1));
  (4, 4, [ShLin 0%nat 1 0; ShLin 1%nat 1 0], [ShLin 0%nat 1 0; ShLin 1%nat 1 (-1)], Some (cN 1));
  (5, 5, [ShLin 0%nat 1 0; ShLin 1%nat 1 (-1)], [ShLin 0%nat 1 0; ShLin 1%nat 1 (-2)], Some (cN (-1)));
  (5, 6, [ShLin 0%nat 1 0; ShLin 1%nat 1 (-1)], [ShLin 0%nat 1 0; ShLin 1%nat 1 0], Some DBLSU2_e4);
  (6, 6, [ShLin 0%nat 1 0; ShLin 1%nat 1 1], [ShLin 0%nat 1 0; ShLin 1%nat 1 0], Some DBLSU2_e5);
  (7, 7, [ShLin 0%nat 1 0; ShLin 1%nat 1 (-1)], [ShLin 0%nat 1 0; ShLin 1%nat 1 (-2)], Some (cN (-1)));
  (7, 8, [ShLin 0%nat 1 0; ShLin 1%nat 1 (-1)], [ShLin 0%nat 1 0; ShLin 1%nat 1 0], Some DBLSU2_e4);
  (8, 8, [ShLin 0%nat 1 0; ShLin 1%nat 1 1], [ShLin 0%nat 1 0; ShLin 1%nat 1 0], Some DBLSU2_e5);
  (9, 9, [ShLin 0%nat 1 (-1); ShLin 1%nat 1 0], [ShLin 0%nat 1 (-1); ShLin 1%nat 1 (-1)], Some (cN (-1)));
  (10, 10, [ShLin 0%nat 1 1; ShLin 1%nat 1 0], [ShLin 0%nat 1 1; ShLin 1%nat 1 (-1)], Some (cN (-1)));
  (11, 11, [ShLin 0%nat 1 (-1); ShLin 1%nat 1 0], [ShLin 0%nat 1 (-1); ShLin 1%nat 1 (-1)], Some (cN (-1)));
  (12, 12, [ShLin 0%nat 1 1; ShLin 1%nat 1 0], [ShLin 0%nat 1 1; ShLin 1%nat 1 (-1)], Some (cN (-1)));
  (13, 13, [ShLin 0%nat 1 (-1); ShLin 1%nat 1 (-1)], [ShLin 0%nat 1 (-1); ShLin 1%nat 1 (-2)], Some (cN 1));
  (13, 14, [ShLin 0%nat 1 (-1); ShLin 1%nat 1 (-1)], [ShLin 0%nat 1 (-1); ShLin 1%nat 1 0], Some DBLSU2_e6);
  (14, 14, [ShLin 0%nat 1 (-1); ShLin 1%nat 1 1], [ShLin 0%nat 1 (-1); ShLin 1%nat 1 0], Some DBLSU2_e7);
  (15, 15, [ShLin 0%nat 1 1; ShLin 1%nat 1 (-1)], [ShLin 0%nat 1 1; ShLin 1%nat 1 (-2)], Some (cN 1));
  (15, 16, [ShLin 0%nat 1 1; ShLin 1%nat 1 (-1)], [ShLin 0%nat 1 1; ShLin 1%nat 1 0], Some DBLSU2_e6);
  (16, 16, [ShLin 0%nat 1 1; ShLin 1%nat 1 1], [ShLin 0%nat 1 1; ShLin 1%nat 1 0], Some DBLSU2_e7)].
(** /repo/c++/symmetry/nrg-recalc-DBLSU2.hpp recalc_doublet, dblsu2/dblsu2-2ch-doublet0p.dat *)
Definition dblsu2_2ch_t3 : ten_table := mk_ten "doublet" [ShLin 0%nat 1 0; ShLin 1%nat 1 1] [0; 2] [
  (1, 1, [ShLin 0%nat 1 0; ShLin 1%nat 1 0], [ShLin 0%nat 1 0; ShLin 1%nat 1 1], Some (cN 1));
  (2, 2, [ShLin 0%nat 1 0; ShLin 1%nat 1 0], [ShLin 0%nat 1 0; ShLin 1%nat 1 1], Some (cN 1));
  (3, 3, [ShLin 0%nat 1 0; ShLin 1%nat 1 0], [ShLin 0%nat 1 0; ShLin 1%nat 1 1], Some (cN 1));
  (4, 4, [ShLin 0%nat 1 0; ShLin 1%nat 1 0], [ShLin 0%nat 1 0; ShLin 1%nat 1 1], Some (cN 1));
  (5, 5, [ShLin 0%nat 1 0; ShLin 1%nat 1 (-1)], [ShLin 0%nat 1 0; ShLin 1%nat 1 0], Some DBLSU2_e5);
  (6, 5, [ShLin 0%nat 1 0; ShLin 1%nat 1 1], [ShLin 0%nat 1 0; ShLin 1%nat 1 0], Some DBLSU2_e6);
  (6, 6, [ShLin 0%nat 1 0; ShLin 1%nat 1 1], [ShLin 0%nat 1 0; ShLin 1%nat 1 2], Some (cN (-1)));
  (7, 7, [ShLin 0%nat 1 0; ShLin 1%nat 1 (-1)], [ShLin 0%nat 1 0; ShLin 1%nat 1 0], Some DBLSU2_e5);
  (8, 7, [ShLin 0%nat 1 0; ShLin 1%nat 1 1], [ShLin 0%nat 1 0; ShLin 1%nat 1 0], Some DBLSU2_e6);
  (8, 8, [ShLin 0%nat 1 0; ShLin 1%nat 1 1], [ShLin 0%nat 1 0; ShLin 1%nat 1 2], Some (cN (-1)));
  (9, 9, [ShLin 0%nat 1 (-1); ShLin 1%nat 1 0], [ShLin 0%nat 1 (-1); ShLin 1%nat 1 1], Some (cN (-1)));
  (10, 10, [ShLin 0%nat 1 1; ShLin 1%nat 1 0], [ShLin 0%nat 1 1; ShLin 1%nat 1 1], Some (cN (-1)));
  (11, 11, [ShLin 0%nat 1 (-1); ShLin 1%nat 1 0], [ShLin 0%nat 1 (-1); ShLin 1%nat 1 1], Some (cN (-1)));
  (12, 12, [ShLin 0%nat 1 1; ShLin 1%nat 1 0], [ShLin 0%nat 1 1; ShLin 1%nat 1 1], Some (cN (-1)));
  (13, 13, [ShLin 0%nat 1 (-1); ShLin 1%nat 1 (-1)], [ShLin 0%nat 1 (-1); ShLin 1%nat 1 0], Some DBLSU2_e7);
  (14, 13, [ShLin 0%nat 1 (-1); ShLin 1%nat 1 1], [ShLin 0%nat 1 (-1); ShLin 1%nat 1 0], Some DBLSU2_e4);
  (14, 14, [ShLin 0%nat 1 (-1); ShLin 1%nat 1 1], [ShLin 0%nat 1 (-1); ShLin 1%nat 1 2], Some (cN 1));
  (15, 15, [ShLin 0%nat 1 1; ShLin 1%nat 1 (-1)], [ShLin 0%nat 1 1; ShLin 1%nat 1 0], Some DBLSU2_e7);
  (16, 15, [ShLin 0%nat 1 1; ShLin 1%nat 1 1], [ShLin 0%nat 1 1; ShLin 1%nat 1 0], Some DBLSU2_e4);
  (16, 16, [ShLin 0%nat 1 1; ShLin 1%nat 1 1], [ShLin 0%nat 1 1; ShLin 1%nat 1 2], Some (cN 1))].
(** /repo/c++/symmetry/nrg-recalc-DBLSU2.hpp recalc_irreduc, dblsu2/dblsu2-2ch-type1-isoup-a.dat *)
Definition dblsu2_2ch_t4 : irr_table := mk_irr 0 0 [ShLin 0%nat 1 1; ShLin 1%nat 1 0]  [
  (3, 10, Some DBLSU2_e8);
  (4, 12, Some DBLSU2_e8);
  (7, 15, Some DBLSU2_e8);
  (8, 16, Some DBLSU2_e8);
  (9, 1, Some (cN 1));
  (11, 2, Some (cN 1));
  (13, 5, Some (cN 1));
  (14, 6, Some (cN 1))].
(** /repo/c++/symmetry/nrg-recalc-DBLSU2.hpp recalc_irreduc, dblsu2/dblsu2-2ch-type2-isoup-a.dat *)
Definition dblsu2_2ch_t5 : irr_table := mk_irr 0 1 [ShLin 0%nat 1 1; ShLin 1%nat 1 0]  [
  (1, 10, Some DBLSU2_e8);
  (2, 12, Some DBLSU2_e8);
  (5, 15, Some DBLSU2_e8);
  (6, 16, Some DBLSU2_e8);
  (9, 3, Some (cN (-1)));
  (11, 4, Some (cN (-1)));
  (13, 7, Some (cN (-1)));
  (14, 8, Some (cN (-1)))].
(** /repo/c++/symmetry/nrg-recalc-DBLSU2.hpp recalc_irreduc, dblsu2/dblsu2-2ch-type1-isoup-b.dat *)
Definition dblsu2_2ch_t6 : irr_table := mk_irr 1 0 [ShLin 0%nat 1 0; ShLin 1%nat 1 1]  [
  (2, 6, Some DBLSU2_e9);
  (4, 8, Some DBLSU2_e9);
  (5, 1, Some (cN (-1)));
  (7, 3, Some (cN (-1)));
  (11, 14, Some DBLSU2_e10);
  (12, 16, Some DBLSU2_e10);
  (13, 9, Some (cN 1));
  (15, 10, Some (cN 1))].
(** /repo/c++/symmetry/nrg-recalc-DBLSU2.hpp recalc_irreduc, dblsu2/dblsu2-2ch-type2-isoup-b.dat *)
Definition dblsu2_2ch_t7 : irr_table := mk_irr 1 1 [ShLin 0%nat 1 0; ShLin 1%nat 1 1]  [
  (1, 6, Some DBLSU2_e9);
  (3, 8, Some DBLSU2_e9);
  (5, 2, Some (cN 1));
  (7, 4, Some (cN 1));
  (9, 14, Some DBLSU2_e10);
  (10, 16, Some DBLSU2_e10);
  (13, 11, Some (cN (-1)));
  (15, 12, Some (cN (-1)))].
(** /repo/c++/symmetry/nrg-recalc-DBLSU2.hpp recalc_irreduc, dblsu2/dblsu2-2ch-type1-isodown-a.dat *)
Definition dblsu2_2ch_t8 : irr_table := mk_irr 0 0 [ShLin 0%nat 1 (-1); ShLin 1%nat 1 0]  [
  (3, 9, Some DBLSU2_e11);
  (4, 11, Some DBLSU2_e11);
  (7, 13, Some DBLSU2_e11);
  (8, 14, Some DBLSU2_e11);
  (10, 1, Some (cN 1));
  (12, 2, Some (cN 1));
  (15, 5, Some (cN 1));
  (16, 6, Some (cN 1))].
(** /repo/c++/symmetry/nrg-recalc-DBLSU2.hpp recalc_irreduc, dblsu2/dblsu2-2ch-type2-isodown-a.dat *)
Definition dblsu2_2ch_t9 : irr_table := mk_irr 0 1 [ShLin 0%nat 1 (-1); ShLin 1%nat 1 0]  [
  (1, 9, Some DBLSU2_e11);
  (2, 11, Some DBLSU2_e11);
  (5, 13, Some DBLSU2_e11);
  (6, 14, Some DBLSU2_e11);
  (10, 3, Some (cN (-1)));
  (12, 4, Some (cN (-1)));
  (15, 7, Some (cN (-1)));
  (16, 8, Some (cN (-1)))].
(** /repo/c++/symmetry/nrg-recalc-DBLSU2.hpp recalc_irreduc, dblsu2/dblsu2-2ch-type1-isodown-b.dat *)
Definition dblsu2_2ch_t10 : irr_table := mk_irr 1 0 [ShLin 0%nat 1 0; ShLin 1%nat 1 (-1)]  [
  (2, 5, Some DBLSU2_e12);
  (4, 7, Some DBLSU2_e12);
  (6, 1, Some (cN (-1)));
  (8, 3, Some (cN (-1)));
  (11, 13, Some DBLSU2_e13);
  (12, 15, Some DBLSU2_e13);
  (14, 9, Some (cN 1));
  (16, 10, Some (cN 1))].
(** /repo/c++/symmetry/nrg-recalc-DBLSU2.hpp recalc_irreduc, dblsu2/dblsu2-2ch-type2-isodown-b.dat *)
Definition dblsu2_2ch_t11 : irr_table := mk_irr 1 1 [ShLin 0%nat 1 0; ShLin 1%nat 1 (-1)]  [
  (1, 5, Some DBLSU2_e12);
  (3, 7, Some DBLSU2_e12);
  (6, 2, Some (cN 1));
  (8, 4, Some (cN 1));
  (9, 13, Some DBLSU2_e13);
  (10, 15, Some DBLSU2_e13);
  (14, 11, Some (cN (-1)));
  (16, 12, Some (cN (-1)))].
(** /repo/c++/symmetry/sym-DBLSU2-impl.hpp, make_matrix  *)
Definition dblsu2_2ch_m0_o : list off_line := [
  (1, 9, 0, 0, "xi", Some (cN 1));
  (1, 10, 0, 0, "xi", Some (cN 1));
  (2, 11, 0, 0, "xi", Some (cN 1));
  (2, 12, 0, 0, "xi", Some (cN 1));
  (5, 13, 0, 0, "xi", Some (cN (-1)));
  (5, 15, 0, 0, "xi", Some (cN (-1)));
  (6, 14, 0, 0, "xi", Some (cN (-1)));
  (6, 16, 0, 0, "xi", Some (cN (-1)));
  (1, 5, 1, 0, "xi", Some (cN (-1)));
  (1, 6, 1, 0, "xi", Some (cN (-1)));
  (3, 7, 1, 0, "xi", Some (cN (-1)));
  (3, 8, 1, 0, "xi", Some (cN (-1)));
  (9, 13, 1, 0, "xi", Some (cN (-1)));
  (9, 14, 1, 0, "xi", Some (cN (-1)));
  (10, 15, 1, 0, "xi", Some (cN (-1)));
  (10, 16, 1, 0, "xi", Some (cN (-1)));
  (3, 9, 0, 1, "xi", Some (cN (-1)));
  (3, 10, 0, 1, "xi", Some (cN (-1)));
  (4, 11, 0, 1, "xi", Some (cN (-1)));
  (4, 12, 0, 1, "xi", Some (cN (-1)));
  (7, 13, 0, 1, "xi", Some (cN 1));
  (7, 15, 0, 1, "xi", Some (cN 1));
  (8, 14, 0, 1, "xi", Some (cN 1));
  (8, 16, 0, 1, "xi", Some (cN 1));
  (2, 5, 1, 1, "xi", Some (cN 1));
  (2, 6, 1, 1, "xi", Some (cN 1));
  (4, 7, 1, 1, "xi", Some (cN 1));
  (4, 8, 1, 1, "xi", Some (cN 1));
  (11, 13, 1, 1, "xi", Some (cN 1));
  (11, 14, 1, 1, "xi", Some (cN 1));
  (12, 15, 1, 1, "xi", Some (cN 1));
  (12, 16, 1, 1, "xi", Some (cN 1))].
(** /repo/c++/symmetry/sym-DBLSU2-impl.hpp, make_matrix  *)
Definition dblsu2_2ch_m0_d : list diag_line := [
  ].
(** /repo/c++/symmetry/sym-DBLSU2-impl.hpp, make_matrix  *)
Definition dblsu2_2ch_m0_f : list dof_line := [
  ].
Definition coef_dblsu2_2ch : coef_set := mk_coef "DBLSU2" 2%nat sym_DBLSU2 {| tb_In := dblsu2_2ch_In; tb_QN := dblsu2_2ch_QN |}
  [dblsu2_2ch_t4; dblsu2_2ch_t5; dblsu2_2ch_t6; dblsu2_2ch_t7; dblsu2_2ch_t8; dblsu2_2ch_t9; dblsu2_2ch_t10; dblsu2_2ch_t11]
  [dblsu2_2ch_t0; dblsu2_2ch_t1; dblsu2_2ch_t2; dblsu2_2ch_t3]
  [mk_mode "default" dblsu2_2ch_m0_o dblsu2_2ch_m0_d dblsu2_2ch_m0_f].
