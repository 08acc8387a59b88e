(** Generated by gen/gen_coef.py from /repo/c++/symmetry/{sym-ISOSZLR-impl.hpp, nrg-recalc-ISOSZLR.hpp, coefnew}. Do not edit. *)
From Coq Require Import List ZArith String.
From Verif Require Import Base Invar_model Symmetry_model Symmetry_tables Coef_model.
Import ListNotations.
Local Open Scope string_scope.
Local Open Scope list_scope.
Local Open Scope Z_scope.

Definition ISOSZLR_e0 := (cD (cM (cG [] 0) (cR (cB (cN 1) (cD (cN 1) (cM (cN 2) (cA (cN 1) (cH 0))))))) (cN 2)).
Definition ISOSZLR_e1 := (cD (cM (cG [] 0) (cR (cB (cN 2) (cD (cN 1) (cA (cN 1) (cH 0)))))) (cN 2)).
Definition ISOSZLR_e2 := (cO (cD (cN 1) (cR (cN 2)))).
Definition ISOSZLR_e3 := (cD (cM (cQ (-1) 2) (cM (cG [] 0) (cH 0))) (cR (cM (cH 0) (cA (cN 1) (cH 0))))).
Definition ISOSZLR_e4 := (cM (cQ (-1) 2) (cM (cG [] 0) (cR (cB (cN 2) (cD (cN 1) (cA (cN 1) (cH 0))))))).
Definition ISOSZLR_e5 := (cD (cA (cN 3) (cM (cN 2) (cH 0))) (cM (cN 2) (cR (cA (cA (cN 6) (cM (cN 10) (cH 0))) (cM (cN 4) (cW (cH 0) 4)))))).
Definition ISOSZLR_e6 := (cM (cQ (-1) 2) (cM (cG [] 0) (cR (cB (cN 1) (cD (cN 1) (cM (cN 2) (cA (cN 1) (cH 0)))))))).
Definition ISOSZLR_e7 := (cD (cB (cN (-3)) (cM (cN 2) (cH 0))) (cM (cN 2) (cR (cA (cA (cN 6) (cM (cN 10) (cH 0))) (cM (cN 4) (cW (cH 0) 4)))))).
Definition ISOSZLR_e8 := (cD (cM (cQ (-1) 2) (cM (cG [] 0) (cR (cA (cN 2) (cD (cN 1) (cH 0)))))) (cR (cN 2))).
Definition ISOSZLR_e9 := (cM (cQ (-1) 2) (cM (cG [] 0) (cR (cA (cN 2) (cD (cN 1) (cH 0)))))).
Definition ISOSZLR_e10 := (cD (cM (cG [] 0) (cR (cA (cN 2) (cD (cN 1) (cH 0))))) (cN 2)).
Definition ISOSZLR_e11 := (cD (cM (cG [] 0) (cA (cN 1) (cH 0))) (cM (cN 2) (cR (cM (cH 0) (cA (cN 1) (cH 0)))))).
Definition ISOSZLR_e12 := (cD (cR (cB (cN 1) (cD (cN 1) (cM (cN 2) (cH 0))))) (cN 2)).
Definition ISOSZLR_e13 := (cD (cM (cG [] 0) (cR (cA (cN 1) (cD (cN 1) (cM (cN 2) (cH 0)))))) (cN 2)).
Definition ISOSZLR_e14 := (cM (cQ (-1) 2) (cR (cB (cN 1) (cD (cN 1) (cM (cN 2) (cH 0)))))).
Definition ISOSZLR_e15 := (cD (cM (cG [] 0) (cH 0)) (cM (cN 2) (cR (cM (cH 0) (cA (cN 1) (cH 0)))))).
Definition ISOSZLR_e16 := (cD (cM (cQ (-1) 2) (cM (cG [] 0) (cA (cN 1) (cH 0)))) (cR (cM (cH 0) (cA (cN 1) (cH 0))))).
Definition ISOSZLR_e17 := (cD (cN 1) (cB (cN (-1)) (cM (cN 2) (cH 0)))).
Definition ISOSZLR_e18 := (cD (cM (cN (-2)) (cR (cM (cH 0) (cA (cN 1) (cH 0))))) (cA (cN 1) (cM (cN 2) (cH 0)))).
Definition ISOSZLR_e19 := (cD (cN 1) (cR (cM (cH 0) (cA (cN 1) (cM (cN 2) (cH 0)))))).
Definition ISOSZLR_e20 := (cD (cA (cA (cN (-1)) (cH 0)) (cM (cN 2) (cW (cH 0) 4))) (cR (cM (cM (cH 0) (cA (cN 1) (cH 0))) (cA (cN (-1)) (cM (cN 4) (cW (cH 0) 4)))))).
Definition ISOSZLR_e21 := (cD (cN 1) (cR (cM (cA (cN 1) (cH 0)) (cA (cN 1) (cM (cN 2) (cH 0)))))).
Definition ISOSZLR_e22 := (cR (cB (cA (cN 1) (cD (cN 1) (cA (cN 1) (cH 0)))) (cD (cN 2) (cA (cN 1) (cM (cN 2) (cH 0)))))).
Definition ISOSZLR_e23 := (cD (cN 1) (cA (cN 1) (cM (cN 2) (cH 0)))).
Definition ISOSZLR_e24 := (cD (cN 1) (cR (cD (cM (cH 0) (cA (cN 1) (cM (cN 2) (cH 0)))) (cA (cA (cN (-1)) (cH 0)) (cM (cN 2) (cW (cH 0) 4)))))).
Definition ISOSZLR_e25 := (cO (cD (cN 1) (cR (cM (cH 0) (cA (cN 1) (cM (cN 2) (cH 0))))))).
Definition ISOSZLR_e26 := (cD (cM (cH 0) (cA (cN 3) (cM (cN 2) (cH 0)))) (cR (cM (cM (cH 0) (cA (cN 1) (cH 0))) (cA (cN 3) (cM (cM (cN 4) (cH 0)) (cA (cN 2) (cH 0))))))).
Definition ISOSZLR_e27 := (cO (cD (cN 1) (cR (cM (cA (cN 1) (cH 0)) (cA (cN 1) (cM (cN 2) (cH 0))))))).
Definition ISOSZLR_e28 := (cD (cB (cN (-1)) (cH 0)) (cR (cA (cA (cN 2) (cM (cN 6) (cH 0))) (cM (cN 4) (cW (cH 0) 4))))).
Definition ISOSZLR_e29 := (cO (cD (cN 1) (cR (cA (cN 4) (cD (cN 2) (cH 0)))))).
Definition ISOSZLR_e30 := (cD (cA (cN 1) (cH 0)) (cR (cA (cA (cN 2) (cM (cN 6) (cH 0))) (cM (cN 4) (cW (cH 0) 4))))).
Definition ISOSZLR_e31 := (cD (cH 0) (cM (cR (cN 2)) (cR (cM (cH 0) (cA (cN 1) (cM (cN 2) (cH 0))))))).

(** /repo/c++/symmetry/nrg-recalc-ISOSZLR.hpp recalc_irreduc, isoszlr/isoszlr-2ch-spinup-isoupa.dat *)
Definition isoszlr_2ch_t0 : irr_table := mk_irr 0 0 [ShLin 0%nat 1 1; ShLin 1%nat 1 1; ShLin 2%nat 1 0]  [
  (2, 7, Some ISOSZLR_e0);
  (3, 7, Some ISOSZLR_e0);
  (4, 9, Some ISOSZLR_e0);
  (5, 11, Some ISOSZLR_e1);
  (6, 1, Some ISOSZLR_e2);
  (10, 2, Some (cQ 1 2));
  (10, 3, Some (cQ (-1) 2));
  (12, 4, Some (cQ 1 2));
  (12, 15, Some ISOSZLR_e3);
  (13, 16, Some ISOSZLR_e4);
  (14, 8, Some (cD (cN 1) (cR (cN 2))));
  (15, 9, Some ISOSZLR_e5)].
(** /repo/c++/symmetry/nrg-recalc-ISOSZLR.hpp recalc_irreduc, isoszlr/isoszlr-2ch-spinup-isoupb.dat *)
Definition isoszlr_2ch_t1 : irr_table := mk_irr 1 0 [ShLin 0%nat 1 1; ShLin 1%nat 1 1; ShLin 2%nat 1 0]  [
  (2, 7, Some ISOSZLR_e0);
  (3, 7, Some ISOSZLR_e0);
  (4, 9, Some ISOSZLR_e0);
  (5, 11, Some ISOSZLR_e1);
  (6, 1, Some ISOSZLR_e2);
  (10, 2, Some (cQ 1 2));
  (10, 3, Some (cQ (-1) 2));
  (12, 4, Some (cQ 1 2));
  (12, 15, Some ISOSZLR_e3);
  (13, 16, Some ISOSZLR_e4);
  (14, 8, Some (cD (cN 1) (cR (cN 2))));
  (15, 9, Some ISOSZLR_e5)].
(** /repo/c++/symmetry/nrg-recalc-ISOSZLR.hpp recalc_irreduc, isoszlr/isoszlr-2ch-spindown-isoupa.dat *)
Definition isoszlr_2ch_t2 : irr_table := mk_irr 0 0 [ShLin 0%nat 1 1; ShLin 1%nat 1 (-1); ShLin 2%nat 1 0]  [
  (1, 7, Some ISOSZLR_e1);
  (2, 11, Some ISOSZLR_e6);
  (3, 11, Some ISOSZLR_e0);
  (4, 13, Some ISOSZLR_e6);
  (6, 2, Some (cQ 1 2));
  (6, 3, Some (cQ 1 2));
  (8, 4, Some (cQ 1 2));
  (8, 15, Some ISOSZLR_e3);
  (9, 16, Some ISOSZLR_e4);
  (10, 5, Some (cD (cN 1) (cR (cN 2))));
  (14, 12, Some ISOSZLR_e2);
  (15, 13, Some ISOSZLR_e7)].
(** /repo/c++/symmetry/nrg-recalc-ISOSZLR.hpp recalc_irreduc, isoszlr/isoszlr-2ch-spindown-isoupb.dat *)
Definition isoszlr_2ch_t3 : irr_table := mk_irr 1 0 [ShLin 0%nat 1 1; ShLin 1%nat 1 (-1); ShLin 2%nat 1 0]  [
  (1, 7, Some ISOSZLR_e1);
  (2, 11, Some ISOSZLR_e6);
  (3, 11, Some ISOSZLR_e0);
  (4, 13, Some ISOSZLR_e6);
  (6, 2, Some (cQ 1 2));
  (6, 3, Some (cQ 1 2));
  (8, 4, Some (cQ 1 2));
  (8, 15, Some ISOSZLR_e3);
  (9, 16, Some ISOSZLR_e4);
  (10, 5, Some (cD (cN 1) (cR (cN 2))));
  (14, 12, Some ISOSZLR_e2);
  (15, 13, Some ISOSZLR_e7)].
(** /repo/c++/symmetry/nrg-recalc-ISOSZLR.hpp recalc_irreduc, isoszlr/isoszlr-2ch-spinup-isodowna.dat *)
Definition isoszlr_2ch_t4 : irr_table := mk_irr 0 0 [ShLin 0%nat 1 (-1); ShLin 1%nat 1 1; ShLin 2%nat 1 0]  [
  (2, 6, Some ISOSZLR_e8);
  (3, 6, Some ISOSZLR_e8);
  (4, 8, Some ISOSZLR_e8);
  (5, 10, Some ISOSZLR_e9);
  (7, 1, Some ISOSZLR_e2);
  (11, 2, Some (cQ 1 2));
  (11, 3, Some (cQ (-1) 2));
  (12, 14, Some ISOSZLR_e10);
  (13, 4, Some (cQ 1 2));
  (13, 15, Some ISOSZLR_e11);
  (15, 8, Some ISOSZLR_e12);
  (16, 9, Some (cD (cN 1) (cR (cN 2))))].
(** /repo/c++/symmetry/nrg-recalc-ISOSZLR.hpp recalc_irreduc, isoszlr/isoszlr-2ch-spinup-isodownb.dat *)
Definition isoszlr_2ch_t5 : irr_table := mk_irr 1 0 [ShLin 0%nat 1 (-1); ShLin 1%nat 1 1; ShLin 2%nat 1 0]  [
  (2, 6, Some ISOSZLR_e8);
  (3, 6, Some ISOSZLR_e8);
  (4, 8, Some ISOSZLR_e8);
  (5, 10, Some ISOSZLR_e9);
  (7, 1, Some ISOSZLR_e2);
  (11, 2, Some (cQ 1 2));
  (11, 3, Some (cQ (-1) 2));
  (12, 14, Some ISOSZLR_e10);
  (13, 4, Some (cQ 1 2));
  (13, 15, Some ISOSZLR_e11);
  (15, 8, Some ISOSZLR_e12);
  (16, 9, Some (cD (cN 1) (cR (cN 2))))].
(** /repo/c++/symmetry/nrg-recalc-ISOSZLR.hpp recalc_irreduc, isoszlr/isoszlr-2ch-spindown-isodowna.dat *)
Definition isoszlr_2ch_t6 : irr_table := mk_irr 0 0 [ShLin 0%nat 1 (-1); ShLin 1%nat 1 (-1); ShLin 2%nat 1 0]  [
  (1, 6, Some ISOSZLR_e9);
  (2, 10, Some ISOSZLR_e13);
  (3, 10, Some ISOSZLR_e8);
  (4, 12, Some ISOSZLR_e13);
  (7, 2, Some (cQ 1 2));
  (7, 3, Some (cQ 1 2));
  (8, 14, Some ISOSZLR_e10);
  (9, 4, Some (cQ 1 2));
  (9, 15, Some ISOSZLR_e11);
  (11, 5, Some (cD (cN 1) (cR (cN 2))));
  (15, 12, Some ISOSZLR_e14);
  (16, 13, Some ISOSZLR_e2)].
(** /repo/c++/symmetry/nrg-recalc-ISOSZLR.hpp recalc_irreduc, isoszlr/isoszlr-2ch-spindown-isodownb.dat *)
Definition isoszlr_2ch_t7 : irr_table := mk_irr 1 0 [ShLin 0%nat 1 (-1); ShLin 1%nat 1 (-1); ShLin 2%nat 1 0]  [
  (1, 6, Some ISOSZLR_e9);
  (2, 10, Some ISOSZLR_e13);
  (3, 10, Some ISOSZLR_e8);
  (4, 12, Some ISOSZLR_e13);
  (7, 2, Some (cQ 1 2));
  (7, 3, Some (cQ 1 2));
  (8, 14, Some ISOSZLR_e10);
  (9, 4, Some (cQ 1 2));
  (9, 15, Some ISOSZLR_e11);
  (11, 5, Some (cD (cN 1) (cR (cN 2))));
  (15, 12, Some ISOSZLR_e14);
  (16, 13, Some ISOSZLR_e2)].
(** /repo/c++/symmetry/nrg-recalc-ISOSZLR.hpp recalc_irreduc, isoszlr/isoszlr-2ch-spinup-isoupdiffa.dat *)
Definition isoszlr_2ch_t8 : irr_table := mk_irr 0 0 [ShLin 0%nat 1 1; ShLin 1%nat 1 1; ShLin 2%nat (-1) 0]  [
  (2, 9, Some ISOSZLR_e0);
  (3, 9, Some ISOSZLR_e6);
  (4, 7, Some ISOSZLR_e6);
  (5, 13, Some ISOSZLR_e4);
  (8, 1, Some (cD (cN 1) (cR (cN 2))));
  (10, 4, Some (cQ (-1) 2));
  (10, 15, Some ISOSZLR_e3);
  (11, 16, Some ISOSZLR_e4);
  (12, 2, Some (cQ 1 2));
  (12, 3, Some (cQ 1 2));
  (14, 6, Some (cD (cN 1) (cR (cN 2))));
  (15, 7, Some ISOSZLR_e5)].
(** /repo/c++/symmetry/nrg-recalc-ISOSZLR.hpp recalc_irreduc, isoszlr/isoszlr-2ch-spinup-isoupdiffb.dat *)
Definition isoszlr_2ch_t9 : irr_table := mk_irr 1 0 [ShLin 0%nat 1 1; ShLin 1%nat 1 1; ShLin 2%nat (-1) 0]  [
  (2, 9, Some ISOSZLR_e6);
  (3, 9, Some ISOSZLR_e0);
  (4, 7, Some ISOSZLR_e0);
  (5, 13, Some ISOSZLR_e1);
  (8, 1, Some ISOSZLR_e2);
  (10, 4, Some (cQ 1 2));
  (10, 15, Some ISOSZLR_e15);
  (11, 16, Some ISOSZLR_e1);
  (12, 2, Some (cQ (-1) 2));
  (12, 3, Some (cQ (-1) 2));
  (14, 6, Some ISOSZLR_e2);
  (15, 7, Some ISOSZLR_e7)].
(** /repo/c++/symmetry/nrg-recalc-ISOSZLR.hpp recalc_irreduc, isoszlr/isoszlr-2ch-spindown-isoupdiffa.dat *)
Definition isoszlr_2ch_t10 : irr_table := mk_irr 0 0 [ShLin 0%nat 1 1; ShLin 1%nat 1 (-1); ShLin 2%nat (-1) 0]  [
  (1, 9, Some ISOSZLR_e4);
  (2, 13, Some ISOSZLR_e6);
  (3, 13, Some ISOSZLR_e6);
  (4, 11, Some ISOSZLR_e0);
  (6, 4, Some (cQ (-1) 2));
  (6, 15, Some ISOSZLR_e3);
  (7, 16, Some ISOSZLR_e4);
  (8, 2, Some (cQ 1 2));
  (8, 3, Some (cQ (-1) 2));
  (12, 5, Some ISOSZLR_e2);
  (14, 10, Some ISOSZLR_e2);
  (15, 11, Some ISOSZLR_e7)].
(** /repo/c++/symmetry/nrg-recalc-ISOSZLR.hpp recalc_irreduc, isoszlr/isoszlr-2ch-spindown-isoupdiffb.dat *)
Definition isoszlr_2ch_t11 : irr_table := mk_irr 1 0 [ShLin 0%nat 1 1; ShLin 1%nat 1 (-1); ShLin 2%nat (-1) 0]  [
  (1, 9, Some ISOSZLR_e1);
  (2, 13, Some ISOSZLR_e0);
  (3, 13, Some ISOSZLR_e0);
  (4, 11, Some ISOSZLR_e6);
  (6, 4, Some (cQ 1 2));
  (6, 15, Some ISOSZLR_e15);
  (7, 16, Some ISOSZLR_e1);
  (8, 2, Some (cQ (-1) 2));
  (8, 3, Some (cQ 1 2));
  (12, 5, Some (cD (cN 1) (cR (cN 2))));
  (14, 10, Some (cD (cN 1) (cR (cN 2))));
  (15, 11, Some ISOSZLR_e5)].
(** /repo/c++/symmetry/nrg-recalc-ISOSZLR.hpp recalc_irreduc, isoszlr/isoszlr-2ch-spinup-isodowndiffa.dat *)
Definition isoszlr_2ch_t12 : irr_table := mk_irr 0 0 [ShLin 0%nat 1 (-1); ShLin 1%nat 1 1; ShLin 2%nat (-1) 0]  [
  (2, 8, Some ISOSZLR_e8);
  (3, 8, Some ISOSZLR_e13);
  (4, 6, Some ISOSZLR_e13);
  (5, 12, Some ISOSZLR_e10);
  (9, 1, Some (cD (cN 1) (cR (cN 2))));
  (10, 14, Some ISOSZLR_e10);
  (11, 4, Some (cQ (-1) 2));
  (11, 15, Some ISOSZLR_e11);
  (13, 2, Some (cQ 1 2));
  (13, 3, Some (cQ 1 2));
  (15, 6, Some ISOSZLR_e12);
  (16, 7, Some (cD (cN 1) (cR (cN 2))))].
(** /repo/c++/symmetry/nrg-recalc-ISOSZLR.hpp recalc_irreduc, isoszlr/isoszlr-2ch-spinup-isodowndiffb.dat *)
Definition isoszlr_2ch_t13 : irr_table := mk_irr 1 0 [ShLin 0%nat 1 (-1); ShLin 1%nat 1 1; ShLin 2%nat (-1) 0]  [
  (2, 8, Some ISOSZLR_e13);
  (3, 8, Some ISOSZLR_e8);
  (4, 6, Some ISOSZLR_e8);
  (5, 12, Some ISOSZLR_e9);
  (9, 1, Some ISOSZLR_e2);
  (10, 14, Some ISOSZLR_e9);
  (11, 4, Some (cQ 1 2));
  (11, 15, Some ISOSZLR_e16);
  (13, 2, Some (cQ (-1) 2));
  (13, 3, Some (cQ (-1) 2));
  (15, 6, Some ISOSZLR_e14);
  (16, 7, Some ISOSZLR_e2)].
(** /repo/c++/symmetry/nrg-recalc-ISOSZLR.hpp recalc_irreduc, isoszlr/isoszlr-2ch-spindown-isodowndiffa.dat *)
Definition isoszlr_2ch_t14 : irr_table := mk_irr 0 0 [ShLin 0%nat 1 (-1); ShLin 1%nat 1 (-1); ShLin 2%nat (-1) 0]  [
  (1, 8, Some ISOSZLR_e10);
  (2, 12, Some ISOSZLR_e13);
  (3, 12, Some ISOSZLR_e13);
  (4, 10, Some ISOSZLR_e8);
  (6, 14, Some ISOSZLR_e10);
  (7, 4, Some (cQ (-1) 2));
  (7, 15, Some ISOSZLR_e11);
  (9, 2, Some (cQ 1 2));
  (9, 3, Some (cQ (-1) 2));
  (13, 5, Some ISOSZLR_e2);
  (15, 10, Some ISOSZLR_e14);
  (16, 11, Some ISOSZLR_e2)].
(** /repo/c++/symmetry/nrg-recalc-ISOSZLR.hpp recalc_irreduc, isoszlr/isoszlr-2ch-spindown-isodowndiffb.dat *)
Definition isoszlr_2ch_t15 : irr_table := mk_irr 1 0 [ShLin 0%nat 1 (-1); ShLin 1%nat 1 (-1); ShLin 2%nat (-1) 0]  [
  (1, 8, Some ISOSZLR_e9);
  (2, 12, Some ISOSZLR_e8);
  (3, 12, Some ISOSZLR_e8);
  (4, 10, Some ISOSZLR_e13);
  (6, 14, Some ISOSZLR_e9);
  (7, 4, Some (cQ 1 2));
  (7, 15, Some ISOSZLR_e16);
  (9, 2, Some (cQ (-1) 2));
  (9, 3, Some (cQ 1 2));
  (13, 5, Some (cD (cN 1) (cR (cN 2))));
  (15, 10, Some ISOSZLR_e12);
  (16, 11, Some (cD (cN 1) (cR (cN 2))))].
(** /repo/c++/symmetry/nrg-recalc-ISOSZLR.hpp recalc_doublet, isoszlr/isoszlr-2ch-doubletmp.dat *)
Definition isoszlr_2ch_t16 : ten_table := mk_ten "doublet" [ShLin 0%nat 1 (-1); ShLin 1%nat 1 1; ShLin 2%nat 1 0] [2; (-1); 1] [
  (1, 1, [ShLin 0%nat 1 0; ShLin 1%nat 1 2; ShLin 2%nat (-1) 0], [ShLin 0%nat 1 (-1); ShLin 1%nat 1 3; ShLin 2%nat (-1) 0], Some (cN 1));
  (2, 2, [ShLin 0%nat 1 0; ShLin 1%nat 1 0; ShLin 2%nat (-1) 0], [ShLin 0%nat 1 (-1); ShLin 1%nat 1 1; ShLin 2%nat (-1) 0], Some (cN 1));
  (3, 3, [ShLin 0%nat 1 0; ShLin 1%nat 1 0; ShLin 2%nat (-1) 0], [ShLin 0%nat 1 (-1); ShLin 1%nat 1 1; ShLin 2%nat (-1) 0], Some (cN 1));
  (4, 4, [ShLin 0%nat 1 0; ShLin 1%nat 1 0; ShLin 2%nat 1 0], [ShLin 0%nat 1 (-1); ShLin 1%nat 1 1; ShLin 2%nat 1 0], Some (cN 1));
  (5, 5, [ShLin 0%nat 1 0; ShLin 1%nat 1 (-2); ShLin 2%nat (-1) 0], [ShLin 0%nat 1 (-1); ShLin 1%nat 1 (-1); ShLin 2%nat (-1) 0], Some (cN 1));
  (6, 6, [ShLin 0%nat 1 (-1); ShLin 1%nat 1 1; ShLin 2%nat (-1) 0], [ShLin 0%nat 1 (-2); ShLin 1%nat 1 2; ShLin 2%nat (-1) 0], Some (cN (-1)));
  (6, 7, [ShLin 0%nat 1 (-1); ShLin 1%nat 1 1; ShLin 2%nat (-1) 0], [ShLin 0%nat 1 0; ShLin 1%nat 1 2; ShLin 2%nat (-1) 0], Some ISOSZLR_e17);
  (7, 7, [ShLin 0%nat 1 1; ShLin 1%nat 1 1; ShLin 2%nat (-1) 0], [ShLin 0%nat 1 0; ShLin 1%nat 1 2; ShLin 2%nat (-1) 0], Some ISOSZLR_e18);
  (8, 8, [ShLin 0%nat 1 (-1); ShLin 1%nat 1 1; ShLin 2%nat 1 0], [ShLin 0%nat 1 (-2); ShLin 1%nat 1 2; ShLin 2%nat 1 0], Some (cN (-1)));
  (8, 9, [ShLin 0%nat 1 (-1); ShLin 1%nat 1 1; ShLin 2%nat 1 0], [ShLin 0%nat 1 0; ShLin 1%nat 1 2; ShLin 2%nat 1 0], Some ISOSZLR_e17);
  (9, 9, [ShLin 0%nat 1 1; ShLin 1%nat 1 1; ShLin 2%nat 1 0], [ShLin 0%nat 1 0; ShLin 1%nat 1 2; ShLin 2%nat 1 0], Some ISOSZLR_e18);
  (10, 10, [ShLin 0%nat 1 (-1); ShLin 1%nat 1 (-1); ShLin 2%nat (-1) 0], [ShLin 0%nat 1 (-2); ShLin 1%nat 1 0; ShLin 2%nat (-1) 0], Some (cN (-1)));
  (10, 11, [ShLin 0%nat 1 (-1); ShLin 1%nat 1 (-1); ShLin 2%nat (-1) 0], [ShLin 0%nat 1 0; ShLin 1%nat 1 0; ShLin 2%nat (-1) 0], Some ISOSZLR_e17);
  (11, 11, [ShLin 0%nat 1 1; ShLin 1%nat 1 (-1); ShLin 2%nat (-1) 0], [ShLin 0%nat 1 0; ShLin 1%nat 1 0; ShLin 2%nat (-1) 0], Some ISOSZLR_e18);
  (12, 12, [ShLin 0%nat 1 (-1); ShLin 1%nat 1 (-1); ShLin 2%nat 1 0], [ShLin 0%nat 1 (-2); ShLin 1%nat 1 0; ShLin 2%nat 1 0], Some (cN (-1)));
  (12, 13, [ShLin 0%nat 1 (-1); ShLin 1%nat 1 (-1); ShLin 2%nat 1 0], [ShLin 0%nat 1 0; ShLin 1%nat 1 0; ShLin 2%nat 1 0], Some ISOSZLR_e17);
  (13, 13, [ShLin 0%nat 1 1; ShLin 1%nat 1 (-1); ShLin 2%nat 1 0], [ShLin 0%nat 1 0; ShLin 1%nat 1 0; ShLin 2%nat 1 0], Some ISOSZLR_e18);
  (14, 14, [ShLin 0%nat 1 (-2); ShLin 1%nat 1 0; ShLin 2%nat 1 0], [ShLin 0%nat 1 (-3); ShLin 1%nat 1 1; ShLin 2%nat 1 0], Some (cN 1));
  (14, 15, [ShLin 0%nat 1 (-2); ShLin 1%nat 1 0; ShLin 2%nat 1 0], [ShLin 0%nat 1 (-1); ShLin 1%nat 1 1; ShLin 2%nat 1 0], Some ISOSZLR_e19);
  (15, 15, [ShLin 0%nat 1 0; ShLin 1%nat 1 0; ShLin 2%nat 1 0], [ShLin 0%nat 1 (-1); ShLin 1%nat 1 1; ShLin 2%nat 1 0], Some ISOSZLR_e20);
  (15, 16, [ShLin 0%nat 1 0; ShLin 1%nat 1 0; ShLin 2%nat 1 0], [ShLin 0%nat 1 1; ShLin 1%nat 1 1; ShLin 2%nat 1 0], Some ISOSZLR_e21);
  (16, 16, [ShLin 0%nat 1 2; ShLin 1%nat 1 0; ShLin 2%nat 1 0], [ShLin 0%nat 1 1; ShLin 1%nat 1 1; ShLin 2%nat 1 0], Some ISOSZLR_e22)].
(** /repo/c++/symmetry/nrg-recalc-ISOSZLR.hpp recalc_doublet, isoszlr/isoszlr-2ch-doubletmm.dat *)
Definition isoszlr_2ch_t17 : ten_table := mk_ten "doublet" [ShLin 0%nat 1 (-1); ShLin 1%nat 1 (-1); ShLin 2%nat 1 0] [2; 1; 1] [
  (1, 1, [ShLin 0%nat 1 0; ShLin 1%nat 1 2; ShLin 2%nat (-1) 0], [ShLin 0%nat 1 (-1); ShLin 1%nat 1 1; ShLin 2%nat (-1) 0], Some (cN 1));
  (2, 2, [ShLin 0%nat 1 0; ShLin 1%nat 1 0; ShLin 2%nat (-1) 0], [ShLin 0%nat 1 (-1); ShLin 1%nat 1 (-1); ShLin 2%nat (-1) 0], Some (cN 1));
  (3, 3, [ShLin 0%nat 1 0; ShLin 1%nat 1 0; ShLin 2%nat (-1) 0], [ShLin 0%nat 1 (-1); ShLin 1%nat 1 (-1); ShLin 2%nat (-1) 0], Some (cN 1));
  (4, 4, [ShLin 0%nat 1 0; ShLin 1%nat 1 0; ShLin 2%nat 1 0], [ShLin 0%nat 1 (-1); ShLin 1%nat 1 (-1); ShLin 2%nat 1 0], Some (cN 1));
  (5, 5, [ShLin 0%nat 1 0; ShLin 1%nat 1 (-2); ShLin 2%nat (-1) 0], [ShLin 0%nat 1 (-1); ShLin 1%nat 1 (-3); ShLin 2%nat (-1) 0], Some (cN 1));
  (6, 6, [ShLin 0%nat 1 (-1); ShLin 1%nat 1 1; ShLin 2%nat (-1) 0], [ShLin 0%nat 1 (-2); ShLin 1%nat 1 0; ShLin 2%nat (-1) 0], Some (cN (-1)));
  (6, 7, [ShLin 0%nat 1 (-1); ShLin 1%nat 1 1; ShLin 2%nat (-1) 0], [ShLin 0%nat 1 0; ShLin 1%nat 1 0; ShLin 2%nat (-1) 0], Some ISOSZLR_e17);
  (7, 7, [ShLin 0%nat 1 1; ShLin 1%nat 1 1; ShLin 2%nat (-1) 0], [ShLin 0%nat 1 0; ShLin 1%nat 1 0; ShLin 2%nat (-1) 0], Some ISOSZLR_e18);
  (8, 8, [ShLin 0%nat 1 (-1); ShLin 1%nat 1 1; ShLin 2%nat 1 0], [ShLin 0%nat 1 (-2); ShLin 1%nat 1 0; ShLin 2%nat 1 0], Some (cN (-1)));
  (8, 9, [ShLin 0%nat 1 (-1); ShLin 1%nat 1 1; ShLin 2%nat 1 0], [ShLin 0%nat 1 0; ShLin 1%nat 1 0; ShLin 2%nat 1 0], Some ISOSZLR_e17);
  (9, 9, [ShLin 0%nat 1 1; ShLin 1%nat 1 1; ShLin 2%nat 1 0], [ShLin 0%nat 1 0; ShLin 1%nat 1 0; ShLin 2%nat 1 0], Some ISOSZLR_e18);
  (10, 10, [ShLin 0%nat 1 (-1); ShLin 1%nat 1 (-1); ShLin 2%nat (-1) 0], [ShLin 0%nat 1 (-2); ShLin 1%nat 1 (-2); ShLin 2%nat (-1) 0], Some (cN (-1)));
  (10, 11, [ShLin 0%nat 1 (-1); ShLin 1%nat 1 (-1); ShLin 2%nat (-1) 0], [ShLin 0%nat 1 0; ShLin 1%nat 1 (-2); ShLin 2%nat (-1) 0], Some ISOSZLR_e17);
  (11, 11, [ShLin 0%nat 1 1; ShLin 1%nat 1 (-1); ShLin 2%nat (-1) 0], [ShLin 0%nat 1 0; ShLin 1%nat 1 (-2); ShLin 2%nat (-1) 0], Some ISOSZLR_e18);
  (12, 12, [ShLin 0%nat 1 (-1); ShLin 1%nat 1 (-1); ShLin 2%nat 1 0], [ShLin 0%nat 1 (-2); ShLin 1%nat 1 (-2); ShLin 2%nat 1 0], Some (cN (-1)));
  (12, 13, [ShLin 0%nat 1 (-1); ShLin 1%nat 1 (-1); ShLin 2%nat 1 0], [ShLin 0%nat 1 0; ShLin 1%nat 1 (-2); ShLin 2%nat 1 0], Some ISOSZLR_e17);
  (13, 13, [ShLin 0%nat 1 1; ShLin 1%nat 1 (-1); ShLin 2%nat 1 0], [ShLin 0%nat 1 0; ShLin 1%nat 1 (-2); ShLin 2%nat 1 0], Some ISOSZLR_e18);
  (14, 14, [ShLin 0%nat 1 (-2); ShLin 1%nat 1 0; ShLin 2%nat 1 0], [ShLin 0%nat 1 (-3); ShLin 1%nat 1 (-1); ShLin 2%nat 1 0], Some (cN 1));
  (14, 15, [ShLin 0%nat 1 (-2); ShLin 1%nat 1 0; ShLin 2%nat 1 0], [ShLin 0%nat 1 (-1); ShLin 1%nat 1 (-1); ShLin 2%nat 1 0], Some ISOSZLR_e19);
  (15, 15, [ShLin 0%nat 1 0; ShLin 1%nat 1 0; ShLin 2%nat 1 0], [ShLin 0%nat 1 (-1); ShLin 1%nat 1 (-1); ShLin 2%nat 1 0], Some ISOSZLR_e20);
  (15, 16, [ShLin 0%nat 1 0; ShLin 1%nat 1 0; ShLin 2%nat 1 0], [ShLin 0%nat 1 1; ShLin 1%nat 1 (-1); ShLin 2%nat 1 0], Some ISOSZLR_e21);
  (16, 16, [ShLin 0%nat 1 2; ShLin 1%nat 1 0; ShLin 2%nat 1 0], [ShLin 0%nat 1 1; ShLin 1%nat 1 (-1); ShLin 2%nat 1 0], Some ISOSZLR_e22)].
(** /repo/c++/symmetry/nrg-recalc-ISOSZLR.hpp recalc_doublet, isoszlr/isoszlr-2ch-doubletpp.dat *)
Definition isoszlr_2ch_t18 : ten_table := mk_ten "doublet" [ShLin 0%nat 1 1; ShLin 1%nat 1 1; ShLin 2%nat 1 0] [2; (-1); 1] [
  (1, 1, [ShLin 0%nat 1 0; ShLin 1%nat 1 2; ShLin 2%nat (-1) 0], [ShLin 0%nat 1 1; ShLin 1%nat 1 3; ShLin 2%nat (-1) 0], Some (cN 1));
  (2, 2, [ShLin 0%nat 1 0; ShLin 1%nat 1 0; ShLin 2%nat (-1) 0], [ShLin 0%nat 1 1; ShLin 1%nat 1 1; ShLin 2%nat (-1) 0], Some (cN 1));
  (3, 3, [ShLin 0%nat 1 0; ShLin 1%nat 1 0; ShLin 2%nat (-1) 0], [ShLin 0%nat 1 1; ShLin 1%nat 1 1; ShLin 2%nat (-1) 0], Some (cN 1));
  (4, 4, [ShLin 0%nat 1 0; ShLin 1%nat 1 0; ShLin 2%nat 1 0], [ShLin 0%nat 1 1; ShLin 1%nat 1 1; ShLin 2%nat 1 0], Some (cN 1));
  (5, 5, [ShLin 0%nat 1 0; ShLin 1%nat 1 (-2); ShLin 2%nat (-1) 0], [ShLin 0%nat 1 1; ShLin 1%nat 1 (-1); ShLin 2%nat (-1) 0], Some (cN 1));
  (6, 6, [ShLin 0%nat 1 (-1); ShLin 1%nat 1 1; ShLin 2%nat (-1) 0], [ShLin 0%nat 1 0; ShLin 1%nat 1 2; ShLin 2%nat (-1) 0], Some ISOSZLR_e18);
  (7, 6, [ShLin 0%nat 1 1; ShLin 1%nat 1 1; ShLin 2%nat (-1) 0], [ShLin 0%nat 1 0; ShLin 1%nat 1 2; ShLin 2%nat (-1) 0], Some ISOSZLR_e23);
  (7, 7, [ShLin 0%nat 1 1; ShLin 1%nat 1 1; ShLin 2%nat (-1) 0], [ShLin 0%nat 1 2; ShLin 1%nat 1 2; ShLin 2%nat (-1) 0], Some (cN (-1)));
  (8, 8, [ShLin 0%nat 1 (-1); ShLin 1%nat 1 1; ShLin 2%nat 1 0], [ShLin 0%nat 1 0; ShLin 1%nat 1 2; ShLin 2%nat 1 0], Some ISOSZLR_e18);
  (9, 8, [ShLin 0%nat 1 1; ShLin 1%nat 1 1; ShLin 2%nat 1 0], [ShLin 0%nat 1 0; ShLin 1%nat 1 2; ShLin 2%nat 1 0], Some ISOSZLR_e23);
  (9, 9, [ShLin 0%nat 1 1; ShLin 1%nat 1 1; ShLin 2%nat 1 0], [ShLin 0%nat 1 2; ShLin 1%nat 1 2; ShLin 2%nat 1 0], Some (cN (-1)));
  (10, 10, [ShLin 0%nat 1 (-1); ShLin 1%nat 1 (-1); ShLin 2%nat (-1) 0], [ShLin 0%nat 1 0; ShLin 1%nat 1 0; ShLin 2%nat (-1) 0], Some ISOSZLR_e18);
  (11, 10, [ShLin 0%nat 1 1; ShLin 1%nat 1 (-1); ShLin 2%nat (-1) 0], [ShLin 0%nat 1 0; ShLin 1%nat 1 0; ShLin 2%nat (-1) 0], Some ISOSZLR_e23);
  (11, 11, [ShLin 0%nat 1 1; ShLin 1%nat 1 (-1); ShLin 2%nat (-1) 0], [ShLin 0%nat 1 2; ShLin 1%nat 1 0; ShLin 2%nat (-1) 0], Some (cN (-1)));
  (12, 12, [ShLin 0%nat 1 (-1); ShLin 1%nat 1 (-1); ShLin 2%nat 1 0], [ShLin 0%nat 1 0; ShLin 1%nat 1 0; ShLin 2%nat 1 0], Some ISOSZLR_e18);
  (13, 12, [ShLin 0%nat 1 1; ShLin 1%nat 1 (-1); ShLin 2%nat 1 0], [ShLin 0%nat 1 0; ShLin 1%nat 1 0; ShLin 2%nat 1 0], Some ISOSZLR_e23);
  (13, 13, [ShLin 0%nat 1 1; ShLin 1%nat 1 (-1); ShLin 2%nat 1 0], [ShLin 0%nat 1 2; ShLin 1%nat 1 0; ShLin 2%nat 1 0], Some (cN (-1)));
  (14, 14, [ShLin 0%nat 1 (-2); ShLin 1%nat 1 0; ShLin 2%nat 1 0], [ShLin 0%nat 1 (-1); ShLin 1%nat 1 1; ShLin 2%nat 1 0], Some ISOSZLR_e24);
  (15, 14, [ShLin 0%nat 1 0; ShLin 1%nat 1 0; ShLin 2%nat 1 0], [ShLin 0%nat 1 (-1); ShLin 1%nat 1 1; ShLin 2%nat 1 0], Some ISOSZLR_e25);
  (15, 15, [ShLin 0%nat 1 0; ShLin 1%nat 1 0; ShLin 2%nat 1 0], [ShLin 0%nat 1 1; ShLin 1%nat 1 1; ShLin 2%nat 1 0], Some ISOSZLR_e26);
  (16, 15, [ShLin 0%nat 1 2; ShLin 1%nat 1 0; ShLin 2%nat 1 0], [ShLin 0%nat 1 1; ShLin 1%nat 1 1; ShLin 2%nat 1 0], Some ISOSZLR_e27);
  (16, 16, [ShLin 0%nat 1 2; ShLin 1%nat 1 0; ShLin 2%nat 1 0], [ShLin 0%nat 1 3; ShLin 1%nat 1 1; ShLin 2%nat 1 0], Some (cN 1))].
(** /repo/c++/symmetry/nrg-recalc-ISOSZLR.hpp recalc_doublet, isoszlr/isoszlr-2ch-doubletpm.dat *)
Definition isoszlr_2ch_t19 : ten_table := mk_ten "doublet" [ShLin 0%nat 1 1; ShLin 1%nat 1 (-1); ShLin 2%nat 1 0] [2; 1; 1] [
  (1, 1, [ShLin 0%nat 1 0; ShLin 1%nat 1 2; ShLin 2%nat (-1) 0], [ShLin 0%nat 1 1; ShLin 1%nat 1 1; ShLin 2%nat (-1) 0], Some (cN 1));
  (2, 2, [ShLin 0%nat 1 0; ShLin 1%nat 1 0; ShLin 2%nat (-1) 0], [ShLin 0%nat 1 1; ShLin 1%nat 1 (-1); ShLin 2%nat (-1) 0], Some (cN 1));
  (3, 3, [ShLin 0%nat 1 0; ShLin 1%nat 1 0; ShLin 2%nat (-1) 0], [ShLin 0%nat 1 1; ShLin 1%nat 1 (-1); ShLin 2%nat (-1) 0], Some (cN 1));
  (4, 4, [ShLin 0%nat 1 0; ShLin 1%nat 1 0; ShLin 2%nat 1 0], [ShLin 0%nat 1 1; ShLin 1%nat 1 (-1); ShLin 2%nat 1 0], Some (cN 1));
  (5, 5, [ShLin 0%nat 1 0; ShLin 1%nat 1 (-2); ShLin 2%nat (-1) 0], [ShLin 0%nat 1 1; ShLin 1%nat 1 (-3); ShLin 2%nat (-1) 0], Some (cN 1));
  (6, 6, [ShLin 0%nat 1 (-1); ShLin 1%nat 1 1; ShLin 2%nat (-1) 0], [ShLin 0%nat 1 0; ShLin 1%nat 1 0; ShLin 2%nat (-1) 0], Some ISOSZLR_e18);
  (7, 6, [ShLin 0%nat 1 1; ShLin 1%nat 1 1; ShLin 2%nat (-1) 0], [ShLin 0%nat 1 0; ShLin 1%nat 1 0; ShLin 2%nat (-1) 0], Some ISOSZLR_e23);
  (7, 7, [ShLin 0%nat 1 1; ShLin 1%nat 1 1; ShLin 2%nat (-1) 0], [ShLin 0%nat 1 2; ShLin 1%nat 1 0; ShLin 2%nat (-1) 0], Some (cN (-1)));
  (8, 8, [ShLin 0%nat 1 (-1); ShLin 1%nat 1 1; ShLin 2%nat 1 0], [ShLin 0%nat 1 0; ShLin 1%nat 1 0; ShLin 2%nat 1 0], Some ISOSZLR_e18);
  (9, 8, [ShLin 0%nat 1 1; ShLin 1%nat 1 1; ShLin 2%nat 1 0], [ShLin 0%nat 1 0; ShLin 1%nat 1 0; ShLin 2%nat 1 0], Some ISOSZLR_e23);
  (9, 9, [ShLin 0%nat 1 1; ShLin 1%nat 1 1; ShLin 2%nat 1 0], [ShLin 0%nat 1 2; ShLin 1%nat 1 0; ShLin 2%nat 1 0], Some (cN (-1)));
  (10, 10, [ShLin 0%nat 1 (-1); ShLin 1%nat 1 (-1); ShLin 2%nat (-1) 0], [ShLin 0%nat 1 0; ShLin 1%nat 1 (-2); ShLin 2%nat (-1) 0], Some ISOSZLR_e18);
  (11, 10, [ShLin 0%nat 1 1; ShLin 1%nat 1 (-1); ShLin 2%nat (-1) 0], [ShLin 0%nat 1 0; ShLin 1%nat 1 (-2); ShLin 2%nat (-1) 0], Some ISOSZLR_e23);
  (11, 11, [ShLin 0%nat 1 1; ShLin 1%nat 1 (-1); ShLin 2%nat (-1) 0], [ShLin 0%nat 1 2; ShLin 1%nat 1 (-2); ShLin 2%nat (-1) 0], Some (cN (-1)));
  (12, 12, [ShLin 0%nat 1 (-1); ShLin 1%nat 1 (-1); ShLin 2%nat 1 0], [ShLin 0%nat 1 0; ShLin 1%nat 1 (-2); ShLin 2%nat 1 0], Some ISOSZLR_e18);
  (13, 12, [ShLin 0%nat 1 1; ShLin 1%nat 1 (-1); ShLin 2%nat 1 0], [ShLin 0%nat 1 0; ShLin 1%nat 1 (-2); ShLin 2%nat 1 0], Some ISOSZLR_e23);
  (13, 13, [ShLin 0%nat 1 1; ShLin 1%nat 1 (-1); ShLin 2%nat 1 0], [ShLin 0%nat 1 2; ShLin 1%nat 1 (-2); ShLin 2%nat 1 0], Some (cN (-1)));
  (14, 14, [ShLin 0%nat 1 (-2); ShLin 1%nat 1 0; ShLin 2%nat 1 0], [ShLin 0%nat 1 (-1); ShLin 1%nat 1 (-1); ShLin 2%nat 1 0], Some ISOSZLR_e24);
  (15, 14, [ShLin 0%nat 1 0; ShLin 1%nat 1 0; ShLin 2%nat 1 0], [ShLin 0%nat 1 (-1); ShLin 1%nat 1 (-1); ShLin 2%nat 1 0], Some ISOSZLR_e25);
  (15, 15, [ShLin 0%nat 1 0; ShLin 1%nat 1 0; ShLin 2%nat 1 0], [ShLin 0%nat 1 1; ShLin 1%nat 1 (-1); ShLin 2%nat 1 0], Some ISOSZLR_e26);
  (16, 15, [ShLin 0%nat 1 2; ShLin 1%nat 1 0; ShLin 2%nat 1 0], [ShLin 0%nat 1 1; ShLin 1%nat 1 (-1); ShLin 2%nat 1 0], Some ISOSZLR_e27);
  (16, 16, [ShLin 0%nat 1 2; ShLin 1%nat 1 0; ShLin 2%nat 1 0], [ShLin 0%nat 1 3; ShLin 1%nat 1 (-1); ShLin 2%nat 1 0], Some (cN 1))].
(** /repo/c++/symmetry/nrg-recalc-ISOSZLR.hpp recalc_triplet, isoszlr/isoszlr-2ch-triplets.dat *)
Definition isoszlr_2ch_t20 : ten_table := mk_ten "triplet" [ShLin 0%nat 1 0; ShLin 1%nat 1 0; ShLin 2%nat 1 0] [1; 0; 1] [
  (1, 1, [ShLin 0%nat 1 0; ShLin 1%nat 1 2; ShLin 2%nat (-1) 0], [ShLin 0%nat 1 0; ShLin 1%nat 1 2; ShLin 2%nat (-1) 0], Some (cN 1));
  (2, 2, [ShLin 0%nat 1 0; ShLin 1%nat 1 0; ShLin 2%nat (-1) 0], [ShLin 0%nat 1 0; ShLin 1%nat 1 0; ShLin 2%nat (-1) 0], Some (cN 1));
  (3, 3, [ShLin 0%nat 1 0; ShLin 1%nat 1 0; ShLin 2%nat (-1) 0], [ShLin 0%nat 1 0; ShLin 1%nat 1 0; ShLin 2%nat (-1) 0], Some (cN 1));
  (4, 4, [ShLin 0%nat 1 0; ShLin 1%nat 1 0; ShLin 2%nat 1 0], [ShLin 0%nat 1 0; ShLin 1%nat 1 0; ShLin 2%nat 1 0], Some (cN 1));
  (5, 5, [ShLin 0%nat 1 0; ShLin 1%nat 1 (-2); ShLin 2%nat (-1) 0], [ShLin 0%nat 1 0; ShLin 1%nat 1 (-2); ShLin 2%nat (-1) 0], Some (cN 1));
  (6, 6, [ShLin 0%nat 1 (-1); ShLin 1%nat 1 1; ShLin 2%nat (-1) 0], [ShLin 0%nat 1 (-1); ShLin 1%nat 1 1; ShLin 2%nat (-1) 0], Some (cN 1));
  (7, 7, [ShLin 0%nat 1 1; ShLin 1%nat 1 1; ShLin 2%nat (-1) 0], [ShLin 0%nat 1 1; ShLin 1%nat 1 1; ShLin 2%nat (-1) 0], Some (cN 1));
  (8, 8, [ShLin 0%nat 1 (-1); ShLin 1%nat 1 1; ShLin 2%nat 1 0], [ShLin 0%nat 1 (-1); ShLin 1%nat 1 1; ShLin 2%nat 1 0], Some (cN 1));
  (9, 9, [ShLin 0%nat 1 1; ShLin 1%nat 1 1; ShLin 2%nat 1 0], [ShLin 0%nat 1 1; ShLin 1%nat 1 1; ShLin 2%nat 1 0], Some (cN 1));
  (10, 10, [ShLin 0%nat 1 (-1); ShLin 1%nat 1 (-1); ShLin 2%nat (-1) 0], [ShLin 0%nat 1 (-1); ShLin 1%nat 1 (-1); ShLin 2%nat (-1) 0], Some (cN 1));
  (11, 11, [ShLin 0%nat 1 1; ShLin 1%nat 1 (-1); ShLin 2%nat (-1) 0], [ShLin 0%nat 1 1; ShLin 1%nat 1 (-1); ShLin 2%nat (-1) 0], Some (cN 1));
  (12, 12, [ShLin 0%nat 1 (-1); ShLin 1%nat 1 (-1); ShLin 2%nat 1 0], [ShLin 0%nat 1 (-1); ShLin 1%nat 1 (-1); ShLin 2%nat 1 0], Some (cN 1));
  (13, 13, [ShLin 0%nat 1 1; ShLin 1%nat 1 (-1); ShLin 2%nat 1 0], [ShLin 0%nat 1 1; ShLin 1%nat 1 (-1); ShLin 2%nat 1 0], Some (cN 1));
  (14, 14, [ShLin 0%nat 1 (-2); ShLin 1%nat 1 0; ShLin 2%nat 1 0], [ShLin 0%nat 1 (-2); ShLin 1%nat 1 0; ShLin 2%nat 1 0], Some (cN 1));
  (15, 15, [ShLin 0%nat 1 0; ShLin 1%nat 1 0; ShLin 2%nat 1 0], [ShLin 0%nat 1 0; ShLin 1%nat 1 0; ShLin 2%nat 1 0], Some (cN 1));
  (16, 16, [ShLin 0%nat 1 2; ShLin 1%nat 1 0; ShLin 2%nat 1 0], [ShLin 0%nat 1 2; ShLin 1%nat 1 0; ShLin 2%nat 1 0], Some (cN 1))].
(** /repo/c++/symmetry/nrg-recalc-ISOSZLR.hpp recalc_triplet, isoszlr/isoszlr-2ch-tripletp.dat *)
Definition isoszlr_2ch_t21 : ten_table := mk_ten "triplet" [ShLin 0%nat 1 0; ShLin 1%nat 1 2; ShLin 2%nat 1 0] [1; (-2); 1] [
  (1, 1, [ShLin 0%nat 1 0; ShLin 1%nat 1 2; ShLin 2%nat (-1) 0], [ShLin 0%nat 1 0; ShLin 1%nat 1 4; ShLin 2%nat (-1) 0], Some (cN 1));
  (2, 2, [ShLin 0%nat 1 0; ShLin 1%nat 1 0; ShLin 2%nat (-1) 0], [ShLin 0%nat 1 0; ShLin 1%nat 1 2; ShLin 2%nat (-1) 0], Some (cN 1));
  (3, 3, [ShLin 0%nat 1 0; ShLin 1%nat 1 0; ShLin 2%nat (-1) 0], [ShLin 0%nat 1 0; ShLin 1%nat 1 2; ShLin 2%nat (-1) 0], Some (cN 1));
  (4, 4, [ShLin 0%nat 1 0; ShLin 1%nat 1 0; ShLin 2%nat 1 0], [ShLin 0%nat 1 0; ShLin 1%nat 1 2; ShLin 2%nat 1 0], Some (cN 1));
  (5, 5, [ShLin 0%nat 1 0; ShLin 1%nat 1 (-2); ShLin 2%nat (-1) 0], [ShLin 0%nat 1 0; ShLin 1%nat 1 0; ShLin 2%nat (-1) 0], Some (cN 1));
  (6, 6, [ShLin 0%nat 1 (-1); ShLin 1%nat 1 1; ShLin 2%nat (-1) 0], [ShLin 0%nat 1 (-1); ShLin 1%nat 1 3; ShLin 2%nat (-1) 0], Some (cN 1));
  (7, 7, [ShLin 0%nat 1 1; ShLin 1%nat 1 1; ShLin 2%nat (-1) 0], [ShLin 0%nat 1 1; ShLin 1%nat 1 3; ShLin 2%nat (-1) 0], Some (cN 1));
  (8, 8, [ShLin 0%nat 1 (-1); ShLin 1%nat 1 1; ShLin 2%nat 1 0], [ShLin 0%nat 1 (-1); ShLin 1%nat 1 3; ShLin 2%nat 1 0], Some (cN 1));
  (9, 9, [ShLin 0%nat 1 1; ShLin 1%nat 1 1; ShLin 2%nat 1 0], [ShLin 0%nat 1 1; ShLin 1%nat 1 3; ShLin 2%nat 1 0], Some (cN 1));
  (10, 10, [ShLin 0%nat 1 (-1); ShLin 1%nat 1 (-1); ShLin 2%nat (-1) 0], [ShLin 0%nat 1 (-1); ShLin 1%nat 1 1; ShLin 2%nat (-1) 0], Some (cN 1));
  (11, 11, [ShLin 0%nat 1 1; ShLin 1%nat 1 (-1); ShLin 2%nat (-1) 0], [ShLin 0%nat 1 1; ShLin 1%nat 1 1; ShLin 2%nat (-1) 0], Some (cN 1));
  (12, 12, [ShLin 0%nat 1 (-1); ShLin 1%nat 1 (-1); ShLin 2%nat 1 0], [ShLin 0%nat 1 (-1); ShLin 1%nat 1 1; ShLin 2%nat 1 0], Some (cN 1));
  (13, 13, [ShLin 0%nat 1 1; ShLin 1%nat 1 (-1); ShLin 2%nat 1 0], [ShLin 0%nat 1 1; ShLin 1%nat 1 1; ShLin 2%nat 1 0], Some (cN 1));
  (14, 14, [ShLin 0%nat 1 (-2); ShLin 1%nat 1 0; ShLin 2%nat 1 0], [ShLin 0%nat 1 (-2); ShLin 1%nat 1 2; ShLin 2%nat 1 0], Some (cN 1));
  (15, 15, [ShLin 0%nat 1 0; ShLin 1%nat 1 0; ShLin 2%nat 1 0], [ShLin 0%nat 1 0; ShLin 1%nat 1 2; ShLin 2%nat 1 0], Some (cN 1));
  (16, 16, [ShLin 0%nat 1 2; ShLin 1%nat 1 0; ShLin 2%nat 1 0], [ShLin 0%nat 1 2; ShLin 1%nat 1 2; ShLin 2%nat 1 0], Some (cN 1))].
(** /repo/c++/symmetry/nrg-recalc-ISOSZLR.hpp recalc_triplet, isoszlr/isoszlr-2ch-tripletm.dat *)
Definition isoszlr_2ch_t22 : ten_table := mk_ten "triplet" [ShLin 0%nat 1 0; ShLin 1%nat 1 (-2); ShLin 2%nat 1 0] [1; 2; 1] [
  (1, 1, [ShLin 0%nat 1 0; ShLin 1%nat 1 2; ShLin 2%nat (-1) 0], [ShLin 0%nat 1 0; ShLin 1%nat 1 0; ShLin 2%nat (-1) 0], Some (cN 1));
  (2, 2, [ShLin 0%nat 1 0; ShLin 1%nat 1 0; ShLin 2%nat (-1) 0], [ShLin 0%nat 1 0; ShLin 1%nat 1 (-2); ShLin 2%nat (-1) 0], Some (cN 1));
  (3, 3, [ShLin 0%nat 1 0; ShLin 1%nat 1 0; ShLin 2%nat (-1) 0], [ShLin 0%nat 1 0; ShLin 1%nat 1 (-2); ShLin 2%nat (-1) 0], Some (cN 1));
  (4, 4, [ShLin 0%nat 1 0; ShLin 1%nat 1 0; ShLin 2%nat 1 0], [ShLin 0%nat 1 0; ShLin 1%nat 1 (-2); ShLin 2%nat 1 0], Some (cN 1));
  (5, 5, [ShLin 0%nat 1 0; ShLin 1%nat 1 (-2); ShLin 2%nat (-1) 0], [ShLin 0%nat 1 0; ShLin 1%nat 1 (-4); ShLin 2%nat (-1) 0], Some (cN 1));
  (6, 6, [ShLin 0%nat 1 (-1); ShLin 1%nat 1 1; ShLin 2%nat (-1) 0], [ShLin 0%nat 1 (-1); ShLin 1%nat 1 (-1); ShLin 2%nat (-1) 0], Some (cN 1));
  (7, 7, [ShLin 0%nat 1 1; ShLin 1%nat 1 1; ShLin 2%nat (-1) 0], [ShLin 0%nat 1 1; ShLin 1%nat 1 (-1); ShLin 2%nat (-1) 0], Some (cN 1));
  (8, 8, [ShLin 0%nat 1 (-1); ShLin 1%nat 1 1; ShLin 2%nat 1 0], [ShLin 0%nat 1 (-1); ShLin 1%nat 1 (-1); ShLin 2%nat 1 0], Some (cN 1));
  (9, 9, [ShLin 0%nat 1 1; ShLin 1%nat 1 1; ShLin 2%nat 1 0], [ShLin 0%nat 1 1; ShLin 1%nat 1 (-1); ShLin 2%nat 1 0], Some (cN 1));
  (10, 10, [ShLin 0%nat 1 (-1); ShLin 1%nat 1 (-1); ShLin 2%nat (-1) 0], [ShLin 0%nat 1 (-1); ShLin 1%nat 1 (-3); ShLin 2%nat (-1) 0], Some (cN 1));
  (11, 11, [ShLin 0%nat 1 1; ShLin 1%nat 1 (-1); ShLin 2%nat (-1) 0], [ShLin 0%nat 1 1; ShLin 1%nat 1 (-3); ShLin 2%nat (-1) 0], Some (cN 1));
  (12, 12, [ShLin 0%nat 1 (-1); ShLin 1%nat 1 (-1); ShLin 2%nat 1 0], [ShLin 0%nat 1 (-1); ShLin 1%nat 1 (-3); ShLin 2%nat 1 0], Some (cN 1));
  (13, 13, [ShLin 0%nat 1 1; ShLin 1%nat 1 (-1); ShLin 2%nat 1 0], [ShLin 0%nat 1 1; ShLin 1%nat 1 (-3); ShLin 2%nat 1 0], Some (cN 1));
  (14, 14, [ShLin 0%nat 1 (-2); ShLin 1%nat 1 0; ShLin 2%nat 1 0], [ShLin 0%nat 1 (-2); ShLin 1%nat 1 (-2); ShLin 2%nat 1 0], Some (cN 1));
  (15, 15, [ShLin 0%nat 1 0; ShLin 1%nat 1 0; ShLin 2%nat 1 0], [ShLin 0%nat 1 0; ShLin 1%nat 1 (-2); ShLin 2%nat 1 0], Some (cN 1));
  (16, 16, [ShLin 0%nat 1 2; ShLin 1%nat 1 0; ShLin 2%nat 1 0], [ShLin 0%nat 1 2; ShLin 1%nat 1 (-2); ShLin 2%nat 1 0], Some (cN 1))].
(** /repo/c++/symmetry/sym-ISOSZLR-impl.hpp, make_matrix  *)
Definition isoszlr_2ch_m0_o : list off_line := [
  (1, 6, 0, 0, "xi", Some ISOSZLR_e2);
  (1, 7, 0, 0, "xi", Some ISOSZLR_e2);
  (1, 8, 0, 0, "xi", Some (cD (cN 1) (cR (cN 2))));
  (1, 9, 0, 0, "xi", Some (cD (cN 1) (cR (cN 2))));
  (2, 6, 0, 0, "xi", Some (cQ 1 2));
  (2, 7, 0, 0, "xi", Some (cQ 1 2));
  (2, 8, 0, 0, "xi", Some (cQ 1 2));
  (2, 9, 0, 0, "xi", Some (cQ 1 2));
  (2, 10, 0, 0, "xi", Some (cQ 1 2));
  (2, 11, 0, 0, "xi", Some (cQ 1 2));
  (2, 12, 0, 0, "xi", Some (cQ 1 2));
  (2, 13, 0, 0, "xi", Some (cQ 1 2));
  (3, 6, 0, 0, "xi", Some (cQ 1 2));
  (3, 7, 0, 0, "xi", Some (cQ 1 2));
  (3, 8, 0, 0, "xi", Some (cQ (-1) 2));
  (3, 9, 0, 0, "xi", Some (cQ (-1) 2));
  (3, 10, 0, 0, "xi", Some (cQ (-1) 2));
  (3, 11, 0, 0, "xi", Some (cQ (-1) 2));
  (3, 12, 0, 0, "xi", Some (cQ 1 2));
  (3, 13, 0, 0, "xi", Some (cQ 1 2));
  (4, 6, 0, 0, "xi", Some (cQ (-1) 2));
  (4, 7, 0, 0, "xi", Some (cQ (-1) 2));
  (4, 8, 0, 0, "xi", Some (cQ 1 2));
  (4, 9, 0, 0, "xi", Some (cQ 1 2));
  (4, 10, 0, 0, "xi", Some (cQ (-1) 2));
  (4, 11, 0, 0, "xi", Some (cQ (-1) 2));
  (4, 12, 0, 0, "xi", Some (cQ 1 2));
  (4, 13, 0, 0, "xi", Some (cQ 1 2));
  (5, 10, 0, 0, "xi", Some (cD (cN 1) (cR (cN 2))));
  (5, 11, 0, 0, "xi", Some (cD (cN 1) (cR (cN 2))));
  (5, 12, 0, 0, "xi", Some ISOSZLR_e2);
  (5, 13, 0, 0, "xi", Some ISOSZLR_e2);
  (6, 14, 0, 0, "xi", Some ISOSZLR_e2);
  (6, 15, 0, 0, "xi", Some ISOSZLR_e28);
  (7, 15, 0, 0, "xi", Some ISOSZLR_e29);
  (7, 16, 0, 0, "xi", Some ISOSZLR_e2);
  (8, 14, 0, 0, "xi", Some ISOSZLR_e2);
  (8, 15, 0, 0, "xi", Some ISOSZLR_e28);
  (9, 15, 0, 0, "xi", Some ISOSZLR_e29);
  (9, 16, 0, 0, "xi", Some ISOSZLR_e2);
  (10, 14, 0, 0, "xi", Some (cD (cN 1) (cR (cN 2))));
  (10, 15, 0, 0, "xi", Some ISOSZLR_e30);
  (11, 15, 0, 0, "xi", Some ISOSZLR_e31);
  (11, 16, 0, 0, "xi", Some (cD (cN 1) (cR (cN 2))));
  (12, 14, 0, 0, "xi", Some (cD (cN 1) (cR (cN 2))));
  (12, 15, 0, 0, "xi", Some ISOSZLR_e30);
  (13, 15, 0, 0, "xi", Some ISOSZLR_e31);
  (13, 16, 0, 0, "xi", Some (cD (cN 1) (cR (cN 2))));
  (1, 6, 1, 0, "xi", Some ISOSZLR_e2);
  (1, 7, 1, 0, "xi", Some ISOSZLR_e2);
  (1, 8, 1, 0, "xi", Some ISOSZLR_e2);
  (1, 9, 1, 0, "xi", Some ISOSZLR_e2);
  (2, 6, 1, 0, "xi", Some (cQ 1 2));
  (2, 7, 1, 0, "xi", Some (cQ 1 2));
  (2, 8, 1, 0, "xi", Some (cQ (-1) 2));
  (2, 9, 1, 0, "xi", Some (cQ (-1) 2));
  (2, 10, 1, 0, "xi", Some (cQ 1 2));
  (2, 11, 1, 0, "xi", Some (cQ 1 2));
  (2, 12, 1, 0, "xi", Some (cQ (-1) 2));
  (2, 13, 1, 0, "xi", Some (cQ (-1) 2));
  (3, 6, 1, 0, "xi", Some (cQ 1 2));
  (3, 7, 1, 0, "xi", Some (cQ 1 2));
  (3, 8, 1, 0, "xi", Some (cQ 1 2));
  (3, 9, 1, 0, "xi", Some (cQ 1 2));
  (3, 10, 1, 0, "xi", Some (cQ (-1) 2));
  (3, 11, 1, 0, "xi", Some (cQ (-1) 2));
  (3, 12, 1, 0, "xi", Some (cQ (-1) 2));
  (3, 13, 1, 0, "xi", Some (cQ (-1) 2));
  (4, 6, 1, 0, "xi", Some (cQ 1 2));
  (4, 7, 1, 0, "xi", Some (cQ 1 2));
  (4, 8, 1, 0, "xi", Some (cQ 1 2));
  (4, 9, 1, 0, "xi", Some (cQ 1 2));
  (4, 10, 1, 0, "xi", Some (cQ 1 2));
  (4, 11, 1, 0, "xi", Some (cQ 1 2));
  (4, 12, 1, 0, "xi", Some (cQ 1 2));
  (4, 13, 1, 0, "xi", Some (cQ 1 2));
  (5, 10, 1, 0, "xi", Some (cD (cN 1) (cR (cN 2))));
  (5, 11, 1, 0, "xi", Some (cD (cN 1) (cR (cN 2))));
  (5, 12, 1, 0, "xi", Some (cD (cN 1) (cR (cN 2))));
  (5, 13, 1, 0, "xi", Some (cD (cN 1) (cR (cN 2))));
  (6, 14, 1, 0, "xi", Some (cD (cN 1) (cR (cN 2))));
  (6, 15, 1, 0, "xi", Some ISOSZLR_e30);
  (7, 15, 1, 0, "xi", Some ISOSZLR_e31);
  (7, 16, 1, 0, "xi", Some (cD (cN 1) (cR (cN 2))));
  (8, 14, 1, 0, "xi", Some ISOSZLR_e2);
  (8, 15, 1, 0, "xi", Some ISOSZLR_e28);
  (9, 15, 1, 0, "xi", Some ISOSZLR_e29);
  (9, 16, 1, 0, "xi", Some ISOSZLR_e2);
  (10, 14, 1, 0, "xi", Some ISOSZLR_e2);
  (10, 15, 1, 0, "xi", Some ISOSZLR_e28);
  (11, 15, 1, 0, "xi", Some ISOSZLR_e29);
  (11, 16, 1, 0, "xi", Some ISOSZLR_e2);
  (12, 14, 1, 0, "xi", Some (cD (cN 1) (cR (cN 2))));
  (12, 15, 1, 0, "xi", Some ISOSZLR_e30);
  (13, 15, 1, 0, "xi", Some ISOSZLR_e31);
  (13, 16, 1, 0, "xi", Some (cD (cN 1) (cR (cN 2))))].
(** /repo/c++/symmetry/sym-ISOSZLR-impl.hpp, make_matrix  *)
Definition isoszlr_2ch_m0_d : list diag_line := [
  ].
(** /repo/c++/symmetry/sym-ISOSZLR-impl.hpp, make_matrix  *)
Definition isoszlr_2ch_m0_f : list dof_line := [
  ].
Definition coef_isoszlr_2ch : coef_set := mk_coef "ISOSZLR" 2%nat sym_ISOSZLR {| tb_In := isoszlr_2ch_In; tb_QN := isoszlr_2ch_QN |}
  [isoszlr_2ch_t0; isoszlr_2ch_t1; isoszlr_2ch_t2; isoszlr_2ch_t3; isoszlr_2ch_t4; isoszlr_2ch_t5; isoszlr_2ch_t6; isoszlr_2ch_t7; isoszlr_2ch_t8; isoszlr_2ch_t9; isoszlr_2ch_t10; isoszlr_2ch_t11; isoszlr_2ch_t12; isoszlr_2ch_t13; isoszlr_2ch_t14; isoszlr_2ch_t15]
  [isoszlr_2ch_t16; isoszlr_2ch_t17; isoszlr_2ch_t18; isoszlr_2ch_t19; isoszlr_2ch_t20; isoszlr_2ch_t21; isoszlr_2ch_t22]
  [mk_mode "default" isoszlr_2ch_m0_o isoszlr_2ch_m0_d isoszlr_2ch_m0_f].
