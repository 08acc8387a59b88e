(** Generated by gen/gen_coef.py from /repo/c++/symmetry/{sym-QSLR-impl.hpp, nrg-recalc-QSLR.hpp, coefnew}. Do not edit. *)
From Coq Require Import List ZArith String.
From Verif Require Import Base Invar_model Symmetry_model Symmetry_tables Coef_model.
Import ListNotations.
Local Open Scope string_scope.
Local Open Scope list_scope.
Local Open Scope Z_scope.

Definition QSLR_e0 := (cD (cM (cQ (-1) 2) (cN 1)) (cR (cA (cN 1) (cD (cN 1) (cA (cN 1) (cM (cN 2) (cH 1))))))).
Definition QSLR_e1 := (cO (cD (cN 1) (cR (cN 2)))).
Definition QSLR_e2 := (cD (cM (cQ (-1) 2) (cA (cN 3) (cM (cN 2) (cH 1)))) (cR (cA (cA (cN 6) (cM (cN 10) (cH 1))) (cM (cN 4) (cW (cH 1) 4))))).
Definition QSLR_e3 := (cD (cM (cQ (-1) 2) (cH 1)) (cR (cM (cH 1) (cA (cN 1) (cH 1))))).
Definition QSLR_e4 := (cM (cQ (-1) 2) (cR (cB (cN 2) (cD (cN 1) (cA (cN 1) (cH 1)))))).
Definition QSLR_e5 := (cD (cR (cA (cN 1) (cD (cN 1) (cM (cN 2) (cH 1))))) (cN 2)).
Definition QSLR_e6 := (cM (cQ (-1) 2) (cR (cB (cN 1) (cD (cN 1) (cM (cN 2) (cH 1)))))).
Definition QSLR_e7 := (cD (cR (cA (cN 2) (cD (cN 1) (cH 1)))) (cN 2)).
Definition QSLR_e8 := (cD (cR (cA (cN 1) (cD (cN 1) (cH 1)))) (cN 2)).
Definition QSLR_e9 := (cD (cN 1) (cM (cN 2) (cR (cA (cN 1) (cD (cN 1) (cA (cN 1) (cM (cN 2) (cH 1)))))))).
Definition QSLR_e10 := (cD (cH 1) (cM (cN 2) (cR (cM (cH 1) (cA (cN 1) (cH 1)))))).
Definition QSLR_e11 := (cD (cR (cB (cN 2) (cD (cN 1) (cA (cN 1) (cH 1))))) (cN 2)).
Definition QSLR_e12 := (cD (cA (cN 3) (cM (cN 2) (cH 1))) (cM (cN 2) (cR (cA (cA (cN 6) (cM (cN 10) (cH 1))) (cM (cN 4) (cW (cH 1) 4)))))).
Definition QSLR_e13 := (cD (cM (cQ (-1) 2) (cR (cA (cN 2) (cD (cN 1) (cH 1))))) (cR (cN 2))).
Definition QSLR_e14 := (cM (cQ (-1) 2) (cR (cA (cN 2) (cD (cN 1) (cH 1))))).
Definition QSLR_e15 := (cM (cQ (-1) 2) (cR (cA (cN 1) (cD (cN 1) (cH 1))))).
Definition QSLR_e16 := (cD (cR (cB (cN 1) (cD (cN 1) (cM (cN 2) (cH 1))))) (cN 2)).
Definition QSLR_e17 := (cD (cM (cN (-2)) (cR (cM (cH 1) (cA (cN 1) (cH 1))))) (cA (cN 1) (cM (cN 2) (cH 1)))).
Definition QSLR_e18 := (cD (cN 1) (cA (cN 1) (cM (cN 2) (cH 1)))).
Definition QSLR_e19 := (cD (cN 1) (cR (cD (cM (cH 1) (cA (cN 1) (cM (cN 2) (cH 1)))) (cA (cA (cN (-1)) (cH 1)) (cM (cN 2) (cW (cH 1) 4)))))).
Definition QSLR_e20 := (cO (cD (cN 1) (cR (cM (cH 1) (cA (cN 1) (cM (cN 2) (cH 1))))))).
Definition QSLR_e21 := (cD (cM (cH 1) (cA (cN 3) (cM (cN 2) (cH 1)))) (cR (cM (cM (cH 1) (cA (cN 1) (cH 1))) (cA (cN 3) (cM (cM (cN 4) (cH 1)) (cA (cN 2) (cH 1))))))).
Definition QSLR_e22 := (cO (cD (cN 1) (cR (cM (cA (cN 1) (cH 1)) (cA (cN 1) (cM (cN 2) (cH 1))))))).
Definition QSLR_e23 := (cD (cN 1) (cB (cN (-1)) (cM (cN 2) (cH 1)))).
Definition QSLR_e24 := (cD (cN 1) (cR (cM (cH 1) (cA (cN 1) (cM (cN 2) (cH 1)))))).
Definition QSLR_e25 := (cD (cA (cA (cN (-1)) (cH 1)) (cM (cN 2) (cW (cH 1) 4))) (cR (cM (cM (cH 1) (cA (cN 1) (cH 1))) (cA (cN (-1)) (cM (cN 4) (cW (cH 1) 4)))))).
Definition QSLR_e26 := (cD (cN 1) (cR (cM (cA (cN 1) (cH 1)) (cA (cN 1) (cM (cN 2) (cH 1)))))).
Definition QSLR_e27 := (cA (cA (cR (cD (cM (cH 1) (cA (cN 1) (cM (cN 2) (cH 1)))) (cM (cW (cA (cN 1) (cH 1)) 6) (cA (cN 3) (cM (cN 2) (cH 1)))))) (cR (cD (cH 1) (cM (cW (cA (cN 1) (cH 1)) 6) (cA (cN 3) (cM (cM (cN 4) (cH 1)) (cA (cN 2) (cH 1)))))))) (cR (cB (cA (cN 1) (cD (cN 1) (cA (cN 1) (cH 1)))) (cD (cN 6) (cA (cN 3) (cM (cN 2) (cH 1))))))).
Definition QSLR_e28 := (cD (cA (cN 3) (cM (cN 2) (cH 1))) (cR (cD (cM (cA (cN 1) (cH 1)) (cA (cN 3) (cM (cM (cN 4) (cH 1)) (cA (cN 2) (cH 1))))) (cH 1)))).
Definition QSLR_e29 := (cD (cR (cA (cN (-1)) (cW (cH 1) 4))) (cH 1)).
Definition QSLR_e30 := (cD (cR (cB (cN 1) (cD (cN 2) (cA (cN 1) (cM (cN 2) (cH 1)))))) (cH 1)).
Definition QSLR_e31 := (cA (cB (cN 1) (cD (cN 1) (cH 1))) (cD (cN 1) (cA (cN 1) (cH 1)))).
Definition QSLR_e32 := (cD (cN 1) (cA (cN 1) (cH 1))).
Definition QSLR_e33 := (cO (cD (cA (cN 3) (cM (cN 2) (cH 1))) (cM (cA (cN 1) (cH 1)) (cR (cA (cN 3) (cM (cM (cN 4) (cH 1)) (cA (cN 2) (cH 1)))))))).
Definition QSLR_e34 := (cD (cR (cM (cH 1) (cA (cN 2) (cH 1)))) (cA (cN 1) (cH 1))).
Definition QSLR_e35 := (cD (cR (cD (cM (cM (cH 1) (cA (cN 1) (cH 1))) (cA (cN 3) (cM (cN 2) (cH 1)))) (cA (cN 1) (cM (cN 2) (cH 1))))) (cA (cN 1) (cH 1))).
Definition QSLR_e36 := (cD (cA (cO (cR (cM (cM (cA (cN 1) (cH 1)) (cA (cN 1) (cM (cN 2) (cH 1)))) (cA (cN 3) (cM (cN 2) (cH 1)))))) (cM (cM (cN 2) (cH 1)) (cR (cA (cA (cN 2) (cH 1)) (cD (cN 1) (cA (cN 1) (cM (cN 2) (cH 1)))))))) (cM (cA (cN 1) (cH 1)) (cR (cA (cN 3) (cM (cN 2) (cH 1)))))).
Definition QSLR_e37 := (cD (cR (cA (cN (-3)) (cM (cM (cN 4) (cH 1)) (cA (cN 1) (cH 1))))) (cA (cN 1) (cM (cN 2) (cH 1)))).
Definition QSLR_e38 := (cO (cD (cR (cA (cN 3) (cM (cM (cN 4) (cH 1)) (cA (cN 2) (cH 1))))) (cM (cA (cN 1) (cH 1)) (cA (cN 1) (cM (cN 2) (cH 1)))))).
Definition QSLR_e39 := (cD (cN 1) (cA (cA (cN 1) (cM (cN 3) (cH 1))) (cM (cN 2) (cW (cH 1) 4)))).
Definition QSLR_e40 := (cO (cD (cN 1) (cA (cN 1) (cH 1)))).
Definition QSLR_e41 := (cD (cA (cD (cN 1) (cR (cD (cM (cM (cH 1) (cA (cN 1) (cH 1))) (cA (cN 1) (cM (cN 2) (cH 1)))) (cA (cN (-1)) (cM (cN 2) (cH 1)))))) (cD (cN 1) (cR (cD (cM (cH 1) (cA (cN 1) (cH 1))) (cA (cN (-1)) (cM (cN 4) (cW (cH 1) 4))))))) (cN 2)).
Definition QSLR_e42 := (cD (cN 1) (cA (cH 1) (cM (cN 2) (cW (cH 1) 4)))).
Definition QSLR_e43 := (cO (cD (cN 1) (cR (cA (cN 4) (cD (cN 2) (cH 1)))))).
Definition QSLR_e44 := (cD (cN 1) (cR (cA (cN 4) (cD (cN 2) (cH 1))))).
Definition QSLR_e45 := (cD (cA (cN 1) (cH 1)) (cR (cA (cA (cN 2) (cM (cN 6) (cH 1))) (cM (cN 4) (cW (cH 1) 4))))).
Definition QSLR_e46 := (cR (cD (cA (cN 1) (cH 1)) (cA (cN 2) (cM (cN 4) (cH 1))))).
Definition QSLR_e47 := (cO (cR (cD (cA (cN 1) (cH 1)) (cA (cN 2) (cM (cN 4) (cH 1)))))).
Definition QSLR_e48 := (cD (cH 1) (cM (cR (cN 2)) (cR (cM (cH 1) (cA (cN 1) (cM (cN 2) (cH 1))))))).
Definition QSLR_e49 := (cD (cR (cB (cN 2) (cD (cN 1) (cH 1)))) (cN 2)).
Definition QSLR_e50 := (cM (cQ (-1) 2) (cR (cB (cN 2) (cD (cN 1) (cH 1))))).
Definition QSLR_e51 := (cD (cR (cD (cH 1) (cA (cN 1) (cH 1)))) (cN 2)).
Definition QSLR_e52 := (cM (cQ (-1) 2) (cR (cD (cH 1) (cA (cN 1) (cH 1))))).
Definition QSLR_e53 := (cM (cQ (-1) 2) (cR (cA (cN 2) (cD (cN 1) (cA (cN 1) (cH 1)))))).
Definition QSLR_e54 := (cD (cR (cA (cN 2) (cD (cN 1) (cA (cN 1) (cH 1))))) (cN 2)).
Definition QSLR_e55 := (cO (cR (cD (cH 1) (cA (cN 1) (cM (cN 2) (cH 1)))))).
Definition QSLR_e56 := (cD (cA (cN 1) (cH 1)) (cR (cM (cA (cN 1) (cH 1)) (cA (cN 1) (cM (cN 2) (cH 1)))))).
Definition QSLR_e57 := (cD (cB (cN (-1)) (cH 1)) (cR (cA (cA (cN 2) (cM (cN 6) (cH 1))) (cM (cN 4) (cW (cH 1) 4))))).
Definition QSLR_e58 := (cR (cD (cH 1) (cA (cN 1) (cM (cN 2) (cH 1))))).
Definition QSLR_e59 := (cO (cD (cA (cN 1) (cH 1)) (cR (cM (cA (cN 1) (cH 1)) (cA (cN 1) (cM (cN 2) (cH 1))))))).

(** /repo/c++/symmetry/nrg-recalc-QSLR.hpp recalc_irreduc, qslr/qslr-2ch-spinupa.dat *)
Definition qslr_2ch_t0 : irr_table := mk_irr 0 0 [ShLin 0%nat 1 1; ShLin 1%nat 1 1; ShLin 2%nat 1 0]  [
  (4, 1, Some (cD (cN 1) (cR (cN 2))));
  (6, 3, Some QSLR_e0);
  (7, 5, Some QSLR_e0);
  (8, 5, Some QSLR_e0);
  (9, 2, Some QSLR_e1);
  (10, 3, Some QSLR_e2);
  (12, 6, Some (cQ 1 2));
  (12, 10, Some QSLR_e3);
  (13, 11, Some QSLR_e4);
  (14, 7, Some (cQ 1 2));
  (14, 8, Some (cQ (-1) 2));
  (16, 15, Some QSLR_e4)].
(** /repo/c++/symmetry/nrg-recalc-QSLR.hpp recalc_irreduc, qslr/qslr-2ch-spinupb.dat *)
Definition qslr_2ch_t1 : irr_table := mk_irr 1 0 [ShLin 0%nat 1 1; ShLin 1%nat 1 1; ShLin 2%nat 1 0]  [
  (4, 1, Some (cD (cN 1) (cR (cN 2))));
  (6, 3, Some QSLR_e0);
  (7, 5, Some QSLR_e0);
  (8, 5, Some QSLR_e0);
  (9, 2, Some QSLR_e1);
  (10, 3, Some QSLR_e2);
  (12, 6, Some (cQ 1 2));
  (12, 10, Some QSLR_e3);
  (13, 11, Some QSLR_e4);
  (14, 7, Some (cQ 1 2));
  (14, 8, Some (cQ (-1) 2));
  (16, 15, Some QSLR_e4)].
(** /repo/c++/symmetry/nrg-recalc-QSLR.hpp recalc_irreduc, qslr/qslr-2ch-spindowna.dat *)
Definition qslr_2ch_t2 : irr_table := mk_irr 0 0 [ShLin 0%nat 1 1; ShLin 1%nat 1 (-1); ShLin 2%nat 1 0]  [
  (5, 1, Some (cD (cN 1) (cR (cN 2))));
  (6, 2, Some QSLR_e5);
  (7, 4, Some QSLR_e5);
  (8, 4, Some QSLR_e5);
  (10, 2, Some QSLR_e6);
  (11, 3, Some QSLR_e1);
  (12, 9, Some QSLR_e7);
  (13, 6, Some (cQ 1 2));
  (13, 10, Some QSLR_e8);
  (15, 7, Some (cQ 1 2));
  (15, 8, Some (cQ (-1) 2));
  (16, 14, Some QSLR_e7)].
(** /repo/c++/symmetry/nrg-recalc-QSLR.hpp recalc_irreduc, qslr/qslr-2ch-spindownb.dat *)
Definition qslr_2ch_t3 : irr_table := mk_irr 1 0 [ShLin 0%nat 1 1; ShLin 1%nat 1 (-1); ShLin 2%nat 1 0]  [
  (5, 1, Some (cD (cN 1) (cR (cN 2))));
  (6, 2, Some QSLR_e5);
  (7, 4, Some QSLR_e5);
  (8, 4, Some QSLR_e5);
  (10, 2, Some QSLR_e6);
  (11, 3, Some QSLR_e1);
  (12, 9, Some QSLR_e7);
  (13, 6, Some (cQ 1 2));
  (13, 10, Some QSLR_e8);
  (15, 7, Some (cQ 1 2));
  (15, 8, Some (cQ (-1) 2));
  (16, 14, Some QSLR_e7)].
(** /repo/c++/symmetry/nrg-recalc-QSLR.hpp recalc_irreduc, qslr/qslr-2ch-spinupdiffa.dat *)
Definition qslr_2ch_t4 : irr_table := mk_irr 0 0 [ShLin 0%nat 1 1; ShLin 1%nat 1 1; ShLin 2%nat (-1) 0]  [
  (2, 1, Some QSLR_e1);
  (6, 5, Some QSLR_e9);
  (7, 3, Some QSLR_e9);
  (8, 3, Some QSLR_e0);
  (9, 4, Some QSLR_e1);
  (10, 5, Some QSLR_e2);
  (12, 7, Some (cQ 1 2));
  (12, 8, Some (cQ 1 2));
  (14, 6, Some (cQ 1 2));
  (14, 10, Some QSLR_e10);
  (15, 11, Some QSLR_e11);
  (16, 13, Some QSLR_e4)].
(** /repo/c++/symmetry/nrg-recalc-QSLR.hpp recalc_irreduc, qslr/qslr-2ch-spinupdiffb.dat *)
Definition qslr_2ch_t5 : irr_table := mk_irr 1 0 [ShLin 0%nat 1 1; ShLin 1%nat 1 1; ShLin 2%nat (-1) 0]  [
  (2, 1, Some (cD (cN 1) (cR (cN 2))));
  (6, 5, Some QSLR_e0);
  (7, 3, Some QSLR_e0);
  (8, 3, Some QSLR_e9);
  (9, 4, Some (cD (cN 1) (cR (cN 2))));
  (10, 5, Some QSLR_e12);
  (12, 7, Some (cQ (-1) 2));
  (12, 8, Some (cQ (-1) 2));
  (14, 6, Some (cQ (-1) 2));
  (14, 10, Some QSLR_e3);
  (15, 11, Some QSLR_e4);
  (16, 13, Some QSLR_e11)].
(** /repo/c++/symmetry/nrg-recalc-QSLR.hpp recalc_irreduc, qslr/qslr-2ch-spindowndiffa.dat *)
Definition qslr_2ch_t6 : irr_table := mk_irr 0 0 [ShLin 0%nat 1 1; ShLin 1%nat 1 (-1); ShLin 2%nat (-1) 0]  [
  (3, 1, Some QSLR_e1);
  (6, 4, Some QSLR_e13);
  (7, 2, Some QSLR_e13);
  (8, 2, Some QSLR_e5);
  (10, 4, Some QSLR_e6);
  (11, 5, Some QSLR_e1);
  (13, 7, Some (cQ 1 2));
  (13, 8, Some (cQ 1 2));
  (14, 9, Some QSLR_e14);
  (15, 6, Some (cQ 1 2));
  (15, 10, Some QSLR_e15);
  (16, 12, Some QSLR_e7)].
(** /repo/c++/symmetry/nrg-recalc-QSLR.hpp recalc_irreduc, qslr/qslr-2ch-spindowndiffb.dat *)
Definition qslr_2ch_t7 : irr_table := mk_irr 1 0 [ShLin 0%nat 1 1; ShLin 1%nat 1 (-1); ShLin 2%nat (-1) 0]  [
  (3, 1, Some (cD (cN 1) (cR (cN 2))));
  (6, 4, Some QSLR_e5);
  (7, 2, Some QSLR_e5);
  (8, 2, Some QSLR_e13);
  (10, 4, Some QSLR_e16);
  (11, 5, Some (cD (cN 1) (cR (cN 2))));
  (13, 7, Some (cQ (-1) 2));
  (13, 8, Some (cQ (-1) 2));
  (14, 9, Some QSLR_e7);
  (15, 6, Some (cQ (-1) 2));
  (15, 10, Some QSLR_e8);
  (16, 12, Some QSLR_e14)].
(** /repo/c++/symmetry/nrg-recalc-QSLR.hpp recalc_doublet, qslr/qslr-2ch-doubletp.dat *)
Definition qslr_2ch_t8 : ten_table := mk_ten "doublet" [ShLin 0%nat 1 (-1); ShLin 1%nat 1 1; ShLin 2%nat 1 0] [1; 2; 1] [
  (1, 1, [ShLin 0%nat 1 2; ShLin 1%nat 1 0; ShLin 2%nat 1 0], [ShLin 0%nat 1 1; ShLin 1%nat 1 1; ShLin 2%nat 1 0], Some (cN 1));
  (2, 2, [ShLin 0%nat 1 1; ShLin 1%nat 1 (-1); ShLin 2%nat (-1) 0], [ShLin 0%nat 1 0; ShLin 1%nat 1 0; ShLin 2%nat (-1) 0], Some QSLR_e17);
  (3, 2, [ShLin 0%nat 1 1; ShLin 1%nat 1 1; ShLin 2%nat (-1) 0], [ShLin 0%nat 1 0; ShLin 1%nat 1 0; ShLin 2%nat (-1) 0], Some QSLR_e18);
  (3, 3, [ShLin 0%nat 1 1; ShLin 1%nat 1 1; ShLin 2%nat (-1) 0], [ShLin 0%nat 1 0; ShLin 1%nat 1 2; ShLin 2%nat (-1) 0], Some (cN (-1)));
  (4, 4, [ShLin 0%nat 1 1; ShLin 1%nat 1 (-1); ShLin 2%nat 1 0], [ShLin 0%nat 1 0; ShLin 1%nat 1 0; ShLin 2%nat 1 0], Some QSLR_e17);
  (5, 4, [ShLin 0%nat 1 1; ShLin 1%nat 1 1; ShLin 2%nat 1 0], [ShLin 0%nat 1 0; ShLin 1%nat 1 0; ShLin 2%nat 1 0], Some QSLR_e18);
  (5, 5, [ShLin 0%nat 1 1; ShLin 1%nat 1 1; ShLin 2%nat 1 0], [ShLin 0%nat 1 0; ShLin 1%nat 1 2; ShLin 2%nat 1 0], Some (cN (-1)));
  (6, 6, [ShLin 0%nat 1 0; ShLin 1%nat 1 0; ShLin 2%nat (-1) 0], [ShLin 0%nat 1 (-1); ShLin 1%nat 1 1; ShLin 2%nat (-1) 0], Some (cN 1));
  (7, 7, [ShLin 0%nat 1 0; ShLin 1%nat 1 0; ShLin 2%nat 1 0], [ShLin 0%nat 1 (-1); ShLin 1%nat 1 1; ShLin 2%nat 1 0], Some (cN 1));
  (8, 8, [ShLin 0%nat 1 0; ShLin 1%nat 1 0; ShLin 2%nat 1 0], [ShLin 0%nat 1 (-1); ShLin 1%nat 1 1; ShLin 2%nat 1 0], Some (cN 1));
  (9, 9, [ShLin 0%nat 1 0; ShLin 1%nat 1 (-2); ShLin 2%nat (-1) 0], [ShLin 0%nat 1 (-1); ShLin 1%nat 1 (-1); ShLin 2%nat (-1) 0], Some QSLR_e19);
  (10, 9, [ShLin 0%nat 1 0; ShLin 1%nat 1 0; ShLin 2%nat (-1) 0], [ShLin 0%nat 1 (-1); ShLin 1%nat 1 (-1); ShLin 2%nat (-1) 0], Some QSLR_e20);
  (10, 10, [ShLin 0%nat 1 0; ShLin 1%nat 1 0; ShLin 2%nat (-1) 0], [ShLin 0%nat 1 (-1); ShLin 1%nat 1 1; ShLin 2%nat (-1) 0], Some QSLR_e21);
  (11, 10, [ShLin 0%nat 1 0; ShLin 1%nat 1 2; ShLin 2%nat (-1) 0], [ShLin 0%nat 1 (-1); ShLin 1%nat 1 1; ShLin 2%nat (-1) 0], Some QSLR_e22);
  (11, 11, [ShLin 0%nat 1 0; ShLin 1%nat 1 2; ShLin 2%nat (-1) 0], [ShLin 0%nat 1 (-1); ShLin 1%nat 1 3; ShLin 2%nat (-1) 0], Some (cN 1));
  (12, 12, [ShLin 0%nat 1 (-1); ShLin 1%nat 1 (-1); ShLin 2%nat (-1) 0], [ShLin 0%nat 1 (-2); ShLin 1%nat 1 0; ShLin 2%nat (-1) 0], Some QSLR_e17);
  (13, 12, [ShLin 0%nat 1 (-1); ShLin 1%nat 1 1; ShLin 2%nat (-1) 0], [ShLin 0%nat 1 (-2); ShLin 1%nat 1 0; ShLin 2%nat (-1) 0], Some QSLR_e18);
  (13, 13, [ShLin 0%nat 1 (-1); ShLin 1%nat 1 1; ShLin 2%nat (-1) 0], [ShLin 0%nat 1 (-2); ShLin 1%nat 1 2; ShLin 2%nat (-1) 0], Some (cN (-1)));
  (14, 14, [ShLin 0%nat 1 (-1); ShLin 1%nat 1 (-1); ShLin 2%nat 1 0], [ShLin 0%nat 1 (-2); ShLin 1%nat 1 0; ShLin 2%nat 1 0], Some QSLR_e17);
  (15, 14, [ShLin 0%nat 1 (-1); ShLin 1%nat 1 1; ShLin 2%nat 1 0], [ShLin 0%nat 1 (-2); ShLin 1%nat 1 0; ShLin 2%nat 1 0], Some QSLR_e18);
  (15, 15, [ShLin 0%nat 1 (-1); ShLin 1%nat 1 1; ShLin 2%nat 1 0], [ShLin 0%nat 1 (-2); ShLin 1%nat 1 2; ShLin 2%nat 1 0], Some (cN (-1)));
  (16, 16, [ShLin 0%nat 1 (-2); ShLin 1%nat 1 0; ShLin 2%nat 1 0], [ShLin 0%nat 1 (-3); ShLin 1%nat 1 1; ShLin 2%nat 1 0], Some (cN 1))].
(** /repo/c++/symmetry/nrg-recalc-QSLR.hpp recalc_doublet, qslr/qslr-2ch-doubletm.dat *)
Definition qslr_2ch_t9 : ten_table := mk_ten "doublet" [ShLin 0%nat 1 (-1); ShLin 1%nat 1 (-1); ShLin 2%nat 1 0] [1; 2; 1] [
  (1, 1, [ShLin 0%nat 1 2; ShLin 1%nat 1 0; ShLin 2%nat 1 0], [ShLin 0%nat 1 1; ShLin 1%nat 1 (-1); ShLin 2%nat 1 0], Some (cN 1));
  (2, 2, [ShLin 0%nat 1 1; ShLin 1%nat 1 (-1); ShLin 2%nat (-1) 0], [ShLin 0%nat 1 0; ShLin 1%nat 1 (-2); ShLin 2%nat (-1) 0], Some (cN (-1)));
  (2, 3, [ShLin 0%nat 1 1; ShLin 1%nat 1 (-1); ShLin 2%nat (-1) 0], [ShLin 0%nat 1 0; ShLin 1%nat 1 0; ShLin 2%nat (-1) 0], Some QSLR_e23);
  (3, 3, [ShLin 0%nat 1 1; ShLin 1%nat 1 1; ShLin 2%nat (-1) 0], [ShLin 0%nat 1 0; ShLin 1%nat 1 0; ShLin 2%nat (-1) 0], Some QSLR_e17);
  (4, 4, [ShLin 0%nat 1 1; ShLin 1%nat 1 (-1); ShLin 2%nat 1 0], [ShLin 0%nat 1 0; ShLin 1%nat 1 (-2); ShLin 2%nat 1 0], Some (cN (-1)));
  (4, 5, [ShLin 0%nat 1 1; ShLin 1%nat 1 (-1); ShLin 2%nat 1 0], [ShLin 0%nat 1 0; ShLin 1%nat 1 0; ShLin 2%nat 1 0], Some QSLR_e23);
  (5, 5, [ShLin 0%nat 1 1; ShLin 1%nat 1 1; ShLin 2%nat 1 0], [ShLin 0%nat 1 0; ShLin 1%nat 1 0; ShLin 2%nat 1 0], Some QSLR_e17);
  (6, 6, [ShLin 0%nat 1 0; ShLin 1%nat 1 0; ShLin 2%nat (-1) 0], [ShLin 0%nat 1 (-1); ShLin 1%nat 1 (-1); ShLin 2%nat (-1) 0], Some (cN 1));
  (7, 7, [ShLin 0%nat 1 0; ShLin 1%nat 1 0; ShLin 2%nat 1 0], [ShLin 0%nat 1 (-1); ShLin 1%nat 1 (-1); ShLin 2%nat 1 0], Some (cN 1));
  (8, 8, [ShLin 0%nat 1 0; ShLin 1%nat 1 0; ShLin 2%nat 1 0], [ShLin 0%nat 1 (-1); ShLin 1%nat 1 (-1); ShLin 2%nat 1 0], Some (cN 1));
  (9, 9, [ShLin 0%nat 1 0; ShLin 1%nat 1 (-2); ShLin 2%nat (-1) 0], [ShLin 0%nat 1 (-1); ShLin 1%nat 1 (-3); ShLin 2%nat (-1) 0], Some (cN 1));
  (9, 10, [ShLin 0%nat 1 0; ShLin 1%nat 1 (-2); ShLin 2%nat (-1) 0], [ShLin 0%nat 1 (-1); ShLin 1%nat 1 (-1); ShLin 2%nat (-1) 0], Some QSLR_e24);
  (10, 10, [ShLin 0%nat 1 0; ShLin 1%nat 1 0; ShLin 2%nat (-1) 0], [ShLin 0%nat 1 (-1); ShLin 1%nat 1 (-1); ShLin 2%nat (-1) 0], Some QSLR_e25);
  (10, 11, [ShLin 0%nat 1 0; ShLin 1%nat 1 0; ShLin 2%nat (-1) 0], [ShLin 0%nat 1 (-1); ShLin 1%nat 1 1; ShLin 2%nat (-1) 0], Some QSLR_e26);
  (11, 11, [ShLin 0%nat 1 0; ShLin 1%nat 1 2; ShLin 2%nat (-1) 0], [ShLin 0%nat 1 (-1); ShLin 1%nat 1 1; ShLin 2%nat (-1) 0], Some QSLR_e27);
  (12, 12, [ShLin 0%nat 1 (-1); ShLin 1%nat 1 (-1); ShLin 2%nat (-1) 0], [ShLin 0%nat 1 (-2); ShLin 1%nat 1 (-2); ShLin 2%nat (-1) 0], Some (cN (-1)));
  (12, 13, [ShLin 0%nat 1 (-1); ShLin 1%nat 1 (-1); ShLin 2%nat (-1) 0], [ShLin 0%nat 1 (-2); ShLin 1%nat 1 0; ShLin 2%nat (-1) 0], Some QSLR_e23);
  (13, 13, [ShLin 0%nat 1 (-1); ShLin 1%nat 1 1; ShLin 2%nat (-1) 0], [ShLin 0%nat 1 (-2); ShLin 1%nat 1 0; ShLin 2%nat (-1) 0], Some QSLR_e17);
  (14, 14, [ShLin 0%nat 1 (-1); ShLin 1%nat 1 (-1); ShLin 2%nat 1 0], [ShLin 0%nat 1 (-2); ShLin 1%nat 1 (-2); ShLin 2%nat 1 0], Some (cN (-1)));
  (14, 15, [ShLin 0%nat 1 (-1); ShLin 1%nat 1 (-1); ShLin 2%nat 1 0], [ShLin 0%nat 1 (-2); ShLin 1%nat 1 0; ShLin 2%nat 1 0], Some QSLR_e23);
  (15, 15, [ShLin 0%nat 1 (-1); ShLin 1%nat 1 1; ShLin 2%nat 1 0], [ShLin 0%nat 1 (-2); ShLin 1%nat 1 0; ShLin 2%nat 1 0], Some QSLR_e17);
  (16, 16, [ShLin 0%nat 1 (-2); ShLin 1%nat 1 0; ShLin 2%nat 1 0], [ShLin 0%nat 1 (-3); ShLin 1%nat 1 (-1); ShLin 2%nat 1 0], Some (cN 1))].
(** /repo/c++/symmetry/nrg-recalc-QSLR.hpp recalc_triplet, qslr/qslr-2ch-triplets.dat *)
Definition qslr_2ch_t10 : ten_table := mk_ten "triplet" [ShLin 0%nat 1 0; ShLin 1%nat 1 0; ShLin 2%nat 1 0] [0; 3; 1] [
  (1, 1, [ShLin 0%nat 1 2; ShLin 1%nat 1 0; ShLin 2%nat 1 0], [ShLin 0%nat 1 2; ShLin 1%nat 1 0; ShLin 2%nat 1 0], Some (cN 1));
  (2, 2, [ShLin 0%nat 1 1; ShLin 1%nat 1 (-1); ShLin 2%nat (-1) 0], [ShLin 0%nat 1 1; ShLin 1%nat 1 (-1); ShLin 2%nat (-1) 0], Some QSLR_e19);
  (2, 3, [ShLin 0%nat 1 1; ShLin 1%nat 1 (-1); ShLin 2%nat (-1) 0], [ShLin 0%nat 1 1; ShLin 1%nat 1 1; ShLin 2%nat (-1) 0], Some QSLR_e26);
  (3, 2, [ShLin 0%nat 1 1; ShLin 1%nat 1 1; ShLin 2%nat (-1) 0], [ShLin 0%nat 1 1; ShLin 1%nat 1 (-1); ShLin 2%nat (-1) 0], Some QSLR_e20);
  (3, 3, [ShLin 0%nat 1 1; ShLin 1%nat 1 1; ShLin 2%nat (-1) 0], [ShLin 0%nat 1 1; ShLin 1%nat 1 1; ShLin 2%nat (-1) 0], Some QSLR_e28);
  (4, 4, [ShLin 0%nat 1 1; ShLin 1%nat 1 (-1); ShLin 2%nat 1 0], [ShLin 0%nat 1 1; ShLin 1%nat 1 (-1); ShLin 2%nat 1 0], Some QSLR_e19);
  (4, 5, [ShLin 0%nat 1 1; ShLin 1%nat 1 (-1); ShLin 2%nat 1 0], [ShLin 0%nat 1 1; ShLin 1%nat 1 1; ShLin 2%nat 1 0], Some QSLR_e26);
  (5, 4, [ShLin 0%nat 1 1; ShLin 1%nat 1 1; ShLin 2%nat 1 0], [ShLin 0%nat 1 1; ShLin 1%nat 1 (-1); ShLin 2%nat 1 0], Some QSLR_e20);
  (5, 5, [ShLin 0%nat 1 1; ShLin 1%nat 1 1; ShLin 2%nat 1 0], [ShLin 0%nat 1 1; ShLin 1%nat 1 1; ShLin 2%nat 1 0], Some QSLR_e28);
  (6, 6, [ShLin 0%nat 1 0; ShLin 1%nat 1 0; ShLin 2%nat (-1) 0], [ShLin 0%nat 1 0; ShLin 1%nat 1 0; ShLin 2%nat (-1) 0], Some (cN 1));
  (7, 7, [ShLin 0%nat 1 0; ShLin 1%nat 1 0; ShLin 2%nat 1 0], [ShLin 0%nat 1 0; ShLin 1%nat 1 0; ShLin 2%nat 1 0], Some (cN 1));
  (8, 8, [ShLin 0%nat 1 0; ShLin 1%nat 1 0; ShLin 2%nat 1 0], [ShLin 0%nat 1 0; ShLin 1%nat 1 0; ShLin 2%nat 1 0], Some (cN 1));
  (9, 9, [ShLin 0%nat 1 0; ShLin 1%nat 1 (-2); ShLin 2%nat (-1) 0], [ShLin 0%nat 1 0; ShLin 1%nat 1 (-2); ShLin 2%nat (-1) 0], Some QSLR_e29);
  (9, 10, [ShLin 0%nat 1 0; ShLin 1%nat 1 (-2); ShLin 2%nat (-1) 0], [ShLin 0%nat 1 0; ShLin 1%nat 1 0; ShLin 2%nat (-1) 0], Some QSLR_e30);
  (10, 9, [ShLin 0%nat 1 0; ShLin 1%nat 1 0; ShLin 2%nat (-1) 0], [ShLin 0%nat 1 0; ShLin 1%nat 1 (-2); ShLin 2%nat (-1) 0], Some (cO (cD (cN 1) (cH 1))));
  (10, 10, [ShLin 0%nat 1 0; ShLin 1%nat 1 0; ShLin 2%nat (-1) 0], [ShLin 0%nat 1 0; ShLin 1%nat 1 0; ShLin 2%nat (-1) 0], Some QSLR_e31);
  (10, 11, [ShLin 0%nat 1 0; ShLin 1%nat 1 0; ShLin 2%nat (-1) 0], [ShLin 0%nat 1 0; ShLin 1%nat 1 2; ShLin 2%nat (-1) 0], Some QSLR_e32);
  (11, 10, [ShLin 0%nat 1 0; ShLin 1%nat 1 2; ShLin 2%nat (-1) 0], [ShLin 0%nat 1 0; ShLin 1%nat 1 0; ShLin 2%nat (-1) 0], Some QSLR_e33);
  (11, 11, [ShLin 0%nat 1 0; ShLin 1%nat 1 2; ShLin 2%nat (-1) 0], [ShLin 0%nat 1 0; ShLin 1%nat 1 2; ShLin 2%nat (-1) 0], Some QSLR_e34);
  (12, 12, [ShLin 0%nat 1 (-1); ShLin 1%nat 1 (-1); ShLin 2%nat (-1) 0], [ShLin 0%nat 1 (-1); ShLin 1%nat 1 (-1); ShLin 2%nat (-1) 0], Some QSLR_e19);
  (12, 13, [ShLin 0%nat 1 (-1); ShLin 1%nat 1 (-1); ShLin 2%nat (-1) 0], [ShLin 0%nat 1 (-1); ShLin 1%nat 1 1; ShLin 2%nat (-1) 0], Some QSLR_e26);
  (13, 12, [ShLin 0%nat 1 (-1); ShLin 1%nat 1 1; ShLin 2%nat (-1) 0], [ShLin 0%nat 1 (-1); ShLin 1%nat 1 (-1); ShLin 2%nat (-1) 0], Some QSLR_e20);
  (13, 13, [ShLin 0%nat 1 (-1); ShLin 1%nat 1 1; ShLin 2%nat (-1) 0], [ShLin 0%nat 1 (-1); ShLin 1%nat 1 1; ShLin 2%nat (-1) 0], Some QSLR_e28);
  (14, 14, [ShLin 0%nat 1 (-1); ShLin 1%nat 1 (-1); ShLin 2%nat 1 0], [ShLin 0%nat 1 (-1); ShLin 1%nat 1 (-1); ShLin 2%nat 1 0], Some QSLR_e19);
  (14, 15, [ShLin 0%nat 1 (-1); ShLin 1%nat 1 (-1); ShLin 2%nat 1 0], [ShLin 0%nat 1 (-1); ShLin 1%nat 1 1; ShLin 2%nat 1 0], Some QSLR_e26);
  (15, 14, [ShLin 0%nat 1 (-1); ShLin 1%nat 1 1; ShLin 2%nat 1 0], [ShLin 0%nat 1 (-1); ShLin 1%nat 1 (-1); ShLin 2%nat 1 0], Some QSLR_e20);
  (15, 15, [ShLin 0%nat 1 (-1); ShLin 1%nat 1 1; ShLin 2%nat 1 0], [ShLin 0%nat 1 (-1); ShLin 1%nat 1 1; ShLin 2%nat 1 0], Some QSLR_e28);
  (16, 16, [ShLin 0%nat 1 (-2); ShLin 1%nat 1 0; ShLin 2%nat 1 0], [ShLin 0%nat 1 (-2); ShLin 1%nat 1 0; ShLin 2%nat 1 0], Some (cN 1))].
(** /repo/c++/symmetry/nrg-recalc-QSLR.hpp recalc_triplet, qslr/qslr-2ch-tripletp.dat *)
Definition qslr_2ch_t11 : ten_table := mk_ten "triplet" [ShLin 0%nat 1 0; ShLin 1%nat 1 2; ShLin 2%nat 1 0] [0; 3; 1] [
  (1, 1, [ShLin 0%nat 1 2; ShLin 1%nat 1 0; ShLin 2%nat 1 0], [ShLin 0%nat 1 2; ShLin 1%nat 1 2; ShLin 2%nat 1 0], Some (cN 1));
  (2, 2, [ShLin 0%nat 1 1; ShLin 1%nat 1 (-1); ShLin 2%nat (-1) 0], [ShLin 0%nat 1 1; ShLin 1%nat 1 1; ShLin 2%nat (-1) 0], Some QSLR_e35);
  (3, 2, [ShLin 0%nat 1 1; ShLin 1%nat 1 1; ShLin 2%nat (-1) 0], [ShLin 0%nat 1 1; ShLin 1%nat 1 1; ShLin 2%nat (-1) 0], Some QSLR_e36);
  (3, 3, [ShLin 0%nat 1 1; ShLin 1%nat 1 1; ShLin 2%nat (-1) 0], [ShLin 0%nat 1 1; ShLin 1%nat 1 3; ShLin 2%nat (-1) 0], Some (cN 1));
  (4, 4, [ShLin 0%nat 1 1; ShLin 1%nat 1 (-1); ShLin 2%nat 1 0], [ShLin 0%nat 1 1; ShLin 1%nat 1 1; ShLin 2%nat 1 0], Some QSLR_e35);
  (5, 4, [ShLin 0%nat 1 1; ShLin 1%nat 1 1; ShLin 2%nat 1 0], [ShLin 0%nat 1 1; ShLin 1%nat 1 1; ShLin 2%nat 1 0], Some QSLR_e36);
  (5, 5, [ShLin 0%nat 1 1; ShLin 1%nat 1 1; ShLin 2%nat 1 0], [ShLin 0%nat 1 1; ShLin 1%nat 1 3; ShLin 2%nat 1 0], Some (cN 1));
  (6, 6, [ShLin 0%nat 1 0; ShLin 1%nat 1 0; ShLin 2%nat (-1) 0], [ShLin 0%nat 1 0; ShLin 1%nat 1 2; ShLin 2%nat (-1) 0], Some (cN 1));
  (7, 7, [ShLin 0%nat 1 0; ShLin 1%nat 1 0; ShLin 2%nat 1 0], [ShLin 0%nat 1 0; ShLin 1%nat 1 2; ShLin 2%nat 1 0], Some (cN 1));
  (8, 8, [ShLin 0%nat 1 0; ShLin 1%nat 1 0; ShLin 2%nat 1 0], [ShLin 0%nat 1 0; ShLin 1%nat 1 2; ShLin 2%nat 1 0], Some (cN 1));
  (9, 9, [ShLin 0%nat 1 0; ShLin 1%nat 1 (-2); ShLin 2%nat (-1) 0], [ShLin 0%nat 1 0; ShLin 1%nat 1 0; ShLin 2%nat (-1) 0], Some QSLR_e37);
  (10, 9, [ShLin 0%nat 1 0; ShLin 1%nat 1 0; ShLin 2%nat (-1) 0], [ShLin 0%nat 1 0; ShLin 1%nat 1 0; ShLin 2%nat (-1) 0], Some QSLR_e38);
  (10, 10, [ShLin 0%nat 1 0; ShLin 1%nat 1 0; ShLin 2%nat (-1) 0], [ShLin 0%nat 1 0; ShLin 1%nat 1 2; ShLin 2%nat (-1) 0], Some QSLR_e34);
  (11, 9, [ShLin 0%nat 1 0; ShLin 1%nat 1 2; ShLin 2%nat (-1) 0], [ShLin 0%nat 1 0; ShLin 1%nat 1 0; ShLin 2%nat (-1) 0], Some QSLR_e39);
  (11, 10, [ShLin 0%nat 1 0; ShLin 1%nat 1 2; ShLin 2%nat (-1) 0], [ShLin 0%nat 1 0; ShLin 1%nat 1 2; ShLin 2%nat (-1) 0], Some QSLR_e40);
  (11, 11, [ShLin 0%nat 1 0; ShLin 1%nat 1 2; ShLin 2%nat (-1) 0], [ShLin 0%nat 1 0; ShLin 1%nat 1 4; ShLin 2%nat (-1) 0], Some (cN 1));
  (12, 12, [ShLin 0%nat 1 (-1); ShLin 1%nat 1 (-1); ShLin 2%nat (-1) 0], [ShLin 0%nat 1 (-1); ShLin 1%nat 1 1; ShLin 2%nat (-1) 0], Some QSLR_e35);
  (13, 12, [ShLin 0%nat 1 (-1); ShLin 1%nat 1 1; ShLin 2%nat (-1) 0], [ShLin 0%nat 1 (-1); ShLin 1%nat 1 1; ShLin 2%nat (-1) 0], Some QSLR_e36);
  (13, 13, [ShLin 0%nat 1 (-1); ShLin 1%nat 1 1; ShLin 2%nat (-1) 0], [ShLin 0%nat 1 (-1); ShLin 1%nat 1 3; ShLin 2%nat (-1) 0], Some (cN 1));
  (14, 14, [ShLin 0%nat 1 (-1); ShLin 1%nat 1 (-1); ShLin 2%nat 1 0], [ShLin 0%nat 1 (-1); ShLin 1%nat 1 1; ShLin 2%nat 1 0], Some QSLR_e35);
  (15, 14, [ShLin 0%nat 1 (-1); ShLin 1%nat 1 1; ShLin 2%nat 1 0], [ShLin 0%nat 1 (-1); ShLin 1%nat 1 1; ShLin 2%nat 1 0], Some QSLR_e36);
  (15, 15, [ShLin 0%nat 1 (-1); ShLin 1%nat 1 1; ShLin 2%nat 1 0], [ShLin 0%nat 1 (-1); ShLin 1%nat 1 3; ShLin 2%nat 1 0], Some (cN 1));
  (16, 16, [ShLin 0%nat 1 (-2); ShLin 1%nat 1 0; ShLin 2%nat 1 0], [ShLin 0%nat 1 (-2); ShLin 1%nat 1 2; ShLin 2%nat 1 0], Some (cN 1))].
(** /repo/c++/symmetry/nrg-recalc-QSLR.hpp recalc_triplet, qslr/qslr-2ch-tripletm.dat *)
Definition qslr_2ch_t12 : ten_table := mk_ten "triplet" [ShLin 0%nat 1 0; ShLin 1%nat 1 (-2); ShLin 2%nat 1 0] [0; 3; 1] [
  (1, 1, [ShLin 0%nat 1 2; ShLin 1%nat 1 0; ShLin 2%nat 1 0], [ShLin 0%nat 1 2; ShLin 1%nat 1 (-2); ShLin 2%nat 1 0], Some (cN 1));
  (2, 2, [ShLin 0%nat 1 1; ShLin 1%nat 1 (-1); ShLin 2%nat (-1) 0], [ShLin 0%nat 1 1; ShLin 1%nat 1 (-3); ShLin 2%nat (-1) 0], Some (cN 1));
  (2, 3, [ShLin 0%nat 1 1; ShLin 1%nat 1 (-1); ShLin 2%nat (-1) 0], [ShLin 0%nat 1 1; ShLin 1%nat 1 (-1); ShLin 2%nat (-1) 0], Some QSLR_e24);
  (3, 3, [ShLin 0%nat 1 1; ShLin 1%nat 1 1; ShLin 2%nat (-1) 0], [ShLin 0%nat 1 1; ShLin 1%nat 1 (-1); ShLin 2%nat (-1) 0], Some QSLR_e41);
  (4, 4, [ShLin 0%nat 1 1; ShLin 1%nat 1 (-1); ShLin 2%nat 1 0], [ShLin 0%nat 1 1; ShLin 1%nat 1 (-3); ShLin 2%nat 1 0], Some (cN 1));
  (4, 5, [ShLin 0%nat 1 1; ShLin 1%nat 1 (-1); ShLin 2%nat 1 0], [ShLin 0%nat 1 1; ShLin 1%nat 1 (-1); ShLin 2%nat 1 0], Some QSLR_e24);
  (5, 5, [ShLin 0%nat 1 1; ShLin 1%nat 1 1; ShLin 2%nat 1 0], [ShLin 0%nat 1 1; ShLin 1%nat 1 (-1); ShLin 2%nat 1 0], Some QSLR_e41);
  (6, 6, [ShLin 0%nat 1 0; ShLin 1%nat 1 0; ShLin 2%nat (-1) 0], [ShLin 0%nat 1 0; ShLin 1%nat 1 (-2); ShLin 2%nat (-1) 0], Some (cN 1));
  (7, 7, [ShLin 0%nat 1 0; ShLin 1%nat 1 0; ShLin 2%nat 1 0], [ShLin 0%nat 1 0; ShLin 1%nat 1 (-2); ShLin 2%nat 1 0], Some (cN 1));
  (8, 8, [ShLin 0%nat 1 0; ShLin 1%nat 1 0; ShLin 2%nat 1 0], [ShLin 0%nat 1 0; ShLin 1%nat 1 (-2); ShLin 2%nat 1 0], Some (cN 1));
  (9, 9, [ShLin 0%nat 1 0; ShLin 1%nat 1 (-2); ShLin 2%nat (-1) 0], [ShLin 0%nat 1 0; ShLin 1%nat 1 (-4); ShLin 2%nat (-1) 0], Some (cN 1));
  (9, 10, [ShLin 0%nat 1 0; ShLin 1%nat 1 (-2); ShLin 2%nat (-1) 0], [ShLin 0%nat 1 0; ShLin 1%nat 1 (-2); ShLin 2%nat (-1) 0], Some (cD (cN 1) (cH 1)));
  (9, 11, [ShLin 0%nat 1 0; ShLin 1%nat 1 (-2); ShLin 2%nat (-1) 0], [ShLin 0%nat 1 0; ShLin 1%nat 1 0; ShLin 2%nat (-1) 0], Some QSLR_e42);
  (10, 10, [ShLin 0%nat 1 0; ShLin 1%nat 1 0; ShLin 2%nat (-1) 0], [ShLin 0%nat 1 0; ShLin 1%nat 1 (-2); ShLin 2%nat (-1) 0], Some QSLR_e29);
  (10, 11, [ShLin 0%nat 1 0; ShLin 1%nat 1 0; ShLin 2%nat (-1) 0], [ShLin 0%nat 1 0; ShLin 1%nat 1 0; ShLin 2%nat (-1) 0], Some QSLR_e30);
  (11, 11, [ShLin 0%nat 1 0; ShLin 1%nat 1 2; ShLin 2%nat (-1) 0], [ShLin 0%nat 1 0; ShLin 1%nat 1 0; ShLin 2%nat (-1) 0], Some QSLR_e37);
  (12, 12, [ShLin 0%nat 1 (-1); ShLin 1%nat 1 (-1); ShLin 2%nat (-1) 0], [ShLin 0%nat 1 (-1); ShLin 1%nat 1 (-3); ShLin 2%nat (-1) 0], Some (cN 1));
  (12, 13, [ShLin 0%nat 1 (-1); ShLin 1%nat 1 (-1); ShLin 2%nat (-1) 0], [ShLin 0%nat 1 (-1); ShLin 1%nat 1 (-1); ShLin 2%nat (-1) 0], Some QSLR_e24);
  (13, 13, [ShLin 0%nat 1 (-1); ShLin 1%nat 1 1; ShLin 2%nat (-1) 0], [ShLin 0%nat 1 (-1); ShLin 1%nat 1 (-1); ShLin 2%nat (-1) 0], Some QSLR_e41);
  (14, 14, [ShLin 0%nat 1 (-1); ShLin 1%nat 1 (-1); ShLin 2%nat 1 0], [ShLin 0%nat 1 (-1); ShLin 1%nat 1 (-3); ShLin 2%nat 1 0], Some (cN 1));
  (14, 15, [ShLin 0%nat 1 (-1); ShLin 1%nat 1 (-1); ShLin 2%nat 1 0], [ShLin 0%nat 1 (-1); ShLin 1%nat 1 (-1); ShLin 2%nat 1 0], Some QSLR_e24);
  (15, 15, [ShLin 0%nat 1 (-1); ShLin 1%nat 1 1; ShLin 2%nat 1 0], [ShLin 0%nat 1 (-1); ShLin 1%nat 1 (-1); ShLin 2%nat 1 0], Some QSLR_e41);
  (16, 16, [ShLin 0%nat 1 (-2); ShLin 1%nat 1 0; ShLin 2%nat 1 0], [ShLin 0%nat 1 (-2); ShLin 1%nat 1 (-2); ShLin 2%nat 1 0], Some (cN 1))].
(** /repo/c++/symmetry/sym-QSLR-impl.hpp, make_matrix  *)
Definition qslr_2ch_m0_o : list off_line := [
  (1, 2, 0, 0, "xi", Some QSLR_e1);
  (1, 3, 0, 0, "xi", Some QSLR_e1);
  (1, 4, 0, 0, "xi", Some (cD (cN 1) (cR (cN 2))));
  (1, 5, 0, 0, "xi", Some (cD (cN 1) (cR (cN 2))));
  (2, 6, 0, 0, "xi", Some QSLR_e43);
  (2, 7, 0, 0, "xi", Some QSLR_e44);
  (2, 8, 0, 0, "xi", Some QSLR_e43);
  (2, 9, 0, 0, "xi", Some (cD (cN 1) (cR (cN 2))));
  (2, 10, 0, 0, "xi", Some QSLR_e45);
  (3, 6, 0, 0, "xi", Some QSLR_e46);
  (3, 7, 0, 0, "xi", Some QSLR_e47);
  (3, 8, 0, 0, "xi", Some QSLR_e46);
  (3, 10, 0, 0, "xi", Some QSLR_e48);
  (3, 11, 0, 0, "xi", Some (cD (cN 1) (cR (cN 2))));
  (4, 6, 0, 0, "xi", Some QSLR_e44);
  (4, 7, 0, 0, "xi", Some QSLR_e43);
  (4, 8, 0, 0, "xi", Some QSLR_e43);
  (4, 9, 0, 0, "xi", Some (cD (cN 1) (cR (cN 2))));
  (4, 10, 0, 0, "xi", Some QSLR_e45);
  (5, 6, 0, 0, "xi", Some QSLR_e47);
  (5, 7, 0, 0, "xi", Some QSLR_e46);
  (5, 8, 0, 0, "xi", Some QSLR_e46);
  (5, 10, 0, 0, "xi", Some QSLR_e48);
  (5, 11, 0, 0, "xi", Some (cD (cN 1) (cR (cN 2))));
  (6, 12, 0, 0, "xi", Some (cQ 1 2));
  (6, 13, 0, 0, "xi", Some (cQ 1 2));
  (6, 14, 0, 0, "xi", Some (cQ 1 2));
  (6, 15, 0, 0, "xi", Some (cQ 1 2));
  (7, 12, 0, 0, "xi", Some (cQ 1 2));
  (7, 13, 0, 0, "xi", Some (cQ 1 2));
  (7, 14, 0, 0, "xi", Some (cQ 1 2));
  (7, 15, 0, 0, "xi", Some (cQ 1 2));
  (8, 12, 0, 0, "xi", Some (cQ 1 2));
  (8, 13, 0, 0, "xi", Some (cQ 1 2));
  (8, 14, 0, 0, "xi", Some (cQ (-1) 2));
  (8, 15, 0, 0, "xi", Some (cQ (-1) 2));
  (9, 12, 0, 0, "xi", Some QSLR_e49);
  (9, 14, 0, 0, "xi", Some QSLR_e50);
  (10, 12, 0, 0, "xi", Some QSLR_e15);
  (10, 13, 0, 0, "xi", Some QSLR_e51);
  (10, 14, 0, 0, "xi", Some QSLR_e8);
  (10, 15, 0, 0, "xi", Some QSLR_e52);
  (11, 13, 0, 0, "xi", Some QSLR_e53);
  (11, 15, 0, 0, "xi", Some QSLR_e54);
  (12, 16, 0, 0, "xi", Some QSLR_e55);
  (13, 16, 0, 0, "xi", Some QSLR_e56);
  (14, 16, 0, 0, "xi", Some QSLR_e55);
  (15, 16, 0, 0, "xi", Some QSLR_e56);
  (1, 2, 1, 0, "xi", Some (cD (cN 1) (cR (cN 2))));
  (1, 3, 1, 0, "xi", Some (cD (cN 1) (cR (cN 2))));
  (1, 4, 1, 0, "xi", Some (cD (cN 1) (cR (cN 2))));
  (1, 5, 1, 0, "xi", Some (cD (cN 1) (cR (cN 2))));
  (2, 6, 1, 0, "xi", Some QSLR_e43);
  (2, 7, 1, 0, "xi", Some QSLR_e43);
  (2, 8, 1, 0, "xi", Some QSLR_e44);
  (2, 9, 1, 0, "xi", Some (cD (cN 1) (cR (cN 2))));
  (2, 10, 1, 0, "xi", Some QSLR_e45);
  (3, 6, 1, 0, "xi", Some QSLR_e46);
  (3, 7, 1, 0, "xi", Some QSLR_e46);
  (3, 8, 1, 0, "xi", Some QSLR_e47);
  (3, 10, 1, 0, "xi", Some QSLR_e48);
  (3, 11, 1, 0, "xi", Some (cD (cN 1) (cR (cN 2))));
  (4, 6, 1, 0, "xi", Some QSLR_e43);
  (4, 7, 1, 0, "xi", Some QSLR_e43);
  (4, 8, 1, 0, "xi", Some QSLR_e43);
  (4, 9, 1, 0, "xi", Some QSLR_e1);
  (4, 10, 1, 0, "xi", Some QSLR_e57);
  (5, 6, 1, 0, "xi", Some QSLR_e46);
  (5, 7, 1, 0, "xi", Some QSLR_e46);
  (5, 8, 1, 0, "xi", Some QSLR_e46);
  (5, 10, 1, 0, "xi", Some QSLR_e43);
  (5, 11, 1, 0, "xi", Some QSLR_e1);
  (6, 12, 1, 0, "xi", Some (cQ 1 2));
  (6, 13, 1, 0, "xi", Some (cQ 1 2));
  (6, 14, 1, 0, "xi", Some (cQ (-1) 2));
  (6, 15, 1, 0, "xi", Some (cQ (-1) 2));
  (7, 12, 1, 0, "xi", Some (cQ (-1) 2));
  (7, 13, 1, 0, "xi", Some (cQ (-1) 2));
  (7, 14, 1, 0, "xi", Some (cQ 1 2));
  (7, 15, 1, 0, "xi", Some (cQ 1 2));
  (8, 12, 1, 0, "xi", Some (cQ (-1) 2));
  (8, 13, 1, 0, "xi", Some (cQ (-1) 2));
  (8, 14, 1, 0, "xi", Some (cQ (-1) 2));
  (8, 15, 1, 0, "xi", Some (cQ (-1) 2));
  (9, 12, 1, 0, "xi", Some QSLR_e49);
  (9, 14, 1, 0, "xi", Some QSLR_e49);
  (10, 12, 1, 0, "xi", Some QSLR_e15);
  (10, 13, 1, 0, "xi", Some QSLR_e51);
  (10, 14, 1, 0, "xi", Some QSLR_e15);
  (10, 15, 1, 0, "xi", Some QSLR_e51);
  (11, 13, 1, 0, "xi", Some QSLR_e53);
  (11, 15, 1, 0, "xi", Some QSLR_e53);
  (12, 16, 1, 0, "xi", Some QSLR_e58);
  (13, 16, 1, 0, "xi", Some QSLR_e59);
  (14, 16, 1, 0, "xi", Some QSLR_e55);
  (15, 16, 1, 0, "xi", Some QSLR_e56)].
(** /repo/c++/symmetry/sym-QSLR-impl.hpp, make_matrix  *)
Definition qslr_2ch_m0_d : list diag_line := [
  (1, 0, "zeta", Some (cN 0));
  (2, 0, "zeta", Some (cQ 1 2));
  (3, 0, "zeta", Some (cQ 1 2));
  (4, 0, "zeta", Some (cQ 1 2));
  (5, 0, "zeta", Some (cQ 1 2));
  (6, 0, "zeta", Some (cN 1));
  (7, 0, "zeta", Some (cN 1));
  (8, 0, "zeta", Some (cN 1));
  (9, 0, "zeta", Some (cN 1));
  (10, 0, "zeta", Some (cN 1));
  (11, 0, "zeta", Some (cN 1));
  (12, 0, "zeta", Some (cQ 3 2));
  (13, 0, "zeta", Some (cQ 3 2));
  (14, 0, "zeta", Some (cQ 3 2));
  (15, 0, "zeta", Some (cQ 3 2));
  (16, 0, "zeta", Some (cN 2));
  (1, 1, "zeta", Some (cN 0));
  (2, 1, "zeta", Some (cQ 1 2));
  (3, 1, "zeta", Some (cQ 1 2));
  (4, 1, "zeta", Some (cQ 1 2));
  (5, 1, "zeta", Some (cQ 1 2));
  (6, 1, "zeta", Some (cN 1));
  (7, 1, "zeta", Some (cN 1));
  (8, 1, "zeta", Some (cN 1));
  (9, 1, "zeta", Some (cN 1));
  (10, 1, "zeta", Some (cN 1));
  (11, 1, "zeta", Some (cN 1));
  (12, 1, "zeta", Some (cQ 3 2));
  (13, 1, "zeta", Some (cQ 3 2));
  (14, 1, "zeta", Some (cQ 3 2));
  (15, 1, "zeta", Some (cQ 3 2));
  (16, 1, "zeta", Some (cN 2))].
(** /repo/c++/symmetry/sym-QSLR-impl.hpp, make_matrix  *)
Definition qslr_2ch_m0_f : list dof_line := [
  ].
Definition coef_qslr_2ch : coef_set := mk_coef "QSLR" 2%nat sym_QSLR {| tb_In := qslr_2ch_In; tb_QN := qslr_2ch_QN |}
  [qslr_2ch_t0; qslr_2ch_t1; qslr_2ch_t2; qslr_2ch_t3; qslr_2ch_t4; qslr_2ch_t5; qslr_2ch_t6; qslr_2ch_t7]
  [qslr_2ch_t8; qslr_2ch_t9; qslr_2ch_t10; qslr_2ch_t11; qslr_2ch_t12]
  [mk_mode "default" qslr_2ch_m0_o qslr_2ch_m0_d qslr_2ch_m0_f].
