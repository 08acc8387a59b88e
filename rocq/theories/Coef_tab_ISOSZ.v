(** Generated by gen/gen_coef.py from /repo/c++/symmetry/{sym-ISOSZ-impl.hpp, nrg-recalc-ISOSZ.hpp, coefnew}. Do not edit. *)
From Coq Require Import List ZArith String.
From Verif Require Import Base Invar_model Symmetry_model Symmetry_tables Coef_model.
Import ListNotations.
Local Open Scope string_scope.
Local Open Scope list_scope.
Local Open Scope Z_scope.

Definition ISOSZ_e0 := (cD (cN 1) (cA (cN 1) (cM (cN 2) (cH 0)))).
Definition ISOSZ_e1 := (cD (cM (cN 2) (cR (cM (cH 0) (cA (cN 1) (cH 0))))) (cA (cN 1) (cM (cN 2) (cH 0)))).
Definition ISOSZ_e2 := (cD (cN 1) (cB (cN (-1)) (cM (cN 2) (cH 0)))).
Definition ISOSZ_e3 := (cO (cM (cG [] 0) (cR (cB (cN 1) (cD (cN 1) (cM (cN 2) (cA (cN 1) (cH 0)))))))).
Definition ISOSZ_e4 := (cM (cG [] 0) (cR (cA (cN 1) (cD (cN 1) (cM (cN 2) (cH 0)))))).
Definition ISOSZ_e5 := (cM (cM (cG [] 0) (cR (cN 2))) (cR (cD (cH 0) (cA (cN 1) (cM (cN 2) (cH 0)))))).
Definition ISOSZ_e6 := (cD (cM (cM (cN (-2)) (cG [] 0)) (cA (cN 1) (cH 0))) (cR (cA (cA (cN 2) (cM (cN 6) (cH 0))) (cM (cN 4) (cW (cH 0) 4))))).
Definition ISOSZ_e7 := (cD (cN 1) (cR (cM (cH 0) (cA (cN 1) (cM (cN 2) (cH 0)))))).
Definition ISOSZ_e8 := (cD (cA (cA (cN (-1)) (cH 0)) (cM (cN 2) (cW (cH 0) 4))) (cR (cM (cM (cM (cH 0) (cA (cN 1) (cH 0))) (cA (cN (-1)) (cM (cN 2) (cH 0)))) (cA (cN 1) (cM (cN 2) (cH 0)))))).
Definition ISOSZ_e9 := (cD (cN 1) (cR (cM (cA (cN 1) (cH 0)) (cA (cN 1) (cM (cN 2) (cH 0)))))).
Definition ISOSZ_e10 := (cA (cA (cR (cD (cM (cH 0) (cA (cN 1) (cM (cN 2) (cH 0)))) (cM (cW (cA (cN 1) (cH 0)) 6) (cA (cN 3) (cM (cN 2) (cH 0)))))) (cR (cD (cH 0) (cM (cW (cA (cN 1) (cH 0)) 6) (cA (cN 3) (cM (cM (cN 4) (cH 0)) (cA (cN 2) (cH 0)))))))) (cR (cB (cA (cN 1) (cD (cN 1) (cA (cN 1) (cH 0)))) (cD (cN 6) (cA (cN 3) (cM (cN 2) (cH 0))))))).
Definition ISOSZ_e11 := (cD (cM (cN (-2)) (cR (cM (cH 0) (cA (cN 1) (cH 0))))) (cA (cN 1) (cM (cN 2) (cH 0)))).
Definition ISOSZ_e12 := (cD (cN 1) (cR (cD (cM (cH 0) (cA (cN 1) (cM (cN 2) (cH 0)))) (cA (cA (cN (-1)) (cH 0)) (cM (cN 2) (cW (cH 0) 4)))))).
Definition ISOSZ_e13 := (cO (cD (cN 1) (cR (cM (cH 0) (cA (cN 1) (cM (cN 2) (cH 0))))))).
Definition ISOSZ_e14 := (cD (cA (cM (cN 3) (cR (cM (cH 0) (cA (cN 3) (cM (cM (cN 4) (cH 0)) (cA (cN 2) (cH 0))))))) (cM (cN 2) (cR (cM (cW (cH 0) 6) (cA (cN 3) (cM (cM (cN 4) (cH 0)) (cA (cN 2) (cH 0)))))))) (cM (cR (cA (cN 1) (cH 0))) (cA (cN 3) (cM (cM (cN 4) (cH 0)) (cA (cN 2) (cH 0)))))).
Definition ISOSZ_e15 := (cO (cD (cN 1) (cR (cM (cA (cN 1) (cH 0)) (cA (cN 1) (cM (cN 2) (cH 0))))))).
Definition ISOSZ_e16 := (cD (cR (cA (cN 2) (cD (cN 1) (cA (cN 1) (cH 0))))) (cN 2)).
Definition ISOSZ_e17 := (cO (cD (cM (cG [] 0) (cH 0)) (cM (cR (cN 2)) (cR (cM (cH 0) (cA (cN 1) (cH 0))))))).
Definition ISOSZ_e18 := (cO (cD (cG [] 0) (cR (cA (cN 1) (cD (cN 1) (cA (cN 1) (cM (cN 2) (cH 0)))))))).
Definition ISOSZ_e19 := (cD (cM (cG [] 0) (cR (cB (cN 2) (cD (cN 1) (cA (cN 1) (cH 0)))))) (cN 2)).
Definition ISOSZ_e20 := (cO (cD (cN 1) (cR (cN 2)))).
Definition ISOSZ_e21 := (cM (cG [] 0) (cR (cB (cN 1) (cD (cN 1) (cM (cN 2) (cA (cN 1) (cH 0))))))).
Definition ISOSZ_e22 := (cM (cQ (-1) 2) (cM (cG [] 0) (cR (cB (cN 2) (cD (cN 1) (cA (cN 1) (cH 0))))))).
Definition ISOSZ_e23 := (cD (cB (cN (-3)) (cM (cN 2) (cH 0))) (cM (cN 2) (cR (cM (cA (cN 1) (cH 0)) (cA (cN 3) (cM (cN 2) (cH 0))))))).
Definition ISOSZ_e24 := (cD (cR (cB (cN 2) (cD (cN 1) (cH 0)))) (cN 2)).
Definition ISOSZ_e25 := (cD (cM (cG [] 0) (cA (cN 1) (cH 0))) (cM (cR (cN 2)) (cR (cM (cH 0) (cA (cN 1) (cH 0)))))).
Definition ISOSZ_e26 := (cM (cQ (-1) 2) (cM (cG [] 0) (cR (cA (cN 2) (cD (cN 1) (cH 0)))))).
Definition ISOSZ_e27 := (cO (cD (cM (cG [] 0) (cR (cA (cN 2) (cD (cN 1) (cH 0))))) (cR (cN 2)))).
Definition ISOSZ_e28 := (cD (cM (cG [] 0) (cR (cA (cN 2) (cD (cN 1) (cH 0))))) (cN 2)).
Definition ISOSZ_e29 := (cM (cQ (-1) 2) (cR (cB (cN 2) (cD (cN 1) (cH 0))))).
Definition ISOSZ_e30 := (cM (cG [] 0) (cR (cB (cN 1) (cD (cN 1) (cM (cN 2) (cH 0)))))).
Definition ISOSZ_e31 := (cO (cD (cM (cG [] 0) (cA (cN 1) (cH 0))) (cM (cR (cN 2)) (cR (cM (cH 0) (cA (cN 1) (cH 0))))))).
Definition ISOSZ_e32 := (cD (cG [] 0) (cR (cA (cN 2) (cD (cN 2) (cH 0))))).
Definition ISOSZ_e33 := (cO (cM (cG [] 0) (cR (cA (cN 1) (cD (cN 1) (cA (cN 2) (cM (cN 2) (cH 0)))))))).
Definition ISOSZ_e34 := (cO (cM (cG [] 0) (cR (cD (cH 0) (cA (cN 1) (cM (cN 2) (cH 0))))))).
Definition ISOSZ_e35 := (cD (cM (cG [] 0) (cA (cN 1) (cH 0))) (cR (cM (cA (cN 1) (cH 0)) (cA (cN 1) (cM (cN 2) (cH 0)))))).
Definition ISOSZ_e36 := (cO (cM (cM (cG [] 0) (cR (cN 2))) (cR (cD (cH 0) (cA (cN 1) (cM (cN 2) (cH 0))))))).
Definition ISOSZ_e37 := (cD (cM (cM (cN 2) (cG [] 0)) (cA (cN 1) (cH 0))) (cR (cA (cA (cN 2) (cM (cN 6) (cH 0))) (cM (cN 4) (cW (cH 0) 4))))).
Definition ISOSZ_e38 := (cM (cG [] 0) (cR (cD (cH 0) (cA (cN 1) (cM (cN 2) (cH 0)))))).
Definition ISOSZ_e39 := (cO (cD (cM (cG [] 0) (cA (cN 1) (cH 0))) (cR (cM (cA (cN 1) (cH 0)) (cA (cN 1) (cM (cN 2) (cH 0))))))).

(** /repo/c++/symmetry/nrg-recalc-ISOSZ.hpp recalc_doublet, isosz/isosz-1ch-doubletmp.dat *)
Definition isosz_1ch_t0 : ten_table := mk_ten "doublet" [ShLin 0%nat 1 (-1); ShLin 1%nat 1 1] [2; (-1)] [
  (1, 1, [ShLin 0%nat 1 (-1); ShLin 1%nat 1 0], [ShLin 0%nat 1 (-2); ShLin 1%nat 1 1], Some (cN 1));
  (1, 2, [ShLin 0%nat 1 (-1); ShLin 1%nat 1 0], [ShLin 0%nat 1 0; ShLin 1%nat 1 1], Some ISOSZ_e0);
  (2, 2, [ShLin 0%nat 1 1; ShLin 1%nat 1 0], [ShLin 0%nat 1 0; ShLin 1%nat 1 1], Some ISOSZ_e1);
  (3, 3, [ShLin 0%nat 1 0; ShLin 1%nat 1 (-1)], [ShLin 0%nat 1 (-1); ShLin 1%nat 1 0], Some (cN (-1)));
  (4, 4, [ShLin 0%nat 1 0; ShLin 1%nat 1 1], [ShLin 0%nat 1 (-1); ShLin 1%nat 1 2], Some (cN (-1)))].
(** /repo/c++/symmetry/nrg-recalc-ISOSZ.hpp recalc_doublet, isosz/isosz-1ch-doubletmm.dat *)
Definition isosz_1ch_t1 : ten_table := mk_ten "doublet" [ShLin 0%nat 1 (-1); ShLin 1%nat 1 (-1)] [2; 1] [
  (1, 1, [ShLin 0%nat 1 (-1); ShLin 1%nat 1 0], [ShLin 0%nat 1 (-2); ShLin 1%nat 1 (-1)], Some (cN 1));
  (1, 2, [ShLin 0%nat 1 (-1); ShLin 1%nat 1 0], [ShLin 0%nat 1 0; ShLin 1%nat 1 (-1)], Some ISOSZ_e0);
  (2, 2, [ShLin 0%nat 1 1; ShLin 1%nat 1 0], [ShLin 0%nat 1 0; ShLin 1%nat 1 (-1)], Some ISOSZ_e1);
  (3, 3, [ShLin 0%nat 1 0; ShLin 1%nat 1 (-1)], [ShLin 0%nat 1 (-1); ShLin 1%nat 1 (-2)], Some (cN (-1)));
  (4, 4, [ShLin 0%nat 1 0; ShLin 1%nat 1 1], [ShLin 0%nat 1 (-1); ShLin 1%nat 1 0], Some (cN (-1)))].
(** /repo/c++/symmetry/nrg-recalc-ISOSZ.hpp recalc_doublet, isosz/isosz-1ch-doubletpp.dat *)
Definition isosz_1ch_t2 : ten_table := mk_ten "doublet" [ShLin 0%nat 1 1; ShLin 1%nat 1 1] [2; (-1)] [
  (1, 1, [ShLin 0%nat 1 (-1); ShLin 1%nat 1 0], [ShLin 0%nat 1 0; ShLin 1%nat 1 1], Some ISOSZ_e1);
  (2, 1, [ShLin 0%nat 1 1; ShLin 1%nat 1 0], [ShLin 0%nat 1 0; ShLin 1%nat 1 1], Some ISOSZ_e2);
  (2, 2, [ShLin 0%nat 1 1; ShLin 1%nat 1 0], [ShLin 0%nat 1 2; ShLin 1%nat 1 1], Some (cN 1));
  (3, 3, [ShLin 0%nat 1 0; ShLin 1%nat 1 (-1)], [ShLin 0%nat 1 1; ShLin 1%nat 1 0], Some (cN (-1)));
  (4, 4, [ShLin 0%nat 1 0; ShLin 1%nat 1 1], [ShLin 0%nat 1 1; ShLin 1%nat 1 2], Some (cN (-1)))].
(** /repo/c++/symmetry/nrg-recalc-ISOSZ.hpp recalc_doublet, isosz/isosz-1ch-doubletpm.dat *)
Definition isosz_1ch_t3 : ten_table := mk_ten "doublet" [ShLin 0%nat 1 1; ShLin 1%nat 1 (-1)] [2; 1] [
  (1, 1, [ShLin 0%nat 1 (-1); ShLin 1%nat 1 0], [ShLin 0%nat 1 0; ShLin 1%nat 1 (-1)], Some ISOSZ_e1);
  (2, 1, [ShLin 0%nat 1 1; ShLin 1%nat 1 0], [ShLin 0%nat 1 0; ShLin 1%nat 1 (-1)], Some ISOSZ_e2);
  (2, 2, [ShLin 0%nat 1 1; ShLin 1%nat 1 0], [ShLin 0%nat 1 2; ShLin 1%nat 1 (-1)], Some (cN 1));
  (3, 3, [ShLin 0%nat 1 0; ShLin 1%nat 1 (-1)], [ShLin 0%nat 1 1; ShLin 1%nat 1 (-2)], Some (cN (-1)));
  (4, 4, [ShLin 0%nat 1 0; ShLin 1%nat 1 1], [ShLin 0%nat 1 1; ShLin 1%nat 1 0], Some (cN (-1)))].
(** /repo/c++/symmetry/nrg-recalc-ISOSZ.hpp recalc_irreduc, isosz/isosz-1ch-spinup-isoupa.dat *)
Definition isosz_1ch_t4 : irr_table := mk_irr 0 0 [ShLin 0%nat 1 1; ShLin 1%nat 1 1]  [
  (1, 4, Some (cN 1));
  (3, 2, Some ISOSZ_e3)].
(** /repo/c++/symmetry/nrg-recalc-ISOSZ.hpp recalc_irreduc, isosz/isosz-1ch-spindown-isoupa.dat *)
Definition isosz_1ch_t5 : irr_table := mk_irr 0 0 [ShLin 0%nat 1 1; ShLin 1%nat 1 (-1)]  [
  (1, 3, Some (cN (-1)));
  (4, 2, Some ISOSZ_e3)].
(** /repo/c++/symmetry/nrg-recalc-ISOSZ.hpp recalc_irreduc, isosz/isosz-1ch-spinup-isodowna.dat *)
Definition isosz_1ch_t6 : irr_table := mk_irr 0 0 [ShLin 0%nat 1 (-1); ShLin 1%nat 1 1]  [
  (2, 4, Some (cN 1));
  (3, 1, Some ISOSZ_e4)].
(** /repo/c++/symmetry/nrg-recalc-ISOSZ.hpp recalc_irreduc, isosz/isosz-1ch-spindown-isodowna.dat *)
Definition isosz_1ch_t7 : irr_table := mk_irr 0 0 [ShLin 0%nat 1 (-1); ShLin 1%nat 1 (-1)]  [
  (2, 3, Some (cN (-1)));
  (4, 1, Some ISOSZ_e4)].
(** /repo/c++/symmetry/nrg-recalc-ISOSZ.hpp recalc_triplet, isosz/isosz-1ch-triplets.dat *)
Definition isosz_1ch_t8 : ten_table := mk_ten "triplet" [ShLin 0%nat 1 0; ShLin 1%nat 1 0] [1; 0] [
  (1, 1, [ShLin 0%nat 1 (-1); ShLin 1%nat 1 0], [ShLin 0%nat 1 (-1); ShLin 1%nat 1 0], Some (cN 1));
  (2, 2, [ShLin 0%nat 1 1; ShLin 1%nat 1 0], [ShLin 0%nat 1 1; ShLin 1%nat 1 0], Some (cN 1));
  (3, 3, [ShLin 0%nat 1 0; ShLin 1%nat 1 (-1)], [ShLin 0%nat 1 0; ShLin 1%nat 1 (-1)], Some (cN 1));
  (4, 4, [ShLin 0%nat 1 0; ShLin 1%nat 1 1], [ShLin 0%nat 1 0; ShLin 1%nat 1 1], Some (cN 1))].
(** /repo/c++/symmetry/nrg-recalc-ISOSZ.hpp recalc_triplet, isosz/isosz-1ch-tripletp.dat *)
Definition isosz_1ch_t9 : ten_table := mk_ten "triplet" [ShLin 0%nat 1 0; ShLin 1%nat 1 2] [1; (-2)] [
  (1, 1, [ShLin 0%nat 1 (-1); ShLin 1%nat 1 0], [ShLin 0%nat 1 (-1); ShLin 1%nat 1 2], Some (cN 1));
  (2, 2, [ShLin 0%nat 1 1; ShLin 1%nat 1 0], [ShLin 0%nat 1 1; ShLin 1%nat 1 2], Some (cN 1));
  (3, 3, [ShLin 0%nat 1 0; ShLin 1%nat 1 (-1)], [ShLin 0%nat 1 0; ShLin 1%nat 1 1], Some (cN 1));
  (4, 4, [ShLin 0%nat 1 0; ShLin 1%nat 1 1], [ShLin 0%nat 1 0; ShLin 1%nat 1 3], Some (cN 1))].
(** /repo/c++/symmetry/nrg-recalc-ISOSZ.hpp recalc_triplet, isosz/isosz-1ch-tripletm.dat *)
Definition isosz_1ch_t10 : ten_table := mk_ten "triplet" [ShLin 0%nat 1 0; ShLin 1%nat 1 (-2)] [1; 2] [
  (1, 1, [ShLin 0%nat 1 (-1); ShLin 1%nat 1 0], [ShLin 0%nat 1 (-1); ShLin 1%nat 1 (-2)], Some (cN 1));
  (2, 2, [ShLin 0%nat 1 1; ShLin 1%nat 1 0], [ShLin 0%nat 1 1; ShLin 1%nat 1 (-2)], Some (cN 1));
  (3, 3, [ShLin 0%nat 1 0; ShLin 1%nat 1 (-1)], [ShLin 0%nat 1 0; ShLin 1%nat 1 (-3)], Some (cN 1));
  (4, 4, [ShLin 0%nat 1 0; ShLin 1%nat 1 1], [ShLin 0%nat 1 0; ShLin 1%nat 1 (-1)], Some (cN 1))].
(** /repo/c++/symmetry/sym-ISOSZ-impl.hpp, make_matrix  *)
Definition isosz_1ch_m0_o : list off_line := [
  (1, 3, 0, 0, "xi", Some ISOSZ_e5);
  (1, 4, 0, 0, "xi", Some ISOSZ_e5);
  (2, 3, 0, 0, "xi", Some ISOSZ_e6);
  (2, 4, 0, 0, "xi", Some ISOSZ_e6)].
(** /repo/c++/symmetry/sym-ISOSZ-impl.hpp, make_matrix  *)
Definition isosz_1ch_m0_d : list diag_line := [
  ].
(** /repo/c++/symmetry/sym-ISOSZ-impl.hpp, make_matrix  *)
Definition isosz_1ch_m0_f : list dof_line := [
  ].
Definition coef_isosz_1ch : coef_set := mk_coef "ISOSZ" 1%nat sym_ISOSZ {| tb_In := isosz_1ch_In; tb_QN := isosz_1ch_QN |}
  [isosz_1ch_t4; isosz_1ch_t5; isosz_1ch_t6; isosz_1ch_t7]
  [isosz_1ch_t0; isosz_1ch_t1; isosz_1ch_t2; isosz_1ch_t3; isosz_1ch_t8; isosz_1ch_t9; isosz_1ch_t10]
  [mk_mode "default" isosz_1ch_m0_o isosz_1ch_m0_d isosz_1ch_m0_f].
(** /repo/c++/symmetry/nrg-recalc-ISOSZ.hpp recalc_doublet, isosz/isosz-2ch-doubletmp.dat *)
Definition isosz_2ch_t0 : ten_table := mk_ten "doublet" [ShLin 0%nat 1 (-1); ShLin 1%nat 1 1] [2; (-1)] [
  (1, 1, [ShLin 0%nat 1 (-2); ShLin 1%nat 1 0], [ShLin 0%nat 1 (-3); ShLin 1%nat 1 1], Some (cN 1));
  (1, 2, [ShLin 0%nat 1 (-2); ShLin 1%nat 1 0], [ShLin 0%nat 1 (-1); ShLin 1%nat 1 1], Some ISOSZ_e7);
  (2, 2, [ShLin 0%nat 1 0; ShLin 1%nat 1 0], [ShLin 0%nat 1 (-1); ShLin 1%nat 1 1], Some ISOSZ_e8);
  (2, 3, [ShLin 0%nat 1 0; ShLin 1%nat 1 0], [ShLin 0%nat 1 1; ShLin 1%nat 1 1], Some ISOSZ_e9);
  (3, 3, [ShLin 0%nat 1 2; ShLin 1%nat 1 0], [ShLin 0%nat 1 1; ShLin 1%nat 1 1], Some ISOSZ_e10);
  (4, 4, [ShLin 0%nat 1 (-1); ShLin 1%nat 1 (-1)], [ShLin 0%nat 1 (-2); ShLin 1%nat 1 0], Some (cN (-1)));
  (4, 5, [ShLin 0%nat 1 (-1); ShLin 1%nat 1 (-1)], [ShLin 0%nat 1 0; ShLin 1%nat 1 0], Some ISOSZ_e2);
  (5, 5, [ShLin 0%nat 1 1; ShLin 1%nat 1 (-1)], [ShLin 0%nat 1 0; ShLin 1%nat 1 0], Some ISOSZ_e11);
  (6, 6, [ShLin 0%nat 1 (-1); ShLin 1%nat 1 (-1)], [ShLin 0%nat 1 (-2); ShLin 1%nat 1 0], Some (cN (-1)));
  (6, 7, [ShLin 0%nat 1 (-1); ShLin 1%nat 1 (-1)], [ShLin 0%nat 1 0; ShLin 1%nat 1 0], Some ISOSZ_e2);
  (7, 7, [ShLin 0%nat 1 1; ShLin 1%nat 1 (-1)], [ShLin 0%nat 1 0; ShLin 1%nat 1 0], Some ISOSZ_e11);
  (8, 8, [ShLin 0%nat 1 (-1); ShLin 1%nat 1 1], [ShLin 0%nat 1 (-2); ShLin 1%nat 1 2], Some (cN (-1)));
  (8, 9, [ShLin 0%nat 1 (-1); ShLin 1%nat 1 1], [ShLin 0%nat 1 0; ShLin 1%nat 1 2], Some ISOSZ_e2);
  (9, 9, [ShLin 0%nat 1 1; ShLin 1%nat 1 1], [ShLin 0%nat 1 0; ShLin 1%nat 1 2], Some ISOSZ_e11);
  (10, 10, [ShLin 0%nat 1 (-1); ShLin 1%nat 1 1], [ShLin 0%nat 1 (-2); ShLin 1%nat 1 2], Some (cN (-1)));
  (10, 11, [ShLin 0%nat 1 (-1); ShLin 1%nat 1 1], [ShLin 0%nat 1 0; ShLin 1%nat 1 2], Some ISOSZ_e2);
  (11, 11, [ShLin 0%nat 1 1; ShLin 1%nat 1 1], [ShLin 0%nat 1 0; ShLin 1%nat 1 2], Some ISOSZ_e11);
  (12, 12, [ShLin 0%nat 1 0; ShLin 1%nat 1 (-2)], [ShLin 0%nat 1 (-1); ShLin 1%nat 1 (-1)], Some (cN 1));
  (13, 13, [ShLin 0%nat 1 0; ShLin 1%nat 1 0], [ShLin 0%nat 1 (-1); ShLin 1%nat 1 1], Some (cN 1));
  (14, 14, [ShLin 0%nat 1 0; ShLin 1%nat 1 0], [ShLin 0%nat 1 (-1); ShLin 1%nat 1 1], Some (cN 1));
  (15, 15, [ShLin 0%nat 1 0; ShLin 1%nat 1 0], [ShLin 0%nat 1 (-1); ShLin 1%nat 1 1], Some (cN 1));
  (16, 16, [ShLin 0%nat 1 0; ShLin 1%nat 1 2], [ShLin 0%nat 1 (-1); ShLin 1%nat 1 3], Some (cN 1))].
(** /repo/c++/symmetry/nrg-recalc-ISOSZ.hpp recalc_doublet, isosz/isosz-2ch-doubletmm.dat *)
Definition isosz_2ch_t1 : ten_table := mk_ten "doublet" [ShLin 0%nat 1 (-1); ShLin 1%nat 1 (-1)] [2; 1] [
  (1, 1, [ShLin 0%nat 1 (-2); ShLin 1%nat 1 0], [ShLin 0%nat 1 (-3); ShLin 1%nat 1 (-1)], Some (cN 1));
  (1, 2, [ShLin 0%nat 1 (-2); ShLin 1%nat 1 0], [ShLin 0%nat 1 (-1); ShLin 1%nat 1 (-1)], Some ISOSZ_e7);
  (2, 2, [ShLin 0%nat 1 0; ShLin 1%nat 1 0], [ShLin 0%nat 1 (-1); ShLin 1%nat 1 (-1)], Some ISOSZ_e8);
  (2, 3, [ShLin 0%nat 1 0; ShLin 1%nat 1 0], [ShLin 0%nat 1 1; ShLin 1%nat 1 (-1)], Some ISOSZ_e9);
  (3, 3, [ShLin 0%nat 1 2; ShLin 1%nat 1 0], [ShLin 0%nat 1 1; ShLin 1%nat 1 (-1)], Some ISOSZ_e10);
  (4, 4, [ShLin 0%nat 1 (-1); ShLin 1%nat 1 (-1)], [ShLin 0%nat 1 (-2); ShLin 1%nat 1 (-2)], Some (cN (-1)));
  (4, 5, [ShLin 0%nat 1 (-1); ShLin 1%nat 1 (-1)], [ShLin 0%nat 1 0; ShLin 1%nat 1 (-2)], Some ISOSZ_e2);
  (5, 5, [ShLin 0%nat 1 1; ShLin 1%nat 1 (-1)], [ShLin 0%nat 1 0; ShLin 1%nat 1 (-2)], Some ISOSZ_e11);
  (6, 6, [ShLin 0%nat 1 (-1); ShLin 1%nat 1 (-1)], [ShLin 0%nat 1 (-2); ShLin 1%nat 1 (-2)], Some (cN (-1)));
  (6, 7, [ShLin 0%nat 1 (-1); ShLin 1%nat 1 (-1)], [ShLin 0%nat 1 0; ShLin 1%nat 1 (-2)], Some ISOSZ_e2);
  (7, 7, [ShLin 0%nat 1 1; ShLin 1%nat 1 (-1)], [ShLin 0%nat 1 0; ShLin 1%nat 1 (-2)], Some ISOSZ_e11);
  (8, 8, [ShLin 0%nat 1 (-1); ShLin 1%nat 1 1], [ShLin 0%nat 1 (-2); ShLin 1%nat 1 0], Some (cN (-1)));
  (8, 9, [ShLin 0%nat 1 (-1); ShLin 1%nat 1 1], [ShLin 0%nat 1 0; ShLin 1%nat 1 0], Some ISOSZ_e2);
  (9, 9, [ShLin 0%nat 1 1; ShLin 1%nat 1 1], [ShLin 0%nat 1 0; ShLin 1%nat 1 0], Some ISOSZ_e11);
  (10, 10, [ShLin 0%nat 1 (-1); ShLin 1%nat 1 1], [ShLin 0%nat 1 (-2); ShLin 1%nat 1 0], Some (cN (-1)));
  (10, 11, [ShLin 0%nat 1 (-1); ShLin 1%nat 1 1], [ShLin 0%nat 1 0; ShLin 1%nat 1 0], Some ISOSZ_e2);
  (11, 11, [ShLin 0%nat 1 1; ShLin 1%nat 1 1], [ShLin 0%nat 1 0; ShLin 1%nat 1 0], Some ISOSZ_e11);
  (12, 12, [ShLin 0%nat 1 0; ShLin 1%nat 1 (-2)], [ShLin 0%nat 1 (-1); ShLin 1%nat 1 (-3)], Some (cN 1));
  (13, 13, [ShLin 0%nat 1 0; ShLin 1%nat 1 0], [ShLin 0%nat 1 (-1); ShLin 1%nat 1 (-1)], Some (cN 1));
  (14, 14, [ShLin 0%nat 1 0; ShLin 1%nat 1 0], [ShLin 0%nat 1 (-1); ShLin 1%nat 1 (-1)], Some (cN 1));
  (15, 15, [ShLin 0%nat 1 0; ShLin 1%nat 1 0], [ShLin 0%nat 1 (-1); ShLin 1%nat 1 (-1)], Some (cN 1));
  (16, 16, [ShLin 0%nat 1 0; ShLin 1%nat 1 2], [ShLin 0%nat 1 (-1); ShLin 1%nat 1 1], Some (cN 1))].
(** /repo/c++/symmetry/nrg-recalc-ISOSZ.hpp recalc_doublet, isosz/isosz-2ch-doubletpp.dat *)
Definition isosz_2ch_t2 : ten_table := mk_ten "doublet" [ShLin 0%nat 1 1; ShLin 1%nat 1 1] [2; (-1)] [
  (1, 1, [ShLin 0%nat 1 (-2); ShLin 1%nat 1 0], [ShLin 0%nat 1 (-1); ShLin 1%nat 1 1], Some ISOSZ_e12);
  (2, 1, [ShLin 0%nat 1 0; ShLin 1%nat 1 0], [ShLin 0%nat 1 (-1); ShLin 1%nat 1 1], Some ISOSZ_e13);
  (2, 2, [ShLin 0%nat 1 0; ShLin 1%nat 1 0], [ShLin 0%nat 1 1; ShLin 1%nat 1 1], Some ISOSZ_e14);
  (3, 2, [ShLin 0%nat 1 2; ShLin 1%nat 1 0], [ShLin 0%nat 1 1; ShLin 1%nat 1 1], Some ISOSZ_e15);
  (3, 3, [ShLin 0%nat 1 2; ShLin 1%nat 1 0], [ShLin 0%nat 1 3; ShLin 1%nat 1 1], Some (cN 1));
  (4, 4, [ShLin 0%nat 1 (-1); ShLin 1%nat 1 (-1)], [ShLin 0%nat 1 0; ShLin 1%nat 1 0], Some ISOSZ_e11);
  (5, 4, [ShLin 0%nat 1 1; ShLin 1%nat 1 (-1)], [ShLin 0%nat 1 0; ShLin 1%nat 1 0], Some ISOSZ_e0);
  (5, 5, [ShLin 0%nat 1 1; ShLin 1%nat 1 (-1)], [ShLin 0%nat 1 2; ShLin 1%nat 1 0], Some (cN (-1)));
  (6, 6, [ShLin 0%nat 1 (-1); ShLin 1%nat 1 (-1)], [ShLin 0%nat 1 0; ShLin 1%nat 1 0], Some ISOSZ_e11);
  (7, 6, [ShLin 0%nat 1 1; ShLin 1%nat 1 (-1)], [ShLin 0%nat 1 0; ShLin 1%nat 1 0], Some ISOSZ_e0);
  (7, 7, [ShLin 0%nat 1 1; ShLin 1%nat 1 (-1)], [ShLin 0%nat 1 2; ShLin 1%nat 1 0], Some (cN (-1)));
  (8, 8, [ShLin 0%nat 1 (-1); ShLin 1%nat 1 1], [ShLin 0%nat 1 0; ShLin 1%nat 1 2], Some ISOSZ_e11);
  (9, 8, [ShLin 0%nat 1 1; ShLin 1%nat 1 1], [ShLin 0%nat 1 0; ShLin 1%nat 1 2], Some ISOSZ_e0);
  (9, 9, [ShLin 0%nat 1 1; ShLin 1%nat 1 1], [ShLin 0%nat 1 2; ShLin 1%nat 1 2], Some (cN (-1)));
  (10, 10, [ShLin 0%nat 1 (-1); ShLin 1%nat 1 1], [ShLin 0%nat 1 0; ShLin 1%nat 1 2], Some ISOSZ_e11);
  (11, 10, [ShLin 0%nat 1 1; ShLin 1%nat 1 1], [ShLin 0%nat 1 0; ShLin 1%nat 1 2], Some ISOSZ_e0);
  (11, 11, [ShLin 0%nat 1 1; ShLin 1%nat 1 1], [ShLin 0%nat 1 2; ShLin 1%nat 1 2], Some (cN (-1)));
  (12, 12, [ShLin 0%nat 1 0; ShLin 1%nat 1 (-2)], [ShLin 0%nat 1 1; ShLin 1%nat 1 (-1)], Some (cN 1));
  (13, 13, [ShLin 0%nat 1 0; ShLin 1%nat 1 0], [ShLin 0%nat 1 1; ShLin 1%nat 1 1], Some (cN 1));
  (14, 14, [ShLin 0%nat 1 0; ShLin 1%nat 1 0], [ShLin 0%nat 1 1; ShLin 1%nat 1 1], Some (cN 1));
  (15, 15, [ShLin 0%nat 1 0; ShLin 1%nat 1 0], [ShLin 0%nat 1 1; ShLin 1%nat 1 1], Some (cN 1));
  (16, 16, [ShLin 0%nat 1 0; ShLin 1%nat 1 2], [ShLin 0%nat 1 1; ShLin 1%nat 1 3], Some (cN 1))].
(** /repo/c++/symmetry/nrg-recalc-ISOSZ.hpp recalc_doublet, isosz/isosz-2ch-doubletpm.dat *)
Definition isosz_2ch_t3 : ten_table := mk_ten "doublet" [ShLin 0%nat 1 1; ShLin 1%nat 1 (-1)] [2; 1] [
  (1, 1, [ShLin 0%nat 1 (-2); ShLin 1%nat 1 0], [ShLin 0%nat 1 (-1); ShLin 1%nat 1 (-1)], Some ISOSZ_e12);
  (2, 1, [ShLin 0%nat 1 0; ShLin 1%nat 1 0], [ShLin 0%nat 1 (-1); ShLin 1%nat 1 (-1)], Some ISOSZ_e13);
  (2, 2, [ShLin 0%nat 1 0; ShLin 1%nat 1 0], [ShLin 0%nat 1 1; ShLin 1%nat 1 (-1)], Some ISOSZ_e14);
  (3, 2, [ShLin 0%nat 1 2; ShLin 1%nat 1 0], [ShLin 0%nat 1 1; ShLin 1%nat 1 (-1)], Some ISOSZ_e15);
  (3, 3, [ShLin 0%nat 1 2; ShLin 1%nat 1 0], [ShLin 0%nat 1 3; ShLin 1%nat 1 (-1)], Some (cN 1));
  (4, 4, [ShLin 0%nat 1 (-1); ShLin 1%nat 1 (-1)], [ShLin 0%nat 1 0; ShLin 1%nat 1 (-2)], Some ISOSZ_e11);
  (5, 4, [ShLin 0%nat 1 1; ShLin 1%nat 1 (-1)], [ShLin 0%nat 1 0; ShLin 1%nat 1 (-2)], Some ISOSZ_e0);
  (5, 5, [ShLin 0%nat 1 1; ShLin 1%nat 1 (-1)], [ShLin 0%nat 1 2; ShLin 1%nat 1 (-2)], Some (cN (-1)));
  (6, 6, [ShLin 0%nat 1 (-1); ShLin 1%nat 1 (-1)], [ShLin 0%nat 1 0; ShLin 1%nat 1 (-2)], Some ISOSZ_e11);
  (7, 6, [ShLin 0%nat 1 1; ShLin 1%nat 1 (-1)], [ShLin 0%nat 1 0; ShLin 1%nat 1 (-2)], Some ISOSZ_e0);
  (7, 7, [ShLin 0%nat 1 1; ShLin 1%nat 1 (-1)], [ShLin 0%nat 1 2; ShLin 1%nat 1 (-2)], Some (cN (-1)));
  (8, 8, [ShLin 0%nat 1 (-1); ShLin 1%nat 1 1], [ShLin 0%nat 1 0; ShLin 1%nat 1 0], Some ISOSZ_e11);
  (9, 8, [ShLin 0%nat 1 1; ShLin 1%nat 1 1], [ShLin 0%nat 1 0; ShLin 1%nat 1 0], Some ISOSZ_e0);
  (9, 9, [ShLin 0%nat 1 1; ShLin 1%nat 1 1], [ShLin 0%nat 1 2; ShLin 1%nat 1 0], Some (cN (-1)));
  (10, 10, [ShLin 0%nat 1 (-1); ShLin 1%nat 1 1], [ShLin 0%nat 1 0; ShLin 1%nat 1 0], Some ISOSZ_e11);
  (11, 10, [ShLin 0%nat 1 1; ShLin 1%nat 1 1], [ShLin 0%nat 1 0; ShLin 1%nat 1 0], Some ISOSZ_e0);
  (11, 11, [ShLin 0%nat 1 1; ShLin 1%nat 1 1], [ShLin 0%nat 1 2; ShLin 1%nat 1 0], Some (cN (-1)));
  (12, 12, [ShLin 0%nat 1 0; ShLin 1%nat 1 (-2)], [ShLin 0%nat 1 1; ShLin 1%nat 1 (-3)], Some (cN 1));
  (13, 13, [ShLin 0%nat 1 0; ShLin 1%nat 1 0], [ShLin 0%nat 1 1; ShLin 1%nat 1 (-1)], Some (cN 1));
  (14, 14, [ShLin 0%nat 1 0; ShLin 1%nat 1 0], [ShLin 0%nat 1 1; ShLin 1%nat 1 (-1)], Some (cN 1));
  (15, 15, [ShLin 0%nat 1 0; ShLin 1%nat 1 0], [ShLin 0%nat 1 1; ShLin 1%nat 1 (-1)], Some (cN 1));
  (16, 16, [ShLin 0%nat 1 0; ShLin 1%nat 1 2], [ShLin 0%nat 1 1; ShLin 1%nat 1 1], Some (cN 1))].
(** /repo/c++/symmetry/nrg-recalc-ISOSZ.hpp recalc_irreduc, isosz/isosz-2ch-spinup-isoupa.dat *)
Definition isosz_2ch_t4 : irr_table := mk_irr 0 0 [ShLin 0%nat 1 1; ShLin 1%nat 1 1]  [
  (1, 8, Some (cN 1));
  (2, 9, Some ISOSZ_e16);
  (4, 2, Some ISOSZ_e17);
  (4, 13, Some (cD (cN 1) (cR (cN 2))));
  (5, 3, Some ISOSZ_e18);
  (6, 14, Some (cN 1));
  (10, 16, Some (cN 1));
  (12, 7, Some ISOSZ_e3);
  (13, 9, Some ISOSZ_e19);
  (15, 11, Some ISOSZ_e3)].
(** /repo/c++/symmetry/nrg-recalc-ISOSZ.hpp recalc_irreduc, isosz/isosz-2ch-spinup-isoupb.dat *)
Definition isosz_2ch_t5 : irr_table := mk_irr 1 0 [ShLin 0%nat 1 1; ShLin 1%nat 1 1]  [
  (1, 10, Some (cN 1));
  (2, 11, Some ISOSZ_e16);
  (4, 15, Some (cN (-1)));
  (6, 2, Some ISOSZ_e17);
  (6, 13, Some ISOSZ_e20);
  (7, 3, Some ISOSZ_e18);
  (8, 16, Some (cN (-1)));
  (12, 5, Some ISOSZ_e21);
  (13, 11, Some ISOSZ_e22);
  (14, 9, Some ISOSZ_e21)].
(** /repo/c++/symmetry/nrg-recalc-ISOSZ.hpp recalc_irreduc, isosz/isosz-2ch-spindown-isoupa.dat *)
Definition isosz_2ch_t6 : irr_table := mk_irr 0 0 [ShLin 0%nat 1 1; ShLin 1%nat 1 (-1)]  [
  (1, 4, Some (cN (-1)));
  (2, 5, Some ISOSZ_e23);
  (6, 12, Some (cN (-1)));
  (8, 2, Some ISOSZ_e17);
  (8, 13, Some (cD (cN 1) (cR (cN 2))));
  (9, 3, Some ISOSZ_e18);
  (10, 15, Some (cN (-1)));
  (13, 5, Some ISOSZ_e22);
  (14, 7, Some ISOSZ_e3);
  (16, 11, Some ISOSZ_e3)].
(** /repo/c++/symmetry/nrg-recalc-ISOSZ.hpp recalc_irreduc, isosz/isosz-2ch-spindown-isoupb.dat *)
Definition isosz_2ch_t7 : irr_table := mk_irr 1 0 [ShLin 0%nat 1 1; ShLin 1%nat 1 (-1)]  [
  (1, 6, Some (cN (-1)));
  (2, 7, Some ISOSZ_e23);
  (4, 12, Some (cN 1));
  (8, 14, Some (cN 1));
  (10, 2, Some ISOSZ_e17);
  (10, 13, Some ISOSZ_e20);
  (11, 3, Some ISOSZ_e18);
  (13, 7, Some ISOSZ_e19);
  (15, 5, Some ISOSZ_e21);
  (16, 9, Some ISOSZ_e21)].
(** /repo/c++/symmetry/nrg-recalc-ISOSZ.hpp recalc_irreduc, isosz/isosz-2ch-spinup-isodowna.dat *)
Definition isosz_2ch_t8 : irr_table := mk_irr 0 0 [ShLin 0%nat 1 (-1); ShLin 1%nat 1 1]  [
  (2, 8, Some ISOSZ_e24);
  (3, 9, Some (cN 1));
  (4, 1, Some ISOSZ_e4);
  (5, 2, Some ISOSZ_e25);
  (5, 13, Some (cD (cN 1) (cR (cN 2))));
  (7, 14, Some (cN 1));
  (11, 16, Some (cN 1));
  (12, 6, Some ISOSZ_e4);
  (13, 8, Some ISOSZ_e26);
  (15, 10, Some ISOSZ_e4)].
(** /repo/c++/symmetry/nrg-recalc-ISOSZ.hpp recalc_irreduc, isosz/isosz-2ch-spinup-isodownb.dat *)
Definition isosz_2ch_t9 : irr_table := mk_irr 1 0 [ShLin 0%nat 1 (-1); ShLin 1%nat 1 1]  [
  (2, 10, Some ISOSZ_e24);
  (3, 11, Some (cN 1));
  (5, 15, Some (cN (-1)));
  (6, 1, Some ISOSZ_e4);
  (7, 2, Some ISOSZ_e25);
  (7, 13, Some ISOSZ_e20);
  (9, 16, Some (cN (-1)));
  (12, 4, Some ISOSZ_e27);
  (13, 10, Some ISOSZ_e28);
  (14, 8, Some ISOSZ_e27)].
(** /repo/c++/symmetry/nrg-recalc-ISOSZ.hpp recalc_irreduc, isosz/isosz-2ch-spindown-isodowna.dat *)
Definition isosz_2ch_t10 : irr_table := mk_irr 0 0 [ShLin 0%nat 1 (-1); ShLin 1%nat 1 (-1)]  [
  (2, 4, Some ISOSZ_e29);
  (3, 5, Some (cN (-1)));
  (7, 12, Some (cN (-1)));
  (8, 1, Some ISOSZ_e4);
  (9, 2, Some ISOSZ_e25);
  (9, 13, Some (cD (cN 1) (cR (cN 2))));
  (11, 15, Some (cN (-1)));
  (13, 4, Some ISOSZ_e28);
  (14, 6, Some ISOSZ_e4);
  (16, 10, Some ISOSZ_e4)].
(** /repo/c++/symmetry/nrg-recalc-ISOSZ.hpp recalc_irreduc, isosz/isosz-2ch-spindown-isodownb.dat *)
Definition isosz_2ch_t11 : irr_table := mk_irr 1 0 [ShLin 0%nat 1 (-1); ShLin 1%nat 1 (-1)]  [
  (2, 6, Some ISOSZ_e29);
  (3, 7, Some (cN (-1)));
  (5, 12, Some (cN 1));
  (9, 14, Some (cN 1));
  (10, 1, Some ISOSZ_e4);
  (11, 2, Some ISOSZ_e25);
  (11, 13, Some ISOSZ_e20);
  (13, 6, Some ISOSZ_e26);
  (15, 4, Some ISOSZ_e27);
  (16, 8, Some ISOSZ_e27)].
(** /repo/c++/symmetry/nrg-recalc-ISOSZ.hpp recalc_triplet, isosz/isosz-2ch-triplets.dat *)
Definition isosz_2ch_t12 : ten_table := mk_ten "triplet" [ShLin 0%nat 1 0; ShLin 1%nat 1 0] [1; 0] [
  (1, 1, [ShLin 0%nat 1 (-2); ShLin 1%nat 1 0], [ShLin 0%nat 1 (-2); ShLin 1%nat 1 0], Some (cN 1));
  (2, 2, [ShLin 0%nat 1 0; ShLin 1%nat 1 0], [ShLin 0%nat 1 0; ShLin 1%nat 1 0], Some (cN 1));
  (3, 3, [ShLin 0%nat 1 2; ShLin 1%nat 1 0], [ShLin 0%nat 1 2; ShLin 1%nat 1 0], Some (cN 1));
  (4, 4, [ShLin 0%nat 1 (-1); ShLin 1%nat 1 (-1)], [ShLin 0%nat 1 (-1); ShLin 1%nat 1 (-1)], Some (cN 1));
  (5, 5, [ShLin 0%nat 1 1; ShLin 1%nat 1 (-1)], [ShLin 0%nat 1 1; ShLin 1%nat 1 (-1)], Some (cN 1));
  (6, 6, [ShLin 0%nat 1 (-1); ShLin 1%nat 1 (-1)], [ShLin 0%nat 1 (-1); ShLin 1%nat 1 (-1)], Some (cN 1));
  (7, 7, [ShLin 0%nat 1 1; ShLin 1%nat 1 (-1)], [ShLin 0%nat 1 1; ShLin 1%nat 1 (-1)], Some (cN 1));
  (8, 8, [ShLin 0%nat 1 (-1); ShLin 1%nat 1 1], [ShLin 0%nat 1 (-1); ShLin 1%nat 1 1], Some (cN 1));
  (9, 9, [ShLin 0%nat 1 1; ShLin 1%nat 1 1], [ShLin 0%nat 1 1; ShLin 1%nat 1 1], Some (cN 1));
  (10, 10, [ShLin 0%nat 1 (-1); ShLin 1%nat 1 1], [ShLin 0%nat 1 (-1); ShLin 1%nat 1 1], Some (cN 1));
  (11, 11, [ShLin 0%nat 1 1; ShLin 1%nat 1 1], [ShLin 0%nat 1 1; ShLin 1%nat 1 1], Some (cN 1));
  (12, 12, [ShLin 0%nat 1 0; ShLin 1%nat 1 (-2)], [ShLin 0%nat 1 0; ShLin 1%nat 1 (-2)], Some (cN 1));
  (13, 13, [ShLin 0%nat 1 0; ShLin 1%nat 1 0], [ShLin 0%nat 1 0; ShLin 1%nat 1 0], Some (cN 1));
  (14, 14, [ShLin 0%nat 1 0; ShLin 1%nat 1 0], [ShLin 0%nat 1 0; ShLin 1%nat 1 0], Some (cN 1));
  (15, 15, [ShLin 0%nat 1 0; ShLin 1%nat 1 0], [ShLin 0%nat 1 0; ShLin 1%nat 1 0], Some (cN 1));
  (16, 16, [ShLin 0%nat 1 0; ShLin 1%nat 1 2], [ShLin 0%nat 1 0; ShLin 1%nat 1 2], Some (cN 1))].
(** /repo/c++/symmetry/nrg-recalc-ISOSZ.hpp recalc_triplet, isosz/isosz-2ch-tripletp.dat *)
Definition isosz_2ch_t13 : ten_table := mk_ten "triplet" [ShLin 0%nat 1 0; ShLin 1%nat 1 2] [1; (-2)] [
  (1, 1, [ShLin 0%nat 1 (-2); ShLin 1%nat 1 0], [ShLin 0%nat 1 (-2); ShLin 1%nat 1 2], Some (cN 1));
  (2, 2, [ShLin 0%nat 1 0; ShLin 1%nat 1 0], [ShLin 0%nat 1 0; ShLin 1%nat 1 2], Some (cN 1));
  (3, 3, [ShLin 0%nat 1 2; ShLin 1%nat 1 0], [ShLin 0%nat 1 2; ShLin 1%nat 1 2], Some (cN 1));
  (4, 4, [ShLin 0%nat 1 (-1); ShLin 1%nat 1 (-1)], [ShLin 0%nat 1 (-1); ShLin 1%nat 1 1], Some (cN 1));
  (5, 5, [ShLin 0%nat 1 1; ShLin 1%nat 1 (-1)], [ShLin 0%nat 1 1; ShLin 1%nat 1 1], Some (cN 1));
  (6, 6, [ShLin 0%nat 1 (-1); ShLin 1%nat 1 (-1)], [ShLin 0%nat 1 (-1); ShLin 1%nat 1 1], Some (cN 1));
  (7, 7, [ShLin 0%nat 1 1; ShLin 1%nat 1 (-1)], [ShLin 0%nat 1 1; ShLin 1%nat 1 1], Some (cN 1));
  (8, 8, [ShLin 0%nat 1 (-1); ShLin 1%nat 1 1], [ShLin 0%nat 1 (-1); ShLin 1%nat 1 3], Some (cN 1));
  (9, 9, [ShLin 0%nat 1 1; ShLin 1%nat 1 1], [ShLin 0%nat 1 1; ShLin 1%nat 1 3], Some (cN 1));
  (10, 10, [ShLin 0%nat 1 (-1); ShLin 1%nat 1 1], [ShLin 0%nat 1 (-1); ShLin 1%nat 1 3], Some (cN 1));
  (11, 11, [ShLin 0%nat 1 1; ShLin 1%nat 1 1], [ShLin 0%nat 1 1; ShLin 1%nat 1 3], Some (cN 1));
  (12, 12, [ShLin 0%nat 1 0; ShLin 1%nat 1 (-2)], [ShLin 0%nat 1 0; ShLin 1%nat 1 0], Some (cN 1));
  (13, 13, [ShLin 0%nat 1 0; ShLin 1%nat 1 0], [ShLin 0%nat 1 0; ShLin 1%nat 1 2], Some (cN 1));
  (14, 14, [ShLin 0%nat 1 0; ShLin 1%nat 1 0], [ShLin 0%nat 1 0; ShLin 1%nat 1 2], Some (cN 1));
  (15, 15, [ShLin 0%nat 1 0; ShLin 1%nat 1 0], [ShLin 0%nat 1 0; ShLin 1%nat 1 2], Some (cN 1));
  (16, 16, [ShLin 0%nat 1 0; ShLin 1%nat 1 2], [ShLin 0%nat 1 0; ShLin 1%nat 1 4], Some (cN 1))].
(** /repo/c++/symmetry/nrg-recalc-ISOSZ.hpp recalc_triplet, isosz/isosz-2ch-tripletm.dat *)
Definition isosz_2ch_t14 : ten_table := mk_ten "triplet" [ShLin 0%nat 1 0; ShLin 1%nat 1 (-2)] [1; 2] [
  (1, 1, [ShLin 0%nat 1 (-2); ShLin 1%nat 1 0], [ShLin 0%nat 1 (-2); ShLin 1%nat 1 (-2)], Some (cN 1));
  (2, 2, [ShLin 0%nat 1 0; ShLin 1%nat 1 0], [ShLin 0%nat 1 0; ShLin 1%nat 1 (-2)], Some (cN 1));
  (3, 3, [ShLin 0%nat 1 2; ShLin 1%nat 1 0], [ShLin 0%nat 1 2; ShLin 1%nat 1 (-2)], Some (cN 1));
  (4, 4, [ShLin 0%nat 1 (-1); ShLin 1%nat 1 (-1)], [ShLin 0%nat 1 (-1); ShLin 1%nat 1 (-3)], Some (cN 1));
  (5, 5, [ShLin 0%nat 1 1; ShLin 1%nat 1 (-1)], [ShLin 0%nat 1 1; ShLin 1%nat 1 (-3)], Some (cN 1));
  (6, 6, [ShLin 0%nat 1 (-1); ShLin 1%nat 1 (-1)], [ShLin 0%nat 1 (-1); ShLin 1%nat 1 (-3)], Some (cN 1));
  (7, 7, [ShLin 0%nat 1 1; ShLin 1%nat 1 (-1)], [ShLin 0%nat 1 1; ShLin 1%nat 1 (-3)], Some (cN 1));
  (8, 8, [ShLin 0%nat 1 (-1); ShLin 1%nat 1 1], [ShLin 0%nat 1 (-1); ShLin 1%nat 1 (-1)], Some (cN 1));
  (9, 9, [ShLin 0%nat 1 1; ShLin 1%nat 1 1], [ShLin 0%nat 1 1; ShLin 1%nat 1 (-1)], Some (cN 1));
  (10, 10, [ShLin 0%nat 1 (-1); ShLin 1%nat 1 1], [ShLin 0%nat 1 (-1); ShLin 1%nat 1 (-1)], Some (cN 1));
  (11, 11, [ShLin 0%nat 1 1; ShLin 1%nat 1 1], [ShLin 0%nat 1 1; ShLin 1%nat 1 (-1)], Some (cN 1));
  (12, 12, [ShLin 0%nat 1 0; ShLin 1%nat 1 (-2)], [ShLin 0%nat 1 0; ShLin 1%nat 1 (-4)], Some (cN 1));
  (13, 13, [ShLin 0%nat 1 0; ShLin 1%nat 1 0], [ShLin 0%nat 1 0; ShLin 1%nat 1 (-2)], Some (cN 1));
  (14, 14, [ShLin 0%nat 1 0; ShLin 1%nat 1 0], [ShLin 0%nat 1 0; ShLin 1%nat 1 (-2)], Some (cN 1));
  (15, 15, [ShLin 0%nat 1 0; ShLin 1%nat 1 0], [ShLin 0%nat 1 0; ShLin 1%nat 1 (-2)], Some (cN 1));
  (16, 16, [ShLin 0%nat 1 0; ShLin 1%nat 1 2], [ShLin 0%nat 1 0; ShLin 1%nat 1 0], Some (cN 1))].
(** /repo/c++/symmetry/sym-ISOSZ-impl.hpp, make_matrix  *)
Definition isosz_2ch_m0_o : list off_line := [
  (1, 4, 0, 0, "xi", Some ISOSZ_e30);
  (1, 8, 0, 0, "xi", Some ISOSZ_e30);
  (2, 4, 0, 0, "xi", Some ISOSZ_e31);
  (2, 5, 0, 0, "xi", Some ISOSZ_e32);
  (2, 8, 0, 0, "xi", Some ISOSZ_e31);
  (2, 9, 0, 0, "xi", Some ISOSZ_e32);
  (3, 5, 0, 0, "xi", Some ISOSZ_e33);
  (3, 9, 0, 0, "xi", Some ISOSZ_e33);
  (4, 13, 0, 0, "xi", Some ISOSZ_e34);
  (5, 13, 0, 0, "xi", Some ISOSZ_e35);
  (6, 12, 0, 0, "xi", Some ISOSZ_e36);
  (6, 14, 0, 0, "xi", Some ISOSZ_e36);
  (7, 12, 0, 0, "xi", Some ISOSZ_e37);
  (7, 14, 0, 0, "xi", Some ISOSZ_e37);
  (8, 13, 0, 0, "xi", Some ISOSZ_e38);
  (9, 13, 0, 0, "xi", Some ISOSZ_e39);
  (10, 15, 0, 0, "xi", Some ISOSZ_e36);
  (10, 16, 0, 0, "xi", Some ISOSZ_e36);
  (11, 15, 0, 0, "xi", Some ISOSZ_e37);
  (11, 16, 0, 0, "xi", Some ISOSZ_e37);
  (1, 6, 1, 0, "xi", Some ISOSZ_e30);
  (1, 10, 1, 0, "xi", Some ISOSZ_e30);
  (2, 6, 1, 0, "xi", Some ISOSZ_e31);
  (2, 7, 1, 0, "xi", Some ISOSZ_e32);
  (2, 10, 1, 0, "xi", Some ISOSZ_e31);
  (2, 11, 1, 0, "xi", Some ISOSZ_e32);
  (3, 7, 1, 0, "xi", Some ISOSZ_e33);
  (3, 11, 1, 0, "xi", Some ISOSZ_e33);
  (4, 12, 1, 0, "xi", Some ISOSZ_e5);
  (4, 15, 1, 0, "xi", Some ISOSZ_e5);
  (5, 12, 1, 0, "xi", Some ISOSZ_e6);
  (5, 15, 1, 0, "xi", Some ISOSZ_e6);
  (6, 13, 1, 0, "xi", Some ISOSZ_e38);
  (7, 13, 1, 0, "xi", Some ISOSZ_e39);
  (8, 14, 1, 0, "xi", Some ISOSZ_e5);
  (8, 16, 1, 0, "xi", Some ISOSZ_e5);
  (9, 14, 1, 0, "xi", Some ISOSZ_e6);
  (9, 16, 1, 0, "xi", Some ISOSZ_e6);
  (10, 13, 1, 0, "xi", Some ISOSZ_e34);
  (11, 13, 1, 0, "xi", Some ISOSZ_e35)].
(** /repo/c++/symmetry/sym-ISOSZ-impl.hpp, make_matrix  *)
Definition isosz_2ch_m0_d : list diag_line := [
  ].
(** /repo/c++/symmetry/sym-ISOSZ-impl.hpp, make_matrix  *)
Definition isosz_2ch_m0_f : list dof_line := [
  ].
Definition coef_isosz_2ch : coef_set := mk_coef "ISOSZ" 2%nat sym_ISOSZ {| tb_In := isosz_2ch_In; tb_QN := isosz_2ch_QN |}
  [isosz_2ch_t4; isosz_2ch_t5; isosz_2ch_t6; isosz_2ch_t7; isosz_2ch_t8; isosz_2ch_t9; isosz_2ch_t10; isosz_2ch_t11]
  [isosz_2ch_t0; isosz_2ch_t1; isosz_2ch_t2; isosz_2ch_t3; isosz_2ch_t12; isosz_2ch_t13; isosz_2ch_t14]
  [mk_mode "default" isosz_2ch_m0_o isosz_2ch_m0_d isosz_2ch_m0_f].
