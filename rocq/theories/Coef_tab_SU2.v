(** Generated by gen/gen_coef.py from /repo/c++/symmetry/{sym-SU2-impl.hpp, nrg-recalc-SU2.hpp, coefnew}. Do not edit. *)
From Coq Require Import List ZArith String.
From Verif Require Import Base Invar_model Symmetry_model Symmetry_tables Coef_model.
Import ListNotations.
Local Open Scope string_scope.
Local Open Scope list_scope.
Local Open Scope Z_scope.

Definition SU2_e0 := (cD (cN 1) (cA (cN 1) (cM (cN 2) (cH 0)))).
Definition SU2_e1 := (cD (cM (cN 2) (cR (cM (cH 0) (cA (cN 1) (cH 0))))) (cA (cN 1) (cM (cN 2) (cH 0)))).
Definition SU2_e2 := (cD (cN 1) (cB (cN (-1)) (cM (cN 2) (cH 0)))).
Definition SU2_e3 := (cO (cD (cG [] 0) (cR (cA (cN 1) (cD (cN 1) (cA (cN 1) (cM (cN 2) (cH 0)))))))).
Definition SU2_e4 := (cM (cG [] 0) (cR (cA (cN 1) (cD (cN 1) (cM (cN 2) (cH 0)))))).
Definition SU2_e5 := (cM (cM (cG [] 0) (cR (cN 2))) (cR (cD (cH 0) (cA (cN 1) (cM (cN 2) (cH 0)))))).
Definition SU2_e6 := (cO (cD (cG [] 0) (cR (cB (cN 1) (cD (cN 1) (cM (cN 2) (cA (cN 1) (cH 0)))))))).
Definition SU2_e7 := (cD (cN 1) (cR (cM (cH 0) (cA (cN 1) (cM (cN 2) (cH 0)))))).
Definition SU2_e8 := (cD (cA (cA (cN (-1)) (cH 0)) (cM (cN 2) (cW (cH 0) 4))) (cR (cM (cM (cM (cH 0) (cA (cN 1) (cH 0))) (cA (cN (-1)) (cM (cN 2) (cH 0)))) (cA (cN 1) (cM (cN 2) (cH 0)))))).
Definition SU2_e9 := (cD (cN 1) (cR (cM (cA (cN 1) (cH 0)) (cA (cN 1) (cM (cN 2) (cH 0)))))).
Definition SU2_e10 := (cA (cA (cR (cD (cM (cH 0) (cA (cN 1) (cM (cN 2) (cH 0)))) (cM (cW (cA (cN 1) (cH 0)) 6) (cA (cN 3) (cM (cN 2) (cH 0)))))) (cR (cD (cH 0) (cM (cW (cA (cN 1) (cH 0)) 6) (cA (cN 3) (cM (cM (cN 4) (cH 0)) (cA (cN 2) (cH 0)))))))) (cR (cB (cA (cN 1) (cD (cN 1) (cA (cN 1) (cH 0)))) (cD (cN 6) (cA (cN 3) (cM (cN 2) (cH 0))))))).
Definition SU2_e11 := (cD (cM (cN (-2)) (cR (cM (cH 0) (cA (cN 1) (cH 0))))) (cA (cN 1) (cM (cN 2) (cH 0)))).
Definition SU2_e12 := (cD (cN 1) (cR (cD (cM (cH 0) (cA (cN 1) (cM (cN 2) (cH 0)))) (cA (cA (cN (-1)) (cH 0)) (cM (cN 2) (cW (cH 0) 4)))))).
Definition SU2_e13 := (cO (cD (cN 1) (cR (cM (cH 0) (cA (cN 1) (cM (cN 2) (cH 0))))))).
Definition SU2_e14 := (cD (cA (cM (cN 3) (cR (cM (cH 0) (cA (cN 3) (cM (cM (cN 4) (cH 0)) (cA (cN 2) (cH 0))))))) (cM (cN 2) (cR (cM (cW (cH 0) 6) (cA (cN 3) (cM (cM (cN 4) (cH 0)) (cA (cN 2) (cH 0)))))))) (cM (cR (cA (cN 1) (cH 0))) (cA (cN 3) (cM (cM (cN 4) (cH 0)) (cA (cN 2) (cH 0)))))).
Definition SU2_e15 := (cO (cD (cN 1) (cR (cM (cA (cN 1) (cH 0)) (cA (cN 1) (cM (cN 2) (cH 0))))))).
Definition SU2_e16 := (cD (cR (cA (cN 2) (cD (cN 1) (cA (cN 1) (cH 0))))) (cN 2)).
Definition SU2_e17 := (cO (cD (cM (cG [] 0) (cH 0)) (cM (cR (cN 2)) (cR (cM (cH 0) (cA (cN 1) (cH 0))))))).
Definition SU2_e18 := (cD (cM (cG [] 0) (cR (cB (cN 2) (cD (cN 1) (cA (cN 1) (cH 0)))))) (cN 2)).
Definition SU2_e19 := (cO (cD (cN 1) (cR (cN 2)))).
Definition SU2_e20 := (cM (cQ (-1) 2) (cM (cG [] 0) (cR (cB (cN 2) (cD (cN 1) (cA (cN 1) (cH 0))))))).
Definition SU2_e21 := (cD (cG [] 0) (cR (cA (cN 1) (cD (cN 1) (cA (cN 1) (cM (cN 2) (cH 0))))))).
Definition SU2_e22 := (cD (cB (cN (-3)) (cM (cN 2) (cH 0))) (cM (cN 2) (cR (cM (cA (cN 1) (cH 0)) (cA (cN 3) (cM (cN 2) (cH 0))))))).
Definition SU2_e23 := (cD (cR (cB (cN 2) (cD (cN 1) (cH 0)))) (cN 2)).
Definition SU2_e24 := (cD (cM (cG [] 0) (cA (cN 1) (cH 0))) (cM (cR (cN 2)) (cR (cM (cH 0) (cA (cN 1) (cH 0)))))).
Definition SU2_e25 := (cM (cQ (-1) 2) (cM (cG [] 0) (cR (cA (cN 2) (cD (cN 1) (cH 0)))))).
Definition SU2_e26 := (cD (cM (cG [] 0) (cR (cA (cN 2) (cD (cN 1) (cH 0))))) (cN 2)).
Definition SU2_e27 := (cO (cM (cG [] 0) (cR (cA (cN 1) (cD (cN 1) (cM (cN 2) (cH 0))))))).
Definition SU2_e28 := (cM (cQ (-1) 2) (cR (cB (cN 2) (cD (cN 1) (cH 0))))).
Definition SU2_e29 := (cM (cG [] 0) (cR (cB (cN 1) (cD (cN 1) (cM (cN 2) (cH 0)))))).
Definition SU2_e30 := (cO (cD (cM (cG [] 0) (cA (cN 1) (cH 0))) (cM (cR (cN 2)) (cR (cM (cH 0) (cA (cN 1) (cH 0))))))).
Definition SU2_e31 := (cD (cG [] 0) (cR (cA (cN 2) (cD (cN 2) (cH 0))))).
Definition SU2_e32 := (cO (cD (cM (cG [] 0) (cR (cA (cN 2) (cD (cN 1) (cA (cN 1) (cH 0)))))) (cR (cN 2)))).
Definition SU2_e33 := (cM (cG [] 0) (cR (cD (cH 0) (cA (cN 1) (cM (cN 2) (cH 0)))))).
Definition SU2_e34 := (cO (cD (cM (cG [] 0) (cA (cN 1) (cH 0))) (cR (cM (cA (cN 1) (cH 0)) (cA (cN 1) (cM (cN 2) (cH 0))))))).
Definition SU2_e35 := (cO (cM (cM (cG [] 0) (cR (cN 2))) (cR (cD (cH 0) (cA (cN 1) (cM (cN 2) (cH 0))))))).
Definition SU2_e36 := (cD (cG [] 0) (cR (cB (cN 1) (cD (cN 1) (cM (cN 2) (cA (cN 1) (cH 0))))))).
Definition SU2_e37 := (cO (cM (cG [] 0) (cR (cD (cH 0) (cA (cN 1) (cM (cN 2) (cH 0))))))).
Definition SU2_e38 := (cD (cM (cG [] 0) (cA (cN 1) (cH 0))) (cR (cM (cA (cN 1) (cH 0)) (cA (cN 1) (cM (cN 2) (cH 0)))))).

(** /repo/c++/symmetry/nrg-recalc-SU2.hpp recalc_doublet, su2/su2-1ch-doubletm.dat *)
Definition su2_1ch_t0 : ten_table := mk_ten "doublet" [ShLin 0%nat 1 (-1)] [2] [
  (1, 1, [ShLin 0%nat 1 (-1)], [ShLin 0%nat 1 (-2)], Some (cN 1));
  (1, 2, [ShLin 0%nat 1 (-1)], [ShLin 0%nat 1 0], Some SU2_e0);
  (2, 2, [ShLin 0%nat 1 1], [ShLin 0%nat 1 0], Some SU2_e1);
  (3, 3, [ShLin 0%nat 1 0], [ShLin 0%nat 1 (-1)], Some (cN (-1)));
  (4, 4, [ShLin 0%nat 1 0], [ShLin 0%nat 1 (-1)], Some (cN (-1)))].
(** /repo/c++/symmetry/nrg-recalc-SU2.hpp recalc_doublet, su2/su2-1ch-doubletp.dat *)
Definition su2_1ch_t1 : ten_table := mk_ten "doublet" [ShLin 0%nat 1 1] [2] [
  (1, 1, [ShLin 0%nat 1 (-1)], [ShLin 0%nat 1 0], Some SU2_e1);
  (2, 1, [ShLin 0%nat 1 1], [ShLin 0%nat 1 0], Some SU2_e2);
  (2, 2, [ShLin 0%nat 1 1], [ShLin 0%nat 1 2], Some (cN 1));
  (3, 3, [ShLin 0%nat 1 0], [ShLin 0%nat 1 1], Some (cN (-1)));
  (4, 4, [ShLin 0%nat 1 0], [ShLin 0%nat 1 1], Some (cN (-1)))].
(** /repo/c++/symmetry/nrg-recalc-SU2.hpp recalc_irreduc, su2/su2-1ch-type1-isoup-a.dat *)
Definition su2_1ch_t2 : irr_table := mk_irr 0 0 [ShLin 0%nat 1 1]  [
  (1, 3, Some (cN 1));
  (4, 2, Some SU2_e3)].
(** /repo/c++/symmetry/nrg-recalc-SU2.hpp recalc_irreduc, su2/su2-1ch-type2-isoup-a.dat *)
Definition su2_1ch_t3 : irr_table := mk_irr 0 1 [ShLin 0%nat 1 1]  [
  (1, 4, Some (cN (-1)));
  (3, 2, Some SU2_e3)].
(** /repo/c++/symmetry/nrg-recalc-SU2.hpp recalc_irreduc, su2/su2-1ch-type1-isodown-a.dat *)
Definition su2_1ch_t4 : irr_table := mk_irr 0 0 [ShLin 0%nat 1 (-1)]  [
  (2, 3, Some (cN 1));
  (4, 1, Some SU2_e4)].
(** /repo/c++/symmetry/nrg-recalc-SU2.hpp recalc_irreduc, su2/su2-1ch-type2-isodown-a.dat *)
Definition su2_1ch_t5 : irr_table := mk_irr 0 1 [ShLin 0%nat 1 (-1)]  [
  (2, 4, Some (cN (-1)));
  (3, 1, Some SU2_e4)].
(** /repo/c++/symmetry/sym-SU2-impl.hpp, make_matrix  *)
Definition su2_1ch_m0_o : list off_line := [
  (1, 4, 0, 0, "xi", Some SU2_e5);
  (2, 4, 0, 0, "xi", Some SU2_e6);
  (1, 3, 0, 1, "xi", Some SU2_e5);
  (2, 3, 0, 1, "xi", Some SU2_e6)].
(** /repo/c++/symmetry/sym-SU2-impl.hpp, make_matrix  *)
Definition su2_1ch_m0_d : list diag_line := [
  ].
(** /repo/c++/symmetry/sym-SU2-impl.hpp, make_matrix  *)
Definition su2_1ch_m0_f : list dof_line := [
  ].
Definition coef_su2_1ch : coef_set := mk_coef "SU2" 1%nat sym_SU2 {| tb_In := su2_1ch_In; tb_QN := su2_1ch_QN |}
  [su2_1ch_t2; su2_1ch_t3; su2_1ch_t4; su2_1ch_t5]
  [su2_1ch_t0; su2_1ch_t1]
  [mk_mode "default" su2_1ch_m0_o su2_1ch_m0_d su2_1ch_m0_f].
(** /repo/c++/symmetry/nrg-recalc-SU2.hpp recalc_doublet, su2/su2-2ch-doubletm.dat *)
Definition su2_2ch_t0 : ten_table := mk_ten "doublet" [ShLin 0%nat 1 (-1)] [2] [
  (1, 1, [ShLin 0%nat 1 (-2)], [ShLin 0%nat 1 (-3)], Some (cN 1));
  (1, 2, [ShLin 0%nat 1 (-2)], [ShLin 0%nat 1 (-1)], Some SU2_e7);
  (2, 2, [ShLin 0%nat 1 0], [ShLin 0%nat 1 (-1)], Some SU2_e8);
  (2, 3, [ShLin 0%nat 1 0], [ShLin 0%nat 1 1], Some SU2_e9);
  (3, 3, [ShLin 0%nat 1 2], [ShLin 0%nat 1 1], Some SU2_e10);
  (4, 4, [ShLin 0%nat 1 (-1)], [ShLin 0%nat 1 (-2)], Some (cN (-1)));
  (4, 5, [ShLin 0%nat 1 (-1)], [ShLin 0%nat 1 0], Some SU2_e2);
  (5, 5, [ShLin 0%nat 1 1], [ShLin 0%nat 1 0], Some SU2_e11);
  (6, 6, [ShLin 0%nat 1 (-1)], [ShLin 0%nat 1 (-2)], Some (cN (-1)));
  (6, 7, [ShLin 0%nat 1 (-1)], [ShLin 0%nat 1 0], Some SU2_e2);
  (7, 7, [ShLin 0%nat 1 1], [ShLin 0%nat 1 0], Some SU2_e11);
  (8, 8, [ShLin 0%nat 1 (-1)], [ShLin 0%nat 1 (-2)], Some (cN (-1)));
  (8, 9, [ShLin 0%nat 1 (-1)], [ShLin 0%nat 1 0], Some SU2_e2);
  (9, 9, [ShLin 0%nat 1 1], [ShLin 0%nat 1 0], Some SU2_e11);
  (10, 10, [ShLin 0%nat 1 (-1)], [ShLin 0%nat 1 (-2)], Some (cN (-1)));
  (10, 11, [ShLin 0%nat 1 (-1)], [ShLin 0%nat 1 0], Some SU2_e2);
  (11, 11, [ShLin 0%nat 1 1], [ShLin 0%nat 1 0], Some SU2_e11);
  (12, 12, [ShLin 0%nat 1 0], [ShLin 0%nat 1 (-1)], Some (cN 1));
  (13, 13, [ShLin 0%nat 1 0], [ShLin 0%nat 1 (-1)], Some (cN 1));
  (14, 14, [ShLin 0%nat 1 0], [ShLin 0%nat 1 (-1)], Some (cN 1));
  (15, 15, [ShLin 0%nat 1 0], [ShLin 0%nat 1 (-1)], Some (cN 1));
  (16, 16, [ShLin 0%nat 1 0], [ShLin 0%nat 1 (-1)], Some (cN 1))].
(** /repo/c++/symmetry/nrg-recalc-SU2.hpp recalc_doublet, su2/su2-2ch-doubletp.dat *)
Definition su2_2ch_t1 : ten_table := mk_ten "doublet" [ShLin 0%nat 1 1] [2] [
  (1, 1, [ShLin 0%nat 1 (-2)], [ShLin 0%nat 1 (-1)], Some SU2_e12);
  (2, 1, [ShLin 0%nat 1 0], [ShLin 0%nat 1 (-1)], Some SU2_e13);
  (2, 2, [ShLin 0%nat 1 0], [ShLin 0%nat 1 1], Some SU2_e14);
  (3, 2, [ShLin 0%nat 1 2], [ShLin 0%nat 1 1], Some SU2_e15);
  (3, 3, [ShLin 0%nat 1 2], [ShLin 0%nat 1 3], Some (cN 1));
  (4, 4, [ShLin 0%nat 1 (-1)], [ShLin 0%nat 1 0], Some SU2_e11);
  (5, 4, [ShLin 0%nat 1 1], [ShLin 0%nat 1 0], Some SU2_e0);
  (5, 5, [ShLin 0%nat 1 1], [ShLin 0%nat 1 2], Some (cN (-1)));
  (6, 6, [ShLin 0%nat 1 (-1)], [ShLin 0%nat 1 0], Some SU2_e11);
  (7, 6, [ShLin 0%nat 1 1], [ShLin 0%nat 1 0], Some SU2_e0);
  (7, 7, [ShLin 0%nat 1 1], [ShLin 0%nat 1 2], Some (cN (-1)));
  (8, 8, [ShLin 0%nat 1 (-1)], [ShLin 0%nat 1 0], Some SU2_e11);
  (9, 8, [ShLin 0%nat 1 1], [ShLin 0%nat 1 0], Some SU2_e0);
  (9, 9, [ShLin 0%nat 1 1], [ShLin 0%nat 1 2], Some (cN (-1)));
  (10, 10, [ShLin 0%nat 1 (-1)], [ShLin 0%nat 1 0], Some SU2_e11);
  (11, 10, [ShLin 0%nat 1 1], [ShLin 0%nat 1 0], Some SU2_e0);
  (11, 11, [ShLin 0%nat 1 1], [ShLin 0%nat 1 2], Some (cN (-1)));
  (12, 12, [ShLin 0%nat 1 0], [ShLin 0%nat 1 1], Some (cN 1));
  (13, 13, [ShLin 0%nat 1 0], [ShLin 0%nat 1 1], Some (cN 1));
  (14, 14, [ShLin 0%nat 1 0], [ShLin 0%nat 1 1], Some (cN 1));
  (15, 15, [ShLin 0%nat 1 0], [ShLin 0%nat 1 1], Some (cN 1));
  (16, 16, [ShLin 0%nat 1 0], [ShLin 0%nat 1 1], Some (cN 1))].
(** /repo/c++/symmetry/nrg-recalc-SU2.hpp recalc_irreduc, su2/su2-2ch-type1-isoup-a.dat *)
Definition su2_2ch_t2 : irr_table := mk_irr 0 0 [ShLin 0%nat 1 1]  [
  (1, 4, Some (cN 1));
  (2, 5, Some SU2_e16);
  (6, 2, Some SU2_e17);
  (6, 12, Some (cD (cN 1) (cR (cN 2))));
  (7, 3, Some SU2_e3);
  (8, 13, Some (cN 1));
  (10, 14, Some (cN 1));
  (12, 5, Some SU2_e18);
  (15, 9, Some SU2_e3);
  (16, 11, Some SU2_e3)].
(** /repo/c++/symmetry/nrg-recalc-SU2.hpp recalc_irreduc, su2/su2-2ch-type1-isoup-b.dat *)
Definition su2_2ch_t3 : irr_table := mk_irr 1 0 [ShLin 0%nat 1 1]  [
  (1, 8, Some (cN 1));
  (2, 9, Some SU2_e16);
  (4, 13, Some (cN (-1)));
  (6, 15, Some (cN (-1)));
  (10, 2, Some SU2_e17);
  (10, 12, Some SU2_e19);
  (11, 3, Some SU2_e3);
  (12, 9, Some SU2_e20);
  (14, 5, Some SU2_e21);
  (16, 7, Some SU2_e21)].
(** /repo/c++/symmetry/nrg-recalc-SU2.hpp recalc_irreduc, su2/su2-2ch-type2-isoup-a.dat *)
Definition su2_2ch_t4 : irr_table := mk_irr 0 1 [ShLin 0%nat 1 1]  [
  (1, 6, Some (cN (-1)));
  (2, 7, Some SU2_e22);
  (4, 2, Some SU2_e17);
  (4, 12, Some (cD (cN 1) (cR (cN 2))));
  (5, 3, Some SU2_e3);
  (8, 15, Some (cN (-1)));
  (10, 16, Some (cN (-1)));
  (12, 7, Some SU2_e20);
  (13, 9, Some SU2_e3);
  (14, 11, Some SU2_e3)].
(** /repo/c++/symmetry/nrg-recalc-SU2.hpp recalc_irreduc, su2/su2-2ch-type2-isoup-b.dat *)
Definition su2_2ch_t5 : irr_table := mk_irr 1 1 [ShLin 0%nat 1 1]  [
  (1, 10, Some (cN (-1)));
  (2, 11, Some SU2_e22);
  (4, 14, Some (cN 1));
  (6, 16, Some (cN 1));
  (8, 2, Some SU2_e17);
  (8, 12, Some SU2_e19);
  (9, 3, Some SU2_e3);
  (12, 11, Some SU2_e18);
  (13, 5, Some SU2_e21);
  (15, 7, Some SU2_e21)].
(** /repo/c++/symmetry/nrg-recalc-SU2.hpp recalc_irreduc, su2/su2-2ch-type1-isodown-a.dat *)
Definition su2_2ch_t6 : irr_table := mk_irr 0 0 [ShLin 0%nat 1 (-1)]  [
  (2, 4, Some SU2_e23);
  (3, 5, Some (cN 1));
  (6, 1, Some SU2_e4);
  (7, 2, Some SU2_e24);
  (7, 12, Some (cD (cN 1) (cR (cN 2))));
  (9, 13, Some (cN 1));
  (11, 14, Some (cN 1));
  (12, 4, Some SU2_e25);
  (15, 8, Some SU2_e4);
  (16, 10, Some SU2_e4)].
(** /repo/c++/symmetry/nrg-recalc-SU2.hpp recalc_irreduc, su2/su2-2ch-type1-isodown-b.dat *)
Definition su2_2ch_t7 : irr_table := mk_irr 1 0 [ShLin 0%nat 1 (-1)]  [
  (2, 8, Some SU2_e23);
  (3, 9, Some (cN 1));
  (5, 13, Some (cN (-1)));
  (7, 15, Some (cN (-1)));
  (10, 1, Some SU2_e4);
  (11, 2, Some SU2_e24);
  (11, 12, Some SU2_e19);
  (12, 8, Some SU2_e26);
  (14, 4, Some SU2_e27);
  (16, 6, Some SU2_e27)].
(** /repo/c++/symmetry/nrg-recalc-SU2.hpp recalc_irreduc, su2/su2-2ch-type2-isodown-a.dat *)
Definition su2_2ch_t8 : irr_table := mk_irr 0 1 [ShLin 0%nat 1 (-1)]  [
  (2, 6, Some SU2_e28);
  (3, 7, Some (cN (-1)));
  (4, 1, Some SU2_e4);
  (5, 2, Some SU2_e24);
  (5, 12, Some (cD (cN 1) (cR (cN 2))));
  (9, 15, Some (cN (-1)));
  (11, 16, Some (cN (-1)));
  (12, 6, Some SU2_e26);
  (13, 8, Some SU2_e4);
  (14, 10, Some SU2_e4)].
(** /repo/c++/symmetry/nrg-recalc-SU2.hpp recalc_irreduc, su2/su2-2ch-type2-isodown-b.dat *)
Definition su2_2ch_t9 : irr_table := mk_irr 1 1 [ShLin 0%nat 1 (-1)]  [
  (2, 10, Some SU2_e28);
  (3, 11, Some (cN (-1)));
  (5, 14, Some (cN 1));
  (7, 16, Some (cN 1));
  (8, 1, Some SU2_e4);
  (9, 2, Some SU2_e24);
  (9, 12, Some SU2_e19);
  (12, 10, Some SU2_e25);
  (13, 4, Some SU2_e27);
  (15, 6, Some SU2_e27)].
(** /repo/c++/symmetry/sym-SU2-impl.hpp, make_matrix  *)
Definition su2_2ch_m0_o : list off_line := [
  (1, 6, 0, 0, "xi", Some SU2_e29);
  (2, 6, 0, 0, "xi", Some SU2_e30);
  (2, 7, 0, 0, "xi", Some SU2_e31);
  (3, 7, 0, 0, "xi", Some SU2_e32);
  (4, 12, 0, 0, "xi", Some SU2_e33);
  (5, 12, 0, 0, "xi", Some SU2_e34);
  (8, 15, 0, 0, "xi", Some SU2_e35);
  (9, 15, 0, 0, "xi", Some SU2_e36);
  (10, 16, 0, 0, "xi", Some SU2_e35);
  (11, 16, 0, 0, "xi", Some SU2_e36);
  (1, 10, 1, 0, "xi", Some SU2_e29);
  (2, 10, 1, 0, "xi", Some SU2_e30);
  (2, 11, 1, 0, "xi", Some SU2_e31);
  (3, 11, 1, 0, "xi", Some SU2_e32);
  (4, 14, 1, 0, "xi", Some SU2_e5);
  (5, 14, 1, 0, "xi", Some SU2_e6);
  (6, 16, 1, 0, "xi", Some SU2_e5);
  (7, 16, 1, 0, "xi", Some SU2_e6);
  (8, 12, 1, 0, "xi", Some SU2_e37);
  (9, 12, 1, 0, "xi", Some SU2_e38);
  (1, 4, 0, 1, "xi", Some SU2_e29);
  (2, 4, 0, 1, "xi", Some SU2_e30);
  (2, 5, 0, 1, "xi", Some SU2_e31);
  (3, 5, 0, 1, "xi", Some SU2_e32);
  (6, 12, 0, 1, "xi", Some SU2_e37);
  (7, 12, 0, 1, "xi", Some SU2_e38);
  (8, 13, 0, 1, "xi", Some SU2_e35);
  (9, 13, 0, 1, "xi", Some SU2_e36);
  (10, 14, 0, 1, "xi", Some SU2_e35);
  (11, 14, 0, 1, "xi", Some SU2_e36);
  (1, 8, 1, 1, "xi", Some SU2_e29);
  (2, 8, 1, 1, "xi", Some SU2_e30);
  (2, 9, 1, 1, "xi", Some SU2_e31);
  (3, 9, 1, 1, "xi", Some SU2_e32);
  (4, 13, 1, 1, "xi", Some SU2_e5);
  (5, 13, 1, 1, "xi", Some SU2_e6);
  (6, 15, 1, 1, "xi", Some SU2_e5);
  (7, 15, 1, 1, "xi", Some SU2_e6);
  (10, 12, 1, 1, "xi", Some SU2_e33);
  (11, 12, 1, 1, "xi", Some SU2_e34)].
(** /repo/c++/symmetry/sym-SU2-impl.hpp, make_matrix  *)
Definition su2_2ch_m0_d : list diag_line := [
  ].
(** /repo/c++/symmetry/sym-SU2-impl.hpp, make_matrix  *)
Definition su2_2ch_m0_f : list dof_line := [
  ].
Definition coef_su2_2ch : coef_set := mk_coef "SU2" 2%nat sym_SU2 {| tb_In := su2_2ch_In; tb_QN := su2_2ch_QN |}
  [su2_2ch_t2; su2_2ch_t3; su2_2ch_t4; su2_2ch_t5; su2_2ch_t6; su2_2ch_t7; su2_2ch_t8; su2_2ch_t9]
  [su2_2ch_t0; su2_2ch_t1]
  [mk_mode "default" su2_2ch_m0_o su2_2ch_m0_d su2_2ch_m0_f].
