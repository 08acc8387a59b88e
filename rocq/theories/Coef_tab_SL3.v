(** Generated by gen/gen_coef.py from /repo/c++/symmetry/{sym-SL3-impl.hpp, nrg-recalc-SL3.hpp, coefnew}. Do not edit. *)
From Coq Require Import List ZArith String.
From Verif Require Import Base Invar_model Symmetry_model Symmetry_tables Coef_model.
Import ListNotations.
Local Open Scope string_scope.
Local Open Scope list_scope.
Local Open Scope Z_scope.


(** /repo/c++/symmetry/nrg-recalc-SL3.hpp recalc_doublet, sl3/sl3-3ch-doublet.dat *)
Definition sl3_3ch_t0 : ten_table := mk_ten "doublet" [ShLin 0%nat 1 (-1); ShLin 1%nat 1 0; ShLin 2%nat 1 0] [1; 0; 0] [
  (1, 1, [ShLin 0%nat 1 1; ShLin 1%nat 1 1; ShLin 2%nat 1 1], [ShLin 0%nat 1 0; ShLin 1%nat 1 1; ShLin 2%nat 1 1], Some (cN 1));
  (2, 2, [ShLin 0%nat 1 1; ShLin 1%nat 1 1; ShLin 2%nat 1 0], [ShLin 0%nat 1 0; ShLin 1%nat 1 1; ShLin 2%nat 1 0], Some (cN (-1)));
  (3, 3, [ShLin 0%nat 1 1; ShLin 1%nat 1 0; ShLin 2%nat 1 1], [ShLin 0%nat 1 0; ShLin 1%nat 1 0; ShLin 2%nat 1 1], Some (cN (-1)));
  (4, 4, [ShLin 0%nat 1 1; ShLin 1%nat 1 0; ShLin 2%nat 1 0], [ShLin 0%nat 1 0; ShLin 1%nat 1 0; ShLin 2%nat 1 0], Some (cN 1));
  (5, 5, [ShLin 0%nat 1 0; ShLin 1%nat 1 1; ShLin 2%nat 1 1], [ShLin 0%nat 1 (-1); ShLin 1%nat 1 1; ShLin 2%nat 1 1], Some (cN (-1)));
  (6, 6, [ShLin 0%nat 1 0; ShLin 1%nat 1 1; ShLin 2%nat 1 0], [ShLin 0%nat 1 (-1); ShLin 1%nat 1 1; ShLin 2%nat 1 0], Some (cN 1));
  (7, 7, [ShLin 0%nat 1 0; ShLin 1%nat 1 0; ShLin 2%nat 1 1], [ShLin 0%nat 1 (-1); ShLin 1%nat 1 0; ShLin 2%nat 1 1], Some (cN 1));
  (8, 8, [ShLin 0%nat 1 0; ShLin 1%nat 1 0; ShLin 2%nat 1 0], [ShLin 0%nat 1 (-1); ShLin 1%nat 1 0; ShLin 2%nat 1 0], Some (cN (-1)))].
(** /repo/c++/symmetry/nrg-recalc-SL3.hpp recalc_irreduc, sl3/sl3-3ch-a.dat *)
Definition sl3_3ch_t1 : irr_table := mk_irr 0 0 [ShLin 0%nat 1 1; ShLin 1%nat 1 0; ShLin 2%nat 1 0]  [
  (5, 1, Some (cN 1));
  (6, 2, Some (cN 1));
  (7, 3, Some (cN 1));
  (8, 4, Some (cN 1))].
(** /repo/c++/symmetry/nrg-recalc-SL3.hpp recalc_irreduc, sl3/sl3-3ch-b.dat *)
Definition sl3_3ch_t2 : irr_table := mk_irr 1 0 [ShLin 0%nat 1 0; ShLin 1%nat 1 1; ShLin 2%nat 1 0]  [
  (3, 1, Some (cN 1));
  (4, 2, Some (cN 1));
  (7, 5, Some (cN (-1)));
  (8, 6, Some (cN (-1)))].
(** /repo/c++/symmetry/nrg-recalc-SL3.hpp recalc_irreduc, sl3/sl3-3ch-c.dat *)
Definition sl3_3ch_t3 : irr_table := mk_irr 2 0 [ShLin 0%nat 1 0; ShLin 1%nat 1 0; ShLin 2%nat 1 1]  [
  (2, 1, Some (cN 1));
  (4, 3, Some (cN (-1)));
  (6, 5, Some (cN (-1)));
  (8, 7, Some (cN 1))].
(** /repo/c++/symmetry/sym-SL3-impl.hpp, make_matrix  *)
Definition sl3_3ch_m0_o : list off_line := [
  (1, 5, 0, 0, "xi", Some (cN 1));
  (2, 6, 0, 0, "xi", Some (cN (-1)));
  (3, 7, 0, 0, "xi", Some (cN (-1)));
  (4, 8, 0, 0, "xi", Some (cN 1));
  (1, 3, 1, 0, "xi", Some (cN 1));
  (2, 4, 1, 0, "xi", Some (cN (-1)));
  (5, 7, 1, 0, "xi", Some (cN 1));
  (6, 8, 1, 0, "xi", Some (cN (-1)));
  (1, 2, 2, 0, "xi", Some (cN 1));
  (3, 4, 2, 0, "xi", Some (cN 1));
  (5, 6, 2, 0, "xi", Some (cN 1));
  (7, 8, 2, 0, "xi", Some (cN 1))].
(** /repo/c++/symmetry/sym-SL3-impl.hpp, make_matrix  *)
Definition sl3_3ch_m0_d : list diag_line := [
  (1, 0, "zeta", Some (cN 0));
  (2, 0, "zeta", Some (cN 0));
  (3, 0, "zeta", Some (cN 0));
  (4, 0, "zeta", Some (cN 0));
  (5, 0, "zeta", Some (cN 1));
  (6, 0, "zeta", Some (cN 1));
  (7, 0, "zeta", Some (cN 1));
  (8, 0, "zeta", Some (cN 1));
  (1, 1, "zeta", Some (cN 0));
  (2, 1, "zeta", Some (cN 0));
  (3, 1, "zeta", Some (cN 1));
  (4, 1, "zeta", Some (cN 1));
  (5, 1, "zeta", Some (cN 0));
  (6, 1, "zeta", Some (cN 0));
  (7, 1, "zeta", Some (cN 1));
  (8, 1, "zeta", Some (cN 1));
  (1, 2, "zeta", Some (cN 0));
  (2, 2, "zeta", Some (cN 1));
  (3, 2, "zeta", Some (cN 0));
  (4, 2, "zeta", Some (cN 1));
  (5, 2, "zeta", Some (cN 0));
  (6, 2, "zeta", Some (cN 1));
  (7, 2, "zeta", Some (cN 0));
  (8, 2, "zeta", Some (cN 1))].
(** /repo/c++/symmetry/sym-SL3-impl.hpp, make_matrix  *)
Definition sl3_3ch_m0_f : list dof_line := [
  ].
Definition coef_sl3_3ch : coef_set := mk_coef "SL3" 3%nat sym_SL3 {| tb_In := sl3_3ch_In; tb_QN := sl3_3ch_QN |}
  [sl3_3ch_t1; sl3_3ch_t2; sl3_3ch_t3]
  [sl3_3ch_t0]
  [mk_mode "default" sl3_3ch_m0_o sl3_3ch_m0_d sl3_3ch_m0_f].
