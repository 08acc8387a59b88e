(** Generated by gen/gen_coef.py from /repo/c++/symmetry/{sym-QSZLR-impl.hpp, nrg-recalc-QSZLR.hpp, coefnew}. Do not edit. *)
From Coq Require Import List ZArith String.
From Verif Require Import Base Invar_model Symmetry_model Symmetry_tables Coef_model.
Import ListNotations.
Local Open Scope string_scope.
Local Open Scope list_scope.
Local Open Scope Z_scope.

Definition QSZLR_e0 := (cO (cD (cN 1) (cR (cN 2)))).

(** /repo/c++/symmetry/nrg-recalc-QSZLR.hpp recalc_irreduc, qszlr/qszlr-2ch-spinupa.dat *)
Definition qszlr_2ch_t0 : irr_table := mk_irr 0 0 [ShLin 0%nat 1 1; ShLin 1%nat 1 1; ShLin 2%nat 1 0]  [
  (5, 1, Some (cD (cN 1) (cR (cN 2))));
  (7, 2, Some (cQ 1 2));
  (8, 2, Some (cQ 1 2));
  (9, 3, Some (cQ 1 2));
  (10, 3, Some (cQ (-1) 2));
  (11, 4, Some (cD (cN 1) (cR (cN 2))));
  (12, 6, Some QSZLR_e0);
  (14, 7, Some (cQ 1 2));
  (14, 8, Some (cQ (-1) 2));
  (15, 9, Some (cQ 1 2));
  (15, 10, Some (cQ 1 2));
  (16, 13, Some (cD (cN 1) (cR (cN 2))))].
(** /repo/c++/symmetry/nrg-recalc-QSZLR.hpp recalc_irreduc, qszlr/qszlr-2ch-spinupb.dat *)
Definition qszlr_2ch_t1 : irr_table := mk_irr 1 0 [ShLin 0%nat 1 1; ShLin 1%nat 1 1; ShLin 2%nat 1 0]  [
  (5, 1, Some (cD (cN 1) (cR (cN 2))));
  (7, 2, Some (cQ 1 2));
  (8, 2, Some (cQ 1 2));
  (9, 3, Some (cQ 1 2));
  (10, 3, Some (cQ (-1) 2));
  (11, 4, Some (cD (cN 1) (cR (cN 2))));
  (12, 6, Some QSZLR_e0);
  (14, 7, Some (cQ 1 2));
  (14, 8, Some (cQ (-1) 2));
  (15, 9, Some (cQ 1 2));
  (15, 10, Some (cQ 1 2));
  (16, 13, Some (cD (cN 1) (cR (cN 2))))].
(** /repo/c++/symmetry/nrg-recalc-QSZLR.hpp recalc_irreduc, qszlr/qszlr-2ch-spindowna.dat *)
Definition qszlr_2ch_t2 : irr_table := mk_irr 0 0 [ShLin 0%nat 1 1; ShLin 1%nat 1 (-1); ShLin 2%nat 1 0]  [
  (3, 1, Some (cD (cN 1) (cR (cN 2))));
  (6, 2, Some (cD (cN 1) (cR (cN 2))));
  (7, 4, Some (cQ (-1) 2));
  (8, 4, Some (cQ 1 2));
  (9, 5, Some (cQ (-1) 2));
  (10, 5, Some (cQ 1 2));
  (12, 7, Some (cQ 1 2));
  (12, 8, Some (cQ 1 2));
  (13, 9, Some (cQ 1 2));
  (13, 10, Some (cQ 1 2));
  (14, 11, Some (cD (cN 1) (cR (cN 2))));
  (16, 15, Some QSZLR_e0)].
(** /repo/c++/symmetry/nrg-recalc-QSZLR.hpp recalc_irreduc, qszlr/qszlr-2ch-spindownb.dat *)
Definition qszlr_2ch_t3 : irr_table := mk_irr 1 0 [ShLin 0%nat 1 1; ShLin 1%nat 1 (-1); ShLin 2%nat 1 0]  [
  (3, 1, Some (cD (cN 1) (cR (cN 2))));
  (6, 2, Some (cD (cN 1) (cR (cN 2))));
  (7, 4, Some (cQ (-1) 2));
  (8, 4, Some (cQ 1 2));
  (9, 5, Some (cQ (-1) 2));
  (10, 5, Some (cQ 1 2));
  (12, 7, Some (cQ 1 2));
  (12, 8, Some (cQ 1 2));
  (13, 9, Some (cQ 1 2));
  (13, 10, Some (cQ 1 2));
  (14, 11, Some (cD (cN 1) (cR (cN 2))));
  (16, 15, Some QSZLR_e0)].
(** /repo/c++/symmetry/nrg-recalc-QSZLR.hpp recalc_irreduc, qszlr/qszlr-2ch-spinupdiffa.dat *)
Definition qszlr_2ch_t4 : irr_table := mk_irr 0 0 [ShLin 0%nat 1 1; ShLin 1%nat 1 1; ShLin 2%nat (-1) 0]  [
  (4, 1, Some QSZLR_e0);
  (7, 3, Some (cQ (-1) 2));
  (8, 3, Some (cQ 1 2));
  (9, 2, Some (cQ (-1) 2));
  (10, 2, Some (cQ (-1) 2));
  (11, 5, Some (cD (cN 1) (cR (cN 2))));
  (13, 6, Some (cD (cN 1) (cR (cN 2))));
  (14, 9, Some (cQ 1 2));
  (14, 10, Some (cQ (-1) 2));
  (15, 7, Some (cQ 1 2));
  (15, 8, Some (cQ 1 2));
  (16, 12, Some (cD (cN 1) (cR (cN 2))))].
(** /repo/c++/symmetry/nrg-recalc-QSZLR.hpp recalc_irreduc, qszlr/qszlr-2ch-spinupdiffb.dat *)
Definition qszlr_2ch_t5 : irr_table := mk_irr 1 0 [ShLin 0%nat 1 1; ShLin 1%nat 1 1; ShLin 2%nat (-1) 0]  [
  (4, 1, Some (cD (cN 1) (cR (cN 2))));
  (7, 3, Some (cQ 1 2));
  (8, 3, Some (cQ (-1) 2));
  (9, 2, Some (cQ 1 2));
  (10, 2, Some (cQ 1 2));
  (11, 5, Some QSZLR_e0);
  (13, 6, Some QSZLR_e0);
  (14, 9, Some (cQ (-1) 2));
  (14, 10, Some (cQ 1 2));
  (15, 7, Some (cQ (-1) 2));
  (15, 8, Some (cQ (-1) 2));
  (16, 12, Some QSZLR_e0)].
(** /repo/c++/symmetry/nrg-recalc-QSZLR.hpp recalc_irreduc, qszlr/qszlr-2ch-spindowndiffa.dat *)
Definition qszlr_2ch_t6 : irr_table := mk_irr 0 0 [ShLin 0%nat 1 1; ShLin 1%nat 1 (-1); ShLin 2%nat (-1) 0]  [
  (2, 1, Some QSZLR_e0);
  (6, 3, Some (cD (cN 1) (cR (cN 2))));
  (7, 5, Some (cQ 1 2));
  (8, 5, Some (cQ 1 2));
  (9, 4, Some (cQ 1 2));
  (10, 4, Some (cQ 1 2));
  (12, 9, Some (cQ 1 2));
  (12, 10, Some (cQ (-1) 2));
  (13, 7, Some (cQ 1 2));
  (13, 8, Some (cQ (-1) 2));
  (15, 11, Some QSZLR_e0);
  (16, 14, Some QSZLR_e0)].
(** /repo/c++/symmetry/nrg-recalc-QSZLR.hpp recalc_irreduc, qszlr/qszlr-2ch-spindowndiffb.dat *)
Definition qszlr_2ch_t7 : irr_table := mk_irr 1 0 [ShLin 0%nat 1 1; ShLin 1%nat 1 (-1); ShLin 2%nat (-1) 0]  [
  (2, 1, Some (cD (cN 1) (cR (cN 2))));
  (6, 3, Some QSZLR_e0);
  (7, 5, Some (cQ (-1) 2));
  (8, 5, Some (cQ (-1) 2));
  (9, 4, Some (cQ (-1) 2));
  (10, 4, Some (cQ (-1) 2));
  (12, 9, Some (cQ (-1) 2));
  (12, 10, Some (cQ 1 2));
  (13, 7, Some (cQ (-1) 2));
  (13, 8, Some (cQ 1 2));
  (15, 11, Some (cD (cN 1) (cR (cN 2))));
  (16, 14, Some (cD (cN 1) (cR (cN 2))))].
(** /repo/c++/symmetry/sym-QSZLR-impl.hpp, make_matrix  *)
Definition qszlr_2ch_m0_o : list off_line := [
  (1, 2, 0, 0, "xi", Some QSZLR_e0);
  (1, 3, 0, 0, "xi", Some (cD (cN 1) (cR (cN 2))));
  (1, 4, 0, 0, "xi", Some QSZLR_e0);
  (1, 5, 0, 0, "xi", Some (cD (cN 1) (cR (cN 2))));
  (2, 6, 0, 0, "xi", Some QSZLR_e0);
  (2, 7, 0, 0, "xi", Some (cQ (-1) 2));
  (2, 8, 0, 0, "xi", Some (cQ (-1) 2));
  (2, 9, 0, 0, "xi", Some (cQ 1 2));
  (2, 10, 0, 0, "xi", Some (cQ 1 2));
  (3, 6, 0, 0, "xi", Some QSZLR_e0);
  (3, 7, 0, 0, "xi", Some (cQ 1 2));
  (3, 8, 0, 0, "xi", Some (cQ (-1) 2));
  (3, 9, 0, 0, "xi", Some (cQ (-1) 2));
  (3, 10, 0, 0, "xi", Some (cQ 1 2));
  (4, 7, 0, 0, "xi", Some (cQ 1 2));
  (4, 8, 0, 0, "xi", Some (cQ (-1) 2));
  (4, 9, 0, 0, "xi", Some (cQ (-1) 2));
  (4, 10, 0, 0, "xi", Some (cQ (-1) 2));
  (4, 11, 0, 0, "xi", Some QSZLR_e0);
  (5, 7, 0, 0, "xi", Some (cQ (-1) 2));
  (5, 8, 0, 0, "xi", Some (cQ (-1) 2));
  (5, 9, 0, 0, "xi", Some (cQ 1 2));
  (5, 10, 0, 0, "xi", Some (cQ (-1) 2));
  (5, 11, 0, 0, "xi", Some QSZLR_e0);
  (6, 12, 0, 0, "xi", Some QSZLR_e0);
  (6, 13, 0, 0, "xi", Some (cD (cN 1) (cR (cN 2))));
  (7, 12, 0, 0, "xi", Some (cQ 1 2));
  (7, 13, 0, 0, "xi", Some (cQ 1 2));
  (7, 14, 0, 0, "xi", Some (cQ 1 2));
  (7, 15, 0, 0, "xi", Some (cQ 1 2));
  (8, 12, 0, 0, "xi", Some (cQ 1 2));
  (8, 13, 0, 0, "xi", Some (cQ (-1) 2));
  (8, 14, 0, 0, "xi", Some (cQ (-1) 2));
  (8, 15, 0, 0, "xi", Some (cQ 1 2));
  (9, 12, 0, 0, "xi", Some (cQ 1 2));
  (9, 13, 0, 0, "xi", Some (cQ 1 2));
  (9, 14, 0, 0, "xi", Some (cQ 1 2));
  (9, 15, 0, 0, "xi", Some (cQ 1 2));
  (10, 12, 0, 0, "xi", Some (cQ (-1) 2));
  (10, 13, 0, 0, "xi", Some (cQ 1 2));
  (10, 14, 0, 0, "xi", Some (cQ (-1) 2));
  (10, 15, 0, 0, "xi", Some (cQ 1 2));
  (11, 14, 0, 0, "xi", Some (cD (cN 1) (cR (cN 2))));
  (11, 15, 0, 0, "xi", Some QSZLR_e0);
  (12, 16, 0, 0, "xi", Some QSZLR_e0);
  (13, 16, 0, 0, "xi", Some QSZLR_e0);
  (14, 16, 0, 0, "xi", Some (cD (cN 1) (cR (cN 2))));
  (15, 16, 0, 0, "xi", Some (cD (cN 1) (cR (cN 2))));
  (1, 2, 1, 0, "xi", Some (cD (cN 1) (cR (cN 2))));
  (1, 3, 1, 0, "xi", Some (cD (cN 1) (cR (cN 2))));
  (1, 4, 1, 0, "xi", Some (cD (cN 1) (cR (cN 2))));
  (1, 5, 1, 0, "xi", Some (cD (cN 1) (cR (cN 2))));
  (2, 6, 1, 0, "xi", Some QSZLR_e0);
  (2, 7, 1, 0, "xi", Some (cQ (-1) 2));
  (2, 8, 1, 0, "xi", Some (cQ (-1) 2));
  (2, 9, 1, 0, "xi", Some (cQ (-1) 2));
  (2, 10, 1, 0, "xi", Some (cQ (-1) 2));
  (3, 6, 1, 0, "xi", Some (cD (cN 1) (cR (cN 2))));
  (3, 7, 1, 0, "xi", Some (cQ (-1) 2));
  (3, 8, 1, 0, "xi", Some (cQ 1 2));
  (3, 9, 1, 0, "xi", Some (cQ (-1) 2));
  (3, 10, 1, 0, "xi", Some (cQ 1 2));
  (4, 7, 1, 0, "xi", Some (cQ 1 2));
  (4, 8, 1, 0, "xi", Some (cQ (-1) 2));
  (4, 9, 1, 0, "xi", Some (cQ 1 2));
  (4, 10, 1, 0, "xi", Some (cQ 1 2));
  (4, 11, 1, 0, "xi", Some QSZLR_e0);
  (5, 7, 1, 0, "xi", Some (cQ 1 2));
  (5, 8, 1, 0, "xi", Some (cQ 1 2));
  (5, 9, 1, 0, "xi", Some (cQ 1 2));
  (5, 10, 1, 0, "xi", Some (cQ (-1) 2));
  (5, 11, 1, 0, "xi", Some (cD (cN 1) (cR (cN 2))));
  (6, 12, 1, 0, "xi", Some QSZLR_e0);
  (6, 13, 1, 0, "xi", Some QSZLR_e0);
  (7, 12, 1, 0, "xi", Some (cQ 1 2));
  (7, 13, 1, 0, "xi", Some (cQ (-1) 2));
  (7, 14, 1, 0, "xi", Some (cQ 1 2));
  (7, 15, 1, 0, "xi", Some (cQ (-1) 2));
  (8, 12, 1, 0, "xi", Some (cQ 1 2));
  (8, 13, 1, 0, "xi", Some (cQ 1 2));
  (8, 14, 1, 0, "xi", Some (cQ (-1) 2));
  (8, 15, 1, 0, "xi", Some (cQ (-1) 2));
  (9, 12, 1, 0, "xi", Some (cQ (-1) 2));
  (9, 13, 1, 0, "xi", Some (cQ 1 2));
  (9, 14, 1, 0, "xi", Some (cQ (-1) 2));
  (9, 15, 1, 0, "xi", Some (cQ 1 2));
  (10, 12, 1, 0, "xi", Some (cQ 1 2));
  (10, 13, 1, 0, "xi", Some (cQ 1 2));
  (10, 14, 1, 0, "xi", Some (cQ 1 2));
  (10, 15, 1, 0, "xi", Some (cQ 1 2));
  (11, 14, 1, 0, "xi", Some (cD (cN 1) (cR (cN 2))));
  (11, 15, 1, 0, "xi", Some (cD (cN 1) (cR (cN 2))));
  (12, 16, 1, 0, "xi", Some (cD (cN 1) (cR (cN 2))));
  (13, 16, 1, 0, "xi", Some QSZLR_e0);
  (14, 16, 1, 0, "xi", Some QSZLR_e0);
  (15, 16, 1, 0, "xi", Some (cD (cN 1) (cR (cN 2))))].
(** /repo/c++/symmetry/sym-QSZLR-impl.hpp, make_matrix  *)
Definition qszlr_2ch_m0_d : list diag_line := [
  (1, 0, "zeta", Some (cN 0));
  (2, 0, "zeta", Some (cQ 1 2));
  (3, 0, "zeta", Some (cQ 1 2));
  (4, 0, "zeta", Some (cQ 1 2));
  (5, 0, "zeta", Some (cQ 1 2));
  (6, 0, "zeta", Some (cN 1));
  (7, 0, "zeta", Some (cN 1));
  (8, 0, "zeta", Some (cN 1));
  (9, 0, "zeta", Some (cN 1));
  (10, 0, "zeta", Some (cN 1));
  (11, 0, "zeta", Some (cN 1));
  (12, 0, "zeta", Some (cQ 3 2));
  (13, 0, "zeta", Some (cQ 3 2));
  (14, 0, "zeta", Some (cQ 3 2));
  (15, 0, "zeta", Some (cQ 3 2));
  (16, 0, "zeta", Some (cN 2));
  (1, 1, "zeta", Some (cN 0));
  (2, 1, "zeta", Some (cQ 1 2));
  (3, 1, "zeta", Some (cQ 1 2));
  (4, 1, "zeta", Some (cQ 1 2));
  (5, 1, "zeta", Some (cQ 1 2));
  (6, 1, "zeta", Some (cN 1));
  (7, 1, "zeta", Some (cN 1));
  (8, 1, "zeta", Some (cN 1));
  (9, 1, "zeta", Some (cN 1));
  (10, 1, "zeta", Some (cN 1));
  (11, 1, "zeta", Some (cN 1));
  (12, 1, "zeta", Some (cQ 3 2));
  (13, 1, "zeta", Some (cQ 3 2));
  (14, 1, "zeta", Some (cQ 3 2));
  (15, 1, "zeta", Some (cQ 3 2));
  (16, 1, "zeta", Some (cN 2))].
(** /repo/c++/symmetry/sym-QSZLR-impl.hpp, make_matrix  *)
Definition qszlr_2ch_m0_f : list dof_line := [
  ].
Definition coef_qszlr_2ch : coef_set := mk_coef "QSZLR" 2%nat sym_QSZLR {| tb_In := qszlr_2ch_In; tb_QN := qszlr_2ch_QN |}
  [qszlr_2ch_t0; qszlr_2ch_t1; qszlr_2ch_t2; qszlr_2ch_t3; qszlr_2ch_t4; qszlr_2ch_t5; qszlr_2ch_t6; qszlr_2ch_t7]
  []
  [mk_mode "default" qszlr_2ch_m0_o qszlr_2ch_m0_d qszlr_2ch_m0_f].
