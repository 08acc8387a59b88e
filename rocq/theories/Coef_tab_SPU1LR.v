(** Generated by gen/gen_coef.py from /repo/c++/symmetry/{sym-SPU1LR-impl.hpp, nrg-recalc-SPU1LR.hpp, coefnew}. Do not edit. *)
From Coq Require Import List ZArith String.
From Verif Require Import Base Invar_model Symmetry_model Symmetry_tables Coef_model.
Import ListNotations.
Local Open Scope string_scope.
Local Open Scope list_scope.
Local Open Scope Z_scope.

Definition SPU1LR_e0 := (cO (cD (cN 1) (cR (cN 2)))).
Definition SPU1LR_e1 := (cD (cN 1) (cM (cN 2) (cR (cN 2)))).

(** /repo/c++/symmetry/nrg-recalc-SPU1LR.hpp recalc_doublet, spu1lr/spu1lr-1ch-doubletp.dat *)
Definition spu1lr_1ch_t0 : ten_table := mk_ten "doublet" [ShLin 0%nat 1 1] [(-1); 1] [
  (1, 1, [ShLin 0%nat 1 1; ShLin 1%nat 1 0], [ShLin 0%nat 1 2; ShLin 1%nat 1 0], Some (cN (-1)));
  (2, 2, [ShLin 0%nat 1 0; ShLin 1%nat 1 0], [ShLin 0%nat 1 1; ShLin 1%nat 1 0], Some (cN 1));
  (3, 3, [ShLin 0%nat 1 0; ShLin 1%nat 1 0], [ShLin 0%nat 1 1; ShLin 1%nat 1 0], Some (cN 1));
  (4, 4, [ShLin 0%nat 1 (-1); ShLin 1%nat 1 0], [ShLin 0%nat 1 0; ShLin 1%nat 1 0], Some (cN (-1)))].
(** /repo/c++/symmetry/nrg-recalc-SPU1LR.hpp recalc_doublet, spu1lr/spu1lr-1ch-doubletm.dat *)
Definition spu1lr_1ch_t1 : ten_table := mk_ten "doublet" [ShLin 0%nat 1 (-1)] [1; 1] [
  (1, 1, [ShLin 0%nat 1 1; ShLin 1%nat 1 0], [ShLin 0%nat 1 0; ShLin 1%nat 1 0], Some (cN (-1)));
  (2, 2, [ShLin 0%nat 1 0; ShLin 1%nat 1 0], [ShLin 0%nat 1 (-1); ShLin 1%nat 1 0], Some (cN 1));
  (3, 3, [ShLin 0%nat 1 0; ShLin 1%nat 1 0], [ShLin 0%nat 1 (-1); ShLin 1%nat 1 0], Some (cN 1));
  (4, 4, [ShLin 0%nat 1 (-1); ShLin 1%nat 1 0], [ShLin 0%nat 1 (-2); ShLin 1%nat 1 0], Some (cN (-1)))].
(** /repo/c++/symmetry/nrg-recalc-SPU1LR.hpp recalc_irreduc, spu1lr/spu1lr-1ch-spinupa.dat *)
Definition spu1lr_1ch_t2 : irr_table := mk_irr 0 0 [ShLin 0%nat 1 1; ShLin 1%nat 1 0]  [
  (3, 1, Some (cN 1));
  (4, 2, Some (cN 1))].
(** /repo/c++/symmetry/nrg-recalc-SPU1LR.hpp recalc_irreduc, spu1lr/spu1lr-1ch-spindowna.dat *)
Definition spu1lr_1ch_t3 : irr_table := mk_irr 0 0 [ShLin 0%nat 1 (-1); ShLin 1%nat 1 0]  [
  (1, 2, Some (cN 1));
  (3, 4, Some (cN (-1)))].
(** /repo/c++/symmetry/nrg-recalc-SPU1LR.hpp recalc_triplet, spu1lr/spu1lr-1ch-triplets.dat *)
Definition spu1lr_1ch_t4 : ten_table := mk_ten "triplet" [ShLin 0%nat 1 0] [0; 1] [
  (1, 1, [ShLin 0%nat 1 1; ShLin 1%nat 1 0], [ShLin 0%nat 1 1; ShLin 1%nat 1 0], Some (cN 1));
  (2, 2, [ShLin 0%nat 1 0; ShLin 1%nat 1 0], [ShLin 0%nat 1 0; ShLin 1%nat 1 0], Some (cN 1));
  (3, 3, [ShLin 0%nat 1 0; ShLin 1%nat 1 0], [ShLin 0%nat 1 0; ShLin 1%nat 1 0], Some (cN 1));
  (4, 4, [ShLin 0%nat 1 (-1); ShLin 1%nat 1 0], [ShLin 0%nat 1 (-1); ShLin 1%nat 1 0], Some (cN 1))].
(** /repo/c++/symmetry/nrg-recalc-SPU1LR.hpp recalc_triplet, spu1lr/spu1lr-1ch-tripletp.dat *)
Definition spu1lr_1ch_t5 : ten_table := mk_ten "triplet" [ShLin 0%nat 1 2] [(-2); 1] [
  (1, 1, [ShLin 0%nat 1 1; ShLin 1%nat 1 0], [ShLin 0%nat 1 3; ShLin 1%nat 1 0], Some (cN 1));
  (2, 2, [ShLin 0%nat 1 0; ShLin 1%nat 1 0], [ShLin 0%nat 1 2; ShLin 1%nat 1 0], Some (cN 1));
  (3, 3, [ShLin 0%nat 1 0; ShLin 1%nat 1 0], [ShLin 0%nat 1 2; ShLin 1%nat 1 0], Some (cN 1));
  (4, 4, [ShLin 0%nat 1 (-1); ShLin 1%nat 1 0], [ShLin 0%nat 1 1; ShLin 1%nat 1 0], Some (cN 1))].
(** /repo/c++/symmetry/nrg-recalc-SPU1LR.hpp recalc_triplet, spu1lr/spu1lr-1ch-tripletm.dat *)
Definition spu1lr_1ch_t6 : ten_table := mk_ten "triplet" [ShLin 0%nat 1 (-2)] [2; 1] [
  (1, 1, [ShLin 0%nat 1 1; ShLin 1%nat 1 0], [ShLin 0%nat 1 (-1); ShLin 1%nat 1 0], Some (cN 1));
  (2, 2, [ShLin 0%nat 1 0; ShLin 1%nat 1 0], [ShLin 0%nat 1 (-2); ShLin 1%nat 1 0], Some (cN 1));
  (3, 3, [ShLin 0%nat 1 0; ShLin 1%nat 1 0], [ShLin 0%nat 1 (-2); ShLin 1%nat 1 0], Some (cN 1));
  (4, 4, [ShLin 0%nat 1 (-1); ShLin 1%nat 1 0], [ShLin 0%nat 1 (-3); ShLin 1%nat 1 0], Some (cN 1))].
(** /repo/c++/symmetry/sym-SPU1LR-impl.hpp, make_matrix  *)
Definition spu1lr_1ch_m0_o : list off_line := [
  (1, 3, 0, 0, "xi", Some (cN (-1)));
  (2, 1, 0, 0, "xi", Some (cN 1));
  (2, 4, 0, 0, "xi", Some (cN 1));
  (4, 3, 0, 0, "xi", Some (cN 1));
  (1, 2, 0, 0, "kappa", Some (cN (-1)));
  (3, 1, 0, 0, "kappa", Some (cN (-1)));
  (3, 4, 0, 0, "kappa", Some (cN (-1)));
  (4, 2, 0, 0, "kappa", Some (cN 1))].
(** /repo/c++/symmetry/sym-SPU1LR-impl.hpp, make_matrix  *)
Definition spu1lr_1ch_m0_d : list diag_line := [
  (1, 0, "zeta", Some (cN 1));
  (2, 0, "zeta", Some (cN 0));
  (3, 0, "zeta", Some (cN 2));
  (4, 0, "zeta", Some (cN 1))].
(** /repo/c++/symmetry/sym-SPU1LR-impl.hpp, make_matrix  *)
Definition spu1lr_1ch_m0_f : list dof_line := [
  (2, 3, 0, "2*delta", Some (cQ 1 2))].
Definition coef_spu1lr_1ch : coef_set := mk_coef "SPU1LR" 1%nat sym_SPU1LR {| tb_In := spu1lr_1ch_In; tb_QN := spu1lr_1ch_QN |}
  [spu1lr_1ch_t2; spu1lr_1ch_t3]
  [spu1lr_1ch_t0; spu1lr_1ch_t1; spu1lr_1ch_t4; spu1lr_1ch_t5; spu1lr_1ch_t6]
  [mk_mode "default" spu1lr_1ch_m0_o spu1lr_1ch_m0_d spu1lr_1ch_m0_f].
(** /repo/c++/symmetry/nrg-recalc-SPU1LR.hpp recalc_doublet, spu1lr/spu1lr-2ch-doubletp.dat *)
Definition spu1lr_2ch_t0 : ten_table := mk_ten "doublet" [ShLin 0%nat 1 1] [(-1); 1] [
  (1, 1, [ShLin 0%nat 1 2; ShLin 1%nat (-1) 0], [ShLin 0%nat 1 3; ShLin 1%nat (-1) 0], Some (cN 1));
  (2, 2, [ShLin 0%nat 1 1; ShLin 1%nat (-1) 0], [ShLin 0%nat 1 2; ShLin 1%nat (-1) 0], Some (cN (-1)));
  (3, 3, [ShLin 0%nat 1 1; ShLin 1%nat (-1) 0], [ShLin 0%nat 1 2; ShLin 1%nat (-1) 0], Some (cN (-1)));
  (4, 4, [ShLin 0%nat 1 1; ShLin 1%nat 1 0], [ShLin 0%nat 1 2; ShLin 1%nat 1 0], Some (cN (-1)));
  (5, 5, [ShLin 0%nat 1 1; ShLin 1%nat 1 0], [ShLin 0%nat 1 2; ShLin 1%nat 1 0], Some (cN (-1)));
  (6, 6, [ShLin 0%nat 1 0; ShLin 1%nat (-1) 0], [ShLin 0%nat 1 1; ShLin 1%nat (-1) 0], Some (cN 1));
  (7, 7, [ShLin 0%nat 1 0; ShLin 1%nat (-1) 0], [ShLin 0%nat 1 1; ShLin 1%nat (-1) 0], Some (cN 1));
  (8, 8, [ShLin 0%nat 1 0; ShLin 1%nat 1 0], [ShLin 0%nat 1 1; ShLin 1%nat 1 0], Some (cN 1));
  (9, 9, [ShLin 0%nat 1 0; ShLin 1%nat 1 0], [ShLin 0%nat 1 1; ShLin 1%nat 1 0], Some (cN 1));
  (10, 10, [ShLin 0%nat 1 0; ShLin 1%nat 1 0], [ShLin 0%nat 1 1; ShLin 1%nat 1 0], Some (cN 1));
  (11, 11, [ShLin 0%nat 1 0; ShLin 1%nat 1 0], [ShLin 0%nat 1 1; ShLin 1%nat 1 0], Some (cN 1));
  (12, 12, [ShLin 0%nat 1 (-1); ShLin 1%nat (-1) 0], [ShLin 0%nat 1 0; ShLin 1%nat (-1) 0], Some (cN (-1)));
  (13, 13, [ShLin 0%nat 1 (-1); ShLin 1%nat (-1) 0], [ShLin 0%nat 1 0; ShLin 1%nat (-1) 0], Some (cN (-1)));
  (14, 14, [ShLin 0%nat 1 (-1); ShLin 1%nat 1 0], [ShLin 0%nat 1 0; ShLin 1%nat 1 0], Some (cN (-1)));
  (15, 15, [ShLin 0%nat 1 (-1); ShLin 1%nat 1 0], [ShLin 0%nat 1 0; ShLin 1%nat 1 0], Some (cN (-1)));
  (16, 16, [ShLin 0%nat 1 (-2); ShLin 1%nat (-1) 0], [ShLin 0%nat 1 (-1); ShLin 1%nat (-1) 0], Some (cN 1))].
(** /repo/c++/symmetry/nrg-recalc-SPU1LR.hpp recalc_doublet, spu1lr/spu1lr-2ch-doubletm.dat *)
Definition spu1lr_2ch_t1 : ten_table := mk_ten "doublet" [ShLin 0%nat 1 (-1)] [1; 1] [
  (1, 1, [ShLin 0%nat 1 2; ShLin 1%nat (-1) 0], [ShLin 0%nat 1 1; ShLin 1%nat (-1) 0], Some (cN 1));
  (2, 2, [ShLin 0%nat 1 1; ShLin 1%nat (-1) 0], [ShLin 0%nat 1 0; ShLin 1%nat (-1) 0], Some (cN (-1)));
  (3, 3, [ShLin 0%nat 1 1; ShLin 1%nat (-1) 0], [ShLin 0%nat 1 0; ShLin 1%nat (-1) 0], Some (cN (-1)));
  (4, 4, [ShLin 0%nat 1 1; ShLin 1%nat 1 0], [ShLin 0%nat 1 0; ShLin 1%nat 1 0], Some (cN (-1)));
  (5, 5, [ShLin 0%nat 1 1; ShLin 1%nat 1 0], [ShLin 0%nat 1 0; ShLin 1%nat 1 0], Some (cN (-1)));
  (6, 6, [ShLin 0%nat 1 0; ShLin 1%nat (-1) 0], [ShLin 0%nat 1 (-1); ShLin 1%nat (-1) 0], Some (cN 1));
  (7, 7, [ShLin 0%nat 1 0; ShLin 1%nat (-1) 0], [ShLin 0%nat 1 (-1); ShLin 1%nat (-1) 0], Some (cN 1));
  (8, 8, [ShLin 0%nat 1 0; ShLin 1%nat 1 0], [ShLin 0%nat 1 (-1); ShLin 1%nat 1 0], Some (cN 1));
  (9, 9, [ShLin 0%nat 1 0; ShLin 1%nat 1 0], [ShLin 0%nat 1 (-1); ShLin 1%nat 1 0], Some (cN 1));
  (10, 10, [ShLin 0%nat 1 0; ShLin 1%nat 1 0], [ShLin 0%nat 1 (-1); ShLin 1%nat 1 0], Some (cN 1));
  (11, 11, [ShLin 0%nat 1 0; ShLin 1%nat 1 0], [ShLin 0%nat 1 (-1); ShLin 1%nat 1 0], Some (cN 1));
  (12, 12, [ShLin 0%nat 1 (-1); ShLin 1%nat (-1) 0], [ShLin 0%nat 1 (-2); ShLin 1%nat (-1) 0], Some (cN (-1)));
  (13, 13, [ShLin 0%nat 1 (-1); ShLin 1%nat (-1) 0], [ShLin 0%nat 1 (-2); ShLin 1%nat (-1) 0], Some (cN (-1)));
  (14, 14, [ShLin 0%nat 1 (-1); ShLin 1%nat 1 0], [ShLin 0%nat 1 (-2); ShLin 1%nat 1 0], Some (cN (-1)));
  (15, 15, [ShLin 0%nat 1 (-1); ShLin 1%nat 1 0], [ShLin 0%nat 1 (-2); ShLin 1%nat 1 0], Some (cN (-1)));
  (16, 16, [ShLin 0%nat 1 (-2); ShLin 1%nat (-1) 0], [ShLin 0%nat 1 (-3); ShLin 1%nat (-1) 0], Some (cN 1))].
(** /repo/c++/symmetry/nrg-recalc-SPU1LR.hpp recalc_irreduc, spu1lr/spu1lr-2ch-spinupa.dat *)
Definition spu1lr_2ch_t2 : irr_table := mk_irr 0 0 [ShLin 0%nat 1 1; ShLin 1%nat 1 0]  [
  (3, 1, Some SPU1LR_e0);
  (6, 2, Some (cQ 1 2));
  (7, 2, Some (cQ 1 2));
  (9, 4, Some (cQ 1 2));
  (10, 4, Some (cQ (-1) 2));
  (11, 5, Some (cD (cN 1) (cR (cN 2))));
  (13, 6, Some (cQ 1 2));
  (13, 7, Some (cQ (-1) 2));
  (14, 8, Some (cD (cN 1) (cR (cN 2))));
  (15, 9, Some (cQ 1 2));
  (15, 10, Some (cQ 1 2));
  (16, 12, Some (cD (cN 1) (cR (cN 2))))].
(** /repo/c++/symmetry/nrg-recalc-SPU1LR.hpp recalc_irreduc, spu1lr/spu1lr-2ch-spinupb.dat *)
Definition spu1lr_2ch_t3 : irr_table := mk_irr 1 0 [ShLin 0%nat 1 1; ShLin 1%nat 1 0]  [
  (3, 1, Some SPU1LR_e0);
  (6, 2, Some (cQ 1 2));
  (7, 2, Some (cQ 1 2));
  (9, 4, Some (cQ 1 2));
  (10, 4, Some (cQ (-1) 2));
  (11, 5, Some (cD (cN 1) (cR (cN 2))));
  (13, 6, Some (cQ 1 2));
  (13, 7, Some (cQ (-1) 2));
  (14, 8, Some (cD (cN 1) (cR (cN 2))));
  (15, 9, Some (cQ 1 2));
  (15, 10, Some (cQ 1 2));
  (16, 12, Some (cD (cN 1) (cR (cN 2))))].
(** /repo/c++/symmetry/nrg-recalc-SPU1LR.hpp recalc_irreduc, spu1lr/spu1lr-2ch-spindowna.dat *)
Definition spu1lr_2ch_t4 : irr_table := mk_irr 0 0 [ShLin 0%nat 1 (-1); ShLin 1%nat 1 0]  [
  (1, 2, Some (cD (cN 1) (cR (cN 2))));
  (3, 6, Some (cQ 1 2));
  (3, 7, Some (cQ 1 2));
  (4, 8, Some (cD (cN 1) (cR (cN 2))));
  (5, 9, Some (cQ 1 2));
  (5, 10, Some (cQ 1 2));
  (6, 12, Some (cQ (-1) 2));
  (7, 12, Some (cQ 1 2));
  (9, 14, Some (cQ (-1) 2));
  (10, 14, Some (cQ 1 2));
  (11, 15, Some SPU1LR_e0);
  (13, 16, Some (cD (cN 1) (cR (cN 2))))].
(** /repo/c++/symmetry/nrg-recalc-SPU1LR.hpp recalc_irreduc, spu1lr/spu1lr-2ch-spindownb.dat *)
Definition spu1lr_2ch_t5 : irr_table := mk_irr 1 0 [ShLin 0%nat 1 (-1); ShLin 1%nat 1 0]  [
  (1, 2, Some (cD (cN 1) (cR (cN 2))));
  (3, 6, Some (cQ 1 2));
  (3, 7, Some (cQ 1 2));
  (4, 8, Some (cD (cN 1) (cR (cN 2))));
  (5, 9, Some (cQ 1 2));
  (5, 10, Some (cQ 1 2));
  (6, 12, Some (cQ (-1) 2));
  (7, 12, Some (cQ 1 2));
  (9, 14, Some (cQ (-1) 2));
  (10, 14, Some (cQ 1 2));
  (11, 15, Some SPU1LR_e0);
  (13, 16, Some (cD (cN 1) (cR (cN 2))))].
(** /repo/c++/symmetry/nrg-recalc-SPU1LR.hpp recalc_irreduc, spu1lr/spu1lr-2ch-spinupdiffa.dat *)
Definition spu1lr_2ch_t6 : irr_table := mk_irr 0 0 [ShLin 0%nat 1 1; ShLin 1%nat (-1) 0]  [
  (5, 1, Some (cD (cN 1) (cR (cN 2))));
  (6, 4, Some (cQ (-1) 2));
  (7, 4, Some (cQ 1 2));
  (9, 2, Some (cQ (-1) 2));
  (10, 2, Some (cQ (-1) 2));
  (11, 3, Some (cD (cN 1) (cR (cN 2))));
  (12, 8, Some SPU1LR_e0);
  (13, 9, Some (cQ 1 2));
  (13, 10, Some (cQ (-1) 2));
  (15, 6, Some (cQ 1 2));
  (15, 7, Some (cQ 1 2));
  (16, 14, Some (cD (cN 1) (cR (cN 2))))].
(** /repo/c++/symmetry/nrg-recalc-SPU1LR.hpp recalc_irreduc, spu1lr/spu1lr-2ch-spinupdiffb.dat *)
Definition spu1lr_2ch_t7 : irr_table := mk_irr 1 0 [ShLin 0%nat 1 1; ShLin 1%nat (-1) 0]  [
  (5, 1, Some SPU1LR_e0);
  (6, 4, Some (cQ 1 2));
  (7, 4, Some (cQ (-1) 2));
  (9, 2, Some (cQ 1 2));
  (10, 2, Some (cQ 1 2));
  (11, 3, Some SPU1LR_e0);
  (12, 8, Some (cD (cN 1) (cR (cN 2))));
  (13, 9, Some (cQ (-1) 2));
  (13, 10, Some (cQ 1 2));
  (15, 6, Some (cQ (-1) 2));
  (15, 7, Some (cQ (-1) 2));
  (16, 14, Some SPU1LR_e0)].
(** /repo/c++/symmetry/nrg-recalc-SPU1LR.hpp recalc_irreduc, spu1lr/spu1lr-2ch-spindowndiffa.dat *)
Definition spu1lr_2ch_t8 : irr_table := mk_irr 0 0 [ShLin 0%nat 1 (-1); ShLin 1%nat (-1) 0]  [
  (1, 4, Some (cD (cN 1) (cR (cN 2))));
  (2, 8, Some SPU1LR_e0);
  (3, 9, Some (cQ 1 2));
  (3, 10, Some (cQ (-1) 2));
  (5, 6, Some (cQ 1 2));
  (5, 7, Some (cQ (-1) 2));
  (6, 14, Some (cQ 1 2));
  (7, 14, Some (cQ 1 2));
  (9, 12, Some (cQ 1 2));
  (10, 12, Some (cQ 1 2));
  (11, 13, Some SPU1LR_e0);
  (15, 16, Some SPU1LR_e0)].
(** /repo/c++/symmetry/nrg-recalc-SPU1LR.hpp recalc_irreduc, spu1lr/spu1lr-2ch-spindowndiffb.dat *)
Definition spu1lr_2ch_t9 : irr_table := mk_irr 1 0 [ShLin 0%nat 1 (-1); ShLin 1%nat (-1) 0]  [
  (1, 4, Some SPU1LR_e0);
  (2, 8, Some (cD (cN 1) (cR (cN 2))));
  (3, 9, Some (cQ (-1) 2));
  (3, 10, Some (cQ 1 2));
  (5, 6, Some (cQ (-1) 2));
  (5, 7, Some (cQ 1 2));
  (6, 14, Some (cQ (-1) 2));
  (7, 14, Some (cQ (-1) 2));
  (9, 12, Some (cQ (-1) 2));
  (10, 12, Some (cQ (-1) 2));
  (11, 13, Some (cD (cN 1) (cR (cN 2))));
  (15, 16, Some (cD (cN 1) (cR (cN 2))))].
(** /repo/c++/symmetry/nrg-recalc-SPU1LR.hpp recalc_triplet, spu1lr/spu1lr-2ch-triplets.dat *)
Definition spu1lr_2ch_t10 : ten_table := mk_ten "triplet" [ShLin 0%nat 1 0] [0; 1] [
  (1, 1, [ShLin 0%nat 1 2; ShLin 1%nat (-1) 0], [ShLin 0%nat 1 2; ShLin 1%nat (-1) 0], Some (cN 1));
  (2, 2, [ShLin 0%nat 1 1; ShLin 1%nat (-1) 0], [ShLin 0%nat 1 1; ShLin 1%nat (-1) 0], Some (cN 1));
  (3, 3, [ShLin 0%nat 1 1; ShLin 1%nat (-1) 0], [ShLin 0%nat 1 1; ShLin 1%nat (-1) 0], Some (cN 1));
  (4, 4, [ShLin 0%nat 1 1; ShLin 1%nat 1 0], [ShLin 0%nat 1 1; ShLin 1%nat 1 0], Some (cN 1));
  (5, 5, [ShLin 0%nat 1 1; ShLin 1%nat 1 0], [ShLin 0%nat 1 1; ShLin 1%nat 1 0], Some (cN 1));
  (6, 6, [ShLin 0%nat 1 0; ShLin 1%nat (-1) 0], [ShLin 0%nat 1 0; ShLin 1%nat (-1) 0], Some (cN 1));
  (7, 7, [ShLin 0%nat 1 0; ShLin 1%nat (-1) 0], [ShLin 0%nat 1 0; ShLin 1%nat (-1) 0], Some (cN 1));
  (8, 8, [ShLin 0%nat 1 0; ShLin 1%nat 1 0], [ShLin 0%nat 1 0; ShLin 1%nat 1 0], Some (cN 1));
  (9, 9, [ShLin 0%nat 1 0; ShLin 1%nat 1 0], [ShLin 0%nat 1 0; ShLin 1%nat 1 0], Some (cN 1));
  (10, 10, [ShLin 0%nat 1 0; ShLin 1%nat 1 0], [ShLin 0%nat 1 0; ShLin 1%nat 1 0], Some (cN 1));
  (11, 11, [ShLin 0%nat 1 0; ShLin 1%nat 1 0], [ShLin 0%nat 1 0; ShLin 1%nat 1 0], Some (cN 1));
  (12, 12, [ShLin 0%nat 1 (-1); ShLin 1%nat (-1) 0], [ShLin 0%nat 1 (-1); ShLin 1%nat (-1) 0], Some (cN 1));
  (13, 13, [ShLin 0%nat 1 (-1); ShLin 1%nat (-1) 0], [ShLin 0%nat 1 (-1); ShLin 1%nat (-1) 0], Some (cN 1));
  (14, 14, [ShLin 0%nat 1 (-1); ShLin 1%nat 1 0], [ShLin 0%nat 1 (-1); ShLin 1%nat 1 0], Some (cN 1));
  (15, 15, [ShLin 0%nat 1 (-1); ShLin 1%nat 1 0], [ShLin 0%nat 1 (-1); ShLin 1%nat 1 0], Some (cN 1));
  (16, 16, [ShLin 0%nat 1 (-2); ShLin 1%nat (-1) 0], [ShLin 0%nat 1 (-2); ShLin 1%nat (-1) 0], Some (cN 1))].
(** /repo/c++/symmetry/nrg-recalc-SPU1LR.hpp recalc_triplet, spu1lr/spu1lr-2ch-tripletp.dat *)
Definition spu1lr_2ch_t11 : ten_table := mk_ten "triplet" [ShLin 0%nat 1 2] [(-2); 1] [
  (1, 1, [ShLin 0%nat 1 2; ShLin 1%nat (-1) 0], [ShLin 0%nat 1 4; ShLin 1%nat (-1) 0], Some (cN 1));
  (2, 2, [ShLin 0%nat 1 1; ShLin 1%nat (-1) 0], [ShLin 0%nat 1 3; ShLin 1%nat (-1) 0], Some (cN 1));
  (3, 3, [ShLin 0%nat 1 1; ShLin 1%nat (-1) 0], [ShLin 0%nat 1 3; ShLin 1%nat (-1) 0], Some (cN 1));
  (4, 4, [ShLin 0%nat 1 1; ShLin 1%nat 1 0], [ShLin 0%nat 1 3; ShLin 1%nat 1 0], Some (cN 1));
  (5, 5, [ShLin 0%nat 1 1; ShLin 1%nat 1 0], [ShLin 0%nat 1 3; ShLin 1%nat 1 0], Some (cN 1));
  (6, 6, [ShLin 0%nat 1 0; ShLin 1%nat (-1) 0], [ShLin 0%nat 1 2; ShLin 1%nat (-1) 0], Some (cN 1));
  (7, 7, [ShLin 0%nat 1 0; ShLin 1%nat (-1) 0], [ShLin 0%nat 1 2; ShLin 1%nat (-1) 0], Some (cN 1));
  (8, 8, [ShLin 0%nat 1 0; ShLin 1%nat 1 0], [ShLin 0%nat 1 2; ShLin 1%nat 1 0], Some (cN 1));
  (9, 9, [ShLin 0%nat 1 0; ShLin 1%nat 1 0], [ShLin 0%nat 1 2; ShLin 1%nat 1 0], Some (cN 1));
  (10, 10, [ShLin 0%nat 1 0; ShLin 1%nat 1 0], [ShLin 0%nat 1 2; ShLin 1%nat 1 0], Some (cN 1));
  (11, 11, [ShLin 0%nat 1 0; ShLin 1%nat 1 0], [ShLin 0%nat 1 2; ShLin 1%nat 1 0], Some (cN 1));
  (12, 12, [ShLin 0%nat 1 (-1); ShLin 1%nat (-1) 0], [ShLin 0%nat 1 1; ShLin 1%nat (-1) 0], Some (cN 1));
  (13, 13, [ShLin 0%nat 1 (-1); ShLin 1%nat (-1) 0], [ShLin 0%nat 1 1; ShLin 1%nat (-1) 0], Some (cN 1));
  (14, 14, [ShLin 0%nat 1 (-1); ShLin 1%nat 1 0], [ShLin 0%nat 1 1; ShLin 1%nat 1 0], Some (cN 1));
  (15, 15, [ShLin 0%nat 1 (-1); ShLin 1%nat 1 0], [ShLin 0%nat 1 1; ShLin 1%nat 1 0], Some (cN 1));
  (16, 16, [ShLin 0%nat 1 (-2); ShLin 1%nat (-1) 0], [ShLin 0%nat 1 0; ShLin 1%nat (-1) 0], Some (cN 1))].
(** /repo/c++/symmetry/nrg-recalc-SPU1LR.hpp recalc_triplet, spu1lr/spu1lr-2ch-tripletm.dat *)
Definition spu1lr_2ch_t12 : ten_table := mk_ten "triplet" [ShLin 0%nat 1 (-2)] [2; 1] [
  (1, 1, [ShLin 0%nat 1 2; ShLin 1%nat (-1) 0], [ShLin 0%nat 1 0; ShLin 1%nat (-1) 0], Some (cN 1));
  (2, 2, [ShLin 0%nat 1 1; ShLin 1%nat (-1) 0], [ShLin 0%nat 1 (-1); ShLin 1%nat (-1) 0], Some (cN 1));
  (3, 3, [ShLin 0%nat 1 1; ShLin 1%nat (-1) 0], [ShLin 0%nat 1 (-1); ShLin 1%nat (-1) 0], Some (cN 1));
  (4, 4, [ShLin 0%nat 1 1; ShLin 1%nat 1 0], [ShLin 0%nat 1 (-1); ShLin 1%nat 1 0], Some (cN 1));
  (5, 5, [ShLin 0%nat 1 1; ShLin 1%nat 1 0], [ShLin 0%nat 1 (-1); ShLin 1%nat 1 0], Some (cN 1));
  (6, 6, [ShLin 0%nat 1 0; ShLin 1%nat (-1) 0], [ShLin 0%nat 1 (-2); ShLin 1%nat (-1) 0], Some (cN 1));
  (7, 7, [ShLin 0%nat 1 0; ShLin 1%nat (-1) 0], [ShLin 0%nat 1 (-2); ShLin 1%nat (-1) 0], Some (cN 1));
  (8, 8, [ShLin 0%nat 1 0; ShLin 1%nat 1 0], [ShLin 0%nat 1 (-2); ShLin 1%nat 1 0], Some (cN 1));
  (9, 9, [ShLin 0%nat 1 0; ShLin 1%nat 1 0], [ShLin 0%nat 1 (-2); ShLin 1%nat 1 0], Some (cN 1));
  (10, 10, [ShLin 0%nat 1 0; ShLin 1%nat 1 0], [ShLin 0%nat 1 (-2); ShLin 1%nat 1 0], Some (cN 1));
  (11, 11, [ShLin 0%nat 1 0; ShLin 1%nat 1 0], [ShLin 0%nat 1 (-2); ShLin 1%nat 1 0], Some (cN 1));
  (12, 12, [ShLin 0%nat 1 (-1); ShLin 1%nat (-1) 0], [ShLin 0%nat 1 (-3); ShLin 1%nat (-1) 0], Some (cN 1));
  (13, 13, [ShLin 0%nat 1 (-1); ShLin 1%nat (-1) 0], [ShLin 0%nat 1 (-3); ShLin 1%nat (-1) 0], Some (cN 1));
  (14, 14, [ShLin 0%nat 1 (-1); ShLin 1%nat 1 0], [ShLin 0%nat 1 (-3); ShLin 1%nat 1 0], Some (cN 1));
  (15, 15, [ShLin 0%nat 1 (-1); ShLin 1%nat 1 0], [ShLin 0%nat 1 (-3); ShLin 1%nat 1 0], Some (cN 1));
  (16, 16, [ShLin 0%nat 1 (-2); ShLin 1%nat (-1) 0], [ShLin 0%nat 1 (-4); ShLin 1%nat (-1) 0], Some (cN 1))].
(** /repo/c++/symmetry/sym-SPU1LR-impl.hpp, make_matrix  *)
Definition spu1lr_2ch_m0_o : list off_line := [
  (1, 3, 0, 0, "xi", Some SPU1LR_e0);
  (1, 5, 0, 0, "xi", Some (cD (cN 1) (cR (cN 2))));
  (2, 1, 0, 0, "xi", Some SPU1LR_e0);
  (2, 6, 0, 0, "xi", Some (cQ (-1) 2));
  (2, 7, 0, 0, "xi", Some (cQ (-1) 2));
  (2, 9, 0, 0, "xi", Some (cQ 1 2));
  (2, 10, 0, 0, "xi", Some (cQ 1 2));
  (3, 11, 0, 0, "xi", Some SPU1LR_e0);
  (4, 1, 0, 0, "xi", Some SPU1LR_e0);
  (4, 6, 0, 0, "xi", Some (cQ 1 2));
  (4, 7, 0, 0, "xi", Some (cQ (-1) 2));
  (4, 9, 0, 0, "xi", Some (cQ (-1) 2));
  (4, 10, 0, 0, "xi", Some (cQ 1 2));
  (5, 11, 0, 0, "xi", Some SPU1LR_e0);
  (6, 3, 0, 0, "xi", Some (cQ 1 2));
  (6, 5, 0, 0, "xi", Some (cQ 1 2));
  (6, 13, 0, 0, "xi", Some (cQ 1 2));
  (6, 15, 0, 0, "xi", Some (cQ 1 2));
  (7, 3, 0, 0, "xi", Some (cQ 1 2));
  (7, 5, 0, 0, "xi", Some (cQ (-1) 2));
  (7, 13, 0, 0, "xi", Some (cQ (-1) 2));
  (7, 15, 0, 0, "xi", Some (cQ 1 2));
  (8, 2, 0, 0, "xi", Some SPU1LR_e0);
  (8, 4, 0, 0, "xi", Some (cD (cN 1) (cR (cN 2))));
  (8, 12, 0, 0, "xi", Some SPU1LR_e0);
  (8, 14, 0, 0, "xi", Some (cD (cN 1) (cR (cN 2))));
  (9, 3, 0, 0, "xi", Some (cQ 1 2));
  (9, 5, 0, 0, "xi", Some (cQ 1 2));
  (9, 13, 0, 0, "xi", Some (cQ 1 2));
  (9, 15, 0, 0, "xi", Some (cQ 1 2));
  (10, 3, 0, 0, "xi", Some (cQ (-1) 2));
  (10, 5, 0, 0, "xi", Some (cQ 1 2));
  (10, 13, 0, 0, "xi", Some (cQ (-1) 2));
  (10, 15, 0, 0, "xi", Some (cQ 1 2));
  (12, 6, 0, 0, "xi", Some (cQ 1 2));
  (12, 7, 0, 0, "xi", Some (cQ (-1) 2));
  (12, 9, 0, 0, "xi", Some (cQ (-1) 2));
  (12, 10, 0, 0, "xi", Some (cQ (-1) 2));
  (12, 16, 0, 0, "xi", Some SPU1LR_e0);
  (13, 11, 0, 0, "xi", Some (cD (cN 1) (cR (cN 2))));
  (14, 6, 0, 0, "xi", Some (cQ (-1) 2));
  (14, 7, 0, 0, "xi", Some (cQ (-1) 2));
  (14, 9, 0, 0, "xi", Some (cQ 1 2));
  (14, 10, 0, 0, "xi", Some (cQ (-1) 2));
  (14, 16, 0, 0, "xi", Some SPU1LR_e0);
  (15, 11, 0, 0, "xi", Some (cD (cN 1) (cR (cN 2))));
  (16, 13, 0, 0, "xi", Some (cD (cN 1) (cR (cN 2))));
  (16, 15, 0, 0, "xi", Some SPU1LR_e0);
  (1, 3, 1, 0, "xi", Some SPU1LR_e0);
  (1, 5, 1, 0, "xi", Some SPU1LR_e0);
  (2, 1, 1, 0, "xi", Some SPU1LR_e0);
  (2, 6, 1, 0, "xi", Some (cQ (-1) 2));
  (2, 7, 1, 0, "xi", Some (cQ (-1) 2));
  (2, 9, 1, 0, "xi", Some (cQ (-1) 2));
  (2, 10, 1, 0, "xi", Some (cQ (-1) 2));
  (3, 11, 1, 0, "xi", Some (cD (cN 1) (cR (cN 2))));
  (4, 1, 1, 0, "xi", Some (cD (cN 1) (cR (cN 2))));
  (4, 6, 1, 0, "xi", Some (cQ (-1) 2));
  (4, 7, 1, 0, "xi", Some (cQ 1 2));
  (4, 9, 1, 0, "xi", Some (cQ (-1) 2));
  (4, 10, 1, 0, "xi", Some (cQ 1 2));
  (5, 11, 1, 0, "xi", Some SPU1LR_e0);
  (6, 3, 1, 0, "xi", Some (cQ 1 2));
  (6, 5, 1, 0, "xi", Some (cQ (-1) 2));
  (6, 13, 1, 0, "xi", Some (cQ 1 2));
  (6, 15, 1, 0, "xi", Some (cQ (-1) 2));
  (7, 3, 1, 0, "xi", Some (cQ 1 2));
  (7, 5, 1, 0, "xi", Some (cQ 1 2));
  (7, 13, 1, 0, "xi", Some (cQ (-1) 2));
  (7, 15, 1, 0, "xi", Some (cQ (-1) 2));
  (8, 2, 1, 0, "xi", Some (cD (cN 1) (cR (cN 2))));
  (8, 4, 1, 0, "xi", Some (cD (cN 1) (cR (cN 2))));
  (8, 12, 1, 0, "xi", Some (cD (cN 1) (cR (cN 2))));
  (8, 14, 1, 0, "xi", Some (cD (cN 1) (cR (cN 2))));
  (9, 3, 1, 0, "xi", Some (cQ (-1) 2));
  (9, 5, 1, 0, "xi", Some (cQ 1 2));
  (9, 13, 1, 0, "xi", Some (cQ (-1) 2));
  (9, 15, 1, 0, "xi", Some (cQ 1 2));
  (10, 3, 1, 0, "xi", Some (cQ 1 2));
  (10, 5, 1, 0, "xi", Some (cQ 1 2));
  (10, 13, 1, 0, "xi", Some (cQ 1 2));
  (10, 15, 1, 0, "xi", Some (cQ 1 2));
  (12, 6, 1, 0, "xi", Some (cQ 1 2));
  (12, 7, 1, 0, "xi", Some (cQ (-1) 2));
  (12, 9, 1, 0, "xi", Some (cQ 1 2));
  (12, 10, 1, 0, "xi", Some (cQ 1 2));
  (12, 16, 1, 0, "xi", Some SPU1LR_e0);
  (13, 11, 1, 0, "xi", Some SPU1LR_e0);
  (14, 6, 1, 0, "xi", Some (cQ 1 2));
  (14, 7, 1, 0, "xi", Some (cQ 1 2));
  (14, 9, 1, 0, "xi", Some (cQ 1 2));
  (14, 10, 1, 0, "xi", Some (cQ (-1) 2));
  (14, 16, 1, 0, "xi", Some (cD (cN 1) (cR (cN 2))));
  (15, 11, 1, 0, "xi", Some (cD (cN 1) (cR (cN 2))));
  (16, 13, 1, 0, "xi", Some (cD (cN 1) (cR (cN 2))));
  (16, 15, 1, 0, "xi", Some (cD (cN 1) (cR (cN 2))));
  (1, 2, 0, 0, "kappa", Some (cD (cN 1) (cR (cN 2))));
  (1, 4, 0, 0, "kappa", Some (cD (cN 1) (cR (cN 2))));
  (2, 8, 0, 0, "kappa", Some (cD (cN 1) (cR (cN 2))));
  (3, 1, 0, 0, "kappa", Some SPU1LR_e0);
  (3, 6, 0, 0, "kappa", Some (cQ (-1) 2));
  (3, 7, 0, 0, "kappa", Some (cQ (-1) 2));
  (3, 9, 0, 0, "kappa", Some (cQ (-1) 2));
  (3, 10, 0, 0, "kappa", Some (cQ 1 2));
  (4, 8, 0, 0, "kappa", Some SPU1LR_e0);
  (5, 1, 0, 0, "kappa", Some (cD (cN 1) (cR (cN 2))));
  (5, 6, 0, 0, "kappa", Some (cQ (-1) 2));
  (5, 7, 0, 0, "kappa", Some (cQ 1 2));
  (5, 9, 0, 0, "kappa", Some (cQ (-1) 2));
  (5, 10, 0, 0, "kappa", Some (cQ (-1) 2));
  (6, 2, 0, 0, "kappa", Some (cQ (-1) 2));
  (6, 4, 0, 0, "kappa", Some (cQ 1 2));
  (6, 12, 0, 0, "kappa", Some (cQ (-1) 2));
  (6, 14, 0, 0, "kappa", Some (cQ 1 2));
  (7, 2, 0, 0, "kappa", Some (cQ (-1) 2));
  (7, 4, 0, 0, "kappa", Some (cQ (-1) 2));
  (7, 12, 0, 0, "kappa", Some (cQ 1 2));
  (7, 14, 0, 0, "kappa", Some (cQ 1 2));
  (9, 2, 0, 0, "kappa", Some (cQ 1 2));
  (9, 4, 0, 0, "kappa", Some (cQ (-1) 2));
  (9, 12, 0, 0, "kappa", Some (cQ 1 2));
  (9, 14, 0, 0, "kappa", Some (cQ (-1) 2));
  (10, 2, 0, 0, "kappa", Some (cQ 1 2));
  (10, 4, 0, 0, "kappa", Some (cQ 1 2));
  (10, 12, 0, 0, "kappa", Some (cQ 1 2));
  (10, 14, 0, 0, "kappa", Some (cQ 1 2));
  (11, 3, 0, 0, "kappa", Some SPU1LR_e0);
  (11, 5, 0, 0, "kappa", Some SPU1LR_e0);
  (11, 13, 0, 0, "kappa", Some SPU1LR_e0);
  (11, 15, 0, 0, "kappa", Some SPU1LR_e0);
  (12, 8, 0, 0, "kappa", Some SPU1LR_e0);
  (13, 6, 0, 0, "kappa", Some (cQ 1 2));
  (13, 7, 0, 0, "kappa", Some (cQ (-1) 2));
  (13, 9, 0, 0, "kappa", Some (cQ 1 2));
  (13, 10, 0, 0, "kappa", Some (cQ (-1) 2));
  (13, 16, 0, 0, "kappa", Some SPU1LR_e0);
  (14, 8, 0, 0, "kappa", Some (cD (cN 1) (cR (cN 2))));
  (15, 6, 0, 0, "kappa", Some (cQ 1 2));
  (15, 7, 0, 0, "kappa", Some (cQ 1 2));
  (15, 9, 0, 0, "kappa", Some (cQ 1 2));
  (15, 10, 0, 0, "kappa", Some (cQ 1 2));
  (15, 16, 0, 0, "kappa", Some (cD (cN 1) (cR (cN 2))));
  (16, 12, 0, 0, "kappa", Some SPU1LR_e0);
  (16, 14, 0, 0, "kappa", Some SPU1LR_e0);
  (1, 2, 1, 0, "kappa", Some (cD (cN 1) (cR (cN 2))));
  (1, 4, 1, 0, "kappa", Some SPU1LR_e0);
  (2, 8, 1, 0, "kappa", Some SPU1LR_e0);
  (3, 1, 1, 0, "kappa", Some SPU1LR_e0);
  (3, 6, 1, 0, "kappa", Some (cQ (-1) 2));
  (3, 7, 1, 0, "kappa", Some (cQ (-1) 2));
  (3, 9, 1, 0, "kappa", Some (cQ 1 2));
  (3, 10, 1, 0, "kappa", Some (cQ (-1) 2));
  (4, 8, 1, 0, "kappa", Some SPU1LR_e0);
  (5, 1, 1, 0, "kappa", Some SPU1LR_e0);
  (5, 6, 1, 0, "kappa", Some (cQ 1 2));
  (5, 7, 1, 0, "kappa", Some (cQ (-1) 2));
  (5, 9, 1, 0, "kappa", Some (cQ (-1) 2));
  (5, 10, 1, 0, "kappa", Some (cQ (-1) 2));
  (6, 2, 1, 0, "kappa", Some (cQ (-1) 2));
  (6, 4, 1, 0, "kappa", Some (cQ (-1) 2));
  (6, 12, 1, 0, "kappa", Some (cQ (-1) 2));
  (6, 14, 1, 0, "kappa", Some (cQ (-1) 2));
  (7, 2, 1, 0, "kappa", Some (cQ (-1) 2));
  (7, 4, 1, 0, "kappa", Some (cQ 1 2));
  (7, 12, 1, 0, "kappa", Some (cQ 1 2));
  (7, 14, 1, 0, "kappa", Some (cQ (-1) 2));
  (9, 2, 1, 0, "kappa", Some (cQ (-1) 2));
  (9, 4, 1, 0, "kappa", Some (cQ (-1) 2));
  (9, 12, 1, 0, "kappa", Some (cQ (-1) 2));
  (9, 14, 1, 0, "kappa", Some (cQ (-1) 2));
  (10, 2, 1, 0, "kappa", Some (cQ (-1) 2));
  (10, 4, 1, 0, "kappa", Some (cQ 1 2));
  (10, 12, 1, 0, "kappa", Some (cQ (-1) 2));
  (10, 14, 1, 0, "kappa", Some (cQ 1 2));
  (11, 3, 1, 0, "kappa", Some (cD (cN 1) (cR (cN 2))));
  (11, 5, 1, 0, "kappa", Some SPU1LR_e0);
  (11, 13, 1, 0, "kappa", Some (cD (cN 1) (cR (cN 2))));
  (11, 15, 1, 0, "kappa", Some SPU1LR_e0);
  (12, 8, 1, 0, "kappa", Some (cD (cN 1) (cR (cN 2))));
  (13, 6, 1, 0, "kappa", Some (cQ 1 2));
  (13, 7, 1, 0, "kappa", Some (cQ (-1) 2));
  (13, 9, 1, 0, "kappa", Some (cQ (-1) 2));
  (13, 10, 1, 0, "kappa", Some (cQ 1 2));
  (13, 16, 1, 0, "kappa", Some SPU1LR_e0);
  (14, 8, 1, 0, "kappa", Some (cD (cN 1) (cR (cN 2))));
  (15, 6, 1, 0, "kappa", Some (cQ (-1) 2));
  (15, 7, 1, 0, "kappa", Some (cQ (-1) 2));
  (15, 9, 1, 0, "kappa", Some (cQ 1 2));
  (15, 10, 1, 0, "kappa", Some (cQ 1 2));
  (15, 16, 1, 0, "kappa", Some SPU1LR_e0);
  (16, 12, 1, 0, "kappa", Some SPU1LR_e0);
  (16, 14, 1, 0, "kappa", Some (cD (cN 1) (cR (cN 2))))].
(** /repo/c++/symmetry/sym-SPU1LR-impl.hpp, make_matrix  *)
Definition spu1lr_2ch_m0_d : list diag_line := [
  (1, 0, "zeta", Some (cN 1));
  (2, 0, "zeta", Some (cQ 1 2));
  (3, 0, "zeta", Some (cQ 3 2));
  (4, 0, "zeta", Some (cQ 1 2));
  (5, 0, "zeta", Some (cQ 3 2));
  (6, 0, "zeta", Some (cN 1));
  (7, 0, "zeta", Some (cN 1));
  (8, 0, "zeta", Some (cN 0));
  (9, 0, "zeta", Some (cN 1));
  (10, 0, "zeta", Some (cN 1));
  (11, 0, "zeta", Some (cN 2));
  (12, 0, "zeta", Some (cQ 1 2));
  (13, 0, "zeta", Some (cQ 3 2));
  (14, 0, "zeta", Some (cQ 1 2));
  (15, 0, "zeta", Some (cQ 3 2));
  (16, 0, "zeta", Some (cN 1));
  (1, 1, "zeta", Some (cN 1));
  (2, 1, "zeta", Some (cQ 1 2));
  (3, 1, "zeta", Some (cQ 3 2));
  (4, 1, "zeta", Some (cQ 1 2));
  (5, 1, "zeta", Some (cQ 3 2));
  (6, 1, "zeta", Some (cN 1));
  (7, 1, "zeta", Some (cN 1));
  (8, 1, "zeta", Some (cN 0));
  (9, 1, "zeta", Some (cN 1));
  (10, 1, "zeta", Some (cN 1));
  (11, 1, "zeta", Some (cN 2));
  (12, 1, "zeta", Some (cQ 1 2));
  (13, 1, "zeta", Some (cQ 3 2));
  (14, 1, "zeta", Some (cQ 1 2));
  (15, 1, "zeta", Some (cQ 3 2));
  (16, 1, "zeta", Some (cN 1))].
(** /repo/c++/symmetry/sym-SPU1LR-impl.hpp, make_matrix  *)
Definition spu1lr_2ch_m0_f : list dof_line := [
  (2, 3, 0, "2*delta", Some (cQ (-1) 4));
  (4, 5, 0, "2*delta", Some (cQ 1 4));
  (8, 9, 0, "2*delta", Some SPU1LR_e1);
  (9, 11, 0, "2*delta", Some SPU1LR_e1);
  (12, 13, 0, "2*delta", Some (cQ (-1) 4));
  (14, 15, 0, "2*delta", Some (cQ 1 4));
  (2, 3, 1, "2*delta", Some (cQ (-1) 4));
  (4, 5, 1, "2*delta", Some (cQ 1 4));
  (8, 9, 1, "2*delta", Some SPU1LR_e1);
  (9, 11, 1, "2*delta", Some SPU1LR_e1);
  (12, 13, 1, "2*delta", Some (cQ (-1) 4));
  (14, 15, 1, "2*delta", Some (cQ 1 4))].
Definition coef_spu1lr_2ch : coef_set := mk_coef "SPU1LR" 2%nat sym_SPU1LR {| tb_In := spu1lr_2ch_In; tb_QN := spu1lr_2ch_QN |}
  [spu1lr_2ch_t2; spu1lr_2ch_t3; spu1lr_2ch_t4; spu1lr_2ch_t5; spu1lr_2ch_t6; spu1lr_2ch_t7; spu1lr_2ch_t8; spu1lr_2ch_t9]
  [spu1lr_2ch_t0; spu1lr_2ch_t1; spu1lr_2ch_t10; spu1lr_2ch_t11; spu1lr_2ch_t12]
  [mk_mode "default" spu1lr_2ch_m0_o spu1lr_2ch_m0_d spu1lr_2ch_m0_f].
