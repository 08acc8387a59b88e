(** Generated by gen/gen_coef.py from /repo/c++/symmetry/{sym-SPSU2LR-impl.hpp, nrg-recalc-SPSU2LR.hpp, coefnew}. Do not edit. *)
From Coq Require Import List ZArith String.
From Verif Require Import Base Invar_model Symmetry_model Symmetry_tables Coef_model.
Import ListNotations.
Local Open Scope string_scope.
Local Open Scope list_scope.
Local Open Scope Z_scope.

Definition SPSU2LR_e0 := (cD (cM (cN (-2)) (cR (cM (cH 0) (cA (cN 1) (cH 0))))) (cA (cN 1) (cM (cN 2) (cH 0)))).
Definition SPSU2LR_e1 := (cD (cN 1) (cA (cN 1) (cM (cN 2) (cH 0)))).
Definition SPSU2LR_e2 := (cD (cN 1) (cR (cD (cM (cH 0) (cA (cN 1) (cM (cN 2) (cH 0)))) (cA (cA (cN (-1)) (cH 0)) (cM (cN 2) (cW (cH 0) 4)))))).
Definition SPSU2LR_e3 := (cO (cD (cN 1) (cR (cM (cH 0) (cA (cN 1) (cM (cN 2) (cH 0))))))).
Definition SPSU2LR_e4 := (cD (cM (cH 0) (cA (cN 3) (cM (cN 2) (cH 0)))) (cR (cM (cM (cH 0) (cA (cN 1) (cH 0))) (cA (cN 3) (cM (cM (cN 4) (cH 0)) (cA (cN 2) (cH 0))))))).
Definition SPSU2LR_e5 := (cO (cD (cN 1) (cR (cM (cA (cN 1) (cH 0)) (cA (cN 1) (cM (cN 2) (cH 0))))))).
Definition SPSU2LR_e6 := (cD (cN 1) (cB (cN (-1)) (cM (cN 2) (cH 0)))).
Definition SPSU2LR_e7 := (cD (cN 1) (cR (cM (cH 0) (cA (cN 1) (cM (cN 2) (cH 0)))))).
Definition SPSU2LR_e8 := (cD (cA (cA (cN (-1)) (cH 0)) (cM (cN 2) (cW (cH 0) 4))) (cR (cM (cM (cH 0) (cA (cN 1) (cH 0))) (cA (cN (-1)) (cM (cN 4) (cW (cH 0) 4)))))).
Definition SPSU2LR_e9 := (cD (cN 1) (cR (cM (cA (cN 1) (cH 0)) (cA (cN 1) (cM (cN 2) (cH 0)))))).
Definition SPSU2LR_e10 := (cA (cA (cR (cD (cM (cH 0) (cA (cN 1) (cM (cN 2) (cH 0)))) (cM (cW (cA (cN 1) (cH 0)) 6) (cA (cN 3) (cM (cN 2) (cH 0)))))) (cR (cD (cH 0) (cM (cW (cA (cN 1) (cH 0)) 6) (cA (cN 3) (cM (cM (cN 4) (cH 0)) (cA (cN 2) (cH 0)))))))) (cR (cB (cA (cN 1) (cD (cN 1) (cA (cN 1) (cH 0)))) (cD (cN 6) (cA (cN 3) (cM (cN 2) (cH 0))))))).
Definition SPSU2LR_e11 := (cD (cM (cQ (-1) 2) (cN 1)) (cR (cA (cN 1) (cD (cN 1) (cA (cN 1) (cM (cN 2) (cH 0))))))).
Definition SPSU2LR_e12 := (cM (cQ (-1) 2) (cR (cB (cN 2) (cD (cN 1) (cA (cN 1) (cH 0)))))).
Definition SPSU2LR_e13 := (cD (cM (cQ (-1) 2) (cH 0)) (cR (cM (cH 0) (cA (cN 1) (cH 0))))).
Definition SPSU2LR_e14 := (cO (cD (cN 1) (cR (cN 2)))).
Definition SPSU2LR_e15 := (cD (cM (cQ (-1) 2) (cA (cN 3) (cM (cN 2) (cH 0)))) (cR (cA (cA (cN 6) (cM (cN 10) (cH 0))) (cM (cN 4) (cW (cH 0) 4))))).
Definition SPSU2LR_e16 := (cD (cR (cA (cN 1) (cD (cN 1) (cM (cN 2) (cH 0))))) (cN 2)).
Definition SPSU2LR_e17 := (cD (cR (cA (cN 2) (cD (cN 1) (cH 0)))) (cN 2)).
Definition SPSU2LR_e18 := (cD (cR (cA (cN 1) (cD (cN 1) (cH 0)))) (cN 2)).
Definition SPSU2LR_e19 := (cM (cQ (-1) 2) (cR (cB (cN 1) (cD (cN 1) (cM (cN 2) (cH 0)))))).
Definition SPSU2LR_e20 := (cD (cN 1) (cM (cN 2) (cR (cA (cN 1) (cD (cN 1) (cA (cN 1) (cM (cN 2) (cH 0)))))))).
Definition SPSU2LR_e21 := (cD (cH 0) (cM (cN 2) (cR (cM (cH 0) (cA (cN 1) (cH 0)))))).
Definition SPSU2LR_e22 := (cD (cR (cB (cN 2) (cD (cN 1) (cA (cN 1) (cH 0))))) (cN 2)).
Definition SPSU2LR_e23 := (cD (cA (cN 3) (cM (cN 2) (cH 0))) (cM (cN 2) (cR (cA (cA (cN 6) (cM (cN 10) (cH 0))) (cM (cN 4) (cW (cH 0) 4)))))).
Definition SPSU2LR_e24 := (cD (cM (cQ (-1) 2) (cR (cA (cN 2) (cD (cN 1) (cH 0))))) (cR (cN 2))).
Definition SPSU2LR_e25 := (cM (cQ (-1) 2) (cR (cA (cN 2) (cD (cN 1) (cH 0))))).
Definition SPSU2LR_e26 := (cM (cQ (-1) 2) (cR (cA (cN 1) (cD (cN 1) (cH 0))))).
Definition SPSU2LR_e27 := (cD (cR (cB (cN 1) (cD (cN 1) (cM (cN 2) (cH 0))))) (cN 2)).
Definition SPSU2LR_e28 := (cD (cA (cN 3) (cM (cN 2) (cH 0))) (cR (cD (cM (cA (cN 1) (cH 0)) (cA (cN 3) (cM (cM (cN 4) (cH 0)) (cA (cN 2) (cH 0))))) (cH 0)))).
Definition SPSU2LR_e29 := (cD (cR (cA (cN (-1)) (cW (cH 0) 4))) (cH 0)).
Definition SPSU2LR_e30 := (cD (cR (cB (cN 1) (cD (cN 2) (cA (cN 1) (cM (cN 2) (cH 0)))))) (cH 0)).
Definition SPSU2LR_e31 := (cA (cB (cN 1) (cD (cN 1) (cH 0))) (cD (cN 1) (cA (cN 1) (cH 0)))).
Definition SPSU2LR_e32 := (cD (cN 1) (cA (cN 1) (cH 0))).
Definition SPSU2LR_e33 := (cO (cD (cA (cN 3) (cM (cN 2) (cH 0))) (cM (cA (cN 1) (cH 0)) (cR (cA (cN 3) (cM (cM (cN 4) (cH 0)) (cA (cN 2) (cH 0)))))))).
Definition SPSU2LR_e34 := (cD (cR (cM (cH 0) (cA (cN 2) (cH 0)))) (cA (cN 1) (cH 0))).
Definition SPSU2LR_e35 := (cR (cB (cA (cN 1) (cD (cN 1) (cA (cN 1) (cH 0)))) (cD (cN 2) (cA (cN 1) (cM (cN 2) (cH 0)))))).
Definition SPSU2LR_e36 := (cD (cA (cO (cR (cM (cM (cA (cN 1) (cH 0)) (cA (cN 1) (cM (cN 2) (cH 0)))) (cA (cN 3) (cM (cN 2) (cH 0)))))) (cM (cM (cN 2) (cH 0)) (cR (cA (cA (cN 2) (cH 0)) (cD (cN 1) (cA (cN 1) (cM (cN 2) (cH 0)))))))) (cM (cA (cN 1) (cH 0)) (cR (cA (cN 3) (cM (cN 2) (cH 0)))))).
Definition SPSU2LR_e37 := (cD (cR (cA (cN (-3)) (cM (cM (cN 4) (cH 0)) (cA (cN 1) (cH 0))))) (cA (cN 1) (cM (cN 2) (cH 0)))).
Definition SPSU2LR_e38 := (cO (cD (cR (cA (cN 3) (cM (cM (cN 4) (cH 0)) (cA (cN 2) (cH 0))))) (cM (cA (cN 1) (cH 0)) (cA (cN 1) (cM (cN 2) (cH 0)))))).
Definition SPSU2LR_e39 := (cD (cN 1) (cA (cA (cN 1) (cM (cN 3) (cH 0))) (cM (cN 2) (cW (cH 0) 4)))).
Definition SPSU2LR_e40 := (cO (cD (cN 1) (cA (cN 1) (cH 0)))).
Definition SPSU2LR_e41 := (cD (cA (cD (cN 1) (cR (cD (cM (cM (cH 0) (cA (cN 1) (cH 0))) (cA (cN 1) (cM (cN 2) (cH 0)))) (cA (cN (-1)) (cM (cN 2) (cH 0)))))) (cD (cN 1) (cR (cD (cM (cH 0) (cA (cN 1) (cH 0))) (cA (cN (-1)) (cM (cN 4) (cW (cH 0) 4))))))) (cN 2)).
Definition SPSU2LR_e42 := (cD (cN 1) (cA (cH 0) (cM (cN 2) (cW (cH 0) 4)))).
Definition SPSU2LR_e43 := (cO (cD (cN 1) (cR (cA (cN 4) (cD (cN 2) (cH 0)))))).
Definition SPSU2LR_e44 := (cD (cN 1) (cR (cA (cN 4) (cD (cN 2) (cH 0))))).
Definition SPSU2LR_e45 := (cD (cA (cN 1) (cH 0)) (cR (cA (cA (cN 2) (cM (cN 6) (cH 0))) (cM (cN 4) (cW (cH 0) 4))))).
Definition SPSU2LR_e46 := (cR (cD (cA (cN 1) (cH 0)) (cA (cN 2) (cM (cN 4) (cH 0))))).
Definition SPSU2LR_e47 := (cO (cR (cD (cA (cN 1) (cH 0)) (cA (cN 2) (cM (cN 4) (cH 0)))))).
Definition SPSU2LR_e48 := (cD (cH 0) (cM (cR (cN 2)) (cR (cM (cH 0) (cA (cN 1) (cM (cN 2) (cH 0))))))).
Definition SPSU2LR_e49 := (cO (cR (cD (cH 0) (cA (cN 1) (cM (cN 2) (cH 0)))))).
Definition SPSU2LR_e50 := (cD (cA (cN 1) (cH 0)) (cR (cM (cA (cN 1) (cH 0)) (cA (cN 1) (cM (cN 2) (cH 0)))))).
Definition SPSU2LR_e51 := (cD (cR (cB (cN 2) (cD (cN 1) (cH 0)))) (cN 2)).
Definition SPSU2LR_e52 := (cM (cQ (-1) 2) (cR (cB (cN 2) (cD (cN 1) (cH 0))))).
Definition SPSU2LR_e53 := (cD (cR (cD (cH 0) (cA (cN 1) (cH 0)))) (cN 2)).
Definition SPSU2LR_e54 := (cM (cQ (-1) 2) (cR (cD (cH 0) (cA (cN 1) (cH 0))))).
Definition SPSU2LR_e55 := (cM (cQ (-1) 2) (cR (cA (cN 2) (cD (cN 1) (cA (cN 1) (cH 0)))))).
Definition SPSU2LR_e56 := (cD (cR (cA (cN 2) (cD (cN 1) (cA (cN 1) (cH 0))))) (cN 2)).
Definition SPSU2LR_e57 := (cR (cD (cH 0) (cA (cN 1) (cM (cN 2) (cH 0))))).
Definition SPSU2LR_e58 := (cO (cD (cA (cN 1) (cH 0)) (cR (cM (cA (cN 1) (cH 0)) (cA (cN 1) (cM (cN 2) (cH 0))))))).
Definition SPSU2LR_e59 := (cD (cB (cN (-1)) (cH 0)) (cR (cA (cA (cN 2) (cM (cN 6) (cH 0))) (cM (cN 4) (cW (cH 0) 4))))).
Definition SPSU2LR_e60 := (cO (cD (cH 0) (cM (cR (cN 2)) (cR (cM (cH 0) (cA (cN 1) (cM (cN 2) (cH 0)))))))).
Definition SPSU2LR_e61 := (cR (cD (cH 0) (cA (cN 2) (cM (cN 4) (cH 0))))).
Definition SPSU2LR_e62 := (cD (cM (cQ (-1) 2) (cN 1)) (cR (cN 2))).

(** /repo/c++/symmetry/nrg-recalc-SPSU2LR.hpp recalc_doublet, spsu2lr/spsu2lr-2ch-doubletp.dat *)
Definition spsu2lr_2ch_t0 : ten_table := mk_ten "doublet" [ShLin 0%nat 1 1; ShLin 1%nat 1 0] [(-1); 1] [
  (1, 1, [ShLin 0%nat 1 0; ShLin 1%nat (-1) 0], [ShLin 0%nat 1 1; ShLin 1%nat (-1) 0], Some (cN 1));
  (2, 2, [ShLin 0%nat 1 0; ShLin 1%nat 1 0], [ShLin 0%nat 1 1; ShLin 1%nat 1 0], Some (cN 1));
  (3, 3, [ShLin 0%nat 1 0; ShLin 1%nat 1 0], [ShLin 0%nat 1 1; ShLin 1%nat 1 0], Some (cN 1));
  (4, 4, [ShLin 0%nat 1 0; ShLin 1%nat 1 0], [ShLin 0%nat 1 1; ShLin 1%nat 1 0], Some (cN 1));
  (5, 5, [ShLin 0%nat 1 0; ShLin 1%nat 1 0], [ShLin 0%nat 1 1; ShLin 1%nat 1 0], Some (cN 1));
  (6, 6, [ShLin 0%nat 1 (-1); ShLin 1%nat (-1) 0], [ShLin 0%nat 1 0; ShLin 1%nat (-1) 0], Some SPSU2LR_e0);
  (7, 6, [ShLin 0%nat 1 1; ShLin 1%nat (-1) 0], [ShLin 0%nat 1 0; ShLin 1%nat (-1) 0], Some SPSU2LR_e1);
  (7, 7, [ShLin 0%nat 1 1; ShLin 1%nat (-1) 0], [ShLin 0%nat 1 2; ShLin 1%nat (-1) 0], Some (cN (-1)));
  (8, 8, [ShLin 0%nat 1 (-1); ShLin 1%nat (-1) 0], [ShLin 0%nat 1 0; ShLin 1%nat (-1) 0], Some SPSU2LR_e0);
  (9, 8, [ShLin 0%nat 1 1; ShLin 1%nat (-1) 0], [ShLin 0%nat 1 0; ShLin 1%nat (-1) 0], Some SPSU2LR_e1);
  (9, 9, [ShLin 0%nat 1 1; ShLin 1%nat (-1) 0], [ShLin 0%nat 1 2; ShLin 1%nat (-1) 0], Some (cN (-1)));
  (10, 10, [ShLin 0%nat 1 (-1); ShLin 1%nat 1 0], [ShLin 0%nat 1 0; ShLin 1%nat 1 0], Some SPSU2LR_e0);
  (11, 10, [ShLin 0%nat 1 1; ShLin 1%nat 1 0], [ShLin 0%nat 1 0; ShLin 1%nat 1 0], Some SPSU2LR_e1);
  (11, 11, [ShLin 0%nat 1 1; ShLin 1%nat 1 0], [ShLin 0%nat 1 2; ShLin 1%nat 1 0], Some (cN (-1)));
  (12, 12, [ShLin 0%nat 1 (-1); ShLin 1%nat 1 0], [ShLin 0%nat 1 0; ShLin 1%nat 1 0], Some SPSU2LR_e0);
  (13, 12, [ShLin 0%nat 1 1; ShLin 1%nat 1 0], [ShLin 0%nat 1 0; ShLin 1%nat 1 0], Some SPSU2LR_e1);
  (13, 13, [ShLin 0%nat 1 1; ShLin 1%nat 1 0], [ShLin 0%nat 1 2; ShLin 1%nat 1 0], Some (cN (-1)));
  (14, 14, [ShLin 0%nat 1 (-2); ShLin 1%nat (-1) 0], [ShLin 0%nat 1 (-1); ShLin 1%nat (-1) 0], Some SPSU2LR_e2);
  (15, 14, [ShLin 0%nat 1 0; ShLin 1%nat (-1) 0], [ShLin 0%nat 1 (-1); ShLin 1%nat (-1) 0], Some SPSU2LR_e3);
  (15, 15, [ShLin 0%nat 1 0; ShLin 1%nat (-1) 0], [ShLin 0%nat 1 1; ShLin 1%nat (-1) 0], Some SPSU2LR_e4);
  (16, 15, [ShLin 0%nat 1 2; ShLin 1%nat (-1) 0], [ShLin 0%nat 1 1; ShLin 1%nat (-1) 0], Some SPSU2LR_e5);
  (16, 16, [ShLin 0%nat 1 2; ShLin 1%nat (-1) 0], [ShLin 0%nat 1 3; ShLin 1%nat (-1) 0], Some (cN 1))].
(** /repo/c++/symmetry/nrg-recalc-SPSU2LR.hpp recalc_doublet, spsu2lr/spsu2lr-2ch-doubletm.dat *)
Definition spsu2lr_2ch_t1 : ten_table := mk_ten "doublet" [ShLin 0%nat 1 (-1); ShLin 1%nat 1 0] [1; 1] [
  (1, 1, [ShLin 0%nat 1 0; ShLin 1%nat (-1) 0], [ShLin 0%nat 1 (-1); ShLin 1%nat (-1) 0], Some (cN 1));
  (2, 2, [ShLin 0%nat 1 0; ShLin 1%nat 1 0], [ShLin 0%nat 1 (-1); ShLin 1%nat 1 0], Some (cN 1));
  (3, 3, [ShLin 0%nat 1 0; ShLin 1%nat 1 0], [ShLin 0%nat 1 (-1); ShLin 1%nat 1 0], Some (cN 1));
  (4, 4, [ShLin 0%nat 1 0; ShLin 1%nat 1 0], [ShLin 0%nat 1 (-1); ShLin 1%nat 1 0], Some (cN 1));
  (5, 5, [ShLin 0%nat 1 0; ShLin 1%nat 1 0], [ShLin 0%nat 1 (-1); ShLin 1%nat 1 0], Some (cN 1));
  (6, 6, [ShLin 0%nat 1 (-1); ShLin 1%nat (-1) 0], [ShLin 0%nat 1 (-2); ShLin 1%nat (-1) 0], Some (cN (-1)));
  (6, 7, [ShLin 0%nat 1 (-1); ShLin 1%nat (-1) 0], [ShLin 0%nat 1 0; ShLin 1%nat (-1) 0], Some SPSU2LR_e6);
  (7, 7, [ShLin 0%nat 1 1; ShLin 1%nat (-1) 0], [ShLin 0%nat 1 0; ShLin 1%nat (-1) 0], Some SPSU2LR_e0);
  (8, 8, [ShLin 0%nat 1 (-1); ShLin 1%nat (-1) 0], [ShLin 0%nat 1 (-2); ShLin 1%nat (-1) 0], Some (cN (-1)));
  (8, 9, [ShLin 0%nat 1 (-1); ShLin 1%nat (-1) 0], [ShLin 0%nat 1 0; ShLin 1%nat (-1) 0], Some SPSU2LR_e6);
  (9, 9, [ShLin 0%nat 1 1; ShLin 1%nat (-1) 0], [ShLin 0%nat 1 0; ShLin 1%nat (-1) 0], Some SPSU2LR_e0);
  (10, 10, [ShLin 0%nat 1 (-1); ShLin 1%nat 1 0], [ShLin 0%nat 1 (-2); ShLin 1%nat 1 0], Some (cN (-1)));
  (10, 11, [ShLin 0%nat 1 (-1); ShLin 1%nat 1 0], [ShLin 0%nat 1 0; ShLin 1%nat 1 0], Some SPSU2LR_e6);
  (11, 11, [ShLin 0%nat 1 1; ShLin 1%nat 1 0], [ShLin 0%nat 1 0; ShLin 1%nat 1 0], Some SPSU2LR_e0);
  (12, 12, [ShLin 0%nat 1 (-1); ShLin 1%nat 1 0], [ShLin 0%nat 1 (-2); ShLin 1%nat 1 0], Some (cN (-1)));
  (12, 13, [ShLin 0%nat 1 (-1); ShLin 1%nat 1 0], [ShLin 0%nat 1 0; ShLin 1%nat 1 0], Some SPSU2LR_e6);
  (13, 13, [ShLin 0%nat 1 1; ShLin 1%nat 1 0], [ShLin 0%nat 1 0; ShLin 1%nat 1 0], Some SPSU2LR_e0);
  (14, 14, [ShLin 0%nat 1 (-2); ShLin 1%nat (-1) 0], [ShLin 0%nat 1 (-3); ShLin 1%nat (-1) 0], Some (cN 1));
  (14, 15, [ShLin 0%nat 1 (-2); ShLin 1%nat (-1) 0], [ShLin 0%nat 1 (-1); ShLin 1%nat (-1) 0], Some SPSU2LR_e7);
  (15, 15, [ShLin 0%nat 1 0; ShLin 1%nat (-1) 0], [ShLin 0%nat 1 (-1); ShLin 1%nat (-1) 0], Some SPSU2LR_e8);
  (15, 16, [ShLin 0%nat 1 0; ShLin 1%nat (-1) 0], [ShLin 0%nat 1 1; ShLin 1%nat (-1) 0], Some SPSU2LR_e9);
  (16, 16, [ShLin 0%nat 1 2; ShLin 1%nat (-1) 0], [ShLin 0%nat 1 1; ShLin 1%nat (-1) 0], Some SPSU2LR_e10)].
(** /repo/c++/symmetry/nrg-recalc-SPSU2LR.hpp recalc_irreduc, spsu2lr/spsu2lr-2ch-spinupa.dat *)
Definition spsu2lr_2ch_t2 : irr_table := mk_irr 0 0 [ShLin 0%nat 1 1; ShLin 1%nat 1 0]  [
  (1, 7, Some SPSU2LR_e11);
  (3, 11, Some SPSU2LR_e11);
  (4, 11, Some SPSU2LR_e11);
  (5, 13, Some SPSU2LR_e12);
  (8, 1, Some (cQ 1 2));
  (8, 15, Some SPSU2LR_e13);
  (9, 16, Some SPSU2LR_e12);
  (10, 2, Some (cD (cN 1) (cR (cN 2))));
  (12, 3, Some (cQ 1 2));
  (12, 4, Some (cQ (-1) 2));
  (14, 6, Some SPSU2LR_e14);
  (15, 7, Some SPSU2LR_e15)].
(** /repo/c++/symmetry/nrg-recalc-SPSU2LR.hpp recalc_irreduc, spsu2lr/spsu2lr-2ch-spinupb.dat *)
Definition spsu2lr_2ch_t3 : irr_table := mk_irr 1 0 [ShLin 0%nat 1 1; ShLin 1%nat 1 0]  [
  (1, 7, Some SPSU2LR_e11);
  (3, 11, Some SPSU2LR_e11);
  (4, 11, Some SPSU2LR_e11);
  (5, 13, Some SPSU2LR_e12);
  (8, 1, Some (cQ 1 2));
  (8, 15, Some SPSU2LR_e13);
  (9, 16, Some SPSU2LR_e12);
  (10, 2, Some (cD (cN 1) (cR (cN 2))));
  (12, 3, Some (cQ 1 2));
  (12, 4, Some (cQ (-1) 2));
  (14, 6, Some SPSU2LR_e14);
  (15, 7, Some SPSU2LR_e15)].
(** /repo/c++/symmetry/nrg-recalc-SPSU2LR.hpp recalc_irreduc, spsu2lr/spsu2lr-2ch-spindowna.dat *)
Definition spsu2lr_2ch_t4 : irr_table := mk_irr 0 0 [ShLin 0%nat 1 (-1); ShLin 1%nat 1 0]  [
  (1, 6, Some SPSU2LR_e16);
  (3, 10, Some SPSU2LR_e16);
  (4, 10, Some SPSU2LR_e16);
  (5, 12, Some SPSU2LR_e17);
  (8, 14, Some SPSU2LR_e17);
  (9, 1, Some (cQ 1 2));
  (9, 15, Some SPSU2LR_e18);
  (11, 2, Some (cD (cN 1) (cR (cN 2))));
  (13, 3, Some (cQ 1 2));
  (13, 4, Some (cQ (-1) 2));
  (15, 6, Some SPSU2LR_e19);
  (16, 7, Some SPSU2LR_e14)].
(** /repo/c++/symmetry/nrg-recalc-SPSU2LR.hpp recalc_irreduc, spsu2lr/spsu2lr-2ch-spindownb.dat *)
Definition spsu2lr_2ch_t5 : irr_table := mk_irr 1 0 [ShLin 0%nat 1 (-1); ShLin 1%nat 1 0]  [
  (1, 6, Some SPSU2LR_e16);
  (3, 10, Some SPSU2LR_e16);
  (4, 10, Some SPSU2LR_e16);
  (5, 12, Some SPSU2LR_e17);
  (8, 14, Some SPSU2LR_e17);
  (9, 1, Some (cQ 1 2));
  (9, 15, Some SPSU2LR_e18);
  (11, 2, Some (cD (cN 1) (cR (cN 2))));
  (13, 3, Some (cQ 1 2));
  (13, 4, Some (cQ (-1) 2));
  (15, 6, Some SPSU2LR_e19);
  (16, 7, Some SPSU2LR_e14)].
(** /repo/c++/symmetry/nrg-recalc-SPSU2LR.hpp recalc_irreduc, spsu2lr/spsu2lr-2ch-spinupdiffa.dat *)
Definition spsu2lr_2ch_t6 : irr_table := mk_irr 0 0 [ShLin 0%nat 1 1; ShLin 1%nat (-1) 0]  [
  (1, 11, Some SPSU2LR_e20);
  (3, 7, Some SPSU2LR_e20);
  (4, 7, Some SPSU2LR_e11);
  (5, 9, Some SPSU2LR_e12);
  (6, 2, Some SPSU2LR_e14);
  (8, 3, Some (cQ 1 2));
  (8, 4, Some (cQ 1 2));
  (12, 1, Some (cQ 1 2));
  (12, 15, Some SPSU2LR_e21);
  (13, 16, Some SPSU2LR_e22);
  (14, 10, Some SPSU2LR_e14);
  (15, 11, Some SPSU2LR_e15)].
(** /repo/c++/symmetry/nrg-recalc-SPSU2LR.hpp recalc_irreduc, spsu2lr/spsu2lr-2ch-spinupdiffb.dat *)
Definition spsu2lr_2ch_t7 : irr_table := mk_irr 1 0 [ShLin 0%nat 1 1; ShLin 1%nat (-1) 0]  [
  (1, 11, Some SPSU2LR_e11);
  (3, 7, Some SPSU2LR_e11);
  (4, 7, Some SPSU2LR_e20);
  (5, 9, Some SPSU2LR_e22);
  (6, 2, Some (cD (cN 1) (cR (cN 2))));
  (8, 3, Some (cQ (-1) 2));
  (8, 4, Some (cQ (-1) 2));
  (12, 1, Some (cQ (-1) 2));
  (12, 15, Some SPSU2LR_e13);
  (13, 16, Some SPSU2LR_e12);
  (14, 10, Some (cD (cN 1) (cR (cN 2))));
  (15, 11, Some SPSU2LR_e23)].
(** /repo/c++/symmetry/nrg-recalc-SPSU2LR.hpp recalc_irreduc, spsu2lr/spsu2lr-2ch-spindowndiffa.dat *)
Definition spsu2lr_2ch_t8 : irr_table := mk_irr 0 0 [ShLin 0%nat 1 (-1); ShLin 1%nat (-1) 0]  [
  (1, 10, Some SPSU2LR_e24);
  (3, 6, Some SPSU2LR_e24);
  (4, 6, Some SPSU2LR_e16);
  (5, 8, Some SPSU2LR_e17);
  (7, 2, Some SPSU2LR_e14);
  (9, 3, Some (cQ 1 2));
  (9, 4, Some (cQ 1 2));
  (12, 14, Some SPSU2LR_e25);
  (13, 1, Some (cQ 1 2));
  (13, 15, Some SPSU2LR_e26);
  (15, 10, Some SPSU2LR_e19);
  (16, 11, Some SPSU2LR_e14)].
(** /repo/c++/symmetry/nrg-recalc-SPSU2LR.hpp recalc_irreduc, spsu2lr/spsu2lr-2ch-spindowndiffb.dat *)
Definition spsu2lr_2ch_t9 : irr_table := mk_irr 1 0 [ShLin 0%nat 1 (-1); ShLin 1%nat (-1) 0]  [
  (1, 10, Some SPSU2LR_e16);
  (3, 6, Some SPSU2LR_e16);
  (4, 6, Some SPSU2LR_e24);
  (5, 8, Some SPSU2LR_e25);
  (7, 2, Some (cD (cN 1) (cR (cN 2))));
  (9, 3, Some (cQ (-1) 2));
  (9, 4, Some (cQ (-1) 2));
  (12, 14, Some SPSU2LR_e17);
  (13, 1, Some (cQ (-1) 2));
  (13, 15, Some SPSU2LR_e18);
  (15, 10, Some SPSU2LR_e27);
  (16, 11, Some (cD (cN 1) (cR (cN 2))))].
(** /repo/c++/symmetry/nrg-recalc-SPSU2LR.hpp recalc_triplet, spsu2lr/spsu2lr-2ch-triplets.dat *)
Definition spsu2lr_2ch_t10 : ten_table := mk_ten "triplet" [ShLin 0%nat 1 0; ShLin 1%nat 1 0] [0; 1] [
  (1, 1, [ShLin 0%nat 1 0; ShLin 1%nat (-1) 0], [ShLin 0%nat 1 0; ShLin 1%nat (-1) 0], Some (cN 1));
  (2, 2, [ShLin 0%nat 1 0; ShLin 1%nat 1 0], [ShLin 0%nat 1 0; ShLin 1%nat 1 0], Some (cN 1));
  (3, 3, [ShLin 0%nat 1 0; ShLin 1%nat 1 0], [ShLin 0%nat 1 0; ShLin 1%nat 1 0], Some (cN 1));
  (4, 4, [ShLin 0%nat 1 0; ShLin 1%nat 1 0], [ShLin 0%nat 1 0; ShLin 1%nat 1 0], Some (cN 1));
  (5, 5, [ShLin 0%nat 1 0; ShLin 1%nat 1 0], [ShLin 0%nat 1 0; ShLin 1%nat 1 0], Some (cN 1));
  (6, 6, [ShLin 0%nat 1 (-1); ShLin 1%nat (-1) 0], [ShLin 0%nat 1 (-1); ShLin 1%nat (-1) 0], Some SPSU2LR_e2);
  (6, 7, [ShLin 0%nat 1 (-1); ShLin 1%nat (-1) 0], [ShLin 0%nat 1 1; ShLin 1%nat (-1) 0], Some SPSU2LR_e9);
  (7, 6, [ShLin 0%nat 1 1; ShLin 1%nat (-1) 0], [ShLin 0%nat 1 (-1); ShLin 1%nat (-1) 0], Some SPSU2LR_e3);
  (7, 7, [ShLin 0%nat 1 1; ShLin 1%nat (-1) 0], [ShLin 0%nat 1 1; ShLin 1%nat (-1) 0], Some SPSU2LR_e28);
  (8, 8, [ShLin 0%nat 1 (-1); ShLin 1%nat (-1) 0], [ShLin 0%nat 1 (-1); ShLin 1%nat (-1) 0], Some SPSU2LR_e2);
  (8, 9, [ShLin 0%nat 1 (-1); ShLin 1%nat (-1) 0], [ShLin 0%nat 1 1; ShLin 1%nat (-1) 0], Some SPSU2LR_e9);
  (9, 8, [ShLin 0%nat 1 1; ShLin 1%nat (-1) 0], [ShLin 0%nat 1 (-1); ShLin 1%nat (-1) 0], Some SPSU2LR_e3);
  (9, 9, [ShLin 0%nat 1 1; ShLin 1%nat (-1) 0], [ShLin 0%nat 1 1; ShLin 1%nat (-1) 0], Some SPSU2LR_e28);
  (10, 10, [ShLin 0%nat 1 (-1); ShLin 1%nat 1 0], [ShLin 0%nat 1 (-1); ShLin 1%nat 1 0], Some SPSU2LR_e2);
  (10, 11, [ShLin 0%nat 1 (-1); ShLin 1%nat 1 0], [ShLin 0%nat 1 1; ShLin 1%nat 1 0], Some SPSU2LR_e9);
  (11, 10, [ShLin 0%nat 1 1; ShLin 1%nat 1 0], [ShLin 0%nat 1 (-1); ShLin 1%nat 1 0], Some SPSU2LR_e3);
  (11, 11, [ShLin 0%nat 1 1; ShLin 1%nat 1 0], [ShLin 0%nat 1 1; ShLin 1%nat 1 0], Some SPSU2LR_e28);
  (12, 12, [ShLin 0%nat 1 (-1); ShLin 1%nat 1 0], [ShLin 0%nat 1 (-1); ShLin 1%nat 1 0], Some SPSU2LR_e2);
  (12, 13, [ShLin 0%nat 1 (-1); ShLin 1%nat 1 0], [ShLin 0%nat 1 1; ShLin 1%nat 1 0], Some SPSU2LR_e9);
  (13, 12, [ShLin 0%nat 1 1; ShLin 1%nat 1 0], [ShLin 0%nat 1 (-1); ShLin 1%nat 1 0], Some SPSU2LR_e3);
  (13, 13, [ShLin 0%nat 1 1; ShLin 1%nat 1 0], [ShLin 0%nat 1 1; ShLin 1%nat 1 0], Some SPSU2LR_e28);
  (14, 14, [ShLin 0%nat 1 (-2); ShLin 1%nat (-1) 0], [ShLin 0%nat 1 (-2); ShLin 1%nat (-1) 0], Some SPSU2LR_e29);
  (14, 15, [ShLin 0%nat 1 (-2); ShLin 1%nat (-1) 0], [ShLin 0%nat 1 0; ShLin 1%nat (-1) 0], Some SPSU2LR_e30);
  (15, 14, [ShLin 0%nat 1 0; ShLin 1%nat (-1) 0], [ShLin 0%nat 1 (-2); ShLin 1%nat (-1) 0], Some (cO (cD (cN 1) (cH 0))));
  (15, 15, [ShLin 0%nat 1 0; ShLin 1%nat (-1) 0], [ShLin 0%nat 1 0; ShLin 1%nat (-1) 0], Some SPSU2LR_e31);
  (15, 16, [ShLin 0%nat 1 0; ShLin 1%nat (-1) 0], [ShLin 0%nat 1 2; ShLin 1%nat (-1) 0], Some SPSU2LR_e32);
  (16, 15, [ShLin 0%nat 1 2; ShLin 1%nat (-1) 0], [ShLin 0%nat 1 0; ShLin 1%nat (-1) 0], Some SPSU2LR_e33);
  (16, 16, [ShLin 0%nat 1 2; ShLin 1%nat (-1) 0], [ShLin 0%nat 1 2; ShLin 1%nat (-1) 0], Some SPSU2LR_e34)].
(** /repo/c++/symmetry/nrg-recalc-SPSU2LR.hpp recalc_triplet, spsu2lr/spsu2lr-2ch-tripletp.dat *)
Definition spsu2lr_2ch_t11 : ten_table := mk_ten "triplet" [ShLin 0%nat 1 2; ShLin 1%nat 1 0] [(-2); 1] [
  (1, 1, [ShLin 0%nat 1 0; ShLin 1%nat (-1) 0], [ShLin 0%nat 1 2; ShLin 1%nat (-1) 0], Some (cN 1));
  (2, 2, [ShLin 0%nat 1 0; ShLin 1%nat 1 0], [ShLin 0%nat 1 2; ShLin 1%nat 1 0], Some (cN 1));
  (3, 3, [ShLin 0%nat 1 0; ShLin 1%nat 1 0], [ShLin 0%nat 1 2; ShLin 1%nat 1 0], Some (cN 1));
  (4, 4, [ShLin 0%nat 1 0; ShLin 1%nat 1 0], [ShLin 0%nat 1 2; ShLin 1%nat 1 0], Some (cN 1));
  (5, 5, [ShLin 0%nat 1 0; ShLin 1%nat 1 0], [ShLin 0%nat 1 2; ShLin 1%nat 1 0], Some (cN 1));
  (6, 6, [ShLin 0%nat 1 (-1); ShLin 1%nat (-1) 0], [ShLin 0%nat 1 1; ShLin 1%nat (-1) 0], Some SPSU2LR_e35);
  (7, 6, [ShLin 0%nat 1 1; ShLin 1%nat (-1) 0], [ShLin 0%nat 1 1; ShLin 1%nat (-1) 0], Some SPSU2LR_e36);
  (7, 7, [ShLin 0%nat 1 1; ShLin 1%nat (-1) 0], [ShLin 0%nat 1 3; ShLin 1%nat (-1) 0], Some (cN 1));
  (8, 8, [ShLin 0%nat 1 (-1); ShLin 1%nat (-1) 0], [ShLin 0%nat 1 1; ShLin 1%nat (-1) 0], Some SPSU2LR_e35);
  (9, 8, [ShLin 0%nat 1 1; ShLin 1%nat (-1) 0], [ShLin 0%nat 1 1; ShLin 1%nat (-1) 0], Some SPSU2LR_e36);
  (9, 9, [ShLin 0%nat 1 1; ShLin 1%nat (-1) 0], [ShLin 0%nat 1 3; ShLin 1%nat (-1) 0], Some (cN 1));
  (10, 10, [ShLin 0%nat 1 (-1); ShLin 1%nat 1 0], [ShLin 0%nat 1 1; ShLin 1%nat 1 0], Some SPSU2LR_e35);
  (11, 10, [ShLin 0%nat 1 1; ShLin 1%nat 1 0], [ShLin 0%nat 1 1; ShLin 1%nat 1 0], Some SPSU2LR_e36);
  (11, 11, [ShLin 0%nat 1 1; ShLin 1%nat 1 0], [ShLin 0%nat 1 3; ShLin 1%nat 1 0], Some (cN 1));
  (12, 12, [ShLin 0%nat 1 (-1); ShLin 1%nat 1 0], [ShLin 0%nat 1 1; ShLin 1%nat 1 0], Some SPSU2LR_e35);
  (13, 12, [ShLin 0%nat 1 1; ShLin 1%nat 1 0], [ShLin 0%nat 1 1; ShLin 1%nat 1 0], Some SPSU2LR_e36);
  (13, 13, [ShLin 0%nat 1 1; ShLin 1%nat 1 0], [ShLin 0%nat 1 3; ShLin 1%nat 1 0], Some (cN 1));
  (14, 14, [ShLin 0%nat 1 (-2); ShLin 1%nat (-1) 0], [ShLin 0%nat 1 0; ShLin 1%nat (-1) 0], Some SPSU2LR_e37);
  (15, 14, [ShLin 0%nat 1 0; ShLin 1%nat (-1) 0], [ShLin 0%nat 1 0; ShLin 1%nat (-1) 0], Some SPSU2LR_e38);
  (15, 15, [ShLin 0%nat 1 0; ShLin 1%nat (-1) 0], [ShLin 0%nat 1 2; ShLin 1%nat (-1) 0], Some SPSU2LR_e34);
  (16, 14, [ShLin 0%nat 1 2; ShLin 1%nat (-1) 0], [ShLin 0%nat 1 0; ShLin 1%nat (-1) 0], Some SPSU2LR_e39);
  (16, 15, [ShLin 0%nat 1 2; ShLin 1%nat (-1) 0], [ShLin 0%nat 1 2; ShLin 1%nat (-1) 0], Some SPSU2LR_e40);
  (16, 16, [ShLin 0%nat 1 2; ShLin 1%nat (-1) 0], [ShLin 0%nat 1 4; ShLin 1%nat (-1) 0], Some (cN 1))].
(** /repo/c++/symmetry/nrg-recalc-SPSU2LR.hpp recalc_triplet, spsu2lr/spsu2lr-2ch-tripletm.dat *)
Definition spsu2lr_2ch_t12 : ten_table := mk_ten "triplet" [ShLin 0%nat 1 (-2); ShLin 1%nat 1 0] [2; 1] [
  (1, 1, [ShLin 0%nat 1 0; ShLin 1%nat (-1) 0], [ShLin 0%nat 1 (-2); ShLin 1%nat (-1) 0], Some (cN 1));
  (2, 2, [ShLin 0%nat 1 0; ShLin 1%nat 1 0], [ShLin 0%nat 1 (-2); ShLin 1%nat 1 0], Some (cN 1));
  (3, 3, [ShLin 0%nat 1 0; ShLin 1%nat 1 0], [ShLin 0%nat 1 (-2); ShLin 1%nat 1 0], Some (cN 1));
  (4, 4, [ShLin 0%nat 1 0; ShLin 1%nat 1 0], [ShLin 0%nat 1 (-2); ShLin 1%nat 1 0], Some (cN 1));
  (5, 5, [ShLin 0%nat 1 0; ShLin 1%nat 1 0], [ShLin 0%nat 1 (-2); ShLin 1%nat 1 0], Some (cN 1));
  (6, 6, [ShLin 0%nat 1 (-1); ShLin 1%nat (-1) 0], [ShLin 0%nat 1 (-3); ShLin 1%nat (-1) 0], Some (cN 1));
  (6, 7, [ShLin 0%nat 1 (-1); ShLin 1%nat (-1) 0], [ShLin 0%nat 1 (-1); ShLin 1%nat (-1) 0], Some SPSU2LR_e7);
  (7, 7, [ShLin 0%nat 1 1; ShLin 1%nat (-1) 0], [ShLin 0%nat 1 (-1); ShLin 1%nat (-1) 0], Some SPSU2LR_e41);
  (8, 8, [ShLin 0%nat 1 (-1); ShLin 1%nat (-1) 0], [ShLin 0%nat 1 (-3); ShLin 1%nat (-1) 0], Some (cN 1));
  (8, 9, [ShLin 0%nat 1 (-1); ShLin 1%nat (-1) 0], [ShLin 0%nat 1 (-1); ShLin 1%nat (-1) 0], Some SPSU2LR_e7);
  (9, 9, [ShLin 0%nat 1 1; ShLin 1%nat (-1) 0], [ShLin 0%nat 1 (-1); ShLin 1%nat (-1) 0], Some SPSU2LR_e41);
  (10, 10, [ShLin 0%nat 1 (-1); ShLin 1%nat 1 0], [ShLin 0%nat 1 (-3); ShLin 1%nat 1 0], Some (cN 1));
  (10, 11, [ShLin 0%nat 1 (-1); ShLin 1%nat 1 0], [ShLin 0%nat 1 (-1); ShLin 1%nat 1 0], Some SPSU2LR_e7);
  (11, 11, [ShLin 0%nat 1 1; ShLin 1%nat 1 0], [ShLin 0%nat 1 (-1); ShLin 1%nat 1 0], Some SPSU2LR_e41);
  (12, 12, [ShLin 0%nat 1 (-1); ShLin 1%nat 1 0], [ShLin 0%nat 1 (-3); ShLin 1%nat 1 0], Some (cN 1));
  (12, 13, [ShLin 0%nat 1 (-1); ShLin 1%nat 1 0], [ShLin 0%nat 1 (-1); ShLin 1%nat 1 0], Some SPSU2LR_e7);
  (13, 13, [ShLin 0%nat 1 1; ShLin 1%nat 1 0], [ShLin 0%nat 1 (-1); ShLin 1%nat 1 0], Some SPSU2LR_e41);
  (14, 14, [ShLin 0%nat 1 (-2); ShLin 1%nat (-1) 0], [ShLin 0%nat 1 (-4); ShLin 1%nat (-1) 0], Some (cN 1));
  (14, 15, [ShLin 0%nat 1 (-2); ShLin 1%nat (-1) 0], [ShLin 0%nat 1 (-2); ShLin 1%nat (-1) 0], Some (cD (cN 1) (cH 0)));
  (14, 16, [ShLin 0%nat 1 (-2); ShLin 1%nat (-1) 0], [ShLin 0%nat 1 0; ShLin 1%nat (-1) 0], Some SPSU2LR_e42);
  (15, 15, [ShLin 0%nat 1 0; ShLin 1%nat (-1) 0], [ShLin 0%nat 1 (-2); ShLin 1%nat (-1) 0], Some SPSU2LR_e29);
  (15, 16, [ShLin 0%nat 1 0; ShLin 1%nat (-1) 0], [ShLin 0%nat 1 0; ShLin 1%nat (-1) 0], Some SPSU2LR_e30);
  (16, 16, [ShLin 0%nat 1 2; ShLin 1%nat (-1) 0], [ShLin 0%nat 1 0; ShLin 1%nat (-1) 0], Some SPSU2LR_e37)].
(** /repo/c++/symmetry/sym-SPSU2LR-impl.hpp, make_matrix  *)
Definition spsu2lr_2ch_m0_o : list off_line := [
  (1, 8, 0, 0, "xi", Some (cQ 1 2));
  (1, 9, 0, 0, "xi", Some (cQ 1 2));
  (1, 12, 0, 0, "xi", Some (cQ 1 2));
  (1, 13, 0, 0, "xi", Some (cQ 1 2));
  (2, 6, 0, 0, "xi", Some SPSU2LR_e14);
  (2, 7, 0, 0, "xi", Some SPSU2LR_e14);
  (2, 10, 0, 0, "xi", Some (cD (cN 1) (cR (cN 2))));
  (2, 11, 0, 0, "xi", Some (cD (cN 1) (cR (cN 2))));
  (3, 8, 0, 0, "xi", Some (cQ 1 2));
  (3, 9, 0, 0, "xi", Some (cQ 1 2));
  (3, 12, 0, 0, "xi", Some (cQ 1 2));
  (3, 13, 0, 0, "xi", Some (cQ 1 2));
  (4, 8, 0, 0, "xi", Some (cQ 1 2));
  (4, 9, 0, 0, "xi", Some (cQ 1 2));
  (4, 12, 0, 0, "xi", Some (cQ (-1) 2));
  (4, 13, 0, 0, "xi", Some (cQ (-1) 2));
  (6, 1, 0, 0, "xi", Some SPSU2LR_e43);
  (6, 3, 0, 0, "xi", Some SPSU2LR_e44);
  (6, 4, 0, 0, "xi", Some SPSU2LR_e43);
  (6, 14, 0, 0, "xi", Some (cD (cN 1) (cR (cN 2))));
  (6, 15, 0, 0, "xi", Some SPSU2LR_e45);
  (7, 1, 0, 0, "xi", Some SPSU2LR_e46);
  (7, 3, 0, 0, "xi", Some SPSU2LR_e47);
  (7, 4, 0, 0, "xi", Some SPSU2LR_e46);
  (7, 15, 0, 0, "xi", Some SPSU2LR_e48);
  (7, 16, 0, 0, "xi", Some (cD (cN 1) (cR (cN 2))));
  (8, 5, 0, 0, "xi", Some SPSU2LR_e49);
  (9, 5, 0, 0, "xi", Some SPSU2LR_e50);
  (10, 1, 0, 0, "xi", Some SPSU2LR_e44);
  (10, 3, 0, 0, "xi", Some SPSU2LR_e43);
  (10, 4, 0, 0, "xi", Some SPSU2LR_e43);
  (10, 14, 0, 0, "xi", Some (cD (cN 1) (cR (cN 2))));
  (10, 15, 0, 0, "xi", Some SPSU2LR_e45);
  (11, 1, 0, 0, "xi", Some SPSU2LR_e47);
  (11, 3, 0, 0, "xi", Some SPSU2LR_e46);
  (11, 4, 0, 0, "xi", Some SPSU2LR_e46);
  (11, 15, 0, 0, "xi", Some SPSU2LR_e48);
  (11, 16, 0, 0, "xi", Some (cD (cN 1) (cR (cN 2))));
  (12, 5, 0, 0, "xi", Some SPSU2LR_e49);
  (13, 5, 0, 0, "xi", Some SPSU2LR_e50);
  (14, 8, 0, 0, "xi", Some SPSU2LR_e51);
  (14, 12, 0, 0, "xi", Some SPSU2LR_e52);
  (15, 8, 0, 0, "xi", Some SPSU2LR_e26);
  (15, 9, 0, 0, "xi", Some SPSU2LR_e53);
  (15, 12, 0, 0, "xi", Some SPSU2LR_e18);
  (15, 13, 0, 0, "xi", Some SPSU2LR_e54);
  (16, 9, 0, 0, "xi", Some SPSU2LR_e55);
  (16, 13, 0, 0, "xi", Some SPSU2LR_e56);
  (1, 8, 1, 0, "xi", Some (cQ 1 2));
  (1, 9, 1, 0, "xi", Some (cQ 1 2));
  (1, 12, 1, 0, "xi", Some (cQ (-1) 2));
  (1, 13, 1, 0, "xi", Some (cQ (-1) 2));
  (2, 6, 1, 0, "xi", Some (cD (cN 1) (cR (cN 2))));
  (2, 7, 1, 0, "xi", Some (cD (cN 1) (cR (cN 2))));
  (2, 10, 1, 0, "xi", Some (cD (cN 1) (cR (cN 2))));
  (2, 11, 1, 0, "xi", Some (cD (cN 1) (cR (cN 2))));
  (3, 8, 1, 0, "xi", Some (cQ (-1) 2));
  (3, 9, 1, 0, "xi", Some (cQ (-1) 2));
  (3, 12, 1, 0, "xi", Some (cQ 1 2));
  (3, 13, 1, 0, "xi", Some (cQ 1 2));
  (4, 8, 1, 0, "xi", Some (cQ (-1) 2));
  (4, 9, 1, 0, "xi", Some (cQ (-1) 2));
  (4, 12, 1, 0, "xi", Some (cQ (-1) 2));
  (4, 13, 1, 0, "xi", Some (cQ (-1) 2));
  (6, 1, 1, 0, "xi", Some SPSU2LR_e43);
  (6, 3, 1, 0, "xi", Some SPSU2LR_e43);
  (6, 4, 1, 0, "xi", Some SPSU2LR_e44);
  (6, 14, 1, 0, "xi", Some (cD (cN 1) (cR (cN 2))));
  (6, 15, 1, 0, "xi", Some SPSU2LR_e45);
  (7, 1, 1, 0, "xi", Some SPSU2LR_e46);
  (7, 3, 1, 0, "xi", Some SPSU2LR_e46);
  (7, 4, 1, 0, "xi", Some SPSU2LR_e47);
  (7, 15, 1, 0, "xi", Some SPSU2LR_e48);
  (7, 16, 1, 0, "xi", Some (cD (cN 1) (cR (cN 2))));
  (8, 5, 1, 0, "xi", Some SPSU2LR_e57);
  (9, 5, 1, 0, "xi", Some SPSU2LR_e58);
  (10, 1, 1, 0, "xi", Some SPSU2LR_e43);
  (10, 3, 1, 0, "xi", Some SPSU2LR_e43);
  (10, 4, 1, 0, "xi", Some SPSU2LR_e43);
  (10, 14, 1, 0, "xi", Some SPSU2LR_e14);
  (10, 15, 1, 0, "xi", Some SPSU2LR_e59);
  (11, 1, 1, 0, "xi", Some SPSU2LR_e46);
  (11, 3, 1, 0, "xi", Some SPSU2LR_e46);
  (11, 4, 1, 0, "xi", Some SPSU2LR_e46);
  (11, 15, 1, 0, "xi", Some SPSU2LR_e43);
  (11, 16, 1, 0, "xi", Some SPSU2LR_e14);
  (12, 5, 1, 0, "xi", Some SPSU2LR_e49);
  (13, 5, 1, 0, "xi", Some SPSU2LR_e50);
  (14, 8, 1, 0, "xi", Some SPSU2LR_e51);
  (14, 12, 1, 0, "xi", Some SPSU2LR_e51);
  (15, 8, 1, 0, "xi", Some SPSU2LR_e26);
  (15, 9, 1, 0, "xi", Some SPSU2LR_e53);
  (15, 12, 1, 0, "xi", Some SPSU2LR_e26);
  (15, 13, 1, 0, "xi", Some SPSU2LR_e53);
  (16, 9, 1, 0, "xi", Some SPSU2LR_e55);
  (16, 13, 1, 0, "xi", Some SPSU2LR_e55);
  (1, 6, 0, 0, "kappa", Some (cQ 1 2));
  (1, 7, 0, 0, "kappa", Some (cQ 1 2));
  (1, 10, 0, 0, "kappa", Some (cQ (-1) 2));
  (1, 11, 0, 0, "kappa", Some (cQ (-1) 2));
  (3, 6, 0, 0, "kappa", Some (cQ (-1) 2));
  (3, 7, 0, 0, "kappa", Some (cQ (-1) 2));
  (3, 10, 0, 0, "kappa", Some (cQ 1 2));
  (3, 11, 0, 0, "kappa", Some (cQ 1 2));
  (4, 6, 0, 0, "kappa", Some (cQ 1 2));
  (4, 7, 0, 0, "kappa", Some (cQ 1 2));
  (4, 10, 0, 0, "kappa", Some (cQ 1 2));
  (4, 11, 0, 0, "kappa", Some (cQ 1 2));
  (5, 8, 0, 0, "kappa", Some (cD (cN 1) (cR (cN 2))));
  (5, 9, 0, 0, "kappa", Some (cD (cN 1) (cR (cN 2))));
  (5, 12, 0, 0, "kappa", Some (cD (cN 1) (cR (cN 2))));
  (5, 13, 0, 0, "kappa", Some (cD (cN 1) (cR (cN 2))));
  (6, 2, 0, 0, "kappa", Some SPSU2LR_e49);
  (7, 2, 0, 0, "kappa", Some SPSU2LR_e50);
  (8, 1, 0, 0, "kappa", Some SPSU2LR_e44);
  (8, 3, 0, 0, "kappa", Some SPSU2LR_e44);
  (8, 4, 0, 0, "kappa", Some SPSU2LR_e44);
  (8, 14, 0, 0, "kappa", Some SPSU2LR_e14);
  (8, 15, 0, 0, "kappa", Some SPSU2LR_e59);
  (9, 1, 0, 0, "kappa", Some SPSU2LR_e47);
  (9, 3, 0, 0, "kappa", Some SPSU2LR_e47);
  (9, 4, 0, 0, "kappa", Some SPSU2LR_e47);
  (9, 15, 0, 0, "kappa", Some SPSU2LR_e60);
  (9, 16, 0, 0, "kappa", Some SPSU2LR_e14);
  (10, 2, 0, 0, "kappa", Some SPSU2LR_e57);
  (11, 2, 0, 0, "kappa", Some SPSU2LR_e58);
  (12, 1, 0, 0, "kappa", Some SPSU2LR_e44);
  (12, 3, 0, 0, "kappa", Some SPSU2LR_e44);
  (12, 4, 0, 0, "kappa", Some SPSU2LR_e43);
  (12, 14, 0, 0, "kappa", Some (cD (cN 1) (cR (cN 2))));
  (12, 15, 0, 0, "kappa", Some SPSU2LR_e45);
  (13, 1, 0, 0, "kappa", Some SPSU2LR_e47);
  (13, 3, 0, 0, "kappa", Some SPSU2LR_e47);
  (13, 4, 0, 0, "kappa", Some SPSU2LR_e46);
  (13, 15, 0, 0, "kappa", Some SPSU2LR_e61);
  (13, 16, 0, 0, "kappa", Some (cD (cN 1) (cR (cN 2))));
  (14, 6, 0, 0, "kappa", Some SPSU2LR_e51);
  (14, 10, 0, 0, "kappa", Some SPSU2LR_e51);
  (15, 6, 0, 0, "kappa", Some SPSU2LR_e26);
  (15, 7, 0, 0, "kappa", Some SPSU2LR_e53);
  (15, 10, 0, 0, "kappa", Some SPSU2LR_e26);
  (15, 11, 0, 0, "kappa", Some SPSU2LR_e53);
  (16, 7, 0, 0, "kappa", Some SPSU2LR_e55);
  (16, 11, 0, 0, "kappa", Some SPSU2LR_e55);
  (1, 6, 1, 0, "kappa", Some (cQ 1 2));
  (1, 7, 1, 0, "kappa", Some (cQ 1 2));
  (1, 10, 1, 0, "kappa", Some (cQ 1 2));
  (1, 11, 1, 0, "kappa", Some (cQ 1 2));
  (3, 6, 1, 0, "kappa", Some (cQ 1 2));
  (3, 7, 1, 0, "kappa", Some (cQ 1 2));
  (3, 10, 1, 0, "kappa", Some (cQ 1 2));
  (3, 11, 1, 0, "kappa", Some (cQ 1 2));
  (4, 6, 1, 0, "kappa", Some (cQ (-1) 2));
  (4, 7, 1, 0, "kappa", Some (cQ (-1) 2));
  (4, 10, 1, 0, "kappa", Some (cQ 1 2));
  (4, 11, 1, 0, "kappa", Some (cQ 1 2));
  (5, 8, 1, 0, "kappa", Some SPSU2LR_e14);
  (5, 9, 1, 0, "kappa", Some SPSU2LR_e14);
  (5, 12, 1, 0, "kappa", Some (cD (cN 1) (cR (cN 2))));
  (5, 13, 1, 0, "kappa", Some (cD (cN 1) (cR (cN 2))));
  (6, 2, 1, 0, "kappa", Some SPSU2LR_e57);
  (7, 2, 1, 0, "kappa", Some SPSU2LR_e58);
  (8, 1, 1, 0, "kappa", Some SPSU2LR_e44);
  (8, 3, 1, 0, "kappa", Some SPSU2LR_e43);
  (8, 4, 1, 0, "kappa", Some SPSU2LR_e43);
  (8, 14, 1, 0, "kappa", Some SPSU2LR_e14);
  (8, 15, 1, 0, "kappa", Some SPSU2LR_e59);
  (9, 1, 1, 0, "kappa", Some SPSU2LR_e47);
  (9, 3, 1, 0, "kappa", Some SPSU2LR_e46);
  (9, 4, 1, 0, "kappa", Some SPSU2LR_e46);
  (9, 15, 1, 0, "kappa", Some SPSU2LR_e60);
  (9, 16, 1, 0, "kappa", Some SPSU2LR_e14);
  (10, 2, 1, 0, "kappa", Some SPSU2LR_e57);
  (11, 2, 1, 0, "kappa", Some SPSU2LR_e58);
  (12, 1, 1, 0, "kappa", Some SPSU2LR_e43);
  (12, 3, 1, 0, "kappa", Some SPSU2LR_e44);
  (12, 4, 1, 0, "kappa", Some SPSU2LR_e43);
  (12, 14, 1, 0, "kappa", Some SPSU2LR_e14);
  (12, 15, 1, 0, "kappa", Some SPSU2LR_e59);
  (13, 1, 1, 0, "kappa", Some SPSU2LR_e46);
  (13, 3, 1, 0, "kappa", Some SPSU2LR_e47);
  (13, 4, 1, 0, "kappa", Some SPSU2LR_e46);
  (13, 15, 1, 0, "kappa", Some SPSU2LR_e60);
  (13, 16, 1, 0, "kappa", Some SPSU2LR_e14);
  (14, 6, 1, 0, "kappa", Some SPSU2LR_e51);
  (14, 10, 1, 0, "kappa", Some SPSU2LR_e52);
  (15, 6, 1, 0, "kappa", Some SPSU2LR_e26);
  (15, 7, 1, 0, "kappa", Some SPSU2LR_e53);
  (15, 10, 1, 0, "kappa", Some SPSU2LR_e18);
  (15, 11, 1, 0, "kappa", Some SPSU2LR_e54);
  (16, 7, 1, 0, "kappa", Some SPSU2LR_e55);
  (16, 11, 1, 0, "kappa", Some SPSU2LR_e56)].
(** /repo/c++/symmetry/sym-SPSU2LR-impl.hpp, make_matrix  *)
Definition spsu2lr_2ch_m0_d : list diag_line := [
  (1, 0, "zeta", Some (cN 1));
  (2, 0, "zeta", Some (cN 0));
  (3, 0, "zeta", Some (cN 1));
  (4, 0, "zeta", Some (cN 1));
  (5, 0, "zeta", Some (cN 2));
  (6, 0, "zeta", Some (cQ 1 2));
  (7, 0, "zeta", Some (cQ 1 2));
  (8, 0, "zeta", Some (cQ 3 2));
  (9, 0, "zeta", Some (cQ 3 2));
  (10, 0, "zeta", Some (cQ 1 2));
  (11, 0, "zeta", Some (cQ 1 2));
  (12, 0, "zeta", Some (cQ 3 2));
  (13, 0, "zeta", Some (cQ 3 2));
  (14, 0, "zeta", Some (cN 1));
  (15, 0, "zeta", Some (cN 1));
  (16, 0, "zeta", Some (cN 1));
  (1, 1, "zeta", Some (cN 1));
  (2, 1, "zeta", Some (cN 0));
  (3, 1, "zeta", Some (cN 1));
  (4, 1, "zeta", Some (cN 1));
  (5, 1, "zeta", Some (cN 2));
  (6, 1, "zeta", Some (cQ 1 2));
  (7, 1, "zeta", Some (cQ 1 2));
  (8, 1, "zeta", Some (cQ 3 2));
  (9, 1, "zeta", Some (cQ 3 2));
  (10, 1, "zeta", Some (cQ 1 2));
  (11, 1, "zeta", Some (cQ 1 2));
  (12, 1, "zeta", Some (cQ 3 2));
  (13, 1, "zeta", Some (cQ 3 2));
  (14, 1, "zeta", Some (cN 1));
  (15, 1, "zeta", Some (cN 1));
  (16, 1, "zeta", Some (cN 1))].
(** /repo/c++/symmetry/sym-SPSU2LR-impl.hpp, make_matrix  *)
Definition spsu2lr_2ch_m0_f : list dof_line := [
  (2, 3, 0, "2*delta", Some SPSU2LR_e62);
  (3, 5, 0, "2*delta", Some SPSU2LR_e62);
  (6, 8, 0, "2*delta", Some (cQ 1 4));
  (7, 9, 0, "2*delta", Some (cQ 1 4));
  (10, 12, 0, "2*delta", Some (cQ (-1) 4));
  (11, 13, 0, "2*delta", Some (cQ (-1) 4));
  (2, 3, 1, "2*delta", Some SPSU2LR_e62);
  (3, 5, 1, "2*delta", Some SPSU2LR_e62);
  (6, 8, 1, "2*delta", Some (cQ 1 4));
  (7, 9, 1, "2*delta", Some (cQ 1 4));
  (10, 12, 1, "2*delta", Some (cQ (-1) 4));
  (11, 13, 1, "2*delta", Some (cQ (-1) 4))].
Definition coef_spsu2lr_2ch : coef_set := mk_coef "SPSU2LR" 2%nat sym_SPSU2LR {| tb_In := spsu2lr_2ch_In; tb_QN := spsu2lr_2ch_QN |}
  [spsu2lr_2ch_t2; spsu2lr_2ch_t3; spsu2lr_2ch_t4; spsu2lr_2ch_t5; spsu2lr_2ch_t6; spsu2lr_2ch_t7; spsu2lr_2ch_t8; spsu2lr_2ch_t9]
  [spsu2lr_2ch_t0; spsu2lr_2ch_t1; spsu2lr_2ch_t10; spsu2lr_2ch_t11; spsu2lr_2ch_t12]
  [mk_mode "default" spsu2lr_2ch_m0_o spsu2lr_2ch_m0_d spsu2lr_2ch_m0_f].
