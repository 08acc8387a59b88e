(** Generated by gen/gen_coef.py from /repo/c++/symmetry/{sym-ISO2LR-impl.hpp, nrg-recalc-ISO2LR.hpp, coefnew}. Do not edit. *)
From Coq Require Import List ZArith String.
From Verif Require Import Base Invar_model Symmetry_model Symmetry_tables Coef_model.
Import ListNotations.
Local Open Scope string_scope.
Local Open Scope list_scope.
Local Open Scope Z_scope.

Definition ISO2LR_e0 := (cD (cM (cG [] 0) (cR (cD (cA (cA (cA (cN 1) (cM (cN 2) (cH 0))) (cM (cN 2) (cH 1))) (cM (cM (cN 4) (cH 0)) (cH 1))) (cA (cA (cA (cN 1) (cH 0)) (cH 1)) (cM (cH 0) (cH 1)))))) (cN 4)).
Definition ISO2LR_e1 := (cM (cQ (-1) 4) (cM (cG [] 0) (cR (cD (cA (cA (cA (cN 1) (cM (cN 2) (cH 0))) (cM (cN 2) (cH 1))) (cM (cM (cN 4) (cH 0)) (cH 1))) (cA (cA (cA (cN 1) (cH 0)) (cH 1)) (cM (cH 0) (cH 1))))))).
Definition ISO2LR_e2 := (cD (cM (cG [] 0) (cR (cB (cN 2) (cD (cN 1) (cA (cN 1) (cH 0)))))) (cN 2)).
Definition ISO2LR_e3 := (cD (cM (cM (cG [] 0) (cA (cN 3) (cM (cN 2) (cH 1)))) (cR (cD (cA (cN 1) (cM (cN 2) (cH 0))) (cM (cA (cN 1) (cH 0)) (cA (cA (cN 3) (cM (cN 5) (cH 1))) (cM (cN 2) (cW (cH 1) 4))))))) (cN 4)).
Definition ISO2LR_e4 := (cD (cM (cQ (-1) 2) (cH 1)) (cR (cM (cH 1) (cA (cN 1) (cH 1))))).
Definition ISO2LR_e5 := (cM (cQ (-1) 2) (cR (cB (cN 2) (cD (cN 1) (cA (cN 1) (cH 1)))))).
Definition ISO2LR_e6 := (cD (cM (cG [] 0) (cH 0)) (cM (cN 2) (cR (cM (cH 0) (cA (cN 1) (cH 0)))))).
Definition ISO2LR_e7 := (cD (cM (cQ (-1) 4) (cA (cN 3) (cM (cN 2) (cH 0)))) (cR (cD (cM (cM (cA (cN 1) (cH 0)) (cA (cN 3) (cM (cN 2) (cH 0)))) (cA (cN 1) (cH 1))) (cA (cN 1) (cM (cN 2) (cH 1)))))).
Definition ISO2LR_e8 := (cM (cQ (-1) 2) (cM (cG [] 0) (cR (cB (cN 2) (cD (cN 1) (cA (cN 1) (cH 0))))))).
Definition ISO2LR_e9 := (cM (cQ (-1) 4) (cM (cM (cG [] 0) (cA (cN 3) (cM (cN 2) (cH 1)))) (cR (cD (cA (cN 1) (cM (cN 2) (cH 0))) (cM (cA (cN 1) (cH 0)) (cA (cA (cN 3) (cM (cN 5) (cH 1))) (cM (cN 2) (cW (cH 1) 4)))))))).
Definition ISO2LR_e10 := (cD (cM (cQ (-1) 2) (cM (cG [] 0) (cH 0))) (cR (cM (cH 0) (cA (cN 1) (cH 0))))).
Definition ISO2LR_e11 := (cM (cQ (-1) 4) (cM (cG [] 0) (cR (cD (cA (cA (cA (cN 1) (cM (cN 2) (cH 0))) (cM (cN 2) (cH 1))) (cM (cM (cN 4) (cH 0)) (cH 1))) (cA (cH 1) (cM (cH 0) (cH 1))))))).
Definition ISO2LR_e12 := (cD (cM (cG [] 0) (cR (cD (cA (cA (cA (cN 1) (cM (cN 2) (cH 0))) (cM (cN 2) (cH 1))) (cM (cM (cN 4) (cH 0)) (cH 1))) (cA (cH 1) (cM (cH 0) (cH 1)))))) (cN 4)).
Definition ISO2LR_e13 := (cD (cM (cG [] 0) (cR (cD (cM (cA (cN 1) (cM (cN 2) (cH 0))) (cA (cN (-1)) (cM (cN 2) (cH 1)))) (cM (cA (cN 1) (cH 0)) (cH 1))))) (cN 4)).
Definition ISO2LR_e14 := (cD (cM (cR (cD (cN 1) (cA (cN (-1)) (cM (cN 2) (cH 1))))) (cR (cA (cO (cD (cN 1) (cH 1))) (cM (cN 4) (cH 1))))) (cN 2)).
Definition ISO2LR_e15 := (cD (cR (cA (cN 1) (cD (cN 1) (cH 1)))) (cN 2)).
Definition ISO2LR_e16 := (cD (cM (cG [] 0) (cA (cM (cN 2) (cR (cM (cM (cA (cN 1) (cH 0)) (cA (cN 1) (cM (cN 2) (cH 0)))) (cH 1)))) (cR (cD (cA (cH 1) (cM (cM (cN 2) (cH 0)) (cH 1))) (cA (cN 1) (cH 0)))))) (cM (cM (cN 2) (cA (cN 3) (cM (cN 2) (cH 0)))) (cR (cH 1)))).
Definition ISO2LR_e17 := (cD (cR (cA (cN 2) (cD (cN 1) (cH 1)))) (cN 2)).
Definition ISO2LR_e18 := (cD (cA (cN 3) (cM (cN 2) (cH 0))) (cM (cN 4) (cR (cD (cM (cM (cA (cN 1) (cH 0)) (cA (cN 3) (cM (cN 2) (cH 0)))) (cH 1)) (cA (cN 1) (cM (cN 2) (cH 1))))))).
Definition ISO2LR_e19 := (cM (cQ (-1) 4) (cM (cG [] 0) (cR (cD (cM (cA (cN 1) (cM (cN 2) (cH 0))) (cA (cN (-1)) (cM (cN 2) (cH 1)))) (cM (cA (cN 1) (cH 0)) (cH 1)))))).
Definition ISO2LR_e20 := (cD (cM (cQ (-1) 2) (cM (cG [] 0) (cA (cM (cN 2) (cR (cM (cM (cA (cN 1) (cH 0)) (cA (cN 1) (cM (cN 2) (cH 0)))) (cH 1)))) (cR (cD (cA (cH 1) (cM (cM (cN 2) (cH 0)) (cH 1))) (cA (cN 1) (cH 0))))))) (cM (cA (cN 3) (cM (cN 2) (cH 0))) (cR (cH 1)))).
Definition ISO2LR_e21 := (cD (cM (cQ (-1) 4) (cG [] 0)) (cR (cD (cA (cH 0) (cM (cH 0) (cH 1))) (cA (cA (cA (cN 1) (cM (cN 2) (cH 0))) (cM (cN 2) (cH 1))) (cM (cM (cN 4) (cH 0)) (cH 1)))))).
Definition ISO2LR_e22 := (cD (cG [] 0) (cM (cN 4) (cR (cD (cA (cH 0) (cM (cH 0) (cH 1))) (cA (cA (cA (cN 1) (cM (cN 2) (cH 0))) (cM (cN 2) (cH 1))) (cM (cM (cN 4) (cH 0)) (cH 1))))))).
Definition ISO2LR_e23 := (cM (cQ (-1) 2) (cM (cG [] 0) (cR (cA (cN 2) (cD (cN 1) (cH 0)))))).
Definition ISO2LR_e24 := (cD (cM (cQ (-1) 4) (cM (cG [] 0) (cA (cN 3) (cM (cN 2) (cH 1))))) (cR (cD (cM (cM (cH 0) (cA (cN 1) (cH 1))) (cA (cN 3) (cM (cN 2) (cH 1)))) (cA (cN 1) (cM (cN 2) (cH 0)))))).
Definition ISO2LR_e25 := (cD (cM (cQ (-1) 2) (cM (cG [] 0) (cR (cM (cH 0) (cA (cN 1) (cH 0)))))) (cH 0)).
Definition ISO2LR_e26 := (cD (cB (cN 1) (cM (cN 2) (cH 0))) (cM (cN 4) (cR (cD (cM (cM (cH 0) (cA (cN (-1)) (cM (cN 2) (cH 0)))) (cA (cN 1) (cH 1))) (cA (cN 1) (cM (cN 2) (cH 1))))))).
Definition ISO2LR_e27 := (cD (cM (cG [] 0) (cR (cA (cN 2) (cD (cN 1) (cH 0))))) (cN 2)).
Definition ISO2LR_e28 := (cD (cM (cG [] 0) (cA (cN 3) (cM (cN 2) (cH 1)))) (cM (cN 4) (cR (cD (cM (cM (cH 0) (cA (cN 1) (cH 1))) (cA (cN 3) (cM (cN 2) (cH 1)))) (cA (cN 1) (cM (cN 2) (cH 0))))))).
Definition ISO2LR_e29 := (cD (cM (cG [] 0) (cR (cM (cH 0) (cA (cN 1) (cH 0))))) (cM (cN 2) (cH 0))).
Definition ISO2LR_e30 := (cD (cG [] 0) (cM (cN 4) (cR (cD (cM (cH 0) (cH 1)) (cA (cA (cA (cN 1) (cM (cN 2) (cH 0))) (cM (cN 2) (cH 1))) (cM (cM (cN 4) (cH 0)) (cH 1))))))).
Definition ISO2LR_e31 := (cD (cM (cQ (-1) 4) (cG [] 0)) (cR (cD (cM (cH 0) (cH 1)) (cA (cA (cA (cN 1) (cM (cN 2) (cH 0))) (cM (cN 2) (cH 1))) (cM (cM (cN 4) (cH 0)) (cH 1)))))).
Definition ISO2LR_e32 := (cD (cM (cQ (-1) 4) (cM (cG [] 0) (cR (cM (cM (cM (cH 0) (cA (cN 1) (cM (cN 2) (cH 0)))) (cH 1)) (cA (cN (-1)) (cM (cN 2) (cH 1))))))) (cM (cH 0) (cH 1))).
Definition ISO2LR_e33 := (cD (cM (cR (cD (cN 1) (cM (cH 1) (cA (cN (-1)) (cM (cN 2) (cH 1)))))) (cR (cA (cN (-1)) (cM (cN 4) (cW (cH 1) 4))))) (cN 2)).
Definition ISO2LR_e34 := (cD (cM (cQ (-1) 2) (cM (cG [] 0) (cA (cN 1) (cH 0)))) (cR (cM (cH 0) (cA (cN 1) (cH 0))))).
Definition ISO2LR_e35 := (cD (cR (cD (cM (cA (cN (-1)) (cM (cN 2) (cH 0))) (cA (cN 1) (cM (cN 2) (cH 1)))) (cM (cH 0) (cH 1)))) (cN 4)).
Definition ISO2LR_e36 := (cD (cM (cG [] 0) (cR (cD (cM (cA (cN 1) (cM (cN 2) (cH 0))) (cA (cN (-1)) (cM (cN 2) (cH 1)))) (cM (cH 0) (cH 1))))) (cN 4)).
Definition ISO2LR_e37 := (cD (cH 1) (cM (cN 2) (cR (cM (cH 1) (cA (cN 1) (cH 1)))))).
Definition ISO2LR_e38 := (cD (cR (cB (cN 2) (cD (cN 1) (cA (cN 1) (cH 1))))) (cN 2)).
Definition ISO2LR_e39 := (cD (cA (cN 3) (cM (cN 2) (cH 0))) (cM (cN 4) (cR (cD (cM (cM (cA (cN 1) (cH 0)) (cA (cN 3) (cM (cN 2) (cH 0)))) (cA (cN 1) (cH 1))) (cA (cN 1) (cM (cN 2) (cH 1))))))).
Definition ISO2LR_e40 := (cM (cQ (-1) 2) (cM (cR (cD (cN 1) (cA (cN (-1)) (cM (cN 2) (cH 1))))) (cR (cA (cO (cD (cN 1) (cH 1))) (cM (cN 4) (cH 1)))))).
Definition ISO2LR_e41 := (cM (cQ (-1) 2) (cR (cA (cN 1) (cD (cN 1) (cH 1))))).
Definition ISO2LR_e42 := (cM (cQ (-1) 2) (cR (cA (cN 2) (cD (cN 1) (cH 1))))).
Definition ISO2LR_e43 := (cD (cM (cQ (-1) 4) (cA (cN 3) (cM (cN 2) (cH 0)))) (cR (cD (cM (cM (cA (cN 1) (cH 0)) (cA (cN 3) (cM (cN 2) (cH 0)))) (cH 1)) (cA (cN 1) (cM (cN 2) (cH 1)))))).
Definition ISO2LR_e44 := (cD (cR (cD (cM (cA (cN (-1)) (cM (cN 2) (cH 0))) (cA (cN 1) (cM (cN 2) (cH 1)))) (cM (cH 0) (cA (cN 1) (cH 1))))) (cN 4)).
Definition ISO2LR_e45 := (cM (cQ (-1) 2) (cM (cR (cD (cN 1) (cM (cH 1) (cA (cN (-1)) (cM (cN 2) (cH 1)))))) (cR (cA (cN (-1)) (cM (cN 4) (cW (cH 1) 4)))))).
Definition ISO2LR_e46 := (cD (cM (cQ (-1) 4) (cR (cM (cM (cM (cH 0) (cA (cN (-1)) (cM (cN 2) (cH 0)))) (cH 1)) (cA (cN 1) (cM (cN 2) (cH 1)))))) (cM (cH 0) (cH 1))).
Definition ISO2LR_e47 := (cD (cN 1) (cR (cD (cM (cH 1) (cA (cN 1) (cM (cN 2) (cH 1)))) (cA (cA (cN (-1)) (cH 1)) (cM (cN 2) (cW (cH 1) 4)))))).
Definition ISO2LR_e48 := (cO (cD (cN 1) (cR (cM (cH 1) (cA (cN 1) (cM (cN 2) (cH 1))))))).
Definition ISO2LR_e49 := (cD (cM (cH 1) (cA (cN 3) (cM (cN 2) (cH 1)))) (cR (cM (cM (cH 1) (cA (cN 1) (cH 1))) (cA (cN 3) (cM (cM (cN 4) (cH 1)) (cA (cN 2) (cH 1))))))).
Definition ISO2LR_e50 := (cO (cD (cN 1) (cR (cM (cA (cN 1) (cH 1)) (cA (cN 1) (cM (cN 2) (cH 1))))))).
Definition ISO2LR_e51 := (cD (cM (cN (-2)) (cR (cM (cH 1) (cA (cN 1) (cH 1))))) (cA (cN 1) (cM (cN 2) (cH 1)))).
Definition ISO2LR_e52 := (cD (cM (cN (-2)) (cR (cM (cH 1) (cA (cN 1) (cH 1))))) (cA (cA (cA (cN 1) (cM (cN 2) (cH 0))) (cM (cN 2) (cH 1))) (cM (cM (cN 4) (cH 0)) (cH 1)))).
Definition ISO2LR_e53 := (cD (cM (cN (-4)) (cR (cM (cM (cM (cH 0) (cA (cN 1) (cH 0))) (cH 1)) (cA (cN 1) (cH 1))))) (cA (cA (cA (cN 1) (cM (cN 2) (cH 0))) (cM (cN 2) (cH 1))) (cM (cM (cN 4) (cH 0)) (cH 1)))).
Definition ISO2LR_e54 := (cD (cN 1) (cA (cN 1) (cM (cN 2) (cH 1)))).
Definition ISO2LR_e55 := (cD (cN 1) (cA (cA (cA (cN 1) (cM (cN 2) (cH 0))) (cM (cN 2) (cH 1))) (cM (cM (cN 4) (cH 0)) (cH 1)))).
Definition ISO2LR_e56 := (cD (cN 1) (cB (cN (-1)) (cM (cN 2) (cH 0)))).
Definition ISO2LR_e57 := (cD (cM (cN 2) (cR (cM (cH 0) (cA (cN 1) (cH 0))))) (cA (cA (cA (cN 1) (cM (cN 2) (cH 0))) (cM (cN 2) (cH 1))) (cM (cM (cN 4) (cH 0)) (cH 1)))).
Definition ISO2LR_e58 := (cD (cM (cN (-2)) (cR (cM (cH 0) (cA (cN 1) (cH 0))))) (cA (cN 1) (cM (cN 2) (cH 0)))).
Definition ISO2LR_e59 := (cM (cR (cD (cN 1) (cA (cN (-1)) (cM (cN 2) (cH 0))))) (cR (cA (cN (-1)) (cM (cN 2) (cH 0))))).
Definition ISO2LR_e60 := (cM (cR (cD (cN 1) (cM (cH 0) (cA (cN (-1)) (cM (cN 2) (cH 0)))))) (cR (cB (cN 1) (cD (cN 2) (cA (cN 1) (cM (cN 2) (cH 0))))))).
Definition ISO2LR_e61 := (cD (cA (cM (cH 0) (cA (cN (-1)) (cM (cN 2) (cH 0)))) (cM (cR (cA (cN (-1)) (cM (cN 4) (cW (cH 0) 4)))) (cR (cB (cN 1) (cD (cN 2) (cA (cN 1) (cM (cN 2) (cH 0)))))))) (cR (cM (cM (cH 0) (cA (cN 1) (cH 0))) (cA (cN (-1)) (cM (cN 4) (cW (cH 0) 4)))))).
Definition ISO2LR_e62 := (cD (cN 1) (cR (cM (cA (cN 1) (cH 0)) (cA (cN 1) (cM (cN 2) (cH 0)))))).
Definition ISO2LR_e63 := (cR (cB (cA (cN 1) (cD (cN 1) (cA (cN 1) (cH 0)))) (cD (cN 2) (cA (cN 1) (cM (cN 2) (cH 0)))))).
Definition ISO2LR_e64 := (cM (cR (cD (cN 1) (cA (cN (-1)) (cM (cN 2) (cH 1))))) (cR (cA (cN (-1)) (cM (cN 2) (cH 1))))).
Definition ISO2LR_e65 := (cM (cR (cD (cN 1) (cM (cH 1) (cA (cN (-1)) (cM (cN 2) (cH 1)))))) (cR (cB (cN 1) (cD (cN 2) (cA (cN 1) (cM (cN 2) (cH 1))))))).
Definition ISO2LR_e66 := (cD (cA (cM (cH 1) (cA (cN (-1)) (cM (cN 2) (cH 1)))) (cM (cR (cA (cN (-1)) (cM (cN 4) (cW (cH 1) 4)))) (cR (cB (cN 1) (cD (cN 2) (cA (cN 1) (cM (cN 2) (cH 1)))))))) (cR (cM (cM (cH 1) (cA (cN 1) (cH 1))) (cA (cN (-1)) (cM (cN 4) (cW (cH 1) 4)))))).
Definition ISO2LR_e67 := (cD (cN 1) (cR (cM (cA (cN 1) (cH 1)) (cA (cN 1) (cM (cN 2) (cH 1)))))).
Definition ISO2LR_e68 := (cR (cB (cA (cN 1) (cD (cN 1) (cA (cN 1) (cH 1)))) (cD (cN 2) (cA (cN 1) (cM (cN 2) (cH 1)))))).
Definition ISO2LR_e69 := (cO (cM (cR (cD (cN 1) (cA (cN (-1)) (cM (cN 2) (cH 1))))) (cR (cA (cN (-1)) (cM (cN 2) (cH 1)))))).
Definition ISO2LR_e70 := (cO (cD (cM (cR (cD (cN 1) (cA (cN (-1)) (cM (cN 2) (cH 1))))) (cR (cA (cN (-1)) (cM (cN 2) (cH 1))))) (cA (cN 1) (cM (cN 2) (cH 0))))).
Definition ISO2LR_e71 := (cD (cN 1) (cB (cN (-1)) (cM (cN 2) (cH 1)))).
Definition ISO2LR_e72 := (cO (cD (cN 1) (cA (cA (cA (cN 1) (cM (cN 2) (cH 0))) (cM (cN 2) (cH 1))) (cM (cM (cN 4) (cH 0)) (cH 1))))).
Definition ISO2LR_e73 := (cD (cM (cM (cN (-2)) (cR (cD (cH 0) (cA (cN (-1)) (cM (cN 2) (cH 1)))))) (cR (cM (cA (cN 1) (cH 0)) (cA (cN (-1)) (cM (cN 2) (cH 1)))))) (cA (cN 1) (cM (cN 2) (cH 0)))).
Definition ISO2LR_e74 := (cD (cM (cN (-2)) (cR (cM (cH 0) (cA (cN 1) (cH 0))))) (cA (cA (cA (cN 1) (cM (cN 2) (cH 0))) (cM (cN 2) (cH 1))) (cM (cM (cN 4) (cH 0)) (cH 1)))).
Definition ISO2LR_e75 := (cD (cM (cN 2) (cR (cM (cH 1) (cA (cN 1) (cH 1))))) (cA (cA (cA (cN 1) (cM (cN 2) (cH 0))) (cM (cN 2) (cH 1))) (cM (cM (cN 4) (cH 0)) (cH 1)))).
Definition ISO2LR_e76 := (cD (cN 1) (cA (cN 1) (cM (cN 2) (cH 0)))).
Definition ISO2LR_e77 := (cD (cN 1) (cR (cD (cM (cH 0) (cA (cN 1) (cM (cN 2) (cH 0)))) (cA (cA (cN (-1)) (cH 0)) (cM (cN 2) (cW (cH 0) 4)))))).
Definition ISO2LR_e78 := (cO (cD (cN 1) (cR (cM (cH 0) (cA (cN 1) (cM (cN 2) (cH 0))))))).
Definition ISO2LR_e79 := (cD (cM (cH 0) (cA (cN 3) (cM (cN 2) (cH 0)))) (cR (cM (cM (cH 0) (cA (cN 1) (cH 0))) (cA (cN 3) (cM (cM (cN 4) (cH 0)) (cA (cN 2) (cH 0))))))).
Definition ISO2LR_e80 := (cO (cD (cN 1) (cR (cM (cA (cN 1) (cH 0)) (cA (cN 1) (cM (cN 2) (cH 0))))))).
Definition ISO2LR_e81 := (cM (cM (cN (-2)) (cR (cD (cM (cH 0) (cA (cN 1) (cH 0))) (cM (cW (cA (cN 1) (cM (cN 2) (cH 0))) 4) (cA (cN (-1)) (cM (cN 2) (cH 1))))))) (cR (cA (cN (-1)) (cM (cN 2) (cH 1))))).
Definition ISO2LR_e82 := (cD (cM (cR (cD (cN 1) (cA (cN (-1)) (cM (cN 2) (cH 1))))) (cR (cA (cN (-1)) (cM (cN 2) (cH 1))))) (cA (cN 1) (cM (cN 2) (cH 0)))).
Definition ISO2LR_e83 := (cO (cM (cR (cD (cM (cM (cA (cN 1) (cH 0)) (cH 1)) (cA (cN (-1)) (cM (cN 2) (cH 1)))) (cA (cN 3) (cM (cN 2) (cH 0))))) (cA (cM (cN 2) (cR (cD (cN 1) (cM (cM (cA (cA (cN 3) (cM (cN 5) (cH 0))) (cM (cN 2) (cW (cH 0) 4))) (cH 1)) (cA (cN (-1)) (cM (cN 2) (cH 1))))))) (cR (cD (cW (cA (cN 1) (cM (cN 2) (cH 0))) 4) (cM (cM (cA (cA (cN 3) (cM (cN 5) (cH 0))) (cM (cN 2) (cW (cH 0) 4))) (cH 1)) (cA (cN (-1)) (cM (cN 2) (cH 1))))))))).
Definition ISO2LR_e84 := (cD (cM (cM (cR (cD (cN 1) (cA (cN (-1)) (cM (cN 2) (cH 1))))) (cR (cA (cN (-1)) (cM (cN 2) (cH 1))))) (cR (cA (cN (-1)) (cW (cH 1) 4)))) (cH 1)).
Definition ISO2LR_e85 := (cD (cM (cA (cN (-1)) (cM (cN 2) (cH 1))) (cR (cD (cN 1) (cA (cN (-1)) (cM (cN 4) (cW (cH 1) 4)))))) (cH 1)).
Definition ISO2LR_e86 := (cA (cB (cN 1) (cD (cN 1) (cH 1))) (cD (cN 1) (cA (cN 1) (cH 1)))).
Definition ISO2LR_e87 := (cD (cN 1) (cA (cN 1) (cH 1))).
Definition ISO2LR_e88 := (cO (cD (cR (cA (cN 1) (cD (cN 2) (cA (cN 1) (cM (cN 2) (cH 1)))))) (cA (cN 1) (cH 1)))).
Definition ISO2LR_e89 := (cD (cR (cM (cH 1) (cA (cN 2) (cH 1)))) (cA (cN 1) (cH 1))).
Definition ISO2LR_e90 := (cR (cA (cB (cN 1) (cD (cN 1) (cH 1))) (cD (cN 2) (cA (cN 1) (cM (cN 2) (cH 1)))))).
Definition ISO2LR_e91 := (cA (cA (cA (cM (cN 2) (cR (cD (cH 1) (cA (cA (cA (cN 3) (cM (cN 11) (cH 1))) (cM (cN 12) (cW (cH 1) 4))) (cM (cN 4) (cW (cH 1) 6)))))) (cR (cD (cH 1) (cM (cW (cA (cN 1) (cH 1)) 6) (cA (cN 3) (cM (cM (cN 4) (cH 1)) (cA (cN 2) (cH 1)))))))) (cM (cM (cN 3) (cH 1)) (cR (cD (cH 1) (cM (cW (cA (cN 1) (cH 1)) 6) (cA (cN 3) (cM (cM (cN 4) (cH 1)) (cA (cN 2) (cH 1))))))))) (cM (cN 2) (cR (cD (cW (cH 1) 10) (cM (cW (cA (cN 1) (cH 1)) 6) (cA (cN 3) (cM (cM (cN 4) (cH 1)) (cA (cN 2) (cH 1))))))))).
Definition ISO2LR_e92 := (cD (cN 1) (cM (cA (cN 1) (cM (cN 2) (cH 1))) (cR (cD (cN 1) (cA (cN (-3)) (cM (cM (cN 4) (cH 1)) (cA (cN 1) (cH 1)))))))).
Definition ISO2LR_e93 := (cO (cD (cR (cA (cN 3) (cM (cM (cN 4) (cH 1)) (cA (cN 2) (cH 1))))) (cM (cA (cN 1) (cH 1)) (cA (cN 1) (cM (cN 2) (cH 1)))))).
Definition ISO2LR_e94 := (cD (cN 1) (cA (cA (cN 1) (cM (cN 3) (cH 1))) (cM (cN 2) (cW (cH 1) 4)))).
Definition ISO2LR_e95 := (cO (cD (cN 1) (cA (cN 1) (cH 1)))).
Definition ISO2LR_e96 := (cD (cR (cD (cM (cM (cH 1) (cA (cN 1) (cH 1))) (cA (cN 3) (cM (cN 2) (cH 1)))) (cA (cN 1) (cM (cN 2) (cH 1))))) (cA (cN 1) (cH 1))).
Definition ISO2LR_e97 := (cD (cM (cR (cD (cN 1) (cA (cN (-1)) (cM (cN 2) (cH 1))))) (cR (cA (cN (-1)) (cM (cN 2) (cH 1))))) (cH 1)).
Definition ISO2LR_e98 := (cD (cM (cR (cD (cN 1) (cA (cN (-1)) (cM (cN 4) (cW (cH 1) 4))))) (cR (cB (cN 1) (cD (cN 2) (cA (cN 1) (cM (cN 2) (cH 1))))))) (cH 1)).
Definition ISO2LR_e99 := (cD (cR (cA (cN (-1)) (cW (cH 1) 4))) (cH 1)).
Definition ISO2LR_e100 := (cR (cD (cA (cN (-1)) (cM (cN 2) (cH 1))) (cM (cW (cH 1) 4) (cA (cN 1) (cM (cN 2) (cH 1)))))).
Definition ISO2LR_e101 := (cD (cR (cA (cN (-3)) (cM (cM (cN 4) (cH 1)) (cA (cN 1) (cH 1))))) (cA (cN 1) (cM (cN 2) (cH 1)))).
Definition ISO2LR_e102 := (cM (cR (cD (cN 1) (cA (cN (-1)) (cH 1)))) (cR (cA (cN (-1)) (cH 1)))).
Definition ISO2LR_e103 := (cM (cR (cB (cN 2) (cD (cN 1) (cH 1)))) (cR (cD (cN 1) (cA (cN (-1)) (cM (cN 4) (cW (cH 1) 4)))))).
Definition ISO2LR_e104 := (cD (cM (cR (cB (cB (cN 4) (cD (cN 1) (cH 1))) (cD (cN 3) (cA (cN 1) (cH 1))))) (cA (cA (cN 1) (cM (cR (cD (cA (cN (-1)) (cM (cN 2) (cH 1))) (cA (cA (cN 1) (cM (cN 3) (cH 1))) (cM (cN 2) (cW (cH 1) 4))))) (cR (cD (cN 1) (cA (cA (cB (cN (-1)) (cH 1)) (cM (cN 4) (cW (cH 1) 4))) (cM (cN 4) (cW (cH 1) 6))))))) (cM (cM (cH 1) (cR (cD (cA (cN (-1)) (cM (cN 2) (cH 1))) (cA (cA (cN 1) (cM (cN 3) (cH 1))) (cM (cN 2) (cW (cH 1) 4)))))) (cR (cD (cN 1) (cA (cA (cB (cN (-1)) (cH 1)) (cM (cN 4) (cW (cH 1) 4))) (cM (cN 4) (cW (cH 1) 6)))))))) (cN 2)).
Definition ISO2LR_e105 := (cD (cM (cR (cD (cA (cO (cD (cN 1) (cH 1))) (cM (cN 4) (cH 1))) (cA (cN 1) (cH 1)))) (cA (cA (cN 1) (cM (cR (cD (cA (cN (-1)) (cM (cN 2) (cH 1))) (cA (cA (cN 1) (cM (cN 3) (cH 1))) (cM (cN 2) (cW (cH 1) 4))))) (cR (cD (cN 1) (cA (cA (cB (cN (-1)) (cH 1)) (cM (cN 4) (cW (cH 1) 4))) (cM (cN 4) (cW (cH 1) 6))))))) (cM (cM (cH 1) (cR (cD (cA (cN (-1)) (cM (cN 2) (cH 1))) (cA (cA (cN 1) (cM (cN 3) (cH 1))) (cM (cN 2) (cW (cH 1) 4)))))) (cR (cD (cN 1) (cA (cA (cB (cN (-1)) (cH 1)) (cM (cN 4) (cW (cH 1) 4))) (cM (cN 4) (cW (cH 1) 6)))))))) (cN 2)).
Definition ISO2LR_e106 := (cD (cR (cB (cN 2) (cD (cN 1) (cH 1)))) (cN 2)).
Definition ISO2LR_e107 := (cM (cQ (-1) 2) (cR (cB (cN 2) (cD (cN 1) (cH 1))))).
Definition ISO2LR_e108 := (cD (cR (cD (cH 1) (cA (cN 1) (cH 1)))) (cN 2)).
Definition ISO2LR_e109 := (cD (cA (cA (cR (cM (cW (cH 1) 6) (cA (cN 1) (cH 1)))) (cM (cN 2) (cR (cM (cW (cH 1) 10) (cA (cN 1) (cH 1)))))) (cR (cM (cW (cH 1) 14) (cA (cN 1) (cH 1))))) (cM (cM (cN 2) (cH 1)) (cW (cA (cN 1) (cH 1)) 6))).
Definition ISO2LR_e110 := (cM (cQ (-1) 2) (cR (cD (cH 1) (cA (cN 1) (cH 1))))).
Definition ISO2LR_e111 := (cD (cM (cQ (-1) 2) (cA (cA (cR (cM (cW (cH 1) 6) (cA (cN 1) (cH 1)))) (cM (cN 2) (cR (cM (cW (cH 1) 10) (cA (cN 1) (cH 1)))))) (cR (cM (cW (cH 1) 14) (cA (cN 1) (cH 1)))))) (cM (cH 1) (cW (cA (cN 1) (cH 1)) 6))).
Definition ISO2LR_e112 := (cM (cQ (-1) 2) (cR (cA (cN 2) (cD (cN 1) (cA (cN 1) (cH 1)))))).
Definition ISO2LR_e113 := (cD (cR (cA (cN 2) (cD (cN 1) (cA (cN 1) (cH 1))))) (cN 2)).
Definition ISO2LR_e114 := (cO (cR (cD (cH 1) (cA (cN 1) (cM (cN 2) (cH 1)))))).
Definition ISO2LR_e115 := (cO (cD (cM (cA (cN 1) (cH 0)) (cH 1)) (cR (cM (cM (cM (cA (cN 1) (cH 0)) (cA (cN 1) (cM (cN 2) (cH 0)))) (cH 1)) (cA (cN 1) (cM (cN 2) (cH 1))))))).
Definition ISO2LR_e116 := (cD (cM (cH 0) (cB (cD (cN 1) (cR (cD (cM (cM (cM (cH 0) (cW (cA (cN 1) (cH 0)) 4)) (cA (cN 1) (cM (cN 2) (cH 0)))) (cA (cN 1) (cM (cN 2) (cH 1)))) (cH 1)))) (cD (cM (cA (cN 3) (cM (cN 2) (cH 0))) (cH 1)) (cM (cA (cN 1) (cH 0)) (cR (cM (cM (cM (cH 0) (cA (cN 1) (cM (cN 2) (cH 0)))) (cH 1)) (cA (cN 1) (cM (cN 2) (cH 1))))))))) (cN 2)).
Definition ISO2LR_e117 := (cO (cD (cH 1) (cR (cM (cH 1) (cA (cN 1) (cM (cN 2) (cH 1))))))).
Definition ISO2LR_e118 := (cD (cA (cN 1) (cH 1)) (cR (cM (cA (cN 1) (cH 1)) (cA (cN 1) (cM (cN 2) (cH 1)))))).
Definition ISO2LR_e119 := (cD (cA (cR (cD (cM (cM (cA (cN 1) (cH 0)) (cA (cN 1) (cM (cN 2) (cH 0)))) (cA (cN 1) (cH 1))) (cA (cN 1) (cM (cN 2) (cH 1))))) (cR (cM (cM (cM (cA (cN 1) (cH 0)) (cA (cN 1) (cM (cN 2) (cH 0)))) (cA (cN 1) (cH 1))) (cA (cN 1) (cM (cN 2) (cH 1)))))) (cM (cM (cN 2) (cA (cN 1) (cM (cN 2) (cH 0)))) (cA (cN 1) (cH 1)))).
Definition ISO2LR_e120 := (cD (cM (cH 0) (cA (cN 1) (cH 1))) (cR (cM (cM (cM (cH 0) (cA (cN 1) (cM (cN 2) (cH 0)))) (cA (cN 1) (cH 1))) (cA (cN 1) (cM (cN 2) (cH 1)))))).
Definition ISO2LR_e121 := (cR (cD (cH 1) (cA (cN 1) (cM (cN 2) (cH 1))))).
Definition ISO2LR_e122 := (cM (cA (cN 1) (cH 0)) (cR (cD (cH 1) (cM (cA (cA (cN 1) (cM (cN 3) (cH 0))) (cM (cN 2) (cW (cH 0) 4))) (cA (cN 1) (cM (cN 2) (cH 1))))))).
Definition ISO2LR_e123 := (cA (cD (cM (cQ (-1) 2) (cH 0)) (cR (cD (cM (cM (cM (cH 0) (cW (cA (cN 1) (cH 0)) 4)) (cA (cN 1) (cM (cN 2) (cH 0)))) (cA (cN 1) (cM (cN 2) (cH 1)))) (cH 1)))) (cD (cM (cM (cH 0) (cA (cN 3) (cM (cN 2) (cH 0)))) (cH 1)) (cM (cM (cN 2) (cA (cN 1) (cH 0))) (cR (cM (cM (cM (cH 0) (cA (cN 1) (cM (cN 2) (cH 0)))) (cH 1)) (cA (cN 1) (cM (cN 2) (cH 1)))))))).
Definition ISO2LR_e124 := (cO (cD (cA (cN 1) (cH 1)) (cR (cM (cA (cN 1) (cH 1)) (cA (cN 1) (cM (cN 2) (cH 1))))))).
Definition ISO2LR_e125 := (cD (cM (cQ (-1) 2) (cA (cR (cD (cM (cM (cA (cN 1) (cH 0)) (cA (cN 1) (cM (cN 2) (cH 0)))) (cA (cN 1) (cH 1))) (cA (cN 1) (cM (cN 2) (cH 1))))) (cR (cM (cM (cM (cA (cN 1) (cH 0)) (cA (cN 1) (cM (cN 2) (cH 0)))) (cA (cN 1) (cH 1))) (cA (cN 1) (cM (cN 2) (cH 1))))))) (cM (cA (cN 1) (cM (cN 2) (cH 0))) (cA (cN 1) (cH 1)))).
Definition ISO2LR_e126 := (cO (cD (cM (cH 0) (cA (cN 1) (cH 1))) (cR (cM (cM (cM (cH 0) (cA (cN 1) (cM (cN 2) (cH 0)))) (cA (cN 1) (cH 1))) (cA (cN 1) (cM (cN 2) (cH 1))))))).

(** /repo/c++/symmetry/nrg-recalc-ISO2LR.hpp recalc_irreduc, iso2lr/iso2lr-2ch-spinup-isoupa.dat *)
Definition iso2lr_2ch_t0 : irr_table := mk_irr 0 0 [ShLin 0%nat 1 1; ShLin 1%nat 1 1; ShLin 2%nat 1 0]  [
  (1, 13, Some ISO2LR_e0);
  (2, 13, Some ISO2LR_e1);
  (3, 7, Some ISO2LR_e2);
  (4, 9, Some ISO2LR_e3);
  (6, 4, Some ISO2LR_e4);
  (8, 5, Some ISO2LR_e5);
  (10, 1, Some (cQ 1 2));
  (10, 2, Some (cQ (-1) 2));
  (10, 15, Some ISO2LR_e6);
  (11, 16, Some ISO2LR_e2);
  (14, 12, Some ISO2LR_e5);
  (15, 13, Some ISO2LR_e7)].
(** /repo/c++/symmetry/nrg-recalc-ISO2LR.hpp recalc_irreduc, iso2lr/iso2lr-2ch-spinup-isoupb.dat *)
Definition iso2lr_2ch_t1 : irr_table := mk_irr 1 0 [ShLin 0%nat 1 1; ShLin 1%nat 1 1; ShLin 2%nat 1 0]  [
  (1, 13, Some ISO2LR_e1);
  (2, 13, Some ISO2LR_e0);
  (3, 7, Some ISO2LR_e8);
  (4, 9, Some ISO2LR_e9);
  (6, 4, Some ISO2LR_e4);
  (8, 5, Some ISO2LR_e5);
  (10, 1, Some (cQ 1 2));
  (10, 2, Some (cQ (-1) 2));
  (10, 15, Some ISO2LR_e10);
  (11, 16, Some ISO2LR_e8);
  (14, 12, Some ISO2LR_e5);
  (15, 13, Some ISO2LR_e7)].
(** /repo/c++/symmetry/nrg-recalc-ISO2LR.hpp recalc_irreduc, iso2lr/iso2lr-2ch-spindown-isoupa.dat *)
Definition iso2lr_2ch_t2 : irr_table := mk_irr 0 0 [ShLin 0%nat 1 1; ShLin 1%nat 1 (-1); ShLin 2%nat 1 0]  [
  (1, 11, Some ISO2LR_e11);
  (2, 11, Some ISO2LR_e12);
  (4, 7, Some ISO2LR_e13);
  (5, 9, Some ISO2LR_e2);
  (6, 3, Some ISO2LR_e14);
  (8, 4, Some ISO2LR_e15);
  (12, 1, Some (cQ 1 2));
  (12, 2, Some (cQ (-1) 2));
  (12, 15, Some ISO2LR_e6);
  (13, 16, Some ISO2LR_e16);
  (14, 10, Some ISO2LR_e17);
  (15, 11, Some ISO2LR_e18)].
(** /repo/c++/symmetry/nrg-recalc-ISO2LR.hpp recalc_irreduc, iso2lr/iso2lr-2ch-spindown-isoupb.dat *)
Definition iso2lr_2ch_t3 : irr_table := mk_irr 1 0 [ShLin 0%nat 1 1; ShLin 1%nat 1 (-1); ShLin 2%nat 1 0]  [
  (1, 11, Some ISO2LR_e12);
  (2, 11, Some ISO2LR_e11);
  (4, 7, Some ISO2LR_e19);
  (5, 9, Some ISO2LR_e8);
  (6, 3, Some ISO2LR_e14);
  (8, 4, Some ISO2LR_e15);
  (12, 1, Some (cQ 1 2));
  (12, 2, Some (cQ (-1) 2));
  (12, 15, Some ISO2LR_e10);
  (13, 16, Some ISO2LR_e20);
  (14, 10, Some ISO2LR_e17);
  (15, 11, Some ISO2LR_e18)].
(** /repo/c++/symmetry/nrg-recalc-ISO2LR.hpp recalc_irreduc, iso2lr/iso2lr-2ch-spinup-isodowna.dat *)
Definition iso2lr_2ch_t4 : irr_table := mk_irr 0 0 [ShLin 0%nat 1 (-1); ShLin 1%nat 1 1; ShLin 2%nat 1 0]  [
  (1, 12, Some ISO2LR_e21);
  (2, 12, Some ISO2LR_e22);
  (3, 6, Some ISO2LR_e23);
  (4, 8, Some ISO2LR_e24);
  (7, 4, Some ISO2LR_e4);
  (9, 5, Some ISO2LR_e5);
  (10, 14, Some ISO2LR_e23);
  (11, 1, Some (cQ 1 2));
  (11, 2, Some (cQ (-1) 2));
  (11, 15, Some ISO2LR_e25);
  (15, 12, Some ISO2LR_e26);
  (16, 13, Some ISO2LR_e5)].
(** /repo/c++/symmetry/nrg-recalc-ISO2LR.hpp recalc_irreduc, iso2lr/iso2lr-2ch-spinup-isodownb.dat *)
Definition iso2lr_2ch_t5 : irr_table := mk_irr 1 0 [ShLin 0%nat 1 (-1); ShLin 1%nat 1 1; ShLin 2%nat 1 0]  [
  (1, 12, Some ISO2LR_e22);
  (2, 12, Some ISO2LR_e21);
  (3, 6, Some ISO2LR_e27);
  (4, 8, Some ISO2LR_e28);
  (7, 4, Some ISO2LR_e4);
  (9, 5, Some ISO2LR_e5);
  (10, 14, Some ISO2LR_e27);
  (11, 1, Some (cQ 1 2));
  (11, 2, Some (cQ (-1) 2));
  (11, 15, Some ISO2LR_e29);
  (15, 12, Some ISO2LR_e26);
  (16, 13, Some ISO2LR_e5)].
(** /repo/c++/symmetry/nrg-recalc-ISO2LR.hpp recalc_irreduc, iso2lr/iso2lr-2ch-spindown-isodowna.dat *)
Definition iso2lr_2ch_t6 : irr_table := mk_irr 0 0 [ShLin 0%nat 1 (-1); ShLin 1%nat 1 (-1); ShLin 2%nat 1 0]  [
  (1, 10, Some ISO2LR_e30);
  (2, 10, Some ISO2LR_e31);
  (4, 6, Some ISO2LR_e32);
  (5, 8, Some ISO2LR_e23);
  (7, 3, Some ISO2LR_e33);
  (9, 4, Some ISO2LR_e15);
  (12, 14, Some ISO2LR_e23);
  (13, 1, Some (cQ 1 2));
  (13, 2, Some (cQ (-1) 2));
  (13, 15, Some ISO2LR_e34);
  (15, 10, Some ISO2LR_e35);
  (16, 11, Some ISO2LR_e17)].
(** /repo/c++/symmetry/nrg-recalc-ISO2LR.hpp recalc_irreduc, iso2lr/iso2lr-2ch-spindown-isodownb.dat *)
Definition iso2lr_2ch_t7 : irr_table := mk_irr 1 0 [ShLin 0%nat 1 (-1); ShLin 1%nat 1 (-1); ShLin 2%nat 1 0]  [
  (1, 10, Some ISO2LR_e31);
  (2, 10, Some ISO2LR_e30);
  (4, 6, Some ISO2LR_e36);
  (5, 8, Some ISO2LR_e27);
  (7, 3, Some ISO2LR_e33);
  (9, 4, Some ISO2LR_e15);
  (12, 14, Some ISO2LR_e27);
  (13, 1, Some (cQ 1 2));
  (13, 2, Some (cQ (-1) 2));
  (13, 15, Some ISO2LR_e29);
  (15, 10, Some ISO2LR_e35);
  (16, 11, Some ISO2LR_e17)].
(** /repo/c++/symmetry/nrg-recalc-ISO2LR.hpp recalc_irreduc, iso2lr/iso2lr-2ch-spinup-isoupdiffa.dat *)
Definition iso2lr_2ch_t8 : irr_table := mk_irr 0 0 [ShLin 0%nat 1 1; ShLin 1%nat 1 1; ShLin 2%nat (-1) 0]  [
  (1, 9, Some ISO2LR_e0);
  (2, 9, Some ISO2LR_e0);
  (3, 11, Some ISO2LR_e8);
  (4, 13, Some ISO2LR_e9);
  (6, 1, Some (cQ 1 2));
  (6, 2, Some (cQ 1 2));
  (6, 15, Some ISO2LR_e6);
  (7, 16, Some ISO2LR_e2);
  (10, 4, Some ISO2LR_e37);
  (12, 5, Some ISO2LR_e38);
  (14, 8, Some ISO2LR_e5);
  (15, 9, Some ISO2LR_e7)].
(** /repo/c++/symmetry/nrg-recalc-ISO2LR.hpp recalc_irreduc, iso2lr/iso2lr-2ch-spinup-isoupdiffb.dat *)
Definition iso2lr_2ch_t9 : irr_table := mk_irr 1 0 [ShLin 0%nat 1 1; ShLin 1%nat 1 1; ShLin 2%nat (-1) 0]  [
  (1, 9, Some ISO2LR_e0);
  (2, 9, Some ISO2LR_e0);
  (3, 11, Some ISO2LR_e8);
  (4, 13, Some ISO2LR_e9);
  (6, 1, Some (cQ (-1) 2));
  (6, 2, Some (cQ (-1) 2));
  (6, 15, Some ISO2LR_e6);
  (7, 16, Some ISO2LR_e2);
  (10, 4, Some ISO2LR_e4);
  (12, 5, Some ISO2LR_e5);
  (14, 8, Some ISO2LR_e38);
  (15, 9, Some ISO2LR_e39)].
(** /repo/c++/symmetry/nrg-recalc-ISO2LR.hpp recalc_irreduc, iso2lr/iso2lr-2ch-spindown-isoupdiffa.dat *)
Definition iso2lr_2ch_t10 : irr_table := mk_irr 0 0 [ShLin 0%nat 1 1; ShLin 1%nat 1 (-1); ShLin 2%nat (-1) 0]  [
  (1, 7, Some ISO2LR_e11);
  (2, 7, Some ISO2LR_e11);
  (4, 11, Some ISO2LR_e19);
  (5, 13, Some ISO2LR_e8);
  (8, 1, Some (cQ 1 2));
  (8, 2, Some (cQ 1 2));
  (8, 15, Some ISO2LR_e6);
  (9, 16, Some ISO2LR_e16);
  (10, 3, Some ISO2LR_e40);
  (12, 4, Some ISO2LR_e41);
  (14, 6, Some ISO2LR_e17);
  (15, 7, Some ISO2LR_e18)].
(** /repo/c++/symmetry/nrg-recalc-ISO2LR.hpp recalc_irreduc, iso2lr/iso2lr-2ch-spindown-isoupdiffb.dat *)
Definition iso2lr_2ch_t11 : irr_table := mk_irr 1 0 [ShLin 0%nat 1 1; ShLin 1%nat 1 (-1); ShLin 2%nat (-1) 0]  [
  (1, 7, Some ISO2LR_e11);
  (2, 7, Some ISO2LR_e11);
  (4, 11, Some ISO2LR_e19);
  (5, 13, Some ISO2LR_e8);
  (8, 1, Some (cQ (-1) 2));
  (8, 2, Some (cQ (-1) 2));
  (8, 15, Some ISO2LR_e6);
  (9, 16, Some ISO2LR_e16);
  (10, 3, Some ISO2LR_e14);
  (12, 4, Some ISO2LR_e15);
  (14, 6, Some ISO2LR_e42);
  (15, 7, Some ISO2LR_e43)].
(** /repo/c++/symmetry/nrg-recalc-ISO2LR.hpp recalc_irreduc, iso2lr/iso2lr-2ch-spinup-isodowndiffa.dat *)
Definition iso2lr_2ch_t12 : irr_table := mk_irr 0 0 [ShLin 0%nat 1 (-1); ShLin 1%nat 1 1; ShLin 2%nat (-1) 0]  [
  (1, 8, Some ISO2LR_e21);
  (2, 8, Some ISO2LR_e21);
  (3, 10, Some ISO2LR_e27);
  (4, 12, Some ISO2LR_e28);
  (6, 14, Some ISO2LR_e23);
  (7, 1, Some (cQ 1 2));
  (7, 2, Some (cQ 1 2));
  (7, 15, Some ISO2LR_e25);
  (11, 4, Some ISO2LR_e37);
  (13, 5, Some ISO2LR_e38);
  (15, 8, Some ISO2LR_e26);
  (16, 9, Some ISO2LR_e5)].
(** /repo/c++/symmetry/nrg-recalc-ISO2LR.hpp recalc_irreduc, iso2lr/iso2lr-2ch-spinup-isodowndiffb.dat *)
Definition iso2lr_2ch_t13 : irr_table := mk_irr 1 0 [ShLin 0%nat 1 (-1); ShLin 1%nat 1 1; ShLin 2%nat (-1) 0]  [
  (1, 8, Some ISO2LR_e21);
  (2, 8, Some ISO2LR_e21);
  (3, 10, Some ISO2LR_e27);
  (4, 12, Some ISO2LR_e28);
  (6, 14, Some ISO2LR_e23);
  (7, 1, Some (cQ (-1) 2));
  (7, 2, Some (cQ (-1) 2));
  (7, 15, Some ISO2LR_e25);
  (11, 4, Some ISO2LR_e4);
  (13, 5, Some ISO2LR_e5);
  (15, 8, Some ISO2LR_e44);
  (16, 9, Some ISO2LR_e38)].
(** /repo/c++/symmetry/nrg-recalc-ISO2LR.hpp recalc_irreduc, iso2lr/iso2lr-2ch-spindown-isodowndiffa.dat *)
Definition iso2lr_2ch_t14 : irr_table := mk_irr 0 0 [ShLin 0%nat 1 (-1); ShLin 1%nat 1 (-1); ShLin 2%nat (-1) 0]  [
  (1, 6, Some ISO2LR_e30);
  (2, 6, Some ISO2LR_e30);
  (4, 10, Some ISO2LR_e36);
  (5, 12, Some ISO2LR_e27);
  (8, 14, Some ISO2LR_e23);
  (9, 1, Some (cQ 1 2));
  (9, 2, Some (cQ 1 2));
  (9, 15, Some ISO2LR_e34);
  (11, 3, Some ISO2LR_e45);
  (13, 4, Some ISO2LR_e41);
  (15, 6, Some ISO2LR_e35);
  (16, 7, Some ISO2LR_e17)].
(** /repo/c++/symmetry/nrg-recalc-ISO2LR.hpp recalc_irreduc, iso2lr/iso2lr-2ch-spindown-isodowndiffb.dat *)
Definition iso2lr_2ch_t15 : irr_table := mk_irr 1 0 [ShLin 0%nat 1 (-1); ShLin 1%nat 1 (-1); ShLin 2%nat (-1) 0]  [
  (1, 6, Some ISO2LR_e30);
  (2, 6, Some ISO2LR_e30);
  (4, 10, Some ISO2LR_e36);
  (5, 12, Some ISO2LR_e27);
  (8, 14, Some ISO2LR_e23);
  (9, 1, Some (cQ (-1) 2));
  (9, 2, Some (cQ (-1) 2));
  (9, 15, Some ISO2LR_e34);
  (11, 3, Some ISO2LR_e33);
  (13, 4, Some ISO2LR_e15);
  (15, 6, Some ISO2LR_e46);
  (16, 7, Some ISO2LR_e42)].
(** /repo/c++/symmetry/nrg-recalc-ISO2LR.hpp recalc_doublet, iso2lr/iso2lr-2ch-doubletmp.dat *)
Definition iso2lr_2ch_t16 : ten_table := mk_ten "doublet" [ShLin 0%nat 1 (-1); ShLin 1%nat 1 1; ShLin 2%nat 1 0] [2; 2; 1] [
  (1, 1, [ShLin 0%nat 1 0; ShLin 1%nat 1 0; ShLin 2%nat 1 0], [ShLin 0%nat 1 (-1); ShLin 1%nat 1 1; ShLin 2%nat 1 0], Some (cN 1));
  (2, 2, [ShLin 0%nat 1 0; ShLin 1%nat 1 0; ShLin 2%nat 1 0], [ShLin 0%nat 1 (-1); ShLin 1%nat 1 1; ShLin 2%nat 1 0], Some (cN 1));
  (3, 3, [ShLin 0%nat 1 0; ShLin 1%nat 1 (-2); ShLin 2%nat (-1) 0], [ShLin 0%nat 1 (-1); ShLin 1%nat 1 (-1); ShLin 2%nat (-1) 0], Some ISO2LR_e47);
  (4, 3, [ShLin 0%nat 1 0; ShLin 1%nat 1 0; ShLin 2%nat (-1) 0], [ShLin 0%nat 1 (-1); ShLin 1%nat 1 (-1); ShLin 2%nat (-1) 0], Some ISO2LR_e48);
  (4, 4, [ShLin 0%nat 1 0; ShLin 1%nat 1 0; ShLin 2%nat (-1) 0], [ShLin 0%nat 1 (-1); ShLin 1%nat 1 1; ShLin 2%nat (-1) 0], Some ISO2LR_e49);
  (5, 4, [ShLin 0%nat 1 0; ShLin 1%nat 1 2; ShLin 2%nat (-1) 0], [ShLin 0%nat 1 (-1); ShLin 1%nat 1 1; ShLin 2%nat (-1) 0], Some ISO2LR_e50);
  (5, 5, [ShLin 0%nat 1 0; ShLin 1%nat 1 2; ShLin 2%nat (-1) 0], [ShLin 0%nat 1 (-1); ShLin 1%nat 1 3; ShLin 2%nat (-1) 0], Some (cN 1));
  (6, 6, [ShLin 0%nat 1 (-1); ShLin 1%nat 1 (-1); ShLin 2%nat (-1) 0], [ShLin 0%nat 1 (-2); ShLin 1%nat 1 0; ShLin 2%nat (-1) 0], Some ISO2LR_e51);
  (6, 7, [ShLin 0%nat 1 (-1); ShLin 1%nat 1 (-1); ShLin 2%nat (-1) 0], [ShLin 0%nat 1 0; ShLin 1%nat 1 0; ShLin 2%nat (-1) 0], Some ISO2LR_e52);
  (7, 7, [ShLin 0%nat 1 1; ShLin 1%nat 1 (-1); ShLin 2%nat (-1) 0], [ShLin 0%nat 1 0; ShLin 1%nat 1 0; ShLin 2%nat (-1) 0], Some ISO2LR_e53);
  (8, 6, [ShLin 0%nat 1 (-1); ShLin 1%nat 1 1; ShLin 2%nat (-1) 0], [ShLin 0%nat 1 (-2); ShLin 1%nat 1 0; ShLin 2%nat (-1) 0], Some ISO2LR_e54);
  (8, 7, [ShLin 0%nat 1 (-1); ShLin 1%nat 1 1; ShLin 2%nat (-1) 0], [ShLin 0%nat 1 0; ShLin 1%nat 1 0; ShLin 2%nat (-1) 0], Some ISO2LR_e55);
  (8, 8, [ShLin 0%nat 1 (-1); ShLin 1%nat 1 1; ShLin 2%nat (-1) 0], [ShLin 0%nat 1 (-2); ShLin 1%nat 1 2; ShLin 2%nat (-1) 0], Some (cN (-1)));
  (8, 9, [ShLin 0%nat 1 (-1); ShLin 1%nat 1 1; ShLin 2%nat (-1) 0], [ShLin 0%nat 1 0; ShLin 1%nat 1 2; ShLin 2%nat (-1) 0], Some ISO2LR_e56);
  (9, 7, [ShLin 0%nat 1 1; ShLin 1%nat 1 1; ShLin 2%nat (-1) 0], [ShLin 0%nat 1 0; ShLin 1%nat 1 0; ShLin 2%nat (-1) 0], Some ISO2LR_e57);
  (9, 9, [ShLin 0%nat 1 1; ShLin 1%nat 1 1; ShLin 2%nat (-1) 0], [ShLin 0%nat 1 0; ShLin 1%nat 1 2; ShLin 2%nat (-1) 0], Some ISO2LR_e58);
  (10, 10, [ShLin 0%nat 1 (-1); ShLin 1%nat 1 (-1); ShLin 2%nat 1 0], [ShLin 0%nat 1 (-2); ShLin 1%nat 1 0; ShLin 2%nat 1 0], Some ISO2LR_e51);
  (10, 11, [ShLin 0%nat 1 (-1); ShLin 1%nat 1 (-1); ShLin 2%nat 1 0], [ShLin 0%nat 1 0; ShLin 1%nat 1 0; ShLin 2%nat 1 0], Some ISO2LR_e52);
  (11, 11, [ShLin 0%nat 1 1; ShLin 1%nat 1 (-1); ShLin 2%nat 1 0], [ShLin 0%nat 1 0; ShLin 1%nat 1 0; ShLin 2%nat 1 0], Some ISO2LR_e53);
  (12, 10, [ShLin 0%nat 1 (-1); ShLin 1%nat 1 1; ShLin 2%nat 1 0], [ShLin 0%nat 1 (-2); ShLin 1%nat 1 0; ShLin 2%nat 1 0], Some ISO2LR_e54);
  (12, 11, [ShLin 0%nat 1 (-1); ShLin 1%nat 1 1; ShLin 2%nat 1 0], [ShLin 0%nat 1 0; ShLin 1%nat 1 0; ShLin 2%nat 1 0], Some ISO2LR_e55);
  (12, 12, [ShLin 0%nat 1 (-1); ShLin 1%nat 1 1; ShLin 2%nat 1 0], [ShLin 0%nat 1 (-2); ShLin 1%nat 1 2; ShLin 2%nat 1 0], Some (cN (-1)));
  (12, 13, [ShLin 0%nat 1 (-1); ShLin 1%nat 1 1; ShLin 2%nat 1 0], [ShLin 0%nat 1 0; ShLin 1%nat 1 2; ShLin 2%nat 1 0], Some ISO2LR_e56);
  (13, 11, [ShLin 0%nat 1 1; ShLin 1%nat 1 1; ShLin 2%nat 1 0], [ShLin 0%nat 1 0; ShLin 1%nat 1 0; ShLin 2%nat 1 0], Some ISO2LR_e57);
  (13, 13, [ShLin 0%nat 1 1; ShLin 1%nat 1 1; ShLin 2%nat 1 0], [ShLin 0%nat 1 0; ShLin 1%nat 1 2; ShLin 2%nat 1 0], Some ISO2LR_e58);
  (14, 14, [ShLin 0%nat 1 (-2); ShLin 1%nat 1 0; ShLin 2%nat 1 0], [ShLin 0%nat 1 (-3); ShLin 1%nat 1 1; ShLin 2%nat 1 0], Some ISO2LR_e59);
  (14, 15, [ShLin 0%nat 1 (-2); ShLin 1%nat 1 0; ShLin 2%nat 1 0], [ShLin 0%nat 1 (-1); ShLin 1%nat 1 1; ShLin 2%nat 1 0], Some ISO2LR_e60);
  (15, 15, [ShLin 0%nat 1 0; ShLin 1%nat 1 0; ShLin 2%nat 1 0], [ShLin 0%nat 1 (-1); ShLin 1%nat 1 1; ShLin 2%nat 1 0], Some ISO2LR_e61);
  (15, 16, [ShLin 0%nat 1 0; ShLin 1%nat 1 0; ShLin 2%nat 1 0], [ShLin 0%nat 1 1; ShLin 1%nat 1 1; ShLin 2%nat 1 0], Some ISO2LR_e62);
  (16, 16, [ShLin 0%nat 1 2; ShLin 1%nat 1 0; ShLin 2%nat 1 0], [ShLin 0%nat 1 1; ShLin 1%nat 1 1; ShLin 2%nat 1 0], Some ISO2LR_e63)].
(** /repo/c++/symmetry/nrg-recalc-ISO2LR.hpp recalc_doublet, iso2lr/iso2lr-2ch-doubletmm.dat *)
Definition iso2lr_2ch_t17 : ten_table := mk_ten "doublet" [ShLin 0%nat 1 (-1); ShLin 1%nat 1 (-1); ShLin 2%nat 1 0] [2; 2; 1] [
  (1, 1, [ShLin 0%nat 1 0; ShLin 1%nat 1 0; ShLin 2%nat 1 0], [ShLin 0%nat 1 (-1); ShLin 1%nat 1 (-1); ShLin 2%nat 1 0], Some (cN 1));
  (2, 2, [ShLin 0%nat 1 0; ShLin 1%nat 1 0; ShLin 2%nat 1 0], [ShLin 0%nat 1 (-1); ShLin 1%nat 1 (-1); ShLin 2%nat 1 0], Some (cN 1));
  (3, 3, [ShLin 0%nat 1 0; ShLin 1%nat 1 (-2); ShLin 2%nat (-1) 0], [ShLin 0%nat 1 (-1); ShLin 1%nat 1 (-3); ShLin 2%nat (-1) 0], Some ISO2LR_e64);
  (3, 4, [ShLin 0%nat 1 0; ShLin 1%nat 1 (-2); ShLin 2%nat (-1) 0], [ShLin 0%nat 1 (-1); ShLin 1%nat 1 (-1); ShLin 2%nat (-1) 0], Some ISO2LR_e65);
  (4, 4, [ShLin 0%nat 1 0; ShLin 1%nat 1 0; ShLin 2%nat (-1) 0], [ShLin 0%nat 1 (-1); ShLin 1%nat 1 (-1); ShLin 2%nat (-1) 0], Some ISO2LR_e66);
  (4, 5, [ShLin 0%nat 1 0; ShLin 1%nat 1 0; ShLin 2%nat (-1) 0], [ShLin 0%nat 1 (-1); ShLin 1%nat 1 1; ShLin 2%nat (-1) 0], Some ISO2LR_e67);
  (5, 5, [ShLin 0%nat 1 0; ShLin 1%nat 1 2; ShLin 2%nat (-1) 0], [ShLin 0%nat 1 (-1); ShLin 1%nat 1 1; ShLin 2%nat (-1) 0], Some ISO2LR_e68);
  (6, 6, [ShLin 0%nat 1 (-1); ShLin 1%nat 1 (-1); ShLin 2%nat (-1) 0], [ShLin 0%nat 1 (-2); ShLin 1%nat 1 (-2); ShLin 2%nat (-1) 0], Some ISO2LR_e69);
  (6, 7, [ShLin 0%nat 1 (-1); ShLin 1%nat 1 (-1); ShLin 2%nat (-1) 0], [ShLin 0%nat 1 0; ShLin 1%nat 1 (-2); ShLin 2%nat (-1) 0], Some ISO2LR_e70);
  (6, 8, [ShLin 0%nat 1 (-1); ShLin 1%nat 1 (-1); ShLin 2%nat (-1) 0], [ShLin 0%nat 1 (-2); ShLin 1%nat 1 0; ShLin 2%nat (-1) 0], Some ISO2LR_e71);
  (6, 9, [ShLin 0%nat 1 (-1); ShLin 1%nat 1 (-1); ShLin 2%nat (-1) 0], [ShLin 0%nat 1 0; ShLin 1%nat 1 0; ShLin 2%nat (-1) 0], Some ISO2LR_e72);
  (7, 7, [ShLin 0%nat 1 1; ShLin 1%nat 1 (-1); ShLin 2%nat (-1) 0], [ShLin 0%nat 1 0; ShLin 1%nat 1 (-2); ShLin 2%nat (-1) 0], Some ISO2LR_e73);
  (7, 9, [ShLin 0%nat 1 1; ShLin 1%nat 1 (-1); ShLin 2%nat (-1) 0], [ShLin 0%nat 1 0; ShLin 1%nat 1 0; ShLin 2%nat (-1) 0], Some ISO2LR_e74);
  (8, 8, [ShLin 0%nat 1 (-1); ShLin 1%nat 1 1; ShLin 2%nat (-1) 0], [ShLin 0%nat 1 (-2); ShLin 1%nat 1 0; ShLin 2%nat (-1) 0], Some ISO2LR_e51);
  (8, 9, [ShLin 0%nat 1 (-1); ShLin 1%nat 1 1; ShLin 2%nat (-1) 0], [ShLin 0%nat 1 0; ShLin 1%nat 1 0; ShLin 2%nat (-1) 0], Some ISO2LR_e52);
  (9, 9, [ShLin 0%nat 1 1; ShLin 1%nat 1 1; ShLin 2%nat (-1) 0], [ShLin 0%nat 1 0; ShLin 1%nat 1 0; ShLin 2%nat (-1) 0], Some ISO2LR_e53);
  (10, 10, [ShLin 0%nat 1 (-1); ShLin 1%nat 1 (-1); ShLin 2%nat 1 0], [ShLin 0%nat 1 (-2); ShLin 1%nat 1 (-2); ShLin 2%nat 1 0], Some ISO2LR_e69);
  (10, 11, [ShLin 0%nat 1 (-1); ShLin 1%nat 1 (-1); ShLin 2%nat 1 0], [ShLin 0%nat 1 0; ShLin 1%nat 1 (-2); ShLin 2%nat 1 0], Some ISO2LR_e70);
  (10, 12, [ShLin 0%nat 1 (-1); ShLin 1%nat 1 (-1); ShLin 2%nat 1 0], [ShLin 0%nat 1 (-2); ShLin 1%nat 1 0; ShLin 2%nat 1 0], Some ISO2LR_e71);
  (10, 13, [ShLin 0%nat 1 (-1); ShLin 1%nat 1 (-1); ShLin 2%nat 1 0], [ShLin 0%nat 1 0; ShLin 1%nat 1 0; ShLin 2%nat 1 0], Some ISO2LR_e72);
  (11, 11, [ShLin 0%nat 1 1; ShLin 1%nat 1 (-1); ShLin 2%nat 1 0], [ShLin 0%nat 1 0; ShLin 1%nat 1 (-2); ShLin 2%nat 1 0], Some ISO2LR_e73);
  (11, 13, [ShLin 0%nat 1 1; ShLin 1%nat 1 (-1); ShLin 2%nat 1 0], [ShLin 0%nat 1 0; ShLin 1%nat 1 0; ShLin 2%nat 1 0], Some ISO2LR_e74);
  (12, 12, [ShLin 0%nat 1 (-1); ShLin 1%nat 1 1; ShLin 2%nat 1 0], [ShLin 0%nat 1 (-2); ShLin 1%nat 1 0; ShLin 2%nat 1 0], Some ISO2LR_e51);
  (12, 13, [ShLin 0%nat 1 (-1); ShLin 1%nat 1 1; ShLin 2%nat 1 0], [ShLin 0%nat 1 0; ShLin 1%nat 1 0; ShLin 2%nat 1 0], Some ISO2LR_e52);
  (13, 13, [ShLin 0%nat 1 1; ShLin 1%nat 1 1; ShLin 2%nat 1 0], [ShLin 0%nat 1 0; ShLin 1%nat 1 0; ShLin 2%nat 1 0], Some ISO2LR_e53);
  (14, 14, [ShLin 0%nat 1 (-2); ShLin 1%nat 1 0; ShLin 2%nat 1 0], [ShLin 0%nat 1 (-3); ShLin 1%nat 1 (-1); ShLin 2%nat 1 0], Some ISO2LR_e59);
  (14, 15, [ShLin 0%nat 1 (-2); ShLin 1%nat 1 0; ShLin 2%nat 1 0], [ShLin 0%nat 1 (-1); ShLin 1%nat 1 (-1); ShLin 2%nat 1 0], Some ISO2LR_e60);
  (15, 15, [ShLin 0%nat 1 0; ShLin 1%nat 1 0; ShLin 2%nat 1 0], [ShLin 0%nat 1 (-1); ShLin 1%nat 1 (-1); ShLin 2%nat 1 0], Some ISO2LR_e61);
  (15, 16, [ShLin 0%nat 1 0; ShLin 1%nat 1 0; ShLin 2%nat 1 0], [ShLin 0%nat 1 1; ShLin 1%nat 1 (-1); ShLin 2%nat 1 0], Some ISO2LR_e62);
  (16, 16, [ShLin 0%nat 1 2; ShLin 1%nat 1 0; ShLin 2%nat 1 0], [ShLin 0%nat 1 1; ShLin 1%nat 1 (-1); ShLin 2%nat 1 0], Some ISO2LR_e63)].
(** /repo/c++/symmetry/nrg-recalc-ISO2LR.hpp recalc_doublet, iso2lr/iso2lr-2ch-doubletpp.dat *)
Definition iso2lr_2ch_t18 : ten_table := mk_ten "doublet" [ShLin 0%nat 1 1; ShLin 1%nat 1 1; ShLin 2%nat 1 0] [2; 2; 1] [
  (1, 1, [ShLin 0%nat 1 0; ShLin 1%nat 1 0; ShLin 2%nat 1 0], [ShLin 0%nat 1 1; ShLin 1%nat 1 1; ShLin 2%nat 1 0], Some (cN 1));
  (2, 2, [ShLin 0%nat 1 0; ShLin 1%nat 1 0; ShLin 2%nat 1 0], [ShLin 0%nat 1 1; ShLin 1%nat 1 1; ShLin 2%nat 1 0], Some (cN 1));
  (3, 3, [ShLin 0%nat 1 0; ShLin 1%nat 1 (-2); ShLin 2%nat (-1) 0], [ShLin 0%nat 1 1; ShLin 1%nat 1 (-1); ShLin 2%nat (-1) 0], Some ISO2LR_e47);
  (4, 3, [ShLin 0%nat 1 0; ShLin 1%nat 1 0; ShLin 2%nat (-1) 0], [ShLin 0%nat 1 1; ShLin 1%nat 1 (-1); ShLin 2%nat (-1) 0], Some ISO2LR_e48);
  (4, 4, [ShLin 0%nat 1 0; ShLin 1%nat 1 0; ShLin 2%nat (-1) 0], [ShLin 0%nat 1 1; ShLin 1%nat 1 1; ShLin 2%nat (-1) 0], Some ISO2LR_e49);
  (5, 4, [ShLin 0%nat 1 0; ShLin 1%nat 1 2; ShLin 2%nat (-1) 0], [ShLin 0%nat 1 1; ShLin 1%nat 1 1; ShLin 2%nat (-1) 0], Some ISO2LR_e50);
  (5, 5, [ShLin 0%nat 1 0; ShLin 1%nat 1 2; ShLin 2%nat (-1) 0], [ShLin 0%nat 1 1; ShLin 1%nat 1 3; ShLin 2%nat (-1) 0], Some (cN 1));
  (6, 6, [ShLin 0%nat 1 (-1); ShLin 1%nat 1 (-1); ShLin 2%nat (-1) 0], [ShLin 0%nat 1 0; ShLin 1%nat 1 0; ShLin 2%nat (-1) 0], Some ISO2LR_e53);
  (7, 6, [ShLin 0%nat 1 1; ShLin 1%nat 1 (-1); ShLin 2%nat (-1) 0], [ShLin 0%nat 1 0; ShLin 1%nat 1 0; ShLin 2%nat (-1) 0], Some ISO2LR_e75);
  (7, 7, [ShLin 0%nat 1 1; ShLin 1%nat 1 (-1); ShLin 2%nat (-1) 0], [ShLin 0%nat 1 2; ShLin 1%nat 1 0; ShLin 2%nat (-1) 0], Some ISO2LR_e51);
  (8, 6, [ShLin 0%nat 1 (-1); ShLin 1%nat 1 1; ShLin 2%nat (-1) 0], [ShLin 0%nat 1 0; ShLin 1%nat 1 0; ShLin 2%nat (-1) 0], Some ISO2LR_e57);
  (8, 8, [ShLin 0%nat 1 (-1); ShLin 1%nat 1 1; ShLin 2%nat (-1) 0], [ShLin 0%nat 1 0; ShLin 1%nat 1 2; ShLin 2%nat (-1) 0], Some ISO2LR_e58);
  (9, 6, [ShLin 0%nat 1 1; ShLin 1%nat 1 1; ShLin 2%nat (-1) 0], [ShLin 0%nat 1 0; ShLin 1%nat 1 0; ShLin 2%nat (-1) 0], Some ISO2LR_e72);
  (9, 7, [ShLin 0%nat 1 1; ShLin 1%nat 1 1; ShLin 2%nat (-1) 0], [ShLin 0%nat 1 2; ShLin 1%nat 1 0; ShLin 2%nat (-1) 0], Some ISO2LR_e54);
  (9, 8, [ShLin 0%nat 1 1; ShLin 1%nat 1 1; ShLin 2%nat (-1) 0], [ShLin 0%nat 1 0; ShLin 1%nat 1 2; ShLin 2%nat (-1) 0], Some ISO2LR_e76);
  (9, 9, [ShLin 0%nat 1 1; ShLin 1%nat 1 1; ShLin 2%nat (-1) 0], [ShLin 0%nat 1 2; ShLin 1%nat 1 2; ShLin 2%nat (-1) 0], Some (cN (-1)));
  (10, 10, [ShLin 0%nat 1 (-1); ShLin 1%nat 1 (-1); ShLin 2%nat 1 0], [ShLin 0%nat 1 0; ShLin 1%nat 1 0; ShLin 2%nat 1 0], Some ISO2LR_e53);
  (11, 10, [ShLin 0%nat 1 1; ShLin 1%nat 1 (-1); ShLin 2%nat 1 0], [ShLin 0%nat 1 0; ShLin 1%nat 1 0; ShLin 2%nat 1 0], Some ISO2LR_e75);
  (11, 11, [ShLin 0%nat 1 1; ShLin 1%nat 1 (-1); ShLin 2%nat 1 0], [ShLin 0%nat 1 2; ShLin 1%nat 1 0; ShLin 2%nat 1 0], Some ISO2LR_e51);
  (12, 10, [ShLin 0%nat 1 (-1); ShLin 1%nat 1 1; ShLin 2%nat 1 0], [ShLin 0%nat 1 0; ShLin 1%nat 1 0; ShLin 2%nat 1 0], Some ISO2LR_e57);
  (12, 12, [ShLin 0%nat 1 (-1); ShLin 1%nat 1 1; ShLin 2%nat 1 0], [ShLin 0%nat 1 0; ShLin 1%nat 1 2; ShLin 2%nat 1 0], Some ISO2LR_e58);
  (13, 10, [ShLin 0%nat 1 1; ShLin 1%nat 1 1; ShLin 2%nat 1 0], [ShLin 0%nat 1 0; ShLin 1%nat 1 0; ShLin 2%nat 1 0], Some ISO2LR_e72);
  (13, 11, [ShLin 0%nat 1 1; ShLin 1%nat 1 1; ShLin 2%nat 1 0], [ShLin 0%nat 1 2; ShLin 1%nat 1 0; ShLin 2%nat 1 0], Some ISO2LR_e54);
  (13, 12, [ShLin 0%nat 1 1; ShLin 1%nat 1 1; ShLin 2%nat 1 0], [ShLin 0%nat 1 0; ShLin 1%nat 1 2; ShLin 2%nat 1 0], Some ISO2LR_e76);
  (13, 13, [ShLin 0%nat 1 1; ShLin 1%nat 1 1; ShLin 2%nat 1 0], [ShLin 0%nat 1 2; ShLin 1%nat 1 2; ShLin 2%nat 1 0], Some (cN (-1)));
  (14, 14, [ShLin 0%nat 1 (-2); ShLin 1%nat 1 0; ShLin 2%nat 1 0], [ShLin 0%nat 1 (-1); ShLin 1%nat 1 1; ShLin 2%nat 1 0], Some ISO2LR_e77);
  (15, 14, [ShLin 0%nat 1 0; ShLin 1%nat 1 0; ShLin 2%nat 1 0], [ShLin 0%nat 1 (-1); ShLin 1%nat 1 1; ShLin 2%nat 1 0], Some ISO2LR_e78);
  (15, 15, [ShLin 0%nat 1 0; ShLin 1%nat 1 0; ShLin 2%nat 1 0], [ShLin 0%nat 1 1; ShLin 1%nat 1 1; ShLin 2%nat 1 0], Some ISO2LR_e79);
  (16, 15, [ShLin 0%nat 1 2; ShLin 1%nat 1 0; ShLin 2%nat 1 0], [ShLin 0%nat 1 1; ShLin 1%nat 1 1; ShLin 2%nat 1 0], Some ISO2LR_e80);
  (16, 16, [ShLin 0%nat 1 2; ShLin 1%nat 1 0; ShLin 2%nat 1 0], [ShLin 0%nat 1 3; ShLin 1%nat 1 1; ShLin 2%nat 1 0], Some (cN 1))].
(** /repo/c++/symmetry/nrg-recalc-ISO2LR.hpp recalc_doublet, iso2lr/iso2lr-2ch-doubletpm.dat *)
Definition iso2lr_2ch_t19 : ten_table := mk_ten "doublet" [ShLin 0%nat 1 1; ShLin 1%nat 1 (-1); ShLin 2%nat 1 0] [2; 2; 1] [
  (1, 1, [ShLin 0%nat 1 0; ShLin 1%nat 1 0; ShLin 2%nat 1 0], [ShLin 0%nat 1 1; ShLin 1%nat 1 (-1); ShLin 2%nat 1 0], Some (cN 1));
  (2, 2, [ShLin 0%nat 1 0; ShLin 1%nat 1 0; ShLin 2%nat 1 0], [ShLin 0%nat 1 1; ShLin 1%nat 1 (-1); ShLin 2%nat 1 0], Some (cN 1));
  (3, 3, [ShLin 0%nat 1 0; ShLin 1%nat 1 (-2); ShLin 2%nat (-1) 0], [ShLin 0%nat 1 1; ShLin 1%nat 1 (-3); ShLin 2%nat (-1) 0], Some ISO2LR_e64);
  (3, 4, [ShLin 0%nat 1 0; ShLin 1%nat 1 (-2); ShLin 2%nat (-1) 0], [ShLin 0%nat 1 1; ShLin 1%nat 1 (-1); ShLin 2%nat (-1) 0], Some ISO2LR_e65);
  (4, 4, [ShLin 0%nat 1 0; ShLin 1%nat 1 0; ShLin 2%nat (-1) 0], [ShLin 0%nat 1 1; ShLin 1%nat 1 (-1); ShLin 2%nat (-1) 0], Some ISO2LR_e66);
  (4, 5, [ShLin 0%nat 1 0; ShLin 1%nat 1 0; ShLin 2%nat (-1) 0], [ShLin 0%nat 1 1; ShLin 1%nat 1 1; ShLin 2%nat (-1) 0], Some ISO2LR_e67);
  (5, 5, [ShLin 0%nat 1 0; ShLin 1%nat 1 2; ShLin 2%nat (-1) 0], [ShLin 0%nat 1 1; ShLin 1%nat 1 1; ShLin 2%nat (-1) 0], Some ISO2LR_e68);
  (6, 6, [ShLin 0%nat 1 (-1); ShLin 1%nat 1 (-1); ShLin 2%nat (-1) 0], [ShLin 0%nat 1 0; ShLin 1%nat 1 (-2); ShLin 2%nat (-1) 0], Some ISO2LR_e81);
  (6, 8, [ShLin 0%nat 1 (-1); ShLin 1%nat 1 (-1); ShLin 2%nat (-1) 0], [ShLin 0%nat 1 0; ShLin 1%nat 1 0; ShLin 2%nat (-1) 0], Some ISO2LR_e74);
  (7, 6, [ShLin 0%nat 1 1; ShLin 1%nat 1 (-1); ShLin 2%nat (-1) 0], [ShLin 0%nat 1 0; ShLin 1%nat 1 (-2); ShLin 2%nat (-1) 0], Some ISO2LR_e82);
  (7, 7, [ShLin 0%nat 1 1; ShLin 1%nat 1 (-1); ShLin 2%nat (-1) 0], [ShLin 0%nat 1 2; ShLin 1%nat 1 (-2); ShLin 2%nat (-1) 0], Some ISO2LR_e83);
  (7, 8, [ShLin 0%nat 1 1; ShLin 1%nat 1 (-1); ShLin 2%nat (-1) 0], [ShLin 0%nat 1 0; ShLin 1%nat 1 0; ShLin 2%nat (-1) 0], Some ISO2LR_e55);
  (7, 9, [ShLin 0%nat 1 1; ShLin 1%nat 1 (-1); ShLin 2%nat (-1) 0], [ShLin 0%nat 1 2; ShLin 1%nat 1 0; ShLin 2%nat (-1) 0], Some ISO2LR_e71);
  (8, 8, [ShLin 0%nat 1 (-1); ShLin 1%nat 1 1; ShLin 2%nat (-1) 0], [ShLin 0%nat 1 0; ShLin 1%nat 1 0; ShLin 2%nat (-1) 0], Some ISO2LR_e53);
  (9, 8, [ShLin 0%nat 1 1; ShLin 1%nat 1 1; ShLin 2%nat (-1) 0], [ShLin 0%nat 1 0; ShLin 1%nat 1 0; ShLin 2%nat (-1) 0], Some ISO2LR_e75);
  (9, 9, [ShLin 0%nat 1 1; ShLin 1%nat 1 1; ShLin 2%nat (-1) 0], [ShLin 0%nat 1 2; ShLin 1%nat 1 0; ShLin 2%nat (-1) 0], Some ISO2LR_e51);
  (10, 10, [ShLin 0%nat 1 (-1); ShLin 1%nat 1 (-1); ShLin 2%nat 1 0], [ShLin 0%nat 1 0; ShLin 1%nat 1 (-2); ShLin 2%nat 1 0], Some ISO2LR_e81);
  (10, 12, [ShLin 0%nat 1 (-1); ShLin 1%nat 1 (-1); ShLin 2%nat 1 0], [ShLin 0%nat 1 0; ShLin 1%nat 1 0; ShLin 2%nat 1 0], Some ISO2LR_e74);
  (11, 10, [ShLin 0%nat 1 1; ShLin 1%nat 1 (-1); ShLin 2%nat 1 0], [ShLin 0%nat 1 0; ShLin 1%nat 1 (-2); ShLin 2%nat 1 0], Some ISO2LR_e82);
  (11, 11, [ShLin 0%nat 1 1; ShLin 1%nat 1 (-1); ShLin 2%nat 1 0], [ShLin 0%nat 1 2; ShLin 1%nat 1 (-2); ShLin 2%nat 1 0], Some ISO2LR_e83);
  (11, 12, [ShLin 0%nat 1 1; ShLin 1%nat 1 (-1); ShLin 2%nat 1 0], [ShLin 0%nat 1 0; ShLin 1%nat 1 0; ShLin 2%nat 1 0], Some ISO2LR_e55);
  (11, 13, [ShLin 0%nat 1 1; ShLin 1%nat 1 (-1); ShLin 2%nat 1 0], [ShLin 0%nat 1 2; ShLin 1%nat 1 0; ShLin 2%nat 1 0], Some ISO2LR_e71);
  (12, 12, [ShLin 0%nat 1 (-1); ShLin 1%nat 1 1; ShLin 2%nat 1 0], [ShLin 0%nat 1 0; ShLin 1%nat 1 0; ShLin 2%nat 1 0], Some ISO2LR_e53);
  (13, 12, [ShLin 0%nat 1 1; ShLin 1%nat 1 1; ShLin 2%nat 1 0], [ShLin 0%nat 1 0; ShLin 1%nat 1 0; ShLin 2%nat 1 0], Some ISO2LR_e75);
  (13, 13, [ShLin 0%nat 1 1; ShLin 1%nat 1 1; ShLin 2%nat 1 0], [ShLin 0%nat 1 2; ShLin 1%nat 1 0; ShLin 2%nat 1 0], Some ISO2LR_e51);
  (14, 14, [ShLin 0%nat 1 (-2); ShLin 1%nat 1 0; ShLin 2%nat 1 0], [ShLin 0%nat 1 (-1); ShLin 1%nat 1 (-1); ShLin 2%nat 1 0], Some ISO2LR_e77);
  (15, 14, [ShLin 0%nat 1 0; ShLin 1%nat 1 0; ShLin 2%nat 1 0], [ShLin 0%nat 1 (-1); ShLin 1%nat 1 (-1); ShLin 2%nat 1 0], Some ISO2LR_e78);
  (15, 15, [ShLin 0%nat 1 0; ShLin 1%nat 1 0; ShLin 2%nat 1 0], [ShLin 0%nat 1 1; ShLin 1%nat 1 (-1); ShLin 2%nat 1 0], Some ISO2LR_e79);
  (16, 15, [ShLin 0%nat 1 2; ShLin 1%nat 1 0; ShLin 2%nat 1 0], [ShLin 0%nat 1 1; ShLin 1%nat 1 (-1); ShLin 2%nat 1 0], Some ISO2LR_e80);
  (16, 16, [ShLin 0%nat 1 2; ShLin 1%nat 1 0; ShLin 2%nat 1 0], [ShLin 0%nat 1 3; ShLin 1%nat 1 (-1); ShLin 2%nat 1 0], Some (cN 1))].
(** /repo/c++/symmetry/nrg-recalc-ISO2LR.hpp recalc_triplet, iso2lr/iso2lr-2ch-triplets.dat *)
Definition iso2lr_2ch_t20 : ten_table := mk_ten "triplet" [ShLin 0%nat 1 0; ShLin 1%nat 1 0; ShLin 2%nat 1 0] [1; 3; 1] [
  (1, 1, [ShLin 0%nat 1 0; ShLin 1%nat 1 0; ShLin 2%nat 1 0], [ShLin 0%nat 1 0; ShLin 1%nat 1 0; ShLin 2%nat 1 0], Some (cN 1));
  (2, 2, [ShLin 0%nat 1 0; ShLin 1%nat 1 0; ShLin 2%nat 1 0], [ShLin 0%nat 1 0; ShLin 1%nat 1 0; ShLin 2%nat 1 0], Some (cN 1));
  (3, 3, [ShLin 0%nat 1 0; ShLin 1%nat 1 (-2); ShLin 2%nat (-1) 0], [ShLin 0%nat 1 0; ShLin 1%nat 1 (-2); ShLin 2%nat (-1) 0], Some ISO2LR_e84);
  (3, 4, [ShLin 0%nat 1 0; ShLin 1%nat 1 (-2); ShLin 2%nat (-1) 0], [ShLin 0%nat 1 0; ShLin 1%nat 1 0; ShLin 2%nat (-1) 0], Some ISO2LR_e85);
  (4, 3, [ShLin 0%nat 1 0; ShLin 1%nat 1 0; ShLin 2%nat (-1) 0], [ShLin 0%nat 1 0; ShLin 1%nat 1 (-2); ShLin 2%nat (-1) 0], Some (cO (cD (cN 1) (cH 1))));
  (4, 4, [ShLin 0%nat 1 0; ShLin 1%nat 1 0; ShLin 2%nat (-1) 0], [ShLin 0%nat 1 0; ShLin 1%nat 1 0; ShLin 2%nat (-1) 0], Some ISO2LR_e86);
  (4, 5, [ShLin 0%nat 1 0; ShLin 1%nat 1 0; ShLin 2%nat (-1) 0], [ShLin 0%nat 1 0; ShLin 1%nat 1 2; ShLin 2%nat (-1) 0], Some ISO2LR_e87);
  (5, 4, [ShLin 0%nat 1 0; ShLin 1%nat 1 2; ShLin 2%nat (-1) 0], [ShLin 0%nat 1 0; ShLin 1%nat 1 0; ShLin 2%nat (-1) 0], Some ISO2LR_e88);
  (5, 5, [ShLin 0%nat 1 0; ShLin 1%nat 1 2; ShLin 2%nat (-1) 0], [ShLin 0%nat 1 0; ShLin 1%nat 1 2; ShLin 2%nat (-1) 0], Some ISO2LR_e89);
  (6, 6, [ShLin 0%nat 1 (-1); ShLin 1%nat 1 (-1); ShLin 2%nat (-1) 0], [ShLin 0%nat 1 (-1); ShLin 1%nat 1 (-1); ShLin 2%nat (-1) 0], Some ISO2LR_e90);
  (6, 8, [ShLin 0%nat 1 (-1); ShLin 1%nat 1 (-1); ShLin 2%nat (-1) 0], [ShLin 0%nat 1 (-1); ShLin 1%nat 1 1; ShLin 2%nat (-1) 0], Some ISO2LR_e67);
  (7, 7, [ShLin 0%nat 1 1; ShLin 1%nat 1 (-1); ShLin 2%nat (-1) 0], [ShLin 0%nat 1 1; ShLin 1%nat 1 (-1); ShLin 2%nat (-1) 0], Some ISO2LR_e90);
  (7, 9, [ShLin 0%nat 1 1; ShLin 1%nat 1 (-1); ShLin 2%nat (-1) 0], [ShLin 0%nat 1 1; ShLin 1%nat 1 1; ShLin 2%nat (-1) 0], Some ISO2LR_e67);
  (8, 6, [ShLin 0%nat 1 (-1); ShLin 1%nat 1 1; ShLin 2%nat (-1) 0], [ShLin 0%nat 1 (-1); ShLin 1%nat 1 (-1); ShLin 2%nat (-1) 0], Some ISO2LR_e48);
  (8, 8, [ShLin 0%nat 1 (-1); ShLin 1%nat 1 1; ShLin 2%nat (-1) 0], [ShLin 0%nat 1 (-1); ShLin 1%nat 1 1; ShLin 2%nat (-1) 0], Some ISO2LR_e91);
  (9, 7, [ShLin 0%nat 1 1; ShLin 1%nat 1 1; ShLin 2%nat (-1) 0], [ShLin 0%nat 1 1; ShLin 1%nat 1 (-1); ShLin 2%nat (-1) 0], Some ISO2LR_e48);
  (9, 9, [ShLin 0%nat 1 1; ShLin 1%nat 1 1; ShLin 2%nat (-1) 0], [ShLin 0%nat 1 1; ShLin 1%nat 1 1; ShLin 2%nat (-1) 0], Some ISO2LR_e91);
  (10, 10, [ShLin 0%nat 1 (-1); ShLin 1%nat 1 (-1); ShLin 2%nat 1 0], [ShLin 0%nat 1 (-1); ShLin 1%nat 1 (-1); ShLin 2%nat 1 0], Some ISO2LR_e90);
  (10, 12, [ShLin 0%nat 1 (-1); ShLin 1%nat 1 (-1); ShLin 2%nat 1 0], [ShLin 0%nat 1 (-1); ShLin 1%nat 1 1; ShLin 2%nat 1 0], Some ISO2LR_e67);
  (11, 11, [ShLin 0%nat 1 1; ShLin 1%nat 1 (-1); ShLin 2%nat 1 0], [ShLin 0%nat 1 1; ShLin 1%nat 1 (-1); ShLin 2%nat 1 0], Some ISO2LR_e90);
  (11, 13, [ShLin 0%nat 1 1; ShLin 1%nat 1 (-1); ShLin 2%nat 1 0], [ShLin 0%nat 1 1; ShLin 1%nat 1 1; ShLin 2%nat 1 0], Some ISO2LR_e67);
  (12, 10, [ShLin 0%nat 1 (-1); ShLin 1%nat 1 1; ShLin 2%nat 1 0], [ShLin 0%nat 1 (-1); ShLin 1%nat 1 (-1); ShLin 2%nat 1 0], Some ISO2LR_e48);
  (12, 12, [ShLin 0%nat 1 (-1); ShLin 1%nat 1 1; ShLin 2%nat 1 0], [ShLin 0%nat 1 (-1); ShLin 1%nat 1 1; ShLin 2%nat 1 0], Some ISO2LR_e91);
  (13, 11, [ShLin 0%nat 1 1; ShLin 1%nat 1 1; ShLin 2%nat 1 0], [ShLin 0%nat 1 1; ShLin 1%nat 1 (-1); ShLin 2%nat 1 0], Some ISO2LR_e48);
  (13, 13, [ShLin 0%nat 1 1; ShLin 1%nat 1 1; ShLin 2%nat 1 0], [ShLin 0%nat 1 1; ShLin 1%nat 1 1; ShLin 2%nat 1 0], Some ISO2LR_e91);
  (14, 14, [ShLin 0%nat 1 (-2); ShLin 1%nat 1 0; ShLin 2%nat 1 0], [ShLin 0%nat 1 (-2); ShLin 1%nat 1 0; ShLin 2%nat 1 0], Some ISO2LR_e59);
  (15, 15, [ShLin 0%nat 1 0; ShLin 1%nat 1 0; ShLin 2%nat 1 0], [ShLin 0%nat 1 0; ShLin 1%nat 1 0; ShLin 2%nat 1 0], Some (cN 1));
  (16, 16, [ShLin 0%nat 1 2; ShLin 1%nat 1 0; ShLin 2%nat 1 0], [ShLin 0%nat 1 2; ShLin 1%nat 1 0; ShLin 2%nat 1 0], Some (cN 1))].
(** /repo/c++/symmetry/nrg-recalc-ISO2LR.hpp recalc_triplet, iso2lr/iso2lr-2ch-tripletp.dat *)
Definition iso2lr_2ch_t21 : ten_table := mk_ten "triplet" [ShLin 0%nat 1 0; ShLin 1%nat 1 2; ShLin 2%nat 1 0] [1; 3; 1] [
  (1, 1, [ShLin 0%nat 1 0; ShLin 1%nat 1 0; ShLin 2%nat 1 0], [ShLin 0%nat 1 0; ShLin 1%nat 1 2; ShLin 2%nat 1 0], Some (cN 1));
  (2, 2, [ShLin 0%nat 1 0; ShLin 1%nat 1 0; ShLin 2%nat 1 0], [ShLin 0%nat 1 0; ShLin 1%nat 1 2; ShLin 2%nat 1 0], Some (cN 1));
  (3, 3, [ShLin 0%nat 1 0; ShLin 1%nat 1 (-2); ShLin 2%nat (-1) 0], [ShLin 0%nat 1 0; ShLin 1%nat 1 0; ShLin 2%nat (-1) 0], Some ISO2LR_e92);
  (4, 3, [ShLin 0%nat 1 0; ShLin 1%nat 1 0; ShLin 2%nat (-1) 0], [ShLin 0%nat 1 0; ShLin 1%nat 1 0; ShLin 2%nat (-1) 0], Some ISO2LR_e93);
  (4, 4, [ShLin 0%nat 1 0; ShLin 1%nat 1 0; ShLin 2%nat (-1) 0], [ShLin 0%nat 1 0; ShLin 1%nat 1 2; ShLin 2%nat (-1) 0], Some ISO2LR_e89);
  (5, 3, [ShLin 0%nat 1 0; ShLin 1%nat 1 2; ShLin 2%nat (-1) 0], [ShLin 0%nat 1 0; ShLin 1%nat 1 0; ShLin 2%nat (-1) 0], Some ISO2LR_e94);
  (5, 4, [ShLin 0%nat 1 0; ShLin 1%nat 1 2; ShLin 2%nat (-1) 0], [ShLin 0%nat 1 0; ShLin 1%nat 1 2; ShLin 2%nat (-1) 0], Some ISO2LR_e95);
  (5, 5, [ShLin 0%nat 1 0; ShLin 1%nat 1 2; ShLin 2%nat (-1) 0], [ShLin 0%nat 1 0; ShLin 1%nat 1 4; ShLin 2%nat (-1) 0], Some (cN 1));
  (6, 6, [ShLin 0%nat 1 (-1); ShLin 1%nat 1 (-1); ShLin 2%nat (-1) 0], [ShLin 0%nat 1 (-1); ShLin 1%nat 1 1; ShLin 2%nat (-1) 0], Some ISO2LR_e96);
  (7, 7, [ShLin 0%nat 1 1; ShLin 1%nat 1 (-1); ShLin 2%nat (-1) 0], [ShLin 0%nat 1 1; ShLin 1%nat 1 1; ShLin 2%nat (-1) 0], Some ISO2LR_e96);
  (8, 6, [ShLin 0%nat 1 (-1); ShLin 1%nat 1 1; ShLin 2%nat (-1) 0], [ShLin 0%nat 1 (-1); ShLin 1%nat 1 1; ShLin 2%nat (-1) 0], Some ISO2LR_e50);
  (8, 8, [ShLin 0%nat 1 (-1); ShLin 1%nat 1 1; ShLin 2%nat (-1) 0], [ShLin 0%nat 1 (-1); ShLin 1%nat 1 3; ShLin 2%nat (-1) 0], Some (cN 1));
  (9, 7, [ShLin 0%nat 1 1; ShLin 1%nat 1 1; ShLin 2%nat (-1) 0], [ShLin 0%nat 1 1; ShLin 1%nat 1 1; ShLin 2%nat (-1) 0], Some ISO2LR_e50);
  (9, 9, [ShLin 0%nat 1 1; ShLin 1%nat 1 1; ShLin 2%nat (-1) 0], [ShLin 0%nat 1 1; ShLin 1%nat 1 3; ShLin 2%nat (-1) 0], Some (cN 1));
  (10, 10, [ShLin 0%nat 1 (-1); ShLin 1%nat 1 (-1); ShLin 2%nat 1 0], [ShLin 0%nat 1 (-1); ShLin 1%nat 1 1; ShLin 2%nat 1 0], Some ISO2LR_e96);
  (11, 11, [ShLin 0%nat 1 1; ShLin 1%nat 1 (-1); ShLin 2%nat 1 0], [ShLin 0%nat 1 1; ShLin 1%nat 1 1; ShLin 2%nat 1 0], Some ISO2LR_e96);
  (12, 10, [ShLin 0%nat 1 (-1); ShLin 1%nat 1 1; ShLin 2%nat 1 0], [ShLin 0%nat 1 (-1); ShLin 1%nat 1 1; ShLin 2%nat 1 0], Some ISO2LR_e50);
  (12, 12, [ShLin 0%nat 1 (-1); ShLin 1%nat 1 1; ShLin 2%nat 1 0], [ShLin 0%nat 1 (-1); ShLin 1%nat 1 3; ShLin 2%nat 1 0], Some (cN 1));
  (13, 11, [ShLin 0%nat 1 1; ShLin 1%nat 1 1; ShLin 2%nat 1 0], [ShLin 0%nat 1 1; ShLin 1%nat 1 1; ShLin 2%nat 1 0], Some ISO2LR_e50);
  (13, 13, [ShLin 0%nat 1 1; ShLin 1%nat 1 1; ShLin 2%nat 1 0], [ShLin 0%nat 1 1; ShLin 1%nat 1 3; ShLin 2%nat 1 0], Some (cN 1));
  (14, 14, [ShLin 0%nat 1 (-2); ShLin 1%nat 1 0; ShLin 2%nat 1 0], [ShLin 0%nat 1 (-2); ShLin 1%nat 1 2; ShLin 2%nat 1 0], Some ISO2LR_e59);
  (15, 15, [ShLin 0%nat 1 0; ShLin 1%nat 1 0; ShLin 2%nat 1 0], [ShLin 0%nat 1 0; ShLin 1%nat 1 2; ShLin 2%nat 1 0], Some (cN 1));
  (16, 16, [ShLin 0%nat 1 2; ShLin 1%nat 1 0; ShLin 2%nat 1 0], [ShLin 0%nat 1 2; ShLin 1%nat 1 2; ShLin 2%nat 1 0], Some (cN 1))].
(** /repo/c++/symmetry/nrg-recalc-ISO2LR.hpp recalc_triplet, iso2lr/iso2lr-2ch-tripletm.dat *)
Definition iso2lr_2ch_t22 : ten_table := mk_ten "triplet" [ShLin 0%nat 1 0; ShLin 1%nat 1 (-2); ShLin 2%nat 1 0] [1; 3; 1] [
  (1, 1, [ShLin 0%nat 1 0; ShLin 1%nat 1 0; ShLin 2%nat 1 0], [ShLin 0%nat 1 0; ShLin 1%nat 1 (-2); ShLin 2%nat 1 0], Some (cN 1));
  (2, 2, [ShLin 0%nat 1 0; ShLin 1%nat 1 0; ShLin 2%nat 1 0], [ShLin 0%nat 1 0; ShLin 1%nat 1 (-2); ShLin 2%nat 1 0], Some (cN 1));
  (3, 3, [ShLin 0%nat 1 0; ShLin 1%nat 1 (-2); ShLin 2%nat (-1) 0], [ShLin 0%nat 1 0; ShLin 1%nat 1 (-4); ShLin 2%nat (-1) 0], Some ISO2LR_e64);
  (3, 4, [ShLin 0%nat 1 0; ShLin 1%nat 1 (-2); ShLin 2%nat (-1) 0], [ShLin 0%nat 1 0; ShLin 1%nat 1 (-2); ShLin 2%nat (-1) 0], Some ISO2LR_e97);
  (3, 5, [ShLin 0%nat 1 0; ShLin 1%nat 1 (-2); ShLin 2%nat (-1) 0], [ShLin 0%nat 1 0; ShLin 1%nat 1 0; ShLin 2%nat (-1) 0], Some ISO2LR_e98);
  (4, 4, [ShLin 0%nat 1 0; ShLin 1%nat 1 0; ShLin 2%nat (-1) 0], [ShLin 0%nat 1 0; ShLin 1%nat 1 (-2); ShLin 2%nat (-1) 0], Some ISO2LR_e99);
  (4, 5, [ShLin 0%nat 1 0; ShLin 1%nat 1 0; ShLin 2%nat (-1) 0], [ShLin 0%nat 1 0; ShLin 1%nat 1 0; ShLin 2%nat (-1) 0], Some ISO2LR_e100);
  (5, 5, [ShLin 0%nat 1 0; ShLin 1%nat 1 2; ShLin 2%nat (-1) 0], [ShLin 0%nat 1 0; ShLin 1%nat 1 0; ShLin 2%nat (-1) 0], Some ISO2LR_e101);
  (6, 6, [ShLin 0%nat 1 (-1); ShLin 1%nat 1 (-1); ShLin 2%nat (-1) 0], [ShLin 0%nat 1 (-1); ShLin 1%nat 1 (-3); ShLin 2%nat (-1) 0], Some ISO2LR_e102);
  (6, 8, [ShLin 0%nat 1 (-1); ShLin 1%nat 1 (-1); ShLin 2%nat (-1) 0], [ShLin 0%nat 1 (-1); ShLin 1%nat 1 (-1); ShLin 2%nat (-1) 0], Some ISO2LR_e65);
  (7, 7, [ShLin 0%nat 1 1; ShLin 1%nat 1 (-1); ShLin 2%nat (-1) 0], [ShLin 0%nat 1 1; ShLin 1%nat 1 (-3); ShLin 2%nat (-1) 0], Some ISO2LR_e102);
  (7, 9, [ShLin 0%nat 1 1; ShLin 1%nat 1 (-1); ShLin 2%nat (-1) 0], [ShLin 0%nat 1 1; ShLin 1%nat 1 (-1); ShLin 2%nat (-1) 0], Some ISO2LR_e103);
  (8, 8, [ShLin 0%nat 1 (-1); ShLin 1%nat 1 1; ShLin 2%nat (-1) 0], [ShLin 0%nat 1 (-1); ShLin 1%nat 1 (-1); ShLin 2%nat (-1) 0], Some ISO2LR_e104);
  (9, 9, [ShLin 0%nat 1 1; ShLin 1%nat 1 1; ShLin 2%nat (-1) 0], [ShLin 0%nat 1 1; ShLin 1%nat 1 (-1); ShLin 2%nat (-1) 0], Some ISO2LR_e105);
  (10, 10, [ShLin 0%nat 1 (-1); ShLin 1%nat 1 (-1); ShLin 2%nat 1 0], [ShLin 0%nat 1 (-1); ShLin 1%nat 1 (-3); ShLin 2%nat 1 0], Some ISO2LR_e102);
  (10, 12, [ShLin 0%nat 1 (-1); ShLin 1%nat 1 (-1); ShLin 2%nat 1 0], [ShLin 0%nat 1 (-1); ShLin 1%nat 1 (-1); ShLin 2%nat 1 0], Some ISO2LR_e65);
  (11, 11, [ShLin 0%nat 1 1; ShLin 1%nat 1 (-1); ShLin 2%nat 1 0], [ShLin 0%nat 1 1; ShLin 1%nat 1 (-3); ShLin 2%nat 1 0], Some ISO2LR_e102);
  (11, 13, [ShLin 0%nat 1 1; ShLin 1%nat 1 (-1); ShLin 2%nat 1 0], [ShLin 0%nat 1 1; ShLin 1%nat 1 (-1); ShLin 2%nat 1 0], Some ISO2LR_e103);
  (12, 12, [ShLin 0%nat 1 (-1); ShLin 1%nat 1 1; ShLin 2%nat 1 0], [ShLin 0%nat 1 (-1); ShLin 1%nat 1 (-1); ShLin 2%nat 1 0], Some ISO2LR_e104);
  (13, 13, [ShLin 0%nat 1 1; ShLin 1%nat 1 1; ShLin 2%nat 1 0], [ShLin 0%nat 1 1; ShLin 1%nat 1 (-1); ShLin 2%nat 1 0], Some ISO2LR_e105);
  (14, 14, [ShLin 0%nat 1 (-2); ShLin 1%nat 1 0; ShLin 2%nat 1 0], [ShLin 0%nat 1 (-2); ShLin 1%nat 1 (-2); ShLin 2%nat 1 0], Some ISO2LR_e59);
  (15, 15, [ShLin 0%nat 1 0; ShLin 1%nat 1 0; ShLin 2%nat 1 0], [ShLin 0%nat 1 0; ShLin 1%nat 1 (-2); ShLin 2%nat 1 0], Some (cN 1));
  (16, 16, [ShLin 0%nat 1 2; ShLin 1%nat 1 0; ShLin 2%nat 1 0], [ShLin 0%nat 1 2; ShLin 1%nat 1 (-2); ShLin 2%nat 1 0], Some (cN 1))].
(** /repo/c++/symmetry/sym-ISOLR-impl.hpp, make_matrix  *)
Definition iso2lr_2ch_m0_o : list off_line := [
  (1, 6, 0, 0, "xi", Some (cQ 1 2));
  (1, 7, 0, 0, "xi", Some (cQ 1 2));
  (1, 8, 0, 0, "xi", Some (cQ 1 2));
  (1, 9, 0, 0, "xi", Some (cQ 1 2));
  (1, 10, 0, 0, "xi", Some (cQ 1 2));
  (1, 11, 0, 0, "xi", Some (cQ 1 2));
  (1, 12, 0, 0, "xi", Some (cQ 1 2));
  (1, 13, 0, 0, "xi", Some (cQ 1 2));
  (2, 6, 0, 0, "xi", Some (cQ 1 2));
  (2, 7, 0, 0, "xi", Some (cQ 1 2));
  (2, 8, 0, 0, "xi", Some (cQ 1 2));
  (2, 9, 0, 0, "xi", Some (cQ 1 2));
  (2, 10, 0, 0, "xi", Some (cQ (-1) 2));
  (2, 11, 0, 0, "xi", Some (cQ (-1) 2));
  (2, 12, 0, 0, "xi", Some (cQ (-1) 2));
  (2, 13, 0, 0, "xi", Some (cQ (-1) 2));
  (3, 6, 0, 0, "xi", Some ISO2LR_e106);
  (3, 7, 0, 0, "xi", Some ISO2LR_e106);
  (3, 10, 0, 0, "xi", Some ISO2LR_e107);
  (3, 11, 0, 0, "xi", Some ISO2LR_e107);
  (4, 6, 0, 0, "xi", Some ISO2LR_e41);
  (4, 7, 0, 0, "xi", Some ISO2LR_e41);
  (4, 8, 0, 0, "xi", Some ISO2LR_e108);
  (4, 9, 0, 0, "xi", Some ISO2LR_e109);
  (4, 10, 0, 0, "xi", Some ISO2LR_e15);
  (4, 11, 0, 0, "xi", Some ISO2LR_e15);
  (4, 12, 0, 0, "xi", Some ISO2LR_e110);
  (4, 13, 0, 0, "xi", Some ISO2LR_e111);
  (5, 8, 0, 0, "xi", Some ISO2LR_e112);
  (5, 9, 0, 0, "xi", Some ISO2LR_e112);
  (5, 12, 0, 0, "xi", Some ISO2LR_e113);
  (5, 13, 0, 0, "xi", Some ISO2LR_e113);
  (6, 14, 0, 0, "xi", Some ISO2LR_e114);
  (6, 15, 0, 0, "xi", Some ISO2LR_e115);
  (7, 15, 0, 0, "xi", Some ISO2LR_e116);
  (7, 16, 0, 0, "xi", Some ISO2LR_e117);
  (8, 14, 0, 0, "xi", Some ISO2LR_e118);
  (8, 15, 0, 0, "xi", Some ISO2LR_e119);
  (9, 15, 0, 0, "xi", Some ISO2LR_e120);
  (9, 16, 0, 0, "xi", Some ISO2LR_e118);
  (10, 14, 0, 0, "xi", Some ISO2LR_e114);
  (10, 15, 0, 0, "xi", Some ISO2LR_e115);
  (11, 15, 0, 0, "xi", Some ISO2LR_e116);
  (11, 16, 0, 0, "xi", Some ISO2LR_e117);
  (12, 14, 0, 0, "xi", Some ISO2LR_e118);
  (12, 15, 0, 0, "xi", Some ISO2LR_e119);
  (13, 15, 0, 0, "xi", Some ISO2LR_e120);
  (13, 16, 0, 0, "xi", Some ISO2LR_e118);
  (1, 6, 1, 0, "xi", Some (cQ (-1) 2));
  (1, 7, 1, 0, "xi", Some (cQ (-1) 2));
  (1, 8, 1, 0, "xi", Some (cQ (-1) 2));
  (1, 9, 1, 0, "xi", Some (cQ (-1) 2));
  (1, 10, 1, 0, "xi", Some (cQ 1 2));
  (1, 11, 1, 0, "xi", Some (cQ 1 2));
  (1, 12, 1, 0, "xi", Some (cQ 1 2));
  (1, 13, 1, 0, "xi", Some (cQ 1 2));
  (2, 6, 1, 0, "xi", Some (cQ (-1) 2));
  (2, 7, 1, 0, "xi", Some (cQ (-1) 2));
  (2, 8, 1, 0, "xi", Some (cQ (-1) 2));
  (2, 9, 1, 0, "xi", Some (cQ (-1) 2));
  (2, 10, 1, 0, "xi", Some (cQ (-1) 2));
  (2, 11, 1, 0, "xi", Some (cQ (-1) 2));
  (2, 12, 1, 0, "xi", Some (cQ (-1) 2));
  (2, 13, 1, 0, "xi", Some (cQ (-1) 2));
  (3, 6, 1, 0, "xi", Some ISO2LR_e106);
  (3, 7, 1, 0, "xi", Some ISO2LR_e106);
  (3, 10, 1, 0, "xi", Some ISO2LR_e106);
  (3, 11, 1, 0, "xi", Some ISO2LR_e106);
  (4, 6, 1, 0, "xi", Some ISO2LR_e41);
  (4, 7, 1, 0, "xi", Some ISO2LR_e41);
  (4, 8, 1, 0, "xi", Some ISO2LR_e108);
  (4, 9, 1, 0, "xi", Some ISO2LR_e109);
  (4, 10, 1, 0, "xi", Some ISO2LR_e41);
  (4, 11, 1, 0, "xi", Some ISO2LR_e41);
  (4, 12, 1, 0, "xi", Some ISO2LR_e108);
  (4, 13, 1, 0, "xi", Some ISO2LR_e109);
  (5, 8, 1, 0, "xi", Some ISO2LR_e112);
  (5, 9, 1, 0, "xi", Some ISO2LR_e112);
  (5, 12, 1, 0, "xi", Some ISO2LR_e112);
  (5, 13, 1, 0, "xi", Some ISO2LR_e112);
  (6, 14, 1, 0, "xi", Some ISO2LR_e121);
  (6, 15, 1, 0, "xi", Some ISO2LR_e122);
  (7, 15, 1, 0, "xi", Some ISO2LR_e123);
  (7, 16, 1, 0, "xi", Some ISO2LR_e121);
  (8, 14, 1, 0, "xi", Some ISO2LR_e124);
  (8, 15, 1, 0, "xi", Some ISO2LR_e125);
  (9, 15, 1, 0, "xi", Some ISO2LR_e126);
  (9, 16, 1, 0, "xi", Some ISO2LR_e124);
  (10, 14, 1, 0, "xi", Some ISO2LR_e114);
  (10, 15, 1, 0, "xi", Some ISO2LR_e115);
  (11, 15, 1, 0, "xi", Some ISO2LR_e116);
  (11, 16, 1, 0, "xi", Some ISO2LR_e117);
  (12, 14, 1, 0, "xi", Some ISO2LR_e118);
  (12, 15, 1, 0, "xi", Some ISO2LR_e119);
  (13, 15, 1, 0, "xi", Some ISO2LR_e120);
  (13, 16, 1, 0, "xi", Some ISO2LR_e118)].
(** /repo/c++/symmetry/sym-ISOLR-impl.hpp, make_matrix  *)
Definition iso2lr_2ch_m0_d : list diag_line := [
  ].
(** /repo/c++/symmetry/sym-ISOLR-impl.hpp, make_matrix  *)
Definition iso2lr_2ch_m0_f : list dof_line := [
  ].
Definition coef_iso2lr_2ch : coef_set := mk_coef "ISO2LR" 2%nat sym_ISO2LR {| tb_In := iso2lr_2ch_In; tb_QN := iso2lr_2ch_QN |}
  [iso2lr_2ch_t0; iso2lr_2ch_t1; iso2lr_2ch_t2; iso2lr_2ch_t3; iso2lr_2ch_t4; iso2lr_2ch_t5; iso2lr_2ch_t6; iso2lr_2ch_t7; iso2lr_2ch_t8; iso2lr_2ch_t9; iso2lr_2ch_t10; iso2lr_2ch_t11; iso2lr_2ch_t12; iso2lr_2ch_t13; iso2lr_2ch_t14; iso2lr_2ch_t15]
  [iso2lr_2ch_t16; iso2lr_2ch_t17; iso2lr_2ch_t18; iso2lr_2ch_t19; iso2lr_2ch_t20; iso2lr_2ch_t21; iso2lr_2ch_t22]
  [mk_mode "default" iso2lr_2ch_m0_o iso2lr_2ch_m0_d iso2lr_2ch_m0_f].
