(** Generated by gen/gen_coef.py from /repo/c++/symmetry/{sym-ISO2-impl.hpp, nrg-recalc-ISO2.hpp, coefnew}. Do not edit. *)
From Coq Require Import List ZArith String.
From Verif Require Import Base Invar_model Symmetry_model Symmetry_tables Coef_model.
Import ListNotations.
Local Open Scope string_scope.
Local Open Scope list_scope.
Local Open Scope Z_scope.

Definition ISO2_e0 := (cD (cN 1) (cA (cN 1) (cM (cN 2) (cH 0)))).
Definition ISO2_e1 := (cD (cM (cN 2) (cR (cM (cH 0) (cA (cN 1) (cH 0))))) (cA (cN 1) (cM (cN 2) (cH 0)))).
Definition ISO2_e2 := (cD (cM (cN (-2)) (cR (cM (cH 1) (cA (cN 1) (cH 1))))) (cA (cN 1) (cM (cN 2) (cH 1)))).
Definition ISO2_e3 := (cD (cN 1) (cA (cN 1) (cM (cN 2) (cH 1)))).
Definition ISO2_e4 := (cD (cN 1) (cB (cN (-1)) (cM (cN 2) (cH 1)))).
Definition ISO2_e5 := (cD (cN 1) (cB (cN (-1)) (cM (cN 2) (cH 0)))).
Definition ISO2_e6 := (cO (cR (cB (cN 1) (cD (cN 1) (cM (cN 2) (cA (cN 1) (cH 1))))))).
Definition ISO2_e7 := (cM (cG [] 0) (cR (cB (cN 1) (cD (cN 1) (cM (cN 2) (cA (cN 1) (cH 0))))))).
Definition ISO2_e8 := (cR (cA (cN 1) (cD (cN 1) (cM (cN 2) (cH 1))))).
Definition ISO2_e9 := (cO (cD (cM (cG [] 0) (cR (cA (cN 2) (cD (cN 1) (cH 0))))) (cR (cN 2)))).
Definition ISO2_e10 := (cD (cN 1) (cR (cD (cM (cH 1) (cA (cN 1) (cM (cN 2) (cH 1)))) (cA (cA (cN (-1)) (cH 1)) (cM (cN 2) (cW (cH 1) 4)))))).
Definition ISO2_e11 := (cD (cN 1) (cR (cM (cA (cN 1) (cH 1)) (cA (cN 1) (cM (cN 2) (cH 1)))))).
Definition ISO2_e12 := (cO (cD (cN 1) (cR (cM (cH 1) (cA (cN 1) (cM (cN 2) (cH 1))))))).
Definition ISO2_e13 := (cD (cA (cN 3) (cM (cN 2) (cH 1))) (cR (cD (cM (cA (cN 1) (cH 1)) (cA (cN 3) (cM (cM (cN 4) (cH 1)) (cA (cN 2) (cH 1))))) (cH 1)))).
Definition ISO2_e14 := (cD (cR (cD (cM (cM (cH 1) (cA (cN 1) (cH 1))) (cA (cN 3) (cM (cN 2) (cH 1)))) (cA (cN 1) (cM (cN 2) (cH 1))))) (cA (cN 1) (cH 1))).
Definition ISO2_e15 := (cD (cA (cO (cR (cM (cM (cA (cN 1) (cH 1)) (cA (cN 1) (cM (cN 2) (cH 1)))) (cA (cN 3) (cM (cN 2) (cH 1)))))) (cM (cM (cN 2) (cH 1)) (cR (cA (cA (cN 2) (cH 1)) (cD (cN 1) (cA (cN 1) (cM (cN 2) (cH 1)))))))) (cM (cA (cN 1) (cH 1)) (cR (cA (cN 3) (cM (cN 2) (cH 1)))))).
Definition ISO2_e16 := (cD (cN 1) (cR (cM (cH 1) (cA (cN 1) (cM (cN 2) (cH 1)))))).
Definition ISO2_e17 := (cD (cA (cD (cN 1) (cR (cD (cM (cM (cH 1) (cA (cN 1) (cH 1))) (cA (cN 1) (cM (cN 2) (cH 1)))) (cA (cN (-1)) (cM (cN 2) (cH 1)))))) (cD (cN 1) (cR (cD (cM (cH 1) (cA (cN 1) (cH 1))) (cA (cN (-1)) (cM (cN 4) (cW (cH 1) 4))))))) (cN 2)).
Definition ISO2_e18 := (cO (cM (cM (cG [] 0) (cR (cN 2))) (cR (cD (cH 0) (cA (cN 1) (cM (cN 2) (cH 0))))))).
Definition ISO2_e19 := (cO (cD (cM (cG [] 0) (cR (cN 2))) (cR (cA (cN 2) (cD (cN 1) (cH 0)))))).
Definition ISO2_e20 := (cD (cM (cM (cN 2) (cG [] 0)) (cA (cN 1) (cH 0))) (cR (cA (cA (cN 2) (cM (cN 6) (cH 0))) (cM (cN 4) (cW (cH 0) 4))))).
Definition ISO2_e21 := (cD (cN 1) (cR (cM (cH 0) (cA (cN 1) (cM (cN 2) (cH 0)))))).
Definition ISO2_e22 := (cD (cA (cA (cN (-1)) (cH 0)) (cM (cN 2) (cW (cH 0) 4))) (cR (cM (cM (cM (cH 0) (cA (cN 1) (cH 0))) (cA (cN (-1)) (cM (cN 2) (cH 0)))) (cA (cN 1) (cM (cN 2) (cH 0)))))).
Definition ISO2_e23 := (cD (cN 1) (cR (cM (cA (cN 1) (cH 0)) (cA (cN 1) (cM (cN 2) (cH 0)))))).
Definition ISO2_e24 := (cA (cA (cR (cD (cM (cH 0) (cA (cN 1) (cM (cN 2) (cH 0)))) (cM (cW (cA (cN 1) (cH 0)) 6) (cA (cN 3) (cM (cN 2) (cH 0)))))) (cR (cD (cH 0) (cM (cW (cA (cN 1) (cH 0)) 6) (cA (cN 3) (cM (cM (cN 4) (cH 0)) (cA (cN 2) (cH 0)))))))) (cR (cB (cA (cN 1) (cD (cN 1) (cA (cN 1) (cH 0)))) (cD (cN 6) (cA (cN 3) (cM (cN 2) (cH 0))))))).
Definition ISO2_e25 := (cD (cM (cN (-2)) (cR (cM (cH 1) (cA (cN 1) (cH 1))))) (cA (cA (cA (cN 1) (cM (cN 2) (cH 0))) (cM (cN 2) (cH 1))) (cM (cM (cN 4) (cH 0)) (cH 1)))).
Definition ISO2_e26 := (cD (cM (cN (-4)) (cR (cM (cM (cM (cH 0) (cA (cN 1) (cH 0))) (cH 1)) (cA (cN 1) (cH 1))))) (cA (cA (cA (cN 1) (cM (cN 2) (cH 0))) (cM (cN 2) (cH 1))) (cM (cM (cN 4) (cH 0)) (cH 1)))).
Definition ISO2_e27 := (cD (cN 1) (cA (cA (cA (cN 1) (cM (cN 2) (cH 0))) (cM (cN 2) (cH 1))) (cM (cM (cN 4) (cH 0)) (cH 1)))).
Definition ISO2_e28 := (cD (cM (cN 2) (cR (cM (cH 0) (cA (cN 1) (cH 0))))) (cA (cA (cA (cN 1) (cM (cN 2) (cH 0))) (cM (cN 2) (cH 1))) (cM (cM (cN 4) (cH 0)) (cH 1)))).
Definition ISO2_e29 := (cD (cM (cN (-2)) (cR (cM (cH 0) (cA (cN 1) (cH 0))))) (cA (cN 1) (cM (cN 2) (cH 0)))).
Definition ISO2_e30 := (cD (cA (cM (cN 3) (cR (cM (cH 1) (cA (cN 3) (cM (cM (cN 4) (cH 1)) (cA (cN 2) (cH 1))))))) (cM (cN 2) (cR (cM (cW (cH 1) 6) (cA (cN 3) (cM (cM (cN 4) (cH 1)) (cA (cN 2) (cH 1)))))))) (cM (cR (cA (cN 1) (cH 1))) (cA (cN 3) (cM (cM (cN 4) (cH 1)) (cA (cN 2) (cH 1)))))).
Definition ISO2_e31 := (cO (cD (cN 1) (cR (cM (cA (cN 1) (cH 1)) (cA (cN 1) (cM (cN 2) (cH 1))))))).
Definition ISO2_e32 := (cO (cD (cN 1) (cA (cA (cA (cN 1) (cM (cN 2) (cH 0))) (cM (cN 2) (cH 1))) (cM (cM (cN 4) (cH 0)) (cH 1))))).
Definition ISO2_e33 := (cD (cM (cN (-2)) (cR (cM (cH 0) (cA (cN 1) (cH 0))))) (cA (cA (cA (cN 1) (cM (cN 2) (cH 0))) (cM (cN 2) (cH 1))) (cM (cM (cN 4) (cH 0)) (cH 1)))).
Definition ISO2_e34 := (cD (cA (cA (cN (-1)) (cH 1)) (cM (cN 2) (cW (cH 1) 4))) (cR (cM (cM (cM (cH 1) (cA (cN 1) (cH 1))) (cA (cN (-1)) (cM (cN 2) (cH 1)))) (cA (cN 1) (cM (cN 2) (cH 1)))))).
Definition ISO2_e35 := (cA (cA (cR (cD (cM (cH 1) (cA (cN 1) (cM (cN 2) (cH 1)))) (cM (cW (cA (cN 1) (cH 1)) 6) (cA (cN 3) (cM (cN 2) (cH 1)))))) (cR (cD (cH 1) (cM (cW (cA (cN 1) (cH 1)) 6) (cA (cN 3) (cM (cM (cN 4) (cH 1)) (cA (cN 2) (cH 1)))))))) (cR (cB (cA (cN 1) (cD (cN 1) (cA (cN 1) (cH 1)))) (cD (cN 6) (cA (cN 3) (cM (cN 2) (cH 1))))))).
Definition ISO2_e36 := (cD (cN 1) (cR (cD (cM (cH 0) (cA (cN 1) (cM (cN 2) (cH 0)))) (cA (cA (cN (-1)) (cH 0)) (cM (cN 2) (cW (cH 0) 4)))))).
Definition ISO2_e37 := (cO (cD (cN 1) (cR (cM (cH 0) (cA (cN 1) (cM (cN 2) (cH 0))))))).
Definition ISO2_e38 := (cD (cA (cM (cN 3) (cR (cM (cH 0) (cA (cN 3) (cM (cM (cN 4) (cH 0)) (cA (cN 2) (cH 0))))))) (cM (cN 2) (cR (cM (cW (cH 0) 6) (cA (cN 3) (cM (cM (cN 4) (cH 0)) (cA (cN 2) (cH 0)))))))) (cM (cR (cA (cN 1) (cH 0))) (cA (cN 3) (cM (cM (cN 4) (cH 0)) (cA (cN 2) (cH 0)))))).
Definition ISO2_e39 := (cO (cD (cN 1) (cR (cM (cA (cN 1) (cH 0)) (cA (cN 1) (cM (cN 2) (cH 0))))))).
Definition ISO2_e40 := (cD (cM (cN 2) (cR (cM (cH 1) (cA (cN 1) (cH 1))))) (cA (cA (cA (cN 1) (cM (cN 2) (cH 0))) (cM (cN 2) (cH 1))) (cM (cM (cN 4) (cH 0)) (cH 1)))).
Definition ISO2_e41 := (cD (cB (cN (-3)) (cM (cN 2) (cH 0))) (cM (cM (cN 2) (cR (cN 2))) (cR (cD (cM (cM (cA (cN 1) (cH 0)) (cA (cN 3) (cM (cN 2) (cH 0)))) (cA (cN 1) (cH 1))) (cA (cN 1) (cM (cN 2) (cH 1))))))).
Definition ISO2_e42 := (cD (cM (cG [] 0) (cH 0)) (cM (cR (cN 2)) (cR (cM (cH 0) (cA (cN 1) (cH 0)))))).
Definition ISO2_e43 := (cD (cG [] 0) (cR (cA (cN 1) (cD (cN 1) (cA (cN 1) (cM (cN 2) (cH 0))))))).
Definition ISO2_e44 := (cD (cH 1) (cM (cR (cN 2)) (cR (cM (cH 1) (cA (cN 1) (cH 1)))))).
Definition ISO2_e45 := (cO (cD (cN 1) (cR (cN 2)))).
Definition ISO2_e46 := (cD (cN 1) (cR (cA (cN 1) (cD (cN 1) (cA (cN 1) (cM (cN 2) (cH 1))))))).
Definition ISO2_e47 := (cO (cM (cG [] 0) (cR (cB (cN 1) (cD (cN 1) (cM (cN 2) (cA (cN 1) (cH 0)))))))).
Definition ISO2_e48 := (cD (cM (cQ (-1) 2) (cM (cG [] 0) (cR (cD (cM (cA (cN 1) (cM (cN 2) (cH 0))) (cA (cN 3) (cM (cN 2) (cH 1)))) (cM (cA (cN 1) (cH 0)) (cA (cN 1) (cH 1))))))) (cR (cN 2))).
Definition ISO2_e49 := (cD (cM (cG [] 0) (cR (cD (cM (cA (cN 1) (cM (cN 2) (cH 0))) (cA (cN 1) (cM (cN 2) (cH 1)))) (cM (cA (cN 1) (cH 0)) (cA (cN 1) (cH 1)))))) (cM (cN 2) (cR (cN 2)))).
Definition ISO2_e50 := (cD (cM (cQ (-1) 2) (cM (cG [] 0) (cR (cD (cM (cA (cN 1) (cM (cN 2) (cH 0))) (cA (cN 1) (cM (cN 2) (cH 1)))) (cM (cA (cN 1) (cH 0)) (cA (cN 1) (cH 1))))))) (cR (cN 2))).
Definition ISO2_e51 := (cO (cD (cH 1) (cM (cR (cN 2)) (cR (cM (cH 1) (cA (cN 1) (cH 1))))))).
Definition ISO2_e52 := (cO (cD (cN 1) (cR (cA (cN 1) (cD (cN 1) (cA (cN 1) (cM (cN 2) (cH 1)))))))).
Definition ISO2_e53 := (cO (cD (cM (cG [] 0) (cH 0)) (cM (cR (cN 2)) (cR (cM (cH 0) (cA (cN 1) (cH 0))))))).
Definition ISO2_e54 := (cO (cD (cG [] 0) (cR (cA (cN 1) (cD (cN 1) (cA (cN 1) (cM (cN 2) (cH 0)))))))).
Definition ISO2_e55 := (cD (cA (cN 3) (cM (cN 2) (cH 0))) (cM (cM (cN 2) (cR (cN 2))) (cR (cD (cM (cM (cA (cN 1) (cH 0)) (cA (cN 3) (cM (cN 2) (cH 0)))) (cH 1)) (cA (cN 1) (cM (cN 2) (cH 1))))))).
Definition ISO2_e56 := (cO (cD (cR (cA (cN 2) (cD (cN 1) (cH 1)))) (cR (cN 2)))).
Definition ISO2_e57 := (cO (cD (cR (cA (cN 1) (cD (cN 1) (cH 1)))) (cR (cN 2)))).
Definition ISO2_e58 := (cD (cM (cG [] 0) (cB (cN 1) (cM (cN 2) (cH 1)))) (cM (cM (cN 2) (cR (cN 2))) (cR (cD (cM (cM (cA (cN 1) (cH 0)) (cH 1)) (cA (cN (-1)) (cM (cN 2) (cH 1)))) (cA (cN 1) (cM (cN 2) (cH 0))))))).
Definition ISO2_e59 := (cM (cQ (-1) 2) (cM (cG [] 0) (cR (cD (cA (cA (cA (cN 1) (cM (cN 2) (cH 0))) (cM (cN 2) (cH 1))) (cM (cM (cN 4) (cH 0)) (cH 1))) (cA (cM (cN 2) (cH 1)) (cM (cM (cN 2) (cH 0)) (cH 1))))))).
Definition ISO2_e60 := (cD (cM (cG [] 0) (cR (cD (cA (cA (cA (cN 1) (cM (cN 2) (cH 0))) (cM (cN 2) (cH 1))) (cM (cM (cN 4) (cH 0)) (cH 1))) (cA (cM (cN 2) (cH 1)) (cM (cM (cN 2) (cH 0)) (cH 1)))))) (cN 2)).
Definition ISO2_e61 := (cD (cR (cA (cN 1) (cD (cN 1) (cH 1)))) (cR (cN 2))).
Definition ISO2_e62 := (cD (cB (cN 1) (cM (cN 2) (cH 0))) (cM (cM (cN 2) (cR (cN 2))) (cR (cD (cM (cM (cH 0) (cA (cN (-1)) (cM (cN 2) (cH 0)))) (cA (cN 1) (cH 1))) (cA (cN 1) (cM (cN 2) (cH 1))))))).
Definition ISO2_e63 := (cM (cQ (-1) 2) (cR (cB (cN 4) (cD (cN 2) (cA (cN 1) (cH 1)))))).
Definition ISO2_e64 := (cO (cD (cM (cG [] 0) (cA (cN 1) (cH 0))) (cM (cR (cN 2)) (cR (cM (cH 0) (cA (cN 1) (cH 0))))))).
Definition ISO2_e65 := (cM (cG [] 0) (cR (cA (cN 1) (cD (cN 1) (cM (cN 2) (cH 0)))))).
Definition ISO2_e66 := (cD (cM (cG [] 0) (cR (cD (cA (cA (cA (cN 3) (cM (cN 6) (cH 0))) (cM (cN 2) (cH 1))) (cM (cM (cN 4) (cH 0)) (cH 1))) (cA (cM (cN 2) (cH 0)) (cM (cM (cN 2) (cH 0)) (cH 1)))))) (cN 2)).
Definition ISO2_e67 := (cM (cQ (-1) 2) (cM (cG [] 0) (cR (cD (cA (cA (cA (cN 1) (cM (cN 2) (cH 0))) (cM (cN 2) (cH 1))) (cM (cM (cN 4) (cH 0)) (cH 1))) (cA (cM (cN 2) (cH 0)) (cM (cM (cN 2) (cH 0)) (cH 1))))))).
Definition ISO2_e68 := (cD (cM (cG [] 0) (cR (cD (cA (cA (cA (cN 1) (cM (cN 2) (cH 0))) (cM (cN 2) (cH 1))) (cM (cM (cN 4) (cH 0)) (cH 1))) (cA (cM (cN 2) (cH 0)) (cM (cM (cN 2) (cH 0)) (cH 1)))))) (cN 2)).
Definition ISO2_e69 := (cD (cM (cG [] 0) (cA (cN 1) (cH 0))) (cM (cR (cN 2)) (cR (cM (cH 0) (cA (cN 1) (cH 0)))))).
Definition ISO2_e70 := (cD (cR (cD (cM (cM (cA (cN (-1)) (cM (cN 2) (cH 0))) (cH 1)) (cA (cN 1) (cM (cN 2) (cH 1)))) (cH 0))) (cM (cM (cN 2) (cR (cN 2))) (cH 1))).
Definition ISO2_e71 := (cD (cM (cG [] 0) (cA (cN (-1)) (cM (cN 2) (cH 1)))) (cM (cM (cN 2) (cR (cN 2))) (cR (cD (cM (cM (cH 0) (cH 1)) (cA (cN (-1)) (cM (cN 2) (cH 1)))) (cA (cN 1) (cM (cN 2) (cH 0))))))).
Definition ISO2_e72 := (cD (cG [] 0) (cM (cM (cN 2) (cR (cN 2))) (cR (cD (cM (cH 0) (cH 1)) (cA (cA (cA (cN 1) (cM (cN 2) (cH 0))) (cM (cN 2) (cH 1))) (cM (cM (cN 4) (cH 0)) (cH 1))))))).
Definition ISO2_e73 := (cD (cM (cQ (-1) 2) (cG [] 0)) (cM (cR (cN 2)) (cR (cD (cM (cH 0) (cH 1)) (cA (cA (cA (cN 1) (cM (cN 2) (cH 0))) (cM (cN 2) (cH 1))) (cM (cM (cN 4) (cH 0)) (cH 1))))))).
Definition ISO2_e74 := (cD (cA (cM (cN 2) (cR (cD (cH 1) (cA (cN 3) (cM (cM (cN 4) (cH 1)) (cA (cN 2) (cH 1))))))) (cR (cB (cH 1) (cD (cM (cN 2) (cH 1)) (cA (cN 3) (cM (cN 2) (cH 1))))))) (cR (cA (cN 1) (cH 1)))).
Definition ISO2_e75 := (cD (cR (cA (cN (-1)) (cW (cH 1) 4))) (cH 1)).
Definition ISO2_e76 := (cD (cR (cB (cN 1) (cD (cN 2) (cA (cN 1) (cM (cN 2) (cH 1)))))) (cH 1)).
Definition ISO2_e77 := (cA (cB (cN 1) (cD (cN 1) (cH 1))) (cD (cN 1) (cA (cN 1) (cH 1)))).
Definition ISO2_e78 := (cD (cN 1) (cA (cN 1) (cH 1))).
Definition ISO2_e79 := (cD (cB (cN (-3)) (cM (cN 2) (cH 1))) (cM (cA (cN 1) (cH 1)) (cR (cA (cN 3) (cM (cM (cN 4) (cH 1)) (cA (cN 2) (cH 1))))))).
Definition ISO2_e80 := (cD (cA (cA (cA (cA (cA (cM (cN 12) (cR (cM (cM (cH 1) (cA (cN 1) (cH 1))) (cA (cN 2) (cH 1))))) (cM (cN 33) (cR (cM (cM (cW (cH 1) 10) (cA (cN 1) (cH 1))) (cA (cN 2) (cH 1)))))) (cM (cN 24) (cR (cM (cM (cW (cH 1) 14) (cA (cN 1) (cH 1))) (cA (cN 2) (cH 1)))))) (cM (cN 4) (cR (cM (cM (cW (cH 1) 18) (cA (cN 1) (cH 1))) (cA (cN 2) (cH 1)))))) (cM (cN 18) (cR (cD (cM (cM (cH 1) (cA (cN 2) (cH 1))) (cW (cA (cN 1) (cM (cN 2) (cH 1))) 4)) (cM (cA (cN 1) (cH 1)) (cW (cA (cN 3) (cM (cN 2) (cH 1))) 4)))))) (cM (cH 1) (cA (cA (cM (cN 29) (cR (cM (cM (cH 1) (cA (cN 1) (cH 1))) (cA (cN 2) (cH 1))))) (cM (cN 60) (cR (cD (cM (cM (cH 1) (cA (cN 2) (cH 1))) (cW (cA (cN 1) (cM (cN 2) (cH 1))) 4)) (cM (cA (cN 1) (cH 1)) (cW (cA (cN 3) (cM (cN 2) (cH 1))) 4)))))) (cM (cM (cM (cN 2) (cH 1)) (cR (cD (cM (cM (cH 1) (cA (cN 2) (cH 1))) (cW (cA (cN 1) (cM (cN 2) (cH 1))) 4)) (cM (cA (cN 1) (cH 1)) (cW (cA (cN 3) (cM (cN 2) (cH 1))) 4))))) (cA (cN 31) (cM (cN 10) (cH 1))))))) (cM (cM (cW (cA (cN 1) (cH 1)) 5) (cA (cN 2) (cH 1))) (cW (cA (cN 3) (cM (cN 2) (cH 1))) 4))).
Definition ISO2_e81 := (cR (cB (cA (cN 1) (cD (cN 1) (cA (cN 1) (cH 1)))) (cD (cN 2) (cA (cN 1) (cM (cN 2) (cH 1)))))).
Definition ISO2_e82 := (cD (cR (cA (cN (-3)) (cM (cM (cN 4) (cH 1)) (cA (cN 1) (cH 1))))) (cA (cN 1) (cM (cN 2) (cH 1)))).
Definition ISO2_e83 := (cO (cD (cR (cA (cN 1) (cD (cN 2) (cA (cN 1) (cM (cN 2) (cH 1)))))) (cA (cN 1) (cH 1)))).
Definition ISO2_e84 := (cD (cR (cM (cH 1) (cA (cN 2) (cH 1)))) (cA (cN 1) (cH 1))).
Definition ISO2_e85 := (cD (cN 1) (cA (cA (cN 1) (cM (cN 3) (cH 1))) (cM (cN 2) (cW (cH 1) 4)))).
Definition ISO2_e86 := (cO (cD (cN 1) (cA (cN 1) (cH 1)))).
Definition ISO2_e87 := (cD (cN 1) (cA (cH 1) (cM (cN 2) (cW (cH 1) 4)))).
Definition ISO2_e88 := (cO (cM (cG [] 0) (cR (cB (cN 1) (cD (cN 1) (cM (cN 2) (cH 0))))))).
Definition ISO2_e89 := (cO (cD (cG [] 0) (cR (cA (cN 2) (cD (cN 2) (cH 0)))))).
Definition ISO2_e90 := (cM (cG [] 0) (cR (cA (cN 1) (cD (cN 1) (cA (cN 2) (cM (cN 2) (cH 0))))))).
Definition ISO2_e91 := (cO (cM (cM (cG [] 0) (cR (cN 2))) (cR (cD (cM (cH 0) (cH 1)) (cA (cA (cA (cN 1) (cM (cN 2) (cH 0))) (cM (cN 2) (cH 1))) (cM (cM (cN 4) (cH 0)) (cH 1))))))).
Definition ISO2_e92 := (cD (cM (cG [] 0) (cA (cD (cN 1) (cR (cD (cM (cM (cA (cN 1) (cH 0)) (cA (cN 1) (cM (cN 2) (cH 0)))) (cA (cN 1) (cM (cN 2) (cH 1)))) (cH 1)))) (cD (cN 1) (cR (cD (cM (cA (cN 1) (cH 0)) (cA (cN 1) (cM (cN 2) (cH 1)))) (cA (cH 1) (cM (cM (cN 2) (cH 0)) (cH 1)))))))) (cR (cN 2))).
Definition ISO2_e93 := (cD (cM (cM (cG [] 0) (cR (cN 2))) (cA (cN 1) (cH 1))) (cR (cD (cM (cM (cA (cN 1) (cM (cN 2) (cH 0))) (cA (cN 1) (cH 1))) (cA (cN 1) (cM (cN 2) (cH 1)))) (cH 0)))).
Definition ISO2_e94 := (cO (cD (cM (cM (cM (cG [] 0) (cR (cN 2))) (cA (cN 1) (cH 0))) (cA (cN 1) (cH 1))) (cR (cM (cM (cM (cA (cN 1) (cH 0)) (cA (cN 1) (cM (cN 2) (cH 0)))) (cA (cN 1) (cH 1))) (cA (cN 1) (cM (cN 2) (cH 1))))))).
Definition ISO2_e95 := (cO (cM (cM (cM (cG [] 0) (cR (cN 2))) (cA (cN 1) (cH 1))) (cR (cD (cH 0) (cM (cA (cN 1) (cM (cN 2) (cH 0))) (cA (cA (cN 1) (cM (cN 3) (cH 1))) (cM (cN 2) (cW (cH 1) 4)))))))).
Definition ISO2_e96 := (cM (cM (cG [] 0) (cR (cN 2))) (cR (cD (cM (cH 0) (cH 1)) (cA (cA (cA (cN 1) (cM (cN 2) (cH 0))) (cM (cN 2) (cH 1))) (cM (cM (cN 4) (cH 0)) (cH 1)))))).
Definition ISO2_e97 := (cD (cM (cG [] 0) (cA (cR (cD (cM (cM (cA (cN 1) (cH 0)) (cA (cN 1) (cH 1))) (cA (cN 1) (cM (cN 2) (cH 1)))) (cA (cN 1) (cM (cN 2) (cH 0))))) (cR (cM (cM (cM (cA (cN 1) (cH 0)) (cA (cN 1) (cM (cN 2) (cH 0)))) (cA (cN 1) (cH 1))) (cA (cN 1) (cM (cN 2) (cH 1))))))) (cM (cM (cR (cN 2)) (cA (cN 1) (cH 0))) (cA (cN 1) (cM (cN 2) (cH 1))))).
Definition ISO2_e98 := (cD (cM (cG [] 0) (cB (cO (cD (cH 1) (cR (cM (cM (cM (cA (cN 1) (cH 0)) (cA (cN 1) (cM (cN 2) (cH 0)))) (cH 1)) (cA (cN 1) (cM (cN 2) (cH 1))))))) (cD (cN 1) (cR (cD (cM (cA (cN 1) (cH 0)) (cA (cN 1) (cM (cN 2) (cH 1)))) (cA (cH 1) (cM (cM (cN 2) (cH 0)) (cH 1)))))))) (cR (cN 2))).
Definition ISO2_e99 := (cO (cD (cM (cM (cG [] 0) (cR (cN 2))) (cH 1)) (cR (cD (cM (cM (cA (cN 1) (cM (cN 2) (cH 0))) (cH 1)) (cA (cN 1) (cM (cN 2) (cH 1)))) (cH 0))))).
Definition ISO2_e100 := (cO (cD (cM (cM (cG [] 0) (cR (cN 2))) (cA (cN 1) (cH 1))) (cR (cD (cM (cM (cA (cN 1) (cM (cN 2) (cH 0))) (cA (cN 1) (cH 1))) (cA (cN 1) (cM (cN 2) (cH 1)))) (cH 0))))).
Definition ISO2_e101 := (cD (cM (cG [] 0) (cB (cA (cA (cA (cM (cN 2) (cR (cD (cH 1) (cM (cA (cA (cN 1) (cM (cN 3) (cH 0))) (cM (cN 2) (cW (cH 0) 4))) (cA (cN 1) (cM (cN 2) (cH 1))))))) (cM (cM (cN 2) (cH 1)) (cR (cD (cH 1) (cM (cA (cA (cN 1) (cM (cN 3) (cH 0))) (cM (cN 2) (cW (cH 0) 4))) (cA (cN 1) (cM (cN 2) (cH 1)))))))) (cR (cD (cM (cM (cA (cN 1) (cM (cN 2) (cH 0))) (cH 1)) (cA (cN 1) (cM (cN 2) (cH 1)))) (cA (cN 1) (cH 0))))) (cM (cN 2) (cR (cD (cA (cH 1) (cM (cM (cN 2) (cH 0)) (cH 1))) (cA (cA (cA (cN 1) (cH 0)) (cM (cN 2) (cH 1))) (cM (cM (cN 2) (cH 0)) (cH 1))))))) (cM (cH 1) (cR (cD (cA (cN 1) (cM (cN 2) (cH 0))) (cM (cA (cN 1) (cH 0)) (cA (cH 1) (cM (cN 2) (cW (cH 1) 4))))))))) (cM (cM (cN 2) (cR (cN 2))) (cA (cN 1) (cH 1)))).
Definition ISO2_e102 := (cD (cM (cM (cM (cG [] 0) (cR (cN 2))) (cA (cN 1) (cH 0))) (cA (cN 1) (cH 1))) (cR (cM (cM (cM (cA (cN 1) (cH 0)) (cA (cN 1) (cM (cN 2) (cH 0)))) (cA (cN 1) (cH 1))) (cA (cN 1) (cM (cN 2) (cH 1)))))).
Definition ISO2_e103 := (cM (cG [] 0) (cR (cB (cN 1) (cD (cN 1) (cM (cN 2) (cH 0)))))).
Definition ISO2_e104 := (cD (cG [] 0) (cR (cA (cN 2) (cD (cN 2) (cH 0))))).
Definition ISO2_e105 := (cO (cM (cG [] 0) (cR (cA (cN 1) (cD (cN 1) (cA (cN 2) (cM (cN 2) (cH 0)))))))).

(** /repo/c++/symmetry/nrg-recalc-ISO2.hpp recalc_doublet, iso2/iso2-1ch-doubletmp.dat *)
Definition iso2_1ch_t0 : ten_table := mk_ten "doublet" [ShLin 0%nat 1 (-1); ShLin 1%nat 1 1] [2; 2] [
  (1, 1, [ShLin 0%nat 1 (-1); ShLin 1%nat 1 0], [ShLin 0%nat 1 (-2); ShLin 1%nat 1 1], Some (cN 1));
  (1, 2, [ShLin 0%nat 1 (-1); ShLin 1%nat 1 0], [ShLin 0%nat 1 0; ShLin 1%nat 1 1], Some ISO2_e0);
  (2, 2, [ShLin 0%nat 1 1; ShLin 1%nat 1 0], [ShLin 0%nat 1 0; ShLin 1%nat 1 1], Some ISO2_e1);
  (3, 3, [ShLin 0%nat 1 0; ShLin 1%nat 1 (-1)], [ShLin 0%nat 1 (-1); ShLin 1%nat 1 0], Some ISO2_e2);
  (4, 3, [ShLin 0%nat 1 0; ShLin 1%nat 1 1], [ShLin 0%nat 1 (-1); ShLin 1%nat 1 0], Some ISO2_e3);
  (4, 4, [ShLin 0%nat 1 0; ShLin 1%nat 1 1], [ShLin 0%nat 1 (-1); ShLin 1%nat 1 2], Some (cN (-1)))].
(** /repo/c++/symmetry/nrg-recalc-ISO2.hpp recalc_doublet, iso2/iso2-1ch-doubletmm.dat *)
Definition iso2_1ch_t1 : ten_table := mk_ten "doublet" [ShLin 0%nat 1 (-1); ShLin 1%nat 1 (-1)] [2; 2] [
  (1, 1, [ShLin 0%nat 1 (-1); ShLin 1%nat 1 0], [ShLin 0%nat 1 (-2); ShLin 1%nat 1 (-1)], Some (cN 1));
  (1, 2, [ShLin 0%nat 1 (-1); ShLin 1%nat 1 0], [ShLin 0%nat 1 0; ShLin 1%nat 1 (-1)], Some ISO2_e0);
  (2, 2, [ShLin 0%nat 1 1; ShLin 1%nat 1 0], [ShLin 0%nat 1 0; ShLin 1%nat 1 (-1)], Some ISO2_e1);
  (3, 3, [ShLin 0%nat 1 0; ShLin 1%nat 1 (-1)], [ShLin 0%nat 1 (-1); ShLin 1%nat 1 (-2)], Some (cN (-1)));
  (3, 4, [ShLin 0%nat 1 0; ShLin 1%nat 1 (-1)], [ShLin 0%nat 1 (-1); ShLin 1%nat 1 0], Some ISO2_e4);
  (4, 4, [ShLin 0%nat 1 0; ShLin 1%nat 1 1], [ShLin 0%nat 1 (-1); ShLin 1%nat 1 0], Some ISO2_e2)].
(** /repo/c++/symmetry/nrg-recalc-ISO2.hpp recalc_doublet, iso2/iso2-1ch-doubletpp.dat *)
Definition iso2_1ch_t2 : ten_table := mk_ten "doublet" [ShLin 0%nat 1 1; ShLin 1%nat 1 1] [2; 2] [
  (1, 1, [ShLin 0%nat 1 (-1); ShLin 1%nat 1 0], [ShLin 0%nat 1 0; ShLin 1%nat 1 1], Some ISO2_e1);
  (2, 1, [ShLin 0%nat 1 1; ShLin 1%nat 1 0], [ShLin 0%nat 1 0; ShLin 1%nat 1 1], Some ISO2_e5);
  (2, 2, [ShLin 0%nat 1 1; ShLin 1%nat 1 0], [ShLin 0%nat 1 2; ShLin 1%nat 1 1], Some (cN 1));
  (3, 3, [ShLin 0%nat 1 0; ShLin 1%nat 1 (-1)], [ShLin 0%nat 1 1; ShLin 1%nat 1 0], Some ISO2_e2);
  (4, 3, [ShLin 0%nat 1 0; ShLin 1%nat 1 1], [ShLin 0%nat 1 1; ShLin 1%nat 1 0], Some ISO2_e3);
  (4, 4, [ShLin 0%nat 1 0; ShLin 1%nat 1 1], [ShLin 0%nat 1 1; ShLin 1%nat 1 2], Some (cN (-1)))].
(** /repo/c++/symmetry/nrg-recalc-ISO2.hpp recalc_doublet, iso2/iso2-1ch-doubletpm.dat *)
Definition iso2_1ch_t3 : ten_table := mk_ten "doublet" [ShLin 0%nat 1 1; ShLin 1%nat 1 (-1)] [2; 2] [
  (1, 1, [ShLin 0%nat 1 (-1); ShLin 1%nat 1 0], [ShLin 0%nat 1 0; ShLin 1%nat 1 (-1)], Some ISO2_e1);
  (2, 1, [ShLin 0%nat 1 1; ShLin 1%nat 1 0], [ShLin 0%nat 1 0; ShLin 1%nat 1 (-1)], Some ISO2_e5);
  (2, 2, [ShLin 0%nat 1 1; ShLin 1%nat 1 0], [ShLin 0%nat 1 2; ShLin 1%nat 1 (-1)], Some (cN 1));
  (3, 3, [ShLin 0%nat 1 0; ShLin 1%nat 1 (-1)], [ShLin 0%nat 1 1; ShLin 1%nat 1 (-2)], Some (cN (-1)));
  (3, 4, [ShLin 0%nat 1 0; ShLin 1%nat 1 (-1)], [ShLin 0%nat 1 1; ShLin 1%nat 1 0], Some ISO2_e4);
  (4, 4, [ShLin 0%nat 1 0; ShLin 1%nat 1 1], [ShLin 0%nat 1 1; ShLin 1%nat 1 0], Some ISO2_e2)].
(** /repo/c++/symmetry/nrg-recalc-ISO2.hpp recalc_irreduc, iso2/iso2-1ch-spinup-isoupa.dat *)
Definition iso2_1ch_t4 : irr_table := mk_irr 0 0 [ShLin 0%nat 1 1; ShLin 1%nat 1 1]  [
  (1, 4, Some ISO2_e6);
  (3, 2, Some ISO2_e7)].
(** /repo/c++/symmetry/nrg-recalc-ISO2.hpp recalc_irreduc, iso2/iso2-1ch-spindown-isoupa.dat *)
Definition iso2_1ch_t5 : irr_table := mk_irr 0 0 [ShLin 0%nat 1 1; ShLin 1%nat 1 (-1)]  [
  (1, 3, Some ISO2_e8);
  (4, 2, Some ISO2_e7)].
(** /repo/c++/symmetry/nrg-recalc-ISO2.hpp recalc_irreduc, iso2/iso2-1ch-spinup-isodowna.dat *)
Definition iso2_1ch_t6 : irr_table := mk_irr 0 0 [ShLin 0%nat 1 (-1); ShLin 1%nat 1 1]  [
  (2, 4, Some ISO2_e6);
  (3, 1, Some ISO2_e9)].
(** /repo/c++/symmetry/nrg-recalc-ISO2.hpp recalc_irreduc, iso2/iso2-1ch-spindown-isodowna.dat *)
Definition iso2_1ch_t7 : irr_table := mk_irr 0 0 [ShLin 0%nat 1 (-1); ShLin 1%nat 1 (-1)]  [
  (2, 3, Some ISO2_e8);
  (4, 1, Some ISO2_e9)].
(** /repo/c++/symmetry/nrg-recalc-ISO2.hpp recalc_triplet, iso2/iso2-1ch-triplets.dat *)
Definition iso2_1ch_t8 : ten_table := mk_ten "triplet" [ShLin 0%nat 1 0; ShLin 1%nat 1 0] [1; 3] [
  (1, 1, [ShLin 0%nat 1 (-1); ShLin 1%nat 1 0], [ShLin 0%nat 1 (-1); ShLin 1%nat 1 0], Some (cN 1));
  (2, 2, [ShLin 0%nat 1 1; ShLin 1%nat 1 0], [ShLin 0%nat 1 1; ShLin 1%nat 1 0], Some (cN 1));
  (3, 3, [ShLin 0%nat 1 0; ShLin 1%nat 1 (-1)], [ShLin 0%nat 1 0; ShLin 1%nat 1 (-1)], Some ISO2_e10);
  (3, 4, [ShLin 0%nat 1 0; ShLin 1%nat 1 (-1)], [ShLin 0%nat 1 0; ShLin 1%nat 1 1], Some ISO2_e11);
  (4, 3, [ShLin 0%nat 1 0; ShLin 1%nat 1 1], [ShLin 0%nat 1 0; ShLin 1%nat 1 (-1)], Some ISO2_e12);
  (4, 4, [ShLin 0%nat 1 0; ShLin 1%nat 1 1], [ShLin 0%nat 1 0; ShLin 1%nat 1 1], Some ISO2_e13)].
(** /repo/c++/symmetry/nrg-recalc-ISO2.hpp recalc_triplet, iso2/iso2-1ch-tripletp.dat *)
Definition iso2_1ch_t9 : ten_table := mk_ten "triplet" [ShLin 0%nat 1 0; ShLin 1%nat 1 2] [1; 3] [
  (1, 1, [ShLin 0%nat 1 (-1); ShLin 1%nat 1 0], [ShLin 0%nat 1 (-1); ShLin 1%nat 1 2], Some (cN 1));
  (2, 2, [ShLin 0%nat 1 1; ShLin 1%nat 1 0], [ShLin 0%nat 1 1; ShLin 1%nat 1 2], Some (cN 1));
  (3, 3, [ShLin 0%nat 1 0; ShLin 1%nat 1 (-1)], [ShLin 0%nat 1 0; ShLin 1%nat 1 1], Some ISO2_e14);
  (4, 3, [ShLin 0%nat 1 0; ShLin 1%nat 1 1], [ShLin 0%nat 1 0; ShLin 1%nat 1 1], Some ISO2_e15);
  (4, 4, [ShLin 0%nat 1 0; ShLin 1%nat 1 1], [ShLin 0%nat 1 0; ShLin 1%nat 1 3], Some (cN 1))].
(** /repo/c++/symmetry/nrg-recalc-ISO2.hpp recalc_triplet, iso2/iso2-1ch-tripletm.dat *)
Definition iso2_1ch_t10 : ten_table := mk_ten "triplet" [ShLin 0%nat 1 0; ShLin 1%nat 1 (-2)] [1; 3] [
  (1, 1, [ShLin 0%nat 1 (-1); ShLin 1%nat 1 0], [ShLin 0%nat 1 (-1); ShLin 1%nat 1 (-2)], Some (cN 1));
  (2, 2, [ShLin 0%nat 1 1; ShLin 1%nat 1 0], [ShLin 0%nat 1 1; ShLin 1%nat 1 (-2)], Some (cN 1));
  (3, 3, [ShLin 0%nat 1 0; ShLin 1%nat 1 (-1)], [ShLin 0%nat 1 0; ShLin 1%nat 1 (-3)], Some (cN 1));
  (3, 4, [ShLin 0%nat 1 0; ShLin 1%nat 1 (-1)], [ShLin 0%nat 1 0; ShLin 1%nat 1 (-1)], Some ISO2_e16);
  (4, 4, [ShLin 0%nat 1 0; ShLin 1%nat 1 1], [ShLin 0%nat 1 0; ShLin 1%nat 1 (-1)], Some ISO2_e17)].
(** /repo/c++/symmetry/sym-ISO-impl.hpp, make_matrix  *)
Definition iso2_1ch_m0_o : list off_line := [
  (1, 3, 0, 0, "xi", Some ISO2_e18);
  (1, 4, 0, 0, "xi", Some ISO2_e19);
  (2, 3, 0, 0, "xi", Some ISO2_e20);
  (2, 4, 0, 0, "xi", Some ISO2_e20)].
(** /repo/c++/symmetry/sym-ISO-impl.hpp, make_matrix  *)
Definition iso2_1ch_m0_d : list diag_line := [
  ].
(** /repo/c++/symmetry/sym-ISO-impl.hpp, make_matrix  *)
Definition iso2_1ch_m0_f : list dof_line := [
  ].
Definition coef_iso2_1ch : coef_set := mk_coef "ISO2" 1%nat sym_ISO2 {| tb_In := iso2_1ch_In; tb_QN := iso2_1ch_QN |}
  [iso2_1ch_t4; iso2_1ch_t5; iso2_1ch_t6; iso2_1ch_t7]
  [iso2_1ch_t0; iso2_1ch_t1; iso2_1ch_t2; iso2_1ch_t3; iso2_1ch_t8; iso2_1ch_t9; iso2_1ch_t10]
  [mk_mode "default" iso2_1ch_m0_o iso2_1ch_m0_d iso2_1ch_m0_f].
(** /repo/c++/symmetry/nrg-recalc-ISO2.hpp recalc_doublet, iso2/iso2-2ch-doubletmp.dat *)
Definition iso2_2ch_t0 : ten_table := mk_ten "doublet" [ShLin 0%nat 1 (-1); ShLin 1%nat 1 1] [2; 2] [
  (1, 1, [ShLin 0%nat 1 (-2); ShLin 1%nat 1 0], [ShLin 0%nat 1 (-3); ShLin 1%nat 1 1], Some (cN 1));
  (1, 2, [ShLin 0%nat 1 (-2); ShLin 1%nat 1 0], [ShLin 0%nat 1 (-1); ShLin 1%nat 1 1], Some ISO2_e21);
  (2, 2, [ShLin 0%nat 1 0; ShLin 1%nat 1 0], [ShLin 0%nat 1 (-1); ShLin 1%nat 1 1], Some ISO2_e22);
  (2, 3, [ShLin 0%nat 1 0; ShLin 1%nat 1 0], [ShLin 0%nat 1 1; ShLin 1%nat 1 1], Some ISO2_e23);
  (3, 3, [ShLin 0%nat 1 2; ShLin 1%nat 1 0], [ShLin 0%nat 1 1; ShLin 1%nat 1 1], Some ISO2_e24);
  (4, 4, [ShLin 0%nat 1 (-1); ShLin 1%nat 1 (-1)], [ShLin 0%nat 1 (-2); ShLin 1%nat 1 0], Some ISO2_e2);
  (4, 5, [ShLin 0%nat 1 (-1); ShLin 1%nat 1 (-1)], [ShLin 0%nat 1 0; ShLin 1%nat 1 0], Some ISO2_e25);
  (5, 5, [ShLin 0%nat 1 1; ShLin 1%nat 1 (-1)], [ShLin 0%nat 1 0; ShLin 1%nat 1 0], Some ISO2_e26);
  (6, 4, [ShLin 0%nat 1 (-1); ShLin 1%nat 1 1], [ShLin 0%nat 1 (-2); ShLin 1%nat 1 0], Some ISO2_e3);
  (6, 5, [ShLin 0%nat 1 (-1); ShLin 1%nat 1 1], [ShLin 0%nat 1 0; ShLin 1%nat 1 0], Some ISO2_e27);
  (6, 6, [ShLin 0%nat 1 (-1); ShLin 1%nat 1 1], [ShLin 0%nat 1 (-2); ShLin 1%nat 1 2], Some (cN (-1)));
  (6, 7, [ShLin 0%nat 1 (-1); ShLin 1%nat 1 1], [ShLin 0%nat 1 0; ShLin 1%nat 1 2], Some ISO2_e5);
  (7, 5, [ShLin 0%nat 1 1; ShLin 1%nat 1 1], [ShLin 0%nat 1 0; ShLin 1%nat 1 0], Some ISO2_e28);
  (7, 7, [ShLin 0%nat 1 1; ShLin 1%nat 1 1], [ShLin 0%nat 1 0; ShLin 1%nat 1 2], Some ISO2_e29);
  (8, 8, [ShLin 0%nat 1 (-1); ShLin 1%nat 1 (-1)], [ShLin 0%nat 1 (-2); ShLin 1%nat 1 0], Some ISO2_e2);
  (8, 9, [ShLin 0%nat 1 (-1); ShLin 1%nat 1 (-1)], [ShLin 0%nat 1 0; ShLin 1%nat 1 0], Some ISO2_e25);
  (9, 9, [ShLin 0%nat 1 1; ShLin 1%nat 1 (-1)], [ShLin 0%nat 1 0; ShLin 1%nat 1 0], Some ISO2_e26);
  (10, 8, [ShLin 0%nat 1 (-1); ShLin 1%nat 1 1], [ShLin 0%nat 1 (-2); ShLin 1%nat 1 0], Some ISO2_e3);
  (10, 9, [ShLin 0%nat 1 (-1); ShLin 1%nat 1 1], [ShLin 0%nat 1 0; ShLin 1%nat 1 0], Some ISO2_e27);
  (10, 10, [ShLin 0%nat 1 (-1); ShLin 1%nat 1 1], [ShLin 0%nat 1 (-2); ShLin 1%nat 1 2], Some (cN (-1)));
  (10, 11, [ShLin 0%nat 1 (-1); ShLin 1%nat 1 1], [ShLin 0%nat 1 0; ShLin 1%nat 1 2], Some ISO2_e5);
  (11, 9, [ShLin 0%nat 1 1; ShLin 1%nat 1 1], [ShLin 0%nat 1 0; ShLin 1%nat 1 0], Some ISO2_e28);
  (11, 11, [ShLin 0%nat 1 1; ShLin 1%nat 1 1], [ShLin 0%nat 1 0; ShLin 1%nat 1 2], Some ISO2_e29);
  (12, 12, [ShLin 0%nat 1 0; ShLin 1%nat 1 (-2)], [ShLin 0%nat 1 (-1); ShLin 1%nat 1 (-1)], Some ISO2_e10);
  (13, 12, [ShLin 0%nat 1 0; ShLin 1%nat 1 0], [ShLin 0%nat 1 (-1); ShLin 1%nat 1 (-1)], Some ISO2_e12);
  (13, 13, [ShLin 0%nat 1 0; ShLin 1%nat 1 0], [ShLin 0%nat 1 (-1); ShLin 1%nat 1 1], Some ISO2_e30);
  (14, 13, [ShLin 0%nat 1 0; ShLin 1%nat 1 2], [ShLin 0%nat 1 (-1); ShLin 1%nat 1 1], Some ISO2_e31);
  (14, 14, [ShLin 0%nat 1 0; ShLin 1%nat 1 2], [ShLin 0%nat 1 (-1); ShLin 1%nat 1 3], Some (cN 1));
  (15, 15, [ShLin 0%nat 1 0; ShLin 1%nat 1 0], [ShLin 0%nat 1 (-1); ShLin 1%nat 1 1], Some (cN 1));
  (16, 16, [ShLin 0%nat 1 0; ShLin 1%nat 1 0], [ShLin 0%nat 1 (-1); ShLin 1%nat 1 1], Some (cN 1))].
(** /repo/c++/symmetry/nrg-recalc-ISO2.hpp recalc_doublet, iso2/iso2-2ch-doubletmm.dat *)
Definition iso2_2ch_t1 : ten_table := mk_ten "doublet" [ShLin 0%nat 1 (-1); ShLin 1%nat 1 (-1)] [2; 2] [
  (1, 1, [ShLin 0%nat 1 (-2); ShLin 1%nat 1 0], [ShLin 0%nat 1 (-3); ShLin 1%nat 1 (-1)], Some (cN 1));
  (1, 2, [ShLin 0%nat 1 (-2); ShLin 1%nat 1 0], [ShLin 0%nat 1 (-1); ShLin 1%nat 1 (-1)], Some ISO2_e21);
  (2, 2, [ShLin 0%nat 1 0; ShLin 1%nat 1 0], [ShLin 0%nat 1 (-1); ShLin 1%nat 1 (-1)], Some ISO2_e22);
  (2, 3, [ShLin 0%nat 1 0; ShLin 1%nat 1 0], [ShLin 0%nat 1 1; ShLin 1%nat 1 (-1)], Some ISO2_e23);
  (3, 3, [ShLin 0%nat 1 2; ShLin 1%nat 1 0], [ShLin 0%nat 1 1; ShLin 1%nat 1 (-1)], Some ISO2_e24);
  (4, 4, [ShLin 0%nat 1 (-1); ShLin 1%nat 1 (-1)], [ShLin 0%nat 1 (-2); ShLin 1%nat 1 (-2)], Some (cN (-1)));
  (4, 5, [ShLin 0%nat 1 (-1); ShLin 1%nat 1 (-1)], [ShLin 0%nat 1 0; ShLin 1%nat 1 (-2)], Some ISO2_e5);
  (4, 6, [ShLin 0%nat 1 (-1); ShLin 1%nat 1 (-1)], [ShLin 0%nat 1 (-2); ShLin 1%nat 1 0], Some ISO2_e4);
  (4, 7, [ShLin 0%nat 1 (-1); ShLin 1%nat 1 (-1)], [ShLin 0%nat 1 0; ShLin 1%nat 1 0], Some ISO2_e32);
  (5, 5, [ShLin 0%nat 1 1; ShLin 1%nat 1 (-1)], [ShLin 0%nat 1 0; ShLin 1%nat 1 (-2)], Some ISO2_e29);
  (5, 7, [ShLin 0%nat 1 1; ShLin 1%nat 1 (-1)], [ShLin 0%nat 1 0; ShLin 1%nat 1 0], Some ISO2_e33);
  (6, 6, [ShLin 0%nat 1 (-1); ShLin 1%nat 1 1], [ShLin 0%nat 1 (-2); ShLin 1%nat 1 0], Some ISO2_e2);
  (6, 7, [ShLin 0%nat 1 (-1); ShLin 1%nat 1 1], [ShLin 0%nat 1 0; ShLin 1%nat 1 0], Some ISO2_e25);
  (7, 7, [ShLin 0%nat 1 1; ShLin 1%nat 1 1], [ShLin 0%nat 1 0; ShLin 1%nat 1 0], Some ISO2_e26);
  (8, 8, [ShLin 0%nat 1 (-1); ShLin 1%nat 1 (-1)], [ShLin 0%nat 1 (-2); ShLin 1%nat 1 (-2)], Some (cN (-1)));
  (8, 9, [ShLin 0%nat 1 (-1); ShLin 1%nat 1 (-1)], [ShLin 0%nat 1 0; ShLin 1%nat 1 (-2)], Some ISO2_e5);
  (8, 10, [ShLin 0%nat 1 (-1); ShLin 1%nat 1 (-1)], [ShLin 0%nat 1 (-2); ShLin 1%nat 1 0], Some ISO2_e4);
  (8, 11, [ShLin 0%nat 1 (-1); ShLin 1%nat 1 (-1)], [ShLin 0%nat 1 0; ShLin 1%nat 1 0], Some ISO2_e32);
  (9, 9, [ShLin 0%nat 1 1; ShLin 1%nat 1 (-1)], [ShLin 0%nat 1 0; ShLin 1%nat 1 (-2)], Some ISO2_e29);
  (9, 11, [ShLin 0%nat 1 1; ShLin 1%nat 1 (-1)], [ShLin 0%nat 1 0; ShLin 1%nat 1 0], Some ISO2_e33);
  (10, 10, [ShLin 0%nat 1 (-1); ShLin 1%nat 1 1], [ShLin 0%nat 1 (-2); ShLin 1%nat 1 0], Some ISO2_e2);
  (10, 11, [ShLin 0%nat 1 (-1); ShLin 1%nat 1 1], [ShLin 0%nat 1 0; ShLin 1%nat 1 0], Some ISO2_e25);
  (11, 11, [ShLin 0%nat 1 1; ShLin 1%nat 1 1], [ShLin 0%nat 1 0; ShLin 1%nat 1 0], Some ISO2_e26);
  (12, 12, [ShLin 0%nat 1 0; ShLin 1%nat 1 (-2)], [ShLin 0%nat 1 (-1); ShLin 1%nat 1 (-3)], Some (cN 1));
  (12, 13, [ShLin 0%nat 1 0; ShLin 1%nat 1 (-2)], [ShLin 0%nat 1 (-1); ShLin 1%nat 1 (-1)], Some ISO2_e16);
  (13, 13, [ShLin 0%nat 1 0; ShLin 1%nat 1 0], [ShLin 0%nat 1 (-1); ShLin 1%nat 1 (-1)], Some ISO2_e34);
  (13, 14, [ShLin 0%nat 1 0; ShLin 1%nat 1 0], [ShLin 0%nat 1 (-1); ShLin 1%nat 1 1], Some ISO2_e11);
  (14, 14, [ShLin 0%nat 1 0; ShLin 1%nat 1 2], [ShLin 0%nat 1 (-1); ShLin 1%nat 1 1], Some ISO2_e35);
  (15, 15, [ShLin 0%nat 1 0; ShLin 1%nat 1 0], [ShLin 0%nat 1 (-1); ShLin 1%nat 1 (-1)], Some (cN 1));
  (16, 16, [ShLin 0%nat 1 0; ShLin 1%nat 1 0], [ShLin 0%nat 1 (-1); ShLin 1%nat 1 (-1)], Some (cN 1))].
(** /repo/c++/symmetry/nrg-recalc-ISO2.hpp recalc_doublet, iso2/iso2-2ch-doubletpp.dat *)
Definition iso2_2ch_t2 : ten_table := mk_ten "doublet" [ShLin 0%nat 1 1; ShLin 1%nat 1 1] [2; 2] [
  (1, 1, [ShLin 0%nat 1 (-2); ShLin 1%nat 1 0], [ShLin 0%nat 1 (-1); ShLin 1%nat 1 1], Some ISO2_e36);
  (2, 1, [ShLin 0%nat 1 0; ShLin 1%nat 1 0], [ShLin 0%nat 1 (-1); ShLin 1%nat 1 1], Some ISO2_e37);
  (2, 2, [ShLin 0%nat 1 0; ShLin 1%nat 1 0], [ShLin 0%nat 1 1; ShLin 1%nat 1 1], Some ISO2_e38);
  (3, 2, [ShLin 0%nat 1 2; ShLin 1%nat 1 0], [ShLin 0%nat 1 1; ShLin 1%nat 1 1], Some ISO2_e39);
  (3, 3, [ShLin 0%nat 1 2; ShLin 1%nat 1 0], [ShLin 0%nat 1 3; ShLin 1%nat 1 1], Some (cN 1));
  (4, 4, [ShLin 0%nat 1 (-1); ShLin 1%nat 1 (-1)], [ShLin 0%nat 1 0; ShLin 1%nat 1 0], Some ISO2_e26);
  (5, 4, [ShLin 0%nat 1 1; ShLin 1%nat 1 (-1)], [ShLin 0%nat 1 0; ShLin 1%nat 1 0], Some ISO2_e40);
  (5, 5, [ShLin 0%nat 1 1; ShLin 1%nat 1 (-1)], [ShLin 0%nat 1 2; ShLin 1%nat 1 0], Some ISO2_e2);
  (6, 4, [ShLin 0%nat 1 (-1); ShLin 1%nat 1 1], [ShLin 0%nat 1 0; ShLin 1%nat 1 0], Some ISO2_e28);
  (6, 6, [ShLin 0%nat 1 (-1); ShLin 1%nat 1 1], [ShLin 0%nat 1 0; ShLin 1%nat 1 2], Some ISO2_e29);
  (7, 4, [ShLin 0%nat 1 1; ShLin 1%nat 1 1], [ShLin 0%nat 1 0; ShLin 1%nat 1 0], Some ISO2_e32);
  (7, 5, [ShLin 0%nat 1 1; ShLin 1%nat 1 1], [ShLin 0%nat 1 2; ShLin 1%nat 1 0], Some ISO2_e3);
  (7, 6, [ShLin 0%nat 1 1; ShLin 1%nat 1 1], [ShLin 0%nat 1 0; ShLin 1%nat 1 2], Some ISO2_e0);
  (7, 7, [ShLin 0%nat 1 1; ShLin 1%nat 1 1], [ShLin 0%nat 1 2; ShLin 1%nat 1 2], Some (cN (-1)));
  (8, 8, [ShLin 0%nat 1 (-1); ShLin 1%nat 1 (-1)], [ShLin 0%nat 1 0; ShLin 1%nat 1 0], Some ISO2_e26);
  (9, 8, [ShLin 0%nat 1 1; ShLin 1%nat 1 (-1)], [ShLin 0%nat 1 0; ShLin 1%nat 1 0], Some ISO2_e40);
  (9, 9, [ShLin 0%nat 1 1; ShLin 1%nat 1 (-1)], [ShLin 0%nat 1 2; ShLin 1%nat 1 0], Some ISO2_e2);
  (10, 8, [ShLin 0%nat 1 (-1); ShLin 1%nat 1 1], [ShLin 0%nat 1 0; ShLin 1%nat 1 0], Some ISO2_e28);
  (10, 10, [ShLin 0%nat 1 (-1); ShLin 1%nat 1 1], [ShLin 0%nat 1 0; ShLin 1%nat 1 2], Some ISO2_e29);
  (11, 8, [ShLin 0%nat 1 1; ShLin 1%nat 1 1], [ShLin 0%nat 1 0; ShLin 1%nat 1 0], Some ISO2_e32);
  (11, 9, [ShLin 0%nat 1 1; ShLin 1%nat 1 1], [ShLin 0%nat 1 2; ShLin 1%nat 1 0], Some ISO2_e3);
  (11, 10, [ShLin 0%nat 1 1; ShLin 1%nat 1 1], [ShLin 0%nat 1 0; ShLin 1%nat 1 2], Some ISO2_e0);
  (11, 11, [ShLin 0%nat 1 1; ShLin 1%nat 1 1], [ShLin 0%nat 1 2; ShLin 1%nat 1 2], Some (cN (-1)));
  (12, 12, [ShLin 0%nat 1 0; ShLin 1%nat 1 (-2)], [ShLin 0%nat 1 1; ShLin 1%nat 1 (-1)], Some ISO2_e10);
  (13, 12, [ShLin 0%nat 1 0; ShLin 1%nat 1 0], [ShLin 0%nat 1 1; ShLin 1%nat 1 (-1)], Some ISO2_e12);
  (13, 13, [ShLin 0%nat 1 0; ShLin 1%nat 1 0], [ShLin 0%nat 1 1; ShLin 1%nat 1 1], Some ISO2_e30);
  (14, 13, [ShLin 0%nat 1 0; ShLin 1%nat 1 2], [ShLin 0%nat 1 1; ShLin 1%nat 1 1], Some ISO2_e31);
  (14, 14, [ShLin 0%nat 1 0; ShLin 1%nat 1 2], [ShLin 0%nat 1 1; ShLin 1%nat 1 3], Some (cN 1));
  (15, 15, [ShLin 0%nat 1 0; ShLin 1%nat 1 0], [ShLin 0%nat 1 1; ShLin 1%nat 1 1], Some (cN 1));
  (16, 16, [ShLin 0%nat 1 0; ShLin 1%nat 1 0], [ShLin 0%nat 1 1; ShLin 1%nat 1 1], Some (cN 1))].
(** /repo/c++/symmetry/nrg-recalc-ISO2.hpp recalc_doublet, iso2/iso2-2ch-doubletpm.dat *)
Definition iso2_2ch_t3 : ten_table := mk_ten "doublet" [ShLin 0%nat 1 1; ShLin 1%nat 1 (-1)] [2; 2] [
  (1, 1, [ShLin 0%nat 1 (-2); ShLin 1%nat 1 0], [ShLin 0%nat 1 (-1); ShLin 1%nat 1 (-1)], Some ISO2_e36);
  (2, 1, [ShLin 0%nat 1 0; ShLin 1%nat 1 0], [ShLin 0%nat 1 (-1); ShLin 1%nat 1 (-1)], Some ISO2_e37);
  (2, 2, [ShLin 0%nat 1 0; ShLin 1%nat 1 0], [ShLin 0%nat 1 1; ShLin 1%nat 1 (-1)], Some ISO2_e38);
  (3, 2, [ShLin 0%nat 1 2; ShLin 1%nat 1 0], [ShLin 0%nat 1 1; ShLin 1%nat 1 (-1)], Some ISO2_e39);
  (3, 3, [ShLin 0%nat 1 2; ShLin 1%nat 1 0], [ShLin 0%nat 1 3; ShLin 1%nat 1 (-1)], Some (cN 1));
  (4, 4, [ShLin 0%nat 1 (-1); ShLin 1%nat 1 (-1)], [ShLin 0%nat 1 0; ShLin 1%nat 1 (-2)], Some ISO2_e29);
  (4, 6, [ShLin 0%nat 1 (-1); ShLin 1%nat 1 (-1)], [ShLin 0%nat 1 0; ShLin 1%nat 1 0], Some ISO2_e33);
  (5, 4, [ShLin 0%nat 1 1; ShLin 1%nat 1 (-1)], [ShLin 0%nat 1 0; ShLin 1%nat 1 (-2)], Some ISO2_e0);
  (5, 5, [ShLin 0%nat 1 1; ShLin 1%nat 1 (-1)], [ShLin 0%nat 1 2; ShLin 1%nat 1 (-2)], Some (cN (-1)));
  (5, 6, [ShLin 0%nat 1 1; ShLin 1%nat 1 (-1)], [ShLin 0%nat 1 0; ShLin 1%nat 1 0], Some ISO2_e27);
  (5, 7, [ShLin 0%nat 1 1; ShLin 1%nat 1 (-1)], [ShLin 0%nat 1 2; ShLin 1%nat 1 0], Some ISO2_e4);
  (6, 6, [ShLin 0%nat 1 (-1); ShLin 1%nat 1 1], [ShLin 0%nat 1 0; ShLin 1%nat 1 0], Some ISO2_e26);
  (7, 6, [ShLin 0%nat 1 1; ShLin 1%nat 1 1], [ShLin 0%nat 1 0; ShLin 1%nat 1 0], Some ISO2_e40);
  (7, 7, [ShLin 0%nat 1 1; ShLin 1%nat 1 1], [ShLin 0%nat 1 2; ShLin 1%nat 1 0], Some ISO2_e2);
  (8, 8, [ShLin 0%nat 1 (-1); ShLin 1%nat 1 (-1)], [ShLin 0%nat 1 0; ShLin 1%nat 1 (-2)], Some ISO2_e29);
  (8, 10, [ShLin 0%nat 1 (-1); ShLin 1%nat 1 (-1)], [ShLin 0%nat 1 0; ShLin 1%nat 1 0], Some ISO2_e33);
  (9, 8, [ShLin 0%nat 1 1; ShLin 1%nat 1 (-1)], [ShLin 0%nat 1 0; ShLin 1%nat 1 (-2)], Some ISO2_e0);
  (9, 9, [ShLin 0%nat 1 1; ShLin 1%nat 1 (-1)], [ShLin 0%nat 1 2; ShLin 1%nat 1 (-2)], Some (cN (-1)));
  (9, 10, [ShLin 0%nat 1 1; ShLin 1%nat 1 (-1)], [ShLin 0%nat 1 0; ShLin 1%nat 1 0], Some ISO2_e27);
  (9, 11, [ShLin 0%nat 1 1; ShLin 1%nat 1 (-1)], [ShLin 0%nat 1 2; ShLin 1%nat 1 0], Some ISO2_e4);
  (10, 10, [ShLin 0%nat 1 (-1); ShLin 1%nat 1 1], [ShLin 0%nat 1 0; ShLin 1%nat 1 0], Some ISO2_e26);
  (11, 10, [ShLin 0%nat 1 1; ShLin 1%nat 1 1], [ShLin 0%nat 1 0; ShLin 1%nat 1 0], Some ISO2_e40);
  (11, 11, [ShLin 0%nat 1 1; ShLin 1%nat 1 1], [ShLin 0%nat 1 2; ShLin 1%nat 1 0], Some ISO2_e2);
  (12, 12, [ShLin 0%nat 1 0; ShLin 1%nat 1 (-2)], [ShLin 0%nat 1 1; ShLin 1%nat 1 (-3)], Some (cN 1));
  (12, 13, [ShLin 0%nat 1 0; ShLin 1%nat 1 (-2)], [ShLin 0%nat 1 1; ShLin 1%nat 1 (-1)], Some ISO2_e16);
  (13, 13, [ShLin 0%nat 1 0; ShLin 1%nat 1 0], [ShLin 0%nat 1 1; ShLin 1%nat 1 (-1)], Some ISO2_e34);
  (13, 14, [ShLin 0%nat 1 0; ShLin 1%nat 1 0], [ShLin 0%nat 1 1; ShLin 1%nat 1 1], Some ISO2_e11);
  (14, 14, [ShLin 0%nat 1 0; ShLin 1%nat 1 2], [ShLin 0%nat 1 1; ShLin 1%nat 1 1], Some ISO2_e35);
  (15, 15, [ShLin 0%nat 1 0; ShLin 1%nat 1 0], [ShLin 0%nat 1 1; ShLin 1%nat 1 (-1)], Some (cN 1));
  (16, 16, [ShLin 0%nat 1 0; ShLin 1%nat 1 0], [ShLin 0%nat 1 1; ShLin 1%nat 1 (-1)], Some (cN 1))].
(** /repo/c++/symmetry/nrg-recalc-ISO2.hpp recalc_irreduc, iso2/iso2-2ch-spinup-isoupa.dat *)
Definition iso2_2ch_t4 : irr_table := mk_irr 0 0 [ShLin 0%nat 1 1; ShLin 1%nat 1 1]  [
  (1, 6, Some ISO2_e6);
  (2, 7, Some ISO2_e41);
  (4, 2, Some ISO2_e42);
  (4, 15, Some (cD (cN 1) (cR (cN 2))));
  (5, 3, Some ISO2_e43);
  (8, 13, Some ISO2_e44);
  (8, 16, Some ISO2_e45);
  (10, 14, Some ISO2_e46);
  (12, 9, Some ISO2_e47);
  (13, 11, Some ISO2_e48);
  (15, 7, Some ISO2_e49);
  (16, 11, Some ISO2_e50)].
(** /repo/c++/symmetry/nrg-recalc-ISO2.hpp recalc_irreduc, iso2/iso2-2ch-spinup-isoupb.dat *)
Definition iso2_2ch_t5 : irr_table := mk_irr 1 0 [ShLin 0%nat 1 1; ShLin 1%nat 1 1]  [
  (1, 10, Some ISO2_e6);
  (2, 11, Some ISO2_e41);
  (4, 13, Some ISO2_e51);
  (4, 16, Some ISO2_e45);
  (6, 14, Some ISO2_e52);
  (8, 2, Some ISO2_e53);
  (8, 15, Some (cD (cN 1) (cR (cN 2))));
  (9, 3, Some ISO2_e54);
  (12, 5, Some ISO2_e47);
  (13, 7, Some ISO2_e48);
  (15, 11, Some ISO2_e50);
  (16, 7, Some ISO2_e49)].
(** /repo/c++/symmetry/nrg-recalc-ISO2.hpp recalc_irreduc, iso2/iso2-2ch-spindown-isoupa.dat *)
Definition iso2_2ch_t6 : irr_table := mk_irr 0 0 [ShLin 0%nat 1 1; ShLin 1%nat 1 (-1)]  [
  (1, 4, Some ISO2_e8);
  (2, 5, Some ISO2_e55);
  (6, 2, Some ISO2_e42);
  (6, 15, Some (cD (cN 1) (cR (cN 2))));
  (7, 3, Some ISO2_e43);
  (8, 12, Some ISO2_e56);
  (10, 13, Some ISO2_e57);
  (10, 16, Some ISO2_e45);
  (13, 9, Some ISO2_e58);
  (14, 11, Some ISO2_e47);
  (15, 5, Some ISO2_e59);
  (16, 9, Some ISO2_e60)].
(** /repo/c++/symmetry/nrg-recalc-ISO2.hpp recalc_irreduc, iso2/iso2-2ch-spindown-isoupb.dat *)
Definition iso2_2ch_t7 : irr_table := mk_irr 1 0 [ShLin 0%nat 1 1; ShLin 1%nat 1 (-1)]  [
  (1, 8, Some ISO2_e8);
  (2, 9, Some ISO2_e55);
  (4, 12, Some ISO2_e8);
  (6, 13, Some ISO2_e61);
  (6, 16, Some ISO2_e45);
  (10, 2, Some ISO2_e53);
  (10, 15, Some (cD (cN 1) (cR (cN 2))));
  (11, 3, Some ISO2_e54);
  (13, 5, Some ISO2_e58);
  (14, 7, Some ISO2_e47);
  (15, 9, Some ISO2_e60);
  (16, 5, Some ISO2_e59)].
(** /repo/c++/symmetry/nrg-recalc-ISO2.hpp recalc_irreduc, iso2/iso2-2ch-spinup-isodowna.dat *)
Definition iso2_2ch_t8 : irr_table := mk_irr 0 0 [ShLin 0%nat 1 (-1); ShLin 1%nat 1 1]  [
  (2, 6, Some ISO2_e62);
  (3, 7, Some ISO2_e63);
  (4, 1, Some ISO2_e9);
  (5, 2, Some ISO2_e64);
  (5, 15, Some (cD (cN 1) (cR (cN 2))));
  (9, 13, Some ISO2_e44);
  (9, 16, Some ISO2_e45);
  (11, 14, Some ISO2_e46);
  (12, 8, Some ISO2_e65);
  (13, 10, Some ISO2_e66);
  (15, 6, Some ISO2_e67);
  (16, 10, Some ISO2_e68)].
(** /repo/c++/symmetry/nrg-recalc-ISO2.hpp recalc_irreduc, iso2/iso2-2ch-spinup-isodownb.dat *)
Definition iso2_2ch_t9 : irr_table := mk_irr 1 0 [ShLin 0%nat 1 (-1); ShLin 1%nat 1 1]  [
  (2, 10, Some ISO2_e62);
  (3, 11, Some ISO2_e63);
  (5, 13, Some ISO2_e51);
  (5, 16, Some ISO2_e45);
  (7, 14, Some ISO2_e52);
  (8, 1, Some ISO2_e65);
  (9, 2, Some ISO2_e69);
  (9, 15, Some (cD (cN 1) (cR (cN 2))));
  (12, 4, Some ISO2_e65);
  (13, 6, Some ISO2_e66);
  (15, 10, Some ISO2_e68);
  (16, 6, Some ISO2_e67)].
(** /repo/c++/symmetry/nrg-recalc-ISO2.hpp recalc_irreduc, iso2/iso2-2ch-spindown-isodowna.dat *)
Definition iso2_2ch_t10 : irr_table := mk_irr 0 0 [ShLin 0%nat 1 (-1); ShLin 1%nat 1 (-1)]  [
  (2, 4, Some ISO2_e70);
  (3, 5, Some ISO2_e8);
  (6, 1, Some ISO2_e9);
  (7, 2, Some ISO2_e64);
  (7, 15, Some (cD (cN 1) (cR (cN 2))));
  (9, 12, Some ISO2_e56);
  (11, 13, Some ISO2_e57);
  (11, 16, Some ISO2_e45);
  (13, 8, Some ISO2_e71);
  (14, 10, Some ISO2_e65);
  (15, 4, Some ISO2_e72);
  (16, 8, Some ISO2_e73)].
(** /repo/c++/symmetry/nrg-recalc-ISO2.hpp recalc_irreduc, iso2/iso2-2ch-spindown-isodownb.dat *)
Definition iso2_2ch_t11 : irr_table := mk_irr 1 0 [ShLin 0%nat 1 (-1); ShLin 1%nat 1 (-1)]  [
  (2, 8, Some ISO2_e70);
  (3, 9, Some ISO2_e8);
  (5, 12, Some ISO2_e8);
  (7, 13, Some ISO2_e61);
  (7, 16, Some ISO2_e45);
  (10, 1, Some ISO2_e65);
  (11, 2, Some ISO2_e69);
  (11, 15, Some (cD (cN 1) (cR (cN 2))));
  (13, 4, Some ISO2_e71);
  (14, 6, Some ISO2_e65);
  (15, 8, Some ISO2_e73);
  (16, 4, Some ISO2_e72)].
(** /repo/c++/symmetry/nrg-recalc-ISO2.hpp recalc_triplet, iso2/iso2-2ch-triplets.dat *)
Definition iso2_2ch_t12 : ten_table := mk_ten "triplet" [ShLin 0%nat 1 0; ShLin 1%nat 1 0] [1; 3] [
  (1, 1, [ShLin 0%nat 1 (-2); ShLin 1%nat 1 0], [ShLin 0%nat 1 (-2); ShLin 1%nat 1 0], Some (cN 1));
  (2, 2, [ShLin 0%nat 1 0; ShLin 1%nat 1 0], [ShLin 0%nat 1 0; ShLin 1%nat 1 0], Some (cN 1));
  (3, 3, [ShLin 0%nat 1 2; ShLin 1%nat 1 0], [ShLin 0%nat 1 2; ShLin 1%nat 1 0], Some (cN 1));
  (4, 4, [ShLin 0%nat 1 (-1); ShLin 1%nat 1 (-1)], [ShLin 0%nat 1 (-1); ShLin 1%nat 1 (-1)], Some ISO2_e10);
  (4, 6, [ShLin 0%nat 1 (-1); ShLin 1%nat 1 (-1)], [ShLin 0%nat 1 (-1); ShLin 1%nat 1 1], Some ISO2_e11);
  (5, 5, [ShLin 0%nat 1 1; ShLin 1%nat 1 (-1)], [ShLin 0%nat 1 1; ShLin 1%nat 1 (-1)], Some ISO2_e10);
  (5, 7, [ShLin 0%nat 1 1; ShLin 1%nat 1 (-1)], [ShLin 0%nat 1 1; ShLin 1%nat 1 1], Some ISO2_e11);
  (6, 4, [ShLin 0%nat 1 (-1); ShLin 1%nat 1 1], [ShLin 0%nat 1 (-1); ShLin 1%nat 1 (-1)], Some ISO2_e12);
  (6, 6, [ShLin 0%nat 1 (-1); ShLin 1%nat 1 1], [ShLin 0%nat 1 (-1); ShLin 1%nat 1 1], Some ISO2_e13);
  (7, 5, [ShLin 0%nat 1 1; ShLin 1%nat 1 1], [ShLin 0%nat 1 1; ShLin 1%nat 1 (-1)], Some ISO2_e12);
  (7, 7, [ShLin 0%nat 1 1; ShLin 1%nat 1 1], [ShLin 0%nat 1 1; ShLin 1%nat 1 1], Some ISO2_e74);
  (8, 8, [ShLin 0%nat 1 (-1); ShLin 1%nat 1 (-1)], [ShLin 0%nat 1 (-1); ShLin 1%nat 1 (-1)], Some ISO2_e10);
  (8, 10, [ShLin 0%nat 1 (-1); ShLin 1%nat 1 (-1)], [ShLin 0%nat 1 (-1); ShLin 1%nat 1 1], Some ISO2_e11);
  (9, 9, [ShLin 0%nat 1 1; ShLin 1%nat 1 (-1)], [ShLin 0%nat 1 1; ShLin 1%nat 1 (-1)], Some ISO2_e10);
  (9, 11, [ShLin 0%nat 1 1; ShLin 1%nat 1 (-1)], [ShLin 0%nat 1 1; ShLin 1%nat 1 1], Some ISO2_e11);
  (10, 8, [ShLin 0%nat 1 (-1); ShLin 1%nat 1 1], [ShLin 0%nat 1 (-1); ShLin 1%nat 1 (-1)], Some ISO2_e12);
  (10, 10, [ShLin 0%nat 1 (-1); ShLin 1%nat 1 1], [ShLin 0%nat 1 (-1); ShLin 1%nat 1 1], Some ISO2_e13);
  (11, 9, [ShLin 0%nat 1 1; ShLin 1%nat 1 1], [ShLin 0%nat 1 1; ShLin 1%nat 1 (-1)], Some ISO2_e12);
  (11, 11, [ShLin 0%nat 1 1; ShLin 1%nat 1 1], [ShLin 0%nat 1 1; ShLin 1%nat 1 1], Some ISO2_e74);
  (12, 12, [ShLin 0%nat 1 0; ShLin 1%nat 1 (-2)], [ShLin 0%nat 1 0; ShLin 1%nat 1 (-2)], Some ISO2_e75);
  (12, 13, [ShLin 0%nat 1 0; ShLin 1%nat 1 (-2)], [ShLin 0%nat 1 0; ShLin 1%nat 1 0], Some ISO2_e76);
  (13, 12, [ShLin 0%nat 1 0; ShLin 1%nat 1 0], [ShLin 0%nat 1 0; ShLin 1%nat 1 (-2)], Some (cO (cD (cN 1) (cH 1))));
  (13, 13, [ShLin 0%nat 1 0; ShLin 1%nat 1 0], [ShLin 0%nat 1 0; ShLin 1%nat 1 0], Some ISO2_e77);
  (13, 14, [ShLin 0%nat 1 0; ShLin 1%nat 1 0], [ShLin 0%nat 1 0; ShLin 1%nat 1 2], Some ISO2_e78);
  (14, 13, [ShLin 0%nat 1 0; ShLin 1%nat 1 2], [ShLin 0%nat 1 0; ShLin 1%nat 1 0], Some ISO2_e79);
  (14, 14, [ShLin 0%nat 1 0; ShLin 1%nat 1 2], [ShLin 0%nat 1 0; ShLin 1%nat 1 2], Some ISO2_e80);
  (15, 15, [ShLin 0%nat 1 0; ShLin 1%nat 1 0], [ShLin 0%nat 1 0; ShLin 1%nat 1 0], Some (cN 1));
  (16, 16, [ShLin 0%nat 1 0; ShLin 1%nat 1 0], [ShLin 0%nat 1 0; ShLin 1%nat 1 0], Some (cN 1))].
(** /repo/c++/symmetry/nrg-recalc-ISO2.hpp recalc_triplet, iso2/iso2-2ch-tripletp.dat *)
Definition iso2_2ch_t13 : ten_table := mk_ten "triplet" [ShLin 0%nat 1 0; ShLin 1%nat 1 2] [1; 3] [
  (1, 1, [ShLin 0%nat 1 (-2); ShLin 1%nat 1 0], [ShLin 0%nat 1 (-2); ShLin 1%nat 1 2], Some (cN 1));
  (2, 2, [ShLin 0%nat 1 0; ShLin 1%nat 1 0], [ShLin 0%nat 1 0; ShLin 1%nat 1 2], Some (cN 1));
  (3, 3, [ShLin 0%nat 1 2; ShLin 1%nat 1 0], [ShLin 0%nat 1 2; ShLin 1%nat 1 2], Some (cN 1));
  (4, 4, [ShLin 0%nat 1 (-1); ShLin 1%nat 1 (-1)], [ShLin 0%nat 1 (-1); ShLin 1%nat 1 1], Some ISO2_e14);
  (5, 5, [ShLin 0%nat 1 1; ShLin 1%nat 1 (-1)], [ShLin 0%nat 1 1; ShLin 1%nat 1 1], Some ISO2_e81);
  (6, 4, [ShLin 0%nat 1 (-1); ShLin 1%nat 1 1], [ShLin 0%nat 1 (-1); ShLin 1%nat 1 1], Some ISO2_e15);
  (6, 6, [ShLin 0%nat 1 (-1); ShLin 1%nat 1 1], [ShLin 0%nat 1 (-1); ShLin 1%nat 1 3], Some (cN 1));
  (7, 5, [ShLin 0%nat 1 1; ShLin 1%nat 1 1], [ShLin 0%nat 1 1; ShLin 1%nat 1 1], Some ISO2_e31);
  (7, 7, [ShLin 0%nat 1 1; ShLin 1%nat 1 1], [ShLin 0%nat 1 1; ShLin 1%nat 1 3], Some (cN 1));
  (8, 8, [ShLin 0%nat 1 (-1); ShLin 1%nat 1 (-1)], [ShLin 0%nat 1 (-1); ShLin 1%nat 1 1], Some ISO2_e14);
  (9, 9, [ShLin 0%nat 1 1; ShLin 1%nat 1 (-1)], [ShLin 0%nat 1 1; ShLin 1%nat 1 1], Some ISO2_e81);
  (10, 8, [ShLin 0%nat 1 (-1); ShLin 1%nat 1 1], [ShLin 0%nat 1 (-1); ShLin 1%nat 1 1], Some ISO2_e15);
  (10, 10, [ShLin 0%nat 1 (-1); ShLin 1%nat 1 1], [ShLin 0%nat 1 (-1); ShLin 1%nat 1 3], Some (cN 1));
  (11, 9, [ShLin 0%nat 1 1; ShLin 1%nat 1 1], [ShLin 0%nat 1 1; ShLin 1%nat 1 1], Some ISO2_e31);
  (11, 11, [ShLin 0%nat 1 1; ShLin 1%nat 1 1], [ShLin 0%nat 1 1; ShLin 1%nat 1 3], Some (cN 1));
  (12, 12, [ShLin 0%nat 1 0; ShLin 1%nat 1 (-2)], [ShLin 0%nat 1 0; ShLin 1%nat 1 0], Some ISO2_e82);
  (13, 12, [ShLin 0%nat 1 0; ShLin 1%nat 1 0], [ShLin 0%nat 1 0; ShLin 1%nat 1 0], Some ISO2_e83);
  (13, 13, [ShLin 0%nat 1 0; ShLin 1%nat 1 0], [ShLin 0%nat 1 0; ShLin 1%nat 1 2], Some ISO2_e84);
  (14, 12, [ShLin 0%nat 1 0; ShLin 1%nat 1 2], [ShLin 0%nat 1 0; ShLin 1%nat 1 0], Some ISO2_e85);
  (14, 13, [ShLin 0%nat 1 0; ShLin 1%nat 1 2], [ShLin 0%nat 1 0; ShLin 1%nat 1 2], Some ISO2_e86);
  (14, 14, [ShLin 0%nat 1 0; ShLin 1%nat 1 2], [ShLin 0%nat 1 0; ShLin 1%nat 1 4], Some (cN 1));
  (15, 15, [ShLin 0%nat 1 0; ShLin 1%nat 1 0], [ShLin 0%nat 1 0; ShLin 1%nat 1 2], Some (cN 1));
  (16, 16, [ShLin 0%nat 1 0; ShLin 1%nat 1 0], [ShLin 0%nat 1 0; ShLin 1%nat 1 2], Some (cN 1))].
(** /repo/c++/symmetry/nrg-recalc-ISO2.hpp recalc_triplet, iso2/iso2-2ch-tripletm.dat *)
Definition iso2_2ch_t14 : ten_table := mk_ten "triplet" [ShLin 0%nat 1 0; ShLin 1%nat 1 (-2)] [1; 3] [
  (1, 1, [ShLin 0%nat 1 (-2); ShLin 1%nat 1 0], [ShLin 0%nat 1 (-2); ShLin 1%nat 1 (-2)], Some (cN 1));
  (2, 2, [ShLin 0%nat 1 0; ShLin 1%nat 1 0], [ShLin 0%nat 1 0; ShLin 1%nat 1 (-2)], Some (cN 1));
  (3, 3, [ShLin 0%nat 1 2; ShLin 1%nat 1 0], [ShLin 0%nat 1 2; ShLin 1%nat 1 (-2)], Some (cN 1));
  (4, 4, [ShLin 0%nat 1 (-1); ShLin 1%nat 1 (-1)], [ShLin 0%nat 1 (-1); ShLin 1%nat 1 (-3)], Some (cN 1));
  (4, 6, [ShLin 0%nat 1 (-1); ShLin 1%nat 1 (-1)], [ShLin 0%nat 1 (-1); ShLin 1%nat 1 (-1)], Some ISO2_e16);
  (5, 5, [ShLin 0%nat 1 1; ShLin 1%nat 1 (-1)], [ShLin 0%nat 1 1; ShLin 1%nat 1 (-3)], Some (cN 1));
  (5, 7, [ShLin 0%nat 1 1; ShLin 1%nat 1 (-1)], [ShLin 0%nat 1 1; ShLin 1%nat 1 (-1)], Some ISO2_e16);
  (6, 6, [ShLin 0%nat 1 (-1); ShLin 1%nat 1 1], [ShLin 0%nat 1 (-1); ShLin 1%nat 1 (-1)], Some ISO2_e17);
  (7, 7, [ShLin 0%nat 1 1; ShLin 1%nat 1 1], [ShLin 0%nat 1 1; ShLin 1%nat 1 (-1)], Some ISO2_e17);
  (8, 8, [ShLin 0%nat 1 (-1); ShLin 1%nat 1 (-1)], [ShLin 0%nat 1 (-1); ShLin 1%nat 1 (-3)], Some (cN 1));
  (8, 10, [ShLin 0%nat 1 (-1); ShLin 1%nat 1 (-1)], [ShLin 0%nat 1 (-1); ShLin 1%nat 1 (-1)], Some ISO2_e16);
  (9, 9, [ShLin 0%nat 1 1; ShLin 1%nat 1 (-1)], [ShLin 0%nat 1 1; ShLin 1%nat 1 (-3)], Some (cN 1));
  (9, 11, [ShLin 0%nat 1 1; ShLin 1%nat 1 (-1)], [ShLin 0%nat 1 1; ShLin 1%nat 1 (-1)], Some ISO2_e16);
  (10, 10, [ShLin 0%nat 1 (-1); ShLin 1%nat 1 1], [ShLin 0%nat 1 (-1); ShLin 1%nat 1 (-1)], Some ISO2_e17);
  (11, 11, [ShLin 0%nat 1 1; ShLin 1%nat 1 1], [ShLin 0%nat 1 1; ShLin 1%nat 1 (-1)], Some ISO2_e17);
  (12, 12, [ShLin 0%nat 1 0; ShLin 1%nat 1 (-2)], [ShLin 0%nat 1 0; ShLin 1%nat 1 (-4)], Some (cN 1));
  (12, 13, [ShLin 0%nat 1 0; ShLin 1%nat 1 (-2)], [ShLin 0%nat 1 0; ShLin 1%nat 1 (-2)], Some (cD (cN 1) (cH 1)));
  (12, 14, [ShLin 0%nat 1 0; ShLin 1%nat 1 (-2)], [ShLin 0%nat 1 0; ShLin 1%nat 1 0], Some ISO2_e87);
  (13, 13, [ShLin 0%nat 1 0; ShLin 1%nat 1 0], [ShLin 0%nat 1 0; ShLin 1%nat 1 (-2)], Some ISO2_e75);
  (13, 14, [ShLin 0%nat 1 0; ShLin 1%nat 1 0], [ShLin 0%nat 1 0; ShLin 1%nat 1 0], Some ISO2_e76);
  (14, 14, [ShLin 0%nat 1 0; ShLin 1%nat 1 2], [ShLin 0%nat 1 0; ShLin 1%nat 1 0], Some ISO2_e82);
  (15, 15, [ShLin 0%nat 1 0; ShLin 1%nat 1 0], [ShLin 0%nat 1 0; ShLin 1%nat 1 (-2)], Some (cN 1));
  (16, 16, [ShLin 0%nat 1 0; ShLin 1%nat 1 0], [ShLin 0%nat 1 0; ShLin 1%nat 1 (-2)], Some (cN 1))].
(** /repo/c++/symmetry/sym-ISO-impl.hpp, make_matrix  *)
Definition iso2_2ch_m0_o : list off_line := [
  (1, 4, 0, 0, "xi", Some ISO2_e88);
  (1, 6, 0, 0, "xi", Some ISO2_e88);
  (2, 4, 0, 0, "xi", Some ISO2_e69);
  (2, 5, 0, 0, "xi", Some ISO2_e89);
  (2, 6, 0, 0, "xi", Some ISO2_e69);
  (2, 7, 0, 0, "xi", Some ISO2_e89);
  (3, 5, 0, 0, "xi", Some ISO2_e90);
  (3, 7, 0, 0, "xi", Some ISO2_e90);
  (4, 15, 0, 0, "xi", Some ISO2_e91);
  (5, 15, 0, 0, "xi", Some ISO2_e92);
  (6, 15, 0, 0, "xi", Some ISO2_e93);
  (7, 15, 0, 0, "xi", Some ISO2_e94);
  (8, 12, 0, 0, "xi", Some ISO2_e18);
  (8, 13, 0, 0, "xi", Some ISO2_e95);
  (8, 16, 0, 0, "xi", Some ISO2_e96);
  (9, 12, 0, 0, "xi", Some ISO2_e20);
  (9, 13, 0, 0, "xi", Some ISO2_e97);
  (9, 16, 0, 0, "xi", Some ISO2_e98);
  (10, 13, 0, 0, "xi", Some ISO2_e99);
  (10, 14, 0, 0, "xi", Some ISO2_e19);
  (10, 16, 0, 0, "xi", Some ISO2_e100);
  (11, 13, 0, 0, "xi", Some ISO2_e101);
  (11, 14, 0, 0, "xi", Some ISO2_e20);
  (11, 16, 0, 0, "xi", Some ISO2_e102);
  (1, 8, 1, 0, "xi", Some ISO2_e103);
  (1, 10, 1, 0, "xi", Some ISO2_e103);
  (2, 8, 1, 0, "xi", Some ISO2_e64);
  (2, 9, 1, 0, "xi", Some ISO2_e104);
  (2, 10, 1, 0, "xi", Some ISO2_e64);
  (2, 11, 1, 0, "xi", Some ISO2_e104);
  (3, 9, 1, 0, "xi", Some ISO2_e105);
  (3, 11, 1, 0, "xi", Some ISO2_e105);
  (4, 12, 1, 0, "xi", Some ISO2_e18);
  (4, 13, 1, 0, "xi", Some ISO2_e95);
  (4, 16, 1, 0, "xi", Some ISO2_e91);
  (5, 12, 1, 0, "xi", Some ISO2_e20);
  (5, 13, 1, 0, "xi", Some ISO2_e97);
  (5, 16, 1, 0, "xi", Some ISO2_e92);
  (6, 13, 1, 0, "xi", Some ISO2_e99);
  (6, 14, 1, 0, "xi", Some ISO2_e19);
  (6, 16, 1, 0, "xi", Some ISO2_e93);
  (7, 13, 1, 0, "xi", Some ISO2_e101);
  (7, 14, 1, 0, "xi", Some ISO2_e20);
  (7, 16, 1, 0, "xi", Some ISO2_e94);
  (8, 15, 1, 0, "xi", Some ISO2_e96);
  (9, 15, 1, 0, "xi", Some ISO2_e98);
  (10, 15, 1, 0, "xi", Some ISO2_e100);
  (11, 15, 1, 0, "xi", Some ISO2_e102)].
(** /repo/c++/symmetry/sym-ISO-impl.hpp, make_matrix  *)
Definition iso2_2ch_m0_d : list diag_line := [
  ].
(** /repo/c++/symmetry/sym-ISO-impl.hpp, make_matrix  *)
Definition iso2_2ch_m0_f : list dof_line := [
  ].
Definition coef_iso2_2ch : coef_set := mk_coef "ISO2" 2%nat sym_ISO2 {| tb_In := iso2_2ch_In; tb_QN := iso2_2ch_QN |}
  [iso2_2ch_t4; iso2_2ch_t5; iso2_2ch_t6; iso2_2ch_t7; iso2_2ch_t8; iso2_2ch_t9; iso2_2ch_t10; iso2_2ch_t11]
  [iso2_2ch_t0; iso2_2ch_t1; iso2_2ch_t2; iso2_2ch_t3; iso2_2ch_t12; iso2_2ch_t13; iso2_2ch_t14]
  [mk_mode "default" iso2_2ch_m0_o iso2_2ch_m0_d iso2_2ch_m0_f].
