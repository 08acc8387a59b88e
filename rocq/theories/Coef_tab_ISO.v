(** Generated by gen/gen_coef.py from /repo/c++/symmetry/{sym-ISO-impl.hpp, nrg-recalc-ISO.hpp, coefnew}. Do not edit. *)
From Coq Require Import List ZArith String.
From Verif Require Import Base Invar_model Symmetry_model Symmetry_tables Coef_model.
Import ListNotations.
Local Open Scope string_scope.
Local Open Scope list_scope.
Local Open Scope Z_scope.

Definition ISO_e0 := (cD (cN 1) (cA (cN 1) (cM (cN 2) (cH 0)))).
Definition ISO_e1 := (cD (cM (cN 2) (cR (cM (cH 0) (cA (cN 1) (cH 0))))) (cA (cN 1) (cM (cN 2) (cH 0)))).
Definition ISO_e2 := (cD (cM (cN (-2)) (cR (cM (cH 1) (cA (cN 1) (cH 1))))) (cA (cN 1) (cM (cN 2) (cH 1)))).
Definition ISO_e3 := (cD (cN 1) (cA (cN 1) (cM (cN 2) (cH 1)))).
Definition ISO_e4 := (cD (cN 1) (cB (cN (-1)) (cM (cN 2) (cH 1)))).
Definition ISO_e5 := (cD (cN 1) (cB (cN (-1)) (cM (cN 2) (cH 0)))).
Definition ISO_e6 := (cO (cR (cB (cN 1) (cD (cN 1) (cM (cN 2) (cA (cN 1) (cH 1))))))).
Definition ISO_e7 := (cM (cG [] 0) (cR (cB (cN 1) (cD (cN 1) (cM (cN 2) (cA (cN 1) (cH 0))))))).
Definition ISO_e8 := (cR (cA (cN 1) (cD (cN 1) (cM (cN 2) (cH 1))))).
Definition ISO_e9 := (cO (cD (cM (cG [] 0) (cR (cA (cN 2) (cD (cN 1) (cH 0))))) (cR (cN 2)))).
Definition ISO_e10 := (cD (cN 1) (cR (cD (cM (cH 1) (cA (cN 1) (cM (cN 2) (cH 1)))) (cA (cA (cN (-1)) (cH 1)) (cM (cN 2) (cW (cH 1) 4)))))).
Definition ISO_e11 := (cD (cN 1) (cR (cM (cA (cN 1) (cH 1)) (cA (cN 1) (cM (cN 2) (cH 1)))))).
Definition ISO_e12 := (cO (cD (cN 1) (cR (cM (cH 1) (cA (cN 1) (cM (cN 2) (cH 1))))))).
Definition ISO_e13 := (cA (cA (cR (cD (cM (cH 1) (cA (cN 1) (cM (cN 2) (cH 1)))) (cM (cW (cA (cN 1) (cH 1)) 6) (cA (cN 3) (cM (cN 2) (cH 1)))))) (cR (cD (cM (cW (cH 1) 6) (cA (cN 1) (cM (cN 2) (cH 1)))) (cM (cW (cA (cN 1) (cH 1)) 6) (cA (cN 3) (cM (cN 2) (cH 1))))))) (cM (cN 2) (cR (cD (cH 1) (cA (cA (cA (cN 3) (cM (cN 11) (cH 1))) (cM (cN 12) (cW (cH 1) 4))) (cM (cN 4) (cW (cH 1) 6))))))).
Definition ISO_e14 := (cD (cR (cD (cM (cM (cH 1) (cA (cN 1) (cH 1))) (cA (cN 3) (cM (cN 2) (cH 1)))) (cA (cN 1) (cM (cN 2) (cH 1))))) (cA (cN 1) (cH 1))).
Definition ISO_e15 := (cO (cD (cN 1) (cR (cM (cA (cN 1) (cH 1)) (cA (cN 1) (cM (cN 2) (cH 1))))))).
Definition ISO_e16 := (cD (cN 1) (cR (cM (cH 1) (cA (cN 1) (cM (cN 2) (cH 1)))))).
Definition ISO_e17 := (cD (cA (cD (cN 1) (cR (cD (cM (cM (cH 1) (cA (cN 1) (cH 1))) (cA (cN 1) (cM (cN 2) (cH 1)))) (cA (cN (-1)) (cM (cN 2) (cH 1)))))) (cD (cN 1) (cR (cD (cM (cH 1) (cA (cN 1) (cH 1))) (cA (cN (-1)) (cM (cN 4) (cW (cH 1) 4))))))) (cN 2)).
Definition ISO_e18 := (cO (cM (cM (cG [] 0) (cR (cN 2))) (cR (cD (cH 0) (cA (cN 1) (cM (cN 2) (cH 0))))))).
Definition ISO_e19 := (cO (cD (cM (cG [] 0) (cR (cN 2))) (cR (cA (cN 2) (cD (cN 1) (cH 0)))))).
Definition ISO_e20 := (cD (cM (cM (cN 2) (cG [] 0)) (cA (cN 1) (cH 0))) (cR (cA (cA (cN 2) (cM (cN 6) (cH 0))) (cM (cN 4) (cW (cH 0) 4))))).
Definition ISO_e21 := (cD (cN 1) (cR (cM (cH 0) (cA (cN 1) (cM (cN 2) (cH 0)))))).
Definition ISO_e22 := (cD (cA (cA (cN (-1)) (cH 0)) (cM (cN 2) (cW (cH 0) 4))) (cR (cM (cM (cH 0) (cA (cN 1) (cH 0))) (cA (cN (-1)) (cM (cN 4) (cW (cH 0) 4)))))).
Definition ISO_e23 := (cD (cN 1) (cR (cM (cA (cN 1) (cH 0)) (cA (cN 1) (cM (cN 2) (cH 0)))))).
Definition ISO_e24 := (cR (cB (cA (cN 1) (cD (cN 1) (cA (cN 1) (cH 0)))) (cD (cN 2) (cA (cN 1) (cM (cN 2) (cH 0)))))).
Definition ISO_e25 := (cD (cM (cN (-2)) (cR (cM (cH 1) (cA (cN 1) (cH 1))))) (cA (cA (cA (cN 1) (cM (cN 2) (cH 0))) (cM (cN 2) (cH 1))) (cM (cM (cN 4) (cH 0)) (cH 1)))).
Definition ISO_e26 := (cD (cM (cN (-4)) (cR (cM (cM (cM (cH 0) (cA (cN 1) (cH 0))) (cH 1)) (cA (cN 1) (cH 1))))) (cA (cA (cA (cN 1) (cM (cN 2) (cH 0))) (cM (cN 2) (cH 1))) (cM (cM (cN 4) (cH 0)) (cH 1)))).
Definition ISO_e27 := (cD (cN 1) (cA (cA (cA (cN 1) (cM (cN 2) (cH 0))) (cM (cN 2) (cH 1))) (cM (cM (cN 4) (cH 0)) (cH 1)))).
Definition ISO_e28 := (cD (cM (cN 2) (cR (cM (cH 0) (cA (cN 1) (cH 0))))) (cA (cA (cA (cN 1) (cM (cN 2) (cH 0))) (cM (cN 2) (cH 1))) (cM (cM (cN 4) (cH 0)) (cH 1)))).
Definition ISO_e29 := (cD (cM (cN (-2)) (cA (cA (cR (cM (cH 0) (cA (cN 1) (cH 0)))) (cM (cN 2) (cR (cM (cW (cH 0) 6) (cA (cN 1) (cH 0)))))) (cR (cM (cW (cH 0) 10) (cA (cN 1) (cH 0)))))) (cM (cW (cA (cN 1) (cH 0)) 4) (cA (cN 1) (cM (cN 2) (cH 0))))).
Definition ISO_e30 := (cD (cM (cH 1) (cA (cN 3) (cM (cN 2) (cH 1)))) (cR (cM (cM (cH 1) (cA (cN 1) (cH 1))) (cA (cN 3) (cM (cM (cN 4) (cH 1)) (cA (cN 2) (cH 1))))))).
Definition ISO_e31 := (cO (cD (cN 1) (cA (cA (cA (cN 1) (cM (cN 2) (cH 0))) (cM (cN 2) (cH 1))) (cM (cM (cN 4) (cH 0)) (cH 1))))).
Definition ISO_e32 := (cD (cM (cN (-2)) (cR (cM (cH 0) (cA (cN 1) (cH 0))))) (cA (cN 1) (cM (cN 2) (cH 0)))).
Definition ISO_e33 := (cD (cM (cN (-2)) (cR (cM (cH 0) (cA (cN 1) (cH 0))))) (cA (cA (cA (cN 1) (cM (cN 2) (cH 0))) (cM (cN 2) (cH 1))) (cM (cM (cN 4) (cH 0)) (cH 1)))).
Definition ISO_e34 := (cD (cA (cA (cN (-1)) (cH 1)) (cM (cN 2) (cW (cH 1) 4))) (cR (cM (cM (cH 1) (cA (cN 1) (cH 1))) (cA (cN (-1)) (cM (cN 4) (cW (cH 1) 4)))))).
Definition ISO_e35 := (cR (cB (cA (cN 1) (cD (cN 1) (cA (cN 1) (cH 1)))) (cD (cN 2) (cA (cN 1) (cM (cN 2) (cH 1)))))).
Definition ISO_e36 := (cD (cN 1) (cR (cD (cM (cH 0) (cA (cN 1) (cM (cN 2) (cH 0)))) (cA (cA (cN (-1)) (cH 0)) (cM (cN 2) (cW (cH 0) 4)))))).
Definition ISO_e37 := (cO (cD (cN 1) (cR (cM (cH 0) (cA (cN 1) (cM (cN 2) (cH 0))))))).
Definition ISO_e38 := (cD (cM (cH 0) (cA (cN 3) (cM (cN 2) (cH 0)))) (cR (cM (cM (cH 0) (cA (cN 1) (cH 0))) (cA (cN 3) (cM (cM (cN 4) (cH 0)) (cA (cN 2) (cH 0))))))).
Definition ISO_e39 := (cO (cD (cN 1) (cR (cM (cA (cN 1) (cH 0)) (cA (cN 1) (cM (cN 2) (cH 0))))))).
Definition ISO_e40 := (cD (cM (cN 2) (cR (cM (cH 1) (cA (cN 1) (cH 1))))) (cA (cA (cA (cN 1) (cM (cN 2) (cH 0))) (cM (cN 2) (cH 1))) (cM (cM (cN 4) (cH 0)) (cH 1)))).
Definition ISO_e41 := (cD (cB (cN (-3)) (cM (cN 2) (cH 0))) (cM (cM (cN 2) (cR (cN 2))) (cR (cD (cM (cM (cA (cN 1) (cH 0)) (cA (cN 3) (cM (cN 2) (cH 0)))) (cA (cN 1) (cH 1))) (cA (cN 1) (cM (cN 2) (cH 1))))))).
Definition ISO_e42 := (cD (cM (cG [] 0) (cH 0)) (cM (cR (cN 2)) (cR (cM (cH 0) (cA (cN 1) (cH 0)))))).
Definition ISO_e43 := (cD (cG [] 0) (cR (cA (cN 1) (cD (cN 1) (cA (cN 1) (cM (cN 2) (cH 0))))))).
Definition ISO_e44 := (cD (cH 1) (cM (cR (cN 2)) (cR (cM (cH 1) (cA (cN 1) (cH 1)))))).
Definition ISO_e45 := (cO (cD (cN 1) (cR (cN 2)))).
Definition ISO_e46 := (cR (cB (cN 1) (cD (cN 1) (cM (cN 2) (cA (cN 1) (cH 1)))))).
Definition ISO_e47 := (cO (cM (cG [] 0) (cR (cB (cN 1) (cD (cN 1) (cM (cN 2) (cA (cN 1) (cH 0)))))))).
Definition ISO_e48 := (cD (cM (cQ (-1) 2) (cM (cG [] 0) (cA (cN 3) (cM (cN 2) (cH 1))))) (cM (cR (cN 2)) (cR (cD (cM (cM (cA (cN 1) (cH 0)) (cA (cN 1) (cH 1))) (cA (cN 3) (cM (cN 2) (cH 1)))) (cA (cN 1) (cM (cN 2) (cH 0))))))).
Definition ISO_e49 := (cD (cM (cG [] 0) (cR (cD (cM (cA (cN 1) (cM (cN 2) (cH 0))) (cA (cN 1) (cM (cN 2) (cH 1)))) (cM (cA (cN 1) (cH 0)) (cA (cN 1) (cH 1)))))) (cM (cN 2) (cR (cN 2)))).
Definition ISO_e50 := (cD (cM (cQ (-1) 2) (cM (cG [] 0) (cR (cD (cM (cA (cN 1) (cM (cN 2) (cH 0))) (cA (cN 1) (cM (cN 2) (cH 1)))) (cM (cA (cN 1) (cH 0)) (cA (cN 1) (cH 1))))))) (cR (cN 2))).
Definition ISO_e51 := (cO (cD (cH 1) (cM (cR (cN 2)) (cR (cM (cH 1) (cA (cN 1) (cH 1))))))).
Definition ISO_e52 := (cD (cM (cG [] 0) (cA (cN 3) (cM (cN 2) (cH 1)))) (cM (cM (cN 2) (cR (cN 2))) (cR (cD (cM (cM (cA (cN 1) (cH 0)) (cA (cN 1) (cH 1))) (cA (cN 3) (cM (cN 2) (cH 1)))) (cA (cN 1) (cM (cN 2) (cH 0))))))).
Definition ISO_e53 := (cD (cA (cN 3) (cM (cN 2) (cH 0))) (cM (cM (cN 2) (cR (cN 2))) (cR (cD (cM (cM (cA (cN 1) (cH 0)) (cA (cN 3) (cM (cN 2) (cH 0)))) (cH 1)) (cA (cN 1) (cM (cN 2) (cH 1))))))).
Definition ISO_e54 := (cO (cD (cR (cA (cN 2) (cD (cN 1) (cH 1)))) (cR (cN 2)))).
Definition ISO_e55 := (cO (cD (cR (cA (cN 1) (cD (cN 1) (cH 1)))) (cR (cN 2)))).
Definition ISO_e56 := (cD (cM (cQ (-1) 2) (cM (cG [] 0) (cR (cD (cM (cA (cN 1) (cM (cN 2) (cH 0))) (cA (cN (-1)) (cM (cN 2) (cH 1)))) (cM (cA (cN 1) (cH 0)) (cH 1)))))) (cR (cN 2))).
Definition ISO_e57 := (cM (cQ (-1) 2) (cM (cG [] 0) (cR (cD (cA (cA (cA (cN 1) (cM (cN 2) (cH 0))) (cM (cN 2) (cH 1))) (cM (cM (cN 4) (cH 0)) (cH 1))) (cA (cM (cN 2) (cH 1)) (cM (cM (cN 2) (cH 0)) (cH 1))))))).
Definition ISO_e58 := (cD (cM (cG [] 0) (cR (cD (cA (cA (cA (cN 1) (cM (cN 2) (cH 0))) (cM (cN 2) (cH 1))) (cM (cM (cN 4) (cH 0)) (cH 1))) (cA (cM (cN 2) (cH 1)) (cM (cM (cN 2) (cH 0)) (cH 1)))))) (cN 2)).
Definition ISO_e59 := (cD (cR (cA (cN 1) (cD (cN 1) (cH 1)))) (cR (cN 2))).
Definition ISO_e60 := (cD (cM (cG [] 0) (cR (cD (cM (cA (cN 1) (cM (cN 2) (cH 0))) (cA (cN (-1)) (cM (cN 2) (cH 1)))) (cM (cA (cN 1) (cH 0)) (cH 1))))) (cM (cN 2) (cR (cN 2)))).
Definition ISO_e61 := (cD (cB (cN 1) (cM (cN 2) (cH 0))) (cM (cM (cN 2) (cR (cN 2))) (cR (cD (cM (cM (cH 0) (cA (cN (-1)) (cM (cN 2) (cH 0)))) (cA (cN 1) (cH 1))) (cA (cN 1) (cM (cN 2) (cH 1))))))).
Definition ISO_e62 := (cM (cQ (-1) 2) (cR (cB (cN 4) (cD (cN 2) (cA (cN 1) (cH 1)))))).
Definition ISO_e63 := (cO (cD (cM (cG [] 0) (cR (cA (cN 1) (cD (cN 1) (cH 0))))) (cR (cN 2)))).
Definition ISO_e64 := (cD (cR (cA (cA (cQ 1 2) (cD (cM (cN 3) (cH 1)) (cN 2))) (cW (cH 1) 4))) (cA (cN 1) (cH 1))).
Definition ISO_e65 := (cM (cG [] 0) (cR (cA (cN 1) (cD (cN 1) (cM (cN 2) (cH 0)))))).
Definition ISO_e66 := (cD (cM (cG [] 0) (cA (cN 3) (cM (cN 2) (cH 1)))) (cM (cM (cN 2) (cR (cN 2))) (cR (cD (cM (cM (cH 0) (cA (cN 1) (cH 1))) (cA (cN 3) (cM (cN 2) (cH 1)))) (cA (cN 1) (cM (cN 2) (cH 0))))))).
Definition ISO_e67 := (cM (cQ (-1) 2) (cM (cG [] 0) (cR (cD (cA (cA (cA (cN 1) (cM (cN 2) (cH 0))) (cM (cN 2) (cH 1))) (cM (cM (cN 4) (cH 0)) (cH 1))) (cA (cM (cN 2) (cH 0)) (cM (cM (cN 2) (cH 0)) (cH 1))))))).
Definition ISO_e68 := (cD (cM (cG [] 0) (cR (cD (cA (cA (cA (cN 1) (cM (cN 2) (cH 0))) (cM (cN 2) (cH 1))) (cM (cM (cN 4) (cH 0)) (cH 1))) (cA (cM (cN 2) (cH 0)) (cM (cM (cN 2) (cH 0)) (cH 1)))))) (cN 2)).
Definition ISO_e69 := (cO (cD (cR (cA (cA (cQ 1 2) (cD (cM (cN 3) (cH 1)) (cN 2))) (cW (cH 1) 4))) (cA (cN 1) (cH 1)))).
Definition ISO_e70 := (cD (cM (cQ (-1) 2) (cM (cG [] 0) (cA (cN 3) (cM (cN 2) (cH 1))))) (cM (cR (cN 2)) (cR (cD (cM (cM (cH 0) (cA (cN 1) (cH 1))) (cA (cN 3) (cM (cN 2) (cH 1)))) (cA (cN 1) (cM (cN 2) (cH 0))))))).
Definition ISO_e71 := (cD (cR (cD (cM (cM (cA (cN (-1)) (cM (cN 2) (cH 0))) (cH 1)) (cA (cN 1) (cM (cN 2) (cH 1)))) (cH 0))) (cM (cM (cN 2) (cR (cN 2))) (cH 1))).
Definition ISO_e72 := (cO (cD (cM (cG [] 0) (cA (cN 1) (cH 0))) (cM (cR (cN 2)) (cR (cM (cH 0) (cA (cN 1) (cH 0))))))).
Definition ISO_e73 := (cD (cM (cG [] 0) (cA (cN (-1)) (cM (cN 2) (cH 1)))) (cM (cM (cN 2) (cR (cN 2))) (cR (cD (cM (cM (cH 0) (cH 1)) (cA (cN (-1)) (cM (cN 2) (cH 1)))) (cA (cN 1) (cM (cN 2) (cH 0))))))).
Definition ISO_e74 := (cD (cG [] 0) (cM (cM (cN 2) (cR (cN 2))) (cR (cD (cM (cH 0) (cH 1)) (cA (cA (cA (cN 1) (cM (cN 2) (cH 0))) (cM (cN 2) (cH 1))) (cM (cM (cN 4) (cH 0)) (cH 1))))))).
Definition ISO_e75 := (cD (cM (cQ (-1) 2) (cG [] 0)) (cM (cR (cN 2)) (cR (cD (cM (cH 0) (cH 1)) (cA (cA (cA (cN 1) (cM (cN 2) (cH 0))) (cM (cN 2) (cH 1))) (cM (cM (cN 4) (cH 0)) (cH 1))))))).
Definition ISO_e76 := (cD (cM (cG [] 0) (cB (cN 1) (cM (cN 2) (cH 1)))) (cM (cM (cN 2) (cR (cN 2))) (cR (cD (cM (cM (cH 0) (cH 1)) (cA (cN (-1)) (cM (cN 2) (cH 1)))) (cA (cN 1) (cM (cN 2) (cH 0))))))).
Definition ISO_e77 := (cA (cA (cA (cM (cN 2) (cR (cD (cH 1) (cA (cA (cA (cN 3) (cM (cN 11) (cH 1))) (cM (cN 12) (cW (cH 1) 4))) (cM (cN 4) (cW (cH 1) 6)))))) (cR (cD (cH 1) (cM (cW (cA (cN 1) (cH 1)) 6) (cA (cN 3) (cM (cM (cN 4) (cH 1)) (cA (cN 2) (cH 1)))))))) (cM (cM (cN 3) (cH 1)) (cR (cD (cH 1) (cM (cW (cA (cN 1) (cH 1)) 6) (cA (cN 3) (cM (cM (cN 4) (cH 1)) (cA (cN 2) (cH 1))))))))) (cM (cN 2) (cR (cD (cW (cH 1) 10) (cM (cW (cA (cN 1) (cH 1)) 6) (cA (cN 3) (cM (cM (cN 4) (cH 1)) (cA (cN 2) (cH 1))))))))).
Definition ISO_e78 := (cD (cR (cA (cN (-1)) (cW (cH 1) 4))) (cH 1)).
Definition ISO_e79 := (cD (cR (cB (cN 1) (cD (cN 2) (cA (cN 1) (cM (cN 2) (cH 1)))))) (cH 1)).
Definition ISO_e80 := (cA (cB (cN 1) (cD (cN 1) (cH 1))) (cD (cN 1) (cA (cN 1) (cH 1)))).
Definition ISO_e81 := (cD (cN 1) (cA (cN 1) (cH 1))).
Definition ISO_e82 := (cO (cD (cA (cN 3) (cM (cN 2) (cH 1))) (cM (cA (cN 1) (cH 1)) (cR (cA (cN 3) (cM (cM (cN 4) (cH 1)) (cA (cN 2) (cH 1)))))))).
Definition ISO_e83 := (cD (cR (cM (cH 1) (cA (cN 2) (cH 1)))) (cA (cN 1) (cH 1))).
Definition ISO_e84 := (cD (cR (cA (cN (-3)) (cM (cM (cN 4) (cH 1)) (cA (cN 1) (cH 1))))) (cA (cN 1) (cM (cN 2) (cH 1)))).
Definition ISO_e85 := (cO (cD (cR (cA (cN 3) (cM (cM (cN 4) (cH 1)) (cA (cN 2) (cH 1))))) (cM (cA (cN 1) (cH 1)) (cA (cN 1) (cM (cN 2) (cH 1)))))).
Definition ISO_e86 := (cD (cN 1) (cA (cA (cN 1) (cM (cN 3) (cH 1))) (cM (cN 2) (cW (cH 1) 4)))).
Definition ISO_e87 := (cO (cD (cN 1) (cA (cN 1) (cH 1)))).
Definition ISO_e88 := (cD (cR (cD (cM (cA (cN 1) (cH 1)) (cA (cN (-1)) (cM (cN 4) (cW (cH 1) 4)))) (cH 1))) (cA (cN 1) (cM (cN 2) (cH 1)))).
Definition ISO_e89 := (cD (cR (cA (cA (cB (cN (-1)) (cD (cN 1) (cH 1))) (cM (cN 4) (cH 1))) (cM (cN 4) (cW (cH 1) 4)))) (cA (cN 1) (cM (cN 2) (cH 1)))).
Definition ISO_e90 := (cD (cN 1) (cA (cH 1) (cM (cN 2) (cW (cH 1) 4)))).
Definition ISO_e91 := (cO (cM (cG [] 0) (cR (cB (cN 1) (cD (cN 1) (cM (cN 2) (cH 0))))))).
Definition ISO_e92 := (cD (cM (cG [] 0) (cA (cN 1) (cH 0))) (cM (cR (cN 2)) (cR (cM (cH 0) (cA (cN 1) (cH 0)))))).
Definition ISO_e93 := (cO (cD (cG [] 0) (cR (cA (cN 2) (cD (cN 2) (cH 0)))))).
Definition ISO_e94 := (cM (cG [] 0) (cR (cA (cN 1) (cD (cN 1) (cA (cN 2) (cM (cN 2) (cH 0))))))).
Definition ISO_e95 := (cO (cM (cM (cG [] 0) (cR (cN 2))) (cR (cD (cM (cH 0) (cH 1)) (cA (cA (cA (cN 1) (cM (cN 2) (cH 0))) (cM (cN 2) (cH 1))) (cM (cM (cN 4) (cH 0)) (cH 1))))))).
Definition ISO_e96 := (cD (cM (cG [] 0) (cA (cR (cD (cM (cM (cA (cN 1) (cH 0)) (cH 1)) (cA (cN 1) (cM (cN 2) (cH 1)))) (cA (cN 1) (cM (cN 2) (cH 0))))) (cR (cM (cM (cM (cA (cN 1) (cH 0)) (cA (cN 1) (cM (cN 2) (cH 0)))) (cH 1)) (cA (cN 1) (cM (cN 2) (cH 1))))))) (cM (cM (cR (cN 2)) (cA (cN 1) (cH 0))) (cA (cN 1) (cM (cN 2) (cH 1))))).
Definition ISO_e97 := (cD (cM (cG [] 0) (cA (cD (cH 0) (cR (cM (cM (cM (cH 0) (cA (cN 1) (cM (cN 2) (cH 0)))) (cA (cN 1) (cH 1))) (cA (cN 1) (cM (cN 2) (cH 1)))))) (cD (cN 1) (cR (cD (cM (cA (cN 1) (cM (cN 2) (cH 0))) (cA (cN 1) (cH 1))) (cA (cH 0) (cM (cM (cN 2) (cH 0)) (cH 1)))))))) (cR (cN 2))).
Definition ISO_e98 := (cO (cD (cM (cM (cM (cG [] 0) (cR (cN 2))) (cA (cN 1) (cH 0))) (cA (cN 1) (cH 1))) (cR (cM (cM (cM (cA (cN 1) (cH 0)) (cA (cN 1) (cM (cN 2) (cH 0)))) (cA (cN 1) (cH 1))) (cA (cN 1) (cM (cN 2) (cH 1))))))).
Definition ISO_e99 := (cO (cM (cM (cM (cG [] 0) (cR (cN 2))) (cA (cN 1) (cH 1))) (cR (cD (cH 0) (cM (cA (cN 1) (cM (cN 2) (cH 0))) (cA (cA (cN 1) (cM (cN 3) (cH 1))) (cM (cN 2) (cW (cH 1) 4)))))))).
Definition ISO_e100 := (cM (cM (cG [] 0) (cR (cN 2))) (cR (cD (cM (cH 0) (cH 1)) (cA (cA (cA (cN 1) (cM (cN 2) (cH 0))) (cM (cN 2) (cH 1))) (cM (cM (cN 4) (cH 0)) (cH 1)))))).
Definition ISO_e101 := (cD (cM (cG [] 0) (cA (cR (cD (cM (cM (cA (cN 1) (cH 0)) (cA (cN 1) (cH 1))) (cA (cN 1) (cM (cN 2) (cH 1)))) (cA (cN 1) (cM (cN 2) (cH 0))))) (cR (cM (cM (cM (cA (cN 1) (cH 0)) (cA (cN 1) (cM (cN 2) (cH 0)))) (cA (cN 1) (cH 1))) (cA (cN 1) (cM (cN 2) (cH 1))))))) (cM (cM (cR (cN 2)) (cA (cN 1) (cH 0))) (cA (cN 1) (cM (cN 2) (cH 1))))).
Definition ISO_e102 := (cO (cD (cM (cG [] 0) (cA (cR (cD (cM (cM (cA (cN 1) (cH 0)) (cH 1)) (cA (cN 1) (cM (cN 2) (cH 1)))) (cA (cN 1) (cM (cN 2) (cH 0))))) (cR (cM (cM (cM (cA (cN 1) (cH 0)) (cA (cN 1) (cM (cN 2) (cH 0)))) (cH 1)) (cA (cN 1) (cM (cN 2) (cH 1))))))) (cM (cM (cR (cN 2)) (cA (cN 1) (cH 0))) (cA (cN 1) (cM (cN 2) (cH 1)))))).
Definition ISO_e103 := (cO (cD (cM (cM (cG [] 0) (cR (cN 2))) (cR (cD (cM (cM (cH 0) (cH 1)) (cA (cN 1) (cM (cN 2) (cH 1)))) (cA (cN 1) (cM (cN 2) (cH 0)))))) (cA (cN 1) (cM (cN 2) (cH 1))))).
Definition ISO_e104 := (cD (cM (cG [] 0) (cB (cO (cD (cH 0) (cR (cM (cM (cM (cH 0) (cA (cN 1) (cM (cN 2) (cH 0)))) (cA (cN 1) (cH 1))) (cA (cN 1) (cM (cN 2) (cH 1))))))) (cD (cN 1) (cR (cD (cM (cA (cN 1) (cM (cN 2) (cH 0))) (cA (cN 1) (cH 1))) (cA (cH 0) (cM (cM (cN 2) (cH 0)) (cH 1)))))))) (cR (cN 2))).
Definition ISO_e105 := (cD (cM (cG [] 0) (cA (cA (cB (cO (cD (cR (cD (cM (cM (cA (cN 1) (cM (cN 2) (cH 0))) (cH 1)) (cA (cN 1) (cM (cN 2) (cH 1)))) (cA (cN 1) (cH 0)))) (cA (cN 1) (cM (cN 2) (cH 1))))) (cD (cH 1) (cR (cM (cM (cM (cA (cN 1) (cH 0)) (cA (cN 1) (cM (cN 2) (cH 0)))) (cH 1)) (cA (cN 1) (cM (cN 2) (cH 1))))))) (cD (cA (cN 3) (cM (cN 2) (cH 1))) (cR (cD (cM (cM (cA (cN 1) (cH 0)) (cA (cN 1) (cM (cN 2) (cH 0)))) (cA (cN 1) (cM (cN 2) (cH 1)))) (cH 1))))) (cD (cA (cN 3) (cM (cN 2) (cH 1))) (cR (cD (cM (cA (cN 1) (cH 0)) (cA (cN 1) (cM (cN 2) (cH 1)))) (cA (cH 1) (cM (cM (cN 2) (cH 0)) (cH 1)))))))) (cM (cM (cN 2) (cR (cN 2))) (cA (cN 1) (cH 1)))).
Definition ISO_e106 := (cD (cM (cM (cM (cG [] 0) (cR (cN 2))) (cA (cN 1) (cH 0))) (cA (cN 1) (cH 1))) (cR (cM (cM (cM (cA (cN 1) (cH 0)) (cA (cN 1) (cM (cN 2) (cH 0)))) (cA (cN 1) (cH 1))) (cA (cN 1) (cM (cN 2) (cH 1)))))).
Definition ISO_e107 := (cM (cM (cG [] 0) (cR (cN 2))) (cR (cD (cH 0) (cA (cN 1) (cM (cN 2) (cH 0)))))).
Definition ISO_e108 := (cM (cM (cM (cG [] 0) (cR (cN 2))) (cA (cN 1) (cH 1))) (cR (cD (cH 0) (cM (cA (cN 1) (cM (cN 2) (cH 0))) (cA (cA (cN 1) (cM (cN 3) (cH 1))) (cM (cN 2) (cW (cH 1) 4))))))).
Definition ISO_e109 := (cD (cM (cM (cN (-2)) (cG [] 0)) (cA (cN 1) (cH 0))) (cR (cA (cA (cN 2) (cM (cN 6) (cH 0))) (cM (cN 4) (cW (cH 0) 4))))).
Definition ISO_e110 := (cO (cD (cM (cG [] 0) (cA (cR (cD (cM (cM (cA (cN 1) (cH 0)) (cA (cN 1) (cH 1))) (cA (cN 1) (cM (cN 2) (cH 1)))) (cA (cN 1) (cM (cN 2) (cH 0))))) (cR (cM (cM (cM (cA (cN 1) (cH 0)) (cA (cN 1) (cM (cN 2) (cH 0)))) (cA (cN 1) (cH 1))) (cA (cN 1) (cM (cN 2) (cH 1))))))) (cM (cM (cR (cN 2)) (cA (cN 1) (cH 0))) (cA (cN 1) (cM (cN 2) (cH 1)))))).
Definition ISO_e111 := (cD (cM (cM (cG [] 0) (cR (cN 2))) (cR (cD (cM (cM (cH 0) (cH 1)) (cA (cN 1) (cM (cN 2) (cH 1)))) (cA (cN 1) (cM (cN 2) (cH 0)))))) (cA (cN 1) (cM (cN 2) (cH 1)))).
Definition ISO_e112 := (cD (cG [] 0) (cR (cA (cN 1) (cD (cN 1) (cM (cN 2) (cH 0)))))).
Definition ISO_e113 := (cD (cM (cG [] 0) (cA (cA (cA (cD (cB (cN (-3)) (cM (cN 2) (cH 1))) (cR (cD (cM (cM (cA (cN 1) (cH 0)) (cA (cN 1) (cM (cN 2) (cH 0)))) (cA (cN 1) (cM (cN 2) (cH 1)))) (cH 1)))) (cD (cR (cD (cM (cM (cA (cN 1) (cM (cN 2) (cH 0))) (cH 1)) (cA (cN 1) (cM (cN 2) (cH 1)))) (cA (cN 1) (cH 0)))) (cA (cN 1) (cM (cN 2) (cH 1))))) (cD (cH 1) (cR (cM (cM (cM (cA (cN 1) (cH 0)) (cA (cN 1) (cM (cN 2) (cH 0)))) (cH 1)) (cA (cN 1) (cM (cN 2) (cH 1))))))) (cD (cB (cN (-3)) (cM (cN 2) (cH 1))) (cR (cD (cM (cA (cN 1) (cH 0)) (cA (cN 1) (cM (cN 2) (cH 1)))) (cA (cH 1) (cM (cM (cN 2) (cH 0)) (cH 1)))))))) (cM (cM (cN 2) (cR (cN 2))) (cA (cN 1) (cH 1)))).
Definition ISO_e114 := (cD (cB (cN (-3)) (cM (cN 2) (cH 0))) (cM (cR (cN 6)) (cR (cD (cM (cM (cA (cN 1) (cH 0)) (cA (cN 3) (cM (cN 2) (cH 0)))) (cA (cN 1) (cH 1))) (cA (cN 1) (cM (cN 2) (cH 1))))))).
Definition ISO_e115 := (cO (cD (cA (cA (cR (cD (cM (cA (cN 1) (cH 0)) (cA (cN 1) (cM (cN 2) (cH 1)))) (cA (cN 2) (cH 0)))) (cM (cN 5) (cR (cD (cA (cN 1) (cM (cN 2) (cH 1))) (cA (cA (cN 2) (cM (cN 3) (cH 0))) (cW (cH 0) 4)))))) (cM (cM (cN 2) (cH 0)) (cA (cR (cD (cM (cA (cN 1) (cH 0)) (cA (cN 1) (cM (cN 2) (cH 1)))) (cA (cN 2) (cH 0)))) (cM (cN 2) (cR (cD (cA (cN 1) (cM (cN 2) (cH 1))) (cA (cA (cN 2) (cM (cN 3) (cH 0))) (cW (cH 0) 4)))))))) (cM (cM (cR (cN 6)) (cA (cN 3) (cM (cN 2) (cH 0)))) (cR (cA (cN 1) (cH 1)))))).
Definition ISO_e116 := (cD (cM (cG [] 0) (cR (cA (cA (cN (-1)) (cH 0)) (cM (cN 2) (cW (cH 0) 4))))) (cM (cR (cN 6)) (cA (cN 1) (cH 0)))).
Definition ISO_e117 := (cD (cM (cM (cG [] 0) (cR (cQ 2 3))) (cH 0)) (cR (cM (cH 0) (cA (cN 1) (cH 0))))).
Definition ISO_e118 := (cR (cD (cA (cN 3) (cM (cN 2) (cH 0))) (cA (cN 6) (cM (cN 6) (cH 0))))).
Definition ISO_e119 := (cD (cN 1) (cR (cA (cN 2) (cD (cN 2) (cH 1))))).
Definition ISO_e120 := (cD (cA (cN 3) (cM (cN 2) (cH 0))) (cM (cM (cN 2) (cR (cN 2))) (cR (cD (cM (cM (cA (cN 1) (cH 0)) (cA (cN 3) (cM (cN 2) (cH 0)))) (cA (cN 1) (cH 1))) (cH 1))))).
Definition ISO_e121 := (cD (cB (cN (-3)) (cM (cN 2) (cH 0))) (cM (cN 2) (cR (cA (cA (cN 6) (cM (cN 10) (cH 0))) (cM (cN 4) (cW (cH 0) 4)))))).
Definition ISO_e122 := (cD (cA (cN 3) (cM (cN 2) (cH 0))) (cM (cM (cN 2) (cR (cN 2))) (cR (cD (cM (cM (cA (cN 1) (cH 0)) (cA (cN 3) (cM (cN 2) (cH 0)))) (cA (cN 1) (cH 1))) (cA (cN 1) (cM (cN 2) (cH 1))))))).
Definition ISO_e123 := (cO (cD (cM (cG [] 0) (cH 0)) (cM (cR (cN 2)) (cR (cM (cH 0) (cA (cN 1) (cH 0))))))).
Definition ISO_e124 := (cO (cD (cG [] 0) (cR (cA (cN 1) (cD (cN 1) (cA (cN 1) (cM (cN 2) (cH 0)))))))).
Definition ISO_e125 := (cD (cM (cQ (-1) 2) (cM (cM (cG [] 0) (cH 0)) (cA (cN 3) (cM (cN 2) (cH 1))))) (cM (cR (cN 2)) (cR (cM (cM (cM (cH 0) (cA (cN 1) (cH 0))) (cA (cN 1) (cH 1))) (cA (cN 3) (cM (cN 2) (cH 1))))))).
Definition ISO_e126 := (cD (cB (cN (-3)) (cM (cN 2) (cH 1))) (cM (cN 2) (cR (cA (cA (cN 6) (cM (cN 10) (cH 1))) (cM (cN 4) (cW (cH 1) 4)))))).
Definition ISO_e127 := (cD (cM (cQ (-1) 2) (cM (cM (cG [] 0) (cA (cN 3) (cM (cN 2) (cH 1)))) (cA (cM (cN 2) (cR (cD (cM (cA (cN 1) (cH 0)) (cA (cN 1) (cM (cN 2) (cH 0)))) (cM (cA (cN 1) (cH 1)) (cA (cN 3) (cM (cN 2) (cH 1))))))) (cR (cD (cA (cN 1) (cM (cN 2) (cH 0))) (cM (cA (cN 1) (cH 0)) (cA (cA (cN 3) (cM (cN 5) (cH 1))) (cM (cN 2) (cW (cH 1) 4))))))))) (cM (cR (cN 2)) (cA (cN 3) (cM (cN 2) (cH 0))))).
Definition ISO_e128 := (cD (cB (cN 1) (cM (cN 2) (cH 1))) (cM (cR (cN 6)) (cR (cA (cA (cN (-1)) (cH 1)) (cM (cN 2) (cW (cH 1) 4)))))).
Definition ISO_e129 := (cO (cD (cM (cR (cQ 2 3)) (cH 1)) (cR (cM (cH 1) (cA (cN 1) (cH 1)))))).
Definition ISO_e130 := (cD (cA (cN 3) (cM (cN 2) (cH 1))) (cM (cN 2) (cR (cA (cA (cN 6) (cM (cN 10) (cH 1))) (cM (cN 4) (cW (cH 1) 4)))))).
Definition ISO_e131 := (cD (cR (cA (cN 2) (cD (cN 1) (cA (cN 1) (cH 1))))) (cM (cN 2) (cR (cN 6)))).
Definition ISO_e132 := (cO (cD (cA (cA (cR (cD (cA (cN 1) (cM (cN 2) (cH 1))) (cA (cA (cA (cN 6) (cM (cN 13) (cH 1))) (cM (cN 9) (cW (cH 1) 4))) (cM (cN 2) (cW (cH 1) 6))))) (cR (cM (cA (cN 1) (cH 1)) (cA (cM (cN 4) (cH 1)) (cD (cN 3) (cA (cN 2) (cH 1))))))) (cM (cN 2) (cR (cA (cB (cN 1) (cD (cN 3) (cA (cN 2) (cH 1)))) (cD (cN 2) (cA (cN 3) (cM (cN 2) (cH 1)))))))) (cM (cR (cN 2)) (cR (cM (cA (cN 2) (cH 1)) (cA (cN 3) (cM (cN 2) (cH 1)))))))).
Definition ISO_e133 := (cD (cM (cG [] 0) (cH 0)) (cM (cR (cN 6)) (cR (cD (cM (cM (cH 0) (cA (cN 1) (cH 0))) (cA (cN 1) (cH 1))) (cA (cN 1) (cM (cN 2) (cH 1))))))).
Definition ISO_e134 := (cD (cM (cG [] 0) (cA (cR (cD (cM (cA (cN 1) (cM (cN 2) (cH 0))) (cA (cN 1) (cM (cN 2) (cH 1)))) (cA (cN 1) (cH 0)))) (cM (cN 2) (cR (cM (cM (cA (cN 1) (cH 0)) (cA (cN 1) (cM (cN 2) (cH 0)))) (cA (cN 1) (cM (cN 2) (cH 1)))))))) (cM (cM (cR (cN 6)) (cA (cN 3) (cM (cN 2) (cH 0)))) (cR (cA (cN 1) (cH 1))))).
Definition ISO_e135 := (cD (cM (cQ (-1) 2) (cM (cG [] 0) (cH 0))) (cM (cR (cN 2)) (cR (cD (cM (cM (cH 0) (cA (cN 1) (cH 0))) (cA (cN 1) (cH 1))) (cA (cN 1) (cM (cN 2) (cH 1))))))).
Definition ISO_e136 := (cM (cQ (-1) 2) (cR (cB (cN 1) (cD (cN 1) (cM (cN 2) (cA (cN 1) (cH 1))))))).
Definition ISO_e137 := (cD (cM (cQ (-1) 2) (cM (cG [] 0) (cA (cR (cD (cM (cA (cN 1) (cM (cN 2) (cH 0))) (cA (cN 1) (cM (cN 2) (cH 1)))) (cA (cN 1) (cH 0)))) (cM (cN 2) (cR (cM (cM (cA (cN 1) (cH 0)) (cA (cN 1) (cM (cN 2) (cH 0)))) (cA (cN 1) (cM (cN 2) (cH 1))))))))) (cM (cM (cR (cN 2)) (cA (cN 3) (cM (cN 2) (cH 0)))) (cR (cA (cN 1) (cH 1))))).
Definition ISO_e138 := (cD (cR (cB (cN 1) (cD (cN 1) (cM (cN 2) (cA (cN 1) (cH 1)))))) (cN 2)).
Definition ISO_e139 := (cM (cQ (-1) 2) (cR (cB (cN 3) (cD (cN 3) (cM (cN 2) (cA (cN 1) (cH 1))))))).
Definition ISO_e140 := (cD (cM (cG [] 0) (cA (cN 3) (cM (cN 2) (cH 1)))) (cM (cR (cN 6)) (cR (cD (cM (cM (cA (cN 1) (cH 0)) (cA (cN 1) (cH 1))) (cA (cN 3) (cM (cN 2) (cH 1)))) (cA (cN 1) (cM (cN 2) (cH 0))))))).
Definition ISO_e141 := (cD (cM (cG [] 0) (cR (cD (cA (cA (cA (cN 2) (cM (cN 4) (cH 0))) (cH 1)) (cM (cM (cN 2) (cH 0)) (cH 1))) (cA (cA (cA (cN 1) (cH 0)) (cH 1)) (cM (cH 0) (cH 1)))))) (cR (cN 6))).
Definition ISO_e142 := (cD (cM (cQ (-1) 2) (cM (cG [] 0) (cH 1))) (cM (cR (cN 2)) (cR (cD (cM (cM (cA (cN 1) (cH 0)) (cH 1)) (cA (cN 1) (cH 1))) (cA (cN 1) (cM (cN 2) (cH 0))))))).
Definition ISO_e143 := (cD (cM (cG [] 0) (cR (cB (cN 1) (cD (cN 1) (cM (cN 2) (cA (cN 1) (cH 0))))))) (cN 2)).
Definition ISO_e144 := (cD (cM (cQ (-1) 2) (cM (cG [] 0) (cR (cD (cA (cA (cA (cN 1) (cM (cN 2) (cH 0))) (cM (cN 2) (cH 1))) (cM (cM (cN 4) (cH 0)) (cH 1))) (cA (cA (cA (cN 1) (cH 0)) (cH 1)) (cM (cH 0) (cH 1))))))) (cR (cN 2))).
Definition ISO_e145 := (cD (cM (cG [] 0) (cH 1)) (cM (cM (cN 2) (cR (cN 2))) (cR (cD (cM (cM (cA (cN 1) (cH 0)) (cH 1)) (cA (cN 1) (cH 1))) (cA (cN 1) (cM (cN 2) (cH 0))))))).
Definition ISO_e146 := (cM (cQ (-1) 2) (cM (cG [] 0) (cR (cB (cN 1) (cD (cN 1) (cM (cN 2) (cA (cN 1) (cH 0)))))))).
Definition ISO_e147 := (cD (cM (cG [] 0) (cR (cD (cA (cA (cA (cN 1) (cM (cN 2) (cH 0))) (cM (cN 2) (cH 1))) (cM (cM (cN 4) (cH 0)) (cH 1))) (cA (cA (cA (cN 1) (cH 0)) (cH 1)) (cM (cH 0) (cH 1)))))) (cM (cN 2) (cR (cN 2)))).
Definition ISO_e148 := (cD (cM (cG [] 0) (cH 1)) (cM (cM (cN 2) (cR (cN 6))) (cR (cD (cM (cM (cA (cN 1) (cH 0)) (cH 1)) (cA (cN 1) (cH 1))) (cA (cN 1) (cM (cN 2) (cH 0))))))).
Definition ISO_e149 := (cD (cM (cG [] 0) (cR (cB (cN 3) (cD (cN 3) (cM (cN 2) (cA (cN 1) (cH 0))))))) (cN 2)).
Definition ISO_e150 := (cD (cM (cG [] 0) (cR (cD (cA (cA (cA (cN 1) (cM (cN 2) (cH 0))) (cM (cN 2) (cH 1))) (cM (cM (cN 4) (cH 0)) (cH 1))) (cA (cA (cA (cN 1) (cH 0)) (cH 1)) (cM (cH 0) (cH 1)))))) (cM (cN 2) (cR (cN 6)))).
Definition ISO_e151 := (cD (cB (cN (-3)) (cM (cN 2) (cH 0))) (cM (cM (cN 2) (cR (cN 2))) (cR (cD (cM (cM (cA (cN 1) (cH 0)) (cA (cN 3) (cM (cN 2) (cH 0)))) (cA (cN 1) (cH 1))) (cH 1))))).
Definition ISO_e152 := (cO (cD (cN 1) (cR (cN 6)))).
Definition ISO_e153 := (cD (cM (cQ (-1) 2) (cR (cA (cN 2) (cD (cN 1) (cA (cN 1) (cH 0)))))) (cR (cN 6))).
Definition ISO_e154 := (cD (cA (cN 3) (cM (cN 2) (cH 0))) (cM (cN 2) (cR (cA (cA (cN 6) (cM (cN 10) (cH 0))) (cM (cN 4) (cW (cH 0) 4)))))).
Definition ISO_e155 := (cD (cG [] 0) (cR (cA (cN 2) (cD (cN 2) (cH 0))))).
Definition ISO_e156 := (cD (cM (cM (cG [] 0) (cH 0)) (cA (cN 3) (cM (cN 2) (cH 1)))) (cM (cM (cN 2) (cR (cN 2))) (cR (cM (cM (cM (cH 0) (cA (cN 1) (cH 0))) (cA (cN 1) (cH 1))) (cA (cN 3) (cM (cN 2) (cH 1))))))).
Definition ISO_e157 := (cD (cM (cM (cG [] 0) (cA (cN 3) (cM (cN 2) (cH 1)))) (cA (cM (cN 2) (cR (cD (cM (cA (cN 1) (cH 0)) (cA (cN 1) (cM (cN 2) (cH 0)))) (cM (cA (cN 1) (cH 1)) (cA (cN 3) (cM (cN 2) (cH 1))))))) (cR (cD (cA (cN 1) (cM (cN 2) (cH 0))) (cM (cA (cN 1) (cH 0)) (cA (cA (cN 3) (cM (cN 5) (cH 1))) (cM (cN 2) (cW (cH 1) 4)))))))) (cM (cM (cN 2) (cR (cN 2))) (cA (cN 3) (cM (cN 2) (cH 0))))).
Definition ISO_e158 := (cD (cR (cA (cA (cN (-1)) (cH 1)) (cM (cN 2) (cW (cH 1) 4)))) (cM (cR (cN 6)) (cA (cN 1) (cH 1)))).
Definition ISO_e159 := (cD (cM (cR (cQ 2 3)) (cH 1)) (cR (cM (cH 1) (cA (cN 1) (cH 1))))).
Definition ISO_e160 := (cD (cM (cQ (-1) 2) (cR (cA (cN 2) (cD (cN 1) (cA (cN 1) (cH 1)))))) (cR (cN 6))).
Definition ISO_e161 := (cD (cA (cA (cR (cD (cA (cN 1) (cM (cN 2) (cH 1))) (cA (cA (cA (cN 6) (cM (cN 13) (cH 1))) (cM (cN 9) (cW (cH 1) 4))) (cM (cN 2) (cW (cH 1) 6))))) (cR (cM (cA (cN 1) (cH 1)) (cA (cM (cN 4) (cH 1)) (cD (cN 3) (cA (cN 2) (cH 1))))))) (cM (cN 2) (cR (cA (cB (cN 1) (cD (cN 3) (cA (cN 2) (cH 1)))) (cD (cN 2) (cA (cN 3) (cM (cN 2) (cH 1)))))))) (cM (cR (cN 2)) (cR (cM (cA (cN 2) (cH 1)) (cA (cN 3) (cM (cN 2) (cH 1))))))).
Definition ISO_e162 := (cD (cM (cQ (-1) 2) (cM (cG [] 0) (cH 0))) (cM (cR (cN 6)) (cR (cD (cM (cM (cH 0) (cA (cN 1) (cH 0))) (cA (cN 1) (cH 1))) (cA (cN 1) (cM (cN 2) (cH 1))))))).
Definition ISO_e163 := (cD (cM (cQ (-1) 2) (cM (cG [] 0) (cA (cR (cD (cM (cA (cN 1) (cM (cN 2) (cH 0))) (cA (cN 1) (cM (cN 2) (cH 1)))) (cA (cN 1) (cH 0)))) (cM (cN 2) (cR (cM (cM (cA (cN 1) (cH 0)) (cA (cN 1) (cM (cN 2) (cH 0)))) (cA (cN 1) (cM (cN 2) (cH 1))))))))) (cM (cM (cR (cN 6)) (cA (cN 3) (cM (cN 2) (cH 0)))) (cR (cA (cN 1) (cH 1))))).
Definition ISO_e164 := (cD (cM (cG [] 0) (cH 0)) (cM (cM (cN 2) (cR (cN 2))) (cR (cD (cM (cM (cH 0) (cA (cN 1) (cH 0))) (cA (cN 1) (cH 1))) (cA (cN 1) (cM (cN 2) (cH 1))))))).
Definition ISO_e165 := (cD (cM (cG [] 0) (cA (cR (cD (cM (cA (cN 1) (cM (cN 2) (cH 0))) (cA (cN 1) (cM (cN 2) (cH 1)))) (cA (cN 1) (cH 0)))) (cM (cN 2) (cR (cM (cM (cA (cN 1) (cH 0)) (cA (cN 1) (cM (cN 2) (cH 0)))) (cA (cN 1) (cM (cN 2) (cH 1)))))))) (cM (cM (cM (cN 2) (cR (cN 2))) (cA (cN 3) (cM (cN 2) (cH 0)))) (cR (cA (cN 1) (cH 1))))).
Definition ISO_e166 := (cD (cR (cB (cN 3) (cD (cN 3) (cM (cN 2) (cA (cN 1) (cH 1)))))) (cN 2)).
Definition ISO_e167 := (cO (cD (cM (cG [] 0) (cA (cN 3) (cM (cN 2) (cH 1)))) (cM (cR (cN 6)) (cR (cD (cM (cM (cA (cN 1) (cH 0)) (cA (cN 1) (cH 1))) (cA (cN 3) (cM (cN 2) (cH 1)))) (cA (cN 1) (cM (cN 2) (cH 0)))))))).
Definition ISO_e168 := (cO (cD (cM (cG [] 0) (cR (cD (cA (cA (cA (cN 2) (cM (cN 4) (cH 0))) (cH 1)) (cM (cM (cN 2) (cH 0)) (cH 1))) (cA (cA (cA (cN 1) (cH 0)) (cH 1)) (cM (cH 0) (cH 1)))))) (cR (cN 6)))).
Definition ISO_e169 := (cD (cM (cQ (-1) 2) (cM (cG [] 0) (cH 1))) (cM (cR (cN 6)) (cR (cD (cM (cM (cA (cN 1) (cH 0)) (cH 1)) (cA (cN 1) (cH 1))) (cA (cN 1) (cM (cN 2) (cH 0))))))).
Definition ISO_e170 := (cM (cQ (-1) 2) (cM (cG [] 0) (cR (cB (cN 3) (cD (cN 3) (cM (cN 2) (cA (cN 1) (cH 0)))))))).
Definition ISO_e171 := (cD (cM (cQ (-1) 2) (cM (cG [] 0) (cR (cD (cA (cA (cA (cN 1) (cM (cN 2) (cH 0))) (cM (cN 2) (cH 1))) (cM (cM (cN 4) (cH 0)) (cH 1))) (cA (cA (cA (cN 1) (cH 0)) (cH 1)) (cM (cH 0) (cH 1))))))) (cR (cN 6))).
Definition ISO_e172 := (cD (cB (cN (-3)) (cM (cN 2) (cH 1))) (cM (cR (cN 6)) (cR (cM (cA (cN 1) (cH 1)) (cA (cN 3) (cM (cN 2) (cH 1))))))).
Definition ISO_e173 := (cO (cD (cM (cG [] 0) (cH 1)) (cM (cR (cN 6)) (cR (cD (cM (cM (cA (cN 1) (cH 0)) (cH 1)) (cA (cN 1) (cH 1))) (cA (cN 1) (cM (cN 2) (cH 0)))))))).
Definition ISO_e174 := (cO (cD (cM (cG [] 0) (cR (cD (cA (cA (cA (cN 1) (cM (cN 2) (cH 0))) (cM (cN 2) (cH 1))) (cM (cM (cN 4) (cH 0)) (cH 1))) (cA (cA (cA (cN 1) (cH 0)) (cH 1)) (cM (cH 0) (cH 1)))))) (cR (cN 6)))).
Definition ISO_e175 := (cD (cA (cN 3) (cM (cN 2) (cH 0))) (cM (cR (cN 6)) (cR (cD (cM (cM (cA (cN 1) (cH 0)) (cA (cN 3) (cM (cN 2) (cH 0)))) (cH 1)) (cA (cN 1) (cM (cN 2) (cH 1))))))).
Definition ISO_e176 := (cD (cA (cN 2) (cH 0)) (cM (cR (cN 6)) (cR (cD (cM (cM (cA (cN 1) (cH 0)) (cA (cN 2) (cH 0))) (cH 1)) (cA (cN 1) (cM (cN 2) (cH 1))))))).
Definition ISO_e177 := (cD (cM (cG [] 0) (cA (cA (cM (cN 5) (cR (cM (cM (cA (cN 1) (cH 0)) (cA (cN 1) (cM (cN 2) (cH 0)))) (cH 1)))) (cM (cM (cN 2) (cH 0)) (cR (cM (cM (cA (cN 1) (cH 0)) (cA (cN 1) (cM (cN 2) (cH 0)))) (cH 1))))) (cR (cD (cA (cH 1) (cM (cM (cN 2) (cH 0)) (cH 1))) (cA (cN 1) (cH 0)))))) (cM (cM (cM (cR (cN 2)) (cA (cN 2) (cH 0))) (cA (cN 3) (cM (cN 2) (cH 0)))) (cR (cH 1)))).
Definition ISO_e178 := (cD (cB (cN (-3)) (cM (cN 2) (cH 0))) (cM (cM (cN 2) (cR (cN 2))) (cR (cD (cM (cM (cA (cN 1) (cH 0)) (cA (cN 3) (cM (cN 2) (cH 0)))) (cH 1)) (cA (cN 1) (cM (cN 2) (cH 1))))))).
Definition ISO_e179 := (cD (cM (cQ (-1) 2) (cR (cD (cM (cM (cA (cN 1) (cH 0)) (cA (cN 3) (cM (cN 2) (cH 0)))) (cA (cN 1) (cH 1))) (cH 1)))) (cM (cR (cN 2)) (cA (cN 1) (cH 0)))).
Definition ISO_e180 := (cD (cM (cG [] 0) (cB (cH 0) (cM (cM (cN 2) (cH 0)) (cH 1)))) (cM (cM (cN 2) (cR (cN 2))) (cR (cM (cM (cM (cH 0) (cA (cN 1) (cH 0))) (cH 1)) (cA (cN (-1)) (cM (cN 2) (cH 1))))))).
Definition ISO_e181 := (cM (cQ (-1) 2) (cR (cB (cN 1) (cD (cN 1) (cM (cN 2) (cH 1)))))).
Definition ISO_e182 := (cD (cM (cQ (-1) 2) (cM (cM (cM (cG [] 0) (cR (cA (cQ 1 2) (cH 1)))) (cA (cN (-1)) (cM (cN 2) (cH 1)))) (cA (cM (cN 2) (cR (cO (cD (cM (cA (cN 1) (cH 0)) (cA (cN 1) (cM (cN 2) (cH 0)))) (cB (cH 1) (cM (cN 4) (cW (cH 1) 6))))))) (cR (cD (cA (cN 1) (cM (cN 2) (cH 0))) (cM (cA (cN 1) (cH 0)) (cA (cO (cH 1)) (cM (cN 4) (cW (cH 1) 6))))))))) (cA (cN 3) (cM (cN 2) (cH 0)))).
Definition ISO_e183 := (cM (cR (cQ 2 3)) (cR (cA (cN 1) (cD (cN 1) (cH 1))))).
Definition ISO_e184 := (cD (cR (cB (cN 1) (cD (cN 1) (cM (cN 2) (cH 1))))) (cN 2)).
Definition ISO_e185 := (cD (cR (cB (cN 2) (cD (cN 1) (cH 1)))) (cM (cN 2) (cR (cN 6)))).
Definition ISO_e186 := (cR (cA (cQ 1 3) (cD (cN 1) (cM (cN 2) (cH 1))))).
Definition ISO_e187 := (cO (cD (cM (cG [(0%nat, (-2))] 2) (cH 0)) (cM (cR (cN 6)) (cR (cD (cM (cM (cH 0) (cA (cN 1) (cH 0))) (cH 1)) (cA (cN 1) (cM (cN 2) (cH 1)))))))).
Definition ISO_e188 := (cO (cD (cM (cM (cG [] 0) (cR (cA (cN 1) (cM (cN 2) (cH 1))))) (cA (cM (cN 2) (cR (cD (cM (cA (cN 1) (cH 0)) (cA (cN 1) (cM (cN 2) (cH 0)))) (cH 1)))) (cR (cD (cA (cN 1) (cM (cN 2) (cH 0))) (cA (cH 1) (cM (cH 0) (cH 1))))))) (cM (cR (cN 6)) (cA (cN 3) (cM (cN 2) (cH 0)))))).
Definition ISO_e189 := (cD (cG [] 0) (cM (cM (cN 2) (cR (cN 2))) (cR (cD (cM (cA (cN 1) (cH 0)) (cH 1)) (cA (cH 0) (cM (cM (cN 2) (cH 0)) (cH 1))))))).
Definition ISO_e190 := (cD (cR (cA (cN 1) (cD (cN 1) (cM (cN 2) (cH 1))))) (cN 2)).
Definition ISO_e191 := (cD (cM (cM (cG [] 0) (cR (cA (cQ 1 2) (cH 1)))) (cA (cM (cN 2) (cR (cD (cM (cA (cN 1) (cH 0)) (cA (cN 1) (cM (cN 2) (cH 0)))) (cH 1)))) (cR (cD (cA (cN 1) (cM (cN 2) (cH 0))) (cA (cH 1) (cM (cH 0) (cH 1))))))) (cM (cN 2) (cA (cN 3) (cM (cN 2) (cH 0))))).
Definition ISO_e192 := (cD (cM (cQ (-1) 2) (cR (cA (cN 2) (cD (cN 1) (cH 1))))) (cR (cN 2))).
Definition ISO_e193 := (cD (cR (cA (cN 3) (cD (cN 3) (cM (cN 2) (cH 1))))) (cN 2)).
Definition ISO_e194 := (cD (cM (cG [] 0) (cR (cD (cM (cA (cN 1) (cM (cN 2) (cH 0))) (cA (cN (-1)) (cH 1))) (cM (cA (cN 1) (cH 0)) (cH 1))))) (cR (cN 6))).
Definition ISO_e195 := (cD (cM (cG [(0%nat, (-2))] 2) (cA (cN (-1)) (cM (cN 2) (cH 1)))) (cM (cR (cN 6)) (cR (cD (cM (cM (cA (cN 1) (cH 0)) (cH 1)) (cA (cN (-1)) (cM (cN 2) (cH 1)))) (cA (cN 1) (cM (cN 2) (cH 0))))))).
Definition ISO_e196 := (cD (cM (cG [(0%nat, (-2))] 2) (cA (cA (cR (cD (cM (cM (cM (cA (cN 1) (cM (cN 2) (cH 0))) (cH 1)) (cA (cN 1) (cH 1))) (cA (cN 1) (cM (cN 2) (cH 1)))) (cA (cN 3) (cM (cN 2) (cH 1))))) (cR (cD (cM (cM (cA (cN 1) (cM (cN 2) (cH 0))) (cH 1)) (cA (cN 1) (cM (cN 2) (cH 1)))) (cA (cA (cN 3) (cM (cN 5) (cH 1))) (cM (cN 2) (cW (cH 1) 4)))))) (cR (cD (cM (cA (cN 1) (cM (cN 2) (cH 0))) (cH 1)) (cA (cA (cA (cN 3) (cM (cN 11) (cH 1))) (cM (cN 12) (cW (cH 1) 4))) (cM (cN 4) (cW (cH 1) 6))))))) (cM (cR (cN 2)) (cR (cD (cM (cM (cM (cA (cN 1) (cH 0)) (cH 1)) (cA (cN 1) (cH 1))) (cA (cN 3) (cM (cN 2) (cH 1)))) (cA (cN 1) (cM (cN 2) (cH 1))))))).
Definition ISO_e197 := (cD (cM (cG [(0%nat, (-2))] 2) (cA (cN 1) (cH 1))) (cM (cM (cN 2) (cR (cN 2))) (cR (cD (cM (cM (cA (cN 1) (cH 0)) (cH 1)) (cA (cN 1) (cH 1))) (cA (cN 1) (cM (cN 2) (cH 0))))))).
Definition ISO_e198 := (cD (cM (cQ (-1) 2) (cM (cG [(0%nat, (-2))] 2) (cA (cN 1) (cH 1)))) (cM (cR (cN 2)) (cR (cD (cM (cM (cA (cN 1) (cH 0)) (cH 1)) (cA (cN 1) (cH 1))) (cA (cN 1) (cM (cN 2) (cH 0))))))).
Definition ISO_e199 := (cM (cQ (-1) 2) (cM (cG [] 0) (cR (cD (cA (cA (cA (cN 1) (cM (cN 2) (cH 0))) (cM (cN 2) (cH 1))) (cM (cM (cN 4) (cH 0)) (cH 1))) (cA (cM (cN 6) (cH 1)) (cM (cM (cN 6) (cH 0)) (cH 1))))))).
Definition ISO_e200 := (cD (cM (cQ (-1) 2) (cM (cG [(0%nat, (-2))] 2) (cA (cN 1) (cH 1)))) (cM (cR (cN 6)) (cR (cD (cM (cM (cA (cN 1) (cH 0)) (cH 1)) (cA (cN 1) (cH 1))) (cA (cN 1) (cM (cN 2) (cH 0))))))).
Definition ISO_e201 := (cD (cR (cD (cM (cM (cA (cN 1) (cH 0)) (cA (cN 3) (cM (cN 2) (cH 0)))) (cA (cN 1) (cH 1))) (cH 1))) (cM (cM (cN 2) (cR (cN 2))) (cA (cN 1) (cH 0)))).
Definition ISO_e202 := (cD (cM (cM (cG [] 0) (cH 0)) (cA (cN (-1)) (cM (cN 2) (cH 1)))) (cM (cM (cN 2) (cR (cN 2))) (cR (cM (cM (cM (cH 0) (cA (cN 1) (cH 0))) (cH 1)) (cA (cN (-1)) (cM (cN 2) (cH 1))))))).
Definition ISO_e203 := (cD (cM (cM (cM (cG [] 0) (cR (cA (cQ 1 2) (cH 1)))) (cA (cN (-1)) (cM (cN 2) (cH 1)))) (cA (cM (cN 2) (cR (cO (cD (cM (cA (cN 1) (cH 0)) (cA (cN 1) (cM (cN 2) (cH 0)))) (cB (cH 1) (cM (cN 4) (cW (cH 1) 6))))))) (cR (cD (cA (cN 1) (cM (cN 2) (cH 0))) (cM (cA (cN 1) (cH 0)) (cA (cO (cH 1)) (cM (cN 4) (cW (cH 1) 6)))))))) (cM (cN 2) (cA (cN 3) (cM (cN 2) (cH 0))))).
Definition ISO_e204 := (cO (cM (cR (cQ 2 3)) (cR (cA (cN 1) (cD (cN 1) (cH 1)))))).
Definition ISO_e205 := (cD (cM (cQ (-1) 2) (cR (cB (cN 2) (cD (cN 1) (cH 1))))) (cR (cN 6))).
Definition ISO_e206 := (cO (cD (cR (cA (cN 2) (cD (cN 3) (cH 1)))) (cR (cN 6)))).
Definition ISO_e207 := (cD (cG [] 0) (cM (cM (cN 2) (cR (cN 6))) (cR (cD (cM (cA (cN 1) (cH 0)) (cH 1)) (cA (cH 0) (cM (cM (cN 2) (cH 0)) (cH 1))))))).
Definition ISO_e208 := (cD (cM (cM (cG [] 0) (cR (cA (cN 1) (cM (cN 2) (cH 1))))) (cA (cM (cN 2) (cR (cD (cM (cA (cN 1) (cH 0)) (cA (cN 1) (cM (cN 2) (cH 0)))) (cH 1)))) (cR (cD (cA (cN 1) (cM (cN 2) (cH 0))) (cA (cH 1) (cM (cH 0) (cH 1))))))) (cM (cM (cN 2) (cR (cN 6))) (cA (cN 3) (cM (cN 2) (cH 0))))).
Definition ISO_e209 := (cD (cM (cQ (-1) 2) (cM (cG [(0%nat, (-2))] 2) (cH 0))) (cM (cR (cN 2)) (cR (cD (cM (cM (cH 0) (cA (cN 1) (cH 0))) (cH 1)) (cA (cN 1) (cM (cN 2) (cH 1))))))).
Definition ISO_e210 := (cD (cM (cQ (-1) 2) (cM (cM (cG [] 0) (cR (cA (cQ 1 2) (cH 1)))) (cA (cM (cN 2) (cR (cD (cM (cA (cN 1) (cH 0)) (cA (cN 1) (cM (cN 2) (cH 0)))) (cH 1)))) (cR (cD (cA (cN 1) (cM (cN 2) (cH 0))) (cA (cH 1) (cM (cH 0) (cH 1)))))))) (cA (cN 3) (cM (cN 2) (cH 0)))).
Definition ISO_e211 := (cM (cQ (-1) 2) (cR (cA (cN 3) (cD (cN 3) (cM (cN 2) (cH 1)))))).
Definition ISO_e212 := (cO (cD (cM (cG [] 0) (cR (cD (cM (cA (cN 1) (cM (cN 2) (cH 0))) (cA (cN (-1)) (cH 1))) (cM (cA (cN 1) (cH 0)) (cH 1))))) (cR (cN 6)))).
Definition ISO_e213 := (cD (cM (cG [(0%nat, (-2))] 2) (cB (cN 1) (cM (cN 2) (cH 1)))) (cM (cR (cN 6)) (cR (cD (cM (cM (cA (cN 1) (cH 0)) (cH 1)) (cA (cN (-1)) (cM (cN 2) (cH 1)))) (cA (cN 1) (cM (cN 2) (cH 0))))))).
Definition ISO_e214 := (cO (cD (cM (cG [(0%nat, (-2))] 2) (cA (cA (cR (cD (cM (cM (cM (cA (cN 1) (cM (cN 2) (cH 0))) (cH 1)) (cA (cN 1) (cH 1))) (cA (cN 1) (cM (cN 2) (cH 1)))) (cA (cN 3) (cM (cN 2) (cH 1))))) (cR (cD (cM (cM (cA (cN 1) (cM (cN 2) (cH 0))) (cH 1)) (cA (cN 1) (cM (cN 2) (cH 1)))) (cA (cA (cN 3) (cM (cN 5) (cH 1))) (cM (cN 2) (cW (cH 1) 4)))))) (cR (cD (cA (cH 1) (cM (cM (cN 2) (cH 0)) (cH 1))) (cA (cA (cA (cN 3) (cM (cN 11) (cH 1))) (cM (cN 12) (cW (cH 1) 4))) (cM (cN 4) (cW (cH 1) 6))))))) (cM (cR (cN 2)) (cR (cD (cM (cM (cM (cA (cN 1) (cH 0)) (cH 1)) (cA (cN 1) (cH 1))) (cA (cN 3) (cM (cN 2) (cH 1)))) (cA (cN 1) (cM (cN 2) (cH 1)))))))).
Definition ISO_e215 := (cD (cM (cG [] 0) (cR (cD (cA (cA (cA (cN 1) (cM (cN 2) (cH 0))) (cM (cN 2) (cH 1))) (cM (cM (cN 4) (cH 0)) (cH 1))) (cA (cM (cN 6) (cH 1)) (cM (cM (cN 6) (cH 0)) (cH 1)))))) (cN 2)).
Definition ISO_e216 := (cD (cM (cG [(0%nat, (-2))] 2) (cA (cN 1) (cH 1))) (cM (cM (cN 2) (cR (cN 6))) (cR (cD (cM (cM (cA (cN 1) (cH 0)) (cH 1)) (cA (cN 1) (cH 1))) (cA (cN 1) (cM (cN 2) (cH 0))))))).
Definition ISO_e217 := (cO (cD (cR (cB (cN 2) (cD (cN 1) (cH 1)))) (cR (cN 6)))).
Definition ISO_e218 := (cM (cG [] 0) (cR (cD (cA (cA (cA (cN 1) (cM (cN 2) (cH 0))) (cM (cN 2) (cH 1))) (cM (cM (cN 4) (cH 0)) (cH 1))) (cA (cM (cN 6) (cH 1)) (cM (cM (cN 6) (cH 0)) (cH 1)))))).
Definition ISO_e219 := (cD (cM (cG [(0%nat, (-2))] 2) (cA (cN 1) (cH 1))) (cM (cR (cN 6)) (cR (cD (cM (cM (cA (cN 1) (cH 0)) (cH 1)) (cA (cN 1) (cH 1))) (cA (cN 1) (cM (cN 2) (cH 0))))))).
Definition ISO_e220 := (cO (cD (cA (cN (-1)) (cH 0)) (cM (cR (cN 6)) (cR (cD (cM (cM (cA (cN (-1)) (cH 0)) (cH 0)) (cA (cN 1) (cH 1))) (cA (cN 1) (cM (cN 2) (cH 1)))))))).
Definition ISO_e221 := (cD (cB (cN 1) (cM (cN 2) (cH 0))) (cM (cR (cN 6)) (cR (cD (cM (cM (cH 0) (cA (cN (-1)) (cM (cN 2) (cH 0)))) (cA (cN 1) (cH 1))) (cA (cN 1) (cM (cN 2) (cH 1))))))).
Definition ISO_e222 := (cO (cD (cA (cA (cM (cN 2) (cR (cM (cM (cH 0) (cA (cN 1) (cM (cN 2) (cH 0)))) (cA (cN 1) (cM (cN 2) (cH 1)))))) (cM (cH 0) (cR (cM (cM (cH 0) (cA (cN 1) (cM (cN 2) (cH 0)))) (cA (cN 1) (cM (cN 2) (cH 1))))))) (cR (cD (cA (cH 0) (cM (cM (cN 2) (cH 0)) (cH 1))) (cA (cN 1) (cM (cN 2) (cH 0)))))) (cM (cM (cM (cR (cN 2)) (cA (cN 1) (cH 0))) (cA (cN 3) (cM (cN 2) (cH 0)))) (cR (cD (cM (cH 0) (cA (cN 1) (cH 1))) (cA (cN 1) (cM (cN 2) (cH 0)))))))).
Definition ISO_e223 := (cO (cD (cM (cM (cG [] 0) (cR (cQ 2 3))) (cA (cN 1) (cH 0))) (cR (cM (cH 0) (cA (cN 1) (cH 0)))))).
Definition ISO_e224 := (cD (cR (cB (cN 2) (cD (cN 1) (cH 0)))) (cR (cN 6))).
Definition ISO_e225 := (cO (cD (cM (cG [] 0) (cR (cM (cH 0) (cA (cN 3) (cM (cN 2) (cH 0)))))) (cM (cR (cN 6)) (cH 0)))).
Definition ISO_e226 := (cD (cM (cA (cN (-1)) (cM (cN 2) (cH 0))) (cH 1)) (cM (cM (cN 2) (cR (cN 2))) (cR (cM (cM (cM (cH 0) (cA (cN (-1)) (cM (cN 2) (cH 0)))) (cH 1)) (cA (cN 1) (cH 1)))))).
Definition ISO_e227 := (cM (cQ (-1) 2) (cR (cB (cN 1) (cD (cN 1) (cM (cN 2) (cH 0)))))).
Definition ISO_e228 := (cD (cA (cN (-1)) (cM (cN 2) (cH 0))) (cM (cM (cN 2) (cR (cN 2))) (cR (cD (cM (cM (cH 0) (cA (cN (-1)) (cM (cN 2) (cH 0)))) (cA (cN 1) (cH 1))) (cA (cN 1) (cM (cN 2) (cH 1))))))).
Definition ISO_e229 := (cD (cN 1) (cR (cA (cN 1) (cD (cN 1) (cA (cN 1) (cM (cN 2) (cH 1))))))).
Definition ISO_e230 := (cD (cM (cM (cG [] 0) (cA (cN 1) (cH 0))) (cA (cN 3) (cM (cN 2) (cH 1)))) (cM (cM (cN 2) (cR (cN 2))) (cR (cM (cM (cM (cH 0) (cA (cN 1) (cH 0))) (cA (cN 1) (cH 1))) (cA (cN 3) (cM (cN 2) (cH 1))))))).
Definition ISO_e231 := (cD (cM (cQ (-1) 2) (cA (cN 3) (cM (cN 2) (cH 1)))) (cR (cA (cA (cN 6) (cM (cN 10) (cH 1))) (cM (cN 4) (cW (cH 1) 4))))).
Definition ISO_e232 := (cO (cD (cN 1) (cR (cA (cN 3) (cD (cN 9) (cA (cN (-1)) (cM (cN 2) (cH 1)))))))).
Definition ISO_e233 := (cD (cB (cB (cO (cR (cD (cM (cM (cM (cH 0) (cA (cN 1) (cH 1))) (cA (cN 1) (cM (cN 2) (cH 1)))) (cA (cN 3) (cM (cN 2) (cH 1)))) (cA (cN 2) (cH 1))))) (cR (cD (cA (cH 0) (cM (cM (cN 2) (cH 0)) (cH 1))) (cA (cA (cA (cN 6) (cM (cN 13) (cH 1))) (cM (cN 9) (cW (cH 1) 4))) (cM (cN 2) (cW (cH 1) 6)))))) (cM (cN 2) (cR (cM (cH 0) (cA (cB (cN 1) (cD (cN 3) (cA (cN 2) (cH 1)))) (cD (cN 2) (cA (cN 3) (cM (cN 2) (cH 1))))))))) (cM (cR (cN 2)) (cR (cM (cM (cH 0) (cA (cN 2) (cH 1))) (cA (cN 3) (cM (cN 2) (cH 1))))))).
Definition ISO_e234 := (cO (cM (cG [] 0) (cR (cD (cA (cA (cA (cN 1) (cM (cN 2) (cH 0))) (cM (cN 2) (cH 1))) (cM (cM (cN 4) (cH 0)) (cH 1))) (cA (cM (cN 6) (cH 0)) (cM (cM (cN 6) (cH 0)) (cH 1))))))).
Definition ISO_e235 := (cO (cD (cM (cG [] 0) (cA (cN 1) (cH 0))) (cM (cR (cN 6)) (cR (cD (cM (cM (cH 0) (cA (cN 1) (cH 0))) (cA (cN 1) (cH 1))) (cA (cN 1) (cM (cN 2) (cH 1)))))))).
Definition ISO_e236 := (cD (cM (cG [] 0) (cA (cN 1) (cH 0))) (cM (cM (cN 2) (cR (cN 2))) (cR (cD (cM (cM (cH 0) (cA (cN 1) (cH 0))) (cA (cN 1) (cH 1))) (cA (cN 1) (cM (cN 2) (cH 1))))))).
Definition ISO_e237 := (cO (cD (cM (cG [] 0) (cA (cN 3) (cM (cN 2) (cH 1)))) (cM (cR (cN 6)) (cR (cD (cM (cM (cH 0) (cA (cN 1) (cH 1))) (cA (cN 3) (cM (cN 2) (cH 1)))) (cA (cN 1) (cM (cN 2) (cH 0)))))))).
Definition ISO_e238 := (cO (cM (cG [] 0) (cR (cD (cA (cA (cA (cN 2) (cM (cN 4) (cH 0))) (cH 1)) (cM (cM (cN 2) (cH 0)) (cH 1))) (cA (cM (cN 6) (cH 0)) (cM (cM (cN 6) (cH 0)) (cH 1))))))).
Definition ISO_e239 := (cD (cG [] 0) (cM (cM (cN 2) (cR (cN 2))) (cR (cD (cM (cH 0) (cA (cN 1) (cH 1))) (cA (cH 1) (cM (cM (cN 2) (cH 0)) (cH 1))))))).
Definition ISO_e240 := (cD (cM (cQ (-1) 2) (cM (cG [] 0) (cR (cA (cN 2) (cD (cN 1) (cH 0)))))) (cR (cN 2))).
Definition ISO_e241 := (cD (cM (cQ (-1) 2) (cM (cG [] 0) (cH 1))) (cM (cR (cN 2)) (cR (cD (cM (cM (cH 0) (cH 1)) (cA (cN 1) (cH 1))) (cA (cN 1) (cM (cN 2) (cH 0))))))).
Definition ISO_e242 := (cD (cM (cG [] 0) (cR (cA (cN 1) (cD (cN 1) (cM (cN 2) (cH 0)))))) (cN 2)).
Definition ISO_e243 := (cD (cM (cQ (-1) 2) (cM (cG [] 0) (cH 1))) (cM (cR (cN 6)) (cR (cD (cM (cM (cH 0) (cH 1)) (cA (cN 1) (cH 1))) (cA (cN 1) (cM (cN 2) (cH 0))))))).
Definition ISO_e244 := (cM (cQ (-1) 2) (cM (cG [] 0) (cR (cA (cN 3) (cD (cN 3) (cM (cN 2) (cH 0))))))).
Definition ISO_e245 := (cM (cQ (-1) 2) (cM (cG [] 0) (cR (cD (cA (cA (cA (cN 1) (cM (cN 2) (cH 0))) (cM (cN 2) (cH 1))) (cM (cM (cN 4) (cH 0)) (cH 1))) (cA (cM (cN 6) (cH 0)) (cM (cM (cN 6) (cH 0)) (cH 1))))))).
Definition ISO_e246 := (cD (cB (cH 1) (cM (cM (cN 2) (cH 0)) (cH 1))) (cM (cM (cN 2) (cR (cN 2))) (cR (cM (cM (cM (cH 0) (cA (cN (-1)) (cM (cN 2) (cH 0)))) (cH 1)) (cA (cN 1) (cH 1)))))).
Definition ISO_e247 := (cO (cD (cN 1) (cR (cA (cN 1) (cD (cN 1) (cA (cN 1) (cM (cN 2) (cH 1)))))))).
Definition ISO_e248 := (cD (cM (cQ (-1) 2) (cR (cB (cN 2) (cD (cN 1) (cH 0))))) (cR (cN 6))).
Definition ISO_e249 := (cD (cR (cB (cN 1) (cD (cN 1) (cM (cN 2) (cH 0))))) (cN 2)).
Definition ISO_e250 := (cD (cM (cQ (-1) 2) (cM (cM (cG [] 0) (cA (cN 1) (cH 0))) (cA (cN 3) (cM (cN 2) (cH 1))))) (cM (cR (cN 2)) (cR (cM (cM (cM (cH 0) (cA (cN 1) (cH 0))) (cA (cN 1) (cH 1))) (cA (cN 3) (cM (cN 2) (cH 1))))))).
Definition ISO_e251 := (cD (cN 1) (cR (cA (cN 3) (cD (cN 9) (cA (cN (-1)) (cM (cN 2) (cH 1))))))).
Definition ISO_e252 := (cD (cM (cG [] 0) (cR (cD (cA (cA (cA (cN 1) (cM (cN 2) (cH 0))) (cM (cN 2) (cH 1))) (cM (cM (cN 4) (cH 0)) (cH 1))) (cA (cM (cN 6) (cH 0)) (cM (cM (cN 6) (cH 0)) (cH 1)))))) (cN 2)).
Definition ISO_e253 := (cD (cM (cG [] 0) (cA (cN 1) (cH 0))) (cM (cM (cN 2) (cR (cN 6))) (cR (cD (cM (cM (cH 0) (cA (cN 1) (cH 0))) (cA (cN 1) (cH 1))) (cA (cN 1) (cM (cN 2) (cH 1))))))).
Definition ISO_e254 := (cD (cM (cQ (-1) 2) (cM (cG [] 0) (cA (cN 1) (cH 0)))) (cM (cR (cN 2)) (cR (cD (cM (cM (cH 0) (cA (cN 1) (cH 0))) (cA (cN 1) (cH 1))) (cA (cN 1) (cM (cN 2) (cH 1))))))).
Definition ISO_e255 := (cD (cM (cG [] 0) (cA (cN 3) (cM (cN 2) (cH 1)))) (cM (cR (cN 6)) (cR (cD (cM (cM (cH 0) (cA (cN 1) (cH 1))) (cA (cN 3) (cM (cN 2) (cH 1)))) (cA (cN 1) (cM (cN 2) (cH 0))))))).
Definition ISO_e256 := (cM (cG [] 0) (cR (cD (cA (cA (cA (cN 2) (cM (cN 4) (cH 0))) (cH 1)) (cM (cM (cN 2) (cH 0)) (cH 1))) (cA (cM (cN 6) (cH 0)) (cM (cM (cN 6) (cH 0)) (cH 1)))))).
Definition ISO_e257 := (cD (cG [] 0) (cM (cM (cN 2) (cR (cN 6))) (cR (cD (cM (cH 0) (cA (cN 1) (cH 1))) (cA (cH 1) (cM (cM (cN 2) (cH 0)) (cH 1))))))).
Definition ISO_e258 := (cD (cM (cG [] 0) (cR (cA (cN 3) (cD (cN 3) (cM (cN 2) (cH 0)))))) (cN 2)).
Definition ISO_e259 := (cD (cG [] 0) (cM (cR (cN 6)) (cR (cD (cM (cH 0) (cA (cN 1) (cH 1))) (cA (cH 1) (cM (cM (cN 2) (cH 0)) (cH 1))))))).
Definition ISO_e260 := (cM (cG [] 0) (cR (cD (cA (cA (cA (cN 1) (cM (cN 2) (cH 0))) (cM (cN 2) (cH 1))) (cM (cM (cN 4) (cH 0)) (cH 1))) (cA (cM (cN 6) (cH 0)) (cM (cM (cN 6) (cH 0)) (cH 1)))))).
Definition ISO_e261 := (cD (cR (cD (cM (cM (cA (cN (-1)) (cH 0)) (cH 1)) (cA (cN 1) (cM (cN 2) (cH 1)))) (cH 0))) (cM (cR (cN 6)) (cH 1))).
Definition ISO_e262 := (cD (cR (cD (cM (cM (cA (cN (-1)) (cM (cN 2) (cH 0))) (cH 1)) (cA (cN 1) (cM (cN 2) (cH 1)))) (cH 0))) (cM (cR (cN 6)) (cH 1))).
Definition ISO_e263 := (cD (cM (cQ (-1) 2) (cR (cD (cM (cM (cA (cN (-1)) (cM (cN 2) (cH 0))) (cH 1)) (cA (cN 1) (cM (cN 2) (cH 1)))) (cH 0)))) (cM (cR (cN 2)) (cH 1))).
Definition ISO_e264 := (cD (cM (cQ (-1) 2) (cR (cD (cM (cM (cA (cN (-1)) (cM (cN 2) (cH 0))) (cH 1)) (cA (cN 1) (cH 1))) (cH 0)))) (cM (cR (cN 2)) (cH 1))).
Definition ISO_e265 := (cD (cM (cG [] 0) (cR (cM (cM (cM (cH 0) (cA (cN 1) (cH 0))) (cH 1)) (cA (cN (-1)) (cM (cN 2) (cH 1)))))) (cM (cM (cM (cN 2) (cR (cN 2))) (cH 0)) (cH 1))).
Definition ISO_e266 := (cD (cG [] 0) (cM (cR (cN 6)) (cR (cD (cM (cH 0) (cH 1)) (cA (cA (cA (cN 1) (cM (cN 2) (cH 0))) (cM (cN 2) (cH 1))) (cM (cM (cN 4) (cH 0)) (cH 1))))))).
Definition ISO_e267 := (cD (cM (cG [] 0) (cA (cN 1) (cH 0))) (cM (cR (cN 6)) (cR (cD (cM (cM (cH 0) (cA (cN 1) (cH 0))) (cH 1)) (cA (cN 1) (cM (cN 2) (cH 1))))))).
Definition ISO_e268 := (cD (cM (cQ (-1) 2) (cM (cG [] 0) (cA (cN 1) (cH 0)))) (cM (cR (cN 2)) (cR (cD (cM (cM (cH 0) (cA (cN 1) (cH 0))) (cH 1)) (cA (cN 1) (cM (cN 2) (cH 1))))))).
Definition ISO_e269 := (cO (cD (cM (cG [] 0) (cR (cD (cM (cA (cN 1) (cM (cN 2) (cH 0))) (cA (cN (-1)) (cH 1))) (cM (cH 0) (cH 1))))) (cR (cN 6)))).
Definition ISO_e270 := (cD (cM (cG [] 0) (cB (cN 1) (cM (cN 2) (cH 1)))) (cM (cR (cN 6)) (cR (cD (cM (cM (cH 0) (cH 1)) (cA (cN (-1)) (cM (cN 2) (cH 1)))) (cA (cN 1) (cM (cN 2) (cH 0))))))).
Definition ISO_e271 := (cO (cD (cM (cG [] 0) (cA (cA (cR (cD (cM (cM (cH 1) (cA (cN 1) (cH 1))) (cA (cN 1) (cM (cN 2) (cH 1)))) (cA (cN 3) (cM (cN 2) (cH 1))))) (cR (cD (cH 1) (cA (cA (cA (cN 3) (cM (cN 11) (cH 1))) (cM (cN 12) (cW (cH 1) 4))) (cM (cN 4) (cW (cH 1) 6)))))) (cR (cB (cA (cN 1) (cD (cN 1) (cA (cN 1) (cH 1)))) (cD (cN 6) (cA (cN 3) (cM (cN 2) (cH 1)))))))) (cM (cR (cN 2)) (cR (cD (cM (cM (cM (cH 0) (cH 1)) (cA (cN 1) (cH 1))) (cA (cN 3) (cM (cN 2) (cH 1)))) (cM (cA (cN 1) (cM (cN 2) (cH 0))) (cA (cN 1) (cM (cN 2) (cH 1))))))))).
Definition ISO_e272 := (cD (cM (cQ (-1) 2) (cM (cG [] 0) (cA (cN 1) (cH 1)))) (cM (cR (cN 2)) (cR (cD (cM (cM (cH 0) (cH 1)) (cA (cN 1) (cH 1))) (cA (cN 1) (cM (cN 2) (cH 0))))))).
Definition ISO_e273 := (cD (cM (cG [] 0) (cA (cN 1) (cH 1))) (cM (cM (cN 2) (cR (cN 2))) (cR (cD (cM (cM (cH 0) (cH 1)) (cA (cN 1) (cH 1))) (cA (cN 1) (cM (cN 2) (cH 0))))))).
Definition ISO_e274 := (cD (cG [] 0) (cM (cM (cN 2) (cR (cN 6))) (cR (cD (cM (cH 0) (cH 1)) (cA (cA (cA (cN 1) (cM (cN 2) (cH 0))) (cM (cN 2) (cH 1))) (cM (cM (cN 4) (cH 0)) (cH 1))))))).
Definition ISO_e275 := (cD (cM (cG [] 0) (cA (cN 1) (cH 1))) (cM (cM (cN 2) (cR (cN 6))) (cR (cD (cM (cM (cH 0) (cH 1)) (cA (cN 1) (cH 1))) (cA (cN 1) (cM (cN 2) (cH 0))))))).
Definition ISO_e276 := (cD (cR (cD (cM (cM (cA (cN (-1)) (cM (cN 2) (cH 0))) (cH 1)) (cA (cN 1) (cH 1))) (cH 0))) (cM (cM (cN 2) (cR (cN 2))) (cH 1))).
Definition ISO_e277 := (cD (cM (cQ (-1) 2) (cM (cG [] 0) (cR (cM (cM (cM (cH 0) (cA (cN 1) (cH 0))) (cH 1)) (cA (cN (-1)) (cM (cN 2) (cH 1))))))) (cM (cM (cR (cN 2)) (cH 0)) (cH 1))).
Definition ISO_e278 := (cD (cM (cQ (-1) 2) (cG [] 0)) (cM (cR (cN 6)) (cR (cD (cM (cH 0) (cH 1)) (cA (cA (cA (cN 1) (cM (cN 2) (cH 0))) (cM (cN 2) (cH 1))) (cM (cM (cN 4) (cH 0)) (cH 1))))))).
Definition ISO_e279 := (cD (cM (cQ (-1) 2) (cM (cG [] 0) (cA (cN 1) (cH 0)))) (cM (cR (cN 6)) (cR (cD (cM (cM (cH 0) (cA (cN 1) (cH 0))) (cH 1)) (cA (cN 1) (cM (cN 2) (cH 1))))))).
Definition ISO_e280 := (cD (cM (cG [] 0) (cA (cN 1) (cH 0))) (cM (cM (cN 2) (cR (cN 2))) (cR (cD (cM (cM (cH 0) (cA (cN 1) (cH 0))) (cH 1)) (cA (cN 1) (cM (cN 2) (cH 1))))))).
Definition ISO_e281 := (cD (cM (cG [] 0) (cR (cD (cM (cA (cN 1) (cM (cN 2) (cH 0))) (cA (cN (-1)) (cH 1))) (cM (cH 0) (cH 1))))) (cR (cN 6))).
Definition ISO_e282 := (cD (cM (cG [] 0) (cA (cN (-1)) (cM (cN 2) (cH 1)))) (cM (cR (cN 6)) (cR (cD (cM (cM (cH 0) (cH 1)) (cA (cN (-1)) (cM (cN 2) (cH 1)))) (cA (cN 1) (cM (cN 2) (cH 0))))))).
Definition ISO_e283 := (cD (cM (cG [] 0) (cA (cA (cR (cD (cM (cM (cH 1) (cA (cN 1) (cH 1))) (cA (cN 1) (cM (cN 2) (cH 1)))) (cA (cN 3) (cM (cN 2) (cH 1))))) (cR (cD (cH 1) (cA (cA (cA (cN 3) (cM (cN 11) (cH 1))) (cM (cN 12) (cW (cH 1) 4))) (cM (cN 4) (cW (cH 1) 6)))))) (cR (cB (cA (cN 1) (cD (cN 1) (cA (cN 1) (cH 1)))) (cD (cN 6) (cA (cN 3) (cM (cN 2) (cH 1)))))))) (cM (cR (cN 2)) (cR (cD (cM (cM (cM (cH 0) (cH 1)) (cA (cN 1) (cH 1))) (cA (cN 3) (cM (cN 2) (cH 1)))) (cM (cA (cN 1) (cM (cN 2) (cH 0))) (cA (cN 1) (cM (cN 2) (cH 1)))))))).
Definition ISO_e284 := (cD (cM (cQ (-1) 2) (cM (cG [] 0) (cA (cN 1) (cH 1)))) (cM (cR (cN 6)) (cR (cD (cM (cM (cH 0) (cH 1)) (cA (cN 1) (cH 1))) (cA (cN 1) (cM (cN 2) (cH 0))))))).
Definition ISO_e285 := (cO (cD (cG [] 0) (cM (cR (cN 6)) (cR (cD (cM (cH 0) (cH 1)) (cA (cA (cA (cN 1) (cM (cN 2) (cH 0))) (cM (cN 2) (cH 1))) (cM (cM (cN 4) (cH 0)) (cH 1)))))))).
Definition ISO_e286 := (cO (cD (cM (cG [] 0) (cA (cN 1) (cH 1))) (cM (cR (cN 6)) (cR (cD (cM (cM (cH 0) (cH 1)) (cA (cN 1) (cH 1))) (cA (cN 1) (cM (cN 2) (cH 0)))))))).
Definition ISO_e287 := (cO (cM (cG [] 0) (cR (cA (cN 1) (cD (cN 1) (cB (cN 1) (cM (cN 2) (cH 0)))))))).
Definition ISO_e288 := (cD (cM (cM (cG [] 0) (cR (cQ 2 3))) (cA (cN 1) (cH 0))) (cR (cA (cA (cN (-1)) (cH 0)) (cM (cN 2) (cW (cH 0) 4))))).
Definition ISO_e289 := (cD (cM (cG [] 0) (cB (cN 1) (cM (cN 2) (cH 0)))) (cR (cA (cQ (-3) 2) (cM (cN 6) (cW (cH 0) 4))))).
Definition ISO_e290 := (cD (cM (cG [] 0) (cA (cN 3) (cM (cN 2) (cH 0)))) (cR (cA (cQ 9 2) (cM (cM (cN 6) (cH 0)) (cA (cN 2) (cH 0)))))).
Definition ISO_e291 := (cO (cD (cM (cM (cG [] 0) (cR (cQ 2 3))) (cH 0)) (cR (cM (cH 0) (cA (cN 3) (cM (cN 2) (cH 0))))))).
Definition ISO_e292 := (cD (cM (cG [] 0) (cA (cN 2) (cH 0))) (cR (cA (cA (cN 3) (cD (cM (cN 7) (cH 0)) (cN 2))) (cW (cH 0) 4)))).
Definition ISO_e293 := (cO (cM (cM (cG [] 0) (cR (cQ 2 3))) (cR (cD (cM (cA (cN (-1)) (cM (cN 2) (cH 0))) (cH 1)) (cA (cH 0) (cM (cM (cN 2) (cH 0)) (cH 1))))))).
Definition ISO_e294 := (cM (cM (cG [] 0) (cR (cQ 2 3))) (cA (cM (cH 0) (cR (cD (cH 1) (cM (cA (cH 0) (cW (cH 0) 4)) (cA (cN 1) (cM (cN 2) (cH 1))))))) (cM (cH 1) (cR (cD (cN 1) (cM (cM (cH 0) (cA (cN 1) (cH 0))) (cA (cH 1) (cM (cN 2) (cW (cH 1) 4))))))))).
Definition ISO_e295 := (cO (cM (cM (cG [] 0) (cR (cN 2))) (cR (cD (cM (cH 0) (cH 1)) (cA (cA (cA (cN 3) (cM (cN 3) (cH 0))) (cM (cN 6) (cH 1))) (cM (cM (cN 6) (cH 0)) (cH 1))))))).
Definition ISO_e296 := (cD (cM (cM (cG [] 0) (cH 1)) (cA (cD (cA (cN 1) (cM (cN 2) (cH 0))) (cR (cD (cM (cM (cW (cA (cN 1) (cH 0)) 6) (cH 1)) (cA (cN 1) (cM (cN 2) (cH 1)))) (cA (cN 3) (cM (cN 2) (cH 0)))))) (cD (cA (cN 3) (cM (cN 2) (cH 0))) (cM (cA (cN 1) (cH 0)) (cR (cM (cM (cM (cA (cN 1) (cH 0)) (cA (cN 3) (cM (cN 2) (cH 0)))) (cH 1)) (cA (cN 1) (cM (cN 2) (cH 1))))))))) (cR (cN 6))).
Definition ISO_e297 := (cM (cM (cG [] 0) (cA (cN 1) (cH 1))) (cR (cD (cA (cN (-2)) (cM (cN 4) (cH 0))) (cA (cA (cM (cN 3) (cH 0)) (cM (cM (cN 9) (cH 0)) (cH 1))) (cM (cM (cN 6) (cH 0)) (cW (cH 1) 4)))))).
Definition ISO_e298 := (cO (cD (cM (cG [] 0) (cA (cR (cD (cM (cM (cH 0) (cA (cN 1) (cH 0))) (cA (cN 1) (cH 1))) (cA (cN 1) (cM (cN 2) (cH 1))))) (cR (cM (cM (cM (cH 0) (cA (cN 1) (cH 0))) (cA (cN 1) (cH 1))) (cA (cN 1) (cM (cN 2) (cH 1))))))) (cM (cM (cR (cN 6)) (cH 0)) (cA (cN 1) (cH 1))))).
Definition ISO_e299 := (cD (cM (cM (cG [] 0) (cA (cN 1) (cH 0))) (cA (cR (cD (cM (cH 0) (cA (cN 1) (cM (cN 2) (cH 1)))) (cM (cW (cA (cN 1) (cH 0)) 6) (cA (cN 1) (cH 1))))) (cR (cD (cH 0) (cM (cW (cA (cN 1) (cH 0)) 6) (cA (cA (cN 1) (cM (cN 3) (cH 1))) (cM (cN 2) (cW (cH 1) 4)))))))) (cR (cN 6))).
Definition ISO_e300 := (cO (cD (cM (cM (cM (cG [] 0) (cR (cQ 2 3))) (cA (cN 3) (cM (cN 2) (cH 0)))) (cA (cN 1) (cH 1))) (cR (cM (cM (cM (cA (cN 1) (cH 0)) (cA (cN 3) (cM (cN 2) (cH 0)))) (cA (cN 1) (cH 1))) (cA (cN 1) (cM (cN 2) (cH 1))))))).
Definition ISO_e301 := (cO (cD (cM (cG [] 0) (cA (cN 1) (cH 1))) (cM (cR (cN 2)) (cR (cD (cM (cM (cH 0) (cA (cN 1) (cH 1))) (cA (cN 1) (cM (cN 2) (cH 1)))) (cA (cN (-1)) (cM (cN 2) (cH 0)))))))).
Definition ISO_e302 := (cM (cG [] 0) (cR (cO (cD (cB (cH 1) (cM (cM (cN 2) (cH 0)) (cH 1))) (cA (cM (cN 2) (cH 0)) (cM (cM (cN 4) (cH 0)) (cH 1))))))).
Definition ISO_e303 := (cD (cM (cG [] 0) (cA (cR (cD (cM (cM (cA (cN 1) (cH 0)) (cA (cN 1) (cH 1))) (cA (cN 1) (cM (cN 2) (cH 1)))) (cH 0))) (cR (cM (cM (cM (cH 0) (cA (cN 1) (cH 0))) (cA (cN 1) (cH 1))) (cA (cN 1) (cM (cN 2) (cH 1))))))) (cM (cM (cR (cN 2)) (cA (cN 1) (cH 0))) (cA (cN 1) (cM (cN 2) (cH 1))))).
Definition ISO_e304 := (cO (cD (cM (cG [] 0) (cA (cN 1) (cH 1))) (cM (cR (cN 2)) (cR (cD (cM (cM (cA (cN 1) (cH 0)) (cA (cN 1) (cH 1))) (cA (cN 1) (cM (cN 2) (cH 1)))) (cH 0)))))).
Definition ISO_e305 := (cO (cD (cM (cM (cG [] 0) (cA (cN 1) (cH 0))) (cH 1)) (cM (cR (cN 2)) (cR (cM (cM (cM (cH 0) (cA (cN 1) (cH 0))) (cH 1)) (cA (cN 1) (cM (cN 2) (cH 1)))))))).
Definition ISO_e306 := (cM (cG [] 0) (cR (cD (cM (cH 0) (cH 1)) (cA (cA (cA (cN 2) (cM (cN 2) (cH 0))) (cM (cN 4) (cH 1))) (cM (cM (cN 4) (cH 0)) (cH 1)))))).
Definition ISO_e307 := (cD (cM (cG [] 0) (cA (cA (cR (cD (cM (cM (cA (cN 3) (cM (cN 2) (cH 0))) (cA (cN 1) (cH 1))) (cA (cN 1) (cM (cN 2) (cH 1)))) (cA (cN 1) (cH 0)))) (cM (cH 0) (cR (cD (cM (cM (cA (cN 3) (cM (cN 2) (cH 0))) (cA (cN 1) (cH 1))) (cA (cN 1) (cM (cN 2) (cH 1)))) (cA (cN 1) (cH 0)))))) (cM (cH 1) (cR (cM (cM (cM (cA (cN 1) (cH 0)) (cA (cN 3) (cM (cN 2) (cH 0)))) (cA (cN 1) (cH 1))) (cA (cN 1) (cM (cN 2) (cH 1)))))))) (cM (cM (cM (cR (cN 2)) (cA (cN 1) (cH 0))) (cA (cN 1) (cH 1))) (cA (cN 1) (cM (cN 2) (cH 1))))).
Definition ISO_e308 := (cD (cM (cM (cG [] 0) (cH 1)) (cA (cD (cB (cN (-1)) (cM (cN 2) (cH 0))) (cR (cD (cM (cM (cW (cA (cN 1) (cH 0)) 6) (cH 1)) (cA (cN 1) (cM (cN 2) (cH 1)))) (cA (cN 3) (cM (cN 2) (cH 0)))))) (cD (cB (cN (-3)) (cM (cN 2) (cH 0))) (cM (cA (cN 1) (cH 0)) (cR (cM (cM (cM (cA (cN 1) (cH 0)) (cA (cN 3) (cM (cN 2) (cH 0)))) (cH 1)) (cA (cN 1) (cM (cN 2) (cH 1))))))))) (cM (cN 2) (cR (cN 2)))).
Definition ISO_e309 := (cO (cM (cG [] 0) (cR (cO (cD (cB (cH 1) (cM (cM (cN 2) (cH 0)) (cH 1))) (cA (cM (cN 2) (cH 0)) (cM (cM (cN 4) (cH 0)) (cH 1)))))))).
Definition ISO_e310 := (cD (cM (cG [] 0) (cA (cR (cM (cM (cM (cH 0) (cA (cN 1) (cH 0))) (cW (cH 1) 6)) (cA (cN 1) (cM (cN 2) (cH 1))))) (cM (cH 1) (cA (cR (cD (cM (cM (cA (cN 1) (cH 0)) (cH 1)) (cA (cN 1) (cM (cN 2) (cH 1)))) (cH 0))) (cM (cH 1) (cA (cR (cD (cM (cM (cA (cN 1) (cH 0)) (cH 1)) (cA (cN 1) (cM (cN 2) (cH 1)))) (cH 0))) (cR (cM (cM (cM (cH 0) (cA (cN 1) (cH 0))) (cH 1)) (cA (cN 1) (cM (cN 2) (cH 1))))))))))) (cM (cM (cM (cM (cR (cN 2)) (cA (cN 1) (cH 0))) (cH 1)) (cA (cN 1) (cH 1))) (cA (cN 1) (cM (cN 2) (cH 1))))).
Definition ISO_e311 := (cO (cD (cM (cG [] 0) (cH 0)) (cM (cR (cN 2)) (cR (cD (cM (cM (cH 0) (cA (cN 1) (cH 0))) (cA (cN 1) (cM (cN 2) (cH 1)))) (cH 1)))))).
Definition ISO_e312 := (cD (cM (cG [] 0) (cR (cA (cN 1) (cD (cN 1) (cH 0))))) (cR (cN 2))).
Definition ISO_e313 := (cD (cM (cG [] 0) (cA (cR (cD (cM (cM (cH 0) (cA (cN 1) (cH 0))) (cA (cN 1) (cH 1))) (cA (cN 1) (cM (cN 2) (cH 1))))) (cR (cM (cM (cM (cH 0) (cA (cN 1) (cH 0))) (cA (cN 1) (cH 1))) (cA (cN 1) (cM (cN 2) (cH 1))))))) (cM (cM (cM (cN 2) (cR (cN 2))) (cH 0)) (cA (cN 1) (cH 1)))).
Definition ISO_e314 := (cD (cM (cG [] 0) (cA (cA (cB (cO (cD (cM (cA (cN 1) (cM (cN 2) (cH 0))) (cR (cD (cM (cA (cN 3) (cM (cN 2) (cH 0))) (cH 1)) (cA (cN 1) (cM (cN 2) (cH 1)))))) (cM (cW (cA (cN 1) (cH 0)) 3) (cA (cN 1) (cH 1))))) (cD (cR (cD (cM (cM (cA (cN 1) (cH 0)) (cA (cN 3) (cM (cN 2) (cH 0)))) (cH 1)) (cA (cN 1) (cM (cN 2) (cH 1))))) (cM (cW (cA (cN 1) (cH 0)) 4) (cA (cN 1) (cH 1))))) (cD (cM (cM (cA (cN 1) (cM (cN 2) (cH 0))) (cR (cD (cM (cA (cN 3) (cM (cN 2) (cH 0))) (cH 1)) (cA (cN 1) (cM (cN 2) (cH 1)))))) (cA (cN 3) (cM (cN 2) (cH 1)))) (cM (cW (cA (cN 1) (cH 0)) 3) (cA (cN 1) (cH 1))))) (cD (cM (cA (cN 3) (cM (cN 2) (cH 0))) (cA (cM (cN 3) (cR (cD (cM (cH 1) (cA (cN 1) (cM (cN 2) (cH 1)))) (cM (cA (cN 3) (cM (cN 2) (cH 0))) (cA (cN 1) (cH 1)))))) (cM (cN 2) (cR (cD (cM (cW (cH 1) 6) (cA (cN 1) (cM (cN 2) (cH 1)))) (cM (cA (cN 3) (cM (cN 2) (cH 0))) (cA (cN 1) (cH 1)))))))) (cM (cM (cW (cA (cN 1) (cH 0)) 3) (cR (cA (cN 1) (cH 1)))) (cA (cN 1) (cM (cN 2) (cH 1))))))) (cM (cN 4) (cR (cN 2)))).
Definition ISO_e315 := (cD (cM (cM (cG [] 0) (cA (cN 3) (cM (cN 2) (cH 0)))) (cA (cN 1) (cH 1))) (cM (cR (cN 2)) (cR (cM (cM (cM (cA (cN 1) (cH 0)) (cA (cN 3) (cM (cN 2) (cH 0)))) (cA (cN 1) (cH 1))) (cA (cN 1) (cM (cN 2) (cH 1))))))).
Definition ISO_e316 := (cO (cM (cG [] 0) (cR (cO (cD (cB (cH 0) (cM (cM (cN 2) (cH 0)) (cH 1))) (cA (cM (cN 2) (cH 1)) (cM (cM (cN 4) (cH 0)) (cH 1)))))))).
Definition ISO_e317 := (cD (cM (cG [] 0) (cA (cN 1) (cH 0))) (cM (cR (cN 2)) (cR (cD (cM (cM (cA (cN 1) (cH 0)) (cA (cN 1) (cM (cN 2) (cH 0)))) (cH 1)) (cA (cN (-1)) (cM (cN 2) (cH 1))))))).
Definition ISO_e318 := (cD (cM (cG [] 0) (cA (cN 1) (cH 1))) (cM (cR (cN 2)) (cR (cD (cM (cM (cA (cN 1) (cM (cN 2) (cH 0))) (cH 1)) (cA (cN 1) (cH 1))) (cH 0))))).
Definition ISO_e319 := (cO (cM (cG [] 0) (cR (cD (cM (cH 0) (cH 1)) (cA (cA (cA (cN 2) (cM (cN 4) (cH 0))) (cM (cN 2) (cH 1))) (cM (cM (cN 4) (cH 0)) (cH 1))))))).
Definition ISO_e320 := (cD (cM (cQ (-1) 2) (cM (cG [] 0) (cA (cR (cD (cM (cM (cA (cN 1) (cH 0)) (cH 1)) (cA (cN 1) (cH 1))) (cA (cN 1) (cM (cN 2) (cH 0))))) (cR (cM (cM (cM (cA (cN 1) (cH 0)) (cA (cN 1) (cM (cN 2) (cH 0)))) (cH 1)) (cA (cN 1) (cH 1))))))) (cM (cM (cR (cN 2)) (cA (cN 1) (cH 0))) (cH 1))).
Definition ISO_e321 := (cD (cM (cM (cG [] 0) (cA (cN 1) (cH 0))) (cH 1)) (cM (cR (cN 2)) (cR (cM (cM (cM (cA (cN 1) (cH 0)) (cA (cN 1) (cM (cN 2) (cH 0)))) (cH 1)) (cA (cN 1) (cH 1)))))).
Definition ISO_e322 := (cM (cG [] 0) (cR (cD (cA (cM (cN 3) (cH 0)) (cM (cM (cN 2) (cH 0)) (cH 1))) (cA (cA (cA (cN 2) (cM (cN 4) (cH 0))) (cM (cN 2) (cH 1))) (cM (cM (cN 4) (cH 0)) (cH 1)))))).
Definition ISO_e323 := (cO (cD (cM (cM (cG [] 0) (cA (cN 1) (cH 0))) (cA (cN 3) (cM (cN 2) (cH 1)))) (cM (cR (cN 2)) (cR (cM (cM (cM (cA (cN 1) (cH 0)) (cA (cN 1) (cM (cN 2) (cH 0)))) (cA (cN 1) (cH 1))) (cA (cN 3) (cM (cN 2) (cH 1)))))))).
Definition ISO_e324 := (cO (cD (cM (cM (cG [] 0) (cR (cQ 2 3))) (cA (cN 1) (cH 1))) (cR (cD (cM (cM (cA (cN 1) (cM (cN 2) (cH 0))) (cH 1)) (cA (cN 1) (cH 1))) (cH 0))))).
Definition ISO_e325 := (cM (cG [] 0) (cR (cO (cD (cB (cH 0) (cM (cM (cN 2) (cH 0)) (cH 1))) (cA (cM (cN 2) (cH 1)) (cM (cM (cN 4) (cH 0)) (cH 1))))))).
Definition ISO_e326 := (cD (cM (cG [] 0) (cR (cD (cM (cH 0) (cA (cN (-1)) (cM (cN 2) (cH 1)))) (cA (cH 1) (cM (cM (cN 2) (cH 0)) (cH 1)))))) (cR (cN 6))).
Definition ISO_e327 := (cD (cM (cG [] 0) (cA (cR (cD (cM (cM (cA (cN 1) (cH 0)) (cH 1)) (cA (cN 1) (cH 1))) (cA (cN 1) (cM (cN 2) (cH 0))))) (cR (cM (cM (cM (cA (cN 1) (cH 0)) (cA (cN 1) (cM (cN 2) (cH 0)))) (cH 1)) (cA (cN 1) (cH 1)))))) (cM (cM (cR (cN 6)) (cA (cN 1) (cH 0))) (cH 1))).
Definition ISO_e328 := (cO (cD (cM (cG [] 0) (cA (cN 1) (cH 0))) (cM (cR (cN 2)) (cR (cD (cM (cM (cA (cN 1) (cH 0)) (cA (cN 1) (cM (cN 2) (cH 0)))) (cH 1)) (cA (cN (-1)) (cM (cN 2) (cH 1)))))))).
Definition ISO_e329 := (cO (cD (cM (cG [] 0) (cA (cN 1) (cH 0))) (cM (cR (cN 6)) (cR (cD (cM (cM (cA (cN 1) (cH 0)) (cA (cN 1) (cM (cN 2) (cH 0)))) (cH 1)) (cA (cN (-1)) (cM (cN 2) (cH 1)))))))).
Definition ISO_e330 := (cD (cM (cM (cG [] 0) (cR (cQ 2 3))) (cB (cN 1) (cM (cN 2) (cH 1)))) (cR (cD (cM (cM (cA (cN 1) (cM (cN 2) (cH 0))) (cH 1)) (cA (cN (-1)) (cM (cN 2) (cH 1)))) (cH 0)))).
Definition ISO_e331 := (cO (cM (cG [] 0) (cR (cD (cA (cM (cN 6) (cH 0)) (cM (cM (cN 4) (cH 0)) (cH 1))) (cA (cA (cA (cN 3) (cM (cN 6) (cH 0))) (cM (cN 3) (cH 1))) (cM (cM (cN 6) (cH 0)) (cH 1))))))).
Definition ISO_e332 := (cO (cD (cM (cG [] 0) (cA (cN 1) (cH 1))) (cM (cR (cN 2)) (cR (cD (cM (cM (cA (cN 1) (cM (cN 2) (cH 0))) (cH 1)) (cA (cN 1) (cH 1))) (cH 0)))))).
Definition ISO_e333 := (cM (cG [] 0) (cR (cD (cM (cH 0) (cH 1)) (cA (cA (cA (cN 2) (cM (cN 4) (cH 0))) (cM (cN 2) (cH 1))) (cM (cM (cN 4) (cH 0)) (cH 1)))))).
Definition ISO_e334 := (cO (cD (cM (cG [] 0) (cA (cN 1) (cH 1))) (cM (cR (cN 6)) (cR (cD (cM (cM (cA (cN 1) (cM (cN 2) (cH 0))) (cH 1)) (cA (cN 1) (cH 1))) (cH 0)))))).
Definition ISO_e335 := (cD (cM (cG [] 0) (cR (cD (cM (cH 0) (cH 1)) (cA (cA (cA (cN 1) (cM (cN 2) (cH 0))) (cH 1)) (cM (cM (cN 2) (cH 0)) (cH 1)))))) (cR (cN 6))).
Definition ISO_e336 := (cD (cM (cG [] 0) (cA (cA (cA (cB (cO (cR (cD (cM (cM (cA (cN 1) (cH 0)) (cH 1)) (cA (cN (-1)) (cM (cN 2) (cH 1)))) (cA (cN 1) (cM (cN 2) (cH 0)))))) (cR (cM (cM (cM (cA (cN 1) (cH 0)) (cA (cN 1) (cM (cN 2) (cH 0)))) (cH 1)) (cA (cN (-1)) (cM (cN 2) (cH 1)))))) (cR (cM (cM (cM (cA (cN 1) (cH 0)) (cA (cN 1) (cM (cN 2) (cH 0)))) (cW (cH 1) 6)) (cA (cN (-1)) (cM (cN 2) (cH 1)))))) (cM (cN 2) (cR (cM (cM (cM (cA (cN 1) (cH 0)) (cA (cN 1) (cM (cN 2) (cH 0)))) (cW (cH 1) 10)) (cA (cN (-1)) (cM (cN 2) (cH 1))))))) (cM (cM (cH 1) (cR (cD (cM (cM (cA (cN 1) (cH 0)) (cH 1)) (cA (cN (-1)) (cM (cN 2) (cH 1)))) (cA (cN 1) (cM (cN 2) (cH 0)))))) (cA (cN 1) (cM (cN 2) (cH 1)))))) (cM (cM (cM (cM (cR (cN 6)) (cA (cN 1) (cH 0))) (cH 1)) (cA (cN 1) (cH 1))) (cA (cN (-1)) (cM (cN 2) (cH 1))))).
Definition ISO_e337 := (cD (cM (cG [] 0) (cA (cD (cM (cM (cN 2) (cH 0)) (cA (cN 3) (cM (cN 2) (cH 1)))) (cR (cM (cM (cM (cA (cN 1) (cH 0)) (cA (cN 1) (cM (cN 2) (cH 0)))) (cA (cN 1) (cH 1))) (cA (cN 3) (cM (cN 2) (cH 1)))))) (cD (cM (cN 2) (cA (cA (cM (cH 1) (cR (cM (cM (cA (cN 1) (cH 0)) (cA (cN 1) (cM (cN 2) (cH 0)))) (cA (cN 3) (cM (cN 2) (cH 1)))))) (cR (cD (cA (cN 3) (cM (cN 2) (cH 1))) (cA (cA (cN 1) (cM (cN 3) (cH 0))) (cM (cN 2) (cW (cH 0) 4)))))) (cM (cM (cH 0) (cA (cN 3) (cM (cN 2) (cH 0)))) (cR (cD (cA (cN 3) (cM (cN 2) (cH 1))) (cA (cA (cN 1) (cM (cN 3) (cH 0))) (cM (cN 2) (cW (cH 0) 4)))))))) (cM (cM (cA (cN 1) (cH 0)) (cA (cN 1) (cM (cN 2) (cH 0)))) (cW (cA (cN 1) (cH 1)) 3))))) (cR (cN 6))).
Definition ISO_e338 := (cD (cM (cG [] 0) (cA (cR (cD (cM (cM (cA (cN 1) (cH 0)) (cH 1)) (cA (cN 1) (cH 1))) (cA (cN 1) (cM (cN 2) (cH 0))))) (cR (cM (cM (cM (cA (cN 1) (cH 0)) (cA (cN 1) (cM (cN 2) (cH 0)))) (cH 1)) (cA (cN 1) (cH 1)))))) (cM (cM (cM (cN 2) (cR (cN 2))) (cA (cN 1) (cH 0))) (cH 1))).
Definition ISO_e339 := (cO (cD (cM (cM (cG [] 0) (cA (cN 1) (cH 0))) (cH 1)) (cM (cR (cN 2)) (cR (cM (cM (cM (cA (cN 1) (cH 0)) (cA (cN 1) (cM (cN 2) (cH 0)))) (cH 1)) (cA (cN 1) (cH 1))))))).
Definition ISO_e340 := (cD (cM (cG [] 0) (cA (cR (cD (cM (cM (cA (cN 1) (cH 0)) (cH 1)) (cA (cN 1) (cH 1))) (cA (cN 1) (cM (cN 2) (cH 0))))) (cR (cM (cM (cM (cA (cN 1) (cH 0)) (cA (cN 1) (cM (cN 2) (cH 0)))) (cH 1)) (cA (cN 1) (cH 1)))))) (cM (cM (cM (cN 2) (cR (cN 6))) (cA (cN 1) (cH 0))) (cH 1))).
Definition ISO_e341 := (cO (cD (cM (cM (cG [] 0) (cA (cN 1) (cH 0))) (cH 1)) (cM (cR (cN 6)) (cR (cM (cM (cM (cA (cN 1) (cH 0)) (cA (cN 1) (cM (cN 2) (cH 0)))) (cH 1)) (cA (cN 1) (cH 1))))))).
Definition ISO_e342 := (cD (cM (cM (cG [] 0) (cR (cQ 2 3))) (cA (cO (cM (cR (cD (cM (cM (cH 0) (cH 1)) (cA (cN 1) (cH 1))) (cA (cN 1) (cM (cN 2) (cH 0))))) (cA (cN 2) (cH 1)))) (cM (cM (cH 1) (cA (cN 1) (cH 1))) (cR (cD (cH 0) (cM (cA (cN 1) (cM (cN 2) (cH 0))) (cA (cH 1) (cW (cH 1) 4)))))))) (cW (cA (cN 1) (cH 1)) 4)).
Definition ISO_e343 := (cO (cM (cG [] 0) (cR (cD (cA (cM (cN 3) (cH 0)) (cM (cM (cN 2) (cH 0)) (cH 1))) (cA (cA (cA (cN 2) (cM (cN 4) (cH 0))) (cM (cN 2) (cH 1))) (cM (cM (cN 4) (cH 0)) (cH 1))))))).
Definition ISO_e344 := (cO (cD (cM (cG [] 0) (cR (cD (cM (cH 0) (cA (cN 3) (cM (cN 2) (cH 1)))) (cM (cA (cN 1) (cM (cN 2) (cH 0))) (cA (cN 1) (cH 1)))))) (cR (cN 6)))).
Definition ISO_e345 := (cD (cM (cG [] 0) (cA (cR (cD (cH 1) (cA (cA (cN 1) (cM (cN 3) (cH 0))) (cM (cN 2) (cW (cH 0) 4))))) (cR (cD (cA (cH 1) (cM (cM (cN 2) (cH 0)) (cH 1))) (cA (cN 1) (cH 0)))))) (cM (cR (cN 6)) (cR (cA (cN 1) (cH 1))))).
Definition ISO_e346 := (cD (cM (cM (cG [] 0) (cR (cN 2))) (cA (cN 1) (cH 0))) (cR (cM (cA (cN 1) (cH 0)) (cA (cN 1) (cM (cN 2) (cH 0)))))).
Definition ISO_e347 := (cD (cM (cM (cG [] 0) (cA (cN 1) (cH 0))) (cA (cN 3) (cM (cN 2) (cH 1)))) (cM (cR (cN 2)) (cR (cM (cM (cM (cA (cN 1) (cH 0)) (cA (cN 1) (cM (cN 2) (cH 0)))) (cA (cN 1) (cH 1))) (cA (cN 3) (cM (cN 2) (cH 1))))))).
Definition ISO_e348 := (cD (cM (cM (cG [] 0) (cA (cN 1) (cH 0))) (cA (cN 3) (cM (cN 2) (cH 1)))) (cM (cR (cN 6)) (cR (cM (cM (cM (cA (cN 1) (cH 0)) (cA (cN 1) (cM (cN 2) (cH 0)))) (cA (cN 1) (cH 1))) (cA (cN 3) (cM (cN 2) (cH 1))))))).
Definition ISO_e349 := (cO (cD (cG [] 0) (cR (cA (cN 4) (cD (cN 2) (cH 0)))))).
Definition ISO_e350 := (cD (cM (cG [] 0) (cA (cN 1) (cH 0))) (cR (cA (cA (cN 2) (cM (cN 6) (cH 0))) (cM (cN 4) (cW (cH 0) 4))))).
Definition ISO_e351 := (cD (cG [] 0) (cR (cA (cN 4) (cD (cN 2) (cH 0))))).
Definition ISO_e352 := (cO (cM (cM (cG [] 0) (cR (cN 3))) (cR (cD (cH 0) (cA (cN 2) (cM (cN 4) (cH 0))))))).
Definition ISO_e353 := (cO (cD (cM (cG [] 0) (cA (cN 1) (cH 0))) (cR (cA (cA (cN 2) (cM (cN 6) (cH 0))) (cM (cN 4) (cW (cH 0) 4)))))).
Definition ISO_e354 := (cD (cM (cM (cG [] 0) (cR (cN 3))) (cA (cN 1) (cH 0))) (cR (cA (cA (cN 2) (cM (cN 6) (cH 0))) (cM (cN 4) (cW (cH 0) 4))))).
Definition ISO_e355 := (cM (cG [] 0) (cR (cB (cN 1) (cD (cN 1) (cM (cN 2) (cH 0)))))).
Definition ISO_e356 := (cD (cM (cG [] 0) (cA (cN 1) (cH 1))) (cM (cR (cN 2)) (cR (cD (cM (cM (cH 0) (cA (cN 1) (cH 1))) (cA (cN 1) (cM (cN 2) (cH 1)))) (cA (cN (-1)) (cM (cN 2) (cH 0))))))).
Definition ISO_e357 := (cO (cD (cM (cG [] 0) (cA (cR (cD (cM (cM (cA (cN 1) (cH 0)) (cA (cN 1) (cH 1))) (cA (cN 1) (cM (cN 2) (cH 1)))) (cH 0))) (cR (cM (cM (cM (cH 0) (cA (cN 1) (cH 0))) (cA (cN 1) (cH 1))) (cA (cN 1) (cM (cN 2) (cH 1))))))) (cM (cM (cR (cN 2)) (cA (cN 1) (cH 0))) (cA (cN 1) (cM (cN 2) (cH 1)))))).
Definition ISO_e358 := (cD (cM (cG [] 0) (cA (cN 1) (cH 1))) (cM (cR (cN 2)) (cR (cD (cM (cM (cA (cN 1) (cH 0)) (cA (cN 1) (cH 1))) (cA (cN 1) (cM (cN 2) (cH 1)))) (cH 0))))).
Definition ISO_e359 := (cO (cM (cG [] 0) (cR (cA (cN 1) (cD (cN 1) (cA (cN 2) (cM (cN 2) (cH 0)))))))).
Definition ISO_e360 := (cO (cD (cM (cG [] 0) (cA (cA (cR (cD (cM (cM (cA (cN 3) (cM (cN 2) (cH 0))) (cA (cN 1) (cH 1))) (cA (cN 1) (cM (cN 2) (cH 1)))) (cA (cN 1) (cH 0)))) (cM (cH 0) (cR (cD (cM (cM (cA (cN 3) (cM (cN 2) (cH 0))) (cA (cN 1) (cH 1))) (cA (cN 1) (cM (cN 2) (cH 1)))) (cA (cN 1) (cH 0)))))) (cM (cH 1) (cR (cM (cM (cM (cA (cN 1) (cH 0)) (cA (cN 3) (cM (cN 2) (cH 0)))) (cA (cN 1) (cH 1))) (cA (cN 1) (cM (cN 2) (cH 1)))))))) (cM (cM (cM (cR (cN 2)) (cA (cN 1) (cH 0))) (cA (cN 1) (cH 1))) (cA (cN 1) (cM (cN 2) (cH 1)))))).
Definition ISO_e361 := (cO (cD (cM (cG [] 0) (cA (cR (cM (cM (cM (cH 0) (cA (cN 1) (cH 0))) (cW (cH 1) 6)) (cA (cN 1) (cM (cN 2) (cH 1))))) (cM (cH 1) (cA (cR (cD (cM (cM (cA (cN 1) (cH 0)) (cH 1)) (cA (cN 1) (cM (cN 2) (cH 1)))) (cH 0))) (cM (cH 1) (cA (cR (cD (cM (cM (cA (cN 1) (cH 0)) (cH 1)) (cA (cN 1) (cM (cN 2) (cH 1)))) (cH 0))) (cR (cM (cM (cM (cH 0) (cA (cN 1) (cH 0))) (cH 1)) (cA (cN 1) (cM (cN 2) (cH 1))))))))))) (cM (cM (cM (cM (cR (cN 2)) (cA (cN 1) (cH 0))) (cH 1)) (cA (cN 1) (cH 1))) (cA (cN 1) (cM (cN 2) (cH 1)))))).
Definition ISO_e362 := (cD (cM (cM (cG [] 0) (cH 0)) (cH 1)) (cM (cR (cN 2)) (cR (cM (cM (cM (cH 0) (cA (cN 1) (cH 0))) (cH 1)) (cA (cN 1) (cM (cN 2) (cH 1))))))).
Definition ISO_e363 := (cO (cD (cM (cM (cG [] 0) (cA (cN 3) (cM (cN 2) (cH 0)))) (cH 1)) (cM (cR (cN 2)) (cR (cM (cM (cM (cA (cN 1) (cH 0)) (cA (cN 3) (cM (cN 2) (cH 0)))) (cH 1)) (cA (cN 1) (cM (cN 2) (cH 1)))))))).
Definition ISO_e364 := (cD (cM (cG [] 0) (cR (cD (cM (cA (cN (-1)) (cM (cN 2) (cH 0))) (cH 1)) (cA (cH 0) (cM (cM (cN 2) (cH 0)) (cH 1)))))) (cR (cN 6))).
Definition ISO_e365 := (cO (cD (cM (cM (cG [] 0) (cA (cN 1) (cH 0))) (cH 1)) (cM (cR (cN 6)) (cR (cM (cM (cM (cH 0) (cA (cN 1) (cH 0))) (cH 1)) (cA (cN 1) (cM (cN 2) (cH 1)))))))).
Definition ISO_e366 := (cD (cM (cG [] 0) (cR (cD (cM (cH 0) (cH 1)) (cA (cA (cA (cN 1) (cH 0)) (cM (cN 2) (cH 1))) (cM (cM (cN 2) (cH 0)) (cH 1)))))) (cR (cN 6))).
Definition ISO_e367 := (cD (cM (cM (cG [] 0) (cA (cN 1) (cH 0))) (cH 1)) (cM (cR (cN 2)) (cR (cM (cM (cM (cH 0) (cA (cN 1) (cH 0))) (cH 1)) (cA (cN 1) (cM (cN 2) (cH 1))))))).
Definition ISO_e368 := (cO (cM (cG [] 0) (cR (cD (cM (cH 0) (cH 1)) (cA (cA (cA (cN 2) (cM (cN 2) (cH 0))) (cM (cN 4) (cH 1))) (cM (cM (cN 4) (cH 0)) (cH 1))))))).
Definition ISO_e369 := (cD (cM (cM (cG [] 0) (cH 1)) (cA (cD (cB (cN (-1)) (cM (cN 2) (cH 0))) (cR (cD (cM (cM (cW (cA (cN 1) (cH 0)) 6) (cH 1)) (cA (cN 1) (cM (cN 2) (cH 1)))) (cA (cN 3) (cM (cN 2) (cH 0)))))) (cD (cB (cN (-3)) (cM (cN 2) (cH 0))) (cM (cA (cN 1) (cH 0)) (cR (cM (cM (cM (cA (cN 1) (cH 0)) (cA (cN 3) (cM (cN 2) (cH 0)))) (cH 1)) (cA (cN 1) (cM (cN 2) (cH 1))))))))) (cM (cN 2) (cR (cN 6)))).
Definition ISO_e370 := (cD (cM (cM (cG [] 0) (cH 1)) (cA (cD (cA (cN 1) (cM (cN 2) (cH 0))) (cR (cD (cM (cM (cW (cA (cN 1) (cH 0)) 6) (cH 1)) (cA (cN 1) (cM (cN 2) (cH 1)))) (cA (cN 3) (cM (cN 2) (cH 0)))))) (cD (cA (cN 3) (cM (cN 2) (cH 0))) (cM (cA (cN 1) (cH 0)) (cR (cM (cM (cM (cA (cN 1) (cH 0)) (cA (cN 3) (cM (cN 2) (cH 0)))) (cH 1)) (cA (cN 1) (cM (cN 2) (cH 1))))))))) (cM (cN 2) (cR (cN 2)))).
Definition ISO_e371 := (cO (cD (cM (cG [] 0) (cA (cN 1) (cH 1))) (cM (cR (cN 6)) (cR (cD (cM (cM (cH 0) (cA (cN 1) (cH 1))) (cA (cN 1) (cM (cN 2) (cH 1)))) (cA (cN (-1)) (cM (cN 2) (cH 0)))))))).
Definition ISO_e372 := (cD (cM (cG [] 0) (cA (cR (cD (cM (cM (cH 0) (cA (cN 1) (cH 0))) (cA (cN 1) (cH 1))) (cA (cN 1) (cM (cN 2) (cH 1))))) (cR (cM (cM (cM (cH 0) (cA (cN 1) (cH 0))) (cA (cN 1) (cH 1))) (cA (cN 1) (cM (cN 2) (cH 1))))))) (cM (cM (cM (cN 2) (cR (cN 6))) (cH 0)) (cA (cN 1) (cH 1)))).
Definition ISO_e373 := (cO (cD (cM (cG [] 0) (cA (cN 1) (cH 1))) (cM (cR (cN 6)) (cR (cD (cM (cM (cA (cN 1) (cH 0)) (cA (cN 1) (cH 1))) (cA (cN 1) (cM (cN 2) (cH 1)))) (cH 0)))))).
Definition ISO_e374 := (cD (cM (cQ (-1) 2) (cM (cG [] 0) (cA (cR (cD (cM (cM (cH 0) (cA (cN 1) (cH 0))) (cA (cN 1) (cH 1))) (cA (cN 1) (cM (cN 2) (cH 1))))) (cR (cM (cM (cM (cH 0) (cA (cN 1) (cH 0))) (cA (cN 1) (cH 1))) (cA (cN 1) (cM (cN 2) (cH 1)))))))) (cM (cM (cR (cN 2)) (cH 0)) (cA (cN 1) (cH 1)))).
Definition ISO_e375 := (cD (cM (cM (cG [] 0) (cA (cN 1) (cH 0))) (cA (cR (cD (cM (cH 0) (cA (cN 1) (cM (cN 2) (cH 1)))) (cM (cW (cA (cN 1) (cH 0)) 6) (cA (cN 1) (cH 1))))) (cR (cD (cH 0) (cM (cW (cA (cN 1) (cH 0)) 6) (cA (cA (cN 1) (cM (cN 3) (cH 1))) (cM (cN 2) (cW (cH 1) 4)))))))) (cM (cN 2) (cR (cN 2)))).
Definition ISO_e376 := (cD (cM (cM (cG [] 0) (cA (cN 3) (cM (cN 2) (cH 0)))) (cA (cN 1) (cH 1))) (cM (cR (cN 6)) (cR (cM (cM (cM (cA (cN 1) (cH 0)) (cA (cN 3) (cM (cN 2) (cH 0)))) (cA (cN 1) (cH 1))) (cA (cN 1) (cM (cN 2) (cH 1))))))).
Definition ISO_e377 := (cO (cD (cM (cM (cG [] 0) (cA (cN 3) (cM (cN 2) (cH 0)))) (cA (cN 1) (cH 1))) (cM (cR (cN 2)) (cR (cM (cM (cM (cA (cN 1) (cH 0)) (cA (cN 3) (cM (cN 2) (cH 0)))) (cA (cN 1) (cH 1))) (cA (cN 1) (cM (cN 2) (cH 1)))))))).
Definition ISO_e378 := (cD (cM (cM (cG [] 0) (cR (cQ 2 3))) (cA (cN 1) (cH 1))) (cR (cD (cM (cM (cA (cN 1) (cM (cN 2) (cH 0))) (cH 1)) (cA (cN 1) (cH 1))) (cH 0)))).
Definition ISO_e379 := (cO (cD (cM (cG [] 0) (cR (cD (cM (cH 0) (cA (cN (-1)) (cM (cN 2) (cH 1)))) (cA (cH 1) (cM (cM (cN 2) (cH 0)) (cH 1)))))) (cR (cN 6)))).
Definition ISO_e380 := (cO (cD (cM (cG [] 0) (cA (cR (cD (cM (cM (cA (cN 1) (cH 0)) (cH 1)) (cA (cN 1) (cH 1))) (cA (cN 1) (cM (cN 2) (cH 0))))) (cR (cM (cM (cM (cA (cN 1) (cH 0)) (cA (cN 1) (cM (cN 2) (cH 0)))) (cH 1)) (cA (cN 1) (cH 1)))))) (cM (cM (cR (cN 6)) (cA (cN 1) (cH 0))) (cH 1)))).
Definition ISO_e381 := (cD (cM (cG [] 0) (cA (cN 1) (cH 0))) (cM (cR (cN 6)) (cR (cD (cM (cM (cA (cN 1) (cH 0)) (cA (cN 1) (cM (cN 2) (cH 0)))) (cH 1)) (cA (cN (-1)) (cM (cN 2) (cH 1))))))).
Definition ISO_e382 := (cD (cM (cM (cG [] 0) (cR (cN 2))) (cR (cD (cM (cM (cH 0) (cH 1)) (cA (cN (-1)) (cM (cN 2) (cH 1)))) (cA (cN 3) (cM (cN 6) (cH 0)))))) (cH 1)).
Definition ISO_e383 := (cM (cG [] 0) (cR (cD (cA (cM (cN 6) (cH 0)) (cM (cM (cN 4) (cH 0)) (cH 1))) (cA (cA (cA (cN 3) (cM (cN 6) (cH 0))) (cM (cN 3) (cH 1))) (cM (cM (cN 6) (cH 0)) (cH 1)))))).
Definition ISO_e384 := (cD (cM (cG [] 0) (cA (cN 1) (cH 1))) (cM (cR (cN 6)) (cR (cD (cM (cM (cA (cN 1) (cM (cN 2) (cH 0))) (cH 1)) (cA (cN 1) (cH 1))) (cH 0))))).
Definition ISO_e385 := (cO (cD (cM (cG [] 0) (cR (cD (cM (cH 0) (cH 1)) (cA (cA (cA (cN 1) (cM (cN 2) (cH 0))) (cH 1)) (cM (cM (cN 2) (cH 0)) (cH 1)))))) (cR (cN 6)))).
Definition ISO_e386 := (cO (cM (cM (cG [] 0) (cA (cN 1) (cH 0))) (cR (cD (cA (cN (-2)) (cM (cN 4) (cH 1))) (cA (cA (cM (cN 3) (cH 1)) (cM (cM (cN 9) (cH 0)) (cH 1))) (cM (cM (cN 6) (cW (cH 0) 4)) (cH 1))))))).
Definition ISO_e387 := (cO (cD (cM (cG [] 0) (cA (cM (cN 3) (cA (cA (cR (cD (cM (cA (cN 1) (cH 0)) (cA (cN 3) (cM (cN 2) (cH 1)))) (cA (cN 1) (cH 1)))) (cR (cM (cM (cA (cN 1) (cH 0)) (cA (cN 1) (cH 1))) (cA (cN 3) (cM (cN 2) (cH 1)))))) (cM (cM (cN 2) (cH 0)) (cR (cM (cM (cA (cN 1) (cH 0)) (cA (cN 1) (cH 1))) (cA (cN 3) (cM (cN 2) (cH 1)))))))) (cM (cH 1) (cA (cA (cA (cM (cN 7) (cR (cD (cM (cA (cN 1) (cH 0)) (cA (cN 3) (cM (cN 2) (cH 1)))) (cA (cN 1) (cH 1))))) (cM (cN 6) (cR (cM (cM (cA (cN 1) (cH 0)) (cA (cN 1) (cH 1))) (cA (cN 3) (cM (cN 2) (cH 1))))))) (cM (cM (cN 10) (cH 0)) (cR (cM (cM (cA (cN 1) (cH 0)) (cA (cN 1) (cH 1))) (cA (cN 3) (cM (cN 2) (cH 1))))))) (cM (cM (cN 4) (cH 1)) (cA (cA (cR (cD (cM (cA (cN 1) (cH 0)) (cA (cN 3) (cM (cN 2) (cH 1)))) (cA (cN 1) (cH 1)))) (cR (cM (cM (cA (cN 1) (cH 0)) (cA (cN 1) (cH 1))) (cA (cN 3) (cM (cN 2) (cH 1)))))) (cM (cH 0) (cR (cM (cM (cA (cN 1) (cH 0)) (cA (cN 1) (cH 1))) (cA (cN 3) (cM (cN 2) (cH 1)))))))))))) (cM (cM (cM (cA (cN 1) (cH 0)) (cR (cA (cN 6) (cM (cN 12) (cH 0))))) (cW (cA (cN 1) (cH 1)) 4)) (cA (cN 3) (cM (cN 2) (cH 1)))))).
Definition ISO_e388 := (cD (cM (cQ (-1) 2) (cM (cG [] 0) (cA (cR (cD (cM (cM (cA (cN 1) (cH 0)) (cH 1)) (cA (cN 1) (cH 1))) (cA (cN 1) (cM (cN 2) (cH 0))))) (cR (cM (cM (cM (cA (cN 1) (cH 0)) (cA (cN 1) (cM (cN 2) (cH 0)))) (cH 1)) (cA (cN 1) (cH 1))))))) (cM (cM (cR (cN 6)) (cA (cN 1) (cH 0))) (cH 1))).
Definition ISO_e389 := (cD (cM (cM (cG [] 0) (cA (cN 1) (cH 0))) (cH 1)) (cM (cR (cN 6)) (cR (cM (cM (cM (cA (cN 1) (cH 0)) (cA (cN 1) (cM (cN 2) (cH 0)))) (cH 1)) (cA (cN 1) (cH 1)))))).
Definition ISO_e390 := (cD (cM (cM (cG [] 0) (cR (cQ 2 3))) (cB (cM (cR (cD (cM (cM (cH 0) (cH 1)) (cA (cN 1) (cH 1))) (cA (cN 1) (cM (cN 2) (cH 0))))) (cA (cN 2) (cH 1))) (cM (cM (cH 1) (cA (cN 1) (cH 1))) (cR (cD (cH 0) (cM (cA (cN 1) (cM (cN 2) (cH 0))) (cA (cH 1) (cW (cH 1) 4)))))))) (cW (cA (cN 1) (cH 1)) 4)).
Definition ISO_e391 := (cD (cM (cG [] 0) (cR (cD (cM (cH 0) (cA (cN 3) (cM (cN 2) (cH 1)))) (cM (cA (cN 1) (cM (cN 2) (cH 0))) (cA (cN 1) (cH 1)))))) (cR (cN 6))).
Definition ISO_e392 := (cO (cD (cM (cG [] 0) (cA (cR (cD (cH 1) (cA (cA (cN 1) (cM (cN 3) (cH 0))) (cM (cN 2) (cW (cH 0) 4))))) (cR (cD (cA (cH 1) (cM (cM (cN 2) (cH 0)) (cH 1))) (cA (cN 1) (cH 0)))))) (cM (cR (cN 6)) (cR (cA (cN 1) (cH 1)))))).
Definition ISO_e393 := (cO (cD (cM (cM (cG [] 0) (cR (cN 2))) (cA (cN 1) (cH 0))) (cR (cM (cA (cN 1) (cH 0)) (cA (cN 1) (cM (cN 2) (cH 0))))))).
Definition ISO_e394 := (cO (cD (cM (cM (cG [] 0) (cA (cN 1) (cH 0))) (cA (cN 3) (cM (cN 2) (cH 1)))) (cM (cR (cN 6)) (cR (cM (cM (cM (cA (cN 1) (cH 0)) (cA (cN 1) (cM (cN 2) (cH 0)))) (cA (cN 1) (cH 1))) (cA (cN 3) (cM (cN 2) (cH 1)))))))).
Definition ISO_e395 := (cM (cM (cG [] 0) (cR (cN 3))) (cR (cD (cH 0) (cA (cN 2) (cM (cN 4) (cH 0)))))).
Definition ISO_e396 := (cO (cD (cM (cM (cG [] 0) (cR (cN 3))) (cA (cN 1) (cH 0))) (cR (cA (cA (cN 2) (cM (cN 6) (cH 0))) (cM (cN 4) (cW (cH 0) 4)))))).
Definition ISO_e397 := (cO (cM (cM (cG [] 0) (cR (cQ 2 3))) (cR (cD (cM (cH 0) (cA (cN (-1)) (cM (cN 2) (cH 1)))) (cA (cH 1) (cM (cM (cN 2) (cH 0)) (cH 1))))))).
Definition ISO_e398 := (cM (cM (cG [] 0) (cA (cN 1) (cH 0))) (cR (cD (cA (cN (-2)) (cM (cN 4) (cH 1))) (cA (cA (cM (cN 3) (cH 1)) (cM (cM (cN 9) (cH 0)) (cH 1))) (cM (cM (cN 6) (cW (cH 0) 4)) (cH 1)))))).
Definition ISO_e399 := (cO (cM (cM (cG [] 0) (cR (cN 2))) (cR (cD (cM (cH 0) (cH 1)) (cA (cA (cA (cN 3) (cM (cN 6) (cH 0))) (cM (cN 3) (cH 1))) (cM (cM (cN 6) (cH 0)) (cH 1))))))).
Definition ISO_e400 := (cD (cM (cM (cM (cG [] 0) (cR (cQ 2 3))) (cA (cN 1) (cH 0))) (cH 1)) (cR (cM (cM (cM (cA (cN 1) (cH 0)) (cA (cN 1) (cM (cN 2) (cH 0)))) (cH 1)) (cA (cN 1) (cH 1))))).
Definition ISO_e401 := (cO (cD (cM (cM (cM (cG [] 0) (cR (cQ 2 3))) (cA (cN 1) (cH 0))) (cA (cN 3) (cM (cN 2) (cH 1)))) (cR (cM (cM (cM (cA (cN 1) (cH 0)) (cA (cN 1) (cM (cN 2) (cH 0)))) (cA (cN 1) (cH 1))) (cA (cN 3) (cM (cN 2) (cH 1))))))).

(** /repo/c++/symmetry/nrg-recalc-ISO.hpp recalc_doublet, iso/iso-1ch-doubletmp.dat *)
Definition iso_1ch_t0 : ten_table := mk_ten "doublet" [ShLin 0%nat 1 (-1); ShLin 1%nat 1 1] [2; 2] [
  (1, 1, [ShLin 0%nat 1 (-1); ShLin 1%nat 1 0], [ShLin 0%nat 1 (-2); ShLin 1%nat 1 1], Some (cN 1));
  (1, 2, [ShLin 0%nat 1 (-1); ShLin 1%nat 1 0], [ShLin 0%nat 1 0; ShLin 1%nat 1 1], Some ISO_e0);
  (2, 2, [ShLin 0%nat 1 1; ShLin 1%nat 1 0], [ShLin 0%nat 1 0; ShLin 1%nat 1 1], Some ISO_e1);
  (3, 3, [ShLin 0%nat 1 0; ShLin 1%nat 1 (-1)], [ShLin 0%nat 1 (-1); ShLin 1%nat 1 0], Some ISO_e2);
  (4, 3, [ShLin 0%nat 1 0; ShLin 1%nat 1 1], [ShLin 0%nat 1 (-1); ShLin 1%nat 1 0], Some ISO_e3);
  (4, 4, [ShLin 0%nat 1 0; ShLin 1%nat 1 1], [ShLin 0%nat 1 (-1); ShLin 1%nat 1 2], Some (cN (-1)))].
(** /repo/c++/symmetry/nrg-recalc-ISO.hpp recalc_doublet, iso/iso-1ch-doubletmm.dat *)
Definition iso_1ch_t1 : ten_table := mk_ten "doublet" [ShLin 0%nat 1 (-1); ShLin 1%nat 1 (-1)] [2; 2] [
  (1, 1, [ShLin 0%nat 1 (-1); ShLin 1%nat 1 0], [ShLin 0%nat 1 (-2); ShLin 1%nat 1 (-1)], Some (cN 1));
  (1, 2, [ShLin 0%nat 1 (-1); ShLin 1%nat 1 0], [ShLin 0%nat 1 0; ShLin 1%nat 1 (-1)], Some ISO_e0);
  (2, 2, [ShLin 0%nat 1 1; ShLin 1%nat 1 0], [ShLin 0%nat 1 0; ShLin 1%nat 1 (-1)], Some ISO_e1);
  (3, 3, [ShLin 0%nat 1 0; ShLin 1%nat 1 (-1)], [ShLin 0%nat 1 (-1); ShLin 1%nat 1 (-2)], Some (cN (-1)));
  (3, 4, [ShLin 0%nat 1 0; ShLin 1%nat 1 (-1)], [ShLin 0%nat 1 (-1); ShLin 1%nat 1 0], Some ISO_e4);
  (4, 4, [ShLin 0%nat 1 0; ShLin 1%nat 1 1], [ShLin 0%nat 1 (-1); ShLin 1%nat 1 0], Some ISO_e2)].
(** /repo/c++/symmetry/nrg-recalc-ISO.hpp recalc_doublet, iso/iso-1ch-doubletpp.dat *)
Definition iso_1ch_t2 : ten_table := mk_ten "doublet" [ShLin 0%nat 1 1; ShLin 1%nat 1 1] [2; 2] [
  (1, 1, [ShLin 0%nat 1 (-1); ShLin 1%nat 1 0], [ShLin 0%nat 1 0; ShLin 1%nat 1 1], Some ISO_e1);
  (2, 1, [ShLin 0%nat 1 1; ShLin 1%nat 1 0], [ShLin 0%nat 1 0; ShLin 1%nat 1 1], Some ISO_e5);
  (2, 2, [ShLin 0%nat 1 1; ShLin 1%nat 1 0], [ShLin 0%nat 1 2; ShLin 1%nat 1 1], Some (cN 1));
  (3, 3, [ShLin 0%nat 1 0; ShLin 1%nat 1 (-1)], [ShLin 0%nat 1 1; ShLin 1%nat 1 0], Some ISO_e2);
  (4, 3, [ShLin 0%nat 1 0; ShLin 1%nat 1 1], [ShLin 0%nat 1 1; ShLin 1%nat 1 0], Some ISO_e3);
  (4, 4, [ShLin 0%nat 1 0; ShLin 1%nat 1 1], [ShLin 0%nat 1 1; ShLin 1%nat 1 2], Some (cN (-1)))].
(** /repo/c++/symmetry/nrg-recalc-ISO.hpp recalc_doublet, iso/iso-1ch-doubletpm.dat *)
Definition iso_1ch_t3 : ten_table := mk_ten "doublet" [ShLin 0%nat 1 1; ShLin 1%nat 1 (-1)] [2; 2] [
  (1, 1, [ShLin 0%nat 1 (-1); ShLin 1%nat 1 0], [ShLin 0%nat 1 0; ShLin 1%nat 1 (-1)], Some ISO_e1);
  (2, 1, [ShLin 0%nat 1 1; ShLin 1%nat 1 0], [ShLin 0%nat 1 0; ShLin 1%nat 1 (-1)], Some ISO_e5);
  (2, 2, [ShLin 0%nat 1 1; ShLin 1%nat 1 0], [ShLin 0%nat 1 2; ShLin 1%nat 1 (-1)], Some (cN 1));
  (3, 3, [ShLin 0%nat 1 0; ShLin 1%nat 1 (-1)], [ShLin 0%nat 1 1; ShLin 1%nat 1 (-2)], Some (cN (-1)));
  (3, 4, [ShLin 0%nat 1 0; ShLin 1%nat 1 (-1)], [ShLin 0%nat 1 1; ShLin 1%nat 1 0], Some ISO_e4);
  (4, 4, [ShLin 0%nat 1 0; ShLin 1%nat 1 1], [ShLin 0%nat 1 1; ShLin 1%nat 1 0], Some ISO_e2)].
(** /repo/c++/symmetry/nrg-recalc-ISO.hpp recalc_irreduc, iso/iso-1ch-spinup-isoupa.dat *)
Definition iso_1ch_t4 : irr_table := mk_irr 0 0 [ShLin 0%nat 1 1; ShLin 1%nat 1 1]  [
  (1, 4, Some ISO_e6);
  (3, 2, Some ISO_e7)].
(** /repo/c++/symmetry/nrg-recalc-ISO.hpp recalc_irreduc, iso/iso-1ch-spindown-isoupa.dat *)
Definition iso_1ch_t5 : irr_table := mk_irr 0 0 [ShLin 0%nat 1 1; ShLin 1%nat 1 (-1)]  [
  (1, 3, Some ISO_e8);
  (4, 2, Some ISO_e7)].
(** /repo/c++/symmetry/nrg-recalc-ISO.hpp recalc_irreduc, iso/iso-1ch-spinup-isodowna.dat *)
Definition iso_1ch_t6 : irr_table := mk_irr 0 0 [ShLin 0%nat 1 (-1); ShLin 1%nat 1 1]  [
  (2, 4, Some ISO_e6);
  (3, 1, Some ISO_e9)].
(** /repo/c++/symmetry/nrg-recalc-ISO.hpp recalc_irreduc, iso/iso-1ch-spindown-isodowna.dat *)
Definition iso_1ch_t7 : irr_table := mk_irr 0 0 [ShLin 0%nat 1 (-1); ShLin 1%nat 1 (-1)]  [
  (2, 3, Some ISO_e8);
  (4, 1, Some ISO_e9)].
(** /repo/c++/symmetry/nrg-recalc-ISO.hpp recalc_triplet, iso/iso-1ch-triplets.dat *)
Definition iso_1ch_t8 : ten_table := mk_ten "triplet" [ShLin 0%nat 1 0; ShLin 1%nat 1 0] [1; 3] [
  (1, 1, [ShLin 0%nat 1 (-1); ShLin 1%nat 1 0], [ShLin 0%nat 1 (-1); ShLin 1%nat 1 0], Some (cN 1));
  (2, 2, [ShLin 0%nat 1 1; ShLin 1%nat 1 0], [ShLin 0%nat 1 1; ShLin 1%nat 1 0], Some (cN 1));
  (3, 3, [ShLin 0%nat 1 0; ShLin 1%nat 1 (-1)], [ShLin 0%nat 1 0; ShLin 1%nat 1 (-1)], Some ISO_e10);
  (3, 4, [ShLin 0%nat 1 0; ShLin 1%nat 1 (-1)], [ShLin 0%nat 1 0; ShLin 1%nat 1 1], Some ISO_e11);
  (4, 3, [ShLin 0%nat 1 0; ShLin 1%nat 1 1], [ShLin 0%nat 1 0; ShLin 1%nat 1 (-1)], Some ISO_e12);
  (4, 4, [ShLin 0%nat 1 0; ShLin 1%nat 1 1], [ShLin 0%nat 1 0; ShLin 1%nat 1 1], Some ISO_e13)].
(** /repo/c++/symmetry/nrg-recalc-ISO.hpp recalc_triplet, iso/iso-1ch-tripletp.dat *)
Definition iso_1ch_t9 : ten_table := mk_ten "triplet" [ShLin 0%nat 1 0; ShLin 1%nat 1 2] [1; 3] [
  (1, 1, [ShLin 0%nat 1 (-1); ShLin 1%nat 1 0], [ShLin 0%nat 1 (-1); ShLin 1%nat 1 2], Some (cN 1));
  (2, 2, [ShLin 0%nat 1 1; ShLin 1%nat 1 0], [ShLin 0%nat 1 1; ShLin 1%nat 1 2], Some (cN 1));
  (3, 3, [ShLin 0%nat 1 0; ShLin 1%nat 1 (-1)], [ShLin 0%nat 1 0; ShLin 1%nat 1 1], Some ISO_e14);
  (4, 3, [ShLin 0%nat 1 0; ShLin 1%nat 1 1], [ShLin 0%nat 1 0; ShLin 1%nat 1 1], Some ISO_e15);
  (4, 4, [ShLin 0%nat 1 0; ShLin 1%nat 1 1], [ShLin 0%nat 1 0; ShLin 1%nat 1 3], Some (cN 1))].
(** /repo/c++/symmetry/nrg-recalc-ISO.hpp recalc_triplet, iso/iso-1ch-tripletm.dat *)
Definition iso_1ch_t10 : ten_table := mk_ten "triplet" [ShLin 0%nat 1 0; ShLin 1%nat 1 (-2)] [1; 3] [
  (1, 1, [ShLin 0%nat 1 (-1); ShLin 1%nat 1 0], [ShLin 0%nat 1 (-1); ShLin 1%nat 1 (-2)], Some (cN 1));
  (2, 2, [ShLin 0%nat 1 1; ShLin 1%nat 1 0], [ShLin 0%nat 1 1; ShLin 1%nat 1 (-2)], Some (cN 1));
  (3, 3, [ShLin 0%nat 1 0; ShLin 1%nat 1 (-1)], [ShLin 0%nat 1 0; ShLin 1%nat 1 (-3)], Some (cN 1));
  (3, 4, [ShLin 0%nat 1 0; ShLin 1%nat 1 (-1)], [ShLin 0%nat 1 0; ShLin 1%nat 1 (-1)], Some ISO_e16);
  (4, 4, [ShLin 0%nat 1 0; ShLin 1%nat 1 1], [ShLin 0%nat 1 0; ShLin 1%nat 1 (-1)], Some ISO_e17)].
(** /repo/c++/symmetry/sym-ISO-impl.hpp, make_matrix  *)
Definition iso_1ch_m0_o : list off_line := [
  (1, 3, 0, 0, "xi", Some ISO_e18);
  (1, 4, 0, 0, "xi", Some ISO_e19);
  (2, 3, 0, 0, "xi", Some ISO_e20);
  (2, 4, 0, 0, "xi", Some ISO_e20)].
(** /repo/c++/symmetry/sym-ISO-impl.hpp, make_matrix  *)
Definition iso_1ch_m0_d : list diag_line := [
  ].
(** /repo/c++/symmetry/sym-ISO-impl.hpp, make_matrix  *)
Definition iso_1ch_m0_f : list dof_line := [
  ].
Definition coef_iso_1ch : coef_set := mk_coef "ISO" 1%nat sym_ISO {| tb_In := iso_1ch_In; tb_QN := iso_1ch_QN |}
  [iso_1ch_t4; iso_1ch_t5; iso_1ch_t6; iso_1ch_t7]
  [iso_1ch_t0; iso_1ch_t1; iso_1ch_t2; iso_1ch_t3; iso_1ch_t8; iso_1ch_t9; iso_1ch_t10]
  [mk_mode "default" iso_1ch_m0_o iso_1ch_m0_d iso_1ch_m0_f].
(** /repo/c++/symmetry/nrg-recalc-ISO.hpp recalc_doublet, iso/iso-2ch-doubletmp.dat *)
Definition iso_2ch_t0 : ten_table := mk_ten "doublet" [ShLin 0%nat 1 (-1); ShLin 1%nat 1 1] [2; 2] [
  (1, 1, [ShLin 0%nat 1 (-2); ShLin 1%nat 1 0], [ShLin 0%nat 1 (-3); ShLin 1%nat 1 1], Some (cN 1));
  (1, 2, [ShLin 0%nat 1 (-2); ShLin 1%nat 1 0], [ShLin 0%nat 1 (-1); ShLin 1%nat 1 1], Some ISO_e21);
  (2, 2, [ShLin 0%nat 1 0; ShLin 1%nat 1 0], [ShLin 0%nat 1 (-1); ShLin 1%nat 1 1], Some ISO_e22);
  (2, 3, [ShLin 0%nat 1 0; ShLin 1%nat 1 0], [ShLin 0%nat 1 1; ShLin 1%nat 1 1], Some ISO_e23);
  (3, 3, [ShLin 0%nat 1 2; ShLin 1%nat 1 0], [ShLin 0%nat 1 1; ShLin 1%nat 1 1], Some ISO_e24);
  (4, 4, [ShLin 0%nat 1 (-1); ShLin 1%nat 1 (-1)], [ShLin 0%nat 1 (-2); ShLin 1%nat 1 0], Some ISO_e2);
  (4, 5, [ShLin 0%nat 1 (-1); ShLin 1%nat 1 (-1)], [ShLin 0%nat 1 0; ShLin 1%nat 1 0], Some ISO_e25);
  (5, 5, [ShLin 0%nat 1 1; ShLin 1%nat 1 (-1)], [ShLin 0%nat 1 0; ShLin 1%nat 1 0], Some ISO_e26);
  (6, 4, [ShLin 0%nat 1 (-1); ShLin 1%nat 1 1], [ShLin 0%nat 1 (-2); ShLin 1%nat 1 0], Some ISO_e3);
  (6, 5, [ShLin 0%nat 1 (-1); ShLin 1%nat 1 1], [ShLin 0%nat 1 0; ShLin 1%nat 1 0], Some ISO_e27);
  (6, 6, [ShLin 0%nat 1 (-1); ShLin 1%nat 1 1], [ShLin 0%nat 1 (-2); ShLin 1%nat 1 2], Some (cN (-1)));
  (6, 7, [ShLin 0%nat 1 (-1); ShLin 1%nat 1 1], [ShLin 0%nat 1 0; ShLin 1%nat 1 2], Some ISO_e5);
  (7, 5, [ShLin 0%nat 1 1; ShLin 1%nat 1 1], [ShLin 0%nat 1 0; ShLin 1%nat 1 0], Some ISO_e28);
  (7, 7, [ShLin 0%nat 1 1; ShLin 1%nat 1 1], [ShLin 0%nat 1 0; ShLin 1%nat 1 2], Some ISO_e29);
  (8, 8, [ShLin 0%nat 1 (-1); ShLin 1%nat 1 (-1)], [ShLin 0%nat 1 (-2); ShLin 1%nat 1 0], Some ISO_e2);
  (8, 9, [ShLin 0%nat 1 (-1); ShLin 1%nat 1 (-1)], [ShLin 0%nat 1 0; ShLin 1%nat 1 0], Some ISO_e25);
  (9, 9, [ShLin 0%nat 1 1; ShLin 1%nat 1 (-1)], [ShLin 0%nat 1 0; ShLin 1%nat 1 0], Some ISO_e26);
  (10, 8, [ShLin 0%nat 1 (-1); ShLin 1%nat 1 1], [ShLin 0%nat 1 (-2); ShLin 1%nat 1 0], Some ISO_e3);
  (10, 9, [ShLin 0%nat 1 (-1); ShLin 1%nat 1 1], [ShLin 0%nat 1 0; ShLin 1%nat 1 0], Some ISO_e27);
  (10, 10, [ShLin 0%nat 1 (-1); ShLin 1%nat 1 1], [ShLin 0%nat 1 (-2); ShLin 1%nat 1 2], Some (cN (-1)));
  (10, 11, [ShLin 0%nat 1 (-1); ShLin 1%nat 1 1], [ShLin 0%nat 1 0; ShLin 1%nat 1 2], Some ISO_e5);
  (11, 9, [ShLin 0%nat 1 1; ShLin 1%nat 1 1], [ShLin 0%nat 1 0; ShLin 1%nat 1 0], Some ISO_e28);
  (11, 11, [ShLin 0%nat 1 1; ShLin 1%nat 1 1], [ShLin 0%nat 1 0; ShLin 1%nat 1 2], Some ISO_e29);
  (12, 12, [ShLin 0%nat 1 0; ShLin 1%nat 1 (-2)], [ShLin 0%nat 1 (-1); ShLin 1%nat 1 (-1)], Some ISO_e10);
  (13, 12, [ShLin 0%nat 1 0; ShLin 1%nat 1 0], [ShLin 0%nat 1 (-1); ShLin 1%nat 1 (-1)], Some ISO_e12);
  (13, 13, [ShLin 0%nat 1 0; ShLin 1%nat 1 0], [ShLin 0%nat 1 (-1); ShLin 1%nat 1 1], Some ISO_e30);
  (14, 13, [ShLin 0%nat 1 0; ShLin 1%nat 1 2], [ShLin 0%nat 1 (-1); ShLin 1%nat 1 1], Some ISO_e15);
  (14, 14, [ShLin 0%nat 1 0; ShLin 1%nat 1 2], [ShLin 0%nat 1 (-1); ShLin 1%nat 1 3], Some (cN 1));
  (15, 15, [ShLin 0%nat 1 0; ShLin 1%nat 1 0], [ShLin 0%nat 1 (-1); ShLin 1%nat 1 1], Some (cN 1));
  (16, 16, [ShLin 0%nat 1 0; ShLin 1%nat 1 0], [ShLin 0%nat 1 (-1); ShLin 1%nat 1 1], Some (cN 1))].
(** /repo/c++/symmetry/nrg-recalc-ISO.hpp recalc_doublet, iso/iso-2ch-doubletmm.dat *)
Definition iso_2ch_t1 : ten_table := mk_ten "doublet" [ShLin 0%nat 1 (-1); ShLin 1%nat 1 (-1)] [2; 2] [
  (1, 1, [ShLin 0%nat 1 (-2); ShLin 1%nat 1 0], [ShLin 0%nat 1 (-3); ShLin 1%nat 1 (-1)], Some (cN 1));
  (1, 2, [ShLin 0%nat 1 (-2); ShLin 1%nat 1 0], [ShLin 0%nat 1 (-1); ShLin 1%nat 1 (-1)], Some ISO_e21);
  (2, 2, [ShLin 0%nat 1 0; ShLin 1%nat 1 0], [ShLin 0%nat 1 (-1); ShLin 1%nat 1 (-1)], Some ISO_e22);
  (2, 3, [ShLin 0%nat 1 0; ShLin 1%nat 1 0], [ShLin 0%nat 1 1; ShLin 1%nat 1 (-1)], Some ISO_e23);
  (3, 3, [ShLin 0%nat 1 2; ShLin 1%nat 1 0], [ShLin 0%nat 1 1; ShLin 1%nat 1 (-1)], Some ISO_e24);
  (4, 4, [ShLin 0%nat 1 (-1); ShLin 1%nat 1 (-1)], [ShLin 0%nat 1 (-2); ShLin 1%nat 1 (-2)], Some (cN (-1)));
  (4, 5, [ShLin 0%nat 1 (-1); ShLin 1%nat 1 (-1)], [ShLin 0%nat 1 0; ShLin 1%nat 1 (-2)], Some ISO_e5);
  (4, 6, [ShLin 0%nat 1 (-1); ShLin 1%nat 1 (-1)], [ShLin 0%nat 1 (-2); ShLin 1%nat 1 0], Some ISO_e4);
  (4, 7, [ShLin 0%nat 1 (-1); ShLin 1%nat 1 (-1)], [ShLin 0%nat 1 0; ShLin 1%nat 1 0], Some ISO_e31);
  (5, 5, [ShLin 0%nat 1 1; ShLin 1%nat 1 (-1)], [ShLin 0%nat 1 0; ShLin 1%nat 1 (-2)], Some ISO_e32);
  (5, 7, [ShLin 0%nat 1 1; ShLin 1%nat 1 (-1)], [ShLin 0%nat 1 0; ShLin 1%nat 1 0], Some ISO_e33);
  (6, 6, [ShLin 0%nat 1 (-1); ShLin 1%nat 1 1], [ShLin 0%nat 1 (-2); ShLin 1%nat 1 0], Some ISO_e2);
  (6, 7, [ShLin 0%nat 1 (-1); ShLin 1%nat 1 1], [ShLin 0%nat 1 0; ShLin 1%nat 1 0], Some ISO_e25);
  (7, 7, [ShLin 0%nat 1 1; ShLin 1%nat 1 1], [ShLin 0%nat 1 0; ShLin 1%nat 1 0], Some ISO_e26);
  (8, 8, [ShLin 0%nat 1 (-1); ShLin 1%nat 1 (-1)], [ShLin 0%nat 1 (-2); ShLin 1%nat 1 (-2)], Some (cN (-1)));
  (8, 9, [ShLin 0%nat 1 (-1); ShLin 1%nat 1 (-1)], [ShLin 0%nat 1 0; ShLin 1%nat 1 (-2)], Some ISO_e5);
  (8, 10, [ShLin 0%nat 1 (-1); ShLin 1%nat 1 (-1)], [ShLin 0%nat 1 (-2); ShLin 1%nat 1 0], Some ISO_e4);
  (8, 11, [ShLin 0%nat 1 (-1); ShLin 1%nat 1 (-1)], [ShLin 0%nat 1 0; ShLin 1%nat 1 0], Some ISO_e31);
  (9, 9, [ShLin 0%nat 1 1; ShLin 1%nat 1 (-1)], [ShLin 0%nat 1 0; ShLin 1%nat 1 (-2)], Some ISO_e32);
  (9, 11, [ShLin 0%nat 1 1; ShLin 1%nat 1 (-1)], [ShLin 0%nat 1 0; ShLin 1%nat 1 0], Some ISO_e33);
  (10, 10, [ShLin 0%nat 1 (-1); ShLin 1%nat 1 1], [ShLin 0%nat 1 (-2); ShLin 1%nat 1 0], Some ISO_e2);
  (10, 11, [ShLin 0%nat 1 (-1); ShLin 1%nat 1 1], [ShLin 0%nat 1 0; ShLin 1%nat 1 0], Some ISO_e25);
  (11, 11, [ShLin 0%nat 1 1; ShLin 1%nat 1 1], [ShLin 0%nat 1 0; ShLin 1%nat 1 0], Some ISO_e26);
  (12, 12, [ShLin 0%nat 1 0; ShLin 1%nat 1 (-2)], [ShLin 0%nat 1 (-1); ShLin 1%nat 1 (-3)], Some (cN 1));
  (12, 13, [ShLin 0%nat 1 0; ShLin 1%nat 1 (-2)], [ShLin 0%nat 1 (-1); ShLin 1%nat 1 (-1)], Some ISO_e16);
  (13, 13, [ShLin 0%nat 1 0; ShLin 1%nat 1 0], [ShLin 0%nat 1 (-1); ShLin 1%nat 1 (-1)], Some ISO_e34);
  (13, 14, [ShLin 0%nat 1 0; ShLin 1%nat 1 0], [ShLin 0%nat 1 (-1); ShLin 1%nat 1 1], Some ISO_e11);
  (14, 14, [ShLin 0%nat 1 0; ShLin 1%nat 1 2], [ShLin 0%nat 1 (-1); ShLin 1%nat 1 1], Some ISO_e35);
  (15, 15, [ShLin 0%nat 1 0; ShLin 1%nat 1 0], [ShLin 0%nat 1 (-1); ShLin 1%nat 1 (-1)], Some (cN 1));
  (16, 16, [ShLin 0%nat 1 0; ShLin 1%nat 1 0], [ShLin 0%nat 1 (-1); ShLin 1%nat 1 (-1)], Some (cN 1))].
(** /repo/c++/symmetry/nrg-recalc-ISO.hpp recalc_doublet, iso/iso-2ch-doubletpp.dat *)
Definition iso_2ch_t2 : ten_table := mk_ten "doublet" [ShLin 0%nat 1 1; ShLin 1%nat 1 1] [2; 2] [
  (1, 1, [ShLin 0%nat 1 (-2); ShLin 1%nat 1 0], [ShLin 0%nat 1 (-1); ShLin 1%nat 1 1], Some ISO_e36);
  (2, 1, [ShLin 0%nat 1 0; ShLin 1%nat 1 0], [ShLin 0%nat 1 (-1); ShLin 1%nat 1 1], Some ISO_e37);
  (2, 2, [ShLin 0%nat 1 0; ShLin 1%nat 1 0], [ShLin 0%nat 1 1; ShLin 1%nat 1 1], Some ISO_e38);
  (3, 2, [ShLin 0%nat 1 2; ShLin 1%nat 1 0], [ShLin 0%nat 1 1; ShLin 1%nat 1 1], Some ISO_e39);
  (3, 3, [ShLin 0%nat 1 2; ShLin 1%nat 1 0], [ShLin 0%nat 1 3; ShLin 1%nat 1 1], Some (cN 1));
  (4, 4, [ShLin 0%nat 1 (-1); ShLin 1%nat 1 (-1)], [ShLin 0%nat 1 0; ShLin 1%nat 1 0], Some ISO_e26);
  (5, 4, [ShLin 0%nat 1 1; ShLin 1%nat 1 (-1)], [ShLin 0%nat 1 0; ShLin 1%nat 1 0], Some ISO_e40);
  (5, 5, [ShLin 0%nat 1 1; ShLin 1%nat 1 (-1)], [ShLin 0%nat 1 2; ShLin 1%nat 1 0], Some ISO_e2);
  (6, 4, [ShLin 0%nat 1 (-1); ShLin 1%nat 1 1], [ShLin 0%nat 1 0; ShLin 1%nat 1 0], Some ISO_e28);
  (6, 6, [ShLin 0%nat 1 (-1); ShLin 1%nat 1 1], [ShLin 0%nat 1 0; ShLin 1%nat 1 2], Some ISO_e32);
  (7, 4, [ShLin 0%nat 1 1; ShLin 1%nat 1 1], [ShLin 0%nat 1 0; ShLin 1%nat 1 0], Some ISO_e31);
  (7, 5, [ShLin 0%nat 1 1; ShLin 1%nat 1 1], [ShLin 0%nat 1 2; ShLin 1%nat 1 0], Some ISO_e3);
  (7, 6, [ShLin 0%nat 1 1; ShLin 1%nat 1 1], [ShLin 0%nat 1 0; ShLin 1%nat 1 2], Some ISO_e0);
  (7, 7, [ShLin 0%nat 1 1; ShLin 1%nat 1 1], [ShLin 0%nat 1 2; ShLin 1%nat 1 2], Some (cN (-1)));
  (8, 8, [ShLin 0%nat 1 (-1); ShLin 1%nat 1 (-1)], [ShLin 0%nat 1 0; ShLin 1%nat 1 0], Some ISO_e26);
  (9, 8, [ShLin 0%nat 1 1; ShLin 1%nat 1 (-1)], [ShLin 0%nat 1 0; ShLin 1%nat 1 0], Some ISO_e40);
  (9, 9, [ShLin 0%nat 1 1; ShLin 1%nat 1 (-1)], [ShLin 0%nat 1 2; ShLin 1%nat 1 0], Some ISO_e2);
  (10, 8, [ShLin 0%nat 1 (-1); ShLin 1%nat 1 1], [ShLin 0%nat 1 0; ShLin 1%nat 1 0], Some ISO_e28);
  (10, 10, [ShLin 0%nat 1 (-1); ShLin 1%nat 1 1], [ShLin 0%nat 1 0; ShLin 1%nat 1 2], Some ISO_e32);
  (11, 8, [ShLin 0%nat 1 1; ShLin 1%nat 1 1], [ShLin 0%nat 1 0; ShLin 1%nat 1 0], Some ISO_e31);
  (11, 9, [ShLin 0%nat 1 1; ShLin 1%nat 1 1], [ShLin 0%nat 1 2; ShLin 1%nat 1 0], Some ISO_e3);
  (11, 10, [ShLin 0%nat 1 1; ShLin 1%nat 1 1], [ShLin 0%nat 1 0; ShLin 1%nat 1 2], Some ISO_e0);
  (11, 11, [ShLin 0%nat 1 1; ShLin 1%nat 1 1], [ShLin 0%nat 1 2; ShLin 1%nat 1 2], Some (cN (-1)));
  (12, 12, [ShLin 0%nat 1 0; ShLin 1%nat 1 (-2)], [ShLin 0%nat 1 1; ShLin 1%nat 1 (-1)], Some ISO_e10);
  (13, 12, [ShLin 0%nat 1 0; ShLin 1%nat 1 0], [ShLin 0%nat 1 1; ShLin 1%nat 1 (-1)], Some ISO_e12);
  (13, 13, [ShLin 0%nat 1 0; ShLin 1%nat 1 0], [ShLin 0%nat 1 1; ShLin 1%nat 1 1], Some ISO_e30);
  (14, 13, [ShLin 0%nat 1 0; ShLin 1%nat 1 2], [ShLin 0%nat 1 1; ShLin 1%nat 1 1], Some ISO_e15);
  (14, 14, [ShLin 0%nat 1 0; ShLin 1%nat 1 2], [ShLin 0%nat 1 1; ShLin 1%nat 1 3], Some (cN 1));
  (15, 15, [ShLin 0%nat 1 0; ShLin 1%nat 1 0], [ShLin 0%nat 1 1; ShLin 1%nat 1 1], Some (cN 1));
  (16, 16, [ShLin 0%nat 1 0; ShLin 1%nat 1 0], [ShLin 0%nat 1 1; ShLin 1%nat 1 1], Some (cN 1))].
(** /repo/c++/symmetry/nrg-recalc-ISO.hpp recalc_doublet, iso/iso-2ch-doubletpm.dat *)
Definition iso_2ch_t3 : ten_table := mk_ten "doublet" [ShLin 0%nat 1 1; ShLin 1%nat 1 (-1)] [2; 2] [
  (1, 1, [ShLin 0%nat 1 (-2); ShLin 1%nat 1 0], [ShLin 0%nat 1 (-1); ShLin 1%nat 1 (-1)], Some ISO_e36);
  (2, 1, [ShLin 0%nat 1 0; ShLin 1%nat 1 0], [ShLin 0%nat 1 (-1); ShLin 1%nat 1 (-1)], Some ISO_e37);
  (2, 2, [ShLin 0%nat 1 0; ShLin 1%nat 1 0], [ShLin 0%nat 1 1; ShLin 1%nat 1 (-1)], Some ISO_e38);
  (3, 2, [ShLin 0%nat 1 2; ShLin 1%nat 1 0], [ShLin 0%nat 1 1; ShLin 1%nat 1 (-1)], Some ISO_e39);
  (3, 3, [ShLin 0%nat 1 2; ShLin 1%nat 1 0], [ShLin 0%nat 1 3; ShLin 1%nat 1 (-1)], Some (cN 1));
  (4, 4, [ShLin 0%nat 1 (-1); ShLin 1%nat 1 (-1)], [ShLin 0%nat 1 0; ShLin 1%nat 1 (-2)], Some ISO_e32);
  (4, 6, [ShLin 0%nat 1 (-1); ShLin 1%nat 1 (-1)], [ShLin 0%nat 1 0; ShLin 1%nat 1 0], Some ISO_e33);
  (5, 4, [ShLin 0%nat 1 1; ShLin 1%nat 1 (-1)], [ShLin 0%nat 1 0; ShLin 1%nat 1 (-2)], Some ISO_e0);
  (5, 5, [ShLin 0%nat 1 1; ShLin 1%nat 1 (-1)], [ShLin 0%nat 1 2; ShLin 1%nat 1 (-2)], Some (cN (-1)));
  (5, 6, [ShLin 0%nat 1 1; ShLin 1%nat 1 (-1)], [ShLin 0%nat 1 0; ShLin 1%nat 1 0], Some ISO_e27);
  (5, 7, [ShLin 0%nat 1 1; ShLin 1%nat 1 (-1)], [ShLin 0%nat 1 2; ShLin 1%nat 1 0], Some ISO_e4);
  (6, 6, [ShLin 0%nat 1 (-1); ShLin 1%nat 1 1], [ShLin 0%nat 1 0; ShLin 1%nat 1 0], Some ISO_e26);
  (7, 6, [ShLin 0%nat 1 1; ShLin 1%nat 1 1], [ShLin 0%nat 1 0; ShLin 1%nat 1 0], Some ISO_e40);
  (7, 7, [ShLin 0%nat 1 1; ShLin 1%nat 1 1], [ShLin 0%nat 1 2; ShLin 1%nat 1 0], Some ISO_e2);
  (8, 8, [ShLin 0%nat 1 (-1); ShLin 1%nat 1 (-1)], [ShLin 0%nat 1 0; ShLin 1%nat 1 (-2)], Some ISO_e32);
  (8, 10, [ShLin 0%nat 1 (-1); ShLin 1%nat 1 (-1)], [ShLin 0%nat 1 0; ShLin 1%nat 1 0], Some ISO_e33);
  (9, 8, [ShLin 0%nat 1 1; ShLin 1%nat 1 (-1)], [ShLin 0%nat 1 0; ShLin 1%nat 1 (-2)], Some ISO_e0);
  (9, 9, [ShLin 0%nat 1 1; ShLin 1%nat 1 (-1)], [ShLin 0%nat 1 2; ShLin 1%nat 1 (-2)], Some (cN (-1)));
  (9, 10, [ShLin 0%nat 1 1; ShLin 1%nat 1 (-1)], [ShLin 0%nat 1 0; ShLin 1%nat 1 0], Some ISO_e27);
  (9, 11, [ShLin 0%nat 1 1; ShLin 1%nat 1 (-1)], [ShLin 0%nat 1 2; ShLin 1%nat 1 0], Some ISO_e4);
  (10, 10, [ShLin 0%nat 1 (-1); ShLin 1%nat 1 1], [ShLin 0%nat 1 0; ShLin 1%nat 1 0], Some ISO_e26);
  (11, 10, [ShLin 0%nat 1 1; ShLin 1%nat 1 1], [ShLin 0%nat 1 0; ShLin 1%nat 1 0], Some ISO_e40);
  (11, 11, [ShLin 0%nat 1 1; ShLin 1%nat 1 1], [ShLin 0%nat 1 2; ShLin 1%nat 1 0], Some ISO_e2);
  (12, 12, [ShLin 0%nat 1 0; ShLin 1%nat 1 (-2)], [ShLin 0%nat 1 1; ShLin 1%nat 1 (-3)], Some (cN 1));
  (12, 13, [ShLin 0%nat 1 0; ShLin 1%nat 1 (-2)], [ShLin 0%nat 1 1; ShLin 1%nat 1 (-1)], Some ISO_e16);
  (13, 13, [ShLin 0%nat 1 0; ShLin 1%nat 1 0], [ShLin 0%nat 1 1; ShLin 1%nat 1 (-1)], Some ISO_e34);
  (13, 14, [ShLin 0%nat 1 0; ShLin 1%nat 1 0], [ShLin 0%nat 1 1; ShLin 1%nat 1 1], Some ISO_e11);
  (14, 14, [ShLin 0%nat 1 0; ShLin 1%nat 1 2], [ShLin 0%nat 1 1; ShLin 1%nat 1 1], Some ISO_e35);
  (15, 15, [ShLin 0%nat 1 0; ShLin 1%nat 1 0], [ShLin 0%nat 1 1; ShLin 1%nat 1 (-1)], Some (cN 1));
  (16, 16, [ShLin 0%nat 1 0; ShLin 1%nat 1 0], [ShLin 0%nat 1 1; ShLin 1%nat 1 (-1)], Some (cN 1))].
(** /repo/c++/symmetry/nrg-recalc-ISO.hpp recalc_irreduc, iso/iso-2ch-spinup-isoupa.dat *)
Definition iso_2ch_t4 : irr_table := mk_irr 0 0 [ShLin 0%nat 1 1; ShLin 1%nat 1 1]  [
  (1, 6, Some ISO_e6);
  (2, 7, Some ISO_e41);
  (4, 2, Some ISO_e42);
  (4, 15, Some (cD (cN 1) (cR (cN 2))));
  (5, 3, Some ISO_e43);
  (8, 13, Some ISO_e44);
  (8, 16, Some ISO_e45);
  (10, 14, Some ISO_e46);
  (12, 9, Some ISO_e47);
  (13, 11, Some ISO_e48);
  (15, 7, Some ISO_e49);
  (16, 11, Some ISO_e50)].
(** /repo/c++/symmetry/nrg-recalc-ISO.hpp recalc_irreduc, iso/iso-2ch-spinup-isoupb.dat *)
Definition iso_2ch_t5 : irr_table := mk_irr 1 0 [ShLin 0%nat 1 1; ShLin 1%nat 1 1]  [
  (1, 10, Some ISO_e6);
  (2, 11, Some ISO_e41);
  (4, 13, Some ISO_e51);
  (4, 16, Some ISO_e45);
  (6, 14, Some ISO_e6);
  (8, 2, Some ISO_e42);
  (8, 15, Some ISO_e45);
  (9, 3, Some ISO_e43);
  (12, 5, Some ISO_e7);
  (13, 7, Some ISO_e52);
  (15, 11, Some ISO_e50);
  (16, 7, Some ISO_e50)].
(** /repo/c++/symmetry/nrg-recalc-ISO.hpp recalc_irreduc, iso/iso-2ch-spindown-isoupa.dat *)
Definition iso_2ch_t6 : irr_table := mk_irr 0 0 [ShLin 0%nat 1 1; ShLin 1%nat 1 (-1)]  [
  (1, 4, Some ISO_e8);
  (2, 5, Some ISO_e53);
  (6, 2, Some ISO_e42);
  (6, 15, Some (cD (cN 1) (cR (cN 2))));
  (7, 3, Some ISO_e43);
  (8, 12, Some ISO_e54);
  (10, 13, Some ISO_e55);
  (10, 16, Some ISO_e45);
  (13, 9, Some ISO_e56);
  (14, 11, Some ISO_e47);
  (15, 5, Some ISO_e57);
  (16, 9, Some ISO_e58)].
(** /repo/c++/symmetry/nrg-recalc-ISO.hpp recalc_irreduc, iso/iso-2ch-spindown-isoupb.dat *)
Definition iso_2ch_t7 : irr_table := mk_irr 1 0 [ShLin 0%nat 1 1; ShLin 1%nat 1 (-1)]  [
  (1, 8, Some ISO_e8);
  (2, 9, Some ISO_e53);
  (4, 12, Some ISO_e8);
  (6, 13, Some ISO_e59);
  (6, 16, Some ISO_e45);
  (10, 2, Some ISO_e42);
  (10, 15, Some ISO_e45);
  (11, 3, Some ISO_e43);
  (13, 5, Some ISO_e60);
  (14, 7, Some ISO_e7);
  (15, 9, Some ISO_e58);
  (16, 5, Some ISO_e58)].
(** /repo/c++/symmetry/nrg-recalc-ISO.hpp recalc_irreduc, iso/iso-2ch-spinup-isodowna.dat *)
Definition iso_2ch_t8 : irr_table := mk_irr 0 0 [ShLin 0%nat 1 (-1); ShLin 1%nat 1 1]  [
  (2, 6, Some ISO_e61);
  (3, 7, Some ISO_e62);
  (4, 1, Some ISO_e9);
  (5, 2, Some ISO_e63);
  (5, 15, Some (cD (cN 1) (cR (cN 2))));
  (9, 13, Some ISO_e44);
  (9, 16, Some ISO_e45);
  (11, 14, Some ISO_e64);
  (12, 8, Some ISO_e65);
  (13, 10, Some ISO_e66);
  (15, 6, Some ISO_e67);
  (16, 10, Some ISO_e68)].
(** /repo/c++/symmetry/nrg-recalc-ISO.hpp recalc_irreduc, iso/iso-2ch-spinup-isodownb.dat *)
Definition iso_2ch_t9 : irr_table := mk_irr 1 0 [ShLin 0%nat 1 (-1); ShLin 1%nat 1 1]  [
  (2, 10, Some ISO_e61);
  (3, 11, Some ISO_e62);
  (5, 13, Some ISO_e51);
  (5, 16, Some ISO_e45);
  (7, 14, Some ISO_e69);
  (8, 1, Some ISO_e9);
  (9, 2, Some ISO_e63);
  (9, 15, Some ISO_e45);
  (12, 4, Some ISO_e9);
  (13, 6, Some ISO_e70);
  (15, 10, Some ISO_e68);
  (16, 6, Some ISO_e68)].
(** /repo/c++/symmetry/nrg-recalc-ISO.hpp recalc_irreduc, iso/iso-2ch-spindown-isodowna.dat *)
Definition iso_2ch_t10 : irr_table := mk_irr 0 0 [ShLin 0%nat 1 (-1); ShLin 1%nat 1 (-1)]  [
  (2, 4, Some ISO_e71);
  (3, 5, Some ISO_e8);
  (6, 1, Some ISO_e9);
  (7, 2, Some ISO_e72);
  (7, 15, Some (cD (cN 1) (cR (cN 2))));
  (9, 12, Some ISO_e54);
  (11, 13, Some ISO_e55);
  (11, 16, Some ISO_e45);
  (13, 8, Some ISO_e73);
  (14, 10, Some ISO_e65);
  (15, 4, Some ISO_e74);
  (16, 8, Some ISO_e75)].
(** /repo/c++/symmetry/nrg-recalc-ISO.hpp recalc_irreduc, iso/iso-2ch-spindown-isodownb.dat *)
Definition iso_2ch_t11 : irr_table := mk_irr 1 0 [ShLin 0%nat 1 (-1); ShLin 1%nat 1 (-1)]  [
  (2, 8, Some ISO_e71);
  (3, 9, Some ISO_e8);
  (5, 12, Some ISO_e8);
  (7, 13, Some ISO_e59);
  (7, 16, Some ISO_e45);
  (10, 1, Some ISO_e9);
  (11, 2, Some ISO_e72);
  (11, 15, Some ISO_e45);
  (13, 4, Some ISO_e76);
  (14, 6, Some ISO_e9);
  (15, 8, Some ISO_e75);
  (16, 4, Some ISO_e75)].
(** /repo/c++/symmetry/nrg-recalc-ISO.hpp recalc_triplet, iso/iso-2ch-triplets.dat *)
Definition iso_2ch_t12 : ten_table := mk_ten "triplet" [ShLin 0%nat 1 0; ShLin 1%nat 1 0] [1; 3] [
  (1, 1, [ShLin 0%nat 1 (-2); ShLin 1%nat 1 0], [ShLin 0%nat 1 (-2); ShLin 1%nat 1 0], Some (cN 1));
  (2, 2, [ShLin 0%nat 1 0; ShLin 1%nat 1 0], [ShLin 0%nat 1 0; ShLin 1%nat 1 0], Some (cN 1));
  (3, 3, [ShLin 0%nat 1 2; ShLin 1%nat 1 0], [ShLin 0%nat 1 2; ShLin 1%nat 1 0], Some (cN 1));
  (4, 4, [ShLin 0%nat 1 (-1); ShLin 1%nat 1 (-1)], [ShLin 0%nat 1 (-1); ShLin 1%nat 1 (-1)], Some ISO_e10);
  (4, 6, [ShLin 0%nat 1 (-1); ShLin 1%nat 1 (-1)], [ShLin 0%nat 1 (-1); ShLin 1%nat 1 1], Some ISO_e11);
  (5, 5, [ShLin 0%nat 1 1; ShLin 1%nat 1 (-1)], [ShLin 0%nat 1 1; ShLin 1%nat 1 (-1)], Some ISO_e10);
  (5, 7, [ShLin 0%nat 1 1; ShLin 1%nat 1 (-1)], [ShLin 0%nat 1 1; ShLin 1%nat 1 1], Some ISO_e11);
  (6, 4, [ShLin 0%nat 1 (-1); ShLin 1%nat 1 1], [ShLin 0%nat 1 (-1); ShLin 1%nat 1 (-1)], Some ISO_e12);
  (6, 6, [ShLin 0%nat 1 (-1); ShLin 1%nat 1 1], [ShLin 0%nat 1 (-1); ShLin 1%nat 1 1], Some ISO_e77);
  (7, 5, [ShLin 0%nat 1 1; ShLin 1%nat 1 1], [ShLin 0%nat 1 1; ShLin 1%nat 1 (-1)], Some ISO_e12);
  (7, 7, [ShLin 0%nat 1 1; ShLin 1%nat 1 1], [ShLin 0%nat 1 1; ShLin 1%nat 1 1], Some ISO_e77);
  (8, 8, [ShLin 0%nat 1 (-1); ShLin 1%nat 1 (-1)], [ShLin 0%nat 1 (-1); ShLin 1%nat 1 (-1)], Some ISO_e10);
  (8, 10, [ShLin 0%nat 1 (-1); ShLin 1%nat 1 (-1)], [ShLin 0%nat 1 (-1); ShLin 1%nat 1 1], Some ISO_e11);
  (9, 9, [ShLin 0%nat 1 1; ShLin 1%nat 1 (-1)], [ShLin 0%nat 1 1; ShLin 1%nat 1 (-1)], Some ISO_e10);
  (9, 11, [ShLin 0%nat 1 1; ShLin 1%nat 1 (-1)], [ShLin 0%nat 1 1; ShLin 1%nat 1 1], Some ISO_e11);
  (10, 8, [ShLin 0%nat 1 (-1); ShLin 1%nat 1 1], [ShLin 0%nat 1 (-1); ShLin 1%nat 1 (-1)], Some ISO_e12);
  (10, 10, [ShLin 0%nat 1 (-1); ShLin 1%nat 1 1], [ShLin 0%nat 1 (-1); ShLin 1%nat 1 1], Some ISO_e77);
  (11, 9, [ShLin 0%nat 1 1; ShLin 1%nat 1 1], [ShLin 0%nat 1 1; ShLin 1%nat 1 (-1)], Some ISO_e12);
  (11, 11, [ShLin 0%nat 1 1; ShLin 1%nat 1 1], [ShLin 0%nat 1 1; ShLin 1%nat 1 1], Some ISO_e77);
  (12, 12, [ShLin 0%nat 1 0; ShLin 1%nat 1 (-2)], [ShLin 0%nat 1 0; ShLin 1%nat 1 (-2)], Some ISO_e78);
  (12, 13, [ShLin 0%nat 1 0; ShLin 1%nat 1 (-2)], [ShLin 0%nat 1 0; ShLin 1%nat 1 0], Some ISO_e79);
  (13, 12, [ShLin 0%nat 1 0; ShLin 1%nat 1 0], [ShLin 0%nat 1 0; ShLin 1%nat 1 (-2)], Some (cO (cD (cN 1) (cH 1))));
  (13, 13, [ShLin 0%nat 1 0; ShLin 1%nat 1 0], [ShLin 0%nat 1 0; ShLin 1%nat 1 0], Some ISO_e80);
  (13, 14, [ShLin 0%nat 1 0; ShLin 1%nat 1 0], [ShLin 0%nat 1 0; ShLin 1%nat 1 2], Some ISO_e81);
  (14, 13, [ShLin 0%nat 1 0; ShLin 1%nat 1 2], [ShLin 0%nat 1 0; ShLin 1%nat 1 0], Some ISO_e82);
  (14, 14, [ShLin 0%nat 1 0; ShLin 1%nat 1 2], [ShLin 0%nat 1 0; ShLin 1%nat 1 2], Some ISO_e83);
  (15, 15, [ShLin 0%nat 1 0; ShLin 1%nat 1 0], [ShLin 0%nat 1 0; ShLin 1%nat 1 0], Some (cN 1));
  (16, 16, [ShLin 0%nat 1 0; ShLin 1%nat 1 0], [ShLin 0%nat 1 0; ShLin 1%nat 1 0], Some (cN 1))].
(** /repo/c++/symmetry/nrg-recalc-ISO.hpp recalc_triplet, iso/iso-2ch-tripletp.dat *)
Definition iso_2ch_t13 : ten_table := mk_ten "triplet" [ShLin 0%nat 1 0; ShLin 1%nat 1 2] [1; 3] [
  (1, 1, [ShLin 0%nat 1 (-2); ShLin 1%nat 1 0], [ShLin 0%nat 1 (-2); ShLin 1%nat 1 2], Some (cN 1));
  (2, 2, [ShLin 0%nat 1 0; ShLin 1%nat 1 0], [ShLin 0%nat 1 0; ShLin 1%nat 1 2], Some (cN 1));
  (3, 3, [ShLin 0%nat 1 2; ShLin 1%nat 1 0], [ShLin 0%nat 1 2; ShLin 1%nat 1 2], Some (cN 1));
  (4, 4, [ShLin 0%nat 1 (-1); ShLin 1%nat 1 (-1)], [ShLin 0%nat 1 (-1); ShLin 1%nat 1 1], Some ISO_e14);
  (5, 5, [ShLin 0%nat 1 1; ShLin 1%nat 1 (-1)], [ShLin 0%nat 1 1; ShLin 1%nat 1 1], Some ISO_e14);
  (6, 4, [ShLin 0%nat 1 (-1); ShLin 1%nat 1 1], [ShLin 0%nat 1 (-1); ShLin 1%nat 1 1], Some ISO_e15);
  (6, 6, [ShLin 0%nat 1 (-1); ShLin 1%nat 1 1], [ShLin 0%nat 1 (-1); ShLin 1%nat 1 3], Some (cN 1));
  (7, 5, [ShLin 0%nat 1 1; ShLin 1%nat 1 1], [ShLin 0%nat 1 1; ShLin 1%nat 1 1], Some ISO_e15);
  (7, 7, [ShLin 0%nat 1 1; ShLin 1%nat 1 1], [ShLin 0%nat 1 1; ShLin 1%nat 1 3], Some (cN 1));
  (8, 8, [ShLin 0%nat 1 (-1); ShLin 1%nat 1 (-1)], [ShLin 0%nat 1 (-1); ShLin 1%nat 1 1], Some ISO_e14);
  (9, 9, [ShLin 0%nat 1 1; ShLin 1%nat 1 (-1)], [ShLin 0%nat 1 1; ShLin 1%nat 1 1], Some ISO_e14);
  (10, 8, [ShLin 0%nat 1 (-1); ShLin 1%nat 1 1], [ShLin 0%nat 1 (-1); ShLin 1%nat 1 1], Some ISO_e15);
  (10, 10, [ShLin 0%nat 1 (-1); ShLin 1%nat 1 1], [ShLin 0%nat 1 (-1); ShLin 1%nat 1 3], Some (cN 1));
  (11, 9, [ShLin 0%nat 1 1; ShLin 1%nat 1 1], [ShLin 0%nat 1 1; ShLin 1%nat 1 1], Some ISO_e15);
  (11, 11, [ShLin 0%nat 1 1; ShLin 1%nat 1 1], [ShLin 0%nat 1 1; ShLin 1%nat 1 3], Some (cN 1));
  (12, 12, [ShLin 0%nat 1 0; ShLin 1%nat 1 (-2)], [ShLin 0%nat 1 0; ShLin 1%nat 1 0], Some ISO_e84);
  (13, 12, [ShLin 0%nat 1 0; ShLin 1%nat 1 0], [ShLin 0%nat 1 0; ShLin 1%nat 1 0], Some ISO_e85);
  (13, 13, [ShLin 0%nat 1 0; ShLin 1%nat 1 0], [ShLin 0%nat 1 0; ShLin 1%nat 1 2], Some ISO_e83);
  (14, 12, [ShLin 0%nat 1 0; ShLin 1%nat 1 2], [ShLin 0%nat 1 0; ShLin 1%nat 1 0], Some ISO_e86);
  (14, 13, [ShLin 0%nat 1 0; ShLin 1%nat 1 2], [ShLin 0%nat 1 0; ShLin 1%nat 1 2], Some ISO_e87);
  (14, 14, [ShLin 0%nat 1 0; ShLin 1%nat 1 2], [ShLin 0%nat 1 0; ShLin 1%nat 1 4], Some (cN 1));
  (15, 15, [ShLin 0%nat 1 0; ShLin 1%nat 1 0], [ShLin 0%nat 1 0; ShLin 1%nat 1 2], Some (cN 1));
  (16, 16, [ShLin 0%nat 1 0; ShLin 1%nat 1 0], [ShLin 0%nat 1 0; ShLin 1%nat 1 2], Some (cN 1))].
(** /repo/c++/symmetry/nrg-recalc-ISO.hpp recalc_triplet, iso/iso-2ch-tripletm.dat *)
Definition iso_2ch_t14 : ten_table := mk_ten "triplet" [ShLin 0%nat 1 0; ShLin 1%nat 1 (-2)] [1; 3] [
  (1, 1, [ShLin 0%nat 1 (-2); ShLin 1%nat 1 0], [ShLin 0%nat 1 (-2); ShLin 1%nat 1 (-2)], Some (cN 1));
  (2, 2, [ShLin 0%nat 1 0; ShLin 1%nat 1 0], [ShLin 0%nat 1 0; ShLin 1%nat 1 (-2)], Some (cN 1));
  (3, 3, [ShLin 0%nat 1 2; ShLin 1%nat 1 0], [ShLin 0%nat 1 2; ShLin 1%nat 1 (-2)], Some (cN 1));
  (4, 4, [ShLin 0%nat 1 (-1); ShLin 1%nat 1 (-1)], [ShLin 0%nat 1 (-1); ShLin 1%nat 1 (-3)], Some (cN 1));
  (4, 6, [ShLin 0%nat 1 (-1); ShLin 1%nat 1 (-1)], [ShLin 0%nat 1 (-1); ShLin 1%nat 1 (-1)], Some ISO_e16);
  (5, 5, [ShLin 0%nat 1 1; ShLin 1%nat 1 (-1)], [ShLin 0%nat 1 1; ShLin 1%nat 1 (-3)], Some (cN 1));
  (5, 7, [ShLin 0%nat 1 1; ShLin 1%nat 1 (-1)], [ShLin 0%nat 1 1; ShLin 1%nat 1 (-1)], Some ISO_e16);
  (6, 6, [ShLin 0%nat 1 (-1); ShLin 1%nat 1 1], [ShLin 0%nat 1 (-1); ShLin 1%nat 1 (-1)], Some ISO_e88);
  (7, 7, [ShLin 0%nat 1 1; ShLin 1%nat 1 1], [ShLin 0%nat 1 1; ShLin 1%nat 1 (-1)], Some ISO_e89);
  (8, 8, [ShLin 0%nat 1 (-1); ShLin 1%nat 1 (-1)], [ShLin 0%nat 1 (-1); ShLin 1%nat 1 (-3)], Some (cN 1));
  (8, 10, [ShLin 0%nat 1 (-1); ShLin 1%nat 1 (-1)], [ShLin 0%nat 1 (-1); ShLin 1%nat 1 (-1)], Some ISO_e16);
  (9, 9, [ShLin 0%nat 1 1; ShLin 1%nat 1 (-1)], [ShLin 0%nat 1 1; ShLin 1%nat 1 (-3)], Some (cN 1));
  (9, 11, [ShLin 0%nat 1 1; ShLin 1%nat 1 (-1)], [ShLin 0%nat 1 1; ShLin 1%nat 1 (-1)], Some ISO_e16);
  (10, 10, [ShLin 0%nat 1 (-1); ShLin 1%nat 1 1], [ShLin 0%nat 1 (-1); ShLin 1%nat 1 (-1)], Some ISO_e88);
  (11, 11, [ShLin 0%nat 1 1; ShLin 1%nat 1 1], [ShLin 0%nat 1 1; ShLin 1%nat 1 (-1)], Some ISO_e89);
  (12, 12, [ShLin 0%nat 1 0; ShLin 1%nat 1 (-2)], [ShLin 0%nat 1 0; ShLin 1%nat 1 (-4)], Some (cN 1));
  (12, 13, [ShLin 0%nat 1 0; ShLin 1%nat 1 (-2)], [ShLin 0%nat 1 0; ShLin 1%nat 1 (-2)], Some (cD (cN 1) (cH 1)));
  (12, 14, [ShLin 0%nat 1 0; ShLin 1%nat 1 (-2)], [ShLin 0%nat 1 0; ShLin 1%nat 1 0], Some ISO_e90);
  (13, 13, [ShLin 0%nat 1 0; ShLin 1%nat 1 0], [ShLin 0%nat 1 0; ShLin 1%nat 1 (-2)], Some ISO_e78);
  (13, 14, [ShLin 0%nat 1 0; ShLin 1%nat 1 0], [ShLin 0%nat 1 0; ShLin 1%nat 1 0], Some ISO_e79);
  (14, 14, [ShLin 0%nat 1 0; ShLin 1%nat 1 2], [ShLin 0%nat 1 0; ShLin 1%nat 1 0], Some ISO_e84);
  (15, 15, [ShLin 0%nat 1 0; ShLin 1%nat 1 0], [ShLin 0%nat 1 0; ShLin 1%nat 1 (-2)], Some (cN 1));
  (16, 16, [ShLin 0%nat 1 0; ShLin 1%nat 1 0], [ShLin 0%nat 1 0; ShLin 1%nat 1 (-2)], Some (cN 1))].
(** /repo/c++/symmetry/sym-ISO-impl.hpp, make_matrix  *)
Definition iso_2ch_m0_o : list off_line := [
  (1, 4, 0, 0, "xi", Some ISO_e91);
  (1, 6, 0, 0, "xi", Some ISO_e91);
  (2, 4, 0, 0, "xi", Some ISO_e92);
  (2, 5, 0, 0, "xi", Some ISO_e93);
  (2, 6, 0, 0, "xi", Some ISO_e92);
  (2, 7, 0, 0, "xi", Some ISO_e93);
  (3, 5, 0, 0, "xi", Some ISO_e94);
  (3, 7, 0, 0, "xi", Some ISO_e94);
  (4, 15, 0, 0, "xi", Some ISO_e95);
  (5, 15, 0, 0, "xi", Some ISO_e96);
  (6, 15, 0, 0, "xi", Some ISO_e97);
  (7, 15, 0, 0, "xi", Some ISO_e98);
  (8, 12, 0, 0, "xi", Some ISO_e18);
  (8, 13, 0, 0, "xi", Some ISO_e99);
  (8, 16, 0, 0, "xi", Some ISO_e100);
  (9, 12, 0, 0, "xi", Some ISO_e20);
  (9, 13, 0, 0, "xi", Some ISO_e101);
  (9, 16, 0, 0, "xi", Some ISO_e102);
  (10, 13, 0, 0, "xi", Some ISO_e103);
  (10, 14, 0, 0, "xi", Some ISO_e19);
  (10, 16, 0, 0, "xi", Some ISO_e104);
  (11, 13, 0, 0, "xi", Some ISO_e105);
  (11, 14, 0, 0, "xi", Some ISO_e20);
  (11, 16, 0, 0, "xi", Some ISO_e106);
  (1, 8, 1, 0, "xi", Some ISO_e91);
  (1, 10, 1, 0, "xi", Some ISO_e91);
  (2, 8, 1, 0, "xi", Some ISO_e92);
  (2, 9, 1, 0, "xi", Some ISO_e93);
  (2, 10, 1, 0, "xi", Some ISO_e92);
  (2, 11, 1, 0, "xi", Some ISO_e93);
  (3, 9, 1, 0, "xi", Some ISO_e94);
  (3, 11, 1, 0, "xi", Some ISO_e94);
  (4, 12, 1, 0, "xi", Some ISO_e107);
  (4, 13, 1, 0, "xi", Some ISO_e108);
  (4, 16, 1, 0, "xi", Some ISO_e100);
  (5, 12, 1, 0, "xi", Some ISO_e109);
  (5, 13, 1, 0, "xi", Some ISO_e110);
  (5, 16, 1, 0, "xi", Some ISO_e102);
  (6, 13, 1, 0, "xi", Some ISO_e111);
  (6, 14, 1, 0, "xi", Some ISO_e112);
  (6, 16, 1, 0, "xi", Some ISO_e104);
  (7, 13, 1, 0, "xi", Some ISO_e113);
  (7, 14, 1, 0, "xi", Some ISO_e109);
  (7, 16, 1, 0, "xi", Some ISO_e106);
  (8, 15, 1, 0, "xi", Some ISO_e100);
  (9, 15, 1, 0, "xi", Some ISO_e102);
  (10, 15, 1, 0, "xi", Some ISO_e104);
  (11, 15, 1, 0, "xi", Some ISO_e106)].
(** /repo/c++/symmetry/sym-ISO-impl.hpp, make_matrix  *)
Definition iso_2ch_m0_d : list diag_line := [
  ].
(** /repo/c++/symmetry/sym-ISO-impl.hpp, make_matrix  *)
Definition iso_2ch_m0_f : list dof_line := [
  ].
Definition coef_iso_2ch : coef_set := mk_coef "ISO" 2%nat sym_ISO {| tb_In := iso_2ch_In; tb_QN := iso_2ch_QN |}
  [iso_2ch_t4; iso_2ch_t5; iso_2ch_t6; iso_2ch_t7; iso_2ch_t8; iso_2ch_t9; iso_2ch_t10; iso_2ch_t11]
  [iso_2ch_t0; iso_2ch_t1; iso_2ch_t2; iso_2ch_t3; iso_2ch_t12; iso_2ch_t13; iso_2ch_t14]
  [mk_mode "default" iso_2ch_m0_o iso_2ch_m0_d iso_2ch_m0_f].
(** /repo/c++/symmetry/nrg-recalc-ISO.hpp recalc_irreduc, iso/iso-3ch-spinup-isoupa.dat *)
Definition iso_3ch_t0 : irr_table := mk_irr 0 0 [ShLin 0%nat 1 1; ShLin 1%nat 1 1]  [
  (1, 8, Some ISO_e6);
  (2, 9, Some ISO_e114);
  (3, 10, Some ISO_e115);
  (5, 2, Some ISO_e116);
  (5, 41, Some (cR (cQ 2 3)));
  (6, 3, Some ISO_e117);
  (6, 42, Some ISO_e118);
  (7, 4, Some ISO_e43);
  (11, 25, Some ISO_e119);
  (11, 43, Some ISO_e45);
  (12, 26, Some ISO_e120);
  (12, 44, Some ISO_e121);
  (14, 27, Some ISO_e46);
  (15, 28, Some ISO_e122);
  (17, 31, Some ISO_e119);
  (17, 47, Some ISO_e45);
  (18, 32, Some ISO_e120);
  (18, 48, Some ISO_e121);
  (20, 33, Some ISO_e46);
  (21, 34, Some ISO_e122);
  (23, 12, Some ISO_e123);
  (23, 55, Some ISO_e45);
  (24, 13, Some ISO_e124);
  (25, 15, Some ISO_e125);
  (25, 56, Some ISO_e126);
  (26, 16, Some ISO_e127);
  (29, 18, Some ISO_e123);
  (29, 59, Some ISO_e45);
  (30, 19, Some ISO_e124);
  (31, 21, Some ISO_e125);
  (31, 60, Some ISO_e126);
  (32, 22, Some ISO_e127);
  (35, 52, Some ISO_e128);
  (35, 61, Some (cD (cN 1) (cR (cN 2))));
  (35, 63, Some (cD (cN 1) (cR (cN 6))));
  (37, 53, Some ISO_e129);
  (37, 62, Some ISO_e130);
  (37, 64, Some ISO_e131);
  (39, 54, Some ISO_e132);
  (41, 9, Some ISO_e133);
  (42, 10, Some ISO_e134);
  (43, 15, Some ISO_e135);
  (43, 56, Some ISO_e136);
  (44, 16, Some ISO_e137);
  (45, 58, Some ISO_e6);
  (47, 21, Some ISO_e135);
  (47, 60, Some ISO_e136);
  (48, 22, Some ISO_e137);
  (49, 62, Some ISO_e138);
  (49, 64, Some ISO_e139);
  (51, 36, Some ISO_e7);
  (52, 38, Some ISO_e140);
  (53, 40, Some ISO_e141);
  (55, 26, Some ISO_e142);
  (55, 44, Some ISO_e143);
  (56, 28, Some ISO_e144);
  (57, 46, Some ISO_e7);
  (59, 32, Some ISO_e142);
  (59, 48, Some ISO_e143);
  (60, 34, Some ISO_e144);
  (61, 38, Some ISO_e145);
  (61, 50, Some ISO_e146);
  (62, 40, Some ISO_e147);
  (63, 38, Some ISO_e148);
  (63, 50, Some ISO_e149);
  (64, 40, Some ISO_e150)].
(** /repo/c++/symmetry/nrg-recalc-ISO.hpp recalc_irreduc, iso/iso-3ch-spinup-isoupb.dat *)
Definition iso_3ch_t1 : irr_table := mk_irr 1 0 [ShLin 0%nat 1 1; ShLin 1%nat 1 1]  [
  (1, 14, Some ISO_e6);
  (2, 15, Some ISO_e114);
  (3, 16, Some ISO_e115);
  (5, 25, Some ISO_e51);
  (5, 43, Some ISO_e45);
  (6, 26, Some ISO_e151);
  (6, 44, Some ISO_e121);
  (8, 27, Some ISO_e6);
  (9, 28, Some ISO_e41);
  (11, 2, Some ISO_e116);
  (11, 41, Some ISO_e152);
  (11, 45, Some (cD (cN 1) (cR (cN 2))));
  (12, 3, Some ISO_e117);
  (12, 42, Some ISO_e153);
  (12, 46, Some ISO_e154);
  (13, 4, Some ISO_e43);
  (17, 37, Some ISO_e119);
  (17, 49, Some ISO_e45);
  (18, 38, Some ISO_e120);
  (18, 50, Some ISO_e121);
  (20, 39, Some ISO_e46);
  (21, 40, Some ISO_e122);
  (23, 6, Some ISO_e155);
  (23, 57, Some (cD (cN 1) (cR (cN 2))));
  (24, 7, Some ISO_e43);
  (25, 9, Some ISO_e156);
  (25, 58, Some ISO_e130);
  (26, 10, Some ISO_e157);
  (29, 52, Some ISO_e158);
  (29, 61, Some (cD (cN 1) (cR (cN 2))));
  (29, 63, Some ISO_e152);
  (31, 53, Some ISO_e159);
  (31, 62, Some ISO_e130);
  (31, 64, Some ISO_e160);
  (33, 54, Some ISO_e161);
  (35, 18, Some ISO_e123);
  (35, 59, Some (cD (cN 1) (cR (cN 2))));
  (36, 19, Some ISO_e124);
  (37, 21, Some ISO_e125);
  (37, 60, Some ISO_e130);
  (38, 22, Some ISO_e127);
  (41, 15, Some ISO_e162);
  (41, 56, Some ISO_e139);
  (42, 16, Some ISO_e163);
  (43, 9, Some ISO_e135);
  (43, 58, Some ISO_e136);
  (44, 10, Some ISO_e137);
  (45, 15, Some ISO_e164);
  (45, 56, Some ISO_e136);
  (46, 16, Some ISO_e165);
  (47, 62, Some ISO_e138);
  (47, 64, Some ISO_e166);
  (49, 21, Some ISO_e135);
  (49, 60, Some ISO_e138);
  (50, 22, Some ISO_e137);
  (51, 30, Some ISO_e47);
  (52, 32, Some ISO_e167);
  (53, 34, Some ISO_e168);
  (55, 42, Some ISO_e149);
  (55, 46, Some ISO_e143);
  (57, 26, Some ISO_e145);
  (57, 44, Some ISO_e143);
  (58, 28, Some ISO_e147);
  (59, 38, Some ISO_e145);
  (59, 50, Some ISO_e146);
  (60, 40, Some ISO_e147);
  (61, 32, Some ISO_e145);
  (61, 48, Some ISO_e146);
  (62, 34, Some ISO_e147);
  (63, 32, Some ISO_e169);
  (63, 48, Some ISO_e170);
  (64, 34, Some ISO_e171)].
(** /repo/c++/symmetry/nrg-recalc-ISO.hpp recalc_irreduc, iso/iso-3ch-spinup-isoupc.dat *)
Definition iso_3ch_t2 : irr_table := mk_irr 2 0 [ShLin 0%nat 1 1; ShLin 1%nat 1 1]  [
  (1, 20, Some ISO_e6);
  (2, 21, Some ISO_e114);
  (3, 22, Some ISO_e115);
  (5, 31, Some ISO_e51);
  (5, 47, Some ISO_e45);
  (6, 32, Some ISO_e151);
  (6, 48, Some ISO_e121);
  (8, 33, Some ISO_e6);
  (9, 34, Some ISO_e41);
  (11, 37, Some ISO_e51);
  (11, 49, Some ISO_e45);
  (12, 38, Some ISO_e151);
  (12, 50, Some ISO_e121);
  (14, 39, Some ISO_e6);
  (15, 40, Some ISO_e41);
  (17, 2, Some ISO_e116);
  (17, 41, Some ISO_e152);
  (17, 45, Some ISO_e45);
  (18, 3, Some ISO_e117);
  (18, 42, Some ISO_e153);
  (18, 46, Some ISO_e121);
  (19, 4, Some ISO_e43);
  (23, 52, Some ISO_e128);
  (23, 63, Some (cO (cR (cQ 2 3))));
  (25, 53, Some ISO_e129);
  (25, 64, Some ISO_e172);
  (27, 54, Some ISO_e132);
  (29, 6, Some ISO_e155);
  (29, 57, Some ISO_e45);
  (30, 7, Some ISO_e43);
  (31, 9, Some ISO_e156);
  (31, 58, Some ISO_e126);
  (32, 10, Some ISO_e157);
  (35, 12, Some ISO_e155);
  (35, 55, Some ISO_e45);
  (36, 13, Some ISO_e43);
  (37, 15, Some ISO_e156);
  (37, 56, Some ISO_e126);
  (38, 16, Some ISO_e157);
  (41, 21, Some ISO_e162);
  (41, 60, Some ISO_e139);
  (42, 22, Some ISO_e163);
  (43, 62, Some ISO_e6);
  (45, 21, Some ISO_e135);
  (45, 60, Some ISO_e138);
  (46, 22, Some ISO_e137);
  (47, 9, Some ISO_e135);
  (47, 58, Some ISO_e138);
  (48, 10, Some ISO_e137);
  (49, 15, Some ISO_e135);
  (49, 56, Some ISO_e138);
  (50, 16, Some ISO_e137);
  (51, 24, Some ISO_e7);
  (52, 26, Some ISO_e140);
  (53, 28, Some ISO_e141);
  (55, 38, Some ISO_e142);
  (55, 50, Some ISO_e146);
  (56, 40, Some ISO_e144);
  (57, 32, Some ISO_e142);
  (57, 48, Some ISO_e146);
  (58, 34, Some ISO_e144);
  (59, 42, Some ISO_e149);
  (59, 46, Some ISO_e146);
  (61, 44, Some ISO_e7);
  (63, 26, Some ISO_e173);
  (64, 28, Some ISO_e174)].
(** /repo/c++/symmetry/nrg-recalc-ISO.hpp recalc_irreduc, iso/iso-3ch-spindown-isoupa.dat *)
Definition iso_3ch_t3 : irr_table := mk_irr 0 0 [ShLin 0%nat 1 1; ShLin 1%nat 1 (-1)]  [
  (1, 5, Some ISO_e8);
  (2, 6, Some ISO_e175);
  (3, 7, Some ISO_e176);
  (8, 2, Some ISO_e116);
  (8, 41, Some (cR (cQ 2 3)));
  (9, 3, Some ISO_e117);
  (9, 42, Some ISO_e118);
  (10, 4, Some ISO_e177);
  (11, 23, Some ISO_e54);
  (12, 24, Some ISO_e178);
  (14, 25, Some ISO_e55);
  (14, 43, Some ISO_e45);
  (15, 26, Some ISO_e179);
  (15, 44, Some ISO_e121);
  (17, 29, Some ISO_e54);
  (18, 30, Some ISO_e178);
  (20, 31, Some ISO_e55);
  (20, 47, Some ISO_e45);
  (21, 32, Some ISO_e179);
  (21, 48, Some ISO_e121);
  (25, 12, Some ISO_e180);
  (25, 55, Some ISO_e181);
  (26, 13, Some ISO_e182);
  (27, 15, Some ISO_e123);
  (27, 56, Some ISO_e45);
  (28, 16, Some ISO_e124);
  (31, 18, Some ISO_e180);
  (31, 59, Some ISO_e181);
  (32, 19, Some ISO_e182);
  (33, 21, Some ISO_e123);
  (33, 60, Some ISO_e45);
  (34, 22, Some ISO_e124);
  (35, 51, Some ISO_e8);
  (37, 52, Some ISO_e183);
  (37, 61, Some ISO_e184);
  (37, 63, Some ISO_e185);
  (39, 53, Some ISO_e186);
  (39, 62, Some (cD (cN 1) (cR (cN 2))));
  (39, 64, Some (cD (cN 1) (cR (cN 6))));
  (41, 6, Some ISO_e187);
  (42, 7, Some ISO_e188);
  (43, 12, Some ISO_e189);
  (43, 55, Some ISO_e190);
  (44, 13, Some ISO_e191);
  (45, 57, Some ISO_e8);
  (47, 18, Some ISO_e189);
  (47, 59, Some ISO_e190);
  (48, 19, Some ISO_e191);
  (49, 61, Some ISO_e192);
  (49, 63, Some ISO_e193);
  (52, 36, Some ISO_e194);
  (53, 38, Some ISO_e195);
  (54, 40, Some ISO_e196);
  (55, 24, Some ISO_e58);
  (56, 26, Some ISO_e197);
  (56, 44, Some ISO_e143);
  (58, 46, Some ISO_e7);
  (59, 30, Some ISO_e58);
  (60, 32, Some ISO_e197);
  (60, 48, Some ISO_e143);
  (61, 36, Some ISO_e57);
  (62, 38, Some ISO_e198);
  (62, 50, Some ISO_e146);
  (63, 36, Some ISO_e199);
  (64, 38, Some ISO_e200);
  (64, 50, Some ISO_e149)].
(** /repo/c++/symmetry/nrg-recalc-ISO.hpp recalc_irreduc, iso/iso-3ch-spindown-isoupb.dat *)
Definition iso_3ch_t4 : irr_table := mk_irr 1 0 [ShLin 0%nat 1 1; ShLin 1%nat 1 (-1)]  [
  (1, 11, Some ISO_e8);
  (2, 12, Some ISO_e175);
  (3, 13, Some ISO_e176);
  (5, 23, Some ISO_e8);
  (6, 24, Some ISO_e53);
  (8, 25, Some ISO_e59);
  (8, 43, Some ISO_e45);
  (9, 26, Some ISO_e201);
  (9, 44, Some ISO_e121);
  (14, 2, Some ISO_e116);
  (14, 41, Some ISO_e152);
  (14, 45, Some (cD (cN 1) (cR (cN 2))));
  (15, 3, Some ISO_e117);
  (15, 42, Some ISO_e153);
  (15, 46, Some ISO_e154);
  (16, 4, Some ISO_e177);
  (17, 35, Some ISO_e54);
  (18, 36, Some ISO_e178);
  (20, 37, Some ISO_e55);
  (20, 49, Some ISO_e45);
  (21, 38, Some ISO_e179);
  (21, 50, Some ISO_e121);
  (25, 6, Some ISO_e202);
  (25, 57, Some ISO_e184);
  (26, 7, Some ISO_e203);
  (27, 9, Some ISO_e42);
  (27, 58, Some (cD (cN 1) (cR (cN 2))));
  (28, 10, Some ISO_e43);
  (29, 51, Some ISO_e54);
  (31, 52, Some ISO_e204);
  (31, 61, Some ISO_e184);
  (31, 63, Some ISO_e205);
  (33, 53, Some ISO_e206);
  (33, 62, Some (cD (cN 1) (cR (cN 2))));
  (33, 64, Some ISO_e152);
  (37, 18, Some ISO_e180);
  (37, 59, Some ISO_e184);
  (38, 19, Some ISO_e182);
  (39, 21, Some ISO_e123);
  (39, 60, Some (cD (cN 1) (cR (cN 2))));
  (40, 22, Some ISO_e124);
  (41, 12, Some ISO_e207);
  (41, 55, Some ISO_e193);
  (42, 13, Some ISO_e208);
  (43, 6, Some ISO_e189);
  (43, 57, Some ISO_e190);
  (44, 7, Some ISO_e191);
  (45, 12, Some ISO_e209);
  (45, 55, Some ISO_e190);
  (46, 13, Some ISO_e210);
  (47, 61, Some ISO_e192);
  (47, 63, Some ISO_e211);
  (49, 18, Some ISO_e189);
  (49, 59, Some ISO_e192);
  (50, 19, Some ISO_e191);
  (52, 30, Some ISO_e212);
  (53, 32, Some ISO_e213);
  (54, 34, Some ISO_e214);
  (56, 42, Some ISO_e149);
  (56, 46, Some ISO_e143);
  (57, 24, Some ISO_e57);
  (58, 26, Some ISO_e198);
  (58, 44, Some ISO_e143);
  (59, 36, Some ISO_e57);
  (60, 38, Some ISO_e198);
  (60, 50, Some ISO_e146);
  (61, 30, Some ISO_e57);
  (62, 32, Some ISO_e198);
  (62, 48, Some ISO_e146);
  (63, 30, Some ISO_e215);
  (64, 32, Some ISO_e216);
  (64, 48, Some ISO_e170)].
(** /repo/c++/symmetry/nrg-recalc-ISO.hpp recalc_irreduc, iso/iso-3ch-spindown-isoupc.dat *)
Definition iso_3ch_t5 : irr_table := mk_irr 2 0 [ShLin 0%nat 1 1; ShLin 1%nat 1 (-1)]  [
  (1, 17, Some ISO_e8);
  (2, 18, Some ISO_e175);
  (3, 19, Some ISO_e176);
  (5, 29, Some ISO_e8);
  (6, 30, Some ISO_e53);
  (8, 31, Some ISO_e59);
  (8, 47, Some ISO_e45);
  (9, 32, Some ISO_e201);
  (9, 48, Some ISO_e121);
  (11, 35, Some ISO_e8);
  (12, 36, Some ISO_e53);
  (14, 37, Some ISO_e59);
  (14, 49, Some ISO_e45);
  (15, 38, Some ISO_e201);
  (15, 50, Some ISO_e121);
  (20, 2, Some ISO_e116);
  (20, 41, Some ISO_e152);
  (20, 45, Some ISO_e45);
  (21, 3, Some ISO_e117);
  (21, 42, Some ISO_e153);
  (21, 46, Some ISO_e121);
  (22, 4, Some ISO_e177);
  (23, 51, Some ISO_e8);
  (25, 52, Some ISO_e183);
  (25, 63, Some ISO_e217);
  (27, 53, Some ISO_e186);
  (27, 64, Some (cO (cR (cQ 2 3))));
  (31, 6, Some ISO_e202);
  (31, 57, Some ISO_e181);
  (32, 7, Some ISO_e203);
  (33, 9, Some ISO_e42);
  (33, 58, Some ISO_e45);
  (34, 10, Some ISO_e43);
  (37, 12, Some ISO_e202);
  (37, 55, Some ISO_e181);
  (38, 13, Some ISO_e203);
  (39, 15, Some ISO_e42);
  (39, 56, Some ISO_e45);
  (40, 16, Some ISO_e43);
  (41, 18, Some ISO_e207);
  (41, 59, Some ISO_e193);
  (42, 19, Some ISO_e208);
  (43, 61, Some ISO_e8);
  (45, 18, Some ISO_e189);
  (45, 59, Some ISO_e192);
  (46, 19, Some ISO_e191);
  (47, 6, Some ISO_e189);
  (47, 57, Some ISO_e192);
  (48, 7, Some ISO_e191);
  (49, 12, Some ISO_e189);
  (49, 55, Some ISO_e192);
  (50, 13, Some ISO_e191);
  (52, 24, Some ISO_e194);
  (53, 26, Some ISO_e195);
  (54, 28, Some ISO_e196);
  (55, 36, Some ISO_e58);
  (56, 38, Some ISO_e197);
  (56, 50, Some ISO_e146);
  (57, 30, Some ISO_e58);
  (58, 32, Some ISO_e197);
  (58, 48, Some ISO_e146);
  (60, 42, Some ISO_e149);
  (60, 46, Some ISO_e146);
  (62, 44, Some ISO_e7);
  (63, 24, Some ISO_e218);
  (64, 26, Some ISO_e219)].
(** /repo/c++/symmetry/nrg-recalc-ISO.hpp recalc_irreduc, iso/iso-3ch-spinup-isodowna.dat *)
Definition iso_3ch_t6 : irr_table := mk_irr 0 0 [ShLin 0%nat 1 (-1); ShLin 1%nat 1 1]  [
  (2, 8, Some ISO_e220);
  (3, 9, Some ISO_e221);
  (4, 10, Some ISO_e222);
  (5, 1, Some ISO_e9);
  (6, 2, Some ISO_e223);
  (6, 41, Some ISO_e224);
  (7, 3, Some ISO_e225);
  (7, 42, Some (cR (cQ 2 3)));
  (12, 25, Some ISO_e226);
  (12, 43, Some ISO_e227);
  (13, 26, Some ISO_e44);
  (13, 44, Some ISO_e45);
  (15, 27, Some ISO_e228);
  (16, 28, Some ISO_e229);
  (18, 31, Some ISO_e226);
  (18, 47, Some ISO_e227);
  (19, 32, Some ISO_e44);
  (19, 48, Some ISO_e45);
  (21, 33, Some ISO_e228);
  (22, 34, Some ISO_e229);
  (23, 11, Some ISO_e65);
  (24, 12, Some ISO_e92);
  (24, 55, Some ISO_e45);
  (25, 14, Some ISO_e66);
  (26, 15, Some ISO_e230);
  (26, 56, Some ISO_e231);
  (29, 17, Some ISO_e65);
  (30, 18, Some ISO_e92);
  (30, 59, Some ISO_e45);
  (31, 20, Some ISO_e66);
  (32, 21, Some ISO_e230);
  (32, 60, Some ISO_e231);
  (36, 52, Some ISO_e232);
  (36, 61, Some (cD (cN 1) (cR (cN 2))));
  (36, 63, Some (cD (cN 1) (cR (cN 6))));
  (38, 53, Some ISO_e129);
  (38, 62, Some ISO_e130);
  (38, 64, Some ISO_e131);
  (40, 54, Some ISO_e233);
  (41, 8, Some ISO_e234);
  (42, 9, Some ISO_e235);
  (43, 14, Some ISO_e68);
  (44, 15, Some ISO_e236);
  (44, 56, Some ISO_e136);
  (46, 58, Some ISO_e6);
  (47, 20, Some ISO_e68);
  (48, 21, Some ISO_e236);
  (48, 60, Some ISO_e136);
  (50, 62, Some ISO_e138);
  (50, 64, Some ISO_e139);
  (51, 35, Some ISO_e9);
  (52, 37, Some ISO_e237);
  (53, 39, Some ISO_e238);
  (55, 25, Some ISO_e239);
  (55, 43, Some ISO_e240);
  (56, 27, Some ISO_e68);
  (57, 45, Some ISO_e9);
  (59, 31, Some ISO_e239);
  (59, 47, Some ISO_e240);
  (60, 33, Some ISO_e68);
  (61, 37, Some ISO_e241);
  (61, 49, Some ISO_e242);
  (62, 39, Some ISO_e67);
  (63, 37, Some ISO_e243);
  (63, 49, Some ISO_e244);
  (64, 39, Some ISO_e245)].
(** /repo/c++/symmetry/nrg-recalc-ISO.hpp recalc_irreduc, iso/iso-3ch-spinup-isodownb.dat *)
Definition iso_3ch_t7 : irr_table := mk_irr 1 0 [ShLin 0%nat 1 (-1); ShLin 1%nat 1 1]  [
  (2, 14, Some ISO_e220);
  (3, 15, Some ISO_e221);
  (4, 16, Some ISO_e222);
  (6, 25, Some ISO_e246);
  (6, 43, Some ISO_e227);
  (7, 26, Some ISO_e51);
  (7, 44, Some ISO_e45);
  (9, 27, Some ISO_e61);
  (10, 28, Some ISO_e247);
  (11, 1, Some ISO_e9);
  (12, 2, Some ISO_e223);
  (12, 41, Some ISO_e248);
  (12, 45, Some ISO_e249);
  (13, 3, Some ISO_e225);
  (13, 42, Some ISO_e152);
  (13, 46, Some (cD (cN 1) (cR (cN 2))));
  (18, 37, Some ISO_e226);
  (18, 49, Some ISO_e227);
  (19, 38, Some ISO_e44);
  (19, 50, Some ISO_e45);
  (21, 39, Some ISO_e228);
  (22, 40, Some ISO_e229);
  (23, 5, Some ISO_e9);
  (24, 6, Some ISO_e72);
  (24, 57, Some (cD (cN 1) (cR (cN 2))));
  (25, 8, Some ISO_e70);
  (26, 9, Some ISO_e250);
  (26, 58, Some ISO_e130);
  (30, 52, Some ISO_e251);
  (30, 61, Some (cD (cN 1) (cR (cN 2))));
  (30, 63, Some ISO_e152);
  (32, 53, Some ISO_e159);
  (32, 62, Some ISO_e130);
  (32, 64, Some ISO_e160);
  (34, 54, Some ISO_e229);
  (35, 17, Some ISO_e65);
  (36, 18, Some ISO_e92);
  (36, 59, Some (cD (cN 1) (cR (cN 2))));
  (37, 20, Some ISO_e66);
  (38, 21, Some ISO_e230);
  (38, 60, Some ISO_e130);
  (41, 14, Some ISO_e252);
  (42, 15, Some ISO_e253);
  (42, 56, Some ISO_e139);
  (43, 8, Some ISO_e68);
  (44, 9, Some ISO_e236);
  (44, 58, Some ISO_e136);
  (45, 14, Some ISO_e67);
  (46, 15, Some ISO_e254);
  (46, 56, Some ISO_e136);
  (48, 62, Some ISO_e138);
  (48, 64, Some ISO_e166);
  (49, 20, Some ISO_e68);
  (50, 21, Some ISO_e236);
  (50, 60, Some ISO_e138);
  (51, 29, Some ISO_e65);
  (52, 31, Some ISO_e255);
  (53, 33, Some ISO_e256);
  (55, 41, Some ISO_e244);
  (55, 45, Some ISO_e240);
  (57, 25, Some ISO_e241);
  (57, 43, Some ISO_e240);
  (58, 27, Some ISO_e67);
  (59, 37, Some ISO_e241);
  (59, 49, Some ISO_e242);
  (60, 39, Some ISO_e67);
  (61, 31, Some ISO_e241);
  (61, 47, Some ISO_e242);
  (62, 33, Some ISO_e67);
  (63, 31, Some ISO_e257);
  (63, 47, Some ISO_e258);
  (64, 33, Some ISO_e252)].
(** /repo/c++/symmetry/nrg-recalc-ISO.hpp recalc_irreduc, iso/iso-3ch-spinup-isodownc.dat *)
Definition iso_3ch_t8 : irr_table := mk_irr 2 0 [ShLin 0%nat 1 (-1); ShLin 1%nat 1 1]  [
  (2, 20, Some ISO_e220);
  (3, 21, Some ISO_e221);
  (4, 22, Some ISO_e222);
  (6, 31, Some ISO_e246);
  (6, 47, Some ISO_e227);
  (7, 32, Some ISO_e51);
  (7, 48, Some ISO_e45);
  (9, 33, Some ISO_e61);
  (10, 34, Some ISO_e247);
  (12, 37, Some ISO_e246);
  (12, 49, Some ISO_e227);
  (13, 38, Some ISO_e51);
  (13, 50, Some ISO_e45);
  (15, 39, Some ISO_e61);
  (16, 40, Some ISO_e247);
  (17, 1, Some ISO_e9);
  (18, 2, Some ISO_e223);
  (18, 41, Some ISO_e248);
  (18, 45, Some ISO_e227);
  (19, 3, Some ISO_e225);
  (19, 42, Some ISO_e152);
  (19, 46, Some ISO_e45);
  (24, 52, Some ISO_e232);
  (24, 63, Some (cO (cR (cQ 2 3))));
  (26, 53, Some ISO_e129);
  (26, 64, Some ISO_e172);
  (28, 54, Some ISO_e233);
  (29, 5, Some ISO_e9);
  (30, 6, Some ISO_e72);
  (30, 57, Some ISO_e45);
  (31, 8, Some ISO_e70);
  (32, 9, Some ISO_e250);
  (32, 58, Some ISO_e231);
  (35, 11, Some ISO_e9);
  (36, 12, Some ISO_e72);
  (36, 55, Some ISO_e45);
  (37, 14, Some ISO_e70);
  (38, 15, Some ISO_e250);
  (38, 56, Some ISO_e231);
  (41, 20, Some ISO_e252);
  (42, 21, Some ISO_e253);
  (42, 60, Some ISO_e139);
  (44, 62, Some ISO_e6);
  (45, 20, Some ISO_e68);
  (46, 21, Some ISO_e236);
  (46, 60, Some ISO_e138);
  (47, 8, Some ISO_e68);
  (48, 9, Some ISO_e236);
  (48, 58, Some ISO_e138);
  (49, 14, Some ISO_e68);
  (50, 15, Some ISO_e236);
  (50, 56, Some ISO_e138);
  (51, 23, Some ISO_e9);
  (52, 25, Some ISO_e237);
  (53, 27, Some ISO_e238);
  (55, 37, Some ISO_e239);
  (55, 49, Some ISO_e242);
  (56, 39, Some ISO_e68);
  (57, 31, Some ISO_e239);
  (57, 47, Some ISO_e242);
  (58, 33, Some ISO_e68);
  (59, 41, Some ISO_e244);
  (59, 45, Some ISO_e242);
  (61, 43, Some ISO_e9);
  (63, 25, Some ISO_e259);
  (64, 27, Some ISO_e260)].
(** /repo/c++/symmetry/nrg-recalc-ISO.hpp recalc_irreduc, iso/iso-3ch-spindown-isodowna.dat *)
Definition iso_3ch_t9 : irr_table := mk_irr 0 0 [ShLin 0%nat 1 (-1); ShLin 1%nat 1 (-1)]  [
  (2, 5, Some ISO_e261);
  (3, 6, Some ISO_e262);
  (4, 7, Some ISO_e8);
  (8, 1, Some ISO_e9);
  (9, 2, Some ISO_e223);
  (9, 41, Some ISO_e224);
  (10, 3, Some ISO_e225);
  (10, 42, Some (cR (cQ 2 3)));
  (12, 23, Some ISO_e263);
  (13, 24, Some ISO_e54);
  (15, 25, Some ISO_e264);
  (15, 43, Some ISO_e227);
  (16, 26, Some ISO_e55);
  (16, 44, Some ISO_e45);
  (18, 29, Some ISO_e263);
  (19, 30, Some ISO_e54);
  (21, 31, Some ISO_e264);
  (21, 47, Some ISO_e227);
  (22, 32, Some ISO_e55);
  (22, 48, Some ISO_e45);
  (25, 11, Some ISO_e73);
  (26, 12, Some ISO_e265);
  (26, 55, Some ISO_e181);
  (27, 14, Some ISO_e65);
  (28, 15, Some ISO_e92);
  (28, 56, Some ISO_e45);
  (31, 17, Some ISO_e73);
  (32, 18, Some ISO_e265);
  (32, 59, Some ISO_e181);
  (33, 20, Some ISO_e65);
  (34, 21, Some ISO_e92);
  (34, 60, Some ISO_e45);
  (36, 51, Some ISO_e8);
  (38, 52, Some ISO_e183);
  (38, 61, Some ISO_e184);
  (38, 63, Some ISO_e185);
  (40, 53, Some ISO_e186);
  (40, 62, Some (cD (cN 1) (cR (cN 2))));
  (40, 64, Some (cD (cN 1) (cR (cN 6))));
  (41, 5, Some ISO_e266);
  (42, 6, Some ISO_e267);
  (43, 11, Some ISO_e75);
  (44, 12, Some ISO_e268);
  (44, 55, Some ISO_e190);
  (46, 57, Some ISO_e8);
  (47, 17, Some ISO_e75);
  (48, 18, Some ISO_e268);
  (48, 59, Some ISO_e190);
  (50, 61, Some ISO_e192);
  (50, 63, Some ISO_e193);
  (52, 35, Some ISO_e269);
  (53, 37, Some ISO_e270);
  (54, 39, Some ISO_e271);
  (55, 23, Some ISO_e75);
  (56, 25, Some ISO_e272);
  (56, 43, Some ISO_e240);
  (58, 45, Some ISO_e9);
  (59, 29, Some ISO_e75);
  (60, 31, Some ISO_e272);
  (60, 47, Some ISO_e240);
  (61, 35, Some ISO_e74);
  (62, 37, Some ISO_e273);
  (62, 49, Some ISO_e242);
  (63, 35, Some ISO_e274);
  (64, 37, Some ISO_e275);
  (64, 49, Some ISO_e244)].
(** /repo/c++/symmetry/nrg-recalc-ISO.hpp recalc_irreduc, iso/iso-3ch-spindown-isodownb.dat *)
Definition iso_3ch_t10 : irr_table := mk_irr 1 0 [ShLin 0%nat 1 (-1); ShLin 1%nat 1 (-1)]  [
  (2, 11, Some ISO_e261);
  (3, 12, Some ISO_e262);
  (4, 13, Some ISO_e8);
  (6, 23, Some ISO_e71);
  (7, 24, Some ISO_e8);
  (9, 25, Some ISO_e276);
  (9, 43, Some ISO_e227);
  (10, 26, Some ISO_e59);
  (10, 44, Some ISO_e45);
  (14, 1, Some ISO_e9);
  (15, 2, Some ISO_e223);
  (15, 41, Some ISO_e248);
  (15, 45, Some ISO_e249);
  (16, 3, Some ISO_e225);
  (16, 42, Some ISO_e152);
  (16, 46, Some (cD (cN 1) (cR (cN 2))));
  (18, 35, Some ISO_e263);
  (19, 36, Some ISO_e54);
  (21, 37, Some ISO_e264);
  (21, 49, Some ISO_e227);
  (22, 38, Some ISO_e55);
  (22, 50, Some ISO_e45);
  (25, 5, Some ISO_e76);
  (26, 6, Some ISO_e277);
  (26, 57, Some ISO_e184);
  (27, 8, Some ISO_e9);
  (28, 9, Some ISO_e72);
  (28, 58, Some (cD (cN 1) (cR (cN 2))));
  (30, 51, Some ISO_e54);
  (32, 52, Some ISO_e204);
  (32, 61, Some ISO_e184);
  (32, 63, Some ISO_e205);
  (34, 53, Some ISO_e206);
  (34, 62, Some (cD (cN 1) (cR (cN 2))));
  (34, 64, Some ISO_e152);
  (37, 17, Some ISO_e73);
  (38, 18, Some ISO_e265);
  (38, 59, Some ISO_e184);
  (39, 20, Some ISO_e65);
  (40, 21, Some ISO_e92);
  (40, 60, Some (cD (cN 1) (cR (cN 2))));
  (41, 11, Some ISO_e278);
  (42, 12, Some ISO_e279);
  (42, 55, Some ISO_e193);
  (43, 5, Some ISO_e75);
  (44, 6, Some ISO_e268);
  (44, 57, Some ISO_e190);
  (45, 11, Some ISO_e74);
  (46, 12, Some ISO_e280);
  (46, 55, Some ISO_e190);
  (48, 61, Some ISO_e192);
  (48, 63, Some ISO_e211);
  (49, 17, Some ISO_e75);
  (50, 18, Some ISO_e268);
  (50, 59, Some ISO_e192);
  (52, 29, Some ISO_e281);
  (53, 31, Some ISO_e282);
  (54, 33, Some ISO_e283);
  (56, 41, Some ISO_e244);
  (56, 45, Some ISO_e240);
  (57, 23, Some ISO_e74);
  (58, 25, Some ISO_e273);
  (58, 43, Some ISO_e240);
  (59, 35, Some ISO_e74);
  (60, 37, Some ISO_e273);
  (60, 49, Some ISO_e242);
  (61, 29, Some ISO_e74);
  (62, 31, Some ISO_e273);
  (62, 47, Some ISO_e242);
  (63, 29, Some ISO_e278);
  (64, 31, Some ISO_e284);
  (64, 47, Some ISO_e258)].
(** /repo/c++/symmetry/nrg-recalc-ISO.hpp recalc_irreduc, iso/iso-3ch-spindown-isodownc.dat *)
Definition iso_3ch_t11 : irr_table := mk_irr 2 0 [ShLin 0%nat 1 (-1); ShLin 1%nat 1 (-1)]  [
  (2, 17, Some ISO_e261);
  (3, 18, Some ISO_e262);
  (4, 19, Some ISO_e8);
  (6, 29, Some ISO_e71);
  (7, 30, Some ISO_e8);
  (9, 31, Some ISO_e276);
  (9, 47, Some ISO_e227);
  (10, 32, Some ISO_e59);
  (10, 48, Some ISO_e45);
  (12, 35, Some ISO_e71);
  (13, 36, Some ISO_e8);
  (15, 37, Some ISO_e276);
  (15, 49, Some ISO_e227);
  (16, 38, Some ISO_e59);
  (16, 50, Some ISO_e45);
  (20, 1, Some ISO_e9);
  (21, 2, Some ISO_e223);
  (21, 41, Some ISO_e248);
  (21, 45, Some ISO_e227);
  (22, 3, Some ISO_e225);
  (22, 42, Some ISO_e152);
  (22, 46, Some ISO_e45);
  (24, 51, Some ISO_e8);
  (26, 52, Some ISO_e183);
  (26, 63, Some ISO_e217);
  (28, 53, Some ISO_e186);
  (28, 64, Some (cO (cR (cQ 2 3))));
  (31, 5, Some ISO_e76);
  (32, 6, Some ISO_e277);
  (32, 57, Some ISO_e181);
  (33, 8, Some ISO_e9);
  (34, 9, Some ISO_e72);
  (34, 58, Some ISO_e45);
  (37, 11, Some ISO_e76);
  (38, 12, Some ISO_e277);
  (38, 55, Some ISO_e181);
  (39, 14, Some ISO_e9);
  (40, 15, Some ISO_e72);
  (40, 56, Some ISO_e45);
  (41, 17, Some ISO_e278);
  (42, 18, Some ISO_e279);
  (42, 59, Some ISO_e193);
  (44, 61, Some ISO_e8);
  (45, 17, Some ISO_e75);
  (46, 18, Some ISO_e268);
  (46, 59, Some ISO_e192);
  (47, 5, Some ISO_e75);
  (48, 6, Some ISO_e268);
  (48, 57, Some ISO_e192);
  (49, 11, Some ISO_e75);
  (50, 12, Some ISO_e268);
  (50, 55, Some ISO_e192);
  (52, 23, Some ISO_e269);
  (53, 25, Some ISO_e270);
  (54, 27, Some ISO_e271);
  (55, 35, Some ISO_e75);
  (56, 37, Some ISO_e272);
  (56, 49, Some ISO_e242);
  (57, 29, Some ISO_e75);
  (58, 31, Some ISO_e272);
  (58, 47, Some ISO_e242);
  (60, 41, Some ISO_e244);
  (60, 45, Some ISO_e242);
  (62, 43, Some ISO_e9);
  (63, 23, Some ISO_e285);
  (64, 25, Some ISO_e286)].
(** /repo/c++/symmetry/sym-ISO-impl.hpp, make_matrix  *)
Definition iso_3ch_m0_o : list off_line := [
  (1, 5, 0, 0, "xi", Some ISO_e287);
  (1, 8, 0, 0, "xi", Some ISO_e287);
  (2, 5, 0, 0, "xi", Some ISO_e288);
  (2, 6, 0, 0, "xi", Some ISO_e289);
  (2, 8, 0, 0, "xi", Some ISO_e288);
  (2, 9, 0, 0, "xi", Some ISO_e289);
  (3, 6, 0, 0, "xi", Some ISO_e290);
  (3, 7, 0, 0, "xi", Some ISO_e291);
  (3, 9, 0, 0, "xi", Some ISO_e290);
  (3, 10, 0, 0, "xi", Some ISO_e291);
  (4, 7, 0, 0, "xi", Some ISO_e292);
  (4, 10, 0, 0, "xi", Some ISO_e292);
  (5, 41, 0, 0, "xi", Some ISO_e293);
  (6, 41, 0, 0, "xi", Some ISO_e294);
  (6, 42, 0, 0, "xi", Some ISO_e295);
  (7, 42, 0, 0, "xi", Some ISO_e296);
  (8, 41, 0, 0, "xi", Some ISO_e297);
  (9, 41, 0, 0, "xi", Some ISO_e298);
  (9, 42, 0, 0, "xi", Some ISO_e299);
  (10, 42, 0, 0, "xi", Some ISO_e300);
  (11, 23, 0, 0, "xi", Some ISO_e91);
  (11, 25, 0, 0, "xi", Some ISO_e301);
  (11, 43, 0, 0, "xi", Some ISO_e302);
  (12, 23, 0, 0, "xi", Some ISO_e92);
  (12, 24, 0, 0, "xi", Some ISO_e93);
  (12, 25, 0, 0, "xi", Some ISO_e303);
  (12, 26, 0, 0, "xi", Some ISO_e304);
  (12, 43, 0, 0, "xi", Some ISO_e305);
  (12, 44, 0, 0, "xi", Some ISO_e306);
  (13, 24, 0, 0, "xi", Some ISO_e94);
  (13, 26, 0, 0, "xi", Some ISO_e307);
  (13, 44, 0, 0, "xi", Some ISO_e308);
  (14, 25, 0, 0, "xi", Some ISO_e309);
  (14, 27, 0, 0, "xi", Some ISO_e91);
  (14, 43, 0, 0, "xi", Some ISO_e301);
  (15, 25, 0, 0, "xi", Some ISO_e310);
  (15, 26, 0, 0, "xi", Some ISO_e311);
  (15, 27, 0, 0, "xi", Some ISO_e312);
  (15, 28, 0, 0, "xi", Some ISO_e93);
  (15, 43, 0, 0, "xi", Some ISO_e313);
  (15, 44, 0, 0, "xi", Some ISO_e304);
  (16, 26, 0, 0, "xi", Some ISO_e314);
  (16, 28, 0, 0, "xi", Some ISO_e94);
  (16, 44, 0, 0, "xi", Some ISO_e315);
  (17, 29, 0, 0, "xi", Some ISO_e91);
  (17, 31, 0, 0, "xi", Some ISO_e301);
  (17, 47, 0, 0, "xi", Some ISO_e302);
  (18, 29, 0, 0, "xi", Some ISO_e92);
  (18, 30, 0, 0, "xi", Some ISO_e93);
  (18, 31, 0, 0, "xi", Some ISO_e303);
  (18, 32, 0, 0, "xi", Some ISO_e304);
  (18, 47, 0, 0, "xi", Some ISO_e305);
  (18, 48, 0, 0, "xi", Some ISO_e306);
  (19, 30, 0, 0, "xi", Some ISO_e94);
  (19, 32, 0, 0, "xi", Some ISO_e307);
  (19, 48, 0, 0, "xi", Some ISO_e308);
  (20, 31, 0, 0, "xi", Some ISO_e309);
  (20, 33, 0, 0, "xi", Some ISO_e91);
  (20, 47, 0, 0, "xi", Some ISO_e301);
  (21, 31, 0, 0, "xi", Some ISO_e310);
  (21, 32, 0, 0, "xi", Some ISO_e311);
  (21, 33, 0, 0, "xi", Some ISO_e312);
  (21, 34, 0, 0, "xi", Some ISO_e93);
  (21, 47, 0, 0, "xi", Some ISO_e313);
  (21, 48, 0, 0, "xi", Some ISO_e304);
  (22, 32, 0, 0, "xi", Some ISO_e314);
  (22, 34, 0, 0, "xi", Some ISO_e94);
  (22, 48, 0, 0, "xi", Some ISO_e315);
  (23, 55, 0, 0, "xi", Some ISO_e316);
  (24, 55, 0, 0, "xi", Some ISO_e317);
  (25, 55, 0, 0, "xi", Some ISO_e318);
  (25, 56, 0, 0, "xi", Some ISO_e319);
  (26, 55, 0, 0, "xi", Some ISO_e320);
  (26, 56, 0, 0, "xi", Some ISO_e321);
  (27, 56, 0, 0, "xi", Some ISO_e322);
  (28, 56, 0, 0, "xi", Some ISO_e323);
  (29, 59, 0, 0, "xi", Some ISO_e316);
  (30, 59, 0, 0, "xi", Some ISO_e317);
  (31, 59, 0, 0, "xi", Some ISO_e318);
  (31, 60, 0, 0, "xi", Some ISO_e319);
  (32, 59, 0, 0, "xi", Some ISO_e320);
  (32, 60, 0, 0, "xi", Some ISO_e321);
  (33, 60, 0, 0, "xi", Some ISO_e322);
  (34, 60, 0, 0, "xi", Some ISO_e323);
  (35, 51, 0, 0, "xi", Some ISO_e18);
  (35, 52, 0, 0, "xi", Some ISO_e324);
  (35, 61, 0, 0, "xi", Some ISO_e325);
  (35, 63, 0, 0, "xi", Some ISO_e326);
  (36, 51, 0, 0, "xi", Some ISO_e20);
  (36, 52, 0, 0, "xi", Some ISO_e327);
  (36, 61, 0, 0, "xi", Some ISO_e328);
  (36, 63, 0, 0, "xi", Some ISO_e329);
  (37, 52, 0, 0, "xi", Some ISO_e330);
  (37, 53, 0, 0, "xi", Some ISO_e331);
  (37, 61, 0, 0, "xi", Some ISO_e332);
  (37, 62, 0, 0, "xi", Some ISO_e333);
  (37, 63, 0, 0, "xi", Some ISO_e334);
  (37, 64, 0, 0, "xi", Some ISO_e335);
  (38, 52, 0, 0, "xi", Some ISO_e336);
  (38, 53, 0, 0, "xi", Some ISO_e337);
  (38, 61, 0, 0, "xi", Some ISO_e338);
  (38, 62, 0, 0, "xi", Some ISO_e339);
  (38, 63, 0, 0, "xi", Some ISO_e340);
  (38, 64, 0, 0, "xi", Some ISO_e341);
  (39, 53, 0, 0, "xi", Some ISO_e342);
  (39, 54, 0, 0, "xi", Some ISO_e19);
  (39, 62, 0, 0, "xi", Some ISO_e343);
  (39, 64, 0, 0, "xi", Some ISO_e344);
  (40, 53, 0, 0, "xi", Some ISO_e345);
  (40, 54, 0, 0, "xi", Some ISO_e346);
  (40, 62, 0, 0, "xi", Some ISO_e347);
  (40, 64, 0, 0, "xi", Some ISO_e348);
  (43, 55, 0, 0, "xi", Some ISO_e349);
  (43, 56, 0, 0, "xi", Some ISO_e349);
  (44, 55, 0, 0, "xi", Some ISO_e350);
  (44, 56, 0, 0, "xi", Some ISO_e350);
  (45, 57, 0, 0, "xi", Some ISO_e18);
  (45, 58, 0, 0, "xi", Some ISO_e19);
  (46, 57, 0, 0, "xi", Some ISO_e20);
  (46, 58, 0, 0, "xi", Some ISO_e20);
  (47, 59, 0, 0, "xi", Some ISO_e349);
  (47, 60, 0, 0, "xi", Some ISO_e349);
  (48, 59, 0, 0, "xi", Some ISO_e350);
  (48, 60, 0, 0, "xi", Some ISO_e350);
  (49, 61, 0, 0, "xi", Some ISO_e351);
  (49, 62, 0, 0, "xi", Some ISO_e351);
  (49, 63, 0, 0, "xi", Some ISO_e352);
  (49, 64, 0, 0, "xi", Some ISO_e352);
  (50, 61, 0, 0, "xi", Some ISO_e353);
  (50, 62, 0, 0, "xi", Some ISO_e353);
  (50, 63, 0, 0, "xi", Some ISO_e354);
  (50, 64, 0, 0, "xi", Some ISO_e354);
  (1, 11, 1, 0, "xi", Some ISO_e287);
  (1, 14, 1, 0, "xi", Some ISO_e287);
  (2, 11, 1, 0, "xi", Some ISO_e288);
  (2, 12, 1, 0, "xi", Some ISO_e289);
  (2, 14, 1, 0, "xi", Some ISO_e288);
  (2, 15, 1, 0, "xi", Some ISO_e289);
  (3, 12, 1, 0, "xi", Some ISO_e290);
  (3, 13, 1, 0, "xi", Some ISO_e291);
  (3, 15, 1, 0, "xi", Some ISO_e290);
  (3, 16, 1, 0, "xi", Some ISO_e291);
  (4, 13, 1, 0, "xi", Some ISO_e292);
  (4, 16, 1, 0, "xi", Some ISO_e292);
  (5, 23, 1, 0, "xi", Some ISO_e355);
  (5, 25, 1, 0, "xi", Some ISO_e356);
  (5, 43, 1, 0, "xi", Some ISO_e302);
  (6, 23, 1, 0, "xi", Some ISO_e72);
  (6, 24, 1, 0, "xi", Some ISO_e155);
  (6, 25, 1, 0, "xi", Some ISO_e357);
  (6, 26, 1, 0, "xi", Some ISO_e358);
  (6, 43, 1, 0, "xi", Some ISO_e305);
  (6, 44, 1, 0, "xi", Some ISO_e306);
  (7, 24, 1, 0, "xi", Some ISO_e359);
  (7, 26, 1, 0, "xi", Some ISO_e360);
  (7, 44, 1, 0, "xi", Some ISO_e308);
  (8, 25, 1, 0, "xi", Some ISO_e302);
  (8, 27, 1, 0, "xi", Some ISO_e355);
  (8, 43, 1, 0, "xi", Some ISO_e301);
  (9, 25, 1, 0, "xi", Some ISO_e361);
  (9, 26, 1, 0, "xi", Some ISO_e362);
  (9, 27, 1, 0, "xi", Some ISO_e63);
  (9, 28, 1, 0, "xi", Some ISO_e155);
  (9, 43, 1, 0, "xi", Some ISO_e313);
  (9, 44, 1, 0, "xi", Some ISO_e304);
  (10, 26, 1, 0, "xi", Some ISO_e363);
  (10, 28, 1, 0, "xi", Some ISO_e359);
  (10, 44, 1, 0, "xi", Some ISO_e315);
  (11, 41, 1, 0, "xi", Some ISO_e364);
  (11, 45, 1, 0, "xi", Some ISO_e309);
  (12, 41, 1, 0, "xi", Some ISO_e365);
  (12, 42, 1, 0, "xi", Some ISO_e366);
  (12, 45, 1, 0, "xi", Some ISO_e367);
  (12, 46, 1, 0, "xi", Some ISO_e368);
  (13, 42, 1, 0, "xi", Some ISO_e369);
  (13, 46, 1, 0, "xi", Some ISO_e370);
  (14, 41, 1, 0, "xi", Some ISO_e371);
  (14, 45, 1, 0, "xi", Some ISO_e356);
  (15, 41, 1, 0, "xi", Some ISO_e372);
  (15, 42, 1, 0, "xi", Some ISO_e373);
  (15, 45, 1, 0, "xi", Some ISO_e374);
  (15, 46, 1, 0, "xi", Some ISO_e375);
  (16, 42, 1, 0, "xi", Some ISO_e376);
  (16, 46, 1, 0, "xi", Some ISO_e377);
  (17, 35, 1, 0, "xi", Some ISO_e91);
  (17, 37, 1, 0, "xi", Some ISO_e301);
  (17, 49, 1, 0, "xi", Some ISO_e302);
  (18, 35, 1, 0, "xi", Some ISO_e92);
  (18, 36, 1, 0, "xi", Some ISO_e93);
  (18, 37, 1, 0, "xi", Some ISO_e303);
  (18, 38, 1, 0, "xi", Some ISO_e304);
  (18, 49, 1, 0, "xi", Some ISO_e305);
  (18, 50, 1, 0, "xi", Some ISO_e306);
  (19, 36, 1, 0, "xi", Some ISO_e94);
  (19, 38, 1, 0, "xi", Some ISO_e307);
  (19, 50, 1, 0, "xi", Some ISO_e308);
  (20, 37, 1, 0, "xi", Some ISO_e309);
  (20, 39, 1, 0, "xi", Some ISO_e91);
  (20, 49, 1, 0, "xi", Some ISO_e301);
  (21, 37, 1, 0, "xi", Some ISO_e310);
  (21, 38, 1, 0, "xi", Some ISO_e311);
  (21, 39, 1, 0, "xi", Some ISO_e312);
  (21, 40, 1, 0, "xi", Some ISO_e93);
  (21, 49, 1, 0, "xi", Some ISO_e313);
  (21, 50, 1, 0, "xi", Some ISO_e304);
  (22, 38, 1, 0, "xi", Some ISO_e314);
  (22, 40, 1, 0, "xi", Some ISO_e94);
  (22, 50, 1, 0, "xi", Some ISO_e315);
  (23, 57, 1, 0, "xi", Some ISO_e325);
  (24, 57, 1, 0, "xi", Some ISO_e328);
  (25, 57, 1, 0, "xi", Some ISO_e332);
  (25, 58, 1, 0, "xi", Some ISO_e333);
  (26, 57, 1, 0, "xi", Some ISO_e338);
  (26, 58, 1, 0, "xi", Some ISO_e339);
  (27, 58, 1, 0, "xi", Some ISO_e343);
  (28, 58, 1, 0, "xi", Some ISO_e347);
  (29, 51, 1, 0, "xi", Some ISO_e107);
  (29, 52, 1, 0, "xi", Some ISO_e378);
  (29, 61, 1, 0, "xi", Some ISO_e325);
  (29, 63, 1, 0, "xi", Some ISO_e379);
  (30, 51, 1, 0, "xi", Some ISO_e109);
  (30, 52, 1, 0, "xi", Some ISO_e380);
  (30, 61, 1, 0, "xi", Some ISO_e328);
  (30, 63, 1, 0, "xi", Some ISO_e381);
  (31, 52, 1, 0, "xi", Some ISO_e382);
  (31, 53, 1, 0, "xi", Some ISO_e383);
  (31, 61, 1, 0, "xi", Some ISO_e332);
  (31, 62, 1, 0, "xi", Some ISO_e333);
  (31, 63, 1, 0, "xi", Some ISO_e384);
  (31, 64, 1, 0, "xi", Some ISO_e385);
  (32, 52, 1, 0, "xi", Some ISO_e386);
  (32, 53, 1, 0, "xi", Some ISO_e387);
  (32, 61, 1, 0, "xi", Some ISO_e338);
  (32, 62, 1, 0, "xi", Some ISO_e339);
  (32, 63, 1, 0, "xi", Some ISO_e388);
  (32, 64, 1, 0, "xi", Some ISO_e389);
  (33, 53, 1, 0, "xi", Some ISO_e390);
  (33, 54, 1, 0, "xi", Some ISO_e112);
  (33, 62, 1, 0, "xi", Some ISO_e343);
  (33, 64, 1, 0, "xi", Some ISO_e391);
  (34, 53, 1, 0, "xi", Some ISO_e392);
  (34, 54, 1, 0, "xi", Some ISO_e393);
  (34, 62, 1, 0, "xi", Some ISO_e347);
  (34, 64, 1, 0, "xi", Some ISO_e394);
  (35, 59, 1, 0, "xi", Some ISO_e325);
  (36, 59, 1, 0, "xi", Some ISO_e328);
  (37, 59, 1, 0, "xi", Some ISO_e332);
  (37, 60, 1, 0, "xi", Some ISO_e333);
  (38, 59, 1, 0, "xi", Some ISO_e338);
  (38, 60, 1, 0, "xi", Some ISO_e339);
  (39, 60, 1, 0, "xi", Some ISO_e343);
  (40, 60, 1, 0, "xi", Some ISO_e347);
  (41, 55, 1, 0, "xi", Some ISO_e352);
  (41, 56, 1, 0, "xi", Some ISO_e352);
  (42, 55, 1, 0, "xi", Some ISO_e354);
  (42, 56, 1, 0, "xi", Some ISO_e354);
  (43, 57, 1, 0, "xi", Some ISO_e349);
  (43, 58, 1, 0, "xi", Some ISO_e349);
  (44, 57, 1, 0, "xi", Some ISO_e350);
  (44, 58, 1, 0, "xi", Some ISO_e350);
  (45, 55, 1, 0, "xi", Some ISO_e349);
  (45, 56, 1, 0, "xi", Some ISO_e349);
  (46, 55, 1, 0, "xi", Some ISO_e350);
  (46, 56, 1, 0, "xi", Some ISO_e350);
  (47, 61, 1, 0, "xi", Some ISO_e351);
  (47, 62, 1, 0, "xi", Some ISO_e351);
  (47, 63, 1, 0, "xi", Some ISO_e395);
  (47, 64, 1, 0, "xi", Some ISO_e395);
  (48, 61, 1, 0, "xi", Some ISO_e353);
  (48, 62, 1, 0, "xi", Some ISO_e353);
  (48, 63, 1, 0, "xi", Some ISO_e396);
  (48, 64, 1, 0, "xi", Some ISO_e396);
  (49, 59, 1, 0, "xi", Some ISO_e351);
  (49, 60, 1, 0, "xi", Some ISO_e351);
  (50, 59, 1, 0, "xi", Some ISO_e353);
  (50, 60, 1, 0, "xi", Some ISO_e353);
  (1, 17, 2, 0, "xi", Some ISO_e287);
  (1, 20, 2, 0, "xi", Some ISO_e287);
  (2, 17, 2, 0, "xi", Some ISO_e288);
  (2, 18, 2, 0, "xi", Some ISO_e289);
  (2, 20, 2, 0, "xi", Some ISO_e288);
  (2, 21, 2, 0, "xi", Some ISO_e289);
  (3, 18, 2, 0, "xi", Some ISO_e290);
  (3, 19, 2, 0, "xi", Some ISO_e291);
  (3, 21, 2, 0, "xi", Some ISO_e290);
  (3, 22, 2, 0, "xi", Some ISO_e291);
  (4, 19, 2, 0, "xi", Some ISO_e292);
  (4, 22, 2, 0, "xi", Some ISO_e292);
  (5, 29, 2, 0, "xi", Some ISO_e355);
  (5, 31, 2, 0, "xi", Some ISO_e356);
  (5, 47, 2, 0, "xi", Some ISO_e302);
  (6, 29, 2, 0, "xi", Some ISO_e72);
  (6, 30, 2, 0, "xi", Some ISO_e155);
  (6, 31, 2, 0, "xi", Some ISO_e357);
  (6, 32, 2, 0, "xi", Some ISO_e358);
  (6, 47, 2, 0, "xi", Some ISO_e305);
  (6, 48, 2, 0, "xi", Some ISO_e306);
  (7, 30, 2, 0, "xi", Some ISO_e359);
  (7, 32, 2, 0, "xi", Some ISO_e360);
  (7, 48, 2, 0, "xi", Some ISO_e308);
  (8, 31, 2, 0, "xi", Some ISO_e302);
  (8, 33, 2, 0, "xi", Some ISO_e355);
  (8, 47, 2, 0, "xi", Some ISO_e301);
  (9, 31, 2, 0, "xi", Some ISO_e361);
  (9, 32, 2, 0, "xi", Some ISO_e362);
  (9, 33, 2, 0, "xi", Some ISO_e63);
  (9, 34, 2, 0, "xi", Some ISO_e155);
  (9, 47, 2, 0, "xi", Some ISO_e313);
  (9, 48, 2, 0, "xi", Some ISO_e304);
  (10, 32, 2, 0, "xi", Some ISO_e363);
  (10, 34, 2, 0, "xi", Some ISO_e359);
  (10, 48, 2, 0, "xi", Some ISO_e315);
  (11, 35, 2, 0, "xi", Some ISO_e355);
  (11, 37, 2, 0, "xi", Some ISO_e356);
  (11, 49, 2, 0, "xi", Some ISO_e302);
  (12, 35, 2, 0, "xi", Some ISO_e72);
  (12, 36, 2, 0, "xi", Some ISO_e155);
  (12, 37, 2, 0, "xi", Some ISO_e357);
  (12, 38, 2, 0, "xi", Some ISO_e358);
  (12, 49, 2, 0, "xi", Some ISO_e305);
  (12, 50, 2, 0, "xi", Some ISO_e306);
  (13, 36, 2, 0, "xi", Some ISO_e359);
  (13, 38, 2, 0, "xi", Some ISO_e360);
  (13, 50, 2, 0, "xi", Some ISO_e308);
  (14, 37, 2, 0, "xi", Some ISO_e302);
  (14, 39, 2, 0, "xi", Some ISO_e355);
  (14, 49, 2, 0, "xi", Some ISO_e301);
  (15, 37, 2, 0, "xi", Some ISO_e361);
  (15, 38, 2, 0, "xi", Some ISO_e362);
  (15, 39, 2, 0, "xi", Some ISO_e63);
  (15, 40, 2, 0, "xi", Some ISO_e155);
  (15, 49, 2, 0, "xi", Some ISO_e313);
  (15, 50, 2, 0, "xi", Some ISO_e304);
  (16, 38, 2, 0, "xi", Some ISO_e363);
  (16, 40, 2, 0, "xi", Some ISO_e359);
  (16, 50, 2, 0, "xi", Some ISO_e315);
  (17, 41, 2, 0, "xi", Some ISO_e364);
  (17, 45, 2, 0, "xi", Some ISO_e302);
  (18, 41, 2, 0, "xi", Some ISO_e365);
  (18, 42, 2, 0, "xi", Some ISO_e366);
  (18, 45, 2, 0, "xi", Some ISO_e305);
  (18, 46, 2, 0, "xi", Some ISO_e306);
  (19, 42, 2, 0, "xi", Some ISO_e369);
  (19, 46, 2, 0, "xi", Some ISO_e308);
  (20, 41, 2, 0, "xi", Some ISO_e371);
  (20, 45, 2, 0, "xi", Some ISO_e301);
  (21, 41, 2, 0, "xi", Some ISO_e372);
  (21, 42, 2, 0, "xi", Some ISO_e373);
  (21, 45, 2, 0, "xi", Some ISO_e313);
  (21, 46, 2, 0, "xi", Some ISO_e304);
  (22, 42, 2, 0, "xi", Some ISO_e376);
  (22, 46, 2, 0, "xi", Some ISO_e315);
  (23, 51, 2, 0, "xi", Some ISO_e18);
  (23, 52, 2, 0, "xi", Some ISO_e324);
  (23, 63, 2, 0, "xi", Some ISO_e397);
  (24, 51, 2, 0, "xi", Some ISO_e20);
  (24, 52, 2, 0, "xi", Some ISO_e327);
  (24, 63, 2, 0, "xi", Some ISO_e398);
  (25, 52, 2, 0, "xi", Some ISO_e330);
  (25, 53, 2, 0, "xi", Some ISO_e331);
  (25, 63, 2, 0, "xi", Some ISO_e378);
  (25, 64, 2, 0, "xi", Some ISO_e399);
  (26, 52, 2, 0, "xi", Some ISO_e336);
  (26, 53, 2, 0, "xi", Some ISO_e337);
  (26, 63, 2, 0, "xi", Some ISO_e380);
  (26, 64, 2, 0, "xi", Some ISO_e400);
  (27, 53, 2, 0, "xi", Some ISO_e342);
  (27, 54, 2, 0, "xi", Some ISO_e19);
  (27, 64, 2, 0, "xi", Some ISO_e383);
  (28, 53, 2, 0, "xi", Some ISO_e345);
  (28, 54, 2, 0, "xi", Some ISO_e346);
  (28, 64, 2, 0, "xi", Some ISO_e401);
  (29, 57, 2, 0, "xi", Some ISO_e316);
  (30, 57, 2, 0, "xi", Some ISO_e317);
  (31, 57, 2, 0, "xi", Some ISO_e318);
  (31, 58, 2, 0, "xi", Some ISO_e319);
  (32, 57, 2, 0, "xi", Some ISO_e320);
  (32, 58, 2, 0, "xi", Some ISO_e321);
  (33, 58, 2, 0, "xi", Some ISO_e322);
  (34, 58, 2, 0, "xi", Some ISO_e323);
  (35, 55, 2, 0, "xi", Some ISO_e316);
  (36, 55, 2, 0, "xi", Some ISO_e317);
  (37, 55, 2, 0, "xi", Some ISO_e318);
  (37, 56, 2, 0, "xi", Some ISO_e319);
  (38, 55, 2, 0, "xi", Some ISO_e320);
  (38, 56, 2, 0, "xi", Some ISO_e321);
  (39, 56, 2, 0, "xi", Some ISO_e322);
  (40, 56, 2, 0, "xi", Some ISO_e323);
  (41, 59, 2, 0, "xi", Some ISO_e352);
  (41, 60, 2, 0, "xi", Some ISO_e352);
  (42, 59, 2, 0, "xi", Some ISO_e354);
  (42, 60, 2, 0, "xi", Some ISO_e354);
  (43, 61, 2, 0, "xi", Some ISO_e18);
  (43, 62, 2, 0, "xi", Some ISO_e19);
  (44, 61, 2, 0, "xi", Some ISO_e20);
  (44, 62, 2, 0, "xi", Some ISO_e20);
  (45, 59, 2, 0, "xi", Some ISO_e351);
  (45, 60, 2, 0, "xi", Some ISO_e351);
  (46, 59, 2, 0, "xi", Some ISO_e353);
  (46, 60, 2, 0, "xi", Some ISO_e353);
  (47, 57, 2, 0, "xi", Some ISO_e351);
  (47, 58, 2, 0, "xi", Some ISO_e351);
  (48, 57, 2, 0, "xi", Some ISO_e353);
  (48, 58, 2, 0, "xi", Some ISO_e353);
  (49, 55, 2, 0, "xi", Some ISO_e351);
  (49, 56, 2, 0, "xi", Some ISO_e351);
  (50, 55, 2, 0, "xi", Some ISO_e353);
  (50, 56, 2, 0, "xi", Some ISO_e353)].
(** /repo/c++/symmetry/sym-ISO-impl.hpp, make_matrix  *)
Definition iso_3ch_m0_d : list diag_line := [
  ].
(** /repo/c++/symmetry/sym-ISO-impl.hpp, make_matrix  *)
Definition iso_3ch_m0_f : list dof_line := [
  ].
Definition coef_iso_3ch : coef_set := mk_coef "ISO" 3%nat sym_ISO {| tb_In := iso_3ch_In; tb_QN := iso_3ch_QN |}
  [iso_3ch_t0; iso_3ch_t1; iso_3ch_t2; iso_3ch_t3; iso_3ch_t4; iso_3ch_t5; iso_3ch_t6; iso_3ch_t7; iso_3ch_t8; iso_3ch_t9; iso_3ch_t10; iso_3ch_t11]
  []
  [mk_mode "default" iso_3ch_m0_o iso_3ch_m0_d iso_3ch_m0_f].
