(** Generated by gen/gen_coef.py from /repo/c++/symmetry/{sym-ISOLR-impl.hpp, nrg-recalc-ISOLR.hpp, coefnew}. Do not edit. *)
From Coq Require Import List ZArith String.
From Verif Require Import Base Invar_model Symmetry_model Symmetry_tables Coef_model.
Import ListNotations.
Local Open Scope string_scope.
Local Open Scope list_scope.
Local Open Scope Z_scope.

Definition ISOLR_e0 := (cD (cM (cG [] 0) (cR (cD (cA (cA (cA (cN 1) (cM (cN 2) (cH 0))) (cM (cN 2) (cH 1))) (cM (cM (cN 4) (cH 0)) (cH 1))) (cA (cA (cA (cN 1) (cH 0)) (cH 1)) (cM (cH 0) (cH 1)))))) (cN 4)).
Definition ISOLR_e1 := (cD (cO (cM (cG [] 0) (cR (cD (cA (cA (cA (cN 1) (cM (cN 2) (cH 0))) (cM (cN 2) (cH 1))) (cM (cM (cN 4) (cH 0)) (cH 1))) (cA (cA (cA (cN 1) (cH 0)) (cH 1)) (cM (cH 0) (cH 1))))))) (cN 4)).
Definition ISOLR_e2 := (cD (cM (cG [] 0) (cR (cB (cN 2) (cD (cN 1) (cA (cN 1) (cH 0)))))) (cN 2)).
Definition ISOLR_e3 := (cD (cM (cG [] 0) (cA (cN 3) (cM (cN 2) (cH 1)))) (cM (cN 4) (cR (cD (cM (cM (cA (cN 1) (cH 0)) (cA (cN 1) (cH 1))) (cA (cN 3) (cM (cN 2) (cH 1)))) (cA (cN 1) (cM (cN 2) (cH 0))))))).
Definition ISOLR_e4 := (cD (cO (cH 1)) (cM (cN 2) (cR (cM (cH 1) (cA (cN 1) (cH 1)))))).
Definition ISOLR_e5 := (cD (cO (cR (cB (cN 2) (cD (cN 1) (cA (cN 1) (cH 1)))))) (cN 2)).
Definition ISOLR_e6 := (cD (cM (cG [] 0) (cH 0)) (cM (cN 2) (cR (cM (cH 0) (cA (cN 1) (cH 0)))))).
Definition ISOLR_e7 := (cD (cM (cG [] 0) (cA (cR (cD (cM (cA (cN 1) (cM (cN 2) (cH 0))) (cA (cN 1) (cH 1))) (cA (cN 1) (cH 0)))) (cM (cN 2) (cR (cM (cM (cA (cN 1) (cH 0)) (cA (cN 1) (cM (cN 2) (cH 0)))) (cA (cN 1) (cH 1))))))) (cM (cM (cN 2) (cA (cN 3) (cM (cN 2) (cH 0)))) (cR (cA (cN 1) (cH 1))))).
Definition ISOLR_e8 := (cD (cO (cA (cN 3) (cM (cN 2) (cH 0)))) (cM (cN 4) (cR (cD (cM (cM (cA (cN 1) (cH 0)) (cA (cN 3) (cM (cN 2) (cH 0)))) (cA (cN 1) (cH 1))) (cA (cN 1) (cM (cN 2) (cH 1))))))).
Definition ISOLR_e9 := (cD (cO (cG [] 0)) (cM (cN 4) (cR (cD (cA (cH 1) (cM (cH 0) (cH 1))) (cA (cA (cA (cN 1) (cM (cN 2) (cH 0))) (cM (cN 2) (cH 1))) (cM (cM (cN 4) (cH 0)) (cH 1))))))).
Definition ISOLR_e10 := (cD (cG [] 0) (cM (cN 4) (cR (cD (cA (cH 1) (cM (cH 0) (cH 1))) (cA (cA (cA (cN 1) (cM (cN 2) (cH 0))) (cM (cN 2) (cH 1))) (cM (cM (cN 4) (cH 0)) (cH 1))))))).
Definition ISOLR_e11 := (cD (cM (cG [] 0) (cR (cD (cM (cA (cN 1) (cM (cN 2) (cH 0))) (cA (cN (-1)) (cM (cN 2) (cH 1)))) (cM (cA (cN 1) (cH 0)) (cH 1))))) (cN 4)).
Definition ISOLR_e12 := (cD (cR (cA (cN 2) (cD (cN 1) (cH 1)))) (cN 2)).
Definition ISOLR_e13 := (cD (cA (cN 1) (cH 1)) (cM (cN 2) (cR (cM (cH 1) (cA (cN 1) (cH 1)))))).
Definition ISOLR_e14 := (cD (cM (cG [] 0) (cA (cD (cM (cN 2) (cR (cM (cM (cA (cN 1) (cH 0)) (cA (cN 1) (cM (cN 2) (cH 0)))) (cH 1)))) (cA (cN 3) (cM (cN 2) (cH 0)))) (cR (cD (cA (cH 1) (cM (cM (cN 2) (cH 0)) (cH 1))) (cM (cA (cN 1) (cH 0)) (cW (cA (cN 3) (cM (cN 2) (cH 0))) 4)))))) (cM (cN 2) (cR (cH 1)))).
Definition ISOLR_e15 := (cD (cA (cN 3) (cM (cN 2) (cH 0))) (cM (cN 4) (cR (cD (cM (cM (cA (cN 1) (cH 0)) (cA (cN 3) (cM (cN 2) (cH 0)))) (cH 1)) (cA (cN 1) (cM (cN 2) (cH 1))))))).
Definition ISOLR_e16 := (cD (cO (cG [] 0)) (cM (cN 4) (cR (cD (cA (cH 0) (cM (cH 0) (cH 1))) (cA (cA (cA (cN 1) (cM (cN 2) (cH 0))) (cM (cN 2) (cH 1))) (cM (cM (cN 4) (cH 0)) (cH 1))))))).
Definition ISOLR_e17 := (cD (cG [] 0) (cM (cN 4) (cR (cD (cA (cH 0) (cM (cH 0) (cH 1))) (cA (cA (cA (cN 1) (cM (cN 2) (cH 0))) (cM (cN 2) (cH 1))) (cM (cM (cN 4) (cH 0)) (cH 1))))))).
Definition ISOLR_e18 := (cD (cO (cM (cG [] 0) (cR (cA (cN 2) (cD (cN 1) (cH 0)))))) (cN 2)).
Definition ISOLR_e19 := (cD (cO (cM (cG [] 0) (cA (cN 3) (cM (cN 2) (cH 1))))) (cM (cN 4) (cR (cD (cM (cM (cH 0) (cA (cN 1) (cH 1))) (cA (cN 3) (cM (cN 2) (cH 1)))) (cA (cN 1) (cM (cN 2) (cH 0))))))).
Definition ISOLR_e20 := (cD (cO (cM (cG [] 0) (cA (cN 1) (cH 0)))) (cM (cN 2) (cR (cM (cH 0) (cA (cN 1) (cH 0)))))).
Definition ISOLR_e21 := (cD (cB (cN 1) (cM (cN 2) (cH 0))) (cM (cN 4) (cR (cD (cM (cM (cH 0) (cA (cN (-1)) (cM (cN 2) (cH 0)))) (cA (cN 1) (cH 1))) (cA (cN 1) (cM (cN 2) (cH 1))))))).
Definition ISOLR_e22 := (cD (cO (cM (cA (cN 1) (cM (cN 2) (cH 0))) (cA (cR (cD (cM (cM (cH 0) (cA (cN 1) (cM (cN 2) (cH 0)))) (cA (cN 1) (cM (cN 2) (cH 1)))) (cW (cA (cN 1) (cH 0)) 4))) (cR (cD (cA (cH 0) (cM (cM (cN 2) (cH 0)) (cH 1))) (cM (cW (cA (cN 1) (cH 0)) 4) (cA (cN 1) (cM (cN 2) (cH 0))))))))) (cM (cN 4) (cR (cM (cM (cH 0) (cA (cN 1) (cM (cN 2) (cH 0)))) (cA (cN 1) (cH 1)))))).
Definition ISOLR_e23 := (cD (cG [] 0) (cM (cN 4) (cR (cD (cM (cH 0) (cH 1)) (cA (cA (cA (cN 1) (cM (cN 2) (cH 0))) (cM (cN 2) (cH 1))) (cM (cM (cN 4) (cH 0)) (cH 1))))))).
Definition ISOLR_e24 := (cD (cO (cG [] 0)) (cM (cN 4) (cR (cD (cM (cH 0) (cH 1)) (cA (cA (cA (cN 1) (cM (cN 2) (cH 0))) (cM (cN 2) (cH 1))) (cM (cM (cN 4) (cH 0)) (cH 1))))))).
Definition ISOLR_e25 := (cD (cO (cM (cG [] 0) (cR (cM (cM (cM (cH 0) (cA (cN 1) (cM (cN 2) (cH 0)))) (cH 1)) (cA (cN (-1)) (cM (cN 2) (cH 1))))))) (cM (cM (cN 4) (cH 0)) (cH 1))).
Definition ISOLR_e26 := (cD (cR (cM (cM (cM (cH 0) (cA (cN (-1)) (cM (cN 2) (cH 0)))) (cH 1)) (cA (cN 1) (cM (cN 2) (cH 1))))) (cM (cM (cN 4) (cH 0)) (cH 1))).
Definition ISOLR_e27 := (cD (cA (cR (cD (cM (cM (cH 0) (cA (cN 1) (cM (cN 2) (cH 0)))) (cA (cN 1) (cM (cN 2) (cH 1)))) (cW (cA (cN 1) (cH 0)) 4))) (cR (cD (cA (cH 0) (cM (cM (cN 2) (cH 0)) (cH 1))) (cM (cW (cA (cN 1) (cH 0)) 4) (cA (cN 1) (cM (cN 2) (cH 0))))))) (cM (cN 4) (cR (cD (cM (cH 0) (cH 1)) (cA (cN 1) (cM (cN 2) (cH 0))))))).
Definition ISOLR_e28 := (cD (cO (cM (cG [] 0) (cR (cB (cN 2) (cD (cN 1) (cA (cN 1) (cH 0))))))) (cN 2)).
Definition ISOLR_e29 := (cD (cO (cM (cG [] 0) (cA (cN 3) (cM (cN 2) (cH 1))))) (cM (cN 4) (cR (cD (cM (cM (cA (cN 1) (cH 0)) (cA (cN 1) (cH 1))) (cA (cN 3) (cM (cN 2) (cH 1)))) (cA (cN 1) (cM (cN 2) (cH 0))))))).
Definition ISOLR_e30 := (cD (cH 1) (cM (cN 2) (cR (cM (cH 1) (cA (cN 1) (cH 1)))))).
Definition ISOLR_e31 := (cD (cR (cB (cN 2) (cD (cN 1) (cA (cN 1) (cH 1))))) (cN 2)).
Definition ISOLR_e32 := (cD (cO (cM (cG [] 0) (cH 0))) (cM (cN 2) (cR (cM (cH 0) (cA (cN 1) (cH 0)))))).
Definition ISOLR_e33 := (cD (cO (cM (cG [] 0) (cA (cR (cD (cM (cA (cN 1) (cM (cN 2) (cH 0))) (cA (cN 1) (cH 1))) (cA (cN 1) (cH 0)))) (cM (cN 2) (cR (cM (cM (cA (cN 1) (cH 0)) (cA (cN 1) (cM (cN 2) (cH 0)))) (cA (cN 1) (cH 1)))))))) (cM (cM (cN 2) (cA (cN 3) (cM (cN 2) (cH 0)))) (cR (cA (cN 1) (cH 1))))).
Definition ISOLR_e34 := (cD (cA (cN 3) (cM (cN 2) (cH 0))) (cM (cN 4) (cR (cD (cM (cM (cA (cN 1) (cH 0)) (cA (cN 3) (cM (cN 2) (cH 0)))) (cA (cN 1) (cH 1))) (cA (cN 1) (cM (cN 2) (cH 1))))))).
Definition ISOLR_e35 := (cD (cM (cG [] 0) (cB (cN 1) (cM (cN 2) (cH 1)))) (cM (cN 4) (cR (cD (cM (cM (cA (cN 1) (cH 0)) (cH 1)) (cA (cN (-1)) (cM (cN 2) (cH 1)))) (cA (cN 1) (cM (cN 2) (cH 0))))))).
Definition ISOLR_e36 := (cD (cO (cR (cA (cN 2) (cD (cN 1) (cH 1))))) (cN 2)).
Definition ISOLR_e37 := (cD (cO (cR (cM (cH 1) (cA (cN 1) (cH 1))))) (cM (cN 2) (cH 1))).
Definition ISOLR_e38 := (cD (cM (cG [] 0) (cB (cD (cM (cN (-2)) (cR (cM (cM (cA (cN 1) (cH 0)) (cA (cN 1) (cM (cN 2) (cH 0)))) (cH 1)))) (cA (cN 3) (cM (cN 2) (cH 0)))) (cR (cD (cA (cH 1) (cM (cM (cN 2) (cH 0)) (cH 1))) (cM (cA (cN 1) (cH 0)) (cW (cA (cN 3) (cM (cN 2) (cH 0))) 4)))))) (cM (cN 2) (cR (cH 1)))).
Definition ISOLR_e39 := (cD (cO (cA (cN 3) (cM (cN 2) (cH 0)))) (cM (cN 4) (cR (cD (cM (cM (cA (cN 1) (cH 0)) (cA (cN 3) (cM (cN 2) (cH 0)))) (cH 1)) (cA (cN 1) (cM (cN 2) (cH 1))))))).
Definition ISOLR_e40 := (cD (cM (cG [] 0) (cR (cA (cN 2) (cD (cN 1) (cH 0))))) (cN 2)).
Definition ISOLR_e41 := (cD (cM (cG [] 0) (cA (cN 3) (cM (cN 2) (cH 1)))) (cM (cN 4) (cR (cD (cM (cM (cH 0) (cA (cN 1) (cH 1))) (cA (cN 3) (cM (cN 2) (cH 1)))) (cA (cN 1) (cM (cN 2) (cH 0))))))).
Definition ISOLR_e42 := (cD (cM (cG [] 0) (cA (cN 1) (cH 0))) (cM (cN 2) (cR (cM (cH 0) (cA (cN 1) (cH 0)))))).
Definition ISOLR_e43 := (cD (cR (cD (cM (cA (cN (-1)) (cM (cN 2) (cH 0))) (cA (cN 1) (cM (cN 2) (cH 1)))) (cM (cH 0) (cA (cN 1) (cH 1))))) (cN 4)).
Definition ISOLR_e44 := (cD (cA (cR (cD (cM (cM (cH 0) (cA (cN 1) (cM (cN 2) (cH 0)))) (cA (cN 1) (cM (cN 2) (cH 1)))) (cW (cA (cN 1) (cH 0)) 4))) (cR (cD (cA (cH 0) (cM (cM (cN 2) (cH 0)) (cH 1))) (cM (cW (cA (cN 1) (cH 0)) 4) (cA (cN 1) (cM (cN 2) (cH 0))))))) (cM (cN 4) (cR (cD (cM (cH 0) (cA (cN 1) (cH 1))) (cA (cN 1) (cM (cN 2) (cH 0))))))).
Definition ISOLR_e45 := (cD (cM (cG [] 0) (cR (cM (cM (cM (cH 0) (cA (cN 1) (cM (cN 2) (cH 0)))) (cH 1)) (cA (cN (-1)) (cM (cN 2) (cH 1)))))) (cM (cM (cN 4) (cH 0)) (cH 1))).
Definition ISOLR_e46 := (cD (cO (cA (cN 1) (cH 1))) (cM (cN 2) (cR (cM (cH 1) (cA (cN 1) (cH 1)))))).
Definition ISOLR_e47 := (cD (cM (cG [] 0) (cA (cR (cD (cM (cH 0) (cH 1)) (cA (cN 1) (cM (cN 2) (cH 0))))) (cR (cD (cM (cW (cH 0) 6) (cH 1)) (cA (cN 1) (cM (cN 2) (cH 0))))))) (cM (cN 2) (cR (cD (cM (cM (cW (cH 0) 4) (cA (cN 1) (cH 0))) (cH 1)) (cA (cN 1) (cM (cN 2) (cH 0))))))).
Definition ISOLR_e48 := (cD (cO (cR (cM (cM (cM (cH 0) (cA (cN (-1)) (cM (cN 2) (cH 0)))) (cH 1)) (cA (cN 1) (cM (cN 2) (cH 1)))))) (cM (cM (cN 4) (cH 0)) (cH 1))).
Definition ISOLR_e49 := (cD (cO (cA (cR (cD (cM (cM (cH 0) (cA (cN 1) (cM (cN 2) (cH 0)))) (cA (cN 1) (cM (cN 2) (cH 1)))) (cW (cA (cN 1) (cH 0)) 4))) (cR (cD (cA (cH 0) (cM (cM (cN 2) (cH 0)) (cH 1))) (cM (cW (cA (cN 1) (cH 0)) 4) (cA (cN 1) (cM (cN 2) (cH 0)))))))) (cM (cN 4) (cR (cD (cM (cH 0) (cH 1)) (cA (cN 1) (cM (cN 2) (cH 0))))))).
Definition ISOLR_e50 := (cM (cA (cN (-1)) (cM (cN 2) (cH 1))) (cR (cO (cD (cA (cN 1) (cH 1)) (cB (cH 1) (cM (cN 4) (cW (cH 1) 6))))))).
Definition ISOLR_e51 := (cO (cD (cN 1) (cR (cM (cH 1) (cA (cN 1) (cM (cN 2) (cH 1))))))).
Definition ISOLR_e52 := (cD (cM (cH 1) (cA (cN 3) (cM (cN 2) (cH 1)))) (cR (cM (cM (cH 1) (cA (cN 1) (cH 1))) (cA (cN 3) (cM (cM (cN 4) (cH 1)) (cA (cN 2) (cH 1))))))).
Definition ISOLR_e53 := (cO (cD (cN 1) (cR (cM (cA (cN 1) (cH 1)) (cA (cN 1) (cM (cN 2) (cH 1))))))).
Definition ISOLR_e54 := (cD (cM (cN 2) (cR (cM (cH 1) (cA (cN 1) (cH 1))))) (cA (cN 1) (cM (cN 2) (cH 1)))).
Definition ISOLR_e55 := (cM (cN 2) (cR (cD (cM (cH 1) (cA (cN 1) (cH 1))) (cM (cW (cA (cN 1) (cM (cN 2) (cH 0))) 4) (cW (cA (cN 1) (cM (cN 2) (cH 1))) 4))))).
Definition ISOLR_e56 := (cD (cM (cN 4) (cR (cD (cM (cM (cM (cH 0) (cA (cN 1) (cH 0))) (cH 1)) (cA (cN 1) (cH 1))) (cW (cA (cN 1) (cM (cN 2) (cH 1))) 4)))) (cA (cN 1) (cM (cN 2) (cH 0)))).
Definition ISOLR_e57 := (cD (cN 1) (cB (cN (-1)) (cM (cN 2) (cH 1)))).
Definition ISOLR_e58 := (cO (cD (cN 1) (cA (cA (cA (cN 1) (cM (cN 2) (cH 0))) (cM (cN 2) (cH 1))) (cM (cM (cN 4) (cH 0)) (cH 1))))).
Definition ISOLR_e59 := (cD (cN 1) (cA (cN 1) (cM (cN 2) (cH 0)))).
Definition ISOLR_e60 := (cD (cM (cN (-2)) (cR (cA (cH 0) (cW (cH 0) 4)))) (cA (cA (cA (cN 1) (cM (cN 2) (cH 0))) (cM (cN 2) (cH 1))) (cM (cM (cN 4) (cH 0)) (cH 1)))).
Definition ISOLR_e61 := (cD (cM (cN 2) (cR (cM (cH 0) (cA (cN 1) (cH 0))))) (cA (cN 1) (cM (cN 2) (cH 0)))).
Definition ISOLR_e62 := (cM (cR (cD (cN 1) (cA (cN (-1)) (cM (cN 2) (cH 0))))) (cR (cA (cN (-1)) (cM (cN 2) (cH 0))))).
Definition ISOLR_e63 := (cM (cR (cD (cN 1) (cA (cO (cH 0)) (cM (cN 2) (cW (cH 0) 4))))) (cR (cB (cN 1) (cD (cN 2) (cA (cN 1) (cM (cN 2) (cH 0))))))).
Definition ISOLR_e64 := (cD (cA (cM (cH 0) (cA (cN (-1)) (cM (cN 2) (cH 0)))) (cM (cR (cA (cN (-1)) (cM (cN 4) (cW (cH 0) 4)))) (cR (cB (cN 1) (cD (cN 2) (cA (cN 1) (cM (cN 2) (cH 0)))))))) (cR (cM (cM (cH 0) (cA (cN 1) (cH 0))) (cA (cN (-1)) (cM (cN 4) (cW (cH 0) 4)))))).
Definition ISOLR_e65 := (cD (cN 1) (cR (cM (cA (cN 1) (cH 0)) (cA (cN 1) (cM (cN 2) (cH 0)))))).
Definition ISOLR_e66 := (cD (cR (cD (cM (cH 0) (cA (cN 3) (cM (cM (cN 4) (cH 0)) (cA (cN 2) (cH 0))))) (cA (cN 1) (cH 0)))) (cA (cN 1) (cM (cN 2) (cH 0)))).
Definition ISOLR_e67 := (cM (cR (cD (cN 1) (cA (cN (-1)) (cM (cN 2) (cH 1))))) (cR (cA (cN (-1)) (cM (cN 2) (cH 1))))).
Definition ISOLR_e68 := (cM (cR (cD (cN 1) (cA (cO (cH 1)) (cM (cN 2) (cW (cH 1) 4))))) (cR (cB (cN 1) (cD (cN 2) (cA (cN 1) (cM (cN 2) (cH 1))))))).
Definition ISOLR_e69 := (cD (cA (cM (cH 1) (cA (cN (-1)) (cM (cN 2) (cH 1)))) (cM (cR (cA (cN (-1)) (cM (cN 4) (cW (cH 1) 4)))) (cR (cB (cN 1) (cD (cN 2) (cA (cN 1) (cM (cN 2) (cH 1)))))))) (cR (cM (cM (cH 1) (cA (cN 1) (cH 1))) (cA (cN (-1)) (cM (cN 4) (cW (cH 1) 4)))))).
Definition ISOLR_e70 := (cD (cN 1) (cR (cM (cA (cN 1) (cH 1)) (cA (cN 1) (cM (cN 2) (cH 1)))))).
Definition ISOLR_e71 := (cD (cR (cD (cM (cH 1) (cA (cN 3) (cM (cM (cN 4) (cH 1)) (cA (cN 2) (cH 1))))) (cA (cN 1) (cH 1)))) (cA (cN 1) (cM (cN 2) (cH 1)))).
Definition ISOLR_e72 := (cD (cN 1) (cA (cN 1) (cM (cN 2) (cH 1)))).
Definition ISOLR_e73 := (cD (cN 1) (cA (cA (cA (cN 1) (cM (cN 2) (cH 0))) (cM (cN 2) (cH 1))) (cM (cM (cN 4) (cH 0)) (cH 1)))).
Definition ISOLR_e74 := (cD (cM (cN 2) (cR (cA (cH 0) (cW (cH 0) 4)))) (cA (cA (cA (cN 1) (cM (cN 2) (cH 0))) (cM (cN 2) (cH 1))) (cM (cM (cN 4) (cH 0)) (cH 1)))).
Definition ISOLR_e75 := (cD (cM (cN 2) (cR (cA (cH 1) (cW (cH 1) 4)))) (cA (cA (cA (cN 1) (cM (cN 2) (cH 0))) (cM (cN 2) (cH 1))) (cM (cM (cN 4) (cH 0)) (cH 1)))).
Definition ISOLR_e76 := (cD (cM (cN 4) (cR (cM (cM (cM (cM (cH 0) (cA (cN 1) (cH 0))) (cH 1)) (cA (cN 1) (cH 1))) (cA (cN 1) (cM (cN 2) (cH 1)))))) (cM (cA (cN 1) (cM (cN 2) (cH 0))) (cW (cA (cN 1) (cM (cN 2) (cH 1))) 3))).
Definition ISOLR_e77 := (cD (cR (cM (cH 0) (cA (cN 3) (cM (cM (cN 4) (cH 0)) (cA (cN 2) (cH 0)))))) (cM (cR (cA (cN 1) (cH 0))) (cA (cN 1) (cM (cN 2) (cH 0))))).
Definition ISOLR_e78 := (cM (cN 4) (cR (cD (cM (cM (cM (cH 0) (cA (cN 1) (cH 0))) (cH 1)) (cA (cN 1) (cH 1))) (cM (cW (cA (cN 1) (cM (cN 2) (cH 0))) 4) (cW (cA (cN 1) (cM (cN 2) (cH 1))) 4))))).
Definition ISOLR_e79 := (cD (cM (cN (-2)) (cR (cA (cH 1) (cW (cH 1) 4)))) (cA (cA (cA (cN 1) (cM (cN 2) (cH 0))) (cM (cN 2) (cH 1))) (cM (cM (cN 4) (cH 0)) (cH 1)))).
Definition ISOLR_e80 := (cD (cN 1) (cB (cN (-1)) (cM (cN 2) (cH 0)))).
Definition ISOLR_e81 := (cM (cA (cN (-1)) (cM (cN 2) (cH 0))) (cR (cO (cD (cA (cN 1) (cH 0)) (cB (cH 0) (cM (cN 4) (cW (cH 0) 6))))))).
Definition ISOLR_e82 := (cO (cD (cN 1) (cR (cM (cH 0) (cA (cN 1) (cM (cN 2) (cH 0))))))).
Definition ISOLR_e83 := (cD (cM (cH 0) (cA (cN 3) (cM (cN 2) (cH 0)))) (cR (cM (cM (cH 0) (cA (cN 1) (cH 0))) (cA (cN 3) (cM (cM (cN 4) (cH 0)) (cA (cN 2) (cH 0))))))).
Definition ISOLR_e84 := (cO (cD (cN 1) (cR (cM (cA (cN 1) (cH 0)) (cA (cN 1) (cM (cN 2) (cH 0))))))).
Definition ISOLR_e85 := (cD (cH 1) (cR (cD (cM (cM (cH 1) (cA (cN 1) (cH 1))) (cA (cN 1) (cM (cN 2) (cH 1)))) (cA (cN 3) (cM (cN 2) (cH 1)))))).
Definition ISOLR_e86 := (cD (cM (cN 4) (cR (cD (cM (cM (cM (cM (cH 0) (cA (cN 1) (cH 0))) (cH 1)) (cA (cN 1) (cH 1))) (cA (cN 1) (cM (cN 2) (cH 1)))) (cW (cA (cN 1) (cM (cN 2) (cH 0))) 4)))) (cW (cA (cN 1) (cM (cN 2) (cH 1))) 3)).
Definition ISOLR_e87 := (cD (cM (cM (cN 2) (cA (cN 1) (cH 1))) (cA (cM (cN 2) (cR (cD (cM (cH 1) (cA (cN 1) (cM (cN 2) (cH 1)))) (cA (cA (cN 3) (cM (cN 5) (cH 0))) (cM (cN 2) (cW (cH 0) 4)))))) (cR (cD (cM (cM (cW (cA (cN 1) (cM (cN 2) (cH 0))) 4) (cH 1)) (cA (cN 1) (cM (cN 2) (cH 1)))) (cA (cA (cN 3) (cM (cN 5) (cH 0))) (cM (cN 2) (cW (cH 0) 4))))))) (cM (cR (cD (cM (cA (cN 3) (cM (cN 2) (cH 0))) (cA (cN 1) (cH 1))) (cA (cN 1) (cH 0)))) (cW (cA (cN 1) (cM (cN 2) (cH 1))) 3))).
Definition ISOLR_e88 := (cM (cM (cR (cA (cO (cD (cN 1) (cH 1))) (cH 1))) (cR (cA (cN (-1)) (cM (cN 2) (cH 1))))) (cR (cD (cN 1) (cA (cO (cH 1)) (cM (cN 2) (cW (cH 1) 4)))))).
Definition ISOLR_e89 := (cM (cA (cN (-1)) (cM (cN 2) (cH 1))) (cR (cD (cN 1) (cA (cO (cW (cH 1) 4)) (cM (cN 4) (cW (cH 1) 8)))))).
Definition ISOLR_e90 := (cA (cB (cN 1) (cD (cN 1) (cH 1))) (cD (cN 1) (cA (cN 1) (cH 1)))).
Definition ISOLR_e91 := (cD (cN 1) (cA (cN 1) (cH 1))).
Definition ISOLR_e92 := (cO (cD (cA (cN 3) (cM (cN 2) (cH 1))) (cM (cA (cN 1) (cH 1)) (cR (cA (cN 3) (cM (cM (cN 4) (cH 1)) (cA (cN 2) (cH 1)))))))).
Definition ISOLR_e93 := (cD (cR (cM (cH 1) (cA (cN 2) (cH 1)))) (cA (cN 1) (cH 1))).
Definition ISOLR_e94 := (cR (cA (cB (cN 1) (cD (cN 1) (cH 1))) (cD (cN 2) (cA (cN 1) (cM (cN 2) (cH 1)))))).
Definition ISOLR_e95 := (cA (cA (cM (cN 2) (cR (cD (cH 1) (cA (cA (cA (cN 3) (cM (cN 11) (cH 1))) (cM (cN 12) (cW (cH 1) 4))) (cM (cN 4) (cW (cH 1) 6)))))) (cR (cD (cH 1) (cM (cW (cA (cN 1) (cH 1)) 6) (cA (cN 3) (cM (cM (cN 4) (cH 1)) (cA (cN 2) (cH 1)))))))) (cM (cM (cH 1) (cA (cN 3) (cM (cN 2) (cH 1)))) (cR (cD (cH 1) (cM (cW (cA (cN 1) (cH 1)) 6) (cA (cN 3) (cM (cM (cN 4) (cH 1)) (cA (cN 2) (cH 1))))))))).
Definition ISOLR_e96 := (cD (cN 1) (cM (cA (cN 1) (cM (cN 2) (cH 1))) (cR (cD (cN 1) (cA (cN (-3)) (cM (cM (cN 4) (cH 1)) (cA (cN 1) (cH 1)))))))).
Definition ISOLR_e97 := (cO (cD (cR (cA (cN 3) (cM (cM (cN 4) (cH 1)) (cA (cN 2) (cH 1))))) (cM (cA (cN 1) (cH 1)) (cA (cN 1) (cM (cN 2) (cH 1)))))).
Definition ISOLR_e98 := (cD (cN 1) (cA (cA (cN 1) (cM (cN 3) (cH 1))) (cM (cN 2) (cW (cH 1) 4)))).
Definition ISOLR_e99 := (cO (cD (cN 1) (cA (cN 1) (cH 1)))).
Definition ISOLR_e100 := (cD (cM (cH 1) (cA (cN 3) (cM (cN 2) (cH 1)))) (cR (cM (cM (cM (cH 1) (cA (cN 1) (cH 1))) (cA (cN 1) (cM (cN 2) (cH 1)))) (cA (cN 3) (cM (cN 2) (cH 1)))))).
Definition ISOLR_e101 := (cR (cB (cA (cN 1) (cD (cN 1) (cA (cN 1) (cH 1)))) (cD (cN 2) (cA (cN 1) (cM (cN 2) (cH 1)))))).
Definition ISOLR_e102 := (cM (cR (cB (cN 2) (cD (cN 1) (cH 1)))) (cR (cD (cN 1) (cA (cO (cH 1)) (cM (cN 2) (cW (cH 1) 4)))))).
Definition ISOLR_e103 := (cM (cR (cD (cA (cN (-1)) (cM (cN 2) (cH 1))) (cA (cH 1) (cM (cN 2) (cW (cH 1) 4))))) (cR (cD (cN 1) (cA (cO (cH 1)) (cM (cN 4) (cW (cH 1) 6)))))).
Definition ISOLR_e104 := (cD (cR (cA (cN (-1)) (cW (cH 1) 4))) (cH 1)).
Definition ISOLR_e105 := (cR (cD (cA (cN (-1)) (cM (cN 2) (cH 1))) (cM (cW (cH 1) 4) (cA (cN 1) (cM (cN 2) (cH 1)))))).
Definition ISOLR_e106 := (cD (cR (cA (cN (-3)) (cM (cM (cN 4) (cH 1)) (cA (cN 1) (cH 1))))) (cA (cN 1) (cM (cN 2) (cH 1)))).
Definition ISOLR_e107 := (cM (cR (cM (cH 1) (cA (cN (-1)) (cM (cN 2) (cH 1))))) (cR (cD (cN 1) (cA (cO (cW (cH 1) 4)) (cM (cN 4) (cW (cH 1) 8)))))).
Definition ISOLR_e108 := (cM (cR (cD (cN 1) (cA (cN (-1)) (cM (cN 4) (cW (cH 1) 4))))) (cR (cA (cN (-1)) (cM (cN 4) (cW (cH 1) 4))))).
Definition ISOLR_e109 := (cM (cR (cA (cN (-1)) (cM (cN 2) (cH 1)))) (cR (cD (cN 1) (cA (cO (cH 1)) (cM (cN 4) (cW (cH 1) 6)))))).
Definition ISOLR_e110 := (cD (cM (cR (cA (cA (cB (cN (-1)) (cD (cN 1) (cH 1))) (cM (cN 4) (cH 1))) (cM (cN 4) (cW (cH 1) 4)))) (cA (cN 1) (cM (cR (cO (cD (cN 1) (cB (cB (cA (cH 1) (cW (cH 1) 4)) (cM (cN 4) (cW (cH 1) 6))) (cM (cN 4) (cW (cH 1) 8)))))) (cA (cM (cW (cH 1) 3) (cR (cD (cA (cN (-1)) (cM (cN 2) (cH 1))) (cA (cA (cN 1) (cM (cN 3) (cH 1))) (cM (cN 2) (cW (cH 1) 4)))))) (cR (cD (cM (cH 1) (cA (cN (-1)) (cM (cN 2) (cH 1)))) (cA (cA (cN 1) (cM (cN 3) (cH 1))) (cM (cN 2) (cW (cH 1) 4))))))))) (cM (cN 2) (cA (cN 1) (cH 1)))).
Definition ISOLR_e111 := (cD (cM (cR (cD (cA (cN (-1)) (cM (cN 4) (cW (cH 1) 4))) (cA (cH 1) (cW (cH 1) 4)))) (cA (cN 1) (cM (cR (cO (cD (cN 1) (cB (cB (cA (cH 1) (cW (cH 1) 4)) (cM (cN 4) (cW (cH 1) 6))) (cM (cN 4) (cW (cH 1) 8)))))) (cA (cM (cW (cH 1) 3) (cR (cD (cA (cN (-1)) (cM (cN 2) (cH 1))) (cA (cA (cN 1) (cM (cN 3) (cH 1))) (cM (cN 2) (cW (cH 1) 4)))))) (cR (cD (cM (cH 1) (cA (cN (-1)) (cM (cN 2) (cH 1)))) (cA (cA (cN 1) (cM (cN 3) (cH 1))) (cM (cN 2) (cW (cH 1) 4))))))))) (cN 2)).
Definition ISOLR_e112 := (cD (cR (cB (cN 2) (cD (cN 1) (cH 1)))) (cN 2)).
Definition ISOLR_e113 := (cD (cO (cR (cB (cN 2) (cD (cN 1) (cH 1))))) (cN 2)).
Definition ISOLR_e114 := (cD (cO (cR (cA (cN 2) (cD (cN 1) (cA (cN 1) (cH 1)))))) (cN 2)).
Definition ISOLR_e115 := (cD (cR (cA (cN 2) (cD (cN 1) (cA (cN 1) (cH 1))))) (cN 2)).
Definition ISOLR_e116 := (cO (cR (cD (cH 1) (cA (cN 1) (cM (cN 2) (cH 1)))))).
Definition ISOLR_e117 := (cO (cM (cA (cN 1) (cH 0)) (cR (cD (cH 1) (cM (cA (cA (cN 1) (cM (cN 3) (cH 0))) (cM (cN 2) (cW (cH 0) 4))) (cA (cN 1) (cM (cN 2) (cH 1)))))))).
Definition ISOLR_e118 := (cO (cD (cM (cH 0) (cH 1)) (cR (cM (cM (cM (cH 0) (cA (cN 1) (cM (cN 2) (cH 0)))) (cH 1)) (cA (cN 1) (cM (cN 2) (cH 1))))))).
Definition ISOLR_e119 := (cO (cD (cH 1) (cR (cM (cH 1) (cA (cN 1) (cM (cN 2) (cH 1))))))).
Definition ISOLR_e120 := (cD (cA (cN 1) (cH 1)) (cR (cM (cA (cN 1) (cH 1)) (cA (cN 1) (cM (cN 2) (cH 1)))))).
Definition ISOLR_e121 := (cD (cA (cR (cD (cM (cM (cA (cN 1) (cH 0)) (cA (cN 1) (cM (cN 2) (cH 0)))) (cA (cN 1) (cH 1))) (cA (cN 1) (cM (cN 2) (cH 1))))) (cR (cM (cM (cM (cA (cN 1) (cH 0)) (cA (cN 1) (cM (cN 2) (cH 0)))) (cA (cN 1) (cH 1))) (cA (cN 1) (cM (cN 2) (cH 1)))))) (cM (cM (cN 2) (cA (cN 1) (cM (cN 2) (cH 0)))) (cA (cN 1) (cH 1)))).
Definition ISOLR_e122 := (cD (cM (cH 0) (cA (cN 1) (cH 1))) (cR (cM (cM (cM (cH 0) (cA (cN 1) (cM (cN 2) (cH 0)))) (cA (cN 1) (cH 1))) (cA (cN 1) (cM (cN 2) (cH 1)))))).
Definition ISOLR_e123 := (cR (cD (cH 1) (cA (cN 1) (cM (cN 2) (cH 1))))).
Definition ISOLR_e124 := (cM (cA (cN 1) (cH 0)) (cR (cD (cH 1) (cM (cA (cA (cN 1) (cM (cN 3) (cH 0))) (cM (cN 2) (cW (cH 0) 4))) (cA (cN 1) (cM (cN 2) (cH 1))))))).
Definition ISOLR_e125 := (cD (cM (cH 0) (cH 1)) (cR (cM (cM (cM (cH 0) (cA (cN 1) (cM (cN 2) (cH 0)))) (cH 1)) (cA (cN 1) (cM (cN 2) (cH 1)))))).
Definition ISOLR_e126 := (cD (cH 1) (cR (cM (cH 1) (cA (cN 1) (cM (cN 2) (cH 1)))))).
Definition ISOLR_e127 := (cO (cD (cA (cN 1) (cH 1)) (cR (cM (cA (cN 1) (cH 1)) (cA (cN 1) (cM (cN 2) (cH 1))))))).
Definition ISOLR_e128 := (cD (cO (cA (cR (cD (cM (cM (cA (cN 1) (cH 0)) (cA (cN 1) (cM (cN 2) (cH 0)))) (cA (cN 1) (cH 1))) (cA (cN 1) (cM (cN 2) (cH 1))))) (cR (cM (cM (cM (cA (cN 1) (cH 0)) (cA (cN 1) (cM (cN 2) (cH 0)))) (cA (cN 1) (cH 1))) (cA (cN 1) (cM (cN 2) (cH 1))))))) (cM (cM (cN 2) (cA (cN 1) (cM (cN 2) (cH 0)))) (cA (cN 1) (cH 1)))).
Definition ISOLR_e129 := (cO (cD (cM (cH 0) (cA (cR (cD (cM (cM (cA (cN 1) (cM (cN 2) (cH 0))) (cA (cN 1) (cH 1))) (cA (cN 1) (cM (cN 2) (cH 1)))) (cH 0))) (cR (cM (cM (cM (cH 0) (cA (cN 1) (cM (cN 2) (cH 0)))) (cA (cN 1) (cH 1))) (cA (cN 1) (cM (cN 2) (cH 1))))))) (cM (cA (cA (cN 1) (cM (cN 3) (cH 0))) (cM (cN 2) (cW (cH 0) 4))) (cA (cN 1) (cM (cN 2) (cH 1)))))).

(** /repo/c++/symmetry/nrg-recalc-ISOLR.hpp recalc_irreduc, isolr/isolr-2ch-spinup-isoupa.dat *)
Definition isolr_2ch_t0 : irr_table := mk_irr 0 0 [ShLin 0%nat 1 1; ShLin 1%nat 1 1; ShLin 2%nat 1 0]  [
  (1, 9, Some ISOLR_e0);
  (2, 13, Some ISOLR_e1);
  (3, 7, Some ISOLR_e2);
  (4, 9, Some ISOLR_e3);
  (6, 1, Some (cQ 1 2));
  (6, 4, Some ISOLR_e4);
  (8, 5, Some ISOLR_e5);
  (10, 2, Some (cQ (-1) 2));
  (10, 15, Some ISOLR_e6);
  (11, 16, Some ISOLR_e7);
  (14, 12, Some ISOLR_e5);
  (15, 13, Some ISOLR_e8)].
(** /repo/c++/symmetry/nrg-recalc-ISOLR.hpp recalc_irreduc, isolr/isolr-2ch-spinup-isoupb.dat *)
Definition isolr_2ch_t1 : irr_table := mk_irr 1 0 [ShLin 0%nat 1 1; ShLin 1%nat 1 1; ShLin 2%nat 1 0]  [
  (1, 9, Some ISOLR_e0);
  (2, 13, Some ISOLR_e1);
  (3, 7, Some ISOLR_e2);
  (4, 9, Some ISOLR_e3);
  (6, 1, Some (cQ 1 2));
  (6, 4, Some ISOLR_e4);
  (8, 5, Some ISOLR_e5);
  (10, 2, Some (cQ (-1) 2));
  (10, 15, Some ISOLR_e6);
  (11, 16, Some ISOLR_e7);
  (14, 12, Some ISOLR_e5);
  (15, 13, Some ISOLR_e8)].
(** /repo/c++/symmetry/nrg-recalc-ISOLR.hpp recalc_irreduc, isolr/isolr-2ch-spindown-isoupa.dat *)
Definition isolr_2ch_t2 : irr_table := mk_irr 0 0 [ShLin 0%nat 1 1; ShLin 1%nat 1 (-1); ShLin 2%nat 1 0]  [
  (1, 7, Some ISOLR_e9);
  (2, 11, Some ISOLR_e10);
  (4, 7, Some ISOLR_e11);
  (5, 9, Some ISOLR_e2);
  (6, 3, Some ISOLR_e12);
  (8, 1, Some (cQ 1 2));
  (8, 4, Some ISOLR_e13);
  (12, 2, Some (cQ (-1) 2));
  (12, 15, Some ISOLR_e6);
  (13, 16, Some ISOLR_e14);
  (14, 10, Some ISOLR_e12);
  (15, 11, Some ISOLR_e15)].
(** /repo/c++/symmetry/nrg-recalc-ISOLR.hpp recalc_irreduc, isolr/isolr-2ch-spindown-isoupb.dat *)
Definition isolr_2ch_t3 : irr_table := mk_irr 1 0 [ShLin 0%nat 1 1; ShLin 1%nat 1 (-1); ShLin 2%nat 1 0]  [
  (1, 7, Some ISOLR_e9);
  (2, 11, Some ISOLR_e10);
  (4, 7, Some ISOLR_e11);
  (5, 9, Some ISOLR_e2);
  (6, 3, Some ISOLR_e12);
  (8, 1, Some (cQ 1 2));
  (8, 4, Some ISOLR_e13);
  (12, 2, Some (cQ (-1) 2));
  (12, 15, Some ISOLR_e6);
  (13, 16, Some ISOLR_e14);
  (14, 10, Some ISOLR_e12);
  (15, 11, Some ISOLR_e15)].
(** /repo/c++/symmetry/nrg-recalc-ISOLR.hpp recalc_irreduc, isolr/isolr-2ch-spinup-isodowna.dat *)
Definition isolr_2ch_t4 : irr_table := mk_irr 0 0 [ShLin 0%nat 1 (-1); ShLin 1%nat 1 1; ShLin 2%nat 1 0]  [
  (1, 8, Some ISOLR_e16);
  (2, 12, Some ISOLR_e17);
  (3, 6, Some ISOLR_e18);
  (4, 8, Some ISOLR_e19);
  (7, 1, Some (cQ 1 2));
  (7, 4, Some ISOLR_e4);
  (9, 5, Some ISOLR_e5);
  (10, 14, Some ISOLR_e18);
  (11, 2, Some (cQ (-1) 2));
  (11, 15, Some ISOLR_e20);
  (15, 12, Some ISOLR_e21);
  (16, 13, Some ISOLR_e22)].
(** /repo/c++/symmetry/nrg-recalc-ISOLR.hpp recalc_irreduc, isolr/isolr-2ch-spinup-isodownb.dat *)
Definition isolr_2ch_t5 : irr_table := mk_irr 1 0 [ShLin 0%nat 1 (-1); ShLin 1%nat 1 1; ShLin 2%nat 1 0]  [
  (1, 8, Some ISOLR_e16);
  (2, 12, Some ISOLR_e17);
  (3, 6, Some ISOLR_e18);
  (4, 8, Some ISOLR_e19);
  (7, 1, Some (cQ 1 2));
  (7, 4, Some ISOLR_e4);
  (9, 5, Some ISOLR_e5);
  (10, 14, Some ISOLR_e18);
  (11, 2, Some (cQ (-1) 2));
  (11, 15, Some ISOLR_e20);
  (15, 12, Some ISOLR_e21);
  (16, 13, Some ISOLR_e22)].
(** /repo/c++/symmetry/nrg-recalc-ISOLR.hpp recalc_irreduc, isolr/isolr-2ch-spindown-isodowna.dat *)
Definition isolr_2ch_t6 : irr_table := mk_irr 0 0 [ShLin 0%nat 1 (-1); ShLin 1%nat 1 (-1); ShLin 2%nat 1 0]  [
  (1, 6, Some ISOLR_e23);
  (2, 10, Some ISOLR_e24);
  (4, 6, Some ISOLR_e25);
  (5, 8, Some ISOLR_e18);
  (7, 3, Some ISOLR_e12);
  (9, 1, Some (cQ 1 2));
  (9, 4, Some ISOLR_e13);
  (12, 14, Some ISOLR_e18);
  (13, 2, Some (cQ (-1) 2));
  (13, 15, Some ISOLR_e20);
  (15, 10, Some ISOLR_e26);
  (16, 11, Some ISOLR_e27)].
(** /repo/c++/symmetry/nrg-recalc-ISOLR.hpp recalc_irreduc, isolr/isolr-2ch-spindown-isodownb.dat *)
Definition isolr_2ch_t7 : irr_table := mk_irr 1 0 [ShLin 0%nat 1 (-1); ShLin 1%nat 1 (-1); ShLin 2%nat 1 0]  [
  (1, 6, Some ISOLR_e23);
  (2, 10, Some ISOLR_e24);
  (4, 6, Some ISOLR_e25);
  (5, 8, Some ISOLR_e18);
  (7, 3, Some ISOLR_e12);
  (9, 1, Some (cQ 1 2));
  (9, 4, Some ISOLR_e13);
  (12, 14, Some ISOLR_e18);
  (13, 2, Some (cQ (-1) 2));
  (13, 15, Some ISOLR_e20);
  (15, 10, Some ISOLR_e26);
  (16, 11, Some ISOLR_e27)].
(** /repo/c++/symmetry/nrg-recalc-ISOLR.hpp recalc_irreduc, isolr/isolr-2ch-spinup-isoupdiffa.dat *)
Definition isolr_2ch_t8 : irr_table := mk_irr 0 0 [ShLin 0%nat 1 1; ShLin 1%nat 1 1; ShLin 2%nat (-1) 0]  [
  (1, 13, Some ISOLR_e0);
  (2, 9, Some ISOLR_e0);
  (3, 11, Some ISOLR_e28);
  (4, 13, Some ISOLR_e29);
  (6, 2, Some (cQ 1 2));
  (6, 15, Some ISOLR_e6);
  (7, 16, Some ISOLR_e7);
  (10, 1, Some (cQ 1 2));
  (10, 4, Some ISOLR_e30);
  (12, 5, Some ISOLR_e31);
  (14, 8, Some ISOLR_e5);
  (15, 9, Some ISOLR_e8)].
(** /repo/c++/symmetry/nrg-recalc-ISOLR.hpp recalc_irreduc, isolr/isolr-2ch-spinup-isoupdiffb.dat *)
Definition isolr_2ch_t9 : irr_table := mk_irr 1 0 [ShLin 0%nat 1 1; ShLin 1%nat 1 1; ShLin 2%nat (-1) 0]  [
  (1, 13, Some ISOLR_e1);
  (2, 9, Some ISOLR_e1);
  (3, 11, Some ISOLR_e2);
  (4, 13, Some ISOLR_e3);
  (6, 2, Some (cQ (-1) 2));
  (6, 15, Some ISOLR_e32);
  (7, 16, Some ISOLR_e33);
  (10, 1, Some (cQ (-1) 2));
  (10, 4, Some ISOLR_e4);
  (12, 5, Some ISOLR_e5);
  (14, 8, Some ISOLR_e31);
  (15, 9, Some ISOLR_e34)].
(** /repo/c++/symmetry/nrg-recalc-ISOLR.hpp recalc_irreduc, isolr/isolr-2ch-spindown-isoupdiffa.dat *)
Definition isolr_2ch_t10 : irr_table := mk_irr 0 0 [ShLin 0%nat 1 1; ShLin 1%nat 1 (-1); ShLin 2%nat (-1) 0]  [
  (1, 11, Some ISOLR_e9);
  (2, 7, Some ISOLR_e9);
  (4, 11, Some ISOLR_e35);
  (5, 13, Some ISOLR_e28);
  (8, 2, Some (cQ 1 2));
  (8, 15, Some ISOLR_e6);
  (9, 16, Some ISOLR_e14);
  (10, 3, Some ISOLR_e36);
  (12, 1, Some (cQ 1 2));
  (12, 4, Some ISOLR_e37);
  (14, 6, Some ISOLR_e12);
  (15, 7, Some ISOLR_e15)].
(** /repo/c++/symmetry/nrg-recalc-ISOLR.hpp recalc_irreduc, isolr/isolr-2ch-spindown-isoupdiffb.dat *)
Definition isolr_2ch_t11 : irr_table := mk_irr 1 0 [ShLin 0%nat 1 1; ShLin 1%nat 1 (-1); ShLin 2%nat (-1) 0]  [
  (1, 11, Some ISOLR_e10);
  (2, 7, Some ISOLR_e10);
  (4, 11, Some ISOLR_e11);
  (5, 13, Some ISOLR_e2);
  (8, 2, Some (cQ (-1) 2));
  (8, 15, Some ISOLR_e32);
  (9, 16, Some ISOLR_e38);
  (10, 3, Some ISOLR_e12);
  (12, 1, Some (cQ (-1) 2));
  (12, 4, Some ISOLR_e13);
  (14, 6, Some ISOLR_e36);
  (15, 7, Some ISOLR_e39)].
(** /repo/c++/symmetry/nrg-recalc-ISOLR.hpp recalc_irreduc, isolr/isolr-2ch-spinup-isodowndiffa.dat *)
Definition isolr_2ch_t12 : irr_table := mk_irr 0 0 [ShLin 0%nat 1 (-1); ShLin 1%nat 1 1; ShLin 2%nat (-1) 0]  [
  (1, 12, Some ISOLR_e16);
  (2, 8, Some ISOLR_e16);
  (3, 10, Some ISOLR_e40);
  (4, 12, Some ISOLR_e41);
  (6, 14, Some ISOLR_e18);
  (7, 2, Some (cQ 1 2));
  (7, 15, Some ISOLR_e20);
  (11, 1, Some (cQ 1 2));
  (11, 4, Some ISOLR_e30);
  (13, 5, Some ISOLR_e31);
  (15, 8, Some ISOLR_e21);
  (16, 9, Some ISOLR_e22)].
(** /repo/c++/symmetry/nrg-recalc-ISOLR.hpp recalc_irreduc, isolr/isolr-2ch-spinup-isodowndiffb.dat *)
Definition isolr_2ch_t13 : irr_table := mk_irr 1 0 [ShLin 0%nat 1 (-1); ShLin 1%nat 1 1; ShLin 2%nat (-1) 0]  [
  (1, 12, Some ISOLR_e17);
  (2, 8, Some ISOLR_e17);
  (3, 10, Some ISOLR_e18);
  (4, 12, Some ISOLR_e19);
  (6, 14, Some ISOLR_e40);
  (7, 2, Some (cQ (-1) 2));
  (7, 15, Some ISOLR_e42);
  (11, 1, Some (cQ (-1) 2));
  (11, 4, Some ISOLR_e4);
  (13, 5, Some ISOLR_e5);
  (15, 8, Some ISOLR_e43);
  (16, 9, Some ISOLR_e44)].
(** /repo/c++/symmetry/nrg-recalc-ISOLR.hpp recalc_irreduc, isolr/isolr-2ch-spindown-isodowndiffa.dat *)
Definition isolr_2ch_t14 : irr_table := mk_irr 0 0 [ShLin 0%nat 1 (-1); ShLin 1%nat 1 (-1); ShLin 2%nat (-1) 0]  [
  (1, 10, Some ISOLR_e23);
  (2, 6, Some ISOLR_e23);
  (4, 10, Some ISOLR_e45);
  (5, 12, Some ISOLR_e40);
  (8, 14, Some ISOLR_e18);
  (9, 2, Some (cQ 1 2));
  (9, 15, Some ISOLR_e20);
  (11, 3, Some ISOLR_e36);
  (13, 1, Some (cQ 1 2));
  (13, 4, Some ISOLR_e46);
  (15, 6, Some ISOLR_e26);
  (16, 7, Some ISOLR_e27)].
(** /repo/c++/symmetry/nrg-recalc-ISOLR.hpp recalc_irreduc, isolr/isolr-2ch-spindown-isodowndiffb.dat *)
Definition isolr_2ch_t15 : irr_table := mk_irr 1 0 [ShLin 0%nat 1 (-1); ShLin 1%nat 1 (-1); ShLin 2%nat (-1) 0]  [
  (1, 10, Some ISOLR_e24);
  (2, 6, Some ISOLR_e24);
  (4, 10, Some ISOLR_e25);
  (5, 12, Some ISOLR_e18);
  (8, 14, Some ISOLR_e40);
  (9, 2, Some (cQ (-1) 2));
  (9, 15, Some ISOLR_e47);
  (11, 3, Some ISOLR_e12);
  (13, 1, Some (cQ (-1) 2));
  (13, 4, Some ISOLR_e13);
  (15, 6, Some ISOLR_e48);
  (16, 7, Some ISOLR_e49)].
(** /repo/c++/symmetry/nrg-recalc-ISOLR.hpp recalc_doublet, isolr/isolr-2ch-doubletmp.dat *)
Definition isolr_2ch_t16 : ten_table := mk_ten "doublet" [ShLin 0%nat 1 (-1); ShLin 1%nat 1 1; ShLin 2%nat 1 0] [2; 2; 1] [
  (1, 1, [ShLin 0%nat 1 0; ShLin 1%nat 1 0; ShLin 2%nat (-1) 0], [ShLin 0%nat 1 (-1); ShLin 1%nat 1 1; ShLin 2%nat (-1) 0], Some (cN 1));
  (2, 2, [ShLin 0%nat 1 0; ShLin 1%nat 1 0; ShLin 2%nat 1 0], [ShLin 0%nat 1 (-1); ShLin 1%nat 1 1; ShLin 2%nat 1 0], Some (cN 1));
  (3, 3, [ShLin 0%nat 1 0; ShLin 1%nat 1 (-2); ShLin 2%nat (-1) 0], [ShLin 0%nat 1 (-1); ShLin 1%nat 1 (-1); ShLin 2%nat (-1) 0], Some ISOLR_e50);
  (4, 3, [ShLin 0%nat 1 0; ShLin 1%nat 1 0; ShLin 2%nat (-1) 0], [ShLin 0%nat 1 (-1); ShLin 1%nat 1 (-1); ShLin 2%nat (-1) 0], Some ISOLR_e51);
  (4, 4, [ShLin 0%nat 1 0; ShLin 1%nat 1 0; ShLin 2%nat (-1) 0], [ShLin 0%nat 1 (-1); ShLin 1%nat 1 1; ShLin 2%nat (-1) 0], Some ISOLR_e52);
  (5, 4, [ShLin 0%nat 1 0; ShLin 1%nat 1 2; ShLin 2%nat (-1) 0], [ShLin 0%nat 1 (-1); ShLin 1%nat 1 1; ShLin 2%nat (-1) 0], Some ISOLR_e53);
  (5, 5, [ShLin 0%nat 1 0; ShLin 1%nat 1 2; ShLin 2%nat (-1) 0], [ShLin 0%nat 1 (-1); ShLin 1%nat 1 3; ShLin 2%nat (-1) 0], Some (cN 1));
  (6, 6, [ShLin 0%nat 1 (-1); ShLin 1%nat 1 (-1); ShLin 2%nat (-1) 0], [ShLin 0%nat 1 (-2); ShLin 1%nat 1 0; ShLin 2%nat (-1) 0], Some ISOLR_e54);
  (6, 7, [ShLin 0%nat 1 (-1); ShLin 1%nat 1 (-1); ShLin 2%nat (-1) 0], [ShLin 0%nat 1 0; ShLin 1%nat 1 0; ShLin 2%nat (-1) 0], Some ISOLR_e55);
  (7, 7, [ShLin 0%nat 1 1; ShLin 1%nat 1 (-1); ShLin 2%nat (-1) 0], [ShLin 0%nat 1 0; ShLin 1%nat 1 0; ShLin 2%nat (-1) 0], Some ISOLR_e56);
  (8, 6, [ShLin 0%nat 1 (-1); ShLin 1%nat 1 1; ShLin 2%nat (-1) 0], [ShLin 0%nat 1 (-2); ShLin 1%nat 1 0; ShLin 2%nat (-1) 0], Some ISOLR_e57);
  (8, 7, [ShLin 0%nat 1 (-1); ShLin 1%nat 1 1; ShLin 2%nat (-1) 0], [ShLin 0%nat 1 0; ShLin 1%nat 1 0; ShLin 2%nat (-1) 0], Some ISOLR_e58);
  (8, 8, [ShLin 0%nat 1 (-1); ShLin 1%nat 1 1; ShLin 2%nat (-1) 0], [ShLin 0%nat 1 (-2); ShLin 1%nat 1 2; ShLin 2%nat (-1) 0], Some (cN 1));
  (8, 9, [ShLin 0%nat 1 (-1); ShLin 1%nat 1 1; ShLin 2%nat (-1) 0], [ShLin 0%nat 1 0; ShLin 1%nat 1 2; ShLin 2%nat (-1) 0], Some ISOLR_e59);
  (9, 7, [ShLin 0%nat 1 1; ShLin 1%nat 1 1; ShLin 2%nat (-1) 0], [ShLin 0%nat 1 0; ShLin 1%nat 1 0; ShLin 2%nat (-1) 0], Some ISOLR_e60);
  (9, 9, [ShLin 0%nat 1 1; ShLin 1%nat 1 1; ShLin 2%nat (-1) 0], [ShLin 0%nat 1 0; ShLin 1%nat 1 2; ShLin 2%nat (-1) 0], Some ISOLR_e61);
  (10, 10, [ShLin 0%nat 1 (-1); ShLin 1%nat 1 (-1); ShLin 2%nat 1 0], [ShLin 0%nat 1 (-2); ShLin 1%nat 1 0; ShLin 2%nat 1 0], Some ISOLR_e54);
  (10, 11, [ShLin 0%nat 1 (-1); ShLin 1%nat 1 (-1); ShLin 2%nat 1 0], [ShLin 0%nat 1 0; ShLin 1%nat 1 0; ShLin 2%nat 1 0], Some ISOLR_e55);
  (11, 11, [ShLin 0%nat 1 1; ShLin 1%nat 1 (-1); ShLin 2%nat 1 0], [ShLin 0%nat 1 0; ShLin 1%nat 1 0; ShLin 2%nat 1 0], Some ISOLR_e56);
  (12, 10, [ShLin 0%nat 1 (-1); ShLin 1%nat 1 1; ShLin 2%nat 1 0], [ShLin 0%nat 1 (-2); ShLin 1%nat 1 0; ShLin 2%nat 1 0], Some ISOLR_e57);
  (12, 11, [ShLin 0%nat 1 (-1); ShLin 1%nat 1 1; ShLin 2%nat 1 0], [ShLin 0%nat 1 0; ShLin 1%nat 1 0; ShLin 2%nat 1 0], Some ISOLR_e58);
  (12, 12, [ShLin 0%nat 1 (-1); ShLin 1%nat 1 1; ShLin 2%nat 1 0], [ShLin 0%nat 1 (-2); ShLin 1%nat 1 2; ShLin 2%nat 1 0], Some (cN 1));
  (12, 13, [ShLin 0%nat 1 (-1); ShLin 1%nat 1 1; ShLin 2%nat 1 0], [ShLin 0%nat 1 0; ShLin 1%nat 1 2; ShLin 2%nat 1 0], Some ISOLR_e59);
  (13, 11, [ShLin 0%nat 1 1; ShLin 1%nat 1 1; ShLin 2%nat 1 0], [ShLin 0%nat 1 0; ShLin 1%nat 1 0; ShLin 2%nat 1 0], Some ISOLR_e60);
  (13, 13, [ShLin 0%nat 1 1; ShLin 1%nat 1 1; ShLin 2%nat 1 0], [ShLin 0%nat 1 0; ShLin 1%nat 1 2; ShLin 2%nat 1 0], Some ISOLR_e61);
  (14, 14, [ShLin 0%nat 1 (-2); ShLin 1%nat 1 0; ShLin 2%nat 1 0], [ShLin 0%nat 1 (-3); ShLin 1%nat 1 1; ShLin 2%nat 1 0], Some ISOLR_e62);
  (14, 15, [ShLin 0%nat 1 (-2); ShLin 1%nat 1 0; ShLin 2%nat 1 0], [ShLin 0%nat 1 (-1); ShLin 1%nat 1 1; ShLin 2%nat 1 0], Some ISOLR_e63);
  (15, 15, [ShLin 0%nat 1 0; ShLin 1%nat 1 0; ShLin 2%nat 1 0], [ShLin 0%nat 1 (-1); ShLin 1%nat 1 1; ShLin 2%nat 1 0], Some ISOLR_e64);
  (15, 16, [ShLin 0%nat 1 0; ShLin 1%nat 1 0; ShLin 2%nat 1 0], [ShLin 0%nat 1 1; ShLin 1%nat 1 1; ShLin 2%nat 1 0], Some ISOLR_e65);
  (16, 16, [ShLin 0%nat 1 2; ShLin 1%nat 1 0; ShLin 2%nat 1 0], [ShLin 0%nat 1 1; ShLin 1%nat 1 1; ShLin 2%nat 1 0], Some ISOLR_e66)].
(** /repo/c++/symmetry/nrg-recalc-ISOLR.hpp recalc_doublet, isolr/isolr-2ch-doubletmm.dat *)
Definition isolr_2ch_t17 : ten_table := mk_ten "doublet" [ShLin 0%nat 1 (-1); ShLin 1%nat 1 (-1); ShLin 2%nat 1 0] [2; 2; 1] [
  (1, 1, [ShLin 0%nat 1 0; ShLin 1%nat 1 0; ShLin 2%nat (-1) 0], [ShLin 0%nat 1 (-1); ShLin 1%nat 1 (-1); ShLin 2%nat (-1) 0], Some (cN 1));
  (2, 2, [ShLin 0%nat 1 0; ShLin 1%nat 1 0; ShLin 2%nat 1 0], [ShLin 0%nat 1 (-1); ShLin 1%nat 1 (-1); ShLin 2%nat 1 0], Some (cN 1));
  (3, 3, [ShLin 0%nat 1 0; ShLin 1%nat 1 (-2); ShLin 2%nat (-1) 0], [ShLin 0%nat 1 (-1); ShLin 1%nat 1 (-3); ShLin 2%nat (-1) 0], Some ISOLR_e67);
  (3, 4, [ShLin 0%nat 1 0; ShLin 1%nat 1 (-2); ShLin 2%nat (-1) 0], [ShLin 0%nat 1 (-1); ShLin 1%nat 1 (-1); ShLin 2%nat (-1) 0], Some ISOLR_e68);
  (4, 4, [ShLin 0%nat 1 0; ShLin 1%nat 1 0; ShLin 2%nat (-1) 0], [ShLin 0%nat 1 (-1); ShLin 1%nat 1 (-1); ShLin 2%nat (-1) 0], Some ISOLR_e69);
  (4, 5, [ShLin 0%nat 1 0; ShLin 1%nat 1 0; ShLin 2%nat (-1) 0], [ShLin 0%nat 1 (-1); ShLin 1%nat 1 1; ShLin 2%nat (-1) 0], Some ISOLR_e70);
  (5, 5, [ShLin 0%nat 1 0; ShLin 1%nat 1 2; ShLin 2%nat (-1) 0], [ShLin 0%nat 1 (-1); ShLin 1%nat 1 1; ShLin 2%nat (-1) 0], Some ISOLR_e71);
  (6, 6, [ShLin 0%nat 1 (-1); ShLin 1%nat 1 (-1); ShLin 2%nat (-1) 0], [ShLin 0%nat 1 (-2); ShLin 1%nat 1 (-2); ShLin 2%nat (-1) 0], Some (cN 1));
  (6, 7, [ShLin 0%nat 1 (-1); ShLin 1%nat 1 (-1); ShLin 2%nat (-1) 0], [ShLin 0%nat 1 0; ShLin 1%nat 1 (-2); ShLin 2%nat (-1) 0], Some ISOLR_e59);
  (6, 8, [ShLin 0%nat 1 (-1); ShLin 1%nat 1 (-1); ShLin 2%nat (-1) 0], [ShLin 0%nat 1 (-2); ShLin 1%nat 1 0; ShLin 2%nat (-1) 0], Some ISOLR_e72);
  (6, 9, [ShLin 0%nat 1 (-1); ShLin 1%nat 1 (-1); ShLin 2%nat (-1) 0], [ShLin 0%nat 1 0; ShLin 1%nat 1 0; ShLin 2%nat (-1) 0], Some ISOLR_e73);
  (7, 7, [ShLin 0%nat 1 1; ShLin 1%nat 1 (-1); ShLin 2%nat (-1) 0], [ShLin 0%nat 1 0; ShLin 1%nat 1 (-2); ShLin 2%nat (-1) 0], Some ISOLR_e61);
  (7, 9, [ShLin 0%nat 1 1; ShLin 1%nat 1 (-1); ShLin 2%nat (-1) 0], [ShLin 0%nat 1 0; ShLin 1%nat 1 0; ShLin 2%nat (-1) 0], Some ISOLR_e74);
  (8, 8, [ShLin 0%nat 1 (-1); ShLin 1%nat 1 1; ShLin 2%nat (-1) 0], [ShLin 0%nat 1 (-2); ShLin 1%nat 1 0; ShLin 2%nat (-1) 0], Some ISOLR_e54);
  (8, 9, [ShLin 0%nat 1 (-1); ShLin 1%nat 1 1; ShLin 2%nat (-1) 0], [ShLin 0%nat 1 0; ShLin 1%nat 1 0; ShLin 2%nat (-1) 0], Some ISOLR_e75);
  (9, 9, [ShLin 0%nat 1 1; ShLin 1%nat 1 1; ShLin 2%nat (-1) 0], [ShLin 0%nat 1 0; ShLin 1%nat 1 0; ShLin 2%nat (-1) 0], Some ISOLR_e76);
  (10, 10, [ShLin 0%nat 1 (-1); ShLin 1%nat 1 (-1); ShLin 2%nat 1 0], [ShLin 0%nat 1 (-2); ShLin 1%nat 1 (-2); ShLin 2%nat 1 0], Some (cN 1));
  (10, 11, [ShLin 0%nat 1 (-1); ShLin 1%nat 1 (-1); ShLin 2%nat 1 0], [ShLin 0%nat 1 0; ShLin 1%nat 1 (-2); ShLin 2%nat 1 0], Some ISOLR_e59);
  (10, 12, [ShLin 0%nat 1 (-1); ShLin 1%nat 1 (-1); ShLin 2%nat 1 0], [ShLin 0%nat 1 (-2); ShLin 1%nat 1 0; ShLin 2%nat 1 0], Some ISOLR_e72);
  (10, 13, [ShLin 0%nat 1 (-1); ShLin 1%nat 1 (-1); ShLin 2%nat 1 0], [ShLin 0%nat 1 0; ShLin 1%nat 1 0; ShLin 2%nat 1 0], Some ISOLR_e73);
  (11, 11, [ShLin 0%nat 1 1; ShLin 1%nat 1 (-1); ShLin 2%nat 1 0], [ShLin 0%nat 1 0; ShLin 1%nat 1 (-2); ShLin 2%nat 1 0], Some ISOLR_e61);
  (11, 13, [ShLin 0%nat 1 1; ShLin 1%nat 1 (-1); ShLin 2%nat 1 0], [ShLin 0%nat 1 0; ShLin 1%nat 1 0; ShLin 2%nat 1 0], Some ISOLR_e74);
  (12, 12, [ShLin 0%nat 1 (-1); ShLin 1%nat 1 1; ShLin 2%nat 1 0], [ShLin 0%nat 1 (-2); ShLin 1%nat 1 0; ShLin 2%nat 1 0], Some ISOLR_e54);
  (12, 13, [ShLin 0%nat 1 (-1); ShLin 1%nat 1 1; ShLin 2%nat 1 0], [ShLin 0%nat 1 0; ShLin 1%nat 1 0; ShLin 2%nat 1 0], Some ISOLR_e75);
  (13, 13, [ShLin 0%nat 1 1; ShLin 1%nat 1 1; ShLin 2%nat 1 0], [ShLin 0%nat 1 0; ShLin 1%nat 1 0; ShLin 2%nat 1 0], Some ISOLR_e76);
  (14, 14, [ShLin 0%nat 1 (-2); ShLin 1%nat 1 0; ShLin 2%nat 1 0], [ShLin 0%nat 1 (-3); ShLin 1%nat 1 (-1); ShLin 2%nat 1 0], Some ISOLR_e62);
  (14, 15, [ShLin 0%nat 1 (-2); ShLin 1%nat 1 0; ShLin 2%nat 1 0], [ShLin 0%nat 1 (-1); ShLin 1%nat 1 (-1); ShLin 2%nat 1 0], Some ISOLR_e63);
  (15, 15, [ShLin 0%nat 1 0; ShLin 1%nat 1 0; ShLin 2%nat 1 0], [ShLin 0%nat 1 (-1); ShLin 1%nat 1 (-1); ShLin 2%nat 1 0], Some ISOLR_e64);
  (15, 16, [ShLin 0%nat 1 0; ShLin 1%nat 1 0; ShLin 2%nat 1 0], [ShLin 0%nat 1 1; ShLin 1%nat 1 (-1); ShLin 2%nat 1 0], Some ISOLR_e65);
  (16, 16, [ShLin 0%nat 1 2; ShLin 1%nat 1 0; ShLin 2%nat 1 0], [ShLin 0%nat 1 1; ShLin 1%nat 1 (-1); ShLin 2%nat 1 0], Some ISOLR_e77)].
(** /repo/c++/symmetry/nrg-recalc-ISOLR.hpp recalc_doublet, isolr/isolr-2ch-doubletpp.dat *)
Definition isolr_2ch_t18 : ten_table := mk_ten "doublet" [ShLin 0%nat 1 1; ShLin 1%nat 1 1; ShLin 2%nat 1 0] [2; 2; 1] [
  (1, 1, [ShLin 0%nat 1 0; ShLin 1%nat 1 0; ShLin 2%nat (-1) 0], [ShLin 0%nat 1 1; ShLin 1%nat 1 1; ShLin 2%nat (-1) 0], Some (cN 1));
  (2, 2, [ShLin 0%nat 1 0; ShLin 1%nat 1 0; ShLin 2%nat 1 0], [ShLin 0%nat 1 1; ShLin 1%nat 1 1; ShLin 2%nat 1 0], Some (cN 1));
  (3, 3, [ShLin 0%nat 1 0; ShLin 1%nat 1 (-2); ShLin 2%nat (-1) 0], [ShLin 0%nat 1 1; ShLin 1%nat 1 (-1); ShLin 2%nat (-1) 0], Some ISOLR_e50);
  (4, 3, [ShLin 0%nat 1 0; ShLin 1%nat 1 0; ShLin 2%nat (-1) 0], [ShLin 0%nat 1 1; ShLin 1%nat 1 (-1); ShLin 2%nat (-1) 0], Some ISOLR_e51);
  (4, 4, [ShLin 0%nat 1 0; ShLin 1%nat 1 0; ShLin 2%nat (-1) 0], [ShLin 0%nat 1 1; ShLin 1%nat 1 1; ShLin 2%nat (-1) 0], Some ISOLR_e52);
  (5, 4, [ShLin 0%nat 1 0; ShLin 1%nat 1 2; ShLin 2%nat (-1) 0], [ShLin 0%nat 1 1; ShLin 1%nat 1 1; ShLin 2%nat (-1) 0], Some ISOLR_e53);
  (5, 5, [ShLin 0%nat 1 0; ShLin 1%nat 1 2; ShLin 2%nat (-1) 0], [ShLin 0%nat 1 1; ShLin 1%nat 1 3; ShLin 2%nat (-1) 0], Some (cN 1));
  (6, 6, [ShLin 0%nat 1 (-1); ShLin 1%nat 1 (-1); ShLin 2%nat (-1) 0], [ShLin 0%nat 1 0; ShLin 1%nat 1 0; ShLin 2%nat (-1) 0], Some ISOLR_e78);
  (7, 6, [ShLin 0%nat 1 1; ShLin 1%nat 1 (-1); ShLin 2%nat (-1) 0], [ShLin 0%nat 1 0; ShLin 1%nat 1 0; ShLin 2%nat (-1) 0], Some ISOLR_e79);
  (7, 7, [ShLin 0%nat 1 1; ShLin 1%nat 1 (-1); ShLin 2%nat (-1) 0], [ShLin 0%nat 1 2; ShLin 1%nat 1 0; ShLin 2%nat (-1) 0], Some ISOLR_e54);
  (8, 6, [ShLin 0%nat 1 (-1); ShLin 1%nat 1 1; ShLin 2%nat (-1) 0], [ShLin 0%nat 1 0; ShLin 1%nat 1 0; ShLin 2%nat (-1) 0], Some ISOLR_e60);
  (8, 8, [ShLin 0%nat 1 (-1); ShLin 1%nat 1 1; ShLin 2%nat (-1) 0], [ShLin 0%nat 1 0; ShLin 1%nat 1 2; ShLin 2%nat (-1) 0], Some ISOLR_e61);
  (9, 6, [ShLin 0%nat 1 1; ShLin 1%nat 1 1; ShLin 2%nat (-1) 0], [ShLin 0%nat 1 0; ShLin 1%nat 1 0; ShLin 2%nat (-1) 0], Some ISOLR_e73);
  (9, 7, [ShLin 0%nat 1 1; ShLin 1%nat 1 1; ShLin 2%nat (-1) 0], [ShLin 0%nat 1 2; ShLin 1%nat 1 0; ShLin 2%nat (-1) 0], Some ISOLR_e57);
  (9, 8, [ShLin 0%nat 1 1; ShLin 1%nat 1 1; ShLin 2%nat (-1) 0], [ShLin 0%nat 1 0; ShLin 1%nat 1 2; ShLin 2%nat (-1) 0], Some ISOLR_e80);
  (9, 9, [ShLin 0%nat 1 1; ShLin 1%nat 1 1; ShLin 2%nat (-1) 0], [ShLin 0%nat 1 2; ShLin 1%nat 1 2; ShLin 2%nat (-1) 0], Some (cN 1));
  (10, 10, [ShLin 0%nat 1 (-1); ShLin 1%nat 1 (-1); ShLin 2%nat 1 0], [ShLin 0%nat 1 0; ShLin 1%nat 1 0; ShLin 2%nat 1 0], Some ISOLR_e78);
  (11, 10, [ShLin 0%nat 1 1; ShLin 1%nat 1 (-1); ShLin 2%nat 1 0], [ShLin 0%nat 1 0; ShLin 1%nat 1 0; ShLin 2%nat 1 0], Some ISOLR_e79);
  (11, 11, [ShLin 0%nat 1 1; ShLin 1%nat 1 (-1); ShLin 2%nat 1 0], [ShLin 0%nat 1 2; ShLin 1%nat 1 0; ShLin 2%nat 1 0], Some ISOLR_e54);
  (12, 10, [ShLin 0%nat 1 (-1); ShLin 1%nat 1 1; ShLin 2%nat 1 0], [ShLin 0%nat 1 0; ShLin 1%nat 1 0; ShLin 2%nat 1 0], Some ISOLR_e60);
  (12, 12, [ShLin 0%nat 1 (-1); ShLin 1%nat 1 1; ShLin 2%nat 1 0], [ShLin 0%nat 1 0; ShLin 1%nat 1 2; ShLin 2%nat 1 0], Some ISOLR_e61);
  (13, 10, [ShLin 0%nat 1 1; ShLin 1%nat 1 1; ShLin 2%nat 1 0], [ShLin 0%nat 1 0; ShLin 1%nat 1 0; ShLin 2%nat 1 0], Some ISOLR_e73);
  (13, 11, [ShLin 0%nat 1 1; ShLin 1%nat 1 1; ShLin 2%nat 1 0], [ShLin 0%nat 1 2; ShLin 1%nat 1 0; ShLin 2%nat 1 0], Some ISOLR_e57);
  (13, 12, [ShLin 0%nat 1 1; ShLin 1%nat 1 1; ShLin 2%nat 1 0], [ShLin 0%nat 1 0; ShLin 1%nat 1 2; ShLin 2%nat 1 0], Some ISOLR_e80);
  (13, 13, [ShLin 0%nat 1 1; ShLin 1%nat 1 1; ShLin 2%nat 1 0], [ShLin 0%nat 1 2; ShLin 1%nat 1 2; ShLin 2%nat 1 0], Some (cN 1));
  (14, 14, [ShLin 0%nat 1 (-2); ShLin 1%nat 1 0; ShLin 2%nat 1 0], [ShLin 0%nat 1 (-1); ShLin 1%nat 1 1; ShLin 2%nat 1 0], Some ISOLR_e81);
  (15, 14, [ShLin 0%nat 1 0; ShLin 1%nat 1 0; ShLin 2%nat 1 0], [ShLin 0%nat 1 (-1); ShLin 1%nat 1 1; ShLin 2%nat 1 0], Some ISOLR_e82);
  (15, 15, [ShLin 0%nat 1 0; ShLin 1%nat 1 0; ShLin 2%nat 1 0], [ShLin 0%nat 1 1; ShLin 1%nat 1 1; ShLin 2%nat 1 0], Some ISOLR_e83);
  (16, 15, [ShLin 0%nat 1 2; ShLin 1%nat 1 0; ShLin 2%nat 1 0], [ShLin 0%nat 1 1; ShLin 1%nat 1 1; ShLin 2%nat 1 0], Some ISOLR_e84);
  (16, 16, [ShLin 0%nat 1 2; ShLin 1%nat 1 0; ShLin 2%nat 1 0], [ShLin 0%nat 1 3; ShLin 1%nat 1 1; ShLin 2%nat 1 0], Some (cN 1))].
(** /repo/c++/symmetry/nrg-recalc-ISOLR.hpp recalc_doublet, isolr/isolr-2ch-doubletpm.dat *)
Definition isolr_2ch_t19 : ten_table := mk_ten "doublet" [ShLin 0%nat 1 1; ShLin 1%nat 1 (-1); ShLin 2%nat 1 0] [2; 2; 1] [
  (1, 1, [ShLin 0%nat 1 0; ShLin 1%nat 1 0; ShLin 2%nat (-1) 0], [ShLin 0%nat 1 1; ShLin 1%nat 1 (-1); ShLin 2%nat (-1) 0], Some (cN 1));
  (2, 2, [ShLin 0%nat 1 0; ShLin 1%nat 1 0; ShLin 2%nat 1 0], [ShLin 0%nat 1 1; ShLin 1%nat 1 (-1); ShLin 2%nat 1 0], Some (cN 1));
  (3, 3, [ShLin 0%nat 1 0; ShLin 1%nat 1 (-2); ShLin 2%nat (-1) 0], [ShLin 0%nat 1 1; ShLin 1%nat 1 (-3); ShLin 2%nat (-1) 0], Some ISOLR_e67);
  (3, 4, [ShLin 0%nat 1 0; ShLin 1%nat 1 (-2); ShLin 2%nat (-1) 0], [ShLin 0%nat 1 1; ShLin 1%nat 1 (-1); ShLin 2%nat (-1) 0], Some ISOLR_e68);
  (4, 4, [ShLin 0%nat 1 0; ShLin 1%nat 1 0; ShLin 2%nat (-1) 0], [ShLin 0%nat 1 1; ShLin 1%nat 1 (-1); ShLin 2%nat (-1) 0], Some ISOLR_e69);
  (4, 5, [ShLin 0%nat 1 0; ShLin 1%nat 1 0; ShLin 2%nat (-1) 0], [ShLin 0%nat 1 1; ShLin 1%nat 1 1; ShLin 2%nat (-1) 0], Some ISOLR_e70);
  (5, 5, [ShLin 0%nat 1 0; ShLin 1%nat 1 2; ShLin 2%nat (-1) 0], [ShLin 0%nat 1 1; ShLin 1%nat 1 1; ShLin 2%nat (-1) 0], Some ISOLR_e85);
  (6, 6, [ShLin 0%nat 1 (-1); ShLin 1%nat 1 (-1); ShLin 2%nat (-1) 0], [ShLin 0%nat 1 0; ShLin 1%nat 1 (-2); ShLin 2%nat (-1) 0], Some ISOLR_e61);
  (6, 8, [ShLin 0%nat 1 (-1); ShLin 1%nat 1 (-1); ShLin 2%nat (-1) 0], [ShLin 0%nat 1 0; ShLin 1%nat 1 0; ShLin 2%nat (-1) 0], Some ISOLR_e74);
  (7, 6, [ShLin 0%nat 1 1; ShLin 1%nat 1 (-1); ShLin 2%nat (-1) 0], [ShLin 0%nat 1 0; ShLin 1%nat 1 (-2); ShLin 2%nat (-1) 0], Some ISOLR_e80);
  (7, 7, [ShLin 0%nat 1 1; ShLin 1%nat 1 (-1); ShLin 2%nat (-1) 0], [ShLin 0%nat 1 2; ShLin 1%nat 1 (-2); ShLin 2%nat (-1) 0], Some (cN 1));
  (7, 8, [ShLin 0%nat 1 1; ShLin 1%nat 1 (-1); ShLin 2%nat (-1) 0], [ShLin 0%nat 1 0; ShLin 1%nat 1 0; ShLin 2%nat (-1) 0], Some ISOLR_e58);
  (7, 9, [ShLin 0%nat 1 1; ShLin 1%nat 1 (-1); ShLin 2%nat (-1) 0], [ShLin 0%nat 1 2; ShLin 1%nat 1 0; ShLin 2%nat (-1) 0], Some ISOLR_e72);
  (8, 8, [ShLin 0%nat 1 (-1); ShLin 1%nat 1 1; ShLin 2%nat (-1) 0], [ShLin 0%nat 1 0; ShLin 1%nat 1 0; ShLin 2%nat (-1) 0], Some ISOLR_e86);
  (9, 8, [ShLin 0%nat 1 1; ShLin 1%nat 1 1; ShLin 2%nat (-1) 0], [ShLin 0%nat 1 0; ShLin 1%nat 1 0; ShLin 2%nat (-1) 0], Some ISOLR_e79);
  (9, 9, [ShLin 0%nat 1 1; ShLin 1%nat 1 1; ShLin 2%nat (-1) 0], [ShLin 0%nat 1 2; ShLin 1%nat 1 0; ShLin 2%nat (-1) 0], Some ISOLR_e87);
  (10, 10, [ShLin 0%nat 1 (-1); ShLin 1%nat 1 (-1); ShLin 2%nat 1 0], [ShLin 0%nat 1 0; ShLin 1%nat 1 (-2); ShLin 2%nat 1 0], Some ISOLR_e61);
  (10, 12, [ShLin 0%nat 1 (-1); ShLin 1%nat 1 (-1); ShLin 2%nat 1 0], [ShLin 0%nat 1 0; ShLin 1%nat 1 0; ShLin 2%nat 1 0], Some ISOLR_e74);
  (11, 10, [ShLin 0%nat 1 1; ShLin 1%nat 1 (-1); ShLin 2%nat 1 0], [ShLin 0%nat 1 0; ShLin 1%nat 1 (-2); ShLin 2%nat 1 0], Some ISOLR_e80);
  (11, 11, [ShLin 0%nat 1 1; ShLin 1%nat 1 (-1); ShLin 2%nat 1 0], [ShLin 0%nat 1 2; ShLin 1%nat 1 (-2); ShLin 2%nat 1 0], Some (cN 1));
  (11, 12, [ShLin 0%nat 1 1; ShLin 1%nat 1 (-1); ShLin 2%nat 1 0], [ShLin 0%nat 1 0; ShLin 1%nat 1 0; ShLin 2%nat 1 0], Some ISOLR_e58);
  (11, 13, [ShLin 0%nat 1 1; ShLin 1%nat 1 (-1); ShLin 2%nat 1 0], [ShLin 0%nat 1 2; ShLin 1%nat 1 0; ShLin 2%nat 1 0], Some ISOLR_e72);
  (12, 12, [ShLin 0%nat 1 (-1); ShLin 1%nat 1 1; ShLin 2%nat 1 0], [ShLin 0%nat 1 0; ShLin 1%nat 1 0; ShLin 2%nat 1 0], Some ISOLR_e86);
  (13, 12, [ShLin 0%nat 1 1; ShLin 1%nat 1 1; ShLin 2%nat 1 0], [ShLin 0%nat 1 0; ShLin 1%nat 1 0; ShLin 2%nat 1 0], Some ISOLR_e79);
  (13, 13, [ShLin 0%nat 1 1; ShLin 1%nat 1 1; ShLin 2%nat 1 0], [ShLin 0%nat 1 2; ShLin 1%nat 1 0; ShLin 2%nat 1 0], Some ISOLR_e87);
  (14, 14, [ShLin 0%nat 1 (-2); ShLin 1%nat 1 0; ShLin 2%nat 1 0], [ShLin 0%nat 1 (-1); ShLin 1%nat 1 (-1); ShLin 2%nat 1 0], Some ISOLR_e81);
  (15, 14, [ShLin 0%nat 1 0; ShLin 1%nat 1 0; ShLin 2%nat 1 0], [ShLin 0%nat 1 (-1); ShLin 1%nat 1 (-1); ShLin 2%nat 1 0], Some ISOLR_e82);
  (15, 15, [ShLin 0%nat 1 0; ShLin 1%nat 1 0; ShLin 2%nat 1 0], [ShLin 0%nat 1 1; ShLin 1%nat 1 (-1); ShLin 2%nat 1 0], Some ISOLR_e83);
  (16, 15, [ShLin 0%nat 1 2; ShLin 1%nat 1 0; ShLin 2%nat 1 0], [ShLin 0%nat 1 1; ShLin 1%nat 1 (-1); ShLin 2%nat 1 0], Some ISOLR_e84);
  (16, 16, [ShLin 0%nat 1 2; ShLin 1%nat 1 0; ShLin 2%nat 1 0], [ShLin 0%nat 1 3; ShLin 1%nat 1 (-1); ShLin 2%nat 1 0], Some (cN 1))].
(** /repo/c++/symmetry/nrg-recalc-ISOLR.hpp recalc_triplet, isolr/isolr-2ch-triplets.dat *)
Definition isolr_2ch_t20 : ten_table := mk_ten "triplet" [ShLin 0%nat 1 0; ShLin 1%nat 1 0; ShLin 2%nat 1 0] [1; 3; 1] [
  (1, 1, [ShLin 0%nat 1 0; ShLin 1%nat 1 0; ShLin 2%nat (-1) 0], [ShLin 0%nat 1 0; ShLin 1%nat 1 0; ShLin 2%nat (-1) 0], Some (cN 1));
  (2, 2, [ShLin 0%nat 1 0; ShLin 1%nat 1 0; ShLin 2%nat 1 0], [ShLin 0%nat 1 0; ShLin 1%nat 1 0; ShLin 2%nat 1 0], Some (cN 1));
  (3, 3, [ShLin 0%nat 1 0; ShLin 1%nat 1 (-2); ShLin 2%nat (-1) 0], [ShLin 0%nat 1 0; ShLin 1%nat 1 (-2); ShLin 2%nat (-1) 0], Some ISOLR_e88);
  (3, 4, [ShLin 0%nat 1 0; ShLin 1%nat 1 (-2); ShLin 2%nat (-1) 0], [ShLin 0%nat 1 0; ShLin 1%nat 1 0; ShLin 2%nat (-1) 0], Some ISOLR_e89);
  (4, 3, [ShLin 0%nat 1 0; ShLin 1%nat 1 0; ShLin 2%nat (-1) 0], [ShLin 0%nat 1 0; ShLin 1%nat 1 (-2); ShLin 2%nat (-1) 0], Some (cO (cD (cN 1) (cH 1))));
  (4, 4, [ShLin 0%nat 1 0; ShLin 1%nat 1 0; ShLin 2%nat (-1) 0], [ShLin 0%nat 1 0; ShLin 1%nat 1 0; ShLin 2%nat (-1) 0], Some ISOLR_e90);
  (4, 5, [ShLin 0%nat 1 0; ShLin 1%nat 1 0; ShLin 2%nat (-1) 0], [ShLin 0%nat 1 0; ShLin 1%nat 1 2; ShLin 2%nat (-1) 0], Some ISOLR_e91);
  (5, 4, [ShLin 0%nat 1 0; ShLin 1%nat 1 2; ShLin 2%nat (-1) 0], [ShLin 0%nat 1 0; ShLin 1%nat 1 0; ShLin 2%nat (-1) 0], Some ISOLR_e92);
  (5, 5, [ShLin 0%nat 1 0; ShLin 1%nat 1 2; ShLin 2%nat (-1) 0], [ShLin 0%nat 1 0; ShLin 1%nat 1 2; ShLin 2%nat (-1) 0], Some ISOLR_e93);
  (6, 6, [ShLin 0%nat 1 (-1); ShLin 1%nat 1 (-1); ShLin 2%nat (-1) 0], [ShLin 0%nat 1 (-1); ShLin 1%nat 1 (-1); ShLin 2%nat (-1) 0], Some ISOLR_e94);
  (6, 8, [ShLin 0%nat 1 (-1); ShLin 1%nat 1 (-1); ShLin 2%nat (-1) 0], [ShLin 0%nat 1 (-1); ShLin 1%nat 1 1; ShLin 2%nat (-1) 0], Some ISOLR_e70);
  (7, 7, [ShLin 0%nat 1 1; ShLin 1%nat 1 (-1); ShLin 2%nat (-1) 0], [ShLin 0%nat 1 1; ShLin 1%nat 1 (-1); ShLin 2%nat (-1) 0], Some ISOLR_e94);
  (7, 9, [ShLin 0%nat 1 1; ShLin 1%nat 1 (-1); ShLin 2%nat (-1) 0], [ShLin 0%nat 1 1; ShLin 1%nat 1 1; ShLin 2%nat (-1) 0], Some ISOLR_e70);
  (8, 6, [ShLin 0%nat 1 (-1); ShLin 1%nat 1 1; ShLin 2%nat (-1) 0], [ShLin 0%nat 1 (-1); ShLin 1%nat 1 (-1); ShLin 2%nat (-1) 0], Some ISOLR_e51);
  (8, 8, [ShLin 0%nat 1 (-1); ShLin 1%nat 1 1; ShLin 2%nat (-1) 0], [ShLin 0%nat 1 (-1); ShLin 1%nat 1 1; ShLin 2%nat (-1) 0], Some ISOLR_e95);
  (9, 7, [ShLin 0%nat 1 1; ShLin 1%nat 1 1; ShLin 2%nat (-1) 0], [ShLin 0%nat 1 1; ShLin 1%nat 1 (-1); ShLin 2%nat (-1) 0], Some ISOLR_e51);
  (9, 9, [ShLin 0%nat 1 1; ShLin 1%nat 1 1; ShLin 2%nat (-1) 0], [ShLin 0%nat 1 1; ShLin 1%nat 1 1; ShLin 2%nat (-1) 0], Some ISOLR_e95);
  (10, 10, [ShLin 0%nat 1 (-1); ShLin 1%nat 1 (-1); ShLin 2%nat 1 0], [ShLin 0%nat 1 (-1); ShLin 1%nat 1 (-1); ShLin 2%nat 1 0], Some ISOLR_e94);
  (10, 12, [ShLin 0%nat 1 (-1); ShLin 1%nat 1 (-1); ShLin 2%nat 1 0], [ShLin 0%nat 1 (-1); ShLin 1%nat 1 1; ShLin 2%nat 1 0], Some ISOLR_e70);
  (11, 11, [ShLin 0%nat 1 1; ShLin 1%nat 1 (-1); ShLin 2%nat 1 0], [ShLin 0%nat 1 1; ShLin 1%nat 1 (-1); ShLin 2%nat 1 0], Some ISOLR_e94);
  (11, 13, [ShLin 0%nat 1 1; ShLin 1%nat 1 (-1); ShLin 2%nat 1 0], [ShLin 0%nat 1 1; ShLin 1%nat 1 1; ShLin 2%nat 1 0], Some ISOLR_e70);
  (12, 10, [ShLin 0%nat 1 (-1); ShLin 1%nat 1 1; ShLin 2%nat 1 0], [ShLin 0%nat 1 (-1); ShLin 1%nat 1 (-1); ShLin 2%nat 1 0], Some ISOLR_e51);
  (12, 12, [ShLin 0%nat 1 (-1); ShLin 1%nat 1 1; ShLin 2%nat 1 0], [ShLin 0%nat 1 (-1); ShLin 1%nat 1 1; ShLin 2%nat 1 0], Some ISOLR_e95);
  (13, 11, [ShLin 0%nat 1 1; ShLin 1%nat 1 1; ShLin 2%nat 1 0], [ShLin 0%nat 1 1; ShLin 1%nat 1 (-1); ShLin 2%nat 1 0], Some ISOLR_e51);
  (13, 13, [ShLin 0%nat 1 1; ShLin 1%nat 1 1; ShLin 2%nat 1 0], [ShLin 0%nat 1 1; ShLin 1%nat 1 1; ShLin 2%nat 1 0], Some ISOLR_e95);
  (14, 14, [ShLin 0%nat 1 (-2); ShLin 1%nat 1 0; ShLin 2%nat 1 0], [ShLin 0%nat 1 (-2); ShLin 1%nat 1 0; ShLin 2%nat 1 0], Some ISOLR_e62);
  (15, 15, [ShLin 0%nat 1 0; ShLin 1%nat 1 0; ShLin 2%nat 1 0], [ShLin 0%nat 1 0; ShLin 1%nat 1 0; ShLin 2%nat 1 0], Some (cN 1));
  (16, 16, [ShLin 0%nat 1 2; ShLin 1%nat 1 0; ShLin 2%nat 1 0], [ShLin 0%nat 1 2; ShLin 1%nat 1 0; ShLin 2%nat 1 0], Some (cN 1))].
(** /repo/c++/symmetry/nrg-recalc-ISOLR.hpp recalc_triplet, isolr/isolr-2ch-tripletp.dat *)
Definition isolr_2ch_t21 : ten_table := mk_ten "triplet" [ShLin 0%nat 1 0; ShLin 1%nat 1 2; ShLin 2%nat 1 0] [1; 3; 1] [
  (1, 1, [ShLin 0%nat 1 0; ShLin 1%nat 1 0; ShLin 2%nat (-1) 0], [ShLin 0%nat 1 0; ShLin 1%nat 1 2; ShLin 2%nat (-1) 0], Some (cN 1));
  (2, 2, [ShLin 0%nat 1 0; ShLin 1%nat 1 0; ShLin 2%nat 1 0], [ShLin 0%nat 1 0; ShLin 1%nat 1 2; ShLin 2%nat 1 0], Some (cN 1));
  (3, 3, [ShLin 0%nat 1 0; ShLin 1%nat 1 (-2); ShLin 2%nat (-1) 0], [ShLin 0%nat 1 0; ShLin 1%nat 1 0; ShLin 2%nat (-1) 0], Some ISOLR_e96);
  (4, 3, [ShLin 0%nat 1 0; ShLin 1%nat 1 0; ShLin 2%nat (-1) 0], [ShLin 0%nat 1 0; ShLin 1%nat 1 0; ShLin 2%nat (-1) 0], Some ISOLR_e97);
  (4, 4, [ShLin 0%nat 1 0; ShLin 1%nat 1 0; ShLin 2%nat (-1) 0], [ShLin 0%nat 1 0; ShLin 1%nat 1 2; ShLin 2%nat (-1) 0], Some ISOLR_e93);
  (5, 3, [ShLin 0%nat 1 0; ShLin 1%nat 1 2; ShLin 2%nat (-1) 0], [ShLin 0%nat 1 0; ShLin 1%nat 1 0; ShLin 2%nat (-1) 0], Some ISOLR_e98);
  (5, 4, [ShLin 0%nat 1 0; ShLin 1%nat 1 2; ShLin 2%nat (-1) 0], [ShLin 0%nat 1 0; ShLin 1%nat 1 2; ShLin 2%nat (-1) 0], Some ISOLR_e99);
  (5, 5, [ShLin 0%nat 1 0; ShLin 1%nat 1 2; ShLin 2%nat (-1) 0], [ShLin 0%nat 1 0; ShLin 1%nat 1 4; ShLin 2%nat (-1) 0], Some (cN 1));
  (6, 6, [ShLin 0%nat 1 (-1); ShLin 1%nat 1 (-1); ShLin 2%nat (-1) 0], [ShLin 0%nat 1 (-1); ShLin 1%nat 1 1; ShLin 2%nat (-1) 0], Some ISOLR_e100);
  (7, 7, [ShLin 0%nat 1 1; ShLin 1%nat 1 (-1); ShLin 2%nat (-1) 0], [ShLin 0%nat 1 1; ShLin 1%nat 1 1; ShLin 2%nat (-1) 0], Some ISOLR_e101);
  (8, 6, [ShLin 0%nat 1 (-1); ShLin 1%nat 1 1; ShLin 2%nat (-1) 0], [ShLin 0%nat 1 (-1); ShLin 1%nat 1 1; ShLin 2%nat (-1) 0], Some ISOLR_e53);
  (8, 8, [ShLin 0%nat 1 (-1); ShLin 1%nat 1 1; ShLin 2%nat (-1) 0], [ShLin 0%nat 1 (-1); ShLin 1%nat 1 3; ShLin 2%nat (-1) 0], Some (cN 1));
  (9, 7, [ShLin 0%nat 1 1; ShLin 1%nat 1 1; ShLin 2%nat (-1) 0], [ShLin 0%nat 1 1; ShLin 1%nat 1 1; ShLin 2%nat (-1) 0], Some ISOLR_e53);
  (9, 9, [ShLin 0%nat 1 1; ShLin 1%nat 1 1; ShLin 2%nat (-1) 0], [ShLin 0%nat 1 1; ShLin 1%nat 1 3; ShLin 2%nat (-1) 0], Some (cN 1));
  (10, 10, [ShLin 0%nat 1 (-1); ShLin 1%nat 1 (-1); ShLin 2%nat 1 0], [ShLin 0%nat 1 (-1); ShLin 1%nat 1 1; ShLin 2%nat 1 0], Some ISOLR_e100);
  (11, 11, [ShLin 0%nat 1 1; ShLin 1%nat 1 (-1); ShLin 2%nat 1 0], [ShLin 0%nat 1 1; ShLin 1%nat 1 1; ShLin 2%nat 1 0], Some ISOLR_e101);
  (12, 10, [ShLin 0%nat 1 (-1); ShLin 1%nat 1 1; ShLin 2%nat 1 0], [ShLin 0%nat 1 (-1); ShLin 1%nat 1 1; ShLin 2%nat 1 0], Some ISOLR_e53);
  (12, 12, [ShLin 0%nat 1 (-1); ShLin 1%nat 1 1; ShLin 2%nat 1 0], [ShLin 0%nat 1 (-1); ShLin 1%nat 1 3; ShLin 2%nat 1 0], Some (cN 1));
  (13, 11, [ShLin 0%nat 1 1; ShLin 1%nat 1 1; ShLin 2%nat 1 0], [ShLin 0%nat 1 1; ShLin 1%nat 1 1; ShLin 2%nat 1 0], Some ISOLR_e53);
  (13, 13, [ShLin 0%nat 1 1; ShLin 1%nat 1 1; ShLin 2%nat 1 0], [ShLin 0%nat 1 1; ShLin 1%nat 1 3; ShLin 2%nat 1 0], Some (cN 1));
  (14, 14, [ShLin 0%nat 1 (-2); ShLin 1%nat 1 0; ShLin 2%nat 1 0], [ShLin 0%nat 1 (-2); ShLin 1%nat 1 2; ShLin 2%nat 1 0], Some ISOLR_e62);
  (15, 15, [ShLin 0%nat 1 0; ShLin 1%nat 1 0; ShLin 2%nat 1 0], [ShLin 0%nat 1 0; ShLin 1%nat 1 2; ShLin 2%nat 1 0], Some (cN 1));
  (16, 16, [ShLin 0%nat 1 2; ShLin 1%nat 1 0; ShLin 2%nat 1 0], [ShLin 0%nat 1 2; ShLin 1%nat 1 2; ShLin 2%nat 1 0], Some (cN 1))].
(** /repo/c++/symmetry/nrg-recalc-ISOLR.hpp recalc_triplet, isolr/isolr-2ch-tripletm.dat *)
Definition isolr_2ch_t22 : ten_table := mk_ten "triplet" [ShLin 0%nat 1 0; ShLin 1%nat 1 (-2); ShLin 2%nat 1 0] [1; 3; 1] [
  (1, 1, [ShLin 0%nat 1 0; ShLin 1%nat 1 0; ShLin 2%nat (-1) 0], [ShLin 0%nat 1 0; ShLin 1%nat 1 (-2); ShLin 2%nat (-1) 0], Some (cN 1));
  (2, 2, [ShLin 0%nat 1 0; ShLin 1%nat 1 0; ShLin 2%nat 1 0], [ShLin 0%nat 1 0; ShLin 1%nat 1 (-2); ShLin 2%nat 1 0], Some (cN 1));
  (3, 3, [ShLin 0%nat 1 0; ShLin 1%nat 1 (-2); ShLin 2%nat (-1) 0], [ShLin 0%nat 1 0; ShLin 1%nat 1 (-4); ShLin 2%nat (-1) 0], Some ISOLR_e67);
  (3, 4, [ShLin 0%nat 1 0; ShLin 1%nat 1 (-2); ShLin 2%nat (-1) 0], [ShLin 0%nat 1 0; ShLin 1%nat 1 (-2); ShLin 2%nat (-1) 0], Some ISOLR_e102);
  (3, 5, [ShLin 0%nat 1 0; ShLin 1%nat 1 (-2); ShLin 2%nat (-1) 0], [ShLin 0%nat 1 0; ShLin 1%nat 1 0; ShLin 2%nat (-1) 0], Some ISOLR_e103);
  (4, 4, [ShLin 0%nat 1 0; ShLin 1%nat 1 0; ShLin 2%nat (-1) 0], [ShLin 0%nat 1 0; ShLin 1%nat 1 (-2); ShLin 2%nat (-1) 0], Some ISOLR_e104);
  (4, 5, [ShLin 0%nat 1 0; ShLin 1%nat 1 0; ShLin 2%nat (-1) 0], [ShLin 0%nat 1 0; ShLin 1%nat 1 0; ShLin 2%nat (-1) 0], Some ISOLR_e105);
  (5, 5, [ShLin 0%nat 1 0; ShLin 1%nat 1 2; ShLin 2%nat (-1) 0], [ShLin 0%nat 1 0; ShLin 1%nat 1 0; ShLin 2%nat (-1) 0], Some ISOLR_e106);
  (6, 6, [ShLin 0%nat 1 (-1); ShLin 1%nat 1 (-1); ShLin 2%nat (-1) 0], [ShLin 0%nat 1 (-1); ShLin 1%nat 1 (-3); ShLin 2%nat (-1) 0], Some ISOLR_e67);
  (6, 8, [ShLin 0%nat 1 (-1); ShLin 1%nat 1 (-1); ShLin 2%nat (-1) 0], [ShLin 0%nat 1 (-1); ShLin 1%nat 1 (-1); ShLin 2%nat (-1) 0], Some ISOLR_e107);
  (7, 7, [ShLin 0%nat 1 1; ShLin 1%nat 1 (-1); ShLin 2%nat (-1) 0], [ShLin 0%nat 1 1; ShLin 1%nat 1 (-3); ShLin 2%nat (-1) 0], Some ISOLR_e108);
  (7, 9, [ShLin 0%nat 1 1; ShLin 1%nat 1 (-1); ShLin 2%nat (-1) 0], [ShLin 0%nat 1 1; ShLin 1%nat 1 (-1); ShLin 2%nat (-1) 0], Some ISOLR_e109);
  (8, 8, [ShLin 0%nat 1 (-1); ShLin 1%nat 1 1; ShLin 2%nat (-1) 0], [ShLin 0%nat 1 (-1); ShLin 1%nat 1 (-1); ShLin 2%nat (-1) 0], Some ISOLR_e110);
  (9, 9, [ShLin 0%nat 1 1; ShLin 1%nat 1 1; ShLin 2%nat (-1) 0], [ShLin 0%nat 1 1; ShLin 1%nat 1 (-1); ShLin 2%nat (-1) 0], Some ISOLR_e111);
  (10, 10, [ShLin 0%nat 1 (-1); ShLin 1%nat 1 (-1); ShLin 2%nat 1 0], [ShLin 0%nat 1 (-1); ShLin 1%nat 1 (-3); ShLin 2%nat 1 0], Some ISOLR_e67);
  (10, 12, [ShLin 0%nat 1 (-1); ShLin 1%nat 1 (-1); ShLin 2%nat 1 0], [ShLin 0%nat 1 (-1); ShLin 1%nat 1 (-1); ShLin 2%nat 1 0], Some ISOLR_e107);
  (11, 11, [ShLin 0%nat 1 1; ShLin 1%nat 1 (-1); ShLin 2%nat 1 0], [ShLin 0%nat 1 1; ShLin 1%nat 1 (-3); ShLin 2%nat 1 0], Some ISOLR_e108);
  (11, 13, [ShLin 0%nat 1 1; ShLin 1%nat 1 (-1); ShLin 2%nat 1 0], [ShLin 0%nat 1 1; ShLin 1%nat 1 (-1); ShLin 2%nat 1 0], Some ISOLR_e109);
  (12, 12, [ShLin 0%nat 1 (-1); ShLin 1%nat 1 1; ShLin 2%nat 1 0], [ShLin 0%nat 1 (-1); ShLin 1%nat 1 (-1); ShLin 2%nat 1 0], Some ISOLR_e110);
  (13, 13, [ShLin 0%nat 1 1; ShLin 1%nat 1 1; ShLin 2%nat 1 0], [ShLin 0%nat 1 1; ShLin 1%nat 1 (-1); ShLin 2%nat 1 0], Some ISOLR_e111);
  (14, 14, [ShLin 0%nat 1 (-2); ShLin 1%nat 1 0; ShLin 2%nat 1 0], [ShLin 0%nat 1 (-2); ShLin 1%nat 1 (-2); ShLin 2%nat 1 0], Some ISOLR_e62);
  (15, 15, [ShLin 0%nat 1 0; ShLin 1%nat 1 0; ShLin 2%nat 1 0], [ShLin 0%nat 1 0; ShLin 1%nat 1 (-2); ShLin 2%nat 1 0], Some (cN 1));
  (16, 16, [ShLin 0%nat 1 2; ShLin 1%nat 1 0; ShLin 2%nat 1 0], [ShLin 0%nat 1 2; ShLin 1%nat 1 (-2); ShLin 2%nat 1 0], Some (cN 1))].
(** /repo/c++/symmetry/sym-ISOLR-impl.hpp, make_matrix  *)
Definition isolr_2ch_m0_o : list off_line := [
  (1, 6, 0, 0, "xi", Some (cQ 1 2));
  (1, 7, 0, 0, "xi", Some (cQ 1 2));
  (1, 8, 0, 0, "xi", Some (cQ 1 2));
  (1, 9, 0, 0, "xi", Some (cQ 1 2));
  (1, 10, 0, 0, "xi", Some (cQ 1 2));
  (1, 11, 0, 0, "xi", Some (cQ 1 2));
  (1, 12, 0, 0, "xi", Some (cQ 1 2));
  (1, 13, 0, 0, "xi", Some (cQ 1 2));
  (2, 6, 0, 0, "xi", Some (cQ 1 2));
  (2, 7, 0, 0, "xi", Some (cQ 1 2));
  (2, 8, 0, 0, "xi", Some (cQ 1 2));
  (2, 9, 0, 0, "xi", Some (cQ 1 2));
  (2, 10, 0, 0, "xi", Some (cQ (-1) 2));
  (2, 11, 0, 0, "xi", Some (cQ (-1) 2));
  (2, 12, 0, 0, "xi", Some (cQ (-1) 2));
  (2, 13, 0, 0, "xi", Some (cQ (-1) 2));
  (3, 6, 0, 0, "xi", Some ISOLR_e112);
  (3, 7, 0, 0, "xi", Some ISOLR_e112);
  (3, 10, 0, 0, "xi", Some ISOLR_e113);
  (3, 11, 0, 0, "xi", Some ISOLR_e113);
  (4, 6, 0, 0, "xi", Some ISOLR_e37);
  (4, 7, 0, 0, "xi", Some ISOLR_e37);
  (4, 8, 0, 0, "xi", Some ISOLR_e30);
  (4, 9, 0, 0, "xi", Some ISOLR_e30);
  (4, 10, 0, 0, "xi", Some ISOLR_e13);
  (4, 11, 0, 0, "xi", Some ISOLR_e13);
  (4, 12, 0, 0, "xi", Some ISOLR_e4);
  (4, 13, 0, 0, "xi", Some ISOLR_e4);
  (5, 8, 0, 0, "xi", Some ISOLR_e114);
  (5, 9, 0, 0, "xi", Some ISOLR_e114);
  (5, 12, 0, 0, "xi", Some ISOLR_e115);
  (5, 13, 0, 0, "xi", Some ISOLR_e115);
  (6, 14, 0, 0, "xi", Some ISOLR_e116);
  (6, 15, 0, 0, "xi", Some ISOLR_e117);
  (7, 15, 0, 0, "xi", Some ISOLR_e118);
  (7, 16, 0, 0, "xi", Some ISOLR_e119);
  (8, 14, 0, 0, "xi", Some ISOLR_e120);
  (8, 15, 0, 0, "xi", Some ISOLR_e121);
  (9, 15, 0, 0, "xi", Some ISOLR_e122);
  (9, 16, 0, 0, "xi", Some ISOLR_e120);
  (10, 14, 0, 0, "xi", Some ISOLR_e116);
  (10, 15, 0, 0, "xi", Some ISOLR_e117);
  (11, 15, 0, 0, "xi", Some ISOLR_e118);
  (11, 16, 0, 0, "xi", Some ISOLR_e119);
  (12, 14, 0, 0, "xi", Some ISOLR_e120);
  (12, 15, 0, 0, "xi", Some ISOLR_e121);
  (13, 15, 0, 0, "xi", Some ISOLR_e122);
  (13, 16, 0, 0, "xi", Some ISOLR_e120);
  (1, 6, 1, 0, "xi", Some (cQ 1 2));
  (1, 7, 1, 0, "xi", Some (cQ 1 2));
  (1, 8, 1, 0, "xi", Some (cQ 1 2));
  (1, 9, 1, 0, "xi", Some (cQ 1 2));
  (1, 10, 1, 0, "xi", Some (cQ (-1) 2));
  (1, 11, 1, 0, "xi", Some (cQ (-1) 2));
  (1, 12, 1, 0, "xi", Some (cQ (-1) 2));
  (1, 13, 1, 0, "xi", Some (cQ (-1) 2));
  (2, 6, 1, 0, "xi", Some (cQ (-1) 2));
  (2, 7, 1, 0, "xi", Some (cQ (-1) 2));
  (2, 8, 1, 0, "xi", Some (cQ (-1) 2));
  (2, 9, 1, 0, "xi", Some (cQ (-1) 2));
  (2, 10, 1, 0, "xi", Some (cQ (-1) 2));
  (2, 11, 1, 0, "xi", Some (cQ (-1) 2));
  (2, 12, 1, 0, "xi", Some (cQ (-1) 2));
  (2, 13, 1, 0, "xi", Some (cQ (-1) 2));
  (3, 6, 1, 0, "xi", Some ISOLR_e112);
  (3, 7, 1, 0, "xi", Some ISOLR_e112);
  (3, 10, 1, 0, "xi", Some ISOLR_e112);
  (3, 11, 1, 0, "xi", Some ISOLR_e112);
  (4, 6, 1, 0, "xi", Some ISOLR_e37);
  (4, 7, 1, 0, "xi", Some ISOLR_e37);
  (4, 8, 1, 0, "xi", Some ISOLR_e30);
  (4, 9, 1, 0, "xi", Some ISOLR_e30);
  (4, 10, 1, 0, "xi", Some ISOLR_e37);
  (4, 11, 1, 0, "xi", Some ISOLR_e37);
  (4, 12, 1, 0, "xi", Some ISOLR_e30);
  (4, 13, 1, 0, "xi", Some ISOLR_e30);
  (5, 8, 1, 0, "xi", Some ISOLR_e114);
  (5, 9, 1, 0, "xi", Some ISOLR_e114);
  (5, 12, 1, 0, "xi", Some ISOLR_e114);
  (5, 13, 1, 0, "xi", Some ISOLR_e114);
  (6, 14, 1, 0, "xi", Some ISOLR_e123);
  (6, 15, 1, 0, "xi", Some ISOLR_e124);
  (7, 15, 1, 0, "xi", Some ISOLR_e125);
  (7, 16, 1, 0, "xi", Some ISOLR_e126);
  (8, 14, 1, 0, "xi", Some ISOLR_e127);
  (8, 15, 1, 0, "xi", Some ISOLR_e128);
  (9, 15, 1, 0, "xi", Some ISOLR_e129);
  (9, 16, 1, 0, "xi", Some ISOLR_e127);
  (10, 14, 1, 0, "xi", Some ISOLR_e116);
  (10, 15, 1, 0, "xi", Some ISOLR_e117);
  (11, 15, 1, 0, "xi", Some ISOLR_e118);
  (11, 16, 1, 0, "xi", Some ISOLR_e119);
  (12, 14, 1, 0, "xi", Some ISOLR_e120);
  (12, 15, 1, 0, "xi", Some ISOLR_e121);
  (13, 15, 1, 0, "xi", Some ISOLR_e122);
  (13, 16, 1, 0, "xi", Some ISOLR_e120)].
(** /repo/c++/symmetry/sym-ISOLR-impl.hpp, make_matrix  *)
Definition isolr_2ch_m0_d : list diag_line := [
  ].
(** /repo/c++/symmetry/sym-ISOLR-impl.hpp, make_matrix  *)
Definition isolr_2ch_m0_f : list dof_line := [
  ].
Definition coef_isolr_2ch : coef_set := mk_coef "ISOLR" 2%nat sym_ISOLR {| tb_In := isolr_2ch_In; tb_QN := isolr_2ch_QN |}
  [isolr_2ch_t0; isolr_2ch_t1; isolr_2ch_t2; isolr_2ch_t3; isolr_2ch_t4; isolr_2ch_t5; isolr_2ch_t6; isolr_2ch_t7; isolr_2ch_t8; isolr_2ch_t9; isolr_2ch_t10; isolr_2ch_t11; isolr_2ch_t12; isolr_2ch_t13; isolr_2ch_t14; isolr_2ch_t15]
  [isolr_2ch_t16; isolr_2ch_t17; isolr_2ch_t18; isolr_2ch_t19; isolr_2ch_t20; isolr_2ch_t21; isolr_2ch_t22]
  [mk_mode "default" isolr_2ch_m0_o isolr_2ch_m0_d isolr_2ch_m0_f].
