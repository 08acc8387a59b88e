(** Generated by gen/gen_coef.py from /repo/c++/symmetry/{sym-QST-impl.hpp, nrg-recalc-QST.hpp, coefnew}. Do not edit. *)
From Coq Require Import List ZArith String.
From Verif Require Import Base Invar_model Symmetry_model Symmetry_tables Coef_model.
Import ListNotations.
Local Open Scope string_scope.
Local Open Scope list_scope.
Local Open Scope Z_scope.

Definition QST_e0 := (cD (cM (cN (-2)) (cR (cM (cD (cB (cV 1) (cN 1)) (cN 2)) (cA (cN 1) (cD (cB (cV 1) (cN 1)) (cN 2)))))) (cA (cN 1) (cM (cN 2) (cD (cB (cV 1) (cN 1)) (cN 2))))).
Definition QST_e1 := (cD (cM (cN (-2)) (cR (cM (cD (cB (cV 1) (cN 1)) (cN 2)) (cA (cN 1) (cD (cB (cV 1) (cN 1)) (cN 2)))))) (cA (cV 2) (cM (cM (cN 2) (cD (cB (cV 1) (cN 1)) (cN 2))) (cV 2)))).
Definition QST_e2 := (cD (cM (cN (-2)) (cR (cM (cD (cB (cV 1) (cN 1)) (cN 2)) (cA (cN 1) (cD (cB (cV 1) (cN 1)) (cN 2)))))) (cM (cA (cN 1) (cM (cN 2) (cV 2))) (cA (cV 2) (cM (cM (cN 2) (cD (cB (cV 1) (cN 1)) (cN 2))) (cV 2))))).
Definition QST_e3 := (cM (cM (cN (-2)) (cR (cD (cA (cN 1) (cD (cB (cV 1) (cN 1)) (cN 2))) (cA (cA (cA (cN 1) (cM (cN 2) (cD (cB (cV 1) (cN 1)) (cN 2)))) (cV 2)) (cM (cM (cN 2) (cD (cB (cV 1) (cN 1)) (cN 2))) (cV 2)))))) (cA (cA (cO (cR (cD (cD (cB (cV 1) (cN 1)) (cN 2)) (cM (cA (cN 1) (cM (cN 2) (cD (cB (cV 1) (cN 1)) (cN 2)))) (cA (cN (-1)) (cV 2)))))) (cR (cD (cM (cD (cB (cV 1) (cN 1)) (cN 2)) (cA (cN (-1)) (cV 2))) (cM (cA (cN 1) (cM (cN 2) (cD (cB (cV 1) (cN 1)) (cN 2)))) (cW (cV 2) 4))))) (cM (cR (cD (cD (cB (cV 1) (cN 1)) (cN 2)) (cM (cA (cN 1) (cM (cN 2) (cD (cB (cV 1) (cN 1)) (cN 2)))) (cA (cN (-1)) (cV 2))))) (cV 2)))).
Definition QST_e4 := (cD (cM (cN (-2)) (cR (cD (cM (cM (cD (cB (cV 1) (cN 1)) (cN 2)) (cA (cN 1) (cD (cB (cV 1) (cN 1)) (cN 2)))) (cA (cN (-1)) (cM (cN 2) (cV 2)))) (cA (cN 1) (cM (cN 2) (cV 2)))))) (cA (cV 2) (cM (cM (cN 2) (cD (cB (cV 1) (cN 1)) (cN 2))) (cV 2)))).
Definition QST_e5 := (cD (cM (cN (-2)) (cA (cA (cR (cD (cM (cD (cB (cV 1) (cN 1)) (cN 2)) (cA (cN (-1)) (cM (cN 2) (cV 2)))) (cM (cA (cN 1) (cM (cN 2) (cD (cB (cV 1) (cN 1)) (cN 2)))) (cA (cN 1) (cV 2))))) (cR (cD (cM (cD (cB (cV 1) (cN 1)) (cN 2)) (cA (cN (-1)) (cM (cN 2) (cV 2)))) (cM (cM (cA (cN 1) (cM (cN 2) (cD (cB (cV 1) (cN 1)) (cN 2)))) (cA (cN 1) (cV 2))) (cW (cA (cN 1) (cM (cN 2) (cV 2))) 4))))) (cR (cD (cM (cD (cB (cV 1) (cN 1)) (cN 2)) (cA (cA (cN (-1)) (cV 2)) (cM (cN 2) (cW (cV 2) 4)))) (cA (cN 1) (cM (cN 2) (cD (cB (cV 1) (cN 1)) (cN 2)))))))) (cR (cD (cM (cM (cA (cN 1) (cM (cN 2) (cD (cB (cV 1) (cN 1)) (cN 2)))) (cA (cN 1) (cV 2))) (cA (cN 3) (cM (cN 2) (cV 2)))) (cA (cN 1) (cD (cB (cV 1) (cN 1)) (cN 2)))))).
Definition QST_e6 := (cD (cN 1) (cA (cN 1) (cM (cN 2) (cD (cB (cV 1) (cN 1)) (cN 2))))).
Definition QST_e7 := (cD (cN 1) (cA (cV 2) (cM (cM (cN 2) (cD (cB (cV 1) (cN 1)) (cN 2))) (cV 2)))).
Definition QST_e8 := (cD (cN 1) (cM (cA (cN 1) (cM (cN 2) (cV 2))) (cA (cV 2) (cM (cM (cN 2) (cD (cB (cV 1) (cN 1)) (cN 2))) (cV 2))))).
Definition QST_e9 := (cO (cD (cN 1) (cA (cV 2) (cM (cN 2) (cW (cV 2) 4))))).
Definition QST_e10 := (cD (cR (cA (cN (-1)) (cW (cV 2) 4))) (cA (cV 2) (cM (cM (cN 2) (cD (cB (cV 1) (cN 1)) (cN 2))) (cV 2)))).
Definition QST_e11 := (cD (cR (cB (cN 1) (cD (cN 2) (cA (cN 1) (cM (cN 2) (cV 2)))))) (cA (cV 2) (cM (cM (cN 2) (cD (cB (cV 1) (cN 1)) (cN 2))) (cV 2)))).
Definition QST_e12 := (cO (cD (cR (cA (cN (-1)) (cW (cV 2) 4))) (cV 2))).
Definition QST_e13 := (cO (cD (cR (cB (cN 1) (cD (cN 2) (cA (cN 1) (cM (cN 2) (cV 2)))))) (cV 2))).
Definition QST_e14 := (cD (cR (cA (cN (-3)) (cM (cM (cN 4) (cV 2)) (cA (cN 1) (cV 2))))) (cM (cA (cN 1) (cM (cN 2) (cD (cB (cV 1) (cN 1)) (cN 2)))) (cA (cN 1) (cM (cN 2) (cV 2))))).
Definition QST_e15 := (cO (cD (cR (cA (cN (-3)) (cM (cM (cN 4) (cV 2)) (cA (cN 1) (cV 2))))) (cA (cN 1) (cM (cN 2) (cV 2))))).
Definition QST_e16 := (cD (cR (cN 2)) (cR (cM (cA (cN (-1)) (cV 2)) (cV 2)))).
Definition QST_e17 := (cD (cR (cN 6)) (cR (cM (cM (cM (cA (cN (-1)) (cV 2)) (cV 2)) (cA (cN (-1)) (cM (cN 2) (cV 2)))) (cA (cN 1) (cM (cN 2) (cV 2)))))).
Definition QST_e18 := (cD (cM (cA (cN 1) (cV 2)) (cR (cD (cM (cA (cN (-2)) (cV 2)) (cV 2)) (cA (cN (-1)) (cW (cV 2) 4))))) (cV 2)).
Definition QST_e19 := (cD (cM (cA (cN 1) (cV 2)) (cR (cA (cB (cN 3) (cD (cN 30) (cA (cN 1) (cV 2)))) (cD (cN 36) (cA (cN 1) (cM (cN 2) (cV 2))))))) (cM (cA (cN (-1)) (cV 2)) (cV 2))).
Definition QST_e20 := (cD (cN 3) (cA (cV 2) (cM (cN 2) (cW (cV 2) 4)))).
Definition QST_e21 := (cD (cA (cB (cN 9) (cM (cN 13) (cW (cV 2) 4))) (cM (cN 4) (cW (cV 2) 8))) (cM (cV 2) (cR (cA (cN (-9)) (cM (cW (cV 2) 4) (cW (cB (cN 7) (cM (cN 4) (cW (cV 2) 4))) 4)))))).
Definition QST_e22 := (cD (cM (cR (cN 3)) (cA (cA (cN (-3)) (cV 2)) (cM (cN 2) (cW (cV 2) 4)))) (cM (cV 2) (cR (cM (cM (cM (cA (cN (-1)) (cV 2)) (cA (cN 1) (cV 2))) (cA (cN 1) (cM (cN 2) (cV 2)))) (cA (cN 3) (cM (cN 2) (cV 2))))))).
Definition QST_e23 := (cD (cR (cN 6)) (cR (cM (cM (cM (cV 2) (cA (cN 1) (cV 2))) (cA (cN 1) (cM (cN 2) (cV 2)))) (cA (cN 3) (cM (cN 2) (cV 2)))))).
Definition QST_e24 := (cD (cA (cA (cB (cA (cB (cM (cN 6) (cR (cD (cM (cM (cM (cM (cA (cN (-1)) (cV 2)) (cV 2)) (cA (cN 2) (cV 2))) (cA (cN (-1)) (cM (cN 2) (cV 2)))) (cA (cN 3) (cM (cN 2) (cV 2)))) (cA (cN 1) (cM (cN 2) (cV 2)))))) (cM (cN 9) (cR (cD (cM (cM (cM (cW (cV 2) 6) (cA (cN 2) (cV 2))) (cA (cN (-1)) (cM (cN 2) (cV 2)))) (cA (cN 3) (cM (cN 2) (cV 2)))) (cM (cA (cN (-1)) (cV 2)) (cA (cN 1) (cM (cN 2) (cV 2)))))))) (cM (cN 9) (cR (cD (cM (cM (cM (cW (cV 2) 10) (cA (cN 2) (cV 2))) (cA (cN (-1)) (cM (cN 2) (cV 2)))) (cA (cN 3) (cM (cN 2) (cV 2)))) (cM (cA (cN (-1)) (cV 2)) (cA (cN 1) (cM (cN 2) (cV 2)))))))) (cM (cN 4) (cR (cD (cM (cM (cM (cM (cW (cV 2) 6) (cA (cN 2) (cV 2))) (cA (cN (-1)) (cM (cN 2) (cV 2)))) (cA (cN 1) (cM (cN 2) (cV 2)))) (cA (cN 3) (cM (cN 2) (cV 2)))) (cA (cN (-1)) (cV 2)))))) (cM (cN 3) (cR (cD (cM (cM (cM (cM (cW (cV 2) 10) (cA (cN 2) (cV 2))) (cA (cN (-1)) (cM (cN 2) (cV 2)))) (cA (cN 1) (cM (cN 2) (cV 2)))) (cA (cN 3) (cM (cN 2) (cV 2)))) (cA (cN (-1)) (cV 2)))))) (cR (cD (cM (cM (cM (cM (cW (cV 2) 14) (cA (cN 2) (cV 2))) (cA (cN (-1)) (cM (cN 2) (cV 2)))) (cA (cN 1) (cM (cN 2) (cV 2)))) (cA (cN 3) (cM (cN 2) (cV 2)))) (cA (cN (-1)) (cV 2))))) (cM (cM (cM (cM (cV 2) (cW (cA (cN 1) (cV 2)) 3)) (cA (cN 2) (cV 2))) (cR (cA (cN 1) (cM (cN 2) (cV 2))))) (cA (cN 3) (cM (cN 2) (cV 2))))).
Definition QST_e25 := (cR (cD (cA (cN (-2)) (cM (cN 4) (cV 2))) (cA (cA (cV 2) (cM (cN 3) (cW (cV 2) 4))) (cM (cN 2) (cW (cV 2) 6))))).
Definition QST_e26 := (cM (cA (cN 5) (cM (cN 2) (cV 2))) (cR (cD (cA (cN (-1)) (cM (cN 2) (cV 2))) (cA (cA (cA (cN 15) (cM (cN 46) (cV 2))) (cM (cN 36) (cW (cV 2) 4))) (cM (cN 8) (cW (cV 2) 6)))))).
Definition QST_e27 := (cM (cA (cN (-1)) (cM (cN 2) (cD (cB (cV 1) (cN 1)) (cN 2)))) (cR (cO (cD (cA (cN 1) (cD (cB (cV 1) (cN 1)) (cN 2))) (cB (cD (cB (cV 1) (cN 1)) (cN 2)) (cM (cN 4) (cW (cD (cB (cV 1) (cN 1)) (cN 2)) 6))))))).
Definition QST_e28 := (cD (cM (cA (cN (-1)) (cM (cN 2) (cD (cB (cV 1) (cN 1)) (cN 2)))) (cR (cO (cD (cA (cN 1) (cD (cB (cV 1) (cN 1)) (cN 2))) (cB (cD (cB (cV 1) (cN 1)) (cN 2)) (cM (cN 4) (cW (cD (cB (cV 1) (cN 1)) (cN 2)) 6))))))) (cV 2)).
Definition QST_e29 := (cD (cN 1) (cR (cD (cM (cM (cD (cB (cV 1) (cN 1)) (cN 2)) (cA (cN 1) (cM (cN 2) (cD (cB (cV 1) (cN 1)) (cN 2))))) (cW (cA (cV 2) (cM (cN 2) (cW (cV 2) 4))) 4)) (cA (cA (cN (-1)) (cD (cB (cV 1) (cN 1)) (cN 2))) (cM (cN 2) (cW (cD (cB (cV 1) (cN 1)) (cN 2)) 4)))))).
Definition QST_e30 := (cD (cR (cD (cM (cA (cA (cN (-1)) (cD (cB (cV 1) (cN 1)) (cN 2))) (cM (cN 2) (cW (cD (cB (cV 1) (cN 1)) (cN 2)) 4))) (cA (cN (-1)) (cW (cV 2) 4))) (cM (cD (cB (cV 1) (cN 1)) (cN 2)) (cA (cN 1) (cM (cN 2) (cD (cB (cV 1) (cN 1)) (cN 2))))))) (cV 2)).
Definition QST_e31 := (cD (cM (cA (cN (-1)) (cM (cN 2) (cD (cB (cV 1) (cN 1)) (cN 2)))) (cR (cD (cM (cA (cN 1) (cD (cB (cV 1) (cN 1)) (cN 2))) (cA (cN (-1)) (cM (cN 2) (cV 2)))) (cM (cA (cO (cD (cB (cV 1) (cN 1)) (cN 2))) (cM (cN 4) (cW (cD (cB (cV 1) (cN 1)) (cN 2)) 6))) (cA (cN 1) (cM (cN 2) (cV 2))))))) (cV 2)).
Definition QST_e32 := (cD (cA (cA (cA (cM (cN 2) (cR (cD (cM (cV 2) (cA (cN (-1)) (cM (cN 2) (cV 2)))) (cA (cN 1) (cV 2))))) (cM (cM (cN 2) (cV 2)) (cR (cD (cM (cV 2) (cA (cN (-1)) (cM (cN 2) (cV 2)))) (cA (cN 1) (cV 2)))))) (cR (cM (cV 2) (cA (cA (cN (-1)) (cV 2)) (cM (cN 2) (cW (cV 2) 4)))))) (cM (cN 2) (cR (cM (cW (cV 2) 6) (cA (cA (cN (-1)) (cV 2)) (cM (cN 2) (cW (cV 2) 4))))))) (cM (cA (cN 1) (cM (cN 2) (cV 2))) (cR (cD (cM (cM (cM (cM (cD (cB (cV 1) (cN 1)) (cN 2)) (cA (cN 1) (cM (cN 2) (cD (cB (cV 1) (cN 1)) (cN 2))))) (cV 2)) (cA (cN 1) (cV 2))) (cA (cN 3) (cM (cN 2) (cV 2)))) (cA (cA (cN (-1)) (cD (cB (cV 1) (cN 1)) (cN 2))) (cM (cN 2) (cW (cD (cB (cV 1) (cN 1)) (cN 2)) 4))))))).
Definition QST_e33 := (cO (cD (cN 1) (cR (cM (cD (cB (cV 1) (cN 1)) (cN 2)) (cA (cN 1) (cM (cN 2) (cD (cB (cV 1) (cN 1)) (cN 2)))))))).
Definition QST_e34 := (cO (cD (cN 1) (cM (cR (cM (cD (cB (cV 1) (cN 1)) (cN 2)) (cA (cN 1) (cM (cN 2) (cD (cB (cV 1) (cN 1)) (cN 2)))))) (cV 2)))).
Definition QST_e35 := (cO (cD (cN 1) (cM (cM (cR (cM (cD (cB (cV 1) (cN 1)) (cN 2)) (cA (cN 1) (cM (cN 2) (cD (cB (cV 1) (cN 1)) (cN 2)))))) (cV 2)) (cA (cN 1) (cM (cN 2) (cV 2)))))).
Definition QST_e36 := (cM (cA (cN 3) (cM (cN 2) (cD (cB (cV 1) (cN 1)) (cN 2)))) (cR (cD (cD (cB (cV 1) (cN 1)) (cN 2)) (cA (cA (cA (cN 3) (cM (cN 11) (cD (cB (cV 1) (cN 1)) (cN 2)))) (cM (cN 12) (cW (cD (cB (cV 1) (cN 1)) (cN 2)) 4))) (cM (cN 4) (cW (cD (cB (cV 1) (cN 1)) (cN 2)) 6)))))).
Definition QST_e37 := (cM (cA (cN 3) (cM (cN 2) (cD (cB (cV 1) (cN 1)) (cN 2)))) (cR (cD (cD (cB (cV 1) (cN 1)) (cN 2)) (cM (cA (cA (cA (cN 3) (cM (cN 11) (cD (cB (cV 1) (cN 1)) (cN 2)))) (cM (cN 12) (cW (cD (cB (cV 1) (cN 1)) (cN 2)) 4))) (cM (cN 4) (cW (cD (cB (cV 1) (cN 1)) (cN 2)) 6))) (cW (cV 2) 4))))).
Definition QST_e38 := (cM (cA (cN 3) (cM (cN 2) (cD (cB (cV 1) (cN 1)) (cN 2)))) (cR (cD (cD (cB (cV 1) (cN 1)) (cN 2)) (cM (cA (cA (cA (cN 3) (cM (cN 11) (cD (cB (cV 1) (cN 1)) (cN 2)))) (cM (cN 12) (cW (cD (cB (cV 1) (cN 1)) (cN 2)) 4))) (cM (cN 4) (cW (cD (cB (cV 1) (cN 1)) (cN 2)) 6))) (cW (cA (cV 2) (cM (cN 2) (cW (cV 2) 4))) 4))))).
Definition QST_e39 := (cO (cD (cR (cD (cA (cN (-1)) (cW (cV 2) 4)) (cM (cD (cB (cV 1) (cN 1)) (cN 2)) (cA (cN 1) (cM (cN 2) (cD (cB (cV 1) (cN 1)) (cN 2))))))) (cV 2))).
Definition QST_e40 := (cO (cD (cA (cA (cB (cO (cM (cM (cM (cM (cA (cN 1) (cD (cB (cV 1) (cN 1)) (cN 2))) (cA (cN (-1)) (cM (cN 2) (cD (cB (cV 1) (cN 1)) (cN 2))))) (cW (cV 2) 5)) (cW (cA (cN 1) (cV 2)) 4)) (cR (cM (cM (cD (cB (cV 1) (cN 1)) (cN 2)) (cA (cN 1) (cD (cB (cV 1) (cN 1)) (cN 2)))) (cA (cN (-1)) (cM (cN 4) (cW (cV 2) 4))))))) (cM (cM (cM (cM (cA (cN 1) (cD (cB (cV 1) (cN 1)) (cN 2))) (cA (cN (-1)) (cM (cN 2) (cD (cB (cV 1) (cN 1)) (cN 2))))) (cV 2)) (cW (cA (cN 1) (cV 2)) 4)) (cR (cM (cM (cM (cD (cB (cV 1) (cN 1)) (cN 2)) (cA (cN 1) (cD (cB (cV 1) (cN 1)) (cN 2)))) (cV 2)) (cA (cN (-1)) (cM (cN 4) (cW (cV 2) 4))))))) (cM (cM (cN 2) (cD (cB (cV 1) (cN 1)) (cN 2))) (cR (cM (cM (cM (cM (cD (cB (cV 1) (cN 1)) (cN 2)) (cW (cA (cN 1) (cD (cB (cV 1) (cN 1)) (cN 2))) 6)) (cW (cV 2) 6)) (cW (cA (cN 1) (cV 2)) 8)) (cA (cN (-1)) (cM (cN 4) (cW (cV 2) 4))))))) (cM (cM (cM (cN 2) (cD (cB (cV 1) (cN 1)) (cN 2))) (cV 2)) (cR (cM (cM (cM (cM (cD (cB (cV 1) (cN 1)) (cN 2)) (cW (cA (cN 1) (cD (cB (cV 1) (cN 1)) (cN 2))) 6)) (cW (cV 2) 6)) (cW (cA (cN 1) (cV 2)) 8)) (cA (cN (-1)) (cM (cN 4) (cW (cV 2) 4))))))) (cM (cM (cM (cM (cW (cA (cN 1) (cD (cB (cV 1) (cN 1)) (cN 2))) 3) (cR (cA (cN 1) (cM (cN 2) (cD (cB (cV 1) (cN 1)) (cN 2)))))) (cW (cV 2) 5)) (cW (cA (cN 1) (cV 2)) 6)) (cA (cD (cB (cV 1) (cN 1)) (cN 2)) (cM (cM (cN 2) (cD (cB (cV 1) (cN 1)) (cN 2))) (cV 2)))))).
Definition QST_e41 := (cD (cM (cR (cA (cN (-1)) (cV 2))) (cA (cA (cM (cM (cM (cD (cB (cV 1) (cN 1)) (cN 2)) (cA (cN 3) (cM (cN 2) (cD (cB (cV 1) (cN 1)) (cN 2))))) (cV 2)) (cR (cM (cM (cM (cM (cD (cB (cV 1) (cN 1)) (cN 2)) (cA (cN 1) (cD (cB (cV 1) (cN 1)) (cN 2)))) (cA (cN 1) (cM (cN 2) (cD (cB (cV 1) (cN 1)) (cN 2))))) (cA (cN 3) (cM (cN 2) (cD (cB (cV 1) (cN 1)) (cN 2))))) (cA (cN 1) (cV 2))))) (cM (cN 3) (cR (cM (cM (cM (cM (cW (cD (cB (cV 1) (cN 1)) (cN 2)) 6) (cA (cN 1) (cD (cB (cV 1) (cN 1)) (cN 2)))) (cA (cN 1) (cM (cN 2) (cD (cB (cV 1) (cN 1)) (cN 2))))) (cA (cN 3) (cM (cN 2) (cD (cB (cV 1) (cN 1)) (cN 2))))) (cA (cN 1) (cV 2)))))) (cM (cN 2) (cR (cM (cM (cM (cM (cW (cD (cB (cV 1) (cN 1)) (cN 2)) 10) (cA (cN 1) (cD (cB (cV 1) (cN 1)) (cN 2)))) (cA (cN 1) (cM (cN 2) (cD (cB (cV 1) (cN 1)) (cN 2))))) (cA (cN 3) (cM (cN 2) (cD (cB (cV 1) (cN 1)) (cN 2))))) (cA (cN 1) (cV 2))))))) (cM (cM (cM (cM (cD (cB (cV 1) (cN 1)) (cN 2)) (cA (cN 1) (cD (cB (cV 1) (cN 1)) (cN 2)))) (cA (cN 3) (cM (cM (cN 4) (cD (cB (cV 1) (cN 1)) (cN 2))) (cA (cN 2) (cD (cB (cV 1) (cN 1)) (cN 2)))))) (cV 2)) (cA (cN 1) (cV 2)))).
Definition QST_e42 := (cD (cA (cM (cN 3) (cR (cD (cM (cM (cW (cD (cB (cV 1) (cN 1)) (cN 2)) 6) (cA (cN 1) (cD (cB (cV 1) (cN 1)) (cN 2)))) (cA (cN (-1)) (cM (cN 2) (cV 2)))) (cM (cA (cN 3) (cM (cM (cN 4) (cD (cB (cV 1) (cN 1)) (cN 2))) (cA (cN 2) (cD (cB (cV 1) (cN 1)) (cN 2))))) (cA (cN 1) (cM (cN 2) (cV 2))))))) (cM (cN 2) (cR (cD (cM (cM (cW (cD (cB (cV 1) (cN 1)) (cN 2)) 10) (cA (cN 1) (cD (cB (cV 1) (cN 1)) (cN 2)))) (cA (cN (-1)) (cM (cN 2) (cV 2)))) (cM (cA (cN 3) (cM (cM (cN 4) (cD (cB (cV 1) (cN 1)) (cN 2))) (cA (cN 2) (cD (cB (cV 1) (cN 1)) (cN 2))))) (cA (cN 1) (cM (cN 2) (cV 2)))))))) (cM (cM (cD (cB (cV 1) (cN 1)) (cN 2)) (cA (cN 1) (cD (cB (cV 1) (cN 1)) (cN 2)))) (cV 2))).
Definition QST_e43 := (cO (cD (cR (cD (cA (cN (-3)) (cM (cM (cN 4) (cV 2)) (cA (cN 1) (cV 2)))) (cM (cD (cB (cV 1) (cN 1)) (cN 2)) (cA (cN 1) (cM (cN 2) (cD (cB (cV 1) (cN 1)) (cN 2))))))) (cA (cN 1) (cM (cN 2) (cV 2))))).
Definition QST_e44 := (cD (cA (cA (cD (cM (cM (cN 4) (cD (cB (cV 1) (cN 1)) (cN 2))) (cR (cD (cM (cD (cB (cV 1) (cN 1)) (cN 2)) (cA (cA (cN (-1)) (cV 2)) (cM (cN 2) (cW (cV 2) 4)))) (cA (cN 3) (cM (cM (cN 4) (cD (cB (cV 1) (cN 1)) (cN 2))) (cA (cN 2) (cD (cB (cV 1) (cN 1)) (cN 2)))))))) (cA (cN 1) (cM (cN 2) (cV 2)))) (cM (cN 2) (cR (cD (cM (cW (cD (cB (cV 1) (cN 1)) (cN 2)) 6) (cA (cA (cN (-1)) (cV 2)) (cM (cN 2) (cW (cV 2) 4)))) (cA (cN 3) (cM (cM (cN 4) (cD (cB (cV 1) (cN 1)) (cN 2))) (cA (cN 2) (cD (cB (cV 1) (cN 1)) (cN 2))))))))) (cM (cN 3) (cA (cA (cR (cD (cM (cD (cB (cV 1) (cN 1)) (cN 2)) (cA (cN (-1)) (cM (cN 2) (cV 2)))) (cM (cA (cN 3) (cM (cM (cN 4) (cD (cB (cV 1) (cN 1)) (cN 2))) (cA (cN 2) (cD (cB (cV 1) (cN 1)) (cN 2))))) (cA (cN 1) (cV 2))))) (cR (cD (cM (cD (cB (cV 1) (cN 1)) (cN 2)) (cA (cN (-1)) (cM (cN 2) (cV 2)))) (cM (cM (cA (cN 3) (cM (cM (cN 4) (cD (cB (cV 1) (cN 1)) (cN 2))) (cA (cN 2) (cD (cB (cV 1) (cN 1)) (cN 2))))) (cA (cN 1) (cV 2))) (cW (cA (cN 1) (cM (cN 2) (cV 2))) 4))))) (cR (cD (cM (cD (cB (cV 1) (cN 1)) (cN 2)) (cA (cA (cN (-1)) (cV 2)) (cM (cN 2) (cW (cV 2) 4)))) (cA (cN 3) (cM (cM (cN 4) (cD (cB (cV 1) (cN 1)) (cN 2))) (cA (cN 2) (cD (cB (cV 1) (cN 1)) (cN 2)))))))))) (cR (cM (cM (cA (cN 1) (cD (cB (cV 1) (cN 1)) (cN 2))) (cA (cN 1) (cV 2))) (cA (cN 3) (cM (cN 2) (cV 2)))))).
Definition QST_e45 := (cO (cD (cN 1) (cR (cM (cA (cN 1) (cD (cB (cV 1) (cN 1)) (cN 2))) (cA (cN 1) (cM (cN 2) (cD (cB (cV 1) (cN 1)) (cN 2)))))))).
Definition QST_e46 := (cD (cA (cB (cO (cR (cD (cM (cA (cN 3) (cM (cN 2) (cD (cB (cV 1) (cN 1)) (cN 2)))) (cV 2)) (cA (cN 1) (cD (cB (cV 1) (cN 1)) (cN 2)))))) (cM (cN 2) (cR (cM (cM (cA (cN 1) (cD (cB (cV 1) (cN 1)) (cN 2))) (cA (cN 3) (cM (cN 2) (cD (cB (cV 1) (cN 1)) (cN 2))))) (cV 2))))) (cM (cM (cN 4) (cD (cB (cV 1) (cN 1)) (cN 2))) (cB (cA (cR (cD (cM (cA (cN 3) (cM (cN 2) (cD (cB (cV 1) (cN 1)) (cN 2)))) (cV 2)) (cA (cN 1) (cD (cB (cV 1) (cN 1)) (cN 2))))) (cM (cD (cB (cV 1) (cN 1)) (cN 2)) (cR (cD (cM (cA (cN 3) (cM (cN 2) (cD (cB (cV 1) (cN 1)) (cN 2)))) (cV 2)) (cA (cN 1) (cD (cB (cV 1) (cN 1)) (cN 2))))))) (cR (cM (cM (cA (cN 1) (cD (cB (cV 1) (cN 1)) (cN 2))) (cA (cN 3) (cM (cN 2) (cD (cB (cV 1) (cN 1)) (cN 2))))) (cV 2)))))) (cM (cM (cW (cA (cN 3) (cM (cN 2) (cD (cB (cV 1) (cN 1)) (cN 2)))) 3) (cV 2)) (cR (cA (cV 2) (cM (cM (cN 2) (cD (cB (cV 1) (cN 1)) (cN 2))) (cV 2)))))).
Definition QST_e47 := (cO (cD (cN 1) (cM (cR (cA (cA (cN 1) (cM (cN 3) (cD (cB (cV 1) (cN 1)) (cN 2)))) (cM (cN 2) (cW (cD (cB (cV 1) (cN 1)) (cN 2)) 4)))) (cA (cV 2) (cM (cN 2) (cW (cV 2) 4)))))).
Definition QST_e48 := (cD (cN 1) (cA (cV 2) (cM (cN 2) (cW (cV 2) 4)))).
Definition QST_e49 := (cD (cM (cB (cM (cM (cN 4) (cD (cB (cV 1) (cN 1)) (cN 2))) (cR (cD (cA (cN (-1)) (cV 2)) (cA (cN 1) (cM (cN 2) (cD (cB (cV 1) (cN 1)) (cN 2))))))) (cM (cN 3) (cR (cM (cA (cN 1) (cM (cN 2) (cD (cB (cV 1) (cN 1)) (cN 2)))) (cA (cN (-1)) (cV 2)))))) (cA (cN 1) (cV 2))) (cM (cM (cA (cN 3) (cM (cN 2) (cD (cB (cV 1) (cN 1)) (cN 2)))) (cV 2)) (cR (cM (cA (cN 1) (cD (cB (cV 1) (cN 1)) (cN 2))) (cA (cN 1) (cV 2)))))).
Definition QST_e50 := (cO (cD (cR (cD (cA (cN (-1)) (cM (cN 2) (cV 2))) (cM (cA (cA (cN 1) (cM (cN 3) (cD (cB (cV 1) (cN 1)) (cN 2)))) (cM (cN 2) (cW (cD (cB (cV 1) (cN 1)) (cN 2)) 4))) (cA (cN 1) (cM (cN 2) (cV 2)))))) (cV 2))).
Definition QST_e51 := (cD (cR (cA (cN (-1)) (cW (cV 2) 4))) (cV 2)).
Definition QST_e52 := (cD (cR (cA (cN (-1)) (cM (cN 4) (cW (cV 2) 4)))) (cA (cV 2) (cM (cN 2) (cW (cV 2) 4)))).
Definition QST_e53 := (cO (cD (cR (cD (cA (cN (-3)) (cM (cM (cN 4) (cV 2)) (cA (cN 1) (cV 2)))) (cM (cA (cN 1) (cD (cB (cV 1) (cN 1)) (cN 2))) (cA (cN 1) (cM (cN 2) (cD (cB (cV 1) (cN 1)) (cN 2))))))) (cA (cN 1) (cM (cN 2) (cV 2))))).
Definition QST_e54 := (cD (cA (cA (cR (cM (cM (cM (cA (cN 3) (cM (cN 2) (cD (cB (cV 1) (cN 1)) (cN 2)))) (cA (cN 1) (cV 2))) (cA (cN (-1)) (cM (cN 2) (cV 2)))) (cA (cN 1) (cM (cN 2) (cV 2))))) (cM (cN 2) (cR (cD (cM (cA (cN 3) (cM (cN 2) (cD (cB (cV 1) (cN 1)) (cN 2)))) (cA (cN (-1)) (cM (cN 4) (cW (cV 2) 4)))) (cA (cN 1) (cV 2)))))) (cM (cM (cN 2) (cV 2)) (cA (cR (cM (cM (cM (cA (cN 3) (cM (cN 2) (cD (cB (cV 1) (cN 1)) (cN 2)))) (cA (cN 1) (cV 2))) (cA (cN (-1)) (cM (cN 2) (cV 2)))) (cA (cN 1) (cM (cN 2) (cV 2))))) (cR (cD (cM (cA (cN 3) (cM (cN 2) (cD (cB (cV 1) (cN 1)) (cN 2)))) (cA (cN (-1)) (cM (cN 4) (cW (cV 2) 4)))) (cA (cN 1) (cV 2))))))) (cM (cA (cN 1) (cM (cN 2) (cV 2))) (cR (cM (cM (cM (cA (cN 3) (cM (cN 2) (cD (cB (cV 1) (cN 1)) (cN 2)))) (cA (cN 1) (cV 2))) (cA (cN 1) (cM (cN 2) (cV 2)))) (cA (cN 3) (cM (cN 2) (cV 2))))))).
Definition QST_e55 := (cD (cM (cM (cN (-2)) (cR (cN 2))) (cR (cD (cM (cD (cB (cV 1) (cN 1)) (cN 2)) (cA (cN 1) (cD (cB (cV 1) (cN 1)) (cN 2)))) (cM (cA (cN (-1)) (cV 2)) (cV 2))))) (cA (cN 1) (cM (cN 2) (cD (cB (cV 1) (cN 1)) (cN 2))))).
Definition QST_e56 := (cM (cM (cN (-2)) (cR (cN 6))) (cR (cD (cM (cD (cB (cV 1) (cN 1)) (cN 2)) (cA (cN 1) (cD (cB (cV 1) (cN 1)) (cN 2)))) (cM (cW (cA (cN 1) (cM (cN 2) (cD (cB (cV 1) (cN 1)) (cN 2)))) 4) (cA (cB (cB (cV 2) (cW (cV 2) 4)) (cM (cN 4) (cW (cV 2) 6))) (cM (cN 4) (cW (cV 2) 8))))))).
Definition QST_e57 := (cM (cM (cN (-2)) (cR (cD (cM (cA (cN 1) (cD (cB (cV 1) (cN 1)) (cN 2))) (cA (cN (-1)) (cM (cN 2) (cV 2)))) (cM (cA (cN 1) (cM (cN 2) (cD (cB (cV 1) (cN 1)) (cN 2)))) (cA (cN 1) (cV 2)))))) (cA (cM (cM (cA (cN (-3)) (cV 2)) (cV 2)) (cR (cD (cD (cB (cV 1) (cN 1)) (cN 2)) (cM (cM (cA (cN 1) (cM (cN 2) (cD (cB (cV 1) (cN 1)) (cN 2)))) (cV 2)) (cA (cB (cA (cN (-2)) (cM (cN 7) (cV 2))) (cM (cN 7) (cW (cV 2) 4))) (cM (cN 2) (cW (cV 2) 6))))))) (cM (cN 2) (cA (cR (cD (cD (cB (cV 1) (cN 1)) (cN 2)) (cM (cM (cA (cN 1) (cM (cN 2) (cD (cB (cV 1) (cN 1)) (cN 2)))) (cV 2)) (cA (cB (cA (cN (-2)) (cM (cN 7) (cV 2))) (cM (cN 7) (cW (cV 2) 4))) (cM (cN 2) (cW (cV 2) 6)))))) (cR (cD (cM (cD (cB (cV 1) (cN 1)) (cN 2)) (cA (cN (-2)) (cV 2))) (cM (cA (cN 1) (cM (cN 2) (cD (cB (cV 1) (cN 1)) (cN 2)))) (cA (cB (cV 2) (cM (cN 3) (cW (cV 2) 4))) (cM (cN 2) (cW (cV 2) 6)))))))))).
Definition QST_e58 := (cD (cM (cM (cM (cN (-2)) (cR (cN 3))) (cR (cD (cM (cA (cN 1) (cD (cB (cV 1) (cN 1)) (cN 2))) (cA (cN (-1)) (cM (cN 2) (cV 2)))) (cM (cA (cN 1) (cM (cN 2) (cD (cB (cV 1) (cN 1)) (cN 2)))) (cA (cN 1) (cV 2)))))) (cA (cA (cM (cN 2) (cR (cD (cM (cD (cB (cV 1) (cN 1)) (cN 2)) (cA (cN (-3)) (cM (cN 2) (cV 2)))) (cM (cA (cN 1) (cM (cN 2) (cD (cB (cV 1) (cN 1)) (cN 2)))) (cA (cB (cB (cN 1) (cV 2)) (cM (cN 4) (cW (cV 2) 4))) (cM (cN 4) (cW (cV 2) 6))))))) (cM (cN 3) (cR (cD (cD (cB (cV 1) (cN 1)) (cN 2)) (cM (cA (cN 1) (cM (cN 2) (cD (cB (cV 1) (cN 1)) (cN 2)))) (cA (cB (cA (cA (cN (-3)) (cM (cN 5) (cV 2))) (cM (cN 10) (cW (cV 2) 4))) (cM (cN 20) (cW (cV 2) 6))) (cM (cN 8) (cW (cV 2) 8)))))))) (cM (cM (cV 2) (cA (cN (-5)) (cM (cN 2) (cV 2)))) (cR (cD (cD (cB (cV 1) (cN 1)) (cN 2)) (cM (cA (cN 1) (cM (cN 2) (cD (cB (cV 1) (cN 1)) (cN 2)))) (cA (cB (cA (cA (cN (-3)) (cM (cN 5) (cV 2))) (cM (cN 10) (cW (cV 2) 4))) (cM (cN 20) (cW (cV 2) 6))) (cM (cN 8) (cW (cV 2) 8))))))))) (cV 2)).
Definition QST_e59 := (cD (cM (cN (-6)) (cR (cM (cD (cB (cV 1) (cN 1)) (cN 2)) (cA (cN 1) (cD (cB (cV 1) (cN 1)) (cN 2)))))) (cM (cA (cN 1) (cM (cN 2) (cD (cB (cV 1) (cN 1)) (cN 2)))) (cA (cV 2) (cM (cN 2) (cW (cV 2) 4))))).
Definition QST_e60 := (cM (cM (cN (-2)) (cR (cD (cA (cN 1) (cD (cB (cV 1) (cN 1)) (cN 2))) (cA (cN 1) (cM (cN 2) (cD (cB (cV 1) (cN 1)) (cN 2))))))) (cA (cA (cD (cM (cN 6) (cR (cD (cM (cD (cB (cV 1) (cN 1)) (cN 2)) (cA (cB (cN 3) (cM (cN 5) (cV 2))) (cM (cN 2) (cW (cV 2) 4)))) (cM (cA (cN 1) (cM (cN 2) (cD (cB (cV 1) (cN 1)) (cN 2)))) (cA (cA (cA (cB (cN (-3)) (cM (cN 5) (cV 2))) (cM (cN 10) (cW (cV 2) 4))) (cM (cN 20) (cW (cV 2) 6))) (cM (cN 8) (cW (cV 2) 8))))))) (cV 2)) (cM (cM (cN 3) (cA (cN 3) (cM (cM (cN 4) (cA (cN (-2)) (cV 2))) (cV 2)))) (cR (cD (cM (cD (cB (cV 1) (cN 1)) (cN 2)) (cA (cN (-1)) (cV 2))) (cM (cM (cA (cN 1) (cM (cN 2) (cD (cB (cV 1) (cN 1)) (cN 2)))) (cW (cV 2) 4)) (cA (cA (cB (cB (cA (cN 9) (cM (cN 9) (cV 2))) (cM (cN 40) (cW (cV 2) 4))) (cM (cN 40) (cW (cV 2) 6))) (cM (cN 16) (cW (cV 2) 8))) (cM (cN 16) (cW (cV 2) 10)))))))) (cM (cM (cM (cA (cN (-1)) (cV 2)) (cA (cN (-3)) (cM (cN 2) (cV 2)))) (cA (cN (-1)) (cM (cN 2) (cV 2)))) (cR (cD (cD (cB (cV 1) (cN 1)) (cN 2)) (cM (cA (cN 1) (cM (cN 2) (cD (cB (cV 1) (cN 1)) (cN 2)))) (cA (cN (-9)) (cM (cW (cV 2) 4) (cW (cB (cN 7) (cM (cN 4) (cW (cV 2) 4))) 4))))))))).
Definition QST_e61 := (cD (cM (cM (cM (cN (-2)) (cR (cN 3))) (cA (cA (cN (-3)) (cV 2)) (cM (cN 2) (cW (cV 2) 4)))) (cR (cD (cM (cD (cB (cV 1) (cN 1)) (cN 2)) (cA (cN 1) (cD (cB (cV 1) (cN 1)) (cN 2)))) (cM (cW (cA (cN 1) (cM (cN 2) (cD (cB (cV 1) (cN 1)) (cN 2)))) 4) (cA (cA (cB (cB (cN (-3)) (cM (cN 8) (cV 2))) (cW (cV 2) 4)) (cM (cN 8) (cW (cV 2) 6))) (cM (cN 4) (cW (cV 2) 8))))))) (cV 2)).
Definition QST_e62 := (cD (cM (cM (cN (-2)) (cR (cA (cN 3) (cD (cN 3) (cA (cN 1) (cM (cN 2) (cD (cB (cV 1) (cN 1)) (cN 2)))))))) (cA (cA (cO (cR (cD (cM (cD (cB (cV 1) (cN 1)) (cN 2)) (cV 2)) (cA (cA (cA (cN 1) (cM (cN 2) (cD (cB (cV 1) (cN 1)) (cN 2)))) (cM (cN 2) (cV 2))) (cM (cM (cN 4) (cD (cB (cV 1) (cN 1)) (cN 2))) (cV 2)))))) (cM (cN 3) (cR (cD (cD (cB (cV 1) (cN 1)) (cN 2)) (cM (cA (cN 1) (cM (cN 2) (cD (cB (cV 1) (cN 1)) (cN 2)))) (cA (cV 2) (cM (cN 2) (cW (cV 2) 4)))))))) (cM (cM (cN 2) (cV 2)) (cA (cR (cD (cM (cD (cB (cV 1) (cN 1)) (cN 2)) (cV 2)) (cA (cA (cA (cN 1) (cM (cN 2) (cD (cB (cV 1) (cN 1)) (cN 2)))) (cM (cN 2) (cV 2))) (cM (cM (cN 4) (cD (cB (cV 1) (cN 1)) (cN 2))) (cV 2))))) (cM (cN 3) (cR (cD (cD (cB (cV 1) (cN 1)) (cN 2)) (cM (cA (cN 1) (cM (cN 2) (cD (cB (cV 1) (cN 1)) (cN 2)))) (cA (cV 2) (cM (cN 2) (cW (cV 2) 4))))))))))) (cW (cM (cA (cN 1) (cV 2)) (cA (cN 3) (cM (cN 2) (cV 2)))) 3)).
Definition QST_e63 := (cD (cM (cM (cN (-2)) (cR (cD (cA (cN 1) (cD (cB (cV 1) (cN 1)) (cN 2))) (cA (cV 2) (cM (cM (cN 2) (cD (cB (cV 1) (cN 1)) (cN 2))) (cV 2)))))) (cA (cM (cN 6) (cR (cD (cM (cM (cM (cM (cD (cB (cV 1) (cN 1)) (cN 2)) (cA (cN (-1)) (cV 2))) (cA (cN 2) (cV 2))) (cA (cN (-1)) (cM (cN 2) (cV 2)))) (cA (cN 3) (cM (cN 2) (cV 2)))) (cM (cA (cN 1) (cM (cN 2) (cD (cB (cV 1) (cN 1)) (cN 2)))) (cA (cN 1) (cV 2)))))) (cM (cM (cA (cN (-1)) (cV 2)) (cV 2)) (cA (cA (cR (cD (cM (cM (cM (cM (cD (cB (cV 1) (cN 1)) (cN 2)) (cA (cN 1) (cV 2))) (cA (cN 2) (cV 2))) (cA (cN (-1)) (cM (cN 2) (cV 2)))) (cA (cN 3) (cM (cN 2) (cV 2)))) (cM (cA (cN 1) (cM (cN 2) (cD (cB (cV 1) (cN 1)) (cN 2)))) (cA (cN (-1)) (cV 2))))) (cM (cN 12) (cR (cD (cM (cM (cM (cD (cB (cV 1) (cN 1)) (cN 2)) (cA (cN 2) (cV 2))) (cA (cN (-1)) (cM (cN 2) (cV 2)))) (cA (cN 3) (cM (cN 2) (cV 2)))) (cM (cA (cN 1) (cM (cN 2) (cD (cB (cV 1) (cN 1)) (cN 2)))) (cA (cN (-1)) (cW (cV 2) 4))))))) (cM (cM (cN 2) (cV 2)) (cA (cR (cD (cM (cM (cM (cM (cD (cB (cV 1) (cN 1)) (cN 2)) (cA (cN 1) (cV 2))) (cA (cN 2) (cV 2))) (cA (cN (-1)) (cM (cN 2) (cV 2)))) (cA (cN 3) (cM (cN 2) (cV 2)))) (cM (cA (cN 1) (cM (cN 2) (cD (cB (cV 1) (cN 1)) (cN 2)))) (cA (cN (-1)) (cV 2))))) (cM (cN 3) (cR (cD (cM (cM (cM (cD (cB (cV 1) (cN 1)) (cN 2)) (cA (cN 2) (cV 2))) (cA (cN (-1)) (cM (cN 2) (cV 2)))) (cA (cN 3) (cM (cN 2) (cV 2)))) (cM (cA (cN 1) (cM (cN 2) (cD (cB (cV 1) (cN 1)) (cN 2)))) (cA (cN (-1)) (cW (cV 2) 4)))))))))))) (cM (cM (cM (cA (cN 1) (cV 2)) (cA (cN 2) (cV 2))) (cA (cN 1) (cM (cN 2) (cV 2)))) (cA (cN 3) (cM (cN 2) (cV 2))))).
Definition QST_e64 := (cM (cM (cM (cN (-2)) (cR (cN 2))) (cR (cD (cA (cN 1) (cD (cB (cV 1) (cN 1)) (cN 2))) (cM (cM (cW (cA (cN 2) (cV 2)) 6) (cA (cV 2) (cM (cM (cN 2) (cD (cB (cV 1) (cN 1)) (cN 2))) (cV 2)))) (cW (cA (cA (cN 3) (cM (cN 5) (cV 2))) (cM (cN 2) (cW (cV 2) 4))) 4))))) (cA (cM (cN 6) (cR (cD (cM (cM (cD (cB (cV 1) (cN 1)) (cN 2)) (cA (cN 2) (cV 2))) (cA (cN (-1)) (cM (cN 2) (cV 2)))) (cM (cM (cA (cN 1) (cM (cN 2) (cD (cB (cV 1) (cN 1)) (cN 2)))) (cA (cN 1) (cV 2))) (cA (cN 1) (cM (cN 2) (cV 2))))))) (cM (cV 2) (cA (cA (cM (cN 9) (cR (cD (cM (cM (cD (cB (cV 1) (cN 1)) (cN 2)) (cA (cN 2) (cV 2))) (cA (cN (-1)) (cM (cN 2) (cV 2)))) (cM (cM (cA (cN 1) (cM (cN 2) (cD (cB (cV 1) (cN 1)) (cN 2)))) (cA (cN 1) (cV 2))) (cA (cN 1) (cM (cN 2) (cV 2))))))) (cM (cN 3) (cR (cD (cM (cM (cM (cD (cB (cV 1) (cN 1)) (cN 2)) (cA (cN 2) (cV 2))) (cA (cN (-1)) (cM (cN 2) (cV 2)))) (cA (cN 1) (cM (cN 2) (cV 2)))) (cM (cA (cN 1) (cM (cN 2) (cD (cB (cV 1) (cN 1)) (cN 2)))) (cA (cN 1) (cV 2))))))) (cR (cD (cM (cM (cM (cM (cD (cB (cV 1) (cN 1)) (cN 2)) (cA (cN 1) (cV 2))) (cA (cN 2) (cV 2))) (cA (cN (-1)) (cM (cN 2) (cV 2)))) (cA (cN 1) (cM (cN 2) (cV 2)))) (cA (cN 1) (cM (cN 2) (cD (cB (cV 1) (cN 1)) (cN 2)))))))))).
Definition QST_e65 := (cD (cM (cN (-2)) (cA (cA (cA (cA (cM (cN 2) (cR (cD (cM (cM (cM (cD (cB (cV 1) (cN 1)) (cN 2)) (cA (cN 1) (cV 2))) (cA (cN (-1)) (cM (cN 2) (cV 2)))) (cA (cN 1) (cM (cN 2) (cV 2)))) (cM (cA (cN 1) (cM (cN 2) (cD (cB (cV 1) (cN 1)) (cN 2)))) (cA (cN 2) (cV 2)))))) (cR (cD (cM (cM (cM (cM (cD (cB (cV 1) (cN 1)) (cN 2)) (cA (cN 1) (cV 2))) (cA (cN 2) (cV 2))) (cA (cN (-1)) (cM (cN 2) (cV 2)))) (cA (cN 1) (cM (cN 2) (cV 2)))) (cA (cN 1) (cM (cN 2) (cD (cB (cV 1) (cN 1)) (cN 2))))))) (cD (cM (cN 6) (cR (cD (cM (cM (cM (cD (cB (cV 1) (cN 1)) (cN 2)) (cA (cN 1) (cV 2))) (cA (cN (-1)) (cM (cN 2) (cV 2)))) (cA (cN 1) (cM (cN 2) (cV 2)))) (cM (cA (cN 1) (cM (cN 2) (cD (cB (cV 1) (cN 1)) (cN 2)))) (cA (cN 2) (cV 2)))))) (cA (cN 3) (cM (cN 2) (cV 2))))) (cD (cM (cN 6) (cR (cD (cM (cD (cB (cV 1) (cN 1)) (cN 2)) (cA (cN (-1)) (cM (cN 4) (cW (cV 2) 4)))) (cM (cA (cN 1) (cM (cN 2) (cD (cB (cV 1) (cN 1)) (cN 2)))) (cA (cA (cN 2) (cM (cN 3) (cV 2))) (cW (cV 2) 4)))))) (cA (cN 3) (cM (cN 2) (cV 2))))) (cD (cM (cN 6) (cR (cD (cM (cD (cB (cV 1) (cN 1)) (cN 2)) (cA (cN (-1)) (cM (cN 2) (cV 2)))) (cM (cA (cN 1) (cM (cN 2) (cD (cB (cV 1) (cN 1)) (cN 2)))) (cA (cA (cA (cN 2) (cM (cN 7) (cV 2))) (cM (cN 7) (cW (cV 2) 4))) (cM (cN 2) (cW (cV 2) 6))))))) (cA (cN 3) (cM (cN 2) (cV 2)))))) (cR (cD (cM (cM (cM (cM (cA (cN 1) (cM (cN 2) (cD (cB (cV 1) (cN 1)) (cN 2)))) (cA (cN 1) (cV 2))) (cA (cN 2) (cV 2))) (cA (cN 3) (cM (cN 2) (cV 2)))) (cA (cN 5) (cM (cN 2) (cV 2)))) (cA (cN 1) (cD (cB (cV 1) (cN 1)) (cN 2)))))).
Definition QST_e66 := (cD (cR (cN 2)) (cM (cA (cN 1) (cM (cN 2) (cD (cB (cV 1) (cN 1)) (cN 2)))) (cR (cM (cA (cN (-1)) (cV 2)) (cV 2))))).
Definition QST_e67 := (cD (cR (cN 6)) (cM (cA (cN 1) (cM (cN 2) (cD (cB (cV 1) (cN 1)) (cN 2)))) (cR (cM (cM (cM (cA (cN (-1)) (cV 2)) (cV 2)) (cA (cN (-1)) (cM (cN 2) (cV 2)))) (cA (cN 1) (cM (cN 2) (cV 2))))))).
Definition QST_e68 := (cO (cD (cR (cN 2)) (cR (cM (cA (cN (-1)) (cV 2)) (cV 2))))).
Definition QST_e69 := (cO (cD (cM (cR (cD (cA (cN 6) (cM (cN 12) (cD (cB (cV 1) (cN 1)) (cN 2)))) (cA (cB (cN 1) (cM (cN 3) (cV 2))) (cM (cN 2) (cW (cV 2) 4))))) (cA (cM (cN 2) (cR (cD (cM (cM (cA (cN 3) (cM (cN 2) (cD (cB (cV 1) (cN 1)) (cN 2)))) (cV 2)) (cA (cN 1) (cM (cN 2) (cV 2)))) (cA (cN 1) (cM (cN 2) (cD (cB (cV 1) (cN 1)) (cN 2))))))) (cR (cM (cM (cA (cN 3) (cM (cM (cN 4) (cD (cB (cV 1) (cN 1)) (cN 2))) (cA (cN 2) (cD (cB (cV 1) (cN 1)) (cN 2))))) (cV 2)) (cA (cN 1) (cM (cN 2) (cV 2))))))) (cM (cM (cW (cA (cN 3) (cM (cN 2) (cD (cB (cV 1) (cN 1)) (cN 2)))) 3) (cV 2)) (cA (cN 1) (cM (cN 2) (cV 2)))))).
Definition QST_e70 := (cD (cM (cA (cN (-2)) (cV 2)) (cA (cN 1) (cV 2))) (cM (cA (cN 1) (cM (cN 2) (cD (cB (cV 1) (cN 1)) (cN 2)))) (cR (cM (cM (cM (cA (cN (-2)) (cV 2)) (cA (cN (-1)) (cV 2))) (cV 2)) (cA (cN 1) (cV 2)))))).
Definition QST_e71 := (cD (cM (cM (cR (cN 3)) (cA (cN 1) (cV 2))) (cA (cN (-3)) (cM (cN 2) (cV 2)))) (cM (cR (cM (cM (cM (cA (cN (-1)) (cV 2)) (cA (cN 1) (cV 2))) (cA (cN (-3)) (cM (cN 2) (cV 2)))) (cA (cN 1) (cM (cN 2) (cV 2))))) (cA (cV 2) (cM (cM (cN 2) (cD (cB (cV 1) (cN 1)) (cN 2))) (cV 2))))).
Definition QST_e72 := (cD (cN 3) (cM (cA (cN 1) (cM (cN 2) (cD (cB (cV 1) (cN 1)) (cN 2)))) (cA (cV 2) (cM (cN 2) (cW (cV 2) 4))))).
Definition QST_e73 := (cO (cD (cR (cD (cM (cM (cA (cN (-2)) (cV 2)) (cA (cN (-1)) (cV 2))) (cA (cN 1) (cV 2))) (cV 2))) (cA (cN (-1)) (cV 2)))).
Definition QST_e74 := (cD (cM (cR (cN 3)) (cB (cA (cN 3) (cV 2)) (cM (cN 2) (cW (cV 2) 4)))) (cM (cV 2) (cR (cM (cM (cM (cA (cN (-1)) (cV 2)) (cA (cN 1) (cV 2))) (cA (cN (-3)) (cM (cN 2) (cV 2)))) (cA (cN 1) (cM (cN 2) (cV 2))))))).
Definition QST_e75 := (cD (cN (-3)) (cA (cV 2) (cM (cN 2) (cW (cV 2) 4)))).
Definition QST_e76 := (cD (cA (cB (cN 9) (cM (cN 13) (cW (cV 2) 4))) (cM (cN 4) (cW (cV 2) 8))) (cM (cA (cV 2) (cM (cM (cN 2) (cD (cB (cV 1) (cN 1)) (cN 2))) (cV 2))) (cR (cA (cN (-9)) (cM (cW (cV 2) 4) (cW (cB (cN 7) (cM (cN 4) (cW (cV 2) 4))) 4)))))).
Definition QST_e77 := (cM (cM (cR (cN 3)) (cR (cA (cN 1) (cD (cB (cV 1) (cN 1)) (cN 2))))) (cA (cA (cA (cB (cB (cD (cM (cN (-12)) (cD (cB (cV 1) (cN 1)) (cN 2))) (cM (cM (cM (cA (cN 1) (cM (cN 2) (cD (cB (cV 1) (cN 1)) (cN 2)))) (cV 2)) (cA (cN 1) (cV 2))) (cR (cD (cM (cM (cM (cA (cN 1) (cD (cB (cV 1) (cN 1)) (cN 2))) (cA (cN 1) (cV 2))) (cA (cN 1) (cM (cN 2) (cV 2)))) (cA (cN 3) (cM (cN 2) (cV 2)))) (cA (cN (-1)) (cV 2)))))) (cD (cM (cM (cM (cN 6) (cD (cB (cV 1) (cN 1)) (cN 2))) (cA (cN (-1)) (cV 2))) (cA (cN (-1)) (cM (cN 2) (cV 2)))) (cM (cM (cM (cA (cN 1) (cM (cN 2) (cD (cB (cV 1) (cN 1)) (cN 2)))) (cV 2)) (cA (cN 1) (cV 2))) (cR (cM (cM (cM (cM (cA (cN 1) (cD (cB (cV 1) (cN 1)) (cN 2))) (cA (cN (-1)) (cV 2))) (cA (cN 1) (cV 2))) (cA (cN 1) (cM (cN 2) (cV 2)))) (cA (cN 3) (cM (cN 2) (cV 2)))))))) (cD (cM (cM (cM (cM (cN 2) (cD (cB (cV 1) (cN 1)) (cN 2))) (cA (cN (-1)) (cV 2))) (cV 2)) (cA (cN (-1)) (cM (cN 2) (cV 2)))) (cM (cA (cN 1) (cM (cN 2) (cD (cB (cV 1) (cN 1)) (cN 2)))) (cR (cM (cM (cM (cM (cM (cA (cN 1) (cD (cB (cV 1) (cN 1)) (cN 2))) (cA (cN (-1)) (cV 2))) (cW (cV 2) 4)) (cW (cA (cN 1) (cV 2)) 6)) (cA (cN 1) (cM (cN 2) (cV 2)))) (cA (cN 3) (cM (cN 2) (cV 2)))))))) (cM (cM (cA (cN (-1)) (cV 2)) (cA (cN (-1)) (cM (cN 2) (cV 2)))) (cR (cD (cN 1) (cM (cM (cA (cN 1) (cD (cB (cV 1) (cN 1)) (cN 2))) (cW (cA (cN 1) (cV 2)) 6)) (cA (cA (cB (cN (-3)) (cM (cN 5) (cV 2))) (cM (cN 4) (cW (cV 2) 4))) (cM (cN 4) (cW (cV 2) 6)))))))) (cM (cM (cM (cN 3) (cA (cN (-1)) (cV 2))) (cA (cN (-1)) (cM (cN 2) (cV 2)))) (cR (cD (cN 1) (cM (cM (cM (cA (cN 1) (cD (cB (cV 1) (cN 1)) (cN 2))) (cW (cV 2) 4)) (cW (cA (cN 1) (cV 2)) 6)) (cA (cA (cB (cN (-3)) (cM (cN 5) (cV 2))) (cM (cN 4) (cW (cV 2) 4))) (cM (cN 4) (cW (cV 2) 6)))))))) (cD (cM (cN 6) (cR (cD (cA (cN (-1)) (cV 2)) (cM (cA (cN 1) (cD (cB (cV 1) (cN 1)) (cN 2))) (cA (cA (cA (cN 3) (cM (cN 11) (cV 2))) (cM (cN 12) (cW (cV 2) 4))) (cM (cN 4) (cW (cV 2) 6))))))) (cA (cV 2) (cW (cV 2) 4))))).
Definition QST_e78 := (cD (cR (cN 6)) (cM (cA (cN 1) (cM (cN 2) (cD (cB (cV 1) (cN 1)) (cN 2)))) (cR (cM (cM (cM (cV 2) (cA (cN 1) (cV 2))) (cA (cN 1) (cM (cN 2) (cV 2)))) (cA (cN 3) (cM (cN 2) (cV 2))))))).
Definition QST_e79 := (cO (cD (cM (cM (cA (cN 1) (cV 2)) (cA (cN 3) (cM (cN 2) (cV 2)))) (cR (cD (cA (cB (cN 3) (cM (cN 5) (cV 2))) (cM (cN 2) (cW (cV 2) 4))) (cA (cA (cA (cB (cN (-3)) (cM (cN 5) (cV 2))) (cM (cN 10) (cW (cV 2) 4))) (cM (cN 20) (cW (cV 2) 6))) (cM (cN 8) (cW (cV 2) 8)))))) (cV 2))).
Definition QST_e80 := (cO (cD (cM (cM (cR (cN 3)) (cA (cN (-1)) (cV 2))) (cA (cN 3) (cM (cN 2) (cV 2)))) (cM (cV 2) (cR (cM (cM (cM (cA (cN (-1)) (cV 2)) (cA (cN 1) (cV 2))) (cA (cN 1) (cM (cN 2) (cV 2)))) (cA (cN 3) (cM (cN 2) (cV 2)))))))).
Definition QST_e81 := (cO (cD (cM (cR (cN 6)) (cA (cB (cM (cN 6) (cR (cM (cM (cA (cN 3) (cM (cN 2) (cD (cB (cV 1) (cN 1)) (cN 2)))) (cA (cN 1) (cV 2))) (cA (cN 3) (cM (cN 2) (cV 2)))))) (cM (cN 9) (cR (cD (cA (cN 3) (cM (cN 2) (cD (cB (cV 1) (cN 1)) (cN 2)))) (cA (cA (cN 3) (cM (cN 5) (cV 2))) (cM (cN 2) (cW (cV 2) 4))))))) (cM (cV 2) (cA (cA (cO (cR (cM (cM (cA (cN 3) (cM (cN 2) (cD (cB (cV 1) (cN 1)) (cN 2)))) (cA (cN 1) (cV 2))) (cA (cN 3) (cM (cN 2) (cV 2)))))) (cM (cN 3) (cR (cD (cA (cN 3) (cM (cN 2) (cD (cB (cV 1) (cN 1)) (cN 2)))) (cA (cA (cN 3) (cM (cN 5) (cV 2))) (cM (cN 2) (cW (cV 2) 4))))))) (cM (cM (cN 2) (cV 2)) (cA (cA (cR (cM (cM (cA (cN 3) (cM (cN 2) (cD (cB (cV 1) (cN 1)) (cN 2)))) (cA (cN 1) (cV 2))) (cA (cN 3) (cM (cN 2) (cV 2))))) (cM (cN 12) (cR (cD (cA (cN 3) (cM (cN 2) (cD (cB (cV 1) (cN 1)) (cN 2)))) (cA (cA (cN 3) (cM (cN 5) (cV 2))) (cM (cN 2) (cW (cV 2) 4))))))) (cM (cM (cN 6) (cV 2)) (cR (cD (cA (cN 3) (cM (cN 2) (cD (cB (cV 1) (cN 1)) (cN 2)))) (cA (cA (cN 3) (cM (cN 5) (cV 2))) (cM (cN 2) (cW (cV 2) 4)))))))))))) (cM (cM (cW (cA (cN 1) (cV 2)) 4) (cR (cM (cM (cA (cN 3) (cM (cN 2) (cD (cB (cV 1) (cN 1)) (cN 2)))) (cV 2)) (cA (cN 1) (cM (cN 2) (cV 2)))))) (cW (cA (cN 3) (cM (cN 2) (cV 2))) 4)))).
Definition QST_e82 := (cM (cM (cR (cN 2)) (cR (cA (cN 1) (cD (cB (cV 1) (cN 1)) (cN 2))))) (cB (cA (cB (cB (cB (cA (cA (cD (cM (cA (cN (-1)) (cV 2)) (cV 2)) (cM (cR (cN 2)) (cR (cD (cM (cM (cM (cM (cM (cA (cN 1) (cD (cB (cV 1) (cN 1)) (cN 2))) (cA (cN (-1)) (cV 2))) (cV 2)) (cA (cN 1) (cV 2))) (cA (cN 2) (cV 2))) (cA (cN 3) (cM (cN 2) (cV 2)))) (cA (cN (-1)) (cM (cN 2) (cV 2))))))) (cD (cM (cM (cN 3) (cA (cN (-1)) (cV 2))) (cV 2)) (cM (cR (cN 2)) (cR (cD (cM (cM (cM (cM (cM (cA (cN 1) (cD (cB (cV 1) (cN 1)) (cN 2))) (cA (cN (-1)) (cV 2))) (cV 2)) (cW (cA (cN 1) (cV 2)) 6)) (cA (cN 2) (cV 2))) (cA (cN 3) (cM (cN 2) (cV 2)))) (cA (cN (-1)) (cM (cN 2) (cV 2)))))))) (cD (cM (cN 9) (cA (cN (-1)) (cV 2))) (cM (cM (cR (cN 2)) (cA (cN 1) (cV 2))) (cR (cD (cM (cM (cM (cM (cM (cA (cN 1) (cD (cB (cV 1) (cN 1)) (cN 2))) (cA (cN (-1)) (cV 2))) (cA (cN 1) (cV 2))) (cA (cN 2) (cV 2))) (cW (cA (cN 1) (cM (cN 2) (cV 2))) 4)) (cA (cN 3) (cM (cN 2) (cV 2)))) (cM (cV 2) (cA (cN (-1)) (cM (cN 2) (cV 2))))))))) (cD (cM (cM (cM (cN 6) (cR (cN 2))) (cD (cB (cV 1) (cN 1)) (cN 2))) (cR (cA (cA (cN (-3)) (cD (cN 1) (cV 2))) (cM (cN 2) (cV 2))))) (cM (cM (cM (cA (cN 1) (cM (cN 2) (cD (cB (cV 1) (cN 1)) (cN 2)))) (cA (cN 1) (cV 2))) (cA (cN 1) (cM (cN 2) (cV 2)))) (cR (cM (cM (cM (cA (cN 1) (cD (cB (cV 1) (cN 1)) (cN 2))) (cA (cN 1) (cV 2))) (cA (cN 2) (cV 2))) (cA (cN 3) (cM (cN 2) (cV 2)))))))) (cD (cM (cM (cD (cB (cV 1) (cN 1)) (cN 2)) (cA (cN (-1)) (cV 2))) (cV 2)) (cM (cA (cN 1) (cM (cN 2) (cD (cB (cV 1) (cN 1)) (cN 2)))) (cR (cD (cM (cM (cM (cM (cA (cN 1) (cD (cB (cV 1) (cN 1)) (cN 2))) (cV 2)) (cA (cN 2) (cV 2))) (cA (cN 3) (cM (cN 2) (cV 2)))) (cA (cN (-1)) (cW (cV 2) 4))) (cA (cN (-2)) (cM (cN 4) (cV 2)))))))) (cD (cM (cM (cN 9) (cD (cB (cV 1) (cN 1)) (cN 2))) (cV 2)) (cM (cM (cM (cA (cN 1) (cM (cN 2) (cD (cB (cV 1) (cN 1)) (cN 2)))) (cA (cN 1) (cV 2))) (cA (cN 1) (cM (cN 2) (cV 2)))) (cR (cD (cM (cM (cM (cM (cA (cN 1) (cD (cB (cV 1) (cN 1)) (cN 2))) (cV 2)) (cA (cN 1) (cV 2))) (cA (cN 2) (cV 2))) (cA (cN 3) (cM (cN 2) (cV 2)))) (cA (cB (cN 2) (cM (cN 6) (cV 2))) (cM (cN 4) (cW (cV 2) 4)))))))) (cD (cM (cN 3) (cR (cD (cA (cB (cN 2) (cM (cN 6) (cV 2))) (cM (cN 4) (cW (cV 2) 4))) (cM (cM (cM (cM (cA (cN 1) (cD (cB (cV 1) (cN 1)) (cN 2))) (cV 2)) (cA (cN 1) (cV 2))) (cW (cA (cN 1) (cM (cN 2) (cV 2))) 4)) (cA (cA (cN 6) (cM (cN 7) (cV 2))) (cM (cN 2) (cW (cV 2) 4))))))) (cA (cN 1) (cV 2)))) (cM (cM (cM (cM (cN 3) (cR (cN 2))) (cA (cN (-1)) (cV 2))) (cV 2)) (cR (cD (cM (cW (cD (cB (cV 1) (cN 1)) (cN 2)) 4) (cA (cN (-1)) (cM (cN 2) (cV 2)))) (cM (cM (cM (cM (cA (cN 1) (cD (cB (cV 1) (cN 1)) (cN 2))) (cW (cA (cN 1) (cM (cN 2) (cD (cB (cV 1) (cN 1)) (cN 2)))) 4)) (cV 2)) (cW (cA (cN 1) (cV 2)) 6)) (cA (cA (cB (cN (-6)) (cV 2)) (cM (cN 5) (cW (cV 2) 4))) (cM (cN 2) (cW (cV 2) 6))))))))).
Definition QST_e83 := (cD (cM (cR (cN 2)) (cA (cN (-1)) (cM (cN 2) (cV 2)))) (cM (cA (cN 1) (cM (cN 2) (cD (cB (cV 1) (cN 1)) (cN 2)))) (cR (cM (cM (cM (cV 2) (cA (cN 1) (cV 2))) (cA (cN (-1)) (cM (cN 2) (cV 2)))) (cA (cN 1) (cM (cN 2) (cV 2))))))).
Definition QST_e84 := (cD (cB (cM (cN (-6)) (cR (cA (cA (cN (-2)) (cV 2)) (cD (cN 3) (cA (cN 1) (cM (cN 2) (cV 2))))))) (cM (cM (cA (cN (-1)) (cV 2)) (cV 2)) (cA (cA (cM (cN 4) (cR (cA (cA (cN 4) (cD (cN 3) (cA (cN (-1)) (cV 2)))) (cM (cN 4) (cV 2))))) (cM (cV 2) (cR (cA (cA (cN 4) (cD (cN 3) (cA (cN (-1)) (cV 2)))) (cM (cN 4) (cV 2)))))) (cM (cN 9) (cR (cD (cB (cN 1) (cM (cN 2) (cV 2))) (cB (cA (cN 1) (cV 2)) (cM (cN 2) (cW (cV 2) 4))))))))) (cM (cA (cN 1) (cV 2)) (cR (cM (cM (cM (cM (cV 2) (cA (cN 1) (cV 2))) (cA (cN 2) (cV 2))) (cA (cN 1) (cM (cN 2) (cV 2)))) (cA (cN 3) (cM (cN 2) (cV 2))))))).
Definition QST_e85 := (cO (cR (cD (cA (cN (-2)) (cM (cN 4) (cV 2))) (cA (cA (cV 2) (cM (cN 3) (cW (cV 2) 4))) (cM (cN 2) (cW (cV 2) 6)))))).
Definition QST_e86 := (cD (cA (cB (cA (cB (cB (cA (cB (cA (cA (cB (cM (cM (cN (-12)) (cD (cB (cV 1) (cN 1)) (cN 2))) (cR (cD (cM (cM (cM (cM (cA (cN 1) (cD (cB (cV 1) (cN 1)) (cN 2))) (cV 2)) (cA (cN (-1)) (cM (cN 2) (cV 2)))) (cA (cN 1) (cM (cN 2) (cV 2)))) (cA (cN 5) (cM (cN 2) (cV 2)))) (cM (cM (cA (cN 1) (cM (cN 2) (cD (cB (cV 1) (cN 1)) (cN 2)))) (cA (cN 2) (cV 2))) (cA (cN 3) (cM (cN 2) (cV 2))))))) (cM (cM (cM (cN 12) (cD (cB (cV 1) (cN 1)) (cN 2))) (cA (cN 1) (cV 2))) (cR (cD (cM (cM (cM (cM (cA (cN 1) (cD (cB (cV 1) (cN 1)) (cN 2))) (cV 2)) (cA (cN (-1)) (cM (cN 2) (cV 2)))) (cA (cN 1) (cM (cN 2) (cV 2)))) (cA (cN 5) (cM (cN 2) (cV 2)))) (cM (cM (cA (cN 1) (cM (cN 2) (cD (cB (cV 1) (cN 1)) (cN 2)))) (cA (cN 2) (cV 2))) (cA (cN 3) (cM (cN 2) (cV 2)))))))) (cM (cN 6) (cR (cD (cM (cM (cM (cM (cM (cA (cN 1) (cD (cB (cV 1) (cN 1)) (cN 2))) (cA (cN 1) (cM (cN 2) (cD (cB (cV 1) (cN 1)) (cN 2))))) (cV 2)) (cA (cN (-1)) (cM (cN 2) (cV 2)))) (cA (cN 1) (cM (cN 2) (cV 2)))) (cA (cN 5) (cM (cN 2) (cV 2)))) (cM (cA (cN 2) (cV 2)) (cA (cN 3) (cM (cN 2) (cV 2)))))))) (cM (cM (cN 6) (cA (cN 1) (cV 2))) (cR (cD (cM (cM (cM (cM (cM (cA (cN 1) (cD (cB (cV 1) (cN 1)) (cN 2))) (cA (cN 1) (cM (cN 2) (cD (cB (cV 1) (cN 1)) (cN 2))))) (cV 2)) (cA (cN (-1)) (cM (cN 2) (cV 2)))) (cA (cN 1) (cM (cN 2) (cV 2)))) (cA (cN 5) (cM (cN 2) (cV 2)))) (cM (cA (cN 2) (cV 2)) (cA (cN 3) (cM (cN 2) (cV 2)))))))) (cM (cM (cM (cN 4) (cD (cB (cV 1) (cN 1)) (cN 2))) (cA (cN 1) (cV 2))) (cR (cD (cM (cM (cM (cM (cM (cA (cN 1) (cD (cB (cV 1) (cN 1)) (cN 2))) (cV 2)) (cA (cN (-1)) (cM (cN 2) (cV 2)))) (cA (cN 1) (cM (cN 2) (cV 2)))) (cA (cN 3) (cM (cN 2) (cV 2)))) (cA (cN 5) (cM (cN 2) (cV 2)))) (cM (cA (cN 1) (cM (cN 2) (cD (cB (cV 1) (cN 1)) (cN 2)))) (cA (cN 2) (cV 2))))))) (cM (cM (cN 2) (cA (cN 1) (cV 2))) (cR (cD (cM (cM (cM (cM (cM (cM (cA (cN 1) (cD (cB (cV 1) (cN 1)) (cN 2))) (cA (cN 1) (cM (cN 2) (cD (cB (cV 1) (cN 1)) (cN 2))))) (cV 2)) (cA (cN (-1)) (cM (cN 2) (cV 2)))) (cA (cN 1) (cM (cN 2) (cV 2)))) (cA (cN 3) (cM (cN 2) (cV 2)))) (cA (cN 5) (cM (cN 2) (cV 2)))) (cA (cN 2) (cV 2)))))) (cM (cM (cN 2) (cD (cB (cV 1) (cN 1)) (cN 2))) (cR (cD (cM (cM (cM (cM (cM (cM (cA (cN 1) (cD (cB (cV 1) (cN 1)) (cN 2))) (cV 2)) (cA (cN 2) (cV 2))) (cA (cN (-1)) (cM (cN 2) (cV 2)))) (cA (cN 1) (cM (cN 2) (cV 2)))) (cA (cN 3) (cM (cN 2) (cV 2)))) (cA (cN 5) (cM (cN 2) (cV 2)))) (cA (cN 1) (cM (cN 2) (cD (cB (cV 1) (cN 1)) (cN 2)))))))) (cM (cM (cM (cN 2) (cD (cB (cV 1) (cN 1)) (cN 2))) (cV 2)) (cR (cD (cM (cM (cM (cM (cM (cM (cA (cN 1) (cD (cB (cV 1) (cN 1)) (cN 2))) (cV 2)) (cA (cN 2) (cV 2))) (cA (cN (-1)) (cM (cN 2) (cV 2)))) (cA (cN 1) (cM (cN 2) (cV 2)))) (cA (cN 3) (cM (cN 2) (cV 2)))) (cA (cN 5) (cM (cN 2) (cV 2)))) (cA (cN 1) (cM (cN 2) (cD (cB (cV 1) (cN 1)) (cN 2)))))))) (cM (cA (cN 1) (cV 2)) (cR (cM (cM (cM (cM (cM (cM (cM (cA (cN 1) (cD (cB (cV 1) (cN 1)) (cN 2))) (cA (cN 1) (cM (cN 2) (cD (cB (cV 1) (cN 1)) (cN 2))))) (cV 2)) (cA (cN 2) (cV 2))) (cA (cN (-1)) (cM (cN 2) (cV 2)))) (cA (cN 1) (cM (cN 2) (cV 2)))) (cA (cN 3) (cM (cN 2) (cV 2)))) (cA (cN 5) (cM (cN 2) (cV 2))))))) (cM (cM (cN 12) (cD (cB (cV 1) (cN 1)) (cN 2))) (cR (cD (cM (cM (cA (cN 1) (cD (cB (cV 1) (cN 1)) (cN 2))) (cV 2)) (cA (cA (cN (-5)) (cM (cN 8) (cV 2))) (cM (cN 4) (cW (cV 2) 4)))) (cM (cA (cN 1) (cM (cN 2) (cD (cB (cV 1) (cN 1)) (cN 2)))) (cA (cA (cA (cN 6) (cM (cN 19) (cV 2))) (cM (cN 16) (cW (cV 2) 4))) (cM (cN 4) (cW (cV 2) 6)))))))) (cM (cN 6) (cR (cD (cM (cM (cM (cA (cN 1) (cD (cB (cV 1) (cN 1)) (cN 2))) (cA (cN 1) (cM (cN 2) (cD (cB (cV 1) (cN 1)) (cN 2))))) (cV 2)) (cA (cN (-5)) (cM (cM (cN 4) (cV 2)) (cA (cN 2) (cV 2))))) (cM (cM (cA (cN 2) (cV 2)) (cA (cN 1) (cM (cN 2) (cV 2)))) (cA (cN 3) (cM (cN 2) (cV 2)))))))) (cM (cM (cM (cA (cN 1) (cV 2)) (cR (cM (cM (cM (cA (cN 1) (cD (cB (cV 1) (cN 1)) (cN 2))) (cA (cN 1) (cM (cN 2) (cD (cB (cV 1) (cN 1)) (cN 2))))) (cV 2)) (cA (cN 2) (cV 2))))) (cA (cN 3) (cM (cN 2) (cV 2)))) (cA (cN 5) (cM (cN 2) (cV 2))))).
Definition QST_e87 := (cO (cR (cD (cA (cN (-5)) (cM (cM (cN 4) (cV 2)) (cA (cN 2) (cV 2)))) (cA (cN 3) (cM (cM (cN 4) (cV 2)) (cA (cN 2) (cV 2))))))).
Definition QST_e88 := (cM (cN (-2)) (cR (cD (cA (cN (-1)) (cW (cD (cB (cV 1) (cN 1)) (cN 2)) 4)) (cA (cN (-1)) (cM (cN 4) (cW (cD (cB (cV 1) (cN 1)) (cN 2)) 4)))))).
Definition QST_e89 := (cD (cR (cN 3)) (cR (cA (cN (-1)) (cM (cN 4) (cW (cD (cB (cV 1) (cN 1)) (cN 2)) 4))))).
Definition QST_e90 := (cO (cD (cR (cA (cN (-3)) (cM (cM (cN 4) (cD (cB (cV 1) (cN 1)) (cN 2))) (cA (cN 1) (cD (cB (cV 1) (cN 1)) (cN 2)))))) (cA (cN 1) (cM (cN 2) (cD (cB (cV 1) (cN 1)) (cN 2)))))).
Definition QST_e91 := (cD (cN 2) (cA (cN 1) (cM (cN 2) (cD (cB (cV 1) (cN 1)) (cN 2))))).
Definition QST_e92 := (cD (cM (cN (-2)) (cR (cD (cM (cM (cD (cB (cV 1) (cN 1)) (cN 2)) (cA (cN 2) (cD (cB (cV 1) (cN 1)) (cN 2)))) (cA (cN 3) (cM (cN 2) (cD (cB (cV 1) (cN 1)) (cN 2))))) (cA (cN 1) (cM (cN 2) (cD (cB (cV 1) (cN 1)) (cN 2))))))) (cA (cN 3) (cM (cN 2) (cD (cB (cV 1) (cN 1)) (cN 2))))).
Definition QST_e93 := (cD (cR (cA (cN 3) (cD (cN 6) (cA (cN 1) (cM (cN 2) (cD (cB (cV 1) (cN 1)) (cN 2))))))) (cA (cN 3) (cM (cN 2) (cD (cB (cV 1) (cN 1)) (cN 2))))).
Definition QST_e94 := (cD (cN 1) (cB (cN (-1)) (cM (cN 2) (cD (cB (cV 1) (cN 1)) (cN 2))))).
Definition QST_e95 := (cO (cD (cN 1) (cA (cV 2) (cM (cM (cN 2) (cD (cB (cV 1) (cN 1)) (cN 2))) (cV 2))))).
Definition QST_e96 := (cO (cD (cN 1) (cM (cA (cN 1) (cM (cN 2) (cV 2))) (cA (cV 2) (cM (cM (cN 2) (cD (cB (cV 1) (cN 1)) (cN 2))) (cV 2)))))).
Definition QST_e97 := (cO (cD (cR (cA (cN (-1)) (cW (cV 2) 4))) (cA (cV 2) (cM (cM (cN 2) (cD (cB (cV 1) (cN 1)) (cN 2))) (cV 2))))).
Definition QST_e98 := (cO (cD (cR (cB (cN 1) (cD (cN 2) (cA (cN 1) (cM (cN 2) (cV 2)))))) (cA (cV 2) (cM (cM (cN 2) (cD (cB (cV 1) (cN 1)) (cN 2))) (cV 2))))).
Definition QST_e99 := (cO (cD (cA (cA (cR (cM (cM (cM (cV 2) (cA (cN 1) (cV 2))) (cA (cN (-1)) (cM (cN 2) (cV 2)))) (cA (cN 1) (cM (cN 2) (cV 2))))) (cR (cD (cM (cV 2) (cA (cN (-1)) (cM (cN 2) (cV 2)))) (cA (cA (cN 1) (cM (cN 3) (cV 2))) (cM (cN 2) (cW (cV 2) 4)))))) (cR (cD (cM (cV 2) (cA (cN (-1)) (cM (cN 4) (cW (cV 2) 4)))) (cA (cN 1) (cV 2))))) (cR (cM (cM (cM (cV 2) (cA (cN 1) (cV 2))) (cA (cN 1) (cM (cN 2) (cV 2)))) (cA (cN 3) (cM (cN 2) (cV 2))))))).
Definition QST_e100 := (cD (cB (cB (cO (cR (cM (cM (cM (cV 2) (cA (cN 1) (cV 2))) (cA (cN (-1)) (cM (cN 2) (cV 2)))) (cA (cN 1) (cM (cN 2) (cV 2)))))) (cR (cD (cM (cV 2) (cA (cN (-1)) (cM (cN 2) (cV 2)))) (cA (cA (cN 1) (cM (cN 3) (cV 2))) (cM (cN 2) (cW (cV 2) 4)))))) (cR (cD (cM (cV 2) (cA (cN (-1)) (cM (cN 4) (cW (cV 2) 4)))) (cA (cN 1) (cV 2))))) (cM (cA (cN 1) (cM (cN 2) (cD (cB (cV 1) (cN 1)) (cN 2)))) (cR (cM (cM (cM (cV 2) (cA (cN 1) (cV 2))) (cA (cN 1) (cM (cN 2) (cV 2)))) (cA (cN 3) (cM (cN 2) (cV 2))))))).
Definition QST_e101 := (cD (cM (cN (-2)) (cR (cM (cD (cB (cV 1) (cN 1)) (cN 2)) (cA (cN 1) (cD (cB (cV 1) (cN 1)) (cN 2)))))) (cM (cA (cN 1) (cM (cN 2) (cD (cB (cV 1) (cN 1)) (cN 2)))) (cA (cV 2) (cM (cN 2) (cW (cV 2) 4))))).
Definition QST_e102 := (cD (cM (cM (cN (-2)) (cR (cD (cA (cN 1) (cD (cB (cV 1) (cN 1)) (cN 2))) (cA (cN 1) (cV 2))))) (cA (cA (cO (cM (cV 2) (cR (cD (cM (cD (cB (cV 1) (cN 1)) (cN 2)) (cV 2)) (cA (cN (-1)) (cV 2)))))) (cR (cM (cM (cD (cB (cV 1) (cN 1)) (cN 2)) (cA (cN (-1)) (cV 2))) (cV 2)))) (cR (cD (cM (cD (cB (cV 1) (cN 1)) (cN 2)) (cW (cV 2) 10)) (cA (cN (-1)) (cV 2)))))) (cM (cA (cN 1) (cM (cN 2) (cD (cB (cV 1) (cN 1)) (cN 2)))) (cW (cV 2) 3))).
Definition QST_e103 := (cD (cM (cN (-2)) (cR (cM (cM (cD (cB (cV 1) (cN 1)) (cN 2)) (cA (cN 1) (cD (cB (cV 1) (cN 1)) (cN 2)))) (cA (cN (-1)) (cM (cN 4) (cW (cV 2) 4)))))) (cM (cA (cN 1) (cM (cN 2) (cD (cB (cV 1) (cN 1)) (cN 2)))) (cA (cV 2) (cM (cN 2) (cW (cV 2) 4))))).
Definition QST_e104 := (cO (cD (cM (cR (cD (cB (cV 1) (cN 1)) (cN 2))) (cA (cM (cM (cM (cN 2) (cD (cB (cV 1) (cN 1)) (cN 2))) (cA (cN 1) (cV 2))) (cA (cA (cM (cN 2) (cR (cD (cM (cM (cM (cA (cN 1) (cD (cB (cV 1) (cN 1)) (cN 2))) (cA (cN (-1)) (cM (cN 2) (cV 2)))) (cA (cN 1) (cM (cN 2) (cV 2)))) (cA (cN 3) (cM (cN 2) (cV 2)))) (cA (cN 1) (cV 2))))) (cR (cM (cM (cM (cM (cA (cN 1) (cD (cB (cV 1) (cN 1)) (cN 2))) (cA (cN 1) (cV 2))) (cA (cN (-1)) (cM (cN 2) (cV 2)))) (cA (cN 1) (cM (cN 2) (cV 2)))) (cA (cN 3) (cM (cN 2) (cV 2)))))) (cM (cM (cN 2) (cV 2)) (cA (cR (cD (cM (cM (cM (cA (cN 1) (cD (cB (cV 1) (cN 1)) (cN 2))) (cA (cN (-1)) (cM (cN 2) (cV 2)))) (cA (cN 1) (cM (cN 2) (cV 2)))) (cA (cN 3) (cM (cN 2) (cV 2)))) (cA (cN 1) (cV 2)))) (cR (cM (cM (cM (cM (cA (cN 1) (cD (cB (cV 1) (cN 1)) (cN 2))) (cA (cN 1) (cV 2))) (cA (cN (-1)) (cM (cN 2) (cV 2)))) (cA (cN 1) (cM (cN 2) (cV 2)))) (cA (cN 3) (cM (cN 2) (cV 2))))))))) (cM (cA (cN 3) (cM (cN 2) (cV 2))) (cA (cA (cR (cD (cM (cM (cM (cA (cN 1) (cD (cB (cV 1) (cN 1)) (cN 2))) (cA (cN (-1)) (cM (cN 2) (cV 2)))) (cA (cN 1) (cM (cN 2) (cV 2)))) (cA (cN 3) (cM (cN 2) (cV 2)))) (cA (cN 1) (cV 2)))) (cR (cM (cM (cM (cM (cA (cN 1) (cD (cB (cV 1) (cN 1)) (cN 2))) (cA (cN 1) (cV 2))) (cA (cN (-1)) (cM (cN 2) (cV 2)))) (cA (cN 1) (cM (cN 2) (cV 2)))) (cA (cN 3) (cM (cN 2) (cV 2)))))) (cM (cV 2) (cA (cR (cD (cM (cM (cM (cA (cN 1) (cD (cB (cV 1) (cN 1)) (cN 2))) (cA (cN (-1)) (cM (cN 2) (cV 2)))) (cA (cN 1) (cM (cN 2) (cV 2)))) (cA (cN 3) (cM (cN 2) (cV 2)))) (cA (cN 1) (cV 2)))) (cM (cN 2) (cR (cM (cM (cM (cM (cA (cN 1) (cD (cB (cV 1) (cN 1)) (cN 2))) (cA (cN 1) (cV 2))) (cA (cN (-1)) (cM (cN 2) (cV 2)))) (cA (cN 1) (cM (cN 2) (cV 2)))) (cA (cN 3) (cM (cN 2) (cV 2)))))))))))) (cM (cM (cM (cA (cN 1) (cD (cB (cV 1) (cN 1)) (cN 2))) (cA (cN 1) (cM (cN 2) (cD (cB (cV 1) (cN 1)) (cN 2))))) (cW (cM (cA (cN 1) (cV 2)) (cA (cN 1) (cM (cN 2) (cV 2)))) 3)) (cA (cN 3) (cM (cN 2) (cV 2)))))).
Definition QST_e105 := (cD (cN 1) (cR (cM (cD (cB (cV 1) (cN 1)) (cN 2)) (cA (cN 1) (cM (cN 2) (cD (cB (cV 1) (cN 1)) (cN 2))))))).
Definition QST_e106 := (cD (cN 1) (cM (cR (cM (cD (cB (cV 1) (cN 1)) (cN 2)) (cA (cN 1) (cM (cN 2) (cD (cB (cV 1) (cN 1)) (cN 2)))))) (cV 2))).
Definition QST_e107 := (cD (cN 1) (cM (cR (cM (cD (cB (cV 1) (cN 1)) (cN 2)) (cA (cN 1) (cM (cN 2) (cD (cB (cV 1) (cN 1)) (cN 2)))))) (cA (cV 2) (cM (cN 2) (cW (cV 2) 4))))).
Definition QST_e108 := (cD (cR (cB (cN 1) (cD (cN 2) (cA (cN 1) (cM (cN 2) (cV 2)))))) (cV 2)).
Definition QST_e109 := (cD (cN 1) (cM (cV 2) (cR (cD (cM (cD (cB (cV 1) (cN 1)) (cN 2)) (cA (cN 1) (cM (cN 2) (cD (cB (cV 1) (cN 1)) (cN 2))))) (cA (cN (-1)) (cW (cV 2) 4)))))).
Definition QST_e110 := (cD (cR (cD (cA (cN (-1)) (cM (cN 2) (cV 2))) (cM (cA (cD (cB (cV 1) (cN 1)) (cN 2)) (cM (cN 2) (cW (cD (cB (cV 1) (cN 1)) (cN 2)) 4))) (cA (cN 1) (cM (cN 2) (cV 2)))))) (cV 2)).
Definition QST_e111 := (cD (cA (cA (cR (cM (cM (cM (cV 2) (cA (cN 1) (cV 2))) (cA (cN (-1)) (cM (cN 2) (cV 2)))) (cA (cN 1) (cM (cN 2) (cV 2))))) (cR (cD (cM (cV 2) (cA (cN (-1)) (cM (cN 2) (cV 2)))) (cA (cA (cN 1) (cM (cN 3) (cV 2))) (cM (cN 2) (cW (cV 2) 4)))))) (cR (cD (cM (cV 2) (cA (cN (-1)) (cM (cN 4) (cW (cV 2) 4)))) (cA (cN 1) (cV 2))))) (cR (cM (cM (cM (cV 2) (cA (cN 1) (cV 2))) (cA (cN 1) (cM (cN 2) (cV 2)))) (cA (cN 3) (cM (cN 2) (cV 2)))))).
Definition QST_e112 := (cD (cA (cA (cR (cM (cM (cM (cV 2) (cA (cN 1) (cV 2))) (cA (cN (-1)) (cM (cN 2) (cV 2)))) (cA (cN 1) (cM (cN 2) (cV 2))))) (cR (cD (cM (cV 2) (cA (cN (-1)) (cM (cN 2) (cV 2)))) (cA (cA (cN 1) (cM (cN 3) (cV 2))) (cM (cN 2) (cW (cV 2) 4)))))) (cR (cD (cM (cV 2) (cA (cN (-1)) (cM (cN 4) (cW (cV 2) 4)))) (cA (cN 1) (cV 2))))) (cR (cM (cM (cM (cM (cM (cD (cB (cV 1) (cN 1)) (cN 2)) (cA (cN 1) (cM (cN 2) (cD (cB (cV 1) (cN 1)) (cN 2))))) (cV 2)) (cA (cN 1) (cV 2))) (cA (cN 1) (cM (cN 2) (cV 2)))) (cA (cN 3) (cM (cN 2) (cV 2)))))).
Definition QST_e113 := (cD (cM (cA (cN 1) (cD (cB (cV 1) (cN 1)) (cN 2))) (cR (cD (cM (cD (cB (cV 1) (cN 1)) (cN 2)) (cA (cN (-1)) (cM (cN 2) (cD (cB (cV 1) (cN 1)) (cN 2))))) (cA (cA (cN 1) (cM (cN 3) (cD (cB (cV 1) (cN 1)) (cN 2)))) (cM (cN 2) (cW (cD (cB (cV 1) (cN 1)) (cN 2)) 4)))))) (cD (cB (cV 1) (cN 1)) (cN 2))).
Definition QST_e114 := (cD (cM (cA (cN 1) (cD (cB (cV 1) (cN 1)) (cN 2))) (cR (cD (cM (cD (cB (cV 1) (cN 1)) (cN 2)) (cA (cN (-1)) (cM (cN 2) (cD (cB (cV 1) (cN 1)) (cN 2))))) (cA (cA (cN 1) (cM (cN 3) (cD (cB (cV 1) (cN 1)) (cN 2)))) (cM (cN 2) (cW (cD (cB (cV 1) (cN 1)) (cN 2)) 4)))))) (cM (cD (cB (cV 1) (cN 1)) (cN 2)) (cV 2))).
Definition QST_e115 := (cD (cM (cA (cN 1) (cD (cB (cV 1) (cN 1)) (cN 2))) (cR (cD (cM (cD (cB (cV 1) (cN 1)) (cN 2)) (cA (cN (-1)) (cM (cN 2) (cD (cB (cV 1) (cN 1)) (cN 2))))) (cA (cA (cN 1) (cM (cN 3) (cD (cB (cV 1) (cN 1)) (cN 2)))) (cM (cN 2) (cW (cD (cB (cV 1) (cN 1)) (cN 2)) 4)))))) (cM (cM (cD (cB (cV 1) (cN 1)) (cN 2)) (cV 2)) (cA (cN 1) (cM (cN 2) (cV 2))))).
Definition QST_e116 := (cD (cN 1) (cR (cM (cA (cN 1) (cD (cB (cV 1) (cN 1)) (cN 2))) (cA (cN 1) (cM (cN 2) (cD (cB (cV 1) (cN 1)) (cN 2))))))).
Definition QST_e117 := (cD (cN 1) (cM (cR (cM (cA (cN 1) (cD (cB (cV 1) (cN 1)) (cN 2))) (cA (cN 1) (cM (cN 2) (cD (cB (cV 1) (cN 1)) (cN 2)))))) (cV 2))).
Definition QST_e118 := (cD (cN 1) (cM (cR (cA (cA (cN 1) (cM (cN 3) (cD (cB (cV 1) (cN 1)) (cN 2)))) (cM (cN 2) (cW (cD (cB (cV 1) (cN 1)) (cN 2)) 4)))) (cA (cV 2) (cM (cN 2) (cW (cV 2) 4))))).
Definition QST_e119 := (cA (cA (cA (cR (cD (cM (cA (cN (-1)) (cM (cN 2) (cD (cB (cV 1) (cN 1)) (cN 2)))) (cA (cN (-1)) (cV 2))) (cM (cM (cM (cD (cB (cV 1) (cN 1)) (cN 2)) (cA (cA (cN 1) (cM (cN 3) (cD (cB (cV 1) (cN 1)) (cN 2)))) (cM (cN 2) (cW (cD (cB (cV 1) (cN 1)) (cN 2)) 4)))) (cW (cV 2) 4)) (cA (cN 1) (cV 2))))) (cD (cM (cM (cD (cB (cV 1) (cN 1)) (cN 2)) (cA (cN (-1)) (cM (cN 2) (cD (cB (cV 1) (cN 1)) (cN 2))))) (cA (cN (-1)) (cV 2))) (cR (cM (cM (cM (cM (cD (cB (cV 1) (cN 1)) (cN 2)) (cA (cN 1) (cD (cB (cV 1) (cN 1)) (cN 2)))) (cA (cN (-1)) (cM (cN 4) (cW (cD (cB (cV 1) (cN 1)) (cN 2)) 4)))) (cA (cN (-1)) (cV 2))) (cA (cN 1) (cV 2)))))) (cD (cM (cD (cB (cV 1) (cN 1)) (cN 2)) (cA (cN (-1)) (cM (cN 2) (cD (cB (cV 1) (cN 1)) (cN 2))))) (cR (cD (cM (cM (cM (cM (cD (cB (cV 1) (cN 1)) (cN 2)) (cA (cN 1) (cD (cB (cV 1) (cN 1)) (cN 2)))) (cA (cN (-1)) (cM (cN 4) (cW (cD (cB (cV 1) (cN 1)) (cN 2)) 4)))) (cW (cV 2) 4)) (cA (cN 1) (cV 2))) (cA (cN (-1)) (cV 2)))))) (cD (cA (cN (-1)) (cV 2)) (cR (cD (cM (cM (cM (cD (cB (cV 1) (cN 1)) (cN 2)) (cA (cN 1) (cD (cB (cV 1) (cN 1)) (cN 2)))) (cA (cN 1) (cM (cN 2) (cD (cB (cV 1) (cN 1)) (cN 2))))) (cA (cN (-1)) (cW (cV 2) 4))) (cA (cN (-1)) (cM (cN 2) (cD (cB (cV 1) (cN 1)) (cN 2)))))))).
Definition QST_e120 := (cD (cA (cA (cB (cA (cA (cO (cM (cM (cM (cD (cB (cV 1) (cN 1)) (cN 2)) (cA (cN 1) (cD (cB (cV 1) (cN 1)) (cN 2)))) (cW (cA (cN 1) (cV 2)) 4)) (cR (cD (cM (cM (cD (cB (cV 1) (cN 1)) (cN 2)) (cA (cN 1) (cD (cB (cV 1) (cN 1)) (cN 2)))) (cA (cN (-1)) (cM (cN 2) (cV 2)))) (cA (cN (-1)) (cM (cN 2) (cD (cB (cV 1) (cN 1)) (cN 2)))))))) (cM (cM (cM (cM (cN 2) (cW (cD (cB (cV 1) (cN 1)) (cN 2)) 4)) (cA (cN 1) (cD (cB (cV 1) (cN 1)) (cN 2)))) (cW (cA (cN 1) (cV 2)) 4)) (cR (cD (cM (cM (cD (cB (cV 1) (cN 1)) (cN 2)) (cA (cN 1) (cD (cB (cV 1) (cN 1)) (cN 2)))) (cA (cN (-1)) (cM (cN 2) (cV 2)))) (cA (cN (-1)) (cM (cN 2) (cD (cB (cV 1) (cN 1)) (cN 2)))))))) (cM (cM (cA (cN 1) (cD (cB (cV 1) (cN 1)) (cN 2))) (cW (cA (cN 1) (cV 2)) 4)) (cR (cM (cM (cD (cB (cV 1) (cN 1)) (cN 2)) (cA (cA (cN (-1)) (cD (cB (cV 1) (cN 1)) (cN 2))) (cM (cN 2) (cW (cD (cB (cV 1) (cN 1)) (cN 2)) 4)))) (cA (cN (-1)) (cM (cN 2) (cV 2))))))) (cM (cD (cB (cV 1) (cN 1)) (cN 2)) (cR (cD (cM (cM (cM (cM (cD (cB (cV 1) (cN 1)) (cN 2)) (cW (cA (cN 1) (cD (cB (cV 1) (cN 1)) (cN 2))) 6)) (cW (cV 2) 4)) (cW (cA (cN 1) (cV 2)) 8)) (cA (cN (-1)) (cM (cN 2) (cV 2)))) (cA (cN (-1)) (cM (cN 2) (cD (cB (cV 1) (cN 1)) (cN 2)))))))) (cM (cM (cN 2) (cW (cD (cB (cV 1) (cN 1)) (cN 2)) 4)) (cR (cD (cM (cM (cM (cM (cD (cB (cV 1) (cN 1)) (cN 2)) (cW (cA (cN 1) (cD (cB (cV 1) (cN 1)) (cN 2))) 6)) (cW (cV 2) 4)) (cW (cA (cN 1) (cV 2)) 8)) (cA (cN (-1)) (cM (cN 2) (cV 2)))) (cA (cN (-1)) (cM (cN 2) (cD (cB (cV 1) (cN 1)) (cN 2)))))))) (cR (cM (cM (cM (cM (cM (cD (cB (cV 1) (cN 1)) (cN 2)) (cW (cA (cN 1) (cD (cB (cV 1) (cN 1)) (cN 2))) 6)) (cA (cN (-1)) (cM (cN 2) (cD (cB (cV 1) (cN 1)) (cN 2))))) (cW (cV 2) 4)) (cW (cA (cN 1) (cV 2)) 8)) (cA (cN (-1)) (cM (cN 2) (cV 2)))))) (cM (cM (cM (cM (cD (cB (cV 1) (cN 1)) (cN 2)) (cW (cA (cN 1) (cD (cB (cV 1) (cN 1)) (cN 2))) 4)) (cV 2)) (cW (cA (cN 1) (cV 2)) 6)) (cR (cM (cA (cN 1) (cM (cN 2) (cD (cB (cV 1) (cN 1)) (cN 2)))) (cA (cN 1) (cM (cN 2) (cV 2))))))).
Definition QST_e121 := (cD (cA (cA (cO (cR (cD (cM (cM (cA (cN 1) (cD (cB (cV 1) (cN 1)) (cN 2))) (cW (cV 2) 6)) (cA (cN 1) (cV 2))) (cA (cN (-1)) (cV 2))))) (cR (cD (cM (cM (cA (cN 1) (cD (cB (cV 1) (cN 1)) (cN 2))) (cW (cV 2) 10)) (cA (cN 1) (cV 2))) (cA (cN (-1)) (cV 2))))) (cR (cM (cM (cA (cN 1) (cD (cB (cV 1) (cN 1)) (cN 2))) (cV 2)) (cA (cN (-1)) (cW (cV 2) 4))))) (cM (cM (cM (cA (cN 1) (cD (cB (cV 1) (cN 1)) (cN 2))) (cR (cA (cN 1) (cM (cN 2) (cD (cB (cV 1) (cN 1)) (cN 2)))))) (cW (cV 2) 3)) (cA (cN 1) (cV 2)))).
Definition QST_e122 := (cD (cR (cD (cA (cN (-1)) (cM (cN 4) (cW (cV 2) 4))) (cA (cA (cN 1) (cM (cN 3) (cD (cB (cV 1) (cN 1)) (cN 2)))) (cM (cN 2) (cW (cD (cB (cV 1) (cN 1)) (cN 2)) 4))))) (cA (cV 2) (cM (cN 2) (cW (cV 2) 4)))).
Definition QST_e123 := (cD (cA (cA (cB (cA (cA (cB (cA (cA (cO (cR (cD (cM (cM (cM (cM (cD (cB (cV 1) (cN 1)) (cN 2)) (cV 2)) (cA (cN 1) (cV 2))) (cA (cN (-1)) (cM (cN 2) (cV 2)))) (cA (cN 1) (cM (cN 2) (cV 2)))) (cA (cN (-1)) (cM (cN 2) (cD (cB (cV 1) (cN 1)) (cN 2))))))) (cM (cN 2) (cR (cD (cM (cM (cM (cM (cW (cD (cB (cV 1) (cN 1)) (cN 2)) 6) (cV 2)) (cA (cN 1) (cV 2))) (cA (cN (-1)) (cM (cN 2) (cV 2)))) (cA (cN 1) (cM (cN 2) (cV 2)))) (cA (cN (-1)) (cM (cN 2) (cD (cB (cV 1) (cN 1)) (cN 2)))))))) (cR (cD (cM (cM (cM (cM (cA (cN (-1)) (cM (cN 2) (cD (cB (cV 1) (cN 1)) (cN 2)))) (cV 2)) (cA (cN 1) (cV 2))) (cA (cN (-1)) (cM (cN 2) (cV 2)))) (cA (cN 1) (cM (cN 2) (cV 2)))) (cD (cB (cV 1) (cN 1)) (cN 2))))) (cR (cD (cM (cM (cD (cB (cV 1) (cN 1)) (cN 2)) (cV 2)) (cA (cN (-1)) (cM (cN 2) (cV 2)))) (cM (cA (cN (-1)) (cM (cN 2) (cD (cB (cV 1) (cN 1)) (cN 2)))) (cA (cA (cN 1) (cM (cN 3) (cV 2))) (cM (cN 2) (cW (cV 2) 4))))))) (cM (cN 2) (cR (cD (cM (cM (cW (cD (cB (cV 1) (cN 1)) (cN 2)) 6) (cV 2)) (cA (cN (-1)) (cM (cN 2) (cV 2)))) (cM (cA (cN (-1)) (cM (cN 2) (cD (cB (cV 1) (cN 1)) (cN 2)))) (cA (cA (cN 1) (cM (cN 3) (cV 2))) (cM (cN 2) (cW (cV 2) 4)))))))) (cR (cD (cM (cM (cA (cN (-1)) (cM (cN 2) (cD (cB (cV 1) (cN 1)) (cN 2)))) (cV 2)) (cA (cN (-1)) (cM (cN 2) (cV 2)))) (cM (cD (cB (cV 1) (cN 1)) (cN 2)) (cA (cA (cN 1) (cM (cN 3) (cV 2))) (cM (cN 2) (cW (cV 2) 4))))))) (cR (cD (cM (cM (cD (cB (cV 1) (cN 1)) (cN 2)) (cV 2)) (cA (cN (-1)) (cM (cN 4) (cW (cV 2) 4)))) (cM (cA (cN (-1)) (cM (cN 2) (cD (cB (cV 1) (cN 1)) (cN 2)))) (cA (cN 1) (cV 2)))))) (cM (cM (cN 2) (cD (cB (cV 1) (cN 1)) (cN 2))) (cR (cD (cM (cM (cD (cB (cV 1) (cN 1)) (cN 2)) (cV 2)) (cA (cN (-1)) (cM (cN 4) (cW (cV 2) 4)))) (cM (cA (cN (-1)) (cM (cN 2) (cD (cB (cV 1) (cN 1)) (cN 2)))) (cA (cN 1) (cV 2))))))) (cR (cD (cM (cM (cA (cN (-1)) (cM (cN 2) (cD (cB (cV 1) (cN 1)) (cN 2)))) (cV 2)) (cA (cN (-1)) (cM (cN 4) (cW (cV 2) 4)))) (cM (cD (cB (cV 1) (cN 1)) (cN 2)) (cA (cN 1) (cV 2)))))) (cR (cM (cM (cM (cM (cM (cA (cN 1) (cD (cB (cV 1) (cN 1)) (cN 2))) (cA (cN 1) (cM (cN 2) (cD (cB (cV 1) (cN 1)) (cN 2))))) (cV 2)) (cA (cN 1) (cV 2))) (cA (cN 1) (cM (cN 2) (cV 2)))) (cA (cN 3) (cM (cN 2) (cV 2)))))).
Definition QST_e124 := (cD (cM (cR (cD (cD (cB (cV 1) (cN 1)) (cN 2)) (cA (cA (cN 3) (cM (cN 5) (cV 2))) (cM (cN 2) (cW (cV 2) 4))))) (cA (cA (cA (cA (cA (cM (cV 2) (cR (cD (cM (cM (cA (cN 1) (cD (cB (cV 1) (cN 1)) (cN 2))) (cA (cN 1) (cM (cN 2) (cD (cB (cV 1) (cN 1)) (cN 2))))) (cA (cN (-1)) (cM (cN 2) (cV 2)))) (cM (cD (cB (cV 1) (cN 1)) (cN 2)) (cA (cN 1) (cV 2)))))) (cM (cV 2) (cR (cD (cM (cM (cM (cD (cB (cV 1) (cN 1)) (cN 2)) (cA (cN 1) (cD (cB (cV 1) (cN 1)) (cN 2)))) (cA (cN 1) (cM (cN 2) (cD (cB (cV 1) (cN 1)) (cN 2))))) (cA (cN (-1)) (cM (cN 2) (cV 2)))) (cA (cN 1) (cV 2)))))) (cM (cM (cV 2) (cR (cD (cM (cM (cA (cN 1) (cD (cB (cV 1) (cN 1)) (cN 2))) (cA (cN 1) (cM (cN 2) (cD (cB (cV 1) (cN 1)) (cN 2))))) (cA (cN (-1)) (cM (cN 2) (cV 2)))) (cM (cD (cB (cV 1) (cN 1)) (cN 2)) (cA (cN 1) (cV 2)))))) (cA (cN 1) (cM (cN 2) (cV 2))))) (cM (cM (cV 2) (cR (cD (cM (cM (cM (cD (cB (cV 1) (cN 1)) (cN 2)) (cA (cN 1) (cD (cB (cV 1) (cN 1)) (cN 2)))) (cA (cN 1) (cM (cN 2) (cD (cB (cV 1) (cN 1)) (cN 2))))) (cA (cN (-1)) (cM (cN 2) (cV 2)))) (cA (cN 1) (cV 2))))) (cA (cN 1) (cM (cN 2) (cV 2))))) (cM (cM (cV 2) (cA (cN 1) (cM (cN 2) (cV 2)))) (cR (cD (cM (cM (cA (cN 1) (cD (cB (cV 1) (cN 1)) (cN 2))) (cA (cN 1) (cM (cN 2) (cD (cB (cV 1) (cN 1)) (cN 2))))) (cA (cA (cN (-1)) (cV 2)) (cM (cN 2) (cW (cV 2) 4)))) (cD (cB (cV 1) (cN 1)) (cN 2)))))) (cM (cM (cM (cD (cB (cV 1) (cN 1)) (cN 2)) (cV 2)) (cA (cN 1) (cM (cN 2) (cV 2)))) (cR (cD (cM (cM (cA (cN 1) (cD (cB (cV 1) (cN 1)) (cN 2))) (cA (cN 1) (cM (cN 2) (cD (cB (cV 1) (cN 1)) (cN 2))))) (cA (cA (cN (-1)) (cV 2)) (cM (cN 2) (cW (cV 2) 4)))) (cD (cB (cV 1) (cN 1)) (cN 2))))))) (cM (cM (cM (cW (cA (cN 1) (cD (cB (cV 1) (cN 1)) (cN 2))) 4) (cA (cN 1) (cM (cN 2) (cD (cB (cV 1) (cN 1)) (cN 2))))) (cV 2)) (cA (cN 1) (cM (cN 2) (cV 2))))).
Definition QST_e125 := (cD (cM (cA (cN 3) (cM (cN 2) (cD (cB (cV 1) (cN 1)) (cN 2)))) (cR (cD (cM (cD (cB (cV 1) (cN 1)) (cN 2)) (cA (cN 1) (cD (cB (cV 1) (cN 1)) (cN 2)))) (cA (cN 3) (cM (cM (cN 4) (cD (cB (cV 1) (cN 1)) (cN 2))) (cA (cN 2) (cD (cB (cV 1) (cN 1)) (cN 2)))))))) (cA (cN 1) (cD (cB (cV 1) (cN 1)) (cN 2)))).
Definition QST_e126 := (cD (cM (cA (cN 3) (cM (cN 2) (cD (cB (cV 1) (cN 1)) (cN 2)))) (cR (cD (cM (cD (cB (cV 1) (cN 1)) (cN 2)) (cA (cN 1) (cD (cB (cV 1) (cN 1)) (cN 2)))) (cA (cN 3) (cM (cM (cN 4) (cD (cB (cV 1) (cN 1)) (cN 2))) (cA (cN 2) (cD (cB (cV 1) (cN 1)) (cN 2)))))))) (cM (cA (cN 1) (cD (cB (cV 1) (cN 1)) (cN 2))) (cV 2))).
Definition QST_e127 := (cD (cR (cD (cM (cD (cB (cV 1) (cN 1)) (cN 2)) (cA (cN 3) (cM (cM (cN 4) (cD (cB (cV 1) (cN 1)) (cN 2))) (cA (cN 2) (cD (cB (cV 1) (cN 1)) (cN 2)))))) (cA (cN 1) (cD (cB (cV 1) (cN 1)) (cN 2))))) (cM (cM (cA (cN 1) (cM (cN 2) (cD (cB (cV 1) (cN 1)) (cN 2)))) (cV 2)) (cA (cN 1) (cM (cN 2) (cV 2))))).
Definition QST_e128 := (cD (cA (cA (cB (cB (cA (cB (cA (cA (cR (cD (cM (cD (cB (cV 1) (cN 1)) (cN 2)) (cA (cN (-1)) (cV 2))) (cM (cA (cN 1) (cD (cB (cV 1) (cN 1)) (cN 2))) (cV 2)))) (cM (cA (cN 1) (cM (cN 2) (cD (cB (cV 1) (cN 1)) (cN 2)))) (cR (cD (cM (cD (cB (cV 1) (cN 1)) (cN 2)) (cA (cN (-1)) (cV 2))) (cM (cA (cN 1) (cD (cB (cV 1) (cN 1)) (cN 2))) (cV 2)))))) (cM (cA (cN 1) (cM (cN 2) (cD (cB (cV 1) (cN 1)) (cN 2)))) (cR (cD (cM (cM (cD (cB (cV 1) (cN 1)) (cN 2)) (cA (cN 1) (cD (cB (cV 1) (cN 1)) (cN 2)))) (cA (cN (-1)) (cV 2))) (cV 2))))) (cM (cM (cA (cN 1) (cM (cN 2) (cD (cB (cV 1) (cN 1)) (cN 2)))) (cR (cD (cM (cD (cB (cV 1) (cN 1)) (cN 2)) (cA (cN 1) (cD (cB (cV 1) (cN 1)) (cN 2)))) (cM (cA (cN (-1)) (cV 2)) (cV 2))))) (cV 2))) (cM (cM (cA (cN 1) (cM (cN 2) (cD (cB (cV 1) (cN 1)) (cN 2)))) (cR (cD (cM (cD (cB (cV 1) (cN 1)) (cN 2)) (cA (cN 1) (cD (cB (cV 1) (cN 1)) (cN 2)))) (cM (cA (cN (-1)) (cV 2)) (cV 2))))) (cW (cV 2) 4))) (cR (cD (cM (cD (cB (cV 1) (cN 1)) (cN 2)) (cV 2)) (cM (cA (cN 1) (cD (cB (cV 1) (cN 1)) (cN 2))) (cA (cN (-1)) (cV 2)))))) (cM (cA (cN 1) (cM (cN 2) (cD (cB (cV 1) (cN 1)) (cN 2)))) (cR (cD (cM (cD (cB (cV 1) (cN 1)) (cN 2)) (cV 2)) (cM (cA (cN 1) (cD (cB (cV 1) (cN 1)) (cN 2))) (cA (cN (-1)) (cV 2))))))) (cM (cM (cA (cN 1) (cM (cN 2) (cD (cB (cV 1) (cN 1)) (cN 2)))) (cV 2)) (cR (cD (cM (cD (cB (cV 1) (cN 1)) (cN 2)) (cV 2)) (cM (cA (cN 1) (cD (cB (cV 1) (cN 1)) (cN 2))) (cA (cN (-1)) (cV 2))))))) (cR (cD (cM (cD (cB (cV 1) (cN 1)) (cN 2)) (cW (cV 2) 6)) (cM (cA (cN 1) (cD (cB (cV 1) (cN 1)) (cN 2))) (cA (cN (-1)) (cV 2)))))) (cM (cA (cN 1) (cD (cB (cV 1) (cN 1)) (cN 2))) (cR (cM (cM (cA (cN 3) (cM (cM (cN 4) (cD (cB (cV 1) (cN 1)) (cN 2))) (cA (cN 2) (cD (cB (cV 1) (cN 1)) (cN 2))))) (cV 2)) (cA (cN 1) (cV 2)))))).
Definition QST_e129 := (cD (cA (cA (cA (cA (cA (cR (cM (cM (cM (cM (cA (cN 1) (cM (cN 2) (cD (cB (cV 1) (cN 1)) (cN 2)))) (cV 2)) (cA (cN 1) (cV 2))) (cA (cN (-1)) (cM (cN 2) (cV 2)))) (cA (cN 1) (cM (cN 2) (cV 2))))) (cR (cM (cM (cM (cM (cW (cA (cN 1) (cM (cN 2) (cD (cB (cV 1) (cN 1)) (cN 2)))) 6) (cV 2)) (cA (cN 1) (cV 2))) (cA (cN (-1)) (cM (cN 2) (cV 2)))) (cA (cN 1) (cM (cN 2) (cV 2)))))) (cR (cM (cM (cM (cM (cM (cW (cA (cN 1) (cD (cB (cV 1) (cN 1)) (cN 2))) 4) (cW (cA (cN 1) (cM (cN 2) (cD (cB (cV 1) (cN 1)) (cN 2)))) 6)) (cV 2)) (cA (cN 1) (cV 2))) (cA (cN (-1)) (cM (cN 2) (cV 2)))) (cA (cN 1) (cM (cN 2) (cV 2)))))) (cM (cV 2) (cR (cM (cM (cM (cM (cM (cW (cA (cN 1) (cD (cB (cV 1) (cN 1)) (cN 2))) 4) (cW (cA (cN 1) (cM (cN 2) (cD (cB (cV 1) (cN 1)) (cN 2)))) 6)) (cV 2)) (cA (cN 1) (cV 2))) (cA (cN (-1)) (cM (cN 2) (cV 2)))) (cA (cN 1) (cM (cN 2) (cV 2))))))) (cR (cM (cM (cM (cM (cA (cN 1) (cM (cN 2) (cD (cB (cV 1) (cN 1)) (cN 2)))) (cW (cV 2) 6)) (cA (cN 1) (cV 2))) (cA (cN (-1)) (cM (cN 2) (cV 2)))) (cA (cN 1) (cM (cN 2) (cV 2)))))) (cR (cM (cM (cM (cA (cN 1) (cV 2)) (cA (cN (-1)) (cM (cN 2) (cV 2)))) (cA (cN 1) (cM (cN 2) (cV 2)))) (cW (cA (cV 2) (cM (cM (cN 2) (cD (cB (cV 1) (cN 1)) (cN 2))) (cV 2))) 6)))) (cR (cD (cM (cM (cM (cM (cW (cA (cN 1) (cD (cB (cV 1) (cN 1)) (cN 2))) 6) (cW (cA (cN 1) (cM (cN 2) (cD (cB (cV 1) (cN 1)) (cN 2)))) 4)) (cA (cN 3) (cM (cN 2) (cD (cB (cV 1) (cN 1)) (cN 2))))) (cW (cA (cN 1) (cM (cN 2) (cV 2))) 4)) (cW (cA (cV 2) (cW (cV 2) 4)) 6)) (cD (cB (cV 1) (cN 1)) (cN 2))))).
Definition QST_e130 := (cD (cM (cA (cN 3) (cM (cN 2) (cD (cB (cV 1) (cN 1)) (cN 2)))) (cA (cA (cR (cM (cM (cA (cN 1) (cV 2)) (cA (cN (-1)) (cM (cN 2) (cV 2)))) (cA (cN 1) (cM (cN 2) (cV 2))))) (cM (cN 2) (cR (cA (cA (cN (-4)) (cM (cN 4) (cV 2))) (cD (cN 3) (cA (cN 1) (cV 2))))))) (cM (cM (cN 2) (cV 2)) (cA (cR (cM (cM (cA (cN 1) (cV 2)) (cA (cN (-1)) (cM (cN 2) (cV 2)))) (cA (cN 1) (cM (cN 2) (cV 2))))) (cR (cA (cA (cN (-4)) (cM (cN 4) (cV 2))) (cD (cN 3) (cA (cN 1) (cV 2))))))))) (cM (cA (cN 1) (cM (cN 2) (cV 2))) (cR (cD (cM (cM (cM (cM (cM (cA (cN 1) (cD (cB (cV 1) (cN 1)) (cN 2))) (cA (cN 1) (cM (cN 2) (cD (cB (cV 1) (cN 1)) (cN 2))))) (cA (cN 3) (cM (cN 2) (cD (cB (cV 1) (cN 1)) (cN 2))))) (cA (cN 1) (cV 2))) (cA (cN 1) (cM (cN 2) (cV 2)))) (cA (cN 3) (cM (cN 2) (cV 2)))) (cD (cB (cV 1) (cN 1)) (cN 2)))))).
Definition QST_e131 := (cO (cD (cR (cN 6)) (cR (cM (cM (cM (cA (cN (-1)) (cV 2)) (cV 2)) (cA (cN (-1)) (cM (cN 2) (cV 2)))) (cA (cN 1) (cM (cN 2) (cV 2))))))).
Definition QST_e132 := (cO (cD (cR (cN 2)) (cM (cA (cN 1) (cM (cN 2) (cD (cB (cV 1) (cN 1)) (cN 2)))) (cR (cM (cA (cN (-1)) (cV 2)) (cV 2)))))).
Definition QST_e133 := (cO (cD (cR (cN 6)) (cM (cA (cN 1) (cM (cN 2) (cD (cB (cV 1) (cN 1)) (cN 2)))) (cR (cM (cM (cM (cA (cN (-1)) (cV 2)) (cV 2)) (cA (cN (-1)) (cM (cN 2) (cV 2)))) (cA (cN 1) (cM (cN 2) (cV 2)))))))).
Definition QST_e134 := (cO (cD (cM (cA (cN 1) (cV 2)) (cR (cD (cM (cA (cN (-2)) (cV 2)) (cV 2)) (cA (cN (-1)) (cW (cV 2) 4))))) (cV 2))).
Definition QST_e135 := (cO (cD (cM (cA (cN 1) (cV 2)) (cR (cA (cB (cN 3) (cD (cN 30) (cA (cN 1) (cV 2)))) (cD (cN 36) (cA (cN 1) (cM (cN 2) (cV 2))))))) (cM (cA (cN (-1)) (cV 2)) (cV 2)))).
Definition QST_e136 := (cD (cB (cA (cN 2) (cV 2)) (cW (cV 2) 4)) (cM (cA (cN 1) (cM (cN 2) (cD (cB (cV 1) (cN 1)) (cN 2)))) (cR (cM (cM (cM (cA (cN (-2)) (cV 2)) (cA (cN (-1)) (cV 2))) (cV 2)) (cA (cN 1) (cV 2)))))).
Definition QST_e137 := (cO (cD (cM (cA (cN 1) (cV 2)) (cR (cA (cB (cN 3) (cD (cN 30) (cA (cN 1) (cV 2)))) (cD (cN 36) (cA (cN 1) (cM (cN 2) (cV 2))))))) (cM (cM (cA (cN 1) (cM (cN 2) (cD (cB (cV 1) (cN 1)) (cN 2)))) (cA (cN (-1)) (cV 2))) (cV 2)))).
Definition QST_e138 := (cD (cN (-3)) (cM (cA (cN 1) (cM (cN 2) (cD (cB (cV 1) (cN 1)) (cN 2)))) (cA (cV 2) (cM (cN 2) (cW (cV 2) 4))))).
Definition QST_e139 := (cD (cB (cA (cN (-9)) (cM (cN 13) (cW (cV 2) 4))) (cM (cN 4) (cW (cV 2) 8))) (cM (cV 2) (cR (cA (cN (-9)) (cM (cW (cV 2) 4) (cW (cB (cN 7) (cM (cN 4) (cW (cV 2) 4))) 4)))))).
Definition QST_e140 := (cO (cD (cM (cR (cN 3)) (cA (cA (cN (-3)) (cV 2)) (cM (cN 2) (cW (cV 2) 4)))) (cM (cV 2) (cR (cM (cM (cM (cA (cN (-1)) (cV 2)) (cA (cN 1) (cV 2))) (cA (cN 1) (cM (cN 2) (cV 2)))) (cA (cN 3) (cM (cN 2) (cV 2)))))))).
Definition QST_e141 := (cO (cD (cR (cN 6)) (cR (cM (cM (cM (cV 2) (cA (cN 1) (cV 2))) (cA (cN 1) (cM (cN 2) (cV 2)))) (cA (cN 3) (cM (cN 2) (cV 2))))))).
Definition QST_e142 := (cD (cB (cB (cD (cM (cN (-3)) (cA (cN 3) (cM (cM (cN 4) (cA (cN (-2)) (cV 2))) (cV 2)))) (cR (cD (cM (cM (cM (cM (cM (cM (cA (cN 1) (cM (cN 2) (cD (cB (cV 1) (cN 1)) (cN 2)))) (cW (cV 2) 4)) (cA (cN 1) (cV 2))) (cA (cN (-3)) (cM (cN 2) (cV 2)))) (cA (cN (-1)) (cM (cN 2) (cV 2)))) (cA (cN 1) (cM (cN 2) (cV 2)))) (cA (cN 3) (cM (cN 2) (cV 2)))) (cA (cN (-1)) (cV 2))))) (cD (cM (cN 6) (cR (cD (cA (cB (cN 3) (cM (cN 5) (cV 2))) (cM (cN 2) (cW (cV 2) 4))) (cM (cA (cN 1) (cM (cN 2) (cD (cB (cV 1) (cN 1)) (cN 2)))) (cA (cA (cA (cB (cN (-3)) (cM (cN 5) (cV 2))) (cM (cN 10) (cW (cV 2) 4))) (cM (cN 20) (cW (cV 2) 6))) (cM (cN 8) (cW (cV 2) 8))))))) (cV 2))) (cD (cM (cM (cA (cN (-1)) (cV 2)) (cA (cN (-3)) (cM (cN 2) (cV 2)))) (cA (cN (-1)) (cM (cN 2) (cV 2)))) (cR (cM (cA (cN 1) (cM (cN 2) (cD (cB (cV 1) (cN 1)) (cN 2)))) (cA (cN (-9)) (cM (cW (cV 2) 4) (cW (cB (cN 7) (cM (cN 4) (cW (cV 2) 4))) 4))))))) (cR (cA (cN 1) (cM (cN 2) (cD (cB (cV 1) (cN 1)) (cN 2)))))).
Definition QST_e143 := (cD (cM (cR (cN 3)) (cB (cA (cD (cA (cN (-1)) (cM (cB (cN 3) (cM (cN 2) (cV 2))) (cV 2))) (cM (cW (cA (cN 1) (cV 2)) 3) (cR (cM (cM (cM (cA (cN 1) (cM (cN 2) (cD (cB (cV 1) (cN 1)) (cN 2)))) (cA (cN (-1)) (cV 2))) (cA (cN 1) (cM (cN 2) (cV 2)))) (cA (cN 3) (cM (cN 2) (cV 2))))))) (cD (cB (cA (cN (-3)) (cM (cN 9) (cV 2))) (cM (cN 6) (cW (cV 2) 4))) (cR (cM (cM (cM (cM (cM (cA (cN 1) (cM (cN 2) (cD (cB (cV 1) (cN 1)) (cN 2)))) (cA (cN (-1)) (cV 2))) (cW (cV 2) 4)) (cW (cA (cN 1) (cV 2)) 6)) (cA (cN 1) (cM (cN 2) (cV 2)))) (cA (cN 3) (cM (cN 2) (cV 2))))))) (cD (cM (cN 6) (cR (cD (cA (cN (-1)) (cV 2)) (cM (cM (cA (cN 1) (cM (cN 2) (cD (cB (cV 1) (cN 1)) (cN 2)))) (cW (cA (cN 1) (cV 2)) 6)) (cA (cN 3) (cM (cM (cN 4) (cV 2)) (cA (cN 2) (cV 2)))))))) (cV 2)))) (cR (cA (cN 1) (cM (cN 2) (cD (cB (cV 1) (cN 1)) (cN 2)))))).
Definition QST_e144 := (cO (cD (cR (cN 6)) (cM (cA (cN 1) (cM (cN 2) (cD (cB (cV 1) (cN 1)) (cN 2)))) (cR (cM (cM (cM (cV 2) (cA (cN 1) (cV 2))) (cA (cN 1) (cM (cN 2) (cV 2)))) (cA (cN 3) (cM (cN 2) (cV 2)))))))).
Definition QST_e145 := (cD (cB (cB (cA (cB (cA (cM (cN (-6)) (cR (cD (cM (cM (cM (cM (cA (cN (-1)) (cV 2)) (cV 2)) (cA (cN 2) (cV 2))) (cA (cN (-1)) (cM (cN 2) (cV 2)))) (cA (cN 3) (cM (cN 2) (cV 2)))) (cA (cN 1) (cM (cN 2) (cV 2)))))) (cM (cN 9) (cR (cD (cM (cM (cM (cW (cV 2) 6) (cA (cN 2) (cV 2))) (cA (cN (-1)) (cM (cN 2) (cV 2)))) (cA (cN 3) (cM (cN 2) (cV 2)))) (cM (cA (cN (-1)) (cV 2)) (cA (cN 1) (cM (cN 2) (cV 2)))))))) (cM (cN 9) (cR (cD (cM (cM (cM (cW (cV 2) 10) (cA (cN 2) (cV 2))) (cA (cN (-1)) (cM (cN 2) (cV 2)))) (cA (cN 3) (cM (cN 2) (cV 2)))) (cM (cA (cN (-1)) (cV 2)) (cA (cN 1) (cM (cN 2) (cV 2)))))))) (cM (cN 4) (cR (cD (cM (cM (cM (cM (cW (cV 2) 6) (cA (cN 2) (cV 2))) (cA (cN (-1)) (cM (cN 2) (cV 2)))) (cA (cN 1) (cM (cN 2) (cV 2)))) (cA (cN 3) (cM (cN 2) (cV 2)))) (cA (cN (-1)) (cV 2)))))) (cM (cN 3) (cR (cD (cM (cM (cM (cM (cW (cV 2) 10) (cA (cN 2) (cV 2))) (cA (cN (-1)) (cM (cN 2) (cV 2)))) (cA (cN 1) (cM (cN 2) (cV 2)))) (cA (cN 3) (cM (cN 2) (cV 2)))) (cA (cN (-1)) (cV 2)))))) (cR (cD (cM (cM (cM (cM (cW (cV 2) 14) (cA (cN 2) (cV 2))) (cA (cN (-1)) (cM (cN 2) (cV 2)))) (cA (cN 1) (cM (cN 2) (cV 2)))) (cA (cN 3) (cM (cN 2) (cV 2)))) (cA (cN (-1)) (cV 2))))) (cM (cM (cM (cM (cV 2) (cW (cA (cN 1) (cV 2)) 3)) (cA (cN 2) (cV 2))) (cR (cA (cN 1) (cM (cN 2) (cV 2))))) (cA (cN 3) (cM (cN 2) (cV 2))))).
Definition QST_e146 := (cD (cB (cB (cA (cB (cA (cM (cN (-6)) (cR (cD (cM (cM (cM (cM (cA (cN (-1)) (cV 2)) (cV 2)) (cA (cN 2) (cV 2))) (cA (cN (-1)) (cM (cN 2) (cV 2)))) (cA (cN 3) (cM (cN 2) (cV 2)))) (cA (cN 1) (cM (cN 2) (cV 2)))))) (cM (cN 9) (cR (cD (cM (cM (cM (cW (cV 2) 6) (cA (cN 2) (cV 2))) (cA (cN (-1)) (cM (cN 2) (cV 2)))) (cA (cN 3) (cM (cN 2) (cV 2)))) (cM (cA (cN (-1)) (cV 2)) (cA (cN 1) (cM (cN 2) (cV 2)))))))) (cM (cN 9) (cR (cD (cM (cM (cM (cW (cV 2) 10) (cA (cN 2) (cV 2))) (cA (cN (-1)) (cM (cN 2) (cV 2)))) (cA (cN 3) (cM (cN 2) (cV 2)))) (cM (cA (cN (-1)) (cV 2)) (cA (cN 1) (cM (cN 2) (cV 2)))))))) (cM (cN 4) (cR (cD (cM (cM (cM (cM (cW (cV 2) 6) (cA (cN 2) (cV 2))) (cA (cN (-1)) (cM (cN 2) (cV 2)))) (cA (cN 1) (cM (cN 2) (cV 2)))) (cA (cN 3) (cM (cN 2) (cV 2)))) (cA (cN (-1)) (cV 2)))))) (cM (cN 3) (cR (cD (cM (cM (cM (cM (cW (cV 2) 10) (cA (cN 2) (cV 2))) (cA (cN (-1)) (cM (cN 2) (cV 2)))) (cA (cN 1) (cM (cN 2) (cV 2)))) (cA (cN 3) (cM (cN 2) (cV 2)))) (cA (cN (-1)) (cV 2)))))) (cR (cD (cM (cM (cM (cM (cW (cV 2) 14) (cA (cN 2) (cV 2))) (cA (cN (-1)) (cM (cN 2) (cV 2)))) (cA (cN 1) (cM (cN 2) (cV 2)))) (cA (cN 3) (cM (cN 2) (cV 2)))) (cA (cN (-1)) (cV 2))))) (cM (cM (cM (cM (cM (cA (cN 1) (cM (cN 2) (cD (cB (cV 1) (cN 1)) (cN 2)))) (cV 2)) (cW (cA (cN 1) (cV 2)) 3)) (cA (cN 2) (cV 2))) (cR (cA (cN 1) (cM (cN 2) (cV 2))))) (cA (cN 3) (cM (cN 2) (cV 2))))).
Definition QST_e147 := (cO (cD (cR (cA (cB (cN 2) (cD (cN 6) (cA (cN 1) (cV 2)))) (cD (cN 4) (cA (cN 1) (cM (cN 2) (cV 2)))))) (cA (cV 2) (cM (cM (cN 2) (cD (cB (cV 1) (cN 1)) (cN 2))) (cV 2))))).
Definition QST_e148 := (cD (cB (cB (cB (cB (cO (cR (cM (cM (cM (cV 2) (cA (cN 2) (cV 2))) (cA (cN (-1)) (cM (cN 2) (cV 2)))) (cA (cN 3) (cM (cN 2) (cV 2)))))) (cM (cN 2) (cR (cM (cM (cM (cW (cV 2) 6) (cA (cN 2) (cV 2))) (cA (cN (-1)) (cM (cN 2) (cV 2)))) (cA (cN 3) (cM (cN 2) (cV 2))))))) (cM (cN 18) (cR (cD (cM (cV 2) (cA (cN (-1)) (cM (cN 2) (cV 2)))) (cA (cA (cN 6) (cM (cN 7) (cV 2))) (cM (cN 2) (cW (cV 2) 4))))))) (cM (cN 2) (cR (cD (cM (cV 2) (cA (cN (-3)) (cM (cM (cN 4) (cV 2)) (cA (cN 1) (cV 2))))) (cA (cN 2) (cV 2)))))) (cM (cM (cN 4) (cV 2)) (cA (cM (cN 3) (cR (cD (cM (cV 2) (cA (cN (-1)) (cM (cN 2) (cV 2)))) (cA (cA (cN 6) (cM (cN 7) (cV 2))) (cM (cN 2) (cW (cV 2) 4)))))) (cR (cD (cM (cV 2) (cA (cN (-3)) (cM (cM (cN 4) (cV 2)) (cA (cN 1) (cV 2))))) (cA (cN 2) (cV 2))))))) (cM (cA (cN 3) (cM (cN 2) (cV 2))) (cR (cM (cM (cM (cV 2) (cA (cN 2) (cV 2))) (cA (cN 1) (cM (cN 2) (cV 2)))) (cA (cN 5) (cM (cN 2) (cV 2))))))).
Definition QST_e149 := (cD (cB (cB (cB (cB (cO (cR (cM (cM (cM (cV 2) (cA (cN 2) (cV 2))) (cA (cN (-1)) (cM (cN 2) (cV 2)))) (cA (cN 3) (cM (cN 2) (cV 2)))))) (cM (cN 2) (cR (cM (cM (cM (cW (cV 2) 6) (cA (cN 2) (cV 2))) (cA (cN (-1)) (cM (cN 2) (cV 2)))) (cA (cN 3) (cM (cN 2) (cV 2))))))) (cM (cN 18) (cR (cD (cM (cV 2) (cA (cN (-1)) (cM (cN 2) (cV 2)))) (cA (cA (cN 6) (cM (cN 7) (cV 2))) (cM (cN 2) (cW (cV 2) 4))))))) (cM (cN 2) (cR (cD (cM (cV 2) (cA (cN (-3)) (cM (cM (cN 4) (cV 2)) (cA (cN 1) (cV 2))))) (cA (cN 2) (cV 2)))))) (cM (cM (cN 4) (cV 2)) (cA (cM (cN 3) (cR (cD (cM (cV 2) (cA (cN (-1)) (cM (cN 2) (cV 2)))) (cA (cA (cN 6) (cM (cN 7) (cV 2))) (cM (cN 2) (cW (cV 2) 4)))))) (cR (cD (cM (cV 2) (cA (cN (-3)) (cM (cM (cN 4) (cV 2)) (cA (cN 1) (cV 2))))) (cA (cN 2) (cV 2))))))) (cM (cM (cA (cN 1) (cM (cN 2) (cD (cB (cV 1) (cN 1)) (cN 2)))) (cA (cN 3) (cM (cN 2) (cV 2)))) (cR (cM (cM (cM (cV 2) (cA (cN 2) (cV 2))) (cA (cN 1) (cM (cN 2) (cV 2)))) (cA (cN 5) (cM (cN 2) (cV 2))))))).
Definition QST_e150 := (cD (cM (cM (cN (-2)) (cR (cN 2))) (cR (cD (cM (cM (cD (cB (cV 1) (cN 1)) (cN 2)) (cA (cN 1) (cD (cB (cV 1) (cN 1)) (cN 2)))) (cV 2)) (cA (cN (-1)) (cV 2))))) (cA (cV 2) (cM (cM (cN 2) (cD (cB (cV 1) (cN 1)) (cN 2))) (cV 2)))).
Definition QST_e151 := (cD (cM (cM (cN (-2)) (cR (cN 6))) (cR (cD (cA (cD (cB (cV 1) (cN 1)) (cN 2)) (cW (cD (cB (cV 1) (cN 1)) (cN 2)) 4)) (cA (cB (cB (cV 2) (cW (cV 2) 4)) (cM (cN 4) (cW (cV 2) 6))) (cM (cN 4) (cW (cV 2) 8)))))) (cA (cN 1) (cM (cN 2) (cD (cB (cV 1) (cN 1)) (cN 2))))).
Definition QST_e152 := (cO (cD (cM (cR (cD (cD (cB (cV 1) (cN 1)) (cN 2)) (cM (cA (cN 1) (cM (cN 2) (cD (cB (cV 1) (cN 1)) (cN 2)))) (cA (cN (-1)) (cW (cV 2) 4))))) (cA (cA (cA (cA (cB (cB (cB (cB (cA (cM (cN 2) (cR (cD (cM (cA (cN 1) (cD (cB (cV 1) (cN 1)) (cN 2))) (cV 2)) (cM (cA (cN 1) (cM (cN 2) (cD (cB (cV 1) (cN 1)) (cN 2)))) (cA (cN (-2)) (cV 2)))))) (cM (cN 2) (cR (cD (cM (cM (cA (cN 1) (cD (cB (cV 1) (cN 1)) (cN 2))) (cA (cN 1) (cM (cN 2) (cD (cB (cV 1) (cN 1)) (cN 2))))) (cV 2)) (cA (cN (-2)) (cV 2)))))) (cR (cD (cM (cA (cN 1) (cD (cB (cV 1) (cN 1)) (cN 2))) (cW (cV 2) 6)) (cM (cA (cN 1) (cM (cN 2) (cD (cB (cV 1) (cN 1)) (cN 2)))) (cA (cN (-2)) (cV 2)))))) (cR (cD (cM (cM (cA (cN 1) (cD (cB (cV 1) (cN 1)) (cN 2))) (cA (cN 1) (cM (cN 2) (cD (cB (cV 1) (cN 1)) (cN 2))))) (cW (cV 2) 6)) (cA (cN (-2)) (cV 2))))) (cM (cN 2) (cR (cD (cM (cA (cN 1) (cD (cB (cV 1) (cN 1)) (cN 2))) (cW (cV 2) 10)) (cM (cA (cN 1) (cM (cN 2) (cD (cB (cV 1) (cN 1)) (cN 2)))) (cA (cN (-2)) (cV 2))))))) (cM (cN 2) (cR (cD (cM (cM (cA (cN 1) (cD (cB (cV 1) (cN 1)) (cN 2))) (cA (cN 1) (cM (cN 2) (cD (cB (cV 1) (cN 1)) (cN 2))))) (cW (cV 2) 10)) (cA (cN (-2)) (cV 2)))))) (cR (cD (cM (cA (cN 1) (cD (cB (cV 1) (cN 1)) (cN 2))) (cW (cV 2) 14)) (cM (cA (cN 1) (cM (cN 2) (cD (cB (cV 1) (cN 1)) (cN 2)))) (cA (cN (-2)) (cV 2)))))) (cR (cD (cM (cM (cA (cN 1) (cD (cB (cV 1) (cN 1)) (cN 2))) (cA (cN 1) (cM (cN 2) (cD (cB (cV 1) (cN 1)) (cN 2))))) (cW (cV 2) 14)) (cA (cN (-2)) (cV 2))))) (cM (cN 4) (cR (cD (cM (cM (cM (cA (cN 1) (cD (cB (cV 1) (cN 1)) (cN 2))) (cA (cN (-2)) (cV 2))) (cV 2)) (cW (cA (cN 1) (cV 2)) 4)) (cA (cN 1) (cM (cN 2) (cD (cB (cV 1) (cN 1)) (cN 2)))))))) (cM (cM (cN 4) (cD (cB (cV 1) (cN 1)) (cN 2))) (cR (cD (cM (cM (cM (cA (cN 1) (cD (cB (cV 1) (cN 1)) (cN 2))) (cA (cN (-2)) (cV 2))) (cV 2)) (cW (cA (cN 1) (cV 2)) 4)) (cA (cN 1) (cM (cN 2) (cD (cB (cV 1) (cN 1)) (cN 2))))))))) (cM (cM (cA (cN 1) (cD (cB (cV 1) (cN 1)) (cN 2))) (cV 2)) (cA (cN 1) (cV 2))))).
Definition QST_e153 := (cD (cM (cM (cM (cN 2) (cR (cN 3))) (cB (cA (cN 3) (cV 2)) (cM (cN 2) (cW (cV 2) 4)))) (cR (cD (cM (cD (cB (cV 1) (cN 1)) (cN 2)) (cA (cN 1) (cD (cB (cV 1) (cN 1)) (cN 2)))) (cA (cB (cB (cA (cN 3) (cM (cN 4) (cV 2))) (cM (cN 7) (cW (cV 2) 4))) (cM (cN 4) (cW (cV 2) 6))) (cM (cN 4) (cW (cV 2) 8)))))) (cA (cV 2) (cM (cM (cN 2) (cD (cB (cV 1) (cN 1)) (cN 2))) (cV 2)))).
Definition QST_e154 := (cD (cM (cM (cN (-2)) (cA (cN 1) (cD (cB (cV 1) (cN 1)) (cN 2)))) (cA (cA (cM (cN 9) (cR (cD (cA (cN (-1)) (cV 2)) (cA (cB (cB (cN 3) (cM (cN 2) (cV 2))) (cM (cN 12) (cW (cV 2) 4))) (cM (cN 8) (cW (cV 2) 6)))))) (cM (cN 6) (cR (cA (cA (cN (-1)) (cM (cV 2) (cA (cN (-3)) (cM (cN 2) (cV 2))))) (cD (cN 2) (cA (cN (-1)) (cM (cN 2) (cV 2)))))))) (cM (cV 2) (cA (cM (cN (-3)) (cA (cR (cD (cA (cN 1) (cM (cN 2) (cV 2))) (cA (cB (cA (cN (-3)) (cM (cN 11) (cV 2))) (cM (cN 12) (cW (cV 2) 4))) (cM (cN 4) (cW (cV 2) 6))))) (cM (cN 2) (cR (cD (cA (cN (-1)) (cV 2)) (cA (cB (cB (cN 3) (cM (cN 2) (cV 2))) (cM (cN 12) (cW (cV 2) 4))) (cM (cN 8) (cW (cV 2) 6)))))))) (cM (cV 2) (cA (cB (cM (cN 11) (cR (cD (cA (cN 1) (cM (cN 2) (cV 2))) (cA (cB (cA (cN (-3)) (cM (cN 11) (cV 2))) (cM (cN 12) (cW (cV 2) 4))) (cM (cN 4) (cW (cV 2) 6)))))) (cM (cN 36) (cR (cD (cA (cN (-1)) (cV 2)) (cA (cB (cB (cN 3) (cM (cN 2) (cV 2))) (cM (cN 12) (cW (cV 2) 4))) (cM (cN 8) (cW (cV 2) 6))))))) (cM (cM (cN 4) (cV 2)) (cA (cA (cM (cN (-3)) (cR (cD (cA (cN 1) (cM (cN 2) (cV 2))) (cA (cB (cA (cN (-3)) (cM (cN 11) (cV 2))) (cM (cN 12) (cW (cV 2) 4))) (cM (cN 4) (cW (cV 2) 6)))))) (cM (cV 2) (cR (cD (cA (cN 1) (cM (cN 2) (cV 2))) (cA (cB (cA (cN (-3)) (cM (cN 11) (cV 2))) (cM (cN 12) (cW (cV 2) 4))) (cM (cN 4) (cW (cV 2) 6))))))) (cM (cN 6) (cR (cD (cA (cN (-1)) (cV 2)) (cA (cB (cB (cN 3) (cM (cN 2) (cV 2))) (cM (cN 12) (cW (cV 2) 4))) (cM (cN 8) (cW (cV 2) 6)))))))))))))) (cM (cM (cM (cA (cN 1) (cM (cN 2) (cD (cB (cV 1) (cN 1)) (cN 2)))) (cV 2)) (cA (cN 1) (cM (cN 2) (cV 2)))) (cR (cD (cM (cM (cA (cN 1) (cD (cB (cV 1) (cN 1)) (cN 2))) (cA (cN 1) (cV 2))) (cA (cN 3) (cM (cN 2) (cV 2)))) (cD (cB (cV 1) (cN 1)) (cN 2)))))).
Definition QST_e155 := (cD (cM (cM (cM (cN (-2)) (cR (cN 3))) (cA (cN 1) (cD (cB (cV 1) (cN 1)) (cN 2)))) (cA (cM (cN 3) (cA (cR (cD (cD (cB (cV 1) (cN 1)) (cN 2)) (cM (cM (cA (cN 1) (cD (cB (cV 1) (cN 1)) (cN 2))) (cW (cA (cN 1) (cV 2)) 6)) (cA (cA (cB (cN (-3)) (cM (cN 5) (cV 2))) (cM (cN 4) (cW (cV 2) 4))) (cM (cN 4) (cW (cV 2) 6)))))) (cM (cN 2) (cR (cD (cM (cD (cB (cV 1) (cN 1)) (cN 2)) (cA (cN (-1)) (cV 2))) (cM (cA (cN 1) (cD (cB (cV 1) (cN 1)) (cN 2))) (cA (cA (cA (cN 3) (cM (cN 11) (cV 2))) (cM (cN 12) (cW (cV 2) 4))) (cM (cN 4) (cW (cV 2) 6))))))))) (cM (cM (cV 2) (cR (cD (cD (cB (cV 1) (cN 1)) (cN 2)) (cM (cM (cA (cN 1) (cD (cB (cV 1) (cN 1)) (cN 2))) (cW (cA (cN 1) (cV 2)) 6)) (cA (cA (cB (cN (-3)) (cM (cN 5) (cV 2))) (cM (cN 4) (cW (cV 2) 4))) (cM (cN 4) (cW (cV 2) 6))))))) (cA (cN (-5)) (cM (cV 2) (cA (cN (-5)) (cM (cV 2) (cA (cN 5) (cM (cN 2) (cV 2)))))))))) (cM (cM (cA (cN 1) (cM (cN 2) (cD (cB (cV 1) (cN 1)) (cN 2)))) (cV 2)) (cA (cN 1) (cV 2)))).
Definition QST_e156 := (cD (cM (cM (cM (cN (-2)) (cR (cA (cN 6) (cD (cN 6) (cD (cB (cV 1) (cN 1)) (cN 2)))))) (cD (cB (cV 1) (cN 1)) (cN 2))) (cA (cA (cM (cN 3) (cR (cM (cM (cM (cV 2) (cA (cN 1) (cV 2))) (cA (cN 1) (cM (cN 2) (cV 2)))) (cA (cN 3) (cM (cN 2) (cV 2)))))) (cM (cN 5) (cR (cM (cM (cM (cW (cV 2) 6) (cA (cN 1) (cV 2))) (cA (cN 1) (cM (cN 2) (cV 2)))) (cA (cN 3) (cM (cN 2) (cV 2))))))) (cM (cN 2) (cR (cM (cM (cM (cW (cV 2) 10) (cA (cN 1) (cV 2))) (cA (cN 1) (cM (cN 2) (cV 2)))) (cA (cN 3) (cM (cN 2) (cV 2)))))))) (cM (cM (cM (cM (cA (cN 1) (cM (cN 2) (cD (cB (cV 1) (cN 1)) (cN 2)))) (cV 2)) (cW (cA (cN 1) (cV 2)) 4)) (cA (cN 1) (cM (cN 2) (cV 2)))) (cW (cA (cN 3) (cM (cN 2) (cV 2))) 4))).
Definition QST_e157 := (cD (cM (cN (-2)) (cR (cM (cM (cM (cM (cM (cM (cM (cD (cB (cV 1) (cN 1)) (cN 2)) (cA (cN 1) (cD (cB (cV 1) (cN 1)) (cN 2)))) (cA (cN (-1)) (cV 2))) (cV 2)) (cA (cN 1) (cV 2))) (cA (cN 2) (cV 2))) (cA (cN (-1)) (cM (cN 2) (cV 2)))) (cA (cN 3) (cM (cN 2) (cV 2)))))) (cM (cM (cM (cA (cN 1) (cM (cN 2) (cD (cB (cV 1) (cN 1)) (cN 2)))) (cV 2)) (cA (cN 1) (cV 2))) (cA (cN 1) (cM (cN 2) (cV 2))))).
Definition QST_e158 := (cD (cM (cM (cN (-2)) (cR (cN 2))) (cR (cD (cM (cM (cM (cD (cB (cV 1) (cN 1)) (cN 2)) (cA (cN 1) (cD (cB (cV 1) (cN 1)) (cN 2)))) (cV 2)) (cA (cA (cN (-1)) (cV 2)) (cM (cN 2) (cW (cV 2) 4)))) (cA (cN 1) (cM (cN 2) (cV 2)))))) (cA (cA (cA (cV 2) (cM (cM (cN 2) (cD (cB (cV 1) (cN 1)) (cN 2))) (cV 2))) (cW (cV 2) 4)) (cM (cM (cN 2) (cD (cB (cV 1) (cN 1)) (cN 2))) (cW (cV 2) 4)))).
Definition QST_e159 := (cD (cM (cM (cN (-2)) (cR (cD (cA (cD (cB (cV 1) (cN 1)) (cN 2)) (cM (cM (cN 2) (cD (cB (cV 1) (cN 1)) (cN 2))) (cV 2))) (cA (cA (cA (cN 6) (cM (cN 13) (cV 2))) (cM (cN 9) (cW (cV 2) 4))) (cM (cN 2) (cW (cV 2) 6)))))) (cA (cA (cM (cN 8) (cR (cD (cM (cM (cM (cA (cN 1) (cD (cB (cV 1) (cN 1)) (cN 2))) (cA (cN 1) (cV 2))) (cA (cN (-1)) (cM (cN 2) (cV 2)))) (cA (cN 5) (cM (cN 2) (cV 2)))) (cA (cN 2) (cV 2))))) (cR (cM (cM (cM (cM (cA (cN 1) (cD (cB (cV 1) (cN 1)) (cN 2))) (cA (cN 1) (cV 2))) (cA (cN 2) (cV 2))) (cA (cN (-1)) (cM (cN 2) (cV 2)))) (cA (cN 5) (cM (cN 2) (cV 2)))))) (cM (cM (cN 2) (cV 2)) (cA (cM (cN 2) (cR (cD (cM (cM (cM (cA (cN 1) (cD (cB (cV 1) (cN 1)) (cN 2))) (cA (cN 1) (cV 2))) (cA (cN (-1)) (cM (cN 2) (cV 2)))) (cA (cN 5) (cM (cN 2) (cV 2)))) (cA (cN 2) (cV 2))))) (cR (cM (cM (cM (cM (cA (cN 1) (cD (cB (cV 1) (cN 1)) (cN 2))) (cA (cN 1) (cV 2))) (cA (cN 2) (cV 2))) (cA (cN (-1)) (cM (cN 2) (cV 2)))) (cA (cN 5) (cM (cN 2) (cV 2))))))))) (cM (cM (cA (cN 1) (cM (cN 2) (cD (cB (cV 1) (cN 1)) (cN 2)))) (cA (cN 1) (cM (cN 2) (cV 2)))) (cA (cN 5) (cM (cN 2) (cV 2))))).
Definition QST_e160 := (cO (cD (cR (cN 3)) (cR (cA (cN (-1)) (cM (cN 4) (cW (cD (cB (cV 1) (cN 1)) (cN 2)) 4)))))).
Definition QST_e161 := (cD (cM (cN (-2)) (cA (cN (-1)) (cW (cD (cB (cV 1) (cN 1)) (cN 2)) 4))) (cR (cA (cB (cN 1) (cM (cN 5) (cW (cD (cB (cV 1) (cN 1)) (cN 2)) 4))) (cM (cN 4) (cW (cD (cB (cV 1) (cN 1)) (cN 2)) 8))))).
Definition QST_e162 := (cD (cN (-2)) (cA (cN 1) (cM (cN 2) (cD (cB (cV 1) (cN 1)) (cN 2))))).
Definition QST_e163 := (cD (cB (cB (cA (cB (cR (cD (cM (cM (cM (cW (cD (cB (cV 1) (cN 1)) (cN 2)) 6) (cA (cN 1) (cD (cB (cV 1) (cN 1)) (cN 2)))) (cA (cN 1) (cM (cN 2) (cD (cB (cV 1) (cN 1)) (cN 2))))) (cA (cN 3) (cM (cN 2) (cD (cB (cV 1) (cN 1)) (cN 2))))) (cA (cN (-1)) (cM (cN 2) (cD (cB (cV 1) (cN 1)) (cN 2)))))) (cM (cN 2) (cR (cD (cM (cM (cM (cW (cD (cB (cV 1) (cN 1)) (cN 2)) 10) (cA (cN 1) (cD (cB (cV 1) (cN 1)) (cN 2)))) (cA (cN 1) (cM (cN 2) (cD (cB (cV 1) (cN 1)) (cN 2))))) (cA (cN 3) (cM (cN 2) (cD (cB (cV 1) (cN 1)) (cN 2))))) (cA (cN (-1)) (cM (cN 2) (cD (cB (cV 1) (cN 1)) (cN 2)))))))) (cM (cM (cN 4) (cD (cB (cV 1) (cN 1)) (cN 2))) (cR (cD (cM (cM (cD (cB (cV 1) (cN 1)) (cN 2)) (cA (cN 1) (cD (cB (cV 1) (cN 1)) (cN 2)))) (cA (cN 3) (cM (cN 2) (cD (cB (cV 1) (cN 1)) (cN 2))))) (cA (cN (-1)) (cM (cN 4) (cW (cD (cB (cV 1) (cN 1)) (cN 2)) 4))))))) (cM (cN 8) (cR (cD (cM (cM (cW (cD (cB (cV 1) (cN 1)) (cN 2)) 10) (cA (cN 1) (cD (cB (cV 1) (cN 1)) (cN 2)))) (cA (cN 3) (cM (cN 2) (cD (cB (cV 1) (cN 1)) (cN 2))))) (cA (cN (-1)) (cM (cN 4) (cW (cD (cB (cV 1) (cN 1)) (cN 2)) 4))))))) (cM (cN 3) (cR (cD (cM (cD (cB (cV 1) (cN 1)) (cN 2)) (cA (cN (-3)) (cM (cD (cB (cV 1) (cN 1)) (cN 2)) (cA (cN 1) (cM (cM (cN 4) (cD (cB (cV 1) (cN 1)) (cN 2))) (cA (cN 2) (cD (cB (cV 1) (cN 1)) (cN 2)))))))) (cA (cN 1) (cM (cN 2) (cD (cB (cV 1) (cN 1)) (cN 2)))))))) (cR (cM (cM (cM (cD (cB (cV 1) (cN 1)) (cN 2)) (cW (cA (cN 1) (cD (cB (cV 1) (cN 1)) (cN 2))) 6)) (cA (cN 1) (cM (cN 2) (cD (cB (cV 1) (cN 1)) (cN 2))))) (cW (cA (cN 3) (cM (cN 2) (cD (cB (cV 1) (cN 1)) (cN 2)))) 4)))).
Definition QST_e164 := (cO (cD (cM (cR (cN 3)) (cA (cA (cM (cN 3) (cR (cM (cM (cD (cB (cV 1) (cN 1)) (cN 2)) (cA (cN 1) (cD (cB (cV 1) (cN 1)) (cN 2)))) (cA (cN 3) (cM (cN 2) (cD (cB (cV 1) (cN 1)) (cN 2))))))) (cM (cN 5) (cR (cM (cM (cW (cD (cB (cV 1) (cN 1)) (cN 2)) 6) (cA (cN 1) (cD (cB (cV 1) (cN 1)) (cN 2)))) (cA (cN 3) (cM (cN 2) (cD (cB (cV 1) (cN 1)) (cN 2)))))))) (cM (cN 2) (cR (cM (cM (cW (cD (cB (cV 1) (cN 1)) (cN 2)) 10) (cA (cN 1) (cD (cB (cV 1) (cN 1)) (cN 2)))) (cA (cN 3) (cM (cN 2) (cD (cB (cV 1) (cN 1)) (cN 2))))))))) (cR (cM (cM (cM (cD (cB (cV 1) (cN 1)) (cN 2)) (cW (cA (cN 1) (cD (cB (cV 1) (cN 1)) (cN 2))) 6)) (cA (cN 1) (cM (cN 2) (cD (cB (cV 1) (cN 1)) (cN 2))))) (cW (cA (cN 3) (cM (cN 2) (cD (cB (cV 1) (cN 1)) (cN 2)))) 8))))).
Definition QST_e165 := (cM (cM (cN (-2)) (cA (cN 2) (cD (cB (cV 1) (cN 1)) (cN 2)))) (cR (cD (cD (cB (cV 1) (cN 1)) (cN 2)) (cA (cA (cA (cN 6) (cM (cN 19) (cD (cB (cV 1) (cN 1)) (cN 2)))) (cM (cN 16) (cW (cD (cB (cV 1) (cN 1)) (cN 2)) 4))) (cM (cN 4) (cW (cD (cB (cV 1) (cN 1)) (cN 2)) 6)))))).
Definition QST_e166 := (cD (cM (cN (-2)) (cR (cM (cM (cD (cB (cV 1) (cN 1)) (cN 2)) (cA (cN 1) (cD (cB (cV 1) (cN 1)) (cN 2)))) (cA (cN (-1)) (cW (cV 2) 4))))) (cA (cV 2) (cM (cM (cN 2) (cD (cB (cV 1) (cN 1)) (cN 2))) (cV 2)))).
Definition QST_e167 := (cD (cM (cN 2) (cR (cM (cD (cB (cV 1) (cN 1)) (cN 2)) (cA (cN 1) (cD (cB (cV 1) (cN 1)) (cN 2)))))) (cA (cV 2) (cM (cM (cN 2) (cD (cB (cV 1) (cN 1)) (cN 2))) (cV 2)))).
Definition QST_e168 := (cD (cM (cM (cN (-2)) (cR (cM (cD (cB (cV 1) (cN 1)) (cN 2)) (cA (cN 1) (cD (cB (cV 1) (cN 1)) (cN 2)))))) (cA (cA (cN (-1)) (cV 2)) (cW (cV 2) 4))) (cM (cM (cA (cN 1) (cM (cN 2) (cD (cB (cV 1) (cN 1)) (cN 2)))) (cV 2)) (cA (cN 1) (cV 2)))).
Definition QST_e169 := (cD (cM (cN (-2)) (cR (cM (cD (cB (cV 1) (cN 1)) (cN 2)) (cA (cN 1) (cD (cB (cV 1) (cN 1)) (cN 2)))))) (cA (cA (cA (cN 1) (cM (cN 2) (cD (cB (cV 1) (cN 1)) (cN 2)))) (cV 2)) (cM (cM (cN 2) (cD (cB (cV 1) (cN 1)) (cN 2))) (cV 2)))).
Definition QST_e170 := (cD (cM (cM (cN 2) (cA (cN 1) (cD (cB (cV 1) (cN 1)) (cN 2)))) (cB (cA (cM (cN 2) (cR (cD (cA (cD (cB (cV 1) (cN 1)) (cN 2)) (cM (cM (cN 2) (cD (cB (cV 1) (cN 1)) (cN 2))) (cV 2))) (cA (cN 1) (cM (cN 2) (cD (cB (cV 1) (cN 1)) (cN 2))))))) (cR (cD (cD (cB (cV 1) (cN 1)) (cN 2)) (cA (cA (cA (cN 1) (cM (cN 2) (cD (cB (cV 1) (cN 1)) (cN 2)))) (cM (cN 2) (cV 2))) (cM (cM (cN 4) (cD (cB (cV 1) (cN 1)) (cN 2))) (cV 2)))))) (cM (cM (cN 2) (cV 2)) (cR (cD (cD (cB (cV 1) (cN 1)) (cN 2)) (cA (cA (cA (cN 1) (cM (cN 2) (cD (cB (cV 1) (cN 1)) (cN 2)))) (cM (cN 2) (cV 2))) (cM (cM (cN 4) (cD (cB (cV 1) (cN 1)) (cN 2))) (cV 2)))))))) (cM (cA (cN 1) (cV 2)) (cR (cM (cM (cA (cN 1) (cD (cB (cV 1) (cN 1)) (cN 2))) (cA (cN 1) (cM (cN 2) (cD (cB (cV 1) (cN 1)) (cN 2))))) (cA (cN 3) (cM (cN 2) (cV 2))))))).
Definition QST_e171 := (cD (cM (cM (cN (-2)) (cR (cD (cA (cN 1) (cD (cB (cV 1) (cN 1)) (cN 2))) (cM (cA (cN 1) (cM (cN 2) (cD (cB (cV 1) (cN 1)) (cN 2)))) (cA (cA (cN 6) (cM (cN 7) (cV 2))) (cM (cN 2) (cW (cV 2) 4))))))) (cA (cA (cM (cN 6) (cR (cD (cM (cD (cB (cV 1) (cN 1)) (cN 2)) (cV 2)) (cA (cA (cA (cN 3) (cM (cN 6) (cD (cB (cV 1) (cN 1)) (cN 2)))) (cM (cN 2) (cV 2))) (cM (cM (cN 4) (cD (cB (cV 1) (cN 1)) (cN 2))) (cV 2)))))) (cM (cN 7) (cR (cD (cM (cD (cB (cV 1) (cN 1)) (cN 2)) (cW (cV 2) 6)) (cA (cA (cA (cN 3) (cM (cN 6) (cD (cB (cV 1) (cN 1)) (cN 2)))) (cM (cN 2) (cV 2))) (cM (cM (cN 4) (cD (cB (cV 1) (cN 1)) (cN 2))) (cV 2))))))) (cM (cN 2) (cR (cD (cM (cD (cB (cV 1) (cN 1)) (cN 2)) (cW (cV 2) 10)) (cA (cA (cA (cN 3) (cM (cN 6) (cD (cB (cV 1) (cN 1)) (cN 2)))) (cM (cN 2) (cV 2))) (cM (cM (cN 4) (cD (cB (cV 1) (cN 1)) (cN 2))) (cV 2)))))))) (cA (cN 1) (cV 2))).
Definition QST_e172 := (cO (cR (cB (cN 1) (cW (cV 2) (-4))))).
Definition QST_e173 := (cD (cA (cA (cN (-1)) (cV 2)) (cW (cV 2) 4)) (cM (cA (cN 1) (cM (cN 2) (cD (cB (cV 1) (cN 1)) (cN 2)))) (cA (cV 2) (cW (cV 2) 4)))).
Definition QST_e174 := (cD (cN 1) (cA (cA (cA (cN 1) (cM (cN 2) (cD (cB (cV 1) (cN 1)) (cN 2)))) (cV 2)) (cM (cM (cN 2) (cD (cB (cV 1) (cN 1)) (cN 2))) (cV 2)))).
Definition QST_e175 := (cB (cA (cN (-1)) (cD (cN 1) (cV 2))) (cD (cN 1) (cA (cN 1) (cV 2)))).
Definition QST_e176 := (cO (cD (cM (cA (cN 1) (cM (cN 2) (cD (cB (cV 1) (cN 1)) (cN 2)))) (cA (cA (cM (cN 27) (cA (cR (cM (cM (cM (cM (cW (cA (cN 1) (cD (cB (cV 1) (cN 1)) (cN 2))) 6) (cA (cN 3) (cM (cN 2) (cD (cB (cV 1) (cN 1)) (cN 2))))) (cV 2)) (cW (cA (cN 1) (cV 2)) 8)) (cA (cN 3) (cM (cN 2) (cV 2))))) (cM (cN 2) (cR (cD (cM (cM (cM (cM (cW (cA (cN 1) (cD (cB (cV 1) (cN 1)) (cN 2))) 6) (cA (cN 3) (cM (cN 2) (cD (cB (cV 1) (cN 1)) (cN 2))))) (cV 2)) (cW (cA (cN 1) (cV 2)) 8)) (cA (cN 3) (cM (cN 2) (cV 2)))) (cW (cA (cN 1) (cM (cN 2) (cD (cB (cV 1) (cN 1)) (cN 2)))) 4)))))) (cM (cM (cM (cM (cN 2) (cD (cB (cV 1) (cN 1)) (cN 2))) (cA (cN 1) (cV 2))) (cA (cN 3) (cM (cN 2) (cV 2)))) (cA (cA (cM (cN 3) (cR (cM (cM (cM (cM (cW (cA (cN 1) (cD (cB (cV 1) (cN 1)) (cN 2))) 6) (cA (cN 3) (cM (cN 2) (cD (cB (cV 1) (cN 1)) (cN 2))))) (cV 2)) (cW (cA (cN 1) (cV 2)) 8)) (cA (cN 3) (cM (cN 2) (cV 2)))))) (cM (cN 6) (cR (cD (cM (cM (cM (cM (cW (cA (cN 1) (cD (cB (cV 1) (cN 1)) (cN 2))) 6) (cA (cN 3) (cM (cN 2) (cD (cB (cV 1) (cN 1)) (cN 2))))) (cV 2)) (cW (cA (cN 1) (cV 2)) 8)) (cA (cN 3) (cM (cN 2) (cV 2)))) (cW (cA (cN 1) (cM (cN 2) (cD (cB (cV 1) (cN 1)) (cN 2)))) 4))))) (cM (cM (cN 4) (cV 2)) (cR (cD (cM (cM (cM (cM (cW (cA (cN 1) (cD (cB (cV 1) (cN 1)) (cN 2))) 6) (cA (cN 3) (cM (cN 2) (cD (cB (cV 1) (cN 1)) (cN 2))))) (cV 2)) (cW (cA (cN 1) (cV 2)) 8)) (cA (cN 3) (cM (cN 2) (cV 2)))) (cW (cA (cN 1) (cM (cN 2) (cD (cB (cV 1) (cN 1)) (cN 2)))) 4))))))) (cM (cV 2) (cA (cA (cA (cM (cN 45) (cR (cM (cM (cM (cM (cW (cA (cN 1) (cD (cB (cV 1) (cN 1)) (cN 2))) 6) (cA (cN 3) (cM (cN 2) (cD (cB (cV 1) (cN 1)) (cN 2))))) (cV 2)) (cW (cA (cN 1) (cV 2)) 8)) (cA (cN 3) (cM (cN 2) (cV 2)))))) (cM (cN 126) (cR (cD (cM (cM (cM (cM (cW (cA (cN 1) (cD (cB (cV 1) (cN 1)) (cN 2))) 6) (cA (cN 3) (cM (cN 2) (cD (cB (cV 1) (cN 1)) (cN 2))))) (cV 2)) (cW (cA (cN 1) (cV 2)) 8)) (cA (cN 3) (cM (cN 2) (cV 2)))) (cW (cA (cN 1) (cM (cN 2) (cD (cB (cV 1) (cN 1)) (cN 2)))) 4))))) (cM (cN 2) (cR (cM (cM (cM (cM (cW (cA (cN 1) (cD (cB (cV 1) (cN 1)) (cN 2))) 6) (cW (cA (cN 3) (cM (cN 2) (cD (cB (cV 1) (cN 1)) (cN 2)))) 6)) (cV 2)) (cW (cA (cN 1) (cV 2)) 12)) (cW (cA (cN 3) (cM (cN 2) (cV 2))) 6))))) (cM (cM (cN 6) (cV 2)) (cA (cA (cM (cN 3) (cR (cM (cM (cM (cM (cW (cA (cN 1) (cD (cB (cV 1) (cN 1)) (cN 2))) 6) (cA (cN 3) (cM (cN 2) (cD (cB (cV 1) (cN 1)) (cN 2))))) (cV 2)) (cW (cA (cN 1) (cV 2)) 8)) (cA (cN 3) (cM (cN 2) (cV 2)))))) (cM (cN 16) (cR (cD (cM (cM (cM (cM (cW (cA (cN 1) (cD (cB (cV 1) (cN 1)) (cN 2))) 6) (cA (cN 3) (cM (cN 2) (cD (cB (cV 1) (cN 1)) (cN 2))))) (cV 2)) (cW (cA (cN 1) (cV 2)) 8)) (cA (cN 3) (cM (cN 2) (cV 2)))) (cW (cA (cN 1) (cM (cN 2) (cD (cB (cV 1) (cN 1)) (cN 2)))) 4))))) (cM (cM (cN 4) (cV 2)) (cR (cD (cM (cM (cM (cM (cW (cA (cN 1) (cD (cB (cV 1) (cN 1)) (cN 2))) 6) (cA (cN 3) (cM (cN 2) (cD (cB (cV 1) (cN 1)) (cN 2))))) (cV 2)) (cW (cA (cN 1) (cV 2)) 8)) (cA (cN 3) (cM (cN 2) (cV 2)))) (cW (cA (cN 1) (cM (cN 2) (cD (cB (cV 1) (cN 1)) (cN 2)))) 4)))))))))) (cM (cM (cM (cW (cA (cN 1) (cD (cB (cV 1) (cN 1)) (cN 2))) 3) (cR (cV 2))) (cW (cA (cN 1) (cV 2)) 8)) (cW (cM (cA (cN 3) (cM (cN 2) (cD (cB (cV 1) (cN 1)) (cN 2)))) (cA (cN 3) (cM (cN 2) (cV 2)))) 5)))).
Definition QST_e177 := (cD (cM (cM (cR (cB (cN 2) (cD (cN 1) (cA (cN 1) (cD (cB (cV 1) (cN 1)) (cN 2)))))) (cA (cN 1) (cM (cN 2) (cV 2)))) (cA (cB (cA (cO (cR (cD (cM (cA (cN 1) (cD (cB (cV 1) (cN 1)) (cN 2))) (cA (cN 3) (cM (cN 2) (cV 2)))) (cM (cA (cN 1) (cM (cN 2) (cD (cB (cV 1) (cN 1)) (cN 2)))) (cW (cA (cN 1) (cM (cN 2) (cV 2))) 6))))) (cM (cM (cN 2) (cV 2)) (cR (cD (cM (cA (cN 1) (cD (cB (cV 1) (cN 1)) (cN 2))) (cA (cN 3) (cM (cN 2) (cV 2)))) (cM (cA (cN 1) (cM (cN 2) (cD (cB (cV 1) (cN 1)) (cN 2)))) (cW (cA (cN 1) (cM (cN 2) (cV 2))) 6)))))) (cM (cN 2) (cR (cD (cM (cA (cN 1) (cD (cB (cV 1) (cN 1)) (cN 2))) (cA (cN 3) (cM (cN 2) (cV 2)))) (cM (cA (cN 1) (cM (cN 2) (cD (cB (cV 1) (cN 1)) (cN 2)))) (cA (cN 1) (cM (cN 2) (cV 2)))))))) (cM (cM (cN 2) (cD (cB (cV 1) (cN 1)) (cN 2))) (cA (cB (cR (cD (cM (cA (cN 1) (cD (cB (cV 1) (cN 1)) (cN 2))) (cA (cN 3) (cM (cN 2) (cV 2)))) (cM (cW (cA (cN 1) (cM (cN 2) (cD (cB (cV 1) (cN 1)) (cN 2)))) 6) (cW (cA (cN 1) (cM (cN 2) (cV 2))) 6)))) (cM (cM (cN 2) (cV 2)) (cR (cD (cM (cA (cN 1) (cD (cB (cV 1) (cN 1)) (cN 2))) (cA (cN 3) (cM (cN 2) (cV 2)))) (cM (cW (cA (cN 1) (cM (cN 2) (cD (cB (cV 1) (cN 1)) (cN 2)))) 6) (cW (cA (cN 1) (cM (cN 2) (cV 2))) 6)))))) (cM (cN 2) (cR (cD (cM (cA (cN 1) (cD (cB (cV 1) (cN 1)) (cN 2))) (cA (cN 3) (cM (cN 2) (cV 2)))) (cM (cW (cA (cN 1) (cM (cN 2) (cD (cB (cV 1) (cN 1)) (cN 2)))) 6) (cA (cN 1) (cM (cN 2) (cV 2))))))))))) (cM (cA (cN 1) (cV 2)) (cA (cN 3) (cM (cN 2) (cV 2))))).
Definition QST_e178 := (cD (cM (cV 2) (cA (cA (cA (cA (cM (cN 18) (cR (cD (cM (cA (cN 1) (cD (cB (cV 1) (cN 1)) (cN 2))) (cA (cN 3) (cM (cN 2) (cV 2)))) (cV 2)))) (cM (cN 51) (cR (cM (cM (cA (cN 1) (cD (cB (cV 1) (cN 1)) (cN 2))) (cV 2)) (cA (cN 3) (cM (cN 2) (cV 2))))))) (cM (cN 53) (cR (cM (cM (cA (cN 1) (cD (cB (cV 1) (cN 1)) (cN 2))) (cW (cV 2) 6)) (cA (cN 3) (cM (cN 2) (cV 2))))))) (cM (cN 24) (cR (cM (cM (cA (cN 1) (cD (cB (cV 1) (cN 1)) (cN 2))) (cW (cV 2) 10)) (cA (cN 3) (cM (cN 2) (cV 2))))))) (cM (cN 4) (cR (cM (cM (cA (cN 1) (cD (cB (cV 1) (cN 1)) (cN 2))) (cW (cV 2) 14)) (cA (cN 3) (cM (cN 2) (cV 2)))))))) (cM (cM (cM (cA (cN 1) (cM (cN 2) (cD (cB (cV 1) (cN 1)) (cN 2)))) (cW (cA (cN 1) (cV 2)) 4)) (cR (cM (cA (cN 1) (cD (cB (cV 1) (cN 1)) (cN 2))) (cA (cN 2) (cV 2))))) (cW (cA (cN 3) (cM (cN 2) (cV 2))) 5))).
Definition QST_e179 := (cD (cA (cA (cA (cA (cA (cA (cM (cN 81) (cR (cM (cM (cA (cN 3) (cM (cN 2) (cD (cB (cV 1) (cN 1)) (cN 2)))) (cV 2)) (cA (cN 1) (cM (cN 2) (cV 2)))))) (cM (cN 165) (cR (cM (cM (cA (cN 3) (cM (cN 2) (cD (cB (cV 1) (cN 1)) (cN 2)))) (cW (cV 2) 6)) (cA (cN 1) (cM (cN 2) (cV 2))))))) (cM (cN 188) (cR (cM (cM (cA (cN 3) (cM (cN 2) (cD (cB (cV 1) (cN 1)) (cN 2)))) (cW (cV 2) 10)) (cA (cN 1) (cM (cN 2) (cV 2))))))) (cM (cN 84) (cR (cM (cM (cA (cN 3) (cM (cN 2) (cD (cB (cV 1) (cN 1)) (cN 2)))) (cW (cV 2) 14)) (cA (cN 1) (cM (cN 2) (cV 2))))))) (cM (cN 16) (cR (cM (cM (cA (cN 3) (cM (cN 2) (cD (cB (cV 1) (cN 1)) (cN 2)))) (cW (cV 2) 18)) (cA (cN 1) (cM (cN 2) (cV 2))))))) (cM (cM (cN 2) (cD (cB (cV 1) (cN 1)) (cN 2))) (cA (cA (cA (cA (cM (cN 27) (cR (cM (cM (cA (cN 3) (cM (cN 2) (cD (cB (cV 1) (cN 1)) (cN 2)))) (cV 2)) (cA (cN 1) (cM (cN 2) (cV 2)))))) (cM (cN 81) (cR (cM (cM (cA (cN 3) (cM (cN 2) (cD (cB (cV 1) (cN 1)) (cN 2)))) (cW (cV 2) 6)) (cA (cN 1) (cM (cN 2) (cV 2))))))) (cM (cN 90) (cR (cM (cM (cA (cN 3) (cM (cN 2) (cD (cB (cV 1) (cN 1)) (cN 2)))) (cW (cV 2) 10)) (cA (cN 1) (cM (cN 2) (cV 2))))))) (cM (cN 44) (cR (cM (cM (cA (cN 3) (cM (cN 2) (cD (cB (cV 1) (cN 1)) (cN 2)))) (cW (cV 2) 14)) (cA (cN 1) (cM (cN 2) (cV 2))))))) (cM (cN 8) (cR (cM (cM (cA (cN 3) (cM (cN 2) (cD (cB (cV 1) (cN 1)) (cN 2)))) (cW (cV 2) 18)) (cA (cN 1) (cM (cN 2) (cV 2))))))))) (cM (cM (cM (cN 2) (cV 2)) (cR (cM (cM (cA (cN 3) (cM (cN 2) (cD (cB (cV 1) (cN 1)) (cN 2)))) (cV 2)) (cA (cN 1) (cM (cN 2) (cV 2)))))) (cA (cN 39) (cM (cV 2) (cA (cN 41) (cM (cM (cN 4) (cV 2)) (cA (cN 6) (cV 2)))))))) (cM (cM (cM (cM (cW (cA (cN 3) (cM (cN 2) (cD (cB (cV 1) (cN 1)) (cN 2)))) 3) (cR (cV 2))) (cW (cA (cN 1) (cV 2)) 4)) (cA (cN 1) (cM (cN 2) (cV 2)))) (cW (cA (cN 3) (cM (cN 2) (cV 2))) 5))).
Definition QST_e180 := (cO (cD (cR (cM (cV 2) (cA (cN 2) (cV 2)))) (cA (cN 1) (cV 2)))).
Definition QST_e181 := (cR (cA (cB (cN 1) (cD (cN 2) (cA (cN (-1)) (cV 2)))) (cD (cN 2) (cV 2)))).
Definition QST_e182 := (cR (cD (cA (cN (-6)) (cM (cN 4) (cV 2))) (cA (cB (cV 2) (cM (cN 3) (cW (cV 2) 4))) (cM (cN 2) (cW (cV 2) 6))))).
Definition QST_e183 := (cD (cA (cN (-3)) (cW (cV 2) 4)) (cR (cM (cW (cV 2) 4) (cA (cN (-1)) (cW (cV 2) 4))))).
Definition QST_e184 := (cO (cD (cM (cR (cN 3)) (cA (cA (cN (-3)) (cV 2)) (cM (cN 2) (cW (cV 2) 4)))) (cM (cV 2) (cR (cM (cA (cN 1) (cV 2)) (cA (cB (cN 3) (cM (cN 7) (cV 2))) (cM (cN 4) (cW (cV 2) 6)))))))).
Definition QST_e185 := (cA (cB (cN 1) (cD (cN 3) (cV 2))) (cD (cN 3) (cA (cN 1) (cV 2)))).
Definition QST_e186 := (cD (cN 1) (cM (cA (cN 1) (cV 2)) (cR (cD (cM (cV 2) (cA (cN 3) (cM (cN 2) (cV 2)))) (cA (cA (cN (-6)) (cM (cN 9) (cV 2))) (cM (cN 6) (cW (cV 2) 4))))))).
Definition QST_e187 := (cM (cM (cR (cN 3)) (cR (cA (cN 1) (cV 2)))) (cA (cA (cA (cM (cM (cM (cA (cN (-3)) (cV 2)) (cV 2)) (cA (cN (-1)) (cM (cN 2) (cV 2)))) (cR (cD (cA (cN 1) (cM (cN 2) (cV 2))) (cM (cM (cM (cV 2) (cW (cA (cN 1) (cV 2)) 6)) (cW (cA (cN 3) (cM (cN 2) (cV 2))) 4)) (cA (cA (cN (-2)) (cM (cN 3) (cV 2))) (cM (cN 2) (cW (cV 2) 4))))))) (cM (cN 6) (cR (cD (cM (cW (cA (cN (-1)) (cV 2)) 4) (cA (cN (-1)) (cM (cN 2) (cV 2)))) (cM (cM (cM (cV 2) (cW (cA (cN 1) (cV 2)) 6)) (cW (cA (cN 3) (cM (cN 2) (cV 2))) 4)) (cA (cA (cN 2) (cM (cN 5) (cV 2))) (cM (cN 2) (cW (cV 2) 4)))))))) (cM (cB (cN 1) (cM (cN 2) (cV 2))) (cR (cD (cM (cV 2) (cA (cN 1) (cM (cN 2) (cV 2)))) (cM (cW (cA (cN 3) (cM (cN 2) (cV 2))) 4) (cA (cA (cA (cN (-2)) (cV 2)) (cM (cN 5) (cW (cV 2) 4))) (cM (cN 2) (cW (cV 2) 6)))))))) (cD (cM (cM (cN 3) (cA (cN (-3)) (cM (cN 2) (cV 2)))) (cR (cD (cM (cV 2) (cA (cN (-1)) (cM (cN 2) (cV 2)))) (cA (cA (cA (cN 2) (cM (cN 7) (cV 2))) (cM (cN 7) (cW (cV 2) 4))) (cM (cN 2) (cW (cV 2) 6)))))) (cA (cA (cN 3) (cM (cN 5) (cV 2))) (cM (cN 2) (cW (cV 2) 4)))))).
Definition QST_e188 := (cD (cA (cN (-2)) (cM (cV 2) (cA (cN 2) (cV 2)))) (cM (cA (cN 1) (cV 2)) (cR (cM (cV 2) (cA (cN 2) (cV 2)))))).
Definition QST_e189 := (cD (cM (cR (cA (cN 2) (cD (cN 2) (cV 2)))) (cA (cM (cM (cN 45) (cV 2)) (cR (cM (cM (cM (cV 2) (cA (cN 1) (cV 2))) (cA (cN 2) (cV 2))) (cA (cN 3) (cM (cN 2) (cV 2)))))) (cM (cN 2) (cA (cA (cM (cN 15) (cR (cM (cM (cM (cV 2) (cA (cN 1) (cV 2))) (cA (cN 2) (cV 2))) (cA (cN 3) (cM (cN 2) (cV 2)))))) (cM (cN 9) (cR (cM (cM (cM (cW (cV 2) 10) (cA (cN 1) (cV 2))) (cA (cN 2) (cV 2))) (cA (cN 3) (cM (cN 2) (cV 2))))))) (cR (cM (cM (cM (cM (cW (cV 2) 6) (cW (cA (cN 1) (cV 2)) 6)) (cA (cN 2) (cV 2))) (cW (cA (cN 1) (cM (cN 2) (cV 2))) 4)) (cA (cN 3) (cM (cN 2) (cV 2))))))))) (cM (cM (cW (cA (cN 2) (cV 2)) 4) (cW (cM (cA (cN 1) (cV 2)) (cA (cN 3) (cM (cN 2) (cV 2)))) 3)) (cA (cN 5) (cM (cN 2) (cV 2))))).
Definition QST_e190 := (cO (cD (cM (cR (cN 2)) (cA (cA (cA (cM (cN 30) (cR (cM (cM (cM (cV 2) (cA (cN 1) (cV 2))) (cA (cN 2) (cV 2))) (cA (cN 3) (cM (cN 2) (cV 2)))))) (cM (cN 47) (cR (cM (cM (cM (cW (cV 2) 6) (cA (cN 1) (cV 2))) (cA (cN 2) (cV 2))) (cA (cN 3) (cM (cN 2) (cV 2))))))) (cM (cN 24) (cR (cM (cM (cM (cW (cV 2) 10) (cA (cN 1) (cV 2))) (cA (cN 2) (cV 2))) (cA (cN 3) (cM (cN 2) (cV 2))))))) (cM (cN 4) (cR (cM (cM (cM (cW (cV 2) 14) (cA (cN 1) (cV 2))) (cA (cN 2) (cV 2))) (cA (cN 3) (cM (cN 2) (cV 2)))))))) (cM (cM (cM (cA (cN 1) (cV 2)) (cW (cA (cN 2) (cV 2)) 4)) (cW (cA (cN 3) (cM (cN 2) (cV 2))) 4)) (cR (cM (cV 2) (cA (cN 5) (cM (cN 2) (cV 2)))))))).
Definition QST_e191 := (cD (cM (cA (cN 3) (cV 2)) (cR (cD (cM (cV 2) (cA (cN 1) (cV 2))) (cA (cA (cN 6) (cM (cN 5) (cV 2))) (cW (cV 2) 4))))) (cA (cN 1) (cV 2))).
Definition QST_e192 := (cM (cA (cN (-1)) (cM (cN 2) (cD (cB (cV 1) (cN 1)) (cN 2)))) (cR (cD (cM (cA (cN 1) (cD (cB (cV 1) (cN 1)) (cN 2))) (cA (cN (-1)) (cW (cV 2) 4))) (cM (cA (cO (cD (cB (cV 1) (cN 1)) (cN 2))) (cM (cN 4) (cW (cD (cB (cV 1) (cN 1)) (cN 2)) 6))) (cW (cV 2) 4))))).
Definition QST_e193 := (cM (cM (cA (cN (-1)) (cM (cN 2) (cD (cB (cV 1) (cN 1)) (cN 2)))) (cA (cN (-1)) (cM (cN 2) (cV 2)))) (cR (cD (cA (cN 1) (cD (cB (cV 1) (cN 1)) (cN 2))) (cM (cM (cA (cO (cD (cB (cV 1) (cN 1)) (cN 2))) (cM (cN 4) (cW (cD (cB (cV 1) (cN 1)) (cN 2)) 6))) (cW (cV 2) 4)) (cA (cN (-1)) (cM (cN 4) (cW (cV 2) 4))))))).
Definition QST_e194 := (cD (cM (cB (cN 1) (cM (cN 2) (cD (cB (cV 1) (cN 1)) (cN 2)))) (cR (cO (cD (cA (cN 1) (cD (cB (cV 1) (cN 1)) (cN 2))) (cB (cD (cB (cV 1) (cN 1)) (cN 2)) (cM (cN 4) (cW (cD (cB (cV 1) (cN 1)) (cN 2)) 6))))))) (cV 2)).
Definition QST_e195 := (cM (cM (cA (cN (-1)) (cM (cN 2) (cD (cB (cV 1) (cN 1)) (cN 2)))) (cA (cA (cN (-1)) (cV 2)) (cW (cV 2) 4))) (cR (cD (cA (cN 1) (cD (cB (cV 1) (cN 1)) (cN 2))) (cM (cM (cD (cB (cV 1) (cN 1)) (cN 2)) (cA (cN (-1)) (cM (cN 4) (cW (cD (cB (cV 1) (cN 1)) (cN 2)) 4)))) (cW (cA (cV 2) (cW (cV 2) 4)) 4))))).
Definition QST_e196 := (cD (cN 1) (cM (cR (cD (cM (cD (cB (cV 1) (cN 1)) (cN 2)) (cA (cN 1) (cM (cN 2) (cD (cB (cV 1) (cN 1)) (cN 2))))) (cA (cA (cN (-1)) (cD (cB (cV 1) (cN 1)) (cN 2))) (cM (cN 2) (cW (cD (cB (cV 1) (cN 1)) (cN 2)) 4))))) (cA (cN 1) (cV 2)))).
Definition QST_e197 := (cO (cM (cM (cA (cN (-1)) (cM (cN 2) (cD (cB (cV 1) (cN 1)) (cN 2)))) (cA (cN 3) (cM (cN 2) (cV 2)))) (cR (cD (cA (cN 1) (cD (cB (cV 1) (cN 1)) (cN 2))) (cM (cM (cM (cD (cB (cV 1) (cN 1)) (cN 2)) (cA (cN (-1)) (cM (cN 4) (cW (cD (cB (cV 1) (cN 1)) (cN 2)) 4)))) (cW (cA (cN 1) (cV 2)) 4)) (cA (cN 3) (cM (cM (cN 4) (cV 2)) (cA (cN 2) (cV 2))))))))).
Definition QST_e198 := (cD (cR (cD (cM (cM (cA (cA (cN (-1)) (cD (cB (cV 1) (cN 1)) (cN 2))) (cM (cN 2) (cW (cD (cB (cV 1) (cN 1)) (cN 2)) 4))) (cV 2)) (cA (cN 2) (cV 2))) (cM (cD (cB (cV 1) (cN 1)) (cN 2)) (cA (cN 1) (cM (cN 2) (cD (cB (cV 1) (cN 1)) (cN 2))))))) (cA (cN 1) (cV 2))).
Definition QST_e199 := (cO (cD (cN 1) (cR (cD (cM (cM (cD (cB (cV 1) (cN 1)) (cN 2)) (cA (cN 1) (cM (cN 2) (cD (cB (cV 1) (cN 1)) (cN 2))))) (cW (cV 2) 4)) (cA (cN (-1)) (cW (cV 2) 4)))))).
Definition QST_e200 := (cD (cB (cN 1) (cM (cN 2) (cV 2))) (cM (cV 2) (cR (cM (cM (cD (cB (cV 1) (cN 1)) (cN 2)) (cA (cN 1) (cM (cN 2) (cD (cB (cV 1) (cN 1)) (cN 2))))) (cA (cN (-1)) (cM (cN 4) (cW (cV 2) 4))))))).
Definition QST_e201 := (cM (cA (cN 3) (cM (cN 2) (cD (cB (cV 1) (cN 1)) (cN 2)))) (cR (cD (cM (cD (cB (cV 1) (cN 1)) (cN 2)) (cA (cN (-1)) (cW (cV 2) 4))) (cM (cA (cA (cA (cN 3) (cM (cN 11) (cD (cB (cV 1) (cN 1)) (cN 2)))) (cM (cN 12) (cW (cD (cB (cV 1) (cN 1)) (cN 2)) 4))) (cM (cN 4) (cW (cD (cB (cV 1) (cN 1)) (cN 2)) 6))) (cW (cV 2) 4))))).
Definition QST_e202 := (cM (cA (cN 3) (cM (cN 2) (cD (cB (cV 1) (cN 1)) (cN 2)))) (cR (cD (cM (cD (cB (cV 1) (cN 1)) (cN 2)) (cA (cN (-1)) (cM (cN 2) (cV 2)))) (cM (cM (cA (cA (cA (cN 3) (cM (cN 11) (cD (cB (cV 1) (cN 1)) (cN 2)))) (cM (cN 12) (cW (cD (cB (cV 1) (cN 1)) (cN 2)) 4))) (cM (cN 4) (cW (cD (cB (cV 1) (cN 1)) (cN 2)) 6))) (cW (cV 2) 4)) (cA (cN 1) (cM (cN 2) (cV 2))))))).
Definition QST_e203 := (cD (cA (cA (cO (cM (cM (cA (cN (-1)) (cV 2)) (cV 2)) (cR (cM (cM (cM (cD (cB (cV 1) (cN 1)) (cN 2)) (cA (cN 1) (cD (cB (cV 1) (cN 1)) (cN 2)))) (cV 2)) (cA (cN 1) (cV 2)))))) (cR (cM (cM (cM (cW (cD (cB (cV 1) (cN 1)) (cN 2)) 6) (cA (cN 1) (cD (cB (cV 1) (cN 1)) (cN 2)))) (cW (cV 2) 6)) (cA (cN 1) (cV 2))))) (cR (cM (cM (cM (cD (cB (cV 1) (cN 1)) (cN 2)) (cA (cN 1) (cD (cB (cV 1) (cN 1)) (cN 2)))) (cW (cV 2) 10)) (cA (cN 1) (cV 2))))) (cM (cM (cM (cD (cB (cV 1) (cN 1)) (cN 2)) (cW (cA (cN 1) (cD (cB (cV 1) (cN 1)) (cN 2))) 3)) (cW (cV 2) 5)) (cR (cM (cA (cN 1) (cM (cN 2) (cD (cB (cV 1) (cN 1)) (cN 2)))) (cA (cN 1) (cV 2)))))).
Definition QST_e204 := (cD (cB (cN 1) (cM (cV 2) (cA (cN 1) (cV 2)))) (cM (cM (cR (cM (cD (cB (cV 1) (cN 1)) (cN 2)) (cA (cN 1) (cM (cN 2) (cD (cB (cV 1) (cN 1)) (cN 2)))))) (cV 2)) (cA (cN 1) (cV 2)))).
Definition QST_e205 := (cO (cD (cN 1) (cM (cR (cM (cD (cB (cV 1) (cN 1)) (cN 2)) (cA (cN 1) (cM (cN 2) (cD (cB (cV 1) (cN 1)) (cN 2)))))) (cA (cN 1) (cV 2))))).
Definition QST_e206 := (cD (cB (cA (cM (cM (cM (cN (-3)) (cD (cB (cV 1) (cN 1)) (cN 2))) (cA (cN 1) (cD (cB (cV 1) (cN 1)) (cN 2)))) (cR (cM (cM (cD (cB (cV 1) (cN 1)) (cN 2)) (cA (cN 1) (cD (cB (cV 1) (cN 1)) (cN 2)))) (cA (cN 1) (cV 2))))) (cM (cV 2) (cA (cO (cM (cW (cD (cB (cV 1) (cN 1)) (cN 2)) 4) (cR (cM (cM (cD (cB (cV 1) (cN 1)) (cN 2)) (cA (cN 1) (cD (cB (cV 1) (cN 1)) (cN 2)))) (cA (cN 1) (cV 2)))))) (cR (cM (cM (cW (cD (cB (cV 1) (cN 1)) (cN 2)) 10) (cA (cN 1) (cD (cB (cV 1) (cN 1)) (cN 2)))) (cA (cN 1) (cV 2))))))) (cM (cN 2) (cA (cR (cM (cM (cW (cD (cB (cV 1) (cN 1)) (cN 2)) 10) (cA (cN 1) (cD (cB (cV 1) (cN 1)) (cN 2)))) (cA (cN 1) (cV 2)))) (cR (cM (cM (cW (cD (cB (cV 1) (cN 1)) (cN 2)) 14) (cA (cN 1) (cD (cB (cV 1) (cN 1)) (cN 2)))) (cA (cN 1) (cV 2))))))) (cM (cM (cM (cD (cB (cV 1) (cN 1)) (cN 2)) (cW (cA (cN 1) (cD (cB (cV 1) (cN 1)) (cN 2))) 4)) (cV 2)) (cR (cM (cA (cN 3) (cM (cM (cN 4) (cD (cB (cV 1) (cN 1)) (cN 2))) (cA (cN 2) (cD (cB (cV 1) (cN 1)) (cN 2))))) (cA (cN 1) (cV 2)))))).
Definition QST_e207 := (cD (cM (cA (cM (cN 3) (cR (cM (cD (cB (cV 1) (cN 1)) (cN 2)) (cA (cN 1) (cD (cB (cV 1) (cN 1)) (cN 2)))))) (cM (cN 2) (cR (cM (cW (cD (cB (cV 1) (cN 1)) (cN 2)) 6) (cA (cN 1) (cD (cB (cV 1) (cN 1)) (cN 2))))))) (cA (cA (cN (-1)) (cV 2)) (cW (cV 2) 4))) (cM (cM (cM (cA (cN 1) (cD (cB (cV 1) (cN 1)) (cN 2))) (cR (cA (cN 3) (cM (cM (cN 4) (cD (cB (cV 1) (cN 1)) (cN 2))) (cA (cN 2) (cD (cB (cV 1) (cN 1)) (cN 2))))))) (cV 2)) (cA (cN 1) (cV 2)))).
Definition QST_e208 := (cD (cA (cN 3) (cM (cN 2) (cD (cB (cV 1) (cN 1)) (cN 2)))) (cM (cR (cD (cM (cM (cA (cN 1) (cD (cB (cV 1) (cN 1)) (cN 2))) (cA (cN 1) (cM (cN 2) (cD (cB (cV 1) (cN 1)) (cN 2))))) (cA (cN 3) (cM (cN 2) (cD (cB (cV 1) (cN 1)) (cN 2))))) (cD (cB (cV 1) (cN 1)) (cN 2)))) (cA (cN 1) (cV 2)))).
Definition QST_e209 := (cD (cA (cB (cM (cN 2) (cR (cD (cM (cM (cA (cN 1) (cM (cN 2) (cD (cB (cV 1) (cN 1)) (cN 2)))) (cV 2)) (cA (cN 1) (cM (cN 2) (cV 2)))) (cD (cB (cV 1) (cN 1)) (cN 2))))) (cM (cN 2) (cR (cD (cM (cA (cN 1) (cM (cN 2) (cD (cB (cV 1) (cN 1)) (cN 2)))) (cW (cV 2) 6)) (cA (cD (cB (cV 1) (cN 1)) (cN 2)) (cM (cM (cN 2) (cD (cB (cV 1) (cN 1)) (cN 2))) (cV 2))))))) (cR (cD (cA (cV 2) (cM (cM (cN 2) (cD (cB (cV 1) (cN 1)) (cN 2))) (cV 2))) (cA (cD (cB (cV 1) (cN 1)) (cN 2)) (cM (cM (cN 2) (cD (cB (cV 1) (cN 1)) (cN 2))) (cV 2)))))) (cM (cM (cA (cN 1) (cM (cN 2) (cD (cB (cV 1) (cN 1)) (cN 2)))) (cA (cN 1) (cV 2))) (cR (cM (cV 2) (cA (cN 3) (cM (cN 2) (cV 2))))))).
Definition QST_e210 := (cO (cD (cR (cD (cM (cV 2) (cA (cN 2) (cV 2))) (cM (cD (cB (cV 1) (cN 1)) (cN 2)) (cA (cN 1) (cM (cN 2) (cD (cB (cV 1) (cN 1)) (cN 2))))))) (cA (cN 1) (cV 2)))).
Definition QST_e211 := (cD (cB (cB (cA (cB (cM (cN (-3)) (cR (cD (cM (cM (cD (cB (cV 1) (cN 1)) (cN 2)) (cA (cN 3) (cM (cM (cN 4) (cD (cB (cV 1) (cN 1)) (cN 2))) (cA (cN 2) (cD (cB (cV 1) (cN 1)) (cN 2)))))) (cV 2)) (cA (cN 1) (cM (cN 2) (cV 2)))))) (cM (cM (cN 4) (cD (cB (cV 1) (cN 1)) (cN 2))) (cR (cD (cM (cM (cD (cB (cV 1) (cN 1)) (cN 2)) (cA (cN 3) (cM (cM (cN 4) (cD (cB (cV 1) (cN 1)) (cN 2))) (cA (cN 2) (cD (cB (cV 1) (cN 1)) (cN 2)))))) (cV 2)) (cA (cN 1) (cM (cN 2) (cV 2))))))) (cM (cN 6) (cR (cD (cM (cM (cD (cB (cV 1) (cN 1)) (cN 2)) (cA (cN 3) (cM (cM (cN 4) (cD (cB (cV 1) (cN 1)) (cN 2))) (cA (cN 2) (cD (cB (cV 1) (cN 1)) (cN 2)))))) (cW (cV 2) 6)) (cA (cN 1) (cM (cN 2) (cV 2))))))) (cM (cN 6) (cR (cM (cM (cM (cD (cB (cV 1) (cN 1)) (cN 2)) (cA (cN 3) (cM (cM (cN 4) (cD (cB (cV 1) (cN 1)) (cN 2))) (cA (cN 2) (cD (cB (cV 1) (cN 1)) (cN 2)))))) (cV 2)) (cA (cN 1) (cM (cN 2) (cV 2))))))) (cM (cN 2) (cR (cM (cM (cM (cW (cD (cB (cV 1) (cN 1)) (cN 2)) 6) (cA (cN 3) (cM (cM (cN 4) (cD (cB (cV 1) (cN 1)) (cN 2))) (cA (cN 2) (cD (cB (cV 1) (cN 1)) (cN 2)))))) (cV 2)) (cA (cN 1) (cM (cN 2) (cV 2))))))) (cM (cM (cA (cN 3) (cM (cM (cN 4) (cD (cB (cV 1) (cN 1)) (cN 2))) (cA (cN 2) (cD (cB (cV 1) (cN 1)) (cN 2))))) (cA (cN 1) (cV 2))) (cR (cM (cM (cA (cN 1) (cD (cB (cV 1) (cN 1)) (cN 2))) (cV 2)) (cA (cN 3) (cM (cN 2) (cV 2))))))).
Definition QST_e212 := (cD (cA (cA (cA (cA (cA (cA (cA (cA (cA (cA (cA (cA (cM (cN 34) (cR (cD (cM (cM (cM (cD (cB (cV 1) (cN 1)) (cN 2)) (cA (cN 1) (cD (cB (cV 1) (cN 1)) (cN 2)))) (cV 2)) (cA (cN 2) (cV 2))) (cA (cN 1) (cV 2))))) (cM (cM (cN 12) (cD (cB (cV 1) (cN 1)) (cN 2))) (cR (cD (cM (cM (cM (cD (cB (cV 1) (cN 1)) (cN 2)) (cA (cN 1) (cD (cB (cV 1) (cN 1)) (cN 2)))) (cV 2)) (cA (cN 2) (cV 2))) (cA (cN 1) (cV 2)))))) (cM (cN 83) (cR (cD (cM (cM (cM (cD (cB (cV 1) (cN 1)) (cN 2)) (cA (cN 1) (cD (cB (cV 1) (cN 1)) (cN 2)))) (cW (cV 2) 6)) (cA (cN 2) (cV 2))) (cA (cN 1) (cV 2)))))) (cM (cN 18) (cR (cD (cM (cM (cM (cW (cD (cB (cV 1) (cN 1)) (cN 2)) 6) (cA (cN 1) (cD (cB (cV 1) (cN 1)) (cN 2)))) (cW (cV 2) 6)) (cA (cN 2) (cV 2))) (cA (cN 1) (cV 2)))))) (cM (cN 65) (cR (cD (cM (cM (cM (cD (cB (cV 1) (cN 1)) (cN 2)) (cA (cN 1) (cD (cB (cV 1) (cN 1)) (cN 2)))) (cW (cV 2) 10)) (cA (cN 2) (cV 2))) (cA (cN 1) (cV 2)))))) (cM (cN 6) (cR (cD (cM (cM (cM (cW (cD (cB (cV 1) (cN 1)) (cN 2)) 6) (cA (cN 1) (cD (cB (cV 1) (cN 1)) (cN 2)))) (cW (cV 2) 10)) (cA (cN 2) (cV 2))) (cA (cN 1) (cV 2)))))) (cM (cN 16) (cR (cD (cM (cM (cM (cD (cB (cV 1) (cN 1)) (cN 2)) (cA (cN 1) (cD (cB (cV 1) (cN 1)) (cN 2)))) (cW (cV 2) 14)) (cA (cN 2) (cV 2))) (cA (cN 1) (cV 2)))))) (cM (cN 2) (cR (cM (cM (cM (cM (cD (cB (cV 1) (cN 1)) (cN 2)) (cA (cN 1) (cD (cB (cV 1) (cN 1)) (cN 2)))) (cV 2)) (cA (cN 1) (cV 2))) (cA (cN 2) (cV 2)))))) (cM (cN 12) (cR (cM (cM (cM (cM (cW (cD (cB (cV 1) (cN 1)) (cN 2)) 6) (cA (cN 1) (cD (cB (cV 1) (cN 1)) (cN 2)))) (cV 2)) (cA (cN 1) (cV 2))) (cA (cN 2) (cV 2)))))) (cM (cN 34) (cR (cM (cM (cM (cM (cW (cD (cB (cV 1) (cN 1)) (cN 2)) 6) (cA (cN 1) (cD (cB (cV 1) (cN 1)) (cN 2)))) (cW (cV 2) 6)) (cA (cN 1) (cV 2))) (cA (cN 2) (cV 2)))))) (cM (cN 22) (cR (cM (cM (cM (cM (cW (cD (cB (cV 1) (cN 1)) (cN 2)) 6) (cA (cN 1) (cD (cB (cV 1) (cN 1)) (cN 2)))) (cW (cV 2) 10)) (cA (cN 1) (cV 2))) (cA (cN 2) (cV 2)))))) (cM (cN 4) (cR (cM (cM (cM (cM (cW (cD (cB (cV 1) (cN 1)) (cN 2)) 6) (cA (cN 1) (cD (cB (cV 1) (cN 1)) (cN 2)))) (cW (cV 2) 14)) (cA (cN 1) (cV 2))) (cA (cN 2) (cV 2)))))) (cM (cM (cM (cV 2) (cA (cN 1) (cV 2))) (cR (cM (cM (cM (cM (cD (cB (cV 1) (cN 1)) (cN 2)) (cA (cN 1) (cD (cB (cV 1) (cN 1)) (cN 2)))) (cV 2)) (cA (cN 1) (cV 2))) (cA (cN 2) (cV 2))))) (cA (cN 11) (cM (cN 6) (cV 2))))) (cM (cM (cM (cM (cA (cN 1) (cD (cB (cV 1) (cN 1)) (cN 2))) (cR (cA (cN 3) (cM (cM (cN 4) (cD (cB (cV 1) (cN 1)) (cN 2))) (cA (cN 2) (cD (cB (cV 1) (cN 1)) (cN 2))))))) (cW (cA (cN 1) (cV 2)) 3)) (cW (cA (cN 2) (cV 2)) 4)) (cA (cN 3) (cM (cN 2) (cV 2))))).
Definition QST_e213 := (cM (cB (cB (cM (cM (cN 2) (cD (cB (cV 1) (cN 1)) (cN 2))) (cA (cR (cD (cM (cA (cN 1) (cM (cN 2) (cD (cB (cV 1) (cN 1)) (cN 2)))) (cA (cN (-1)) (cV 2))) (cM (cA (cA (cN 3) (cM (cN 5) (cD (cB (cV 1) (cN 1)) (cN 2)))) (cM (cN 2) (cW (cD (cB (cV 1) (cN 1)) (cN 2)) 4))) (cV 2)))) (cM (cN 2) (cR (cD (cA (cN (-1)) (cV 2)) (cM (cA (cA (cA (cN 3) (cM (cN 11) (cD (cB (cV 1) (cN 1)) (cN 2)))) (cM (cN 12) (cW (cD (cB (cV 1) (cN 1)) (cN 2)) 4))) (cM (cN 4) (cW (cD (cB (cV 1) (cN 1)) (cN 2)) 6))) (cV 2))))))) (cM (cN 2) (cR (cD (cM (cM (cA (cN 1) (cD (cB (cV 1) (cN 1)) (cN 2))) (cA (cN 1) (cM (cN 2) (cD (cB (cV 1) (cN 1)) (cN 2))))) (cA (cN (-1)) (cV 2))) (cM (cA (cN 3) (cM (cN 2) (cD (cB (cV 1) (cN 1)) (cN 2)))) (cV 2)))))) (cR (cD (cM (cA (cN 1) (cM (cN 2) (cD (cB (cV 1) (cN 1)) (cN 2)))) (cA (cN (-1)) (cV 2))) (cM (cA (cA (cN 3) (cM (cN 5) (cD (cB (cV 1) (cN 1)) (cN 2)))) (cM (cN 2) (cW (cD (cB (cV 1) (cN 1)) (cN 2)) 4))) (cV 2))))) (cR (cD (cA (cN 1) (cV 2)) (cA (cM (cN 3) (cV 2)) (cM (cM (cN 2) (cD (cB (cV 1) (cN 1)) (cN 2))) (cV 2)))))).
Definition QST_e214 := (cM (cR (cD (cA (cN 1) (cV 2)) (cM (cA (cN 3) (cM (cN 2) (cD (cB (cV 1) (cN 1)) (cN 2)))) (cA (cV 2) (cM (cN 2) (cW (cV 2) 4)))))) (cA (cB (cM (cN (-2)) (cR (cD (cM (cM (cA (cN 1) (cD (cB (cV 1) (cN 1)) (cN 2))) (cA (cN 1) (cM (cN 2) (cD (cB (cV 1) (cN 1)) (cN 2))))) (cA (cN (-1)) (cM (cN 2) (cV 2)))) (cM (cM (cA (cN 3) (cM (cN 2) (cD (cB (cV 1) (cN 1)) (cN 2)))) (cV 2)) (cA (cN 1) (cV 2)))))) (cR (cD (cM (cA (cN 1) (cM (cN 2) (cD (cB (cV 1) (cN 1)) (cN 2)))) (cA (cN (-1)) (cM (cN 2) (cV 2)))) (cM (cM (cA (cA (cN 3) (cM (cN 5) (cD (cB (cV 1) (cN 1)) (cN 2)))) (cM (cN 2) (cW (cD (cB (cV 1) (cN 1)) (cN 2)) 4))) (cV 2)) (cA (cN 1) (cV 2)))))) (cM (cM (cN 2) (cD (cB (cV 1) (cN 1)) (cN 2))) (cA (cR (cD (cM (cA (cN 1) (cM (cN 2) (cD (cB (cV 1) (cN 1)) (cN 2)))) (cA (cN (-1)) (cM (cN 2) (cV 2)))) (cM (cM (cA (cA (cN 3) (cM (cN 5) (cD (cB (cV 1) (cN 1)) (cN 2)))) (cM (cN 2) (cW (cD (cB (cV 1) (cN 1)) (cN 2)) 4))) (cV 2)) (cA (cN 1) (cV 2))))) (cM (cN 2) (cR (cD (cA (cN (-1)) (cM (cN 2) (cV 2))) (cM (cM (cA (cA (cA (cN 3) (cM (cN 11) (cD (cB (cV 1) (cN 1)) (cN 2)))) (cM (cN 12) (cW (cD (cB (cV 1) (cN 1)) (cN 2)) 4))) (cM (cN 4) (cW (cD (cB (cV 1) (cN 1)) (cN 2)) 6))) (cV 2)) (cA (cN 1) (cV 2)))))))))).
Definition QST_e215 := (cD (cB (cN 1) (cM (cV 2) (cA (cN 1) (cV 2)))) (cM (cM (cR (cM (cA (cN 1) (cD (cB (cV 1) (cN 1)) (cN 2))) (cA (cN 1) (cM (cN 2) (cD (cB (cV 1) (cN 1)) (cN 2)))))) (cV 2)) (cA (cN 1) (cV 2)))).
Definition QST_e216 := (cO (cD (cN 1) (cM (cR (cM (cA (cN 1) (cD (cB (cV 1) (cN 1)) (cN 2))) (cA (cN 1) (cM (cN 2) (cD (cB (cV 1) (cN 1)) (cN 2)))))) (cA (cN 1) (cV 2))))).
Definition QST_e217 := (cA (cB (cN 1) (cD (cN 1) (cV 2))) (cD (cN 1) (cA (cN 1) (cV 2)))).
Definition QST_e218 := (cD (cN 1) (cA (cN 1) (cV 2))).
Definition QST_e219 := (cD (cA (cN 3) (cM (cN 2) (cV 2))) (cM (cA (cN 1) (cV 2)) (cR (cM (cM (cA (cN 1) (cD (cB (cV 1) (cN 1)) (cN 2))) (cA (cN 1) (cM (cN 2) (cD (cB (cV 1) (cN 1)) (cN 2))))) (cA (cN 3) (cM (cM (cN 4) (cV 2)) (cA (cN 2) (cV 2)))))))).
Definition QST_e220 := (cD (cA (cB (cM (cN (-9)) (cA (cM (cN 2) (cR (cD (cM (cM (cM (cA (cN 3) (cM (cM (cN 4) (cD (cB (cV 1) (cN 1)) (cN 2))) (cA (cN 2) (cD (cB (cV 1) (cN 1)) (cN 2))))) (cV 2)) (cA (cN 1) (cV 2))) (cA (cN 3) (cM (cN 2) (cV 2)))) (cA (cN 2) (cV 2))))) (cR (cM (cM (cM (cM (cA (cN 3) (cM (cM (cN 4) (cD (cB (cV 1) (cN 1)) (cN 2))) (cA (cN 2) (cD (cB (cV 1) (cN 1)) (cN 2))))) (cV 2)) (cA (cN 1) (cV 2))) (cA (cN 2) (cV 2))) (cA (cN 3) (cM (cN 2) (cV 2))))))) (cM (cM (cN 3) (cV 2)) (cA (cA (cM (cN 3) (cR (cD (cM (cM (cM (cA (cN 3) (cM (cM (cN 4) (cD (cB (cV 1) (cN 1)) (cN 2))) (cA (cN 2) (cD (cB (cV 1) (cN 1)) (cN 2))))) (cV 2)) (cA (cN 1) (cV 2))) (cA (cN 3) (cM (cN 2) (cV 2)))) (cA (cN 2) (cV 2))))) (cM (cN 7) (cR (cM (cM (cM (cM (cA (cN 3) (cM (cM (cN 4) (cD (cB (cV 1) (cN 1)) (cN 2))) (cA (cN 2) (cD (cB (cV 1) (cN 1)) (cN 2))))) (cV 2)) (cA (cN 1) (cV 2))) (cA (cN 2) (cV 2))) (cA (cN 3) (cM (cN 2) (cV 2))))))) (cM (cM (cN 2) (cV 2)) (cR (cM (cM (cM (cM (cA (cN 3) (cM (cM (cN 4) (cD (cB (cV 1) (cN 1)) (cN 2))) (cA (cN 2) (cD (cB (cV 1) (cN 1)) (cN 2))))) (cV 2)) (cA (cN 1) (cV 2))) (cA (cN 2) (cV 2))) (cA (cN 3) (cM (cN 2) (cV 2))))))))) (cM (cM (cN 2) (cD (cB (cV 1) (cN 1)) (cN 2))) (cB (cB (cA (cM (cN (-6)) (cR (cD (cM (cM (cM (cA (cN 3) (cM (cM (cN 4) (cD (cB (cV 1) (cN 1)) (cN 2))) (cA (cN 2) (cD (cB (cV 1) (cN 1)) (cN 2))))) (cV 2)) (cA (cN 1) (cV 2))) (cA (cN 3) (cM (cN 2) (cV 2)))) (cA (cN 2) (cV 2))))) (cM (cN 6) (cR (cD (cM (cM (cM (cA (cN 3) (cM (cM (cN 4) (cD (cB (cV 1) (cN 1)) (cN 2))) (cA (cN 2) (cD (cB (cV 1) (cN 1)) (cN 2))))) (cW (cV 2) 6)) (cA (cN 1) (cV 2))) (cA (cN 3) (cM (cN 2) (cV 2)))) (cA (cN 2) (cV 2)))))) (cM (cN 3) (cR (cM (cM (cM (cM (cA (cN 3) (cM (cM (cN 4) (cD (cB (cV 1) (cN 1)) (cN 2))) (cA (cN 2) (cD (cB (cV 1) (cN 1)) (cN 2))))) (cV 2)) (cA (cN 1) (cV 2))) (cA (cN 2) (cV 2))) (cA (cN 3) (cM (cN 2) (cV 2))))))) (cM (cV 2) (cA (cA (cM (cN 9) (cR (cD (cM (cM (cM (cA (cN 3) (cM (cM (cN 4) (cD (cB (cV 1) (cN 1)) (cN 2))) (cA (cN 2) (cD (cB (cV 1) (cN 1)) (cN 2))))) (cV 2)) (cA (cN 1) (cV 2))) (cA (cN 3) (cM (cN 2) (cV 2)))) (cA (cN 2) (cV 2))))) (cM (cN 7) (cR (cM (cM (cM (cM (cA (cN 3) (cM (cM (cN 4) (cD (cB (cV 1) (cN 1)) (cN 2))) (cA (cN 2) (cD (cB (cV 1) (cN 1)) (cN 2))))) (cV 2)) (cA (cN 1) (cV 2))) (cA (cN 2) (cV 2))) (cA (cN 3) (cM (cN 2) (cV 2))))))) (cM (cM (cN 2) (cV 2)) (cR (cM (cM (cM (cM (cA (cN 3) (cM (cM (cN 4) (cD (cB (cV 1) (cN 1)) (cN 2))) (cA (cN 2) (cD (cB (cV 1) (cN 1)) (cN 2))))) (cV 2)) (cA (cN 1) (cV 2))) (cA (cN 2) (cV 2))) (cA (cN 3) (cM (cN 2) (cV 2))))))))))) (cM (cA (cN 2) (cV 2)) (cR (cM (cM (cM (cM (cA (cN 1) (cD (cB (cV 1) (cN 1)) (cN 2))) (cW (cA (cN 1) (cM (cN 2) (cD (cB (cV 1) (cN 1)) (cN 2)))) 4)) (cW (cA (cN 3) (cM (cN 2) (cD (cB (cV 1) (cN 1)) (cN 2)))) 6)) (cW (cA (cN 1) (cV 2)) 6)) (cW (cA (cN 3) (cM (cN 2) (cV 2))) 6))))).
Definition QST_e221 := (cD (cA (cB (cM (cN (-2)) (cR (cD (cM (cA (cN 2) (cD (cB (cV 1) (cN 1)) (cN 2))) (cA (cN 1) (cM (cN 2) (cD (cB (cV 1) (cN 1)) (cN 2))))) (cA (cN 1) (cV 2))))) (cR (cM (cM (cA (cN 2) (cD (cB (cV 1) (cN 1)) (cN 2))) (cA (cN 1) (cM (cN 2) (cD (cB (cV 1) (cN 1)) (cN 2))))) (cA (cN 1) (cV 2))))) (cM (cV 2) (cB (cA (cR (cD (cM (cA (cN 2) (cD (cB (cV 1) (cN 1)) (cN 2))) (cA (cN 1) (cM (cN 2) (cD (cB (cV 1) (cN 1)) (cN 2))))) (cA (cN 1) (cV 2)))) (cM (cM (cN 2) (cV 2)) (cR (cD (cM (cA (cN 2) (cD (cB (cV 1) (cN 1)) (cN 2))) (cA (cN 1) (cM (cN 2) (cD (cB (cV 1) (cN 1)) (cN 2))))) (cA (cN 1) (cV 2)))))) (cM (cN 2) (cR (cM (cM (cA (cN 2) (cD (cB (cV 1) (cN 1)) (cN 2))) (cA (cN 1) (cM (cN 2) (cD (cB (cV 1) (cN 1)) (cN 2))))) (cA (cN 1) (cV 2)))))))) (cR (cM (cM (cM (cM (cA (cN 2) (cD (cB (cV 1) (cN 1)) (cN 2))) (cA (cN 1) (cM (cN 2) (cD (cB (cV 1) (cN 1)) (cN 2))))) (cA (cN 1) (cV 2))) (cA (cN 1) (cM (cN 2) (cV 2)))) (cA (cN 3) (cM (cN 2) (cV 2)))))).
Definition QST_e222 := (cM (cR (cD (cA (cN 1) (cM (cN 2) (cV 2))) (cM (cM (cM (cM (cM (cW (cA (cN 2) (cD (cB (cV 1) (cN 1)) (cN 2))) 12) (cW (cA (cN 1) (cM (cN 2) (cD (cB (cV 1) (cN 1)) (cN 2)))) 4)) (cA (cN 3) (cM (cN 2) (cD (cB (cV 1) (cN 1)) (cN 2))))) (cW (cA (cN 1) (cV 2)) 4)) (cW (cA (cN 2) (cV 2)) 8)) (cA (cN 3) (cM (cN 2) (cV 2)))))) (cA (cA (cA (cA (cA (cA (cA (cA (cM (cN 6) (cR (cD (cM (cM (cM (cM (cW (cA (cN 2) (cD (cB (cV 1) (cN 1)) (cN 2))) 8) (cW (cA (cN 1) (cM (cN 2) (cD (cB (cV 1) (cN 1)) (cN 2)))) 4)) (cV 2)) (cW (cA (cN 2) (cV 2)) 6)) (cA (cN 1) (cM (cN 2) (cV 2)))) (cM (cA (cN 3) (cM (cN 2) (cD (cB (cV 1) (cN 1)) (cN 2)))) (cA (cN 3) (cM (cN 2) (cV 2))))))) (cM (cN 4) (cR (cD (cM (cM (cM (cM (cW (cA (cN 2) (cD (cB (cV 1) (cN 1)) (cN 2))) 8) (cW (cA (cN 1) (cM (cN 2) (cD (cB (cV 1) (cN 1)) (cN 2)))) 8)) (cV 2)) (cW (cA (cN 2) (cV 2)) 6)) (cA (cN 1) (cM (cN 2) (cV 2)))) (cM (cA (cN 3) (cM (cN 2) (cD (cB (cV 1) (cN 1)) (cN 2)))) (cA (cN 3) (cM (cN 2) (cV 2)))))))) (cM (cN 2) (cR (cD (cM (cM (cM (cM (cM (cW (cA (cN 1) (cD (cB (cV 1) (cN 1)) (cN 2))) 4) (cW (cA (cN 2) (cD (cB (cV 1) (cN 1)) (cN 2))) 8)) (cW (cA (cN 1) (cM (cN 2) (cD (cB (cV 1) (cN 1)) (cN 2)))) 8)) (cV 2)) (cW (cA (cN 2) (cV 2)) 6)) (cA (cN 1) (cM (cN 2) (cV 2)))) (cM (cA (cN 3) (cM (cN 2) (cD (cB (cV 1) (cN 1)) (cN 2)))) (cA (cN 3) (cM (cN 2) (cV 2)))))))) (cM (cN 2) (cR (cD (cM (cM (cM (cM (cM (cW (cA (cN 2) (cD (cB (cV 1) (cN 1)) (cN 2))) 8) (cW (cA (cN 1) (cM (cN 2) (cD (cB (cV 1) (cN 1)) (cN 2)))) 8)) (cV 2)) (cW (cA (cN 1) (cV 2)) 4)) (cW (cA (cN 2) (cV 2)) 6)) (cA (cN 1) (cM (cN 2) (cV 2)))) (cM (cA (cN 3) (cM (cN 2) (cD (cB (cV 1) (cN 1)) (cN 2)))) (cA (cN 3) (cM (cN 2) (cV 2)))))))) (cR (cD (cM (cM (cM (cM (cM (cM (cW (cA (cN 1) (cD (cB (cV 1) (cN 1)) (cN 2))) 4) (cW (cA (cN 2) (cD (cB (cV 1) (cN 1)) (cN 2))) 8)) (cW (cA (cN 1) (cM (cN 2) (cD (cB (cV 1) (cN 1)) (cN 2)))) 8)) (cV 2)) (cW (cA (cN 1) (cV 2)) 4)) (cW (cA (cN 2) (cV 2)) 6)) (cA (cN 1) (cM (cN 2) (cV 2)))) (cM (cA (cN 3) (cM (cN 2) (cD (cB (cV 1) (cN 1)) (cN 2)))) (cA (cN 3) (cM (cN 2) (cV 2))))))) (cM (cM (cM (cM (cN 3) (cW (cA (cN 2) (cD (cB (cV 1) (cN 1)) (cN 2))) 5)) (cA (cN 1) (cM (cN 2) (cD (cB (cV 1) (cN 1)) (cN 2))))) (cW (cM (cA (cN 1) (cV 2)) (cA (cN 2) (cV 2))) 3)) (cR (cD (cM (cV 2) (cA (cN 1) (cM (cN 2) (cV 2)))) (cM (cA (cA (cN 6) (cM (cN 7) (cD (cB (cV 1) (cN 1)) (cN 2)))) (cM (cN 2) (cW (cD (cB (cV 1) (cN 1)) (cN 2)) 4))) (cA (cA (cN 3) (cM (cN 5) (cV 2))) (cM (cN 2) (cW (cV 2) 4)))))))) (cM (cM (cM (cM (cN 9) (cW (cA (cN 2) (cD (cB (cV 1) (cN 1)) (cN 2))) 5)) (cA (cN 1) (cM (cN 2) (cD (cB (cV 1) (cN 1)) (cN 2))))) (cW (cA (cN 2) (cV 2)) 4)) (cR (cD (cV 2) (cM (cA (cA (cN 6) (cM (cN 7) (cD (cB (cV 1) (cN 1)) (cN 2)))) (cM (cN 2) (cW (cD (cB (cV 1) (cN 1)) (cN 2)) 4))) (cA (cA (cA (cN 6) (cM (cN 19) (cV 2))) (cM (cN 16) (cW (cV 2) 4))) (cM (cN 4) (cW (cV 2) 6)))))))) (cM (cM (cM (cM (cN 6) (cW (cA (cN 2) (cD (cB (cV 1) (cN 1)) (cN 2))) 5)) (cW (cA (cN 1) (cM (cN 2) (cD (cB (cV 1) (cN 1)) (cN 2)))) 4)) (cW (cA (cN 2) (cV 2)) 4)) (cR (cD (cV 2) (cM (cA (cA (cN 6) (cM (cN 7) (cD (cB (cV 1) (cN 1)) (cN 2)))) (cM (cN 2) (cW (cD (cB (cV 1) (cN 1)) (cN 2)) 4))) (cA (cA (cA (cN 6) (cM (cN 19) (cV 2))) (cM (cN 16) (cW (cV 2) 4))) (cM (cN 4) (cW (cV 2) 6)))))))) (cM (cN 3) (cR (cD (cM (cM (cM (cM (cW (cA (cN 1) (cD (cB (cV 1) (cN 1)) (cN 2))) 4) (cW (cA (cN 2) (cD (cB (cV 1) (cN 1)) (cN 2))) 8)) (cW (cA (cN 1) (cM (cN 2) (cD (cB (cV 1) (cN 1)) (cN 2)))) 8)) (cV 2)) (cW (cA (cN 2) (cV 2)) 6)) (cM (cA (cN 3) (cM (cN 2) (cD (cB (cV 1) (cN 1)) (cN 2)))) (cA (cN 3) (cM (cM (cN 4) (cV 2)) (cA (cN 2) (cV 2)))))))))).
Definition QST_e223 := (cD (cM (cN (-2)) (cR (cD (cM (cM (cM (cD (cB (cV 1) (cN 1)) (cN 2)) (cA (cN 1) (cD (cB (cV 1) (cN 1)) (cN 2)))) (cA (cN (-2)) (cV 2))) (cA (cN 1) (cV 2))) (cM (cA (cN (-1)) (cV 2)) (cV 2))))) (cA (cN 1) (cM (cN 2) (cD (cB (cV 1) (cN 1)) (cN 2))))).
Definition QST_e224 := (cD (cM (cM (cM (cN 2) (cR (cN 2))) (cB (cN 3) (cM (cN 2) (cV 2)))) (cR (cD (cM (cD (cB (cV 1) (cN 1)) (cN 2)) (cA (cN 1) (cD (cB (cV 1) (cN 1)) (cN 2)))) (cM (cV 2) (cA (cB (cA (cN (-3)) (cM (cN 11) (cV 2))) (cM (cN 12) (cW (cV 2) 4))) (cM (cN 4) (cW (cV 2) 6))))))) (cA (cN 1) (cM (cN 2) (cD (cB (cV 1) (cN 1)) (cN 2))))).
Definition QST_e225 := (cD (cM (cM (cN 2) (cR (cN 2))) (cR (cD (cM (cD (cB (cV 1) (cN 1)) (cN 2)) (cA (cN 1) (cD (cB (cV 1) (cN 1)) (cN 2)))) (cM (cA (cN (-1)) (cV 2)) (cV 2))))) (cA (cN 1) (cM (cN 2) (cD (cB (cV 1) (cN 1)) (cN 2))))).
Definition QST_e226 := (cD (cM (cM (cN (-2)) (cA (cN (-3)) (cW (cV 2) 4))) (cR (cD (cM (cD (cB (cV 1) (cN 1)) (cN 2)) (cA (cN 1) (cD (cB (cV 1) (cN 1)) (cN 2)))) (cM (cW (cA (cN 1) (cM (cN 2) (cD (cB (cV 1) (cN 1)) (cN 2)))) 4) (cA (cN (-1)) (cW (cV 2) 4)))))) (cV 2)).
Definition QST_e227 := (cM (cM (cM (cN (-2)) (cR (cN 3))) (cR (cD (cA (cN 1) (cD (cB (cV 1) (cN 1)) (cN 2))) (cM (cA (cN 1) (cM (cN 2) (cD (cB (cV 1) (cN 1)) (cN 2)))) (cA (cV 2) (cM (cN 2) (cW (cV 2) 4))))))) (cA (cM (cM (cV 2) (cA (cN (-5)) (cM (cN 2) (cV 2)))) (cR (cD (cD (cB (cV 1) (cN 1)) (cN 2)) (cM (cM (cA (cN 1) (cM (cN 2) (cD (cB (cV 1) (cN 1)) (cN 2)))) (cV 2)) (cA (cA (cB (cN (-3)) (cM (cN 2) (cV 2))) (cM (cN 3) (cW (cV 2) 4))) (cM (cN 2) (cW (cV 2) 6))))))) (cM (cN 3) (cA (cR (cD (cD (cB (cV 1) (cN 1)) (cN 2)) (cM (cM (cA (cN 1) (cM (cN 2) (cD (cB (cV 1) (cN 1)) (cN 2)))) (cV 2)) (cA (cA (cB (cN (-3)) (cM (cN 2) (cV 2))) (cM (cN 3) (cW (cV 2) 4))) (cM (cN 2) (cW (cV 2) 6)))))) (cM (cN 2) (cR (cD (cM (cD (cB (cV 1) (cN 1)) (cN 2)) (cA (cN (-1)) (cV 2))) (cM (cA (cN 1) (cM (cN 2) (cD (cB (cV 1) (cN 1)) (cN 2)))) (cA (cA (cM (cN 3) (cV 2)) (cM (cN 5) (cW (cV 2) 4))) (cM (cN 2) (cW (cV 2) 6))))))))))).
Definition QST_e228 := (cD (cM (cM (cM (cN 2) (cR (cN 3))) (cR (cD (cM (cA (cN 1) (cD (cB (cV 1) (cN 1)) (cN 2))) (cA (cN 1) (cV 2))) (cA (cN 1) (cM (cN 2) (cD (cB (cV 1) (cN 1)) (cN 2))))))) (cB (cA (cM (cM (cA (cN (-1)) (cV 2)) (cA (cN (-1)) (cM (cN 2) (cV 2)))) (cR (cD (cD (cB (cV 1) (cN 1)) (cN 2)) (cM (cA (cN 1) (cM (cN 2) (cD (cB (cV 1) (cN 1)) (cN 2)))) (cA (cB (cN 3) (cM (cN 7) (cV 2))) (cM (cN 4) (cW (cV 2) 6))))))) (cD (cM (cM (cN 2) (cB (cN 3) (cM (cN 2) (cV 2)))) (cR (cD (cM (cD (cB (cV 1) (cN 1)) (cN 2)) (cA (cN (-1)) (cV 2))) (cM (cA (cN 1) (cM (cN 2) (cD (cB (cV 1) (cN 1)) (cN 2)))) (cA (cN (-3)) (cM (cM (cN 4) (cV 2)) (cA (cN 1) (cV 2)))))))) (cV 2))) (cD (cM (cM (cA (cN (-3)) (cV 2)) (cA (cN (-1)) (cM (cN 2) (cV 2)))) (cR (cD (cM (cD (cB (cV 1) (cN 1)) (cN 2)) (cA (cN (-1)) (cV 2))) (cM (cA (cN 1) (cM (cN 2) (cD (cB (cV 1) (cN 1)) (cN 2)))) (cA (cN (-3)) (cM (cM (cN 4) (cV 2)) (cA (cN 1) (cV 2)))))))) (cV 2)))) (cA (cN 1) (cV 2))).
Definition QST_e229 := (cD (cM (cM (cN (-2)) (cR (cM (cD (cB (cV 1) (cN 1)) (cN 2)) (cA (cN 1) (cD (cB (cV 1) (cN 1)) (cN 2)))))) (cA (cA (cN (-3)) (cV 2)) (cW (cV 2) 4))) (cM (cM (cA (cN 1) (cM (cN 2) (cD (cB (cV 1) (cN 1)) (cN 2)))) (cV 2)) (cA (cN 1) (cV 2)))).
Definition QST_e230 := (cD (cM (cM (cM (cN (-2)) (cR (cN 3))) (cR (cD (cM (cA (cN 1) (cD (cB (cV 1) (cN 1)) (cN 2))) (cA (cN 1) (cV 2))) (cA (cN 1) (cM (cN 2) (cD (cB (cV 1) (cN 1)) (cN 2))))))) (cA (cM (cM (cN 3) (cV 2)) (cB (cA (cM (cN (-7)) (cR (cD (cD (cB (cV 1) (cN 1)) (cN 2)) (cM (cM (cA (cN 1) (cM (cN 2) (cD (cB (cV 1) (cN 1)) (cN 2)))) (cV 2)) (cA (cA (cN (-2)) (cM (cN 3) (cV 2))) (cM (cN 2) (cW (cV 2) 4))))))) (cM (cM (cN 6) (cV 2)) (cR (cD (cD (cB (cV 1) (cN 1)) (cN 2)) (cM (cM (cA (cN 1) (cM (cN 2) (cD (cB (cV 1) (cN 1)) (cN 2)))) (cV 2)) (cA (cA (cN (-2)) (cM (cN 3) (cV 2))) (cM (cN 2) (cW (cV 2) 4)))))))) (cM (cN 2) (cR (cD (cM (cD (cB (cV 1) (cN 1)) (cN 2)) (cV 2)) (cM (cA (cN 1) (cM (cN 2) (cD (cB (cV 1) (cN 1)) (cN 2)))) (cA (cA (cN (-2)) (cM (cN 3) (cV 2))) (cM (cN 2) (cW (cV 2) 4))))))))) (cM (cN 2) (cA (cA (cA (cM (cN 6) (cR (cD (cM (cD (cB (cV 1) (cN 1)) (cN 2)) (cA (cN (-1)) (cM (cN 2) (cV 2)))) (cM (cM (cA (cN 1) (cM (cN 2) (cD (cB (cV 1) (cN 1)) (cN 2)))) (cV 2)) (cA (cN 2) (cV 2)))))) (cM (cN 3) (cR (cD (cD (cB (cV 1) (cN 1)) (cN 2)) (cM (cM (cA (cN 1) (cM (cN 2) (cD (cB (cV 1) (cN 1)) (cN 2)))) (cV 2)) (cA (cA (cN (-2)) (cM (cN 3) (cV 2))) (cM (cN 2) (cW (cV 2) 4)))))))) (cR (cD (cM (cD (cB (cV 1) (cN 1)) (cN 2)) (cV 2)) (cM (cA (cN 1) (cM (cN 2) (cD (cB (cV 1) (cN 1)) (cN 2)))) (cA (cA (cN (-2)) (cM (cN 3) (cV 2))) (cM (cN 2) (cW (cV 2) 4))))))) (cM (cN 2) (cR (cD (cM (cD (cB (cV 1) (cN 1)) (cN 2)) (cW (cV 2) 10)) (cM (cA (cN 1) (cM (cN 2) (cD (cB (cV 1) (cN 1)) (cN 2)))) (cA (cA (cN (-2)) (cM (cN 3) (cV 2))) (cM (cN 2) (cW (cV 2) 4))))))))))) (cW (cM (cA (cN 1) (cV 2)) (cA (cN 3) (cM (cN 2) (cV 2)))) 3)).
Definition QST_e231 := (cM (cM (cM (cN 2) (cR (cN 3))) (cR (cD (cM (cA (cN 1) (cD (cB (cV 1) (cN 1)) (cN 2))) (cA (cN 1) (cV 2))) (cA (cN 1) (cM (cN 2) (cD (cB (cV 1) (cN 1)) (cN 2))))))) (cA (cB (cA (cM (cM (cV 2) (cA (cN (-3)) (cM (cB (cN 7) (cM (cN 2) (cV 2))) (cV 2)))) (cR (cD (cM (cD (cB (cV 1) (cN 1)) (cN 2)) (cA (cN 1) (cM (cN 2) (cV 2)))) (cM (cM (cM (cM (cA (cN 1) (cM (cN 2) (cD (cB (cV 1) (cN 1)) (cN 2)))) (cV 2)) (cW (cA (cN 1) (cV 2)) 6)) (cW (cA (cN 3) (cM (cN 2) (cV 2))) 4)) (cA (cA (cN (-2)) (cM (cN 3) (cV 2))) (cM (cN 2) (cW (cV 2) 4))))))) (cM (cM (cM (cN 3) (cB (cN 3) (cM (cN 2) (cV 2)))) (cV 2)) (cR (cD (cM (cD (cB (cV 1) (cN 1)) (cN 2)) (cA (cN (-1)) (cM (cN 2) (cV 2)))) (cM (cM (cM (cM (cA (cN 1) (cM (cN 2) (cD (cB (cV 1) (cN 1)) (cN 2)))) (cV 2)) (cW (cA (cN 1) (cV 2)) 6)) (cW (cA (cN 3) (cM (cN 2) (cV 2))) 4)) (cA (cA (cN 2) (cM (cN 5) (cV 2))) (cM (cN 2) (cW (cV 2) 4)))))))) (cM (cN 6) (cR (cD (cM (cM (cD (cB (cV 1) (cN 1)) (cN 2)) (cW (cA (cN (-1)) (cV 2)) 4)) (cA (cN (-1)) (cM (cN 2) (cV 2)))) (cM (cM (cM (cM (cA (cN 1) (cM (cN 2) (cD (cB (cV 1) (cN 1)) (cN 2)))) (cV 2)) (cW (cA (cN 1) (cV 2)) 6)) (cW (cA (cN 3) (cM (cN 2) (cV 2))) 4)) (cA (cA (cN 2) (cM (cN 5) (cV 2))) (cM (cN 2) (cW (cV 2) 4)))))))) (cM (cA (cN (-1)) (cM (cN 2) (cV 2))) (cR (cD (cM (cM (cD (cB (cV 1) (cN 1)) (cN 2)) (cV 2)) (cA (cN 1) (cM (cN 2) (cV 2)))) (cM (cM (cA (cN 1) (cM (cN 2) (cD (cB (cV 1) (cN 1)) (cN 2)))) (cW (cA (cN 3) (cM (cN 2) (cV 2))) 4)) (cA (cA (cA (cN (-2)) (cV 2)) (cM (cN 5) (cW (cV 2) 4))) (cM (cN 2) (cW (cV 2) 6))))))))).
Definition QST_e232 := (cM (cM (cN (-2)) (cR (cD (cA (cN 1) (cD (cB (cV 1) (cN 1)) (cN 2))) (cM (cM (cM (cA (cN 1) (cM (cN 2) (cD (cB (cV 1) (cN 1)) (cN 2)))) (cW (cA (cN 2) (cV 2)) 6)) (cW (cA (cN 3) (cM (cN 2) (cV 2))) 4)) (cA (cV 2) (cW (cV 2) 4)))))) (cA (cM (cN (-12)) (cR (cD (cD (cB (cV 1) (cN 1)) (cN 2)) (cA (cA (cA (cN 1) (cM (cN 2) (cD (cB (cV 1) (cN 1)) (cN 2)))) (cV 2)) (cM (cM (cN 2) (cD (cB (cV 1) (cN 1)) (cN 2))) (cV 2)))))) (cM (cV 2) (cA (cM (cN (-2)) (cR (cD (cM (cD (cB (cV 1) (cN 1)) (cN 2)) (cA (cN 1) (cV 2))) (cA (cN 1) (cM (cN 2) (cD (cB (cV 1) (cN 1)) (cN 2))))))) (cM (cV 2) (cA (cA (cM (cN (-3)) (cR (cD (cM (cD (cB (cV 1) (cN 1)) (cN 2)) (cA (cN 1) (cV 2))) (cA (cN 1) (cM (cN 2) (cD (cB (cV 1) (cN 1)) (cN 2))))))) (cM (cN 21) (cR (cD (cD (cB (cV 1) (cN 1)) (cN 2)) (cA (cA (cA (cN 1) (cM (cN 2) (cD (cB (cV 1) (cN 1)) (cN 2)))) (cV 2)) (cM (cM (cN 2) (cD (cB (cV 1) (cN 1)) (cN 2))) (cV 2))))))) (cM (cM (cN 2) (cV 2)) (cA (cR (cD (cM (cD (cB (cV 1) (cN 1)) (cN 2)) (cA (cN 1) (cV 2))) (cA (cN 1) (cM (cN 2) (cD (cB (cV 1) (cN 1)) (cN 2)))))) (cM (cN 6) (cR (cD (cD (cB (cV 1) (cN 1)) (cN 2)) (cA (cA (cA (cN 1) (cM (cN 2) (cD (cB (cV 1) (cN 1)) (cN 2)))) (cV 2)) (cM (cM (cN 2) (cD (cB (cV 1) (cN 1)) (cN 2))) (cV 2)))))))))))))).
Definition QST_e233 := (cD (cM (cM (cM (cN (-2)) (cR (cN 2))) (cR (cD (cM (cA (cN 1) (cD (cB (cV 1) (cN 1)) (cN 2))) (cA (cN 1) (cV 2))) (cM (cA (cN 1) (cM (cN 2) (cD (cB (cV 1) (cN 1)) (cN 2)))) (cA (cA (cM (cN 10) (cV 2)) (cM (cN 9) (cW (cV 2) 4))) (cM (cN 2) (cW (cV 2) 6))))))) (cA (cA (cA (cM (cN 30) (cR (cD (cM (cD (cB (cV 1) (cN 1)) (cN 2)) (cV 2)) (cM (cA (cN 1) (cM (cN 2) (cD (cB (cV 1) (cN 1)) (cN 2)))) (cA (cN 5) (cM (cN 2) (cV 2))))))) (cM (cN 47) (cR (cD (cM (cD (cB (cV 1) (cN 1)) (cN 2)) (cW (cV 2) 6)) (cM (cA (cN 1) (cM (cN 2) (cD (cB (cV 1) (cN 1)) (cN 2)))) (cA (cN 5) (cM (cN 2) (cV 2)))))))) (cM (cN 24) (cR (cD (cM (cD (cB (cV 1) (cN 1)) (cN 2)) (cW (cV 2) 10)) (cM (cA (cN 1) (cM (cN 2) (cD (cB (cV 1) (cN 1)) (cN 2)))) (cA (cN 5) (cM (cN 2) (cV 2)))))))) (cM (cN 4) (cR (cD (cM (cD (cB (cV 1) (cN 1)) (cN 2)) (cW (cV 2) 14)) (cM (cA (cN 1) (cM (cN 2) (cD (cB (cV 1) (cN 1)) (cN 2)))) (cA (cN 5) (cM (cN 2) (cV 2))))))))) (cA (cA (cA (cN 6) (cM (cN 13) (cV 2))) (cM (cN 9) (cW (cV 2) 4))) (cM (cN 2) (cW (cV 2) 6)))).
Definition QST_e234 := (cD (cM (cM (cM (cN 2) (cR (cN 2))) (cR (cD (cA (cN 1) (cD (cB (cV 1) (cN 1)) (cN 2))) (cM (cA (cN 1) (cM (cN 2) (cD (cB (cV 1) (cN 1)) (cN 2)))) (cA (cA (cA (cN 30) (cM (cN 47) (cV 2))) (cM (cN 24) (cW (cV 2) 4))) (cM (cN 4) (cW (cV 2) 6))))))) (cA (cM (cN 6) (cA (cM (cN 3) (cR (cD (cM (cD (cB (cV 1) (cN 1)) (cN 2)) (cA (cN 1) (cV 2))) (cA (cN 1) (cM (cN 2) (cD (cB (cV 1) (cN 1)) (cN 2))))))) (cM (cN 2) (cR (cD (cD (cB (cV 1) (cN 1)) (cN 2)) (cA (cA (cA (cN 1) (cM (cN 2) (cD (cB (cV 1) (cN 1)) (cN 2)))) (cV 2)) (cM (cM (cN 2) (cD (cB (cV 1) (cN 1)) (cN 2))) (cV 2)))))))) (cM (cV 2) (cB (cB (cA (cM (cN 38) (cR (cD (cM (cD (cB (cV 1) (cN 1)) (cN 2)) (cA (cN 1) (cV 2))) (cA (cN 1) (cM (cN 2) (cD (cB (cV 1) (cN 1)) (cN 2))))))) (cM (cM (cN 4) (cV 2)) (cR (cD (cM (cD (cB (cV 1) (cN 1)) (cN 2)) (cA (cN 1) (cV 2))) (cA (cN 1) (cM (cN 2) (cD (cB (cV 1) (cN 1)) (cN 2)))))))) (cM (cN 9) (cR (cD (cD (cB (cV 1) (cN 1)) (cN 2)) (cA (cA (cA (cN 1) (cM (cN 2) (cD (cB (cV 1) (cN 1)) (cN 2)))) (cV 2)) (cM (cM (cN 2) (cD (cB (cV 1) (cN 1)) (cN 2))) (cV 2))))))) (cM (cM (cN 18) (cV 2)) (cR (cD (cD (cB (cV 1) (cN 1)) (cN 2)) (cA (cA (cA (cN 1) (cM (cN 2) (cD (cB (cV 1) (cN 1)) (cN 2)))) (cV 2)) (cM (cM (cN 2) (cD (cB (cV 1) (cN 1)) (cN 2))) (cV 2)))))))))) (cM (cA (cN 2) (cV 2)) (cA (cN 3) (cM (cN 2) (cV 2))))).
Definition QST_e235 := (cD (cM (cM (cN (-2)) (cR (cD (cA (cN 1) (cD (cB (cV 1) (cN 1)) (cN 2))) (cM (cM (cA (cN 1) (cM (cN 2) (cD (cB (cV 1) (cN 1)) (cN 2)))) (cA (cN 3) (cV 2))) (cA (cA (cA (cN 30) (cM (cN 47) (cV 2))) (cM (cN 24) (cW (cV 2) 4))) (cM (cN 4) (cW (cV 2) 6))))))) (cA (cA (cA (cA (cM (cM (cN 4) (cA (cN 1) (cM (cN 2) (cV 2)))) (cR (cD (cM (cM (cM (cD (cB (cV 1) (cN 1)) (cN 2)) (cV 2)) (cA (cN 1) (cV 2))) (cA (cN 3) (cM (cN 2) (cV 2)))) (cM (cA (cN 1) (cM (cN 2) (cD (cB (cV 1) (cN 1)) (cN 2)))) (cA (cN 5) (cM (cN 2) (cV 2))))))) (cM (cM (cA (cN 2) (cV 2)) (cA (cN 1) (cM (cN 2) (cV 2)))) (cR (cD (cM (cM (cM (cD (cB (cV 1) (cN 1)) (cN 2)) (cV 2)) (cA (cN 1) (cV 2))) (cA (cN 3) (cM (cN 2) (cV 2)))) (cM (cA (cN 1) (cM (cN 2) (cD (cB (cV 1) (cN 1)) (cN 2)))) (cA (cN 5) (cM (cN 2) (cV 2)))))))) (cM (cM (cN 18) (cA (cN 1) (cM (cN 2) (cV 2)))) (cR (cD (cM (cM (cD (cB (cV 1) (cN 1)) (cN 2)) (cV 2)) (cA (cN 1) (cV 2))) (cM (cA (cN 1) (cM (cN 2) (cD (cB (cV 1) (cN 1)) (cN 2)))) (cA (cA (cN 15) (cM (cN 16) (cV 2))) (cM (cN 4) (cW (cV 2) 4)))))))) (cM (cN 30) (cR (cD (cM (cD (cB (cV 1) (cN 1)) (cN 2)) (cV 2)) (cM (cA (cN 1) (cM (cN 2) (cD (cB (cV 1) (cN 1)) (cN 2)))) (cA (cA (cA (cN 15) (cM (cN 31) (cV 2))) (cM (cN 20) (cW (cV 2) 4))) (cM (cN 4) (cW (cV 2) 6)))))))) (cM (cM (cN 24) (cA (cN 1) (cM (cN 2) (cV 2)))) (cR (cD (cM (cD (cB (cV 1) (cN 1)) (cN 2)) (cV 2)) (cM (cA (cN 1) (cM (cN 2) (cD (cB (cV 1) (cN 1)) (cN 2)))) (cA (cA (cA (cN 15) (cM (cN 31) (cV 2))) (cM (cN 20) (cW (cV 2) 4))) (cM (cN 4) (cW (cV 2) 6))))))))) (cA (cN 2) (cV 2))).
Definition QST_e236 := (cD (cR (cM (cA (cN (-2)) (cV 2)) (cA (cN 1) (cV 2)))) (cM (cA (cN 1) (cM (cN 2) (cD (cB (cV 1) (cN 1)) (cN 2)))) (cR (cM (cA (cN (-1)) (cV 2)) (cV 2))))).
Definition QST_e237 := (cD (cR (cN 2)) (cM (cA (cN 1) (cM (cN 2) (cD (cB (cV 1) (cN 1)) (cN 2)))) (cR (cM (cV 2) (cA (cV 2) (cD (cN 1) (cA (cN (-3)) (cM (cN 2) (cV 2))))))))).
Definition QST_e238 := (cO (cD (cR (cM (cA (cN (-2)) (cV 2)) (cA (cN 1) (cV 2)))) (cR (cM (cA (cN (-1)) (cV 2)) (cV 2))))).
Definition QST_e239 := (cO (cR (cD (cA (cN (-6)) (cM (cN 4) (cV 2))) (cA (cB (cV 2) (cM (cN 3) (cW (cV 2) 4))) (cM (cN 2) (cW (cV 2) 6)))))).
Definition QST_e240 := (cD (cA (cN (-3)) (cW (cV 2) 4)) (cM (cA (cV 2) (cM (cM (cN 2) (cD (cB (cV 1) (cN 1)) (cN 2))) (cV 2))) (cR (cA (cN (-1)) (cW (cV 2) 4))))).
Definition QST_e241 := (cD (cM (cR (cN 3)) (cA (cM (cM (cV 2) (cR (cD (cM (cA (cN 1) (cD (cB (cV 1) (cN 1)) (cN 2))) (cA (cN 1) (cV 2))) (cA (cN (-1)) (cV 2))))) (cA (cN (-5)) (cM (cN 2) (cV 2)))) (cM (cN 3) (cA (cR (cD (cM (cA (cN 1) (cD (cB (cV 1) (cN 1)) (cN 2))) (cA (cN 1) (cV 2))) (cA (cN (-1)) (cV 2)))) (cM (cN 2) (cR (cM (cA (cN 1) (cD (cB (cV 1) (cN 1)) (cN 2))) (cA (cN (-1)) (cW (cV 2) 4))))))))) (cM (cM (cM (cA (cN 1) (cM (cN 2) (cD (cB (cV 1) (cN 1)) (cN 2)))) (cV 2)) (cA (cN 1) (cV 2))) (cR (cM (cA (cN 1) (cD (cB (cV 1) (cN 1)) (cN 2))) (cA (cN 3) (cM (cM (cN 4) (cV 2)) (cA (cN 2) (cV 2)))))))).
Definition QST_e242 := (cD (cM (cM (cR (cN 2)) (cR (cD (cM (cM (cA (cN 1) (cD (cB (cV 1) (cN 1)) (cN 2))) (cA (cN 1) (cM (cN 2) (cD (cB (cV 1) (cN 1)) (cN 2))))) (cA (cA (cN (-1)) (cV 2)) (cM (cN 2) (cW (cV 2) 4)))) (cV 2)))) (cA (cB (cB (cB (cA (cM (cM (cN (-2)) (cA (cN 1) (cV 2))) (cR (cD (cA (cN 1) (cD (cB (cV 1) (cN 1)) (cN 2))) (cM (cM (cA (cN 1) (cM (cN 2) (cD (cB (cV 1) (cN 1)) (cN 2)))) (cA (cN (-1)) (cM (cN 2) (cV 2)))) (cA (cN (-1)) (cW (cV 2) 4)))))) (cM (cM (cM (cN 2) (cV 2)) (cA (cN 1) (cV 2))) (cR (cD (cA (cN 1) (cD (cB (cV 1) (cN 1)) (cN 2))) (cM (cM (cA (cN 1) (cM (cN 2) (cD (cB (cV 1) (cN 1)) (cN 2)))) (cA (cN (-1)) (cM (cN 2) (cV 2)))) (cA (cN (-1)) (cW (cV 2) 4))))))) (cM (cM (cN 2) (cA (cN (-2)) (cV 2))) (cR (cD (cM (cA (cN 1) (cD (cB (cV 1) (cN 1)) (cN 2))) (cA (cN 1) (cV 2))) (cM (cA (cN 1) (cM (cN 2) (cD (cB (cV 1) (cN 1)) (cN 2)))) (cA (cB (cN 1) (cM (cN 3) (cV 2))) (cM (cN 2) (cW (cV 2) 4)))))))) (cM (cA (cN (-2)) (cV 2)) (cR (cD (cM (cM (cA (cN 1) (cD (cB (cV 1) (cN 1)) (cN 2))) (cA (cN 1) (cM (cN 2) (cD (cB (cV 1) (cN 1)) (cN 2))))) (cA (cN 1) (cV 2))) (cA (cB (cN 1) (cM (cN 3) (cV 2))) (cM (cN 2) (cW (cV 2) 4))))))) (cM (cA (cN 1) (cV 2)) (cR (cD (cM (cA (cN 1) (cD (cB (cV 1) (cN 1)) (cN 2))) (cA (cN 1) (cM (cN 2) (cD (cB (cV 1) (cN 1)) (cN 2))))) (cA (cB (cB (cN 1) (cM (cN 2) (cV 2))) (cW (cV 2) 4)) (cM (cN 2) (cW (cV 2) 6))))))) (cM (cM (cV 2) (cA (cN 1) (cV 2))) (cR (cD (cM (cA (cN 1) (cD (cB (cV 1) (cN 1)) (cN 2))) (cA (cN 1) (cM (cN 2) (cD (cB (cV 1) (cN 1)) (cN 2))))) (cA (cB (cB (cN 1) (cM (cN 2) (cV 2))) (cW (cV 2) 4)) (cM (cN 2) (cW (cV 2) 6)))))))) (cM (cM (cA (cN 1) (cD (cB (cV 1) (cN 1)) (cN 2))) (cA (cN 3) (cM (cN 2) (cD (cB (cV 1) (cN 1)) (cN 2))))) (cA (cN 1) (cV 2)))).
Definition QST_e243 := (cO (cD (cM (cR (cD (cA (cN 1) (cM (cN 2) (cD (cB (cV 1) (cN 1)) (cN 2)))) (cM (cA (cN 1) (cD (cB (cV 1) (cN 1)) (cN 2))) (cA (cO (cV 2)) (cW (cV 2) 6))))) (cB (cA (cA (cA (cA (cB (cB (cM (cN (-3)) (cR (cD (cM (cA (cN 1) (cD (cB (cV 1) (cN 1)) (cN 2))) (cA (cN 1) (cM (cN 2) (cD (cB (cV 1) (cN 1)) (cN 2))))) (cV 2)))) (cM (cN 6) (cR (cD (cM (cA (cN 1) (cD (cB (cV 1) (cN 1)) (cN 2))) (cV 2)) (cA (cN 1) (cM (cN 2) (cD (cB (cV 1) (cN 1)) (cN 2)))))))) (cM (cN 3) (cR (cM (cM (cA (cN 1) (cD (cB (cV 1) (cN 1)) (cN 2))) (cA (cN 1) (cM (cN 2) (cD (cB (cV 1) (cN 1)) (cN 2))))) (cV 2))))) (cM (cN 2) (cR (cD (cM (cA (cN 1) (cD (cB (cV 1) (cN 1)) (cN 2))) (cW (cV 2) 6)) (cA (cN 1) (cM (cN 2) (cD (cB (cV 1) (cN 1)) (cN 2)))))))) (cR (cM (cM (cA (cN 1) (cD (cB (cV 1) (cN 1)) (cN 2))) (cA (cN 1) (cM (cN 2) (cD (cB (cV 1) (cN 1)) (cN 2))))) (cW (cV 2) 6)))) (cM (cN 2) (cR (cD (cM (cA (cN 1) (cD (cB (cV 1) (cN 1)) (cN 2))) (cW (cV 2) 10)) (cA (cN 1) (cM (cN 2) (cD (cB (cV 1) (cN 1)) (cN 2)))))))) (cR (cM (cM (cA (cN 1) (cD (cB (cV 1) (cN 1)) (cN 2))) (cA (cN 1) (cM (cN 2) (cD (cB (cV 1) (cN 1)) (cN 2))))) (cW (cV 2) 10)))) (cM (cN 6) (cR (cD (cA (cN 1) (cD (cB (cV 1) (cN 1)) (cN 2))) (cA (cV 2) (cM (cM (cN 2) (cD (cB (cV 1) (cN 1)) (cN 2))) (cV 2)))))))) (cM (cA (cN 3) (cM (cN 2) (cD (cB (cV 1) (cN 1)) (cN 2)))) (cA (cN 1) (cV 2))))).
Definition QST_e244 := (cM (cR (cD (cA (cN 3) (cM (cN 6) (cD (cB (cV 1) (cN 1)) (cN 2)))) (cM (cM (cM (cM (cA (cN 1) (cD (cB (cV 1) (cN 1)) (cN 2))) (cW (cA (cN 3) (cM (cN 2) (cD (cB (cV 1) (cN 1)) (cN 2)))) 4)) (cW (cV 2) 4)) (cW (cA (cN 1) (cV 2)) 4)) (cA (cN 3) (cM (cM (cN 4) (cV 2)) (cA (cN 2) (cV 2))))))) (cB (cO (cM (cM (cV 2) (cA (cN (-5)) (cM (cN 2) (cV 2)))) (cA (cM (cN 2) (cR (cD (cM (cA (cN 1) (cD (cB (cV 1) (cN 1)) (cN 2))) (cA (cN 1) (cV 2))) (cM (cA (cN 1) (cM (cN 2) (cD (cB (cV 1) (cN 1)) (cN 2)))) (cA (cN (-1)) (cV 2)))))) (cR (cD (cM (cM (cA (cN 1) (cD (cB (cV 1) (cN 1)) (cN 2))) (cA (cN 1) (cM (cN 2) (cD (cB (cV 1) (cN 1)) (cN 2))))) (cA (cN 1) (cV 2))) (cA (cN (-1)) (cV 2))))))) (cM (cN 3) (cA (cA (cA (cM (cN 2) (cR (cD (cM (cA (cN 1) (cD (cB (cV 1) (cN 1)) (cN 2))) (cA (cN 1) (cV 2))) (cM (cA (cN 1) (cM (cN 2) (cD (cB (cV 1) (cN 1)) (cN 2)))) (cA (cN (-1)) (cV 2)))))) (cR (cD (cM (cM (cA (cN 1) (cD (cB (cV 1) (cN 1)) (cN 2))) (cA (cN 1) (cM (cN 2) (cD (cB (cV 1) (cN 1)) (cN 2))))) (cA (cN 1) (cV 2))) (cA (cN (-1)) (cV 2))))) (cM (cN 4) (cR (cD (cM (cA (cN 1) (cD (cB (cV 1) (cN 1)) (cN 2))) (cA (cN (-1)) (cW (cV 2) 4))) (cA (cN 1) (cM (cN 2) (cD (cB (cV 1) (cN 1)) (cN 2)))))))) (cM (cN 2) (cR (cM (cM (cA (cN 1) (cD (cB (cV 1) (cN 1)) (cN 2))) (cA (cN 1) (cM (cN 2) (cD (cB (cV 1) (cN 1)) (cN 2))))) (cA (cN (-1)) (cW (cV 2) 4))))))))).
Definition QST_e245 := (cO (cD (cM (cR (cN 3)) (cA (cA (cN (-3)) (cV 2)) (cM (cN 2) (cW (cV 2) 4)))) (cM (cA (cV 2) (cM (cM (cN 2) (cD (cB (cV 1) (cN 1)) (cN 2))) (cV 2))) (cR (cM (cA (cN 1) (cV 2)) (cA (cB (cN 3) (cM (cN 7) (cV 2))) (cM (cN 4) (cW (cV 2) 6)))))))).
Definition QST_e246 := (cD (cA (cA (cN (-3)) (cV 2)) (cW (cV 2) 4)) (cM (cA (cN 1) (cV 2)) (cA (cV 2) (cM (cM (cN 2) (cD (cB (cV 1) (cN 1)) (cN 2))) (cV 2))))).
Definition QST_e247 := (cD (cM (cR (cN 3)) (cA (cM (cM (cV 2) (cA (cN (-19)) (cM (cM (cN 4) (cV 2)) (cA (cN 3) (cV 2))))) (cR (cA (cA (cN 9) (cM (cV 2) (cA (cN 5) (cV 2)))) (cD (cN 15) (cA (cN (-1)) (cM (cN 2) (cV 2))))))) (cM (cN 6) (cA (cM (cN 2) (cR (cM (cM (cM (cA (cN 1) (cV 2)) (cA (cN 2) (cV 2))) (cA (cN (-1)) (cM (cN 2) (cV 2)))) (cA (cN 3) (cM (cN 2) (cV 2)))))) (cR (cA (cA (cN 9) (cM (cV 2) (cA (cN 5) (cV 2)))) (cD (cN 15) (cA (cN (-1)) (cM (cN 2) (cV 2)))))))))) (cM (cM (cM (cM (cA (cN 1) (cM (cN 2) (cD (cB (cV 1) (cN 1)) (cN 2)))) (cR (cV 2))) (cW (cA (cN 1) (cV 2)) 3)) (cA (cN 2) (cV 2))) (cW (cA (cN 3) (cM (cN 2) (cV 2))) 4))).
Definition QST_e248 := (cD (cM (cR (cN 3)) (cA (cA (cN (-3)) (cV 2)) (cM (cN 2) (cW (cV 2) 4)))) (cM (cV 2) (cR (cM (cM (cM (cA (cN (-1)) (cV 2)) (cA (cN 1) (cV 2))) (cA (cN (-1)) (cM (cN 2) (cV 2)))) (cA (cN 3) (cM (cN 2) (cV 2))))))).
Definition QST_e249 := (cB (cA (cN (-1)) (cD (cN 3) (cV 2))) (cD (cN 3) (cA (cN 1) (cV 2)))).
Definition QST_e250 := (cO (cD (cN 1) (cM (cA (cN 1) (cV 2)) (cR (cD (cM (cV 2) (cA (cN 3) (cM (cN 2) (cV 2)))) (cA (cA (cN (-6)) (cM (cN 9) (cV 2))) (cM (cN 6) (cW (cV 2) 4)))))))).
Definition QST_e251 := (cM (cM (cR (cN 3)) (cR (cM (cA (cN 1) (cD (cB (cV 1) (cN 1)) (cN 2))) (cA (cN 1) (cV 2))))) (cA (cA (cA (cD (cM (cM (cN 2) (cA (cN 2) (cM (cN 9) (cD (cB (cV 1) (cN 1)) (cN 2))))) (cV 2)) (cM (cM (cM (cA (cN 1) (cM (cN 2) (cD (cB (cV 1) (cN 1)) (cN 2)))) (cA (cN 1) (cV 2))) (cR (cM (cM (cM (cM (cM (cA (cN 1) (cD (cB (cV 1) (cN 1)) (cN 2))) (cV 2)) (cA (cN 1) (cV 2))) (cA (cN 2) (cV 2))) (cA (cN (-1)) (cM (cN 2) (cV 2)))) (cA (cN 1) (cM (cN 2) (cV 2)))))) (cA (cN 3) (cM (cN 2) (cV 2))))) (cD (cM (cM (cN 6) (cA (cN (-1)) (cM (cN 2) (cD (cB (cV 1) (cN 1)) (cN 2))))) (cW (cV 2) 4)) (cM (cM (cM (cA (cN 1) (cM (cN 2) (cD (cB (cV 1) (cN 1)) (cN 2)))) (cA (cN 1) (cV 2))) (cR (cM (cM (cM (cM (cM (cA (cN 1) (cD (cB (cV 1) (cN 1)) (cN 2))) (cV 2)) (cA (cN 1) (cV 2))) (cA (cN 2) (cV 2))) (cA (cN (-1)) (cM (cN 2) (cV 2)))) (cA (cN 1) (cM (cN 2) (cV 2)))))) (cA (cN 3) (cM (cN 2) (cV 2)))))) (cD (cM (cM (cN 2) (cW (cV 2) 4)) (cA (cB (cO (cD (cR (cD (cM (cM (cM (cM (cV 2) (cA (cN 1) (cV 2))) (cA (cN 2) (cV 2))) (cA (cN (-1)) (cM (cN 2) (cV 2)))) (cA (cN 1) (cM (cN 2) (cV 2)))) (cA (cN 1) (cD (cB (cV 1) (cN 1)) (cN 2))))) (cM (cA (cN 2) (cV 2)) (cA (cN 1) (cM (cN 2) (cV 2)))))) (cD (cM (cM (cM (cN 4) (cA (cN 1) (cD (cB (cV 1) (cN 1)) (cN 2)))) (cV 2)) (cA (cN 1) (cV 2))) (cM (cA (cN 1) (cM (cN 2) (cD (cB (cV 1) (cN 1)) (cN 2)))) (cR (cM (cM (cM (cM (cM (cA (cN 1) (cD (cB (cV 1) (cN 1)) (cN 2))) (cV 2)) (cA (cN 1) (cV 2))) (cA (cN 2) (cV 2))) (cA (cN (-1)) (cM (cN 2) (cV 2)))) (cA (cN 1) (cM (cN 2) (cV 2)))))))) (cD (cM (cA (cN 1) (cV 2)) (cR (cD (cM (cM (cA (cN 1) (cD (cB (cV 1) (cN 1)) (cN 2))) (cV 2)) (cA (cN 1) (cM (cN 2) (cV 2)))) (cA (cA (cA (cN (-2)) (cV 2)) (cM (cN 5) (cW (cV 2) 4))) (cM (cN 2) (cW (cV 2) 6)))))) (cA (cN 1) (cD (cB (cV 1) (cN 1)) (cN 2)))))) (cM (cW (cA (cN 1) (cV 2)) 4) (cA (cN 3) (cM (cN 2) (cV 2)))))) (cM (cN 3) (cB (cA (cD (cM (cN (-4)) (cD (cB (cV 1) (cN 1)) (cN 2))) (cM (cM (cM (cA (cN 1) (cM (cN 2) (cD (cB (cV 1) (cN 1)) (cN 2)))) (cA (cN 1) (cV 2))) (cR (cM (cM (cM (cM (cM (cA (cN 1) (cD (cB (cV 1) (cN 1)) (cN 2))) (cV 2)) (cA (cN 1) (cV 2))) (cA (cN 2) (cV 2))) (cA (cN (-1)) (cM (cN 2) (cV 2)))) (cA (cN 1) (cM (cN 2) (cV 2)))))) (cA (cN 3) (cM (cN 2) (cV 2))))) (cM (cN 2) (cR (cD (cM (cW (cA (cN (-1)) (cV 2)) 4) (cA (cN (-1)) (cM (cN 2) (cV 2)))) (cM (cM (cM (cM (cA (cN 1) (cD (cB (cV 1) (cN 1)) (cN 2))) (cV 2)) (cW (cA (cN 1) (cV 2)) 6)) (cW (cA (cN 3) (cM (cN 2) (cV 2))) 4)) (cA (cA (cN 2) (cM (cN 5) (cV 2))) (cM (cN 2) (cW (cV 2) 4)))))))) (cD (cM (cN 3) (cR (cD (cM (cV 2) (cA (cN (-1)) (cM (cN 2) (cV 2)))) (cM (cA (cN 1) (cD (cB (cV 1) (cN 1)) (cN 2))) (cA (cA (cA (cN 2) (cM (cN 7) (cV 2))) (cM (cN 7) (cW (cV 2) 4))) (cM (cN 2) (cW (cV 2) 6))))))) (cA (cA (cN 3) (cM (cN 5) (cV 2))) (cM (cN 2) (cW (cV 2) 4)))))))).
Definition QST_e252 := (cD (cA (cN (-2)) (cM (cV 2) (cA (cN 2) (cV 2)))) (cM (cM (cA (cN 1) (cM (cN 2) (cD (cB (cV 1) (cN 1)) (cN 2)))) (cA (cN 1) (cV 2))) (cR (cM (cV 2) (cA (cN 2) (cV 2)))))).
Definition QST_e253 := (cD (cR (cN 2)) (cM (cA (cN 1) (cM (cN 2) (cD (cB (cV 1) (cN 1)) (cN 2)))) (cR (cM (cA (cN 1) (cV 2)) (cA (cN 2) (cV 2)))))).
Definition QST_e254 := (cO (cM (cM (cR (cN 3)) (cR (cD (cM (cA (cN 1) (cD (cB (cV 1) (cN 1)) (cN 2))) (cA (cN 1) (cV 2))) (cA (cN 3) (cM (cN 2) (cD (cB (cV 1) (cN 1)) (cN 2))))))) (cA (cA (cA (cA (cA (cA (cA (cO (cD (cM (cM (cA (cN 1) (cM (cN 2) (cD (cB (cV 1) (cN 1)) (cN 2)))) (cV 2)) (cA (cN (-1)) (cM (cN 2) (cV 2)))) (cM (cR (cD (cM (cM (cM (cM (cM (cA (cN 1) (cD (cB (cV 1) (cN 1)) (cN 2))) (cA (cN 3) (cM (cN 2) (cD (cB (cV 1) (cN 1)) (cN 2))))) (cV 2)) (cA (cN 1) (cV 2))) (cA (cN 2) (cV 2))) (cA (cN (-1)) (cM (cN 2) (cV 2)))) (cA (cN 1) (cM (cN 2) (cV 2))))) (cA (cN 3) (cM (cN 2) (cV 2)))))) (cD (cM (cM (cN 2) (cB (cN 1) (cM (cN 2) (cV 2)))) (cV 2)) (cR (cD (cM (cM (cM (cM (cM (cM (cA (cN 1) (cD (cB (cV 1) (cN 1)) (cN 2))) (cA (cN 3) (cM (cN 2) (cD (cB (cV 1) (cN 1)) (cN 2))))) (cV 2)) (cA (cN 1) (cV 2))) (cA (cN 2) (cV 2))) (cA (cN (-1)) (cM (cN 2) (cV 2)))) (cW (cA (cN 3) (cM (cN 2) (cV 2))) 4)) (cA (cN 1) (cM (cN 2) (cV 2))))))) (cD (cM (cM (cN 6) (cA (cN 1) (cM (cN 2) (cD (cB (cV 1) (cN 1)) (cN 2))))) (cA (cN (-1)) (cV 2))) (cM (cA (cN 1) (cV 2)) (cR (cD (cM (cM (cM (cM (cM (cM (cA (cN 1) (cD (cB (cV 1) (cN 1)) (cN 2))) (cA (cN 3) (cM (cN 2) (cD (cB (cV 1) (cN 1)) (cN 2))))) (cV 2)) (cA (cN 1) (cV 2))) (cA (cN 2) (cV 2))) (cA (cN 1) (cM (cN 2) (cV 2)))) (cW (cA (cN 3) (cM (cN 2) (cV 2))) 4)) (cA (cN (-1)) (cM (cN 2) (cV 2)))))))) (cM (cM (cM (cM (cN 2) (cA (cN (-3)) (cV 2))) (cV 2)) (cA (cN (-1)) (cM (cN 2) (cV 2)))) (cR (cD (cA (cN 1) (cM (cN 2) (cV 2))) (cM (cM (cM (cM (cA (cA (cN 3) (cM (cN 5) (cD (cB (cV 1) (cN 1)) (cN 2)))) (cM (cN 2) (cW (cD (cB (cV 1) (cN 1)) (cN 2)) 4))) (cV 2)) (cW (cA (cN 1) (cV 2)) 6)) (cW (cA (cN 3) (cM (cN 2) (cV 2))) 4)) (cA (cA (cN (-2)) (cM (cN 3) (cV 2))) (cM (cN 2) (cW (cV 2) 4)))))))) (cM (cM (cM (cA (cN (-3)) (cV 2)) (cV 2)) (cA (cN (-1)) (cM (cN 2) (cV 2)))) (cR (cD (cM (cW (cA (cN 1) (cM (cN 2) (cD (cB (cV 1) (cN 1)) (cN 2)))) 4) (cA (cN 1) (cM (cN 2) (cV 2)))) (cM (cM (cM (cM (cA (cA (cN 3) (cM (cN 5) (cD (cB (cV 1) (cN 1)) (cN 2)))) (cM (cN 2) (cW (cD (cB (cV 1) (cN 1)) (cN 2)) 4))) (cV 2)) (cW (cA (cN 1) (cV 2)) 6)) (cW (cA (cN 3) (cM (cN 2) (cV 2))) 4)) (cA (cA (cN (-2)) (cM (cN 3) (cV 2))) (cM (cN 2) (cW (cV 2) 4)))))))) (cM (cM (cM (cN 3) (cV 2)) (cA (cN (-3)) (cM (cN 2) (cV 2)))) (cR (cD (cM (cW (cA (cN 1) (cM (cN 2) (cD (cB (cV 1) (cN 1)) (cN 2)))) 4) (cA (cN (-1)) (cM (cN 2) (cV 2)))) (cM (cM (cM (cM (cA (cA (cN 3) (cM (cN 5) (cD (cB (cV 1) (cN 1)) (cN 2)))) (cM (cN 2) (cW (cD (cB (cV 1) (cN 1)) (cN 2)) 4))) (cV 2)) (cW (cA (cN 1) (cV 2)) 6)) (cW (cA (cN 3) (cM (cN 2) (cV 2))) 4)) (cA (cA (cN 2) (cM (cN 5) (cV 2))) (cM (cN 2) (cW (cV 2) 4)))))))) (cM (cN 12) (cR (cD (cM (cW (cA (cN (-1)) (cV 2)) 4) (cA (cN (-1)) (cM (cN 2) (cV 2)))) (cM (cM (cM (cM (cA (cA (cN 3) (cM (cN 5) (cD (cB (cV 1) (cN 1)) (cN 2)))) (cM (cN 2) (cW (cD (cB (cV 1) (cN 1)) (cN 2)) 4))) (cV 2)) (cW (cA (cN 1) (cV 2)) 6)) (cW (cA (cN 3) (cM (cN 2) (cV 2))) 4)) (cA (cA (cN 2) (cM (cN 5) (cV 2))) (cM (cN 2) (cW (cV 2) 4)))))))) (cD (cM (cM (cN 6) (cA (cN (-3)) (cM (cN 2) (cV 2)))) (cR (cD (cM (cV 2) (cA (cN (-1)) (cM (cN 2) (cV 2)))) (cM (cA (cA (cN 3) (cM (cN 5) (cD (cB (cV 1) (cN 1)) (cN 2)))) (cM (cN 2) (cW (cD (cB (cV 1) (cN 1)) (cN 2)) 4))) (cA (cA (cA (cN 2) (cM (cN 7) (cV 2))) (cM (cN 7) (cW (cV 2) 4))) (cM (cN 2) (cW (cV 2) 6))))))) (cA (cA (cN 3) (cM (cN 5) (cV 2))) (cM (cN 2) (cW (cV 2) 4))))))).
Definition QST_e255 := (cD (cB (cN 2) (cM (cV 2) (cA (cN 2) (cV 2)))) (cM (cA (cN 1) (cV 2)) (cR (cM (cV 2) (cA (cN 2) (cV 2)))))).
Definition QST_e256 := (cO (cD (cM (cR (cN 2)) (cA (cA (cA (cM (cN 30) (cR (cM (cM (cV 2) (cA (cN 1) (cV 2))) (cA (cN 3) (cM (cN 2) (cV 2)))))) (cM (cM (cN 47) (cV 2)) (cR (cM (cM (cV 2) (cA (cN 1) (cV 2))) (cA (cN 3) (cM (cN 2) (cV 2))))))) (cM (cN 24) (cR (cM (cM (cW (cV 2) 10) (cA (cN 1) (cV 2))) (cA (cN 3) (cM (cN 2) (cV 2))))))) (cM (cN 4) (cR (cM (cM (cW (cV 2) 14) (cA (cN 1) (cV 2))) (cA (cN 3) (cM (cN 2) (cV 2)))))))) (cM (cM (cM (cR (cV 2)) (cA (cN 1) (cV 2))) (cW (cM (cA (cN 2) (cV 2)) (cA (cN 3) (cM (cN 2) (cV 2)))) 3)) (cA (cN 5) (cM (cN 2) (cV 2)))))).
Definition QST_e257 := (cD (cM (cR (cD (cA (cN 2) (cM (cN 4) (cV 2))) (cM (cM (cM (cM (cA (cN 1) (cD (cB (cV 1) (cN 1)) (cN 2))) (cW (cA (cN 1) (cM (cN 2) (cD (cB (cV 1) (cN 1)) (cN 2)))) 4)) (cV 2)) (cW (cA (cN 1) (cV 2)) 4)) (cW (cA (cA (cN 6) (cM (cN 7) (cV 2))) (cM (cN 2) (cW (cV 2) 4))) 6)))) (cA (cO (cM (cM (cV 2) (cR (cM (cM (cM (cM (cA (cN 1) (cD (cB (cV 1) (cN 1)) (cN 2))) (cV 2)) (cA (cN 1) (cV 2))) (cA (cN 1) (cM (cN 2) (cV 2)))) (cA (cN 5) (cM (cN 2) (cV 2)))))) (cA (cN 11) (cM (cN 2) (cV 2))))) (cM (cN 6) (cB (cR (cD (cM (cM (cM (cM (cA (cN 1) (cD (cB (cV 1) (cN 1)) (cN 2))) (cW (cB (cN 1) (cM (cN 2) (cV 2))) 4)) (cV 2)) (cA (cN 1) (cV 2))) (cA (cN 5) (cM (cN 2) (cV 2)))) (cA (cN 1) (cM (cN 2) (cV 2))))) (cM (cN 4) (cR (cM (cM (cM (cM (cA (cN 1) (cD (cB (cV 1) (cN 1)) (cN 2))) (cV 2)) (cA (cN 1) (cV 2))) (cA (cN 1) (cM (cN 2) (cV 2)))) (cA (cN 5) (cM (cN 2) (cV 2)))))))))) (cA (cN 5) (cM (cN 2) (cV 2)))).
Definition QST_e258 := (cD (cM (cR (cD (cA (cN 1) (cM (cN 2) (cV 2))) (cM (cM (cA (cA (cN 1) (cM (cN 3) (cD (cB (cV 1) (cN 1)) (cN 2)))) (cM (cN 2) (cW (cD (cB (cV 1) (cN 1)) (cN 2)) 4))) (cW (cA (cA (cN 6) (cM (cN 7) (cV 2))) (cM (cN 2) (cW (cV 2) 4))) 4)) (cA (cA (cA (cN 15) (cM (cN 26) (cV 2))) (cM (cN 13) (cW (cV 2) 4))) (cM (cN 2) (cW (cV 2) 6)))))) (cB (cA (cM (cN 3) (cA (cA (cM (cN 10) (cR (cD (cM (cM (cM (cA (cN 1) (cD (cB (cV 1) (cN 1)) (cN 2))) (cA (cN 1) (cM (cN 2) (cD (cB (cV 1) (cN 1)) (cN 2))))) (cV 2)) (cA (cN 5) (cM (cN 2) (cV 2)))) (cM (cA (cN 2) (cV 2)) (cA (cN 1) (cM (cN 2) (cV 2))))))) (cM (cN 18) (cR (cD (cM (cM (cM (cM (cA (cN 1) (cD (cB (cV 1) (cN 1)) (cN 2))) (cA (cN 1) (cM (cN 2) (cD (cB (cV 1) (cN 1)) (cN 2))))) (cV 2)) (cA (cN 1) (cM (cN 2) (cV 2)))) (cA (cN 5) (cM (cN 2) (cV 2)))) (cA (cN 2) (cV 2)))))) (cR (cM (cM (cM (cM (cM (cA (cN 1) (cD (cB (cV 1) (cN 1)) (cN 2))) (cA (cN 1) (cM (cN 2) (cD (cB (cV 1) (cN 1)) (cN 2))))) (cV 2)) (cA (cN 2) (cV 2))) (cA (cN 1) (cM (cN 2) (cV 2)))) (cA (cN 5) (cM (cN 2) (cV 2))))))) (cM (cV 2) (cA (cA (cM (cN 38) (cR (cD (cM (cM (cM (cM (cA (cN 1) (cD (cB (cV 1) (cN 1)) (cN 2))) (cA (cN 1) (cM (cN 2) (cD (cB (cV 1) (cN 1)) (cN 2))))) (cV 2)) (cA (cN 1) (cM (cN 2) (cV 2)))) (cA (cN 5) (cM (cN 2) (cV 2)))) (cA (cN 2) (cV 2))))) (cM (cN 5) (cR (cM (cM (cM (cM (cM (cA (cN 1) (cD (cB (cV 1) (cN 1)) (cN 2))) (cA (cN 1) (cM (cN 2) (cD (cB (cV 1) (cN 1)) (cN 2))))) (cV 2)) (cA (cN 2) (cV 2))) (cA (cN 1) (cM (cN 2) (cV 2)))) (cA (cN 5) (cM (cN 2) (cV 2))))))) (cM (cM (cN 2) (cV 2)) (cA (cM (cN 4) (cR (cD (cM (cM (cM (cM (cA (cN 1) (cD (cB (cV 1) (cN 1)) (cN 2))) (cA (cN 1) (cM (cN 2) (cD (cB (cV 1) (cN 1)) (cN 2))))) (cV 2)) (cA (cN 1) (cM (cN 2) (cV 2)))) (cA (cN 5) (cM (cN 2) (cV 2)))) (cA (cN 2) (cV 2))))) (cR (cM (cM (cM (cM (cM (cA (cN 1) (cD (cB (cV 1) (cN 1)) (cN 2))) (cA (cN 1) (cM (cN 2) (cD (cB (cV 1) (cN 1)) (cN 2))))) (cV 2)) (cA (cN 2) (cV 2))) (cA (cN 1) (cM (cN 2) (cV 2)))) (cA (cN 5) (cM (cN 2) (cV 2)))))))))) (cM (cM (cN 2) (cD (cB (cV 1) (cN 1)) (cN 2))) (cA (cM (cN 3) (cA (cA (cM (cN 18) (cR (cD (cM (cM (cM (cA (cN 1) (cD (cB (cV 1) (cN 1)) (cN 2))) (cV 2)) (cA (cN 1) (cM (cN 2) (cV 2)))) (cA (cN 5) (cM (cN 2) (cV 2)))) (cM (cA (cN 1) (cM (cN 2) (cD (cB (cV 1) (cN 1)) (cN 2)))) (cA (cN 2) (cV 2)))))) (cR (cD (cM (cM (cM (cM (cA (cN 1) (cD (cB (cV 1) (cN 1)) (cN 2))) (cV 2)) (cA (cN 2) (cV 2))) (cA (cN 1) (cM (cN 2) (cV 2)))) (cA (cN 5) (cM (cN 2) (cV 2)))) (cA (cN 1) (cM (cN 2) (cD (cB (cV 1) (cN 1)) (cN 2))))))) (cM (cN 10) (cR (cD (cM (cM (cA (cN 1) (cD (cB (cV 1) (cN 1)) (cN 2))) (cV 2)) (cA (cN 5) (cM (cN 2) (cV 2)))) (cM (cA (cN 1) (cM (cN 2) (cD (cB (cV 1) (cN 1)) (cN 2)))) (cA (cA (cN 2) (cM (cN 5) (cV 2))) (cM (cN 2) (cW (cV 2) 4))))))))) (cM (cV 2) (cA (cA (cM (cN 38) (cR (cD (cM (cM (cM (cA (cN 1) (cD (cB (cV 1) (cN 1)) (cN 2))) (cV 2)) (cA (cN 1) (cM (cN 2) (cV 2)))) (cA (cN 5) (cM (cN 2) (cV 2)))) (cM (cA (cN 1) (cM (cN 2) (cD (cB (cV 1) (cN 1)) (cN 2)))) (cA (cN 2) (cV 2)))))) (cM (cN 5) (cR (cD (cM (cM (cM (cM (cA (cN 1) (cD (cB (cV 1) (cN 1)) (cN 2))) (cV 2)) (cA (cN 2) (cV 2))) (cA (cN 1) (cM (cN 2) (cV 2)))) (cA (cN 5) (cM (cN 2) (cV 2)))) (cA (cN 1) (cM (cN 2) (cD (cB (cV 1) (cN 1)) (cN 2)))))))) (cM (cM (cN 2) (cV 2)) (cA (cM (cN 4) (cR (cD (cM (cM (cM (cA (cN 1) (cD (cB (cV 1) (cN 1)) (cN 2))) (cV 2)) (cA (cN 1) (cM (cN 2) (cV 2)))) (cA (cN 5) (cM (cN 2) (cV 2)))) (cM (cA (cN 1) (cM (cN 2) (cD (cB (cV 1) (cN 1)) (cN 2)))) (cA (cN 2) (cV 2)))))) (cR (cD (cM (cM (cM (cM (cA (cN 1) (cD (cB (cV 1) (cN 1)) (cN 2))) (cV 2)) (cA (cN 2) (cV 2))) (cA (cN 1) (cM (cN 2) (cV 2)))) (cA (cN 5) (cM (cN 2) (cV 2)))) (cA (cN 1) (cM (cN 2) (cD (cB (cV 1) (cN 1)) (cN 2)))))))))))))) (cA (cN 5) (cM (cN 2) (cV 2)))).
Definition QST_e259 := (cO (cD (cM (cM (cA (cN 3) (cM (cN 2) (cD (cB (cV 1) (cN 1)) (cN 2)))) (cR (cD (cA (cN 2) (cM (cN 4) (cV 2))) (cM (cM (cM (cM (cM (cA (cN 1) (cD (cB (cV 1) (cN 1)) (cN 2))) (cW (cA (cN 3) (cM (cN 2) (cD (cB (cV 1) (cN 1)) (cN 2)))) 6)) (cV 2)) (cW (cA (cN 1) (cV 2)) 4)) (cW (cA (cN 2) (cV 2)) 8)) (cW (cA (cN 3) (cM (cN 2) (cV 2))) 6))))) (cA (cM (cN (-6)) (cA (cR (cD (cM (cM (cM (cM (cM (cA (cN 1) (cD (cB (cV 1) (cN 1)) (cN 2))) (cA (cN 3) (cM (cN 2) (cD (cB (cV 1) (cN 1)) (cN 2))))) (cV 2)) (cA (cN 1) (cV 2))) (cA (cN 2) (cV 2))) (cA (cN 5) (cM (cN 2) (cV 2)))) (cA (cN 1) (cM (cN 2) (cV 2))))) (cM (cN 4) (cR (cM (cM (cM (cM (cM (cM (cA (cN 1) (cD (cB (cV 1) (cN 1)) (cN 2))) (cA (cN 3) (cM (cN 2) (cD (cB (cV 1) (cN 1)) (cN 2))))) (cV 2)) (cA (cN 1) (cV 2))) (cA (cN 2) (cV 2))) (cA (cN 1) (cM (cN 2) (cV 2)))) (cA (cN 5) (cM (cN 2) (cV 2)))))))) (cM (cV 2) (cB (cB (cM (cN 12) (cR (cD (cM (cM (cM (cM (cM (cA (cN 1) (cD (cB (cV 1) (cN 1)) (cN 2))) (cA (cN 3) (cM (cN 2) (cD (cB (cV 1) (cN 1)) (cN 2))))) (cV 2)) (cA (cN 1) (cV 2))) (cA (cN 2) (cV 2))) (cA (cN 5) (cM (cN 2) (cV 2)))) (cA (cN 1) (cM (cN 2) (cV 2)))))) (cM (cN 11) (cR (cM (cM (cM (cM (cM (cM (cA (cN 1) (cD (cB (cV 1) (cN 1)) (cN 2))) (cA (cN 3) (cM (cN 2) (cD (cB (cV 1) (cN 1)) (cN 2))))) (cV 2)) (cA (cN 1) (cV 2))) (cA (cN 2) (cV 2))) (cA (cN 1) (cM (cN 2) (cV 2)))) (cA (cN 5) (cM (cN 2) (cV 2))))))) (cM (cM (cN 2) (cV 2)) (cR (cM (cM (cM (cM (cM (cM (cA (cN 1) (cD (cB (cV 1) (cN 1)) (cN 2))) (cA (cN 3) (cM (cN 2) (cD (cB (cV 1) (cN 1)) (cN 2))))) (cV 2)) (cA (cN 1) (cV 2))) (cA (cN 2) (cV 2))) (cA (cN 1) (cM (cN 2) (cV 2)))) (cA (cN 5) (cM (cN 2) (cV 2)))))))))) (cA (cN 5) (cM (cN 2) (cV 2))))).
Definition QST_e260 := (cD (cB (cM (cN (-6)) (cA (cM (cN 15) (cR (cD (cM (cM (cM (cV 2) (cA (cN 1) (cV 2))) (cA (cN 2) (cV 2))) (cA (cN 3) (cM (cN 2) (cV 2)))) (cA (cN 3) (cV 2))))) (cM (cN 17) (cR (cD (cM (cM (cM (cW (cV 2) 10) (cA (cN 1) (cV 2))) (cA (cN 2) (cV 2))) (cA (cN 3) (cM (cN 2) (cV 2)))) (cA (cN 3) (cV 2))))))) (cM (cV 2) (cA (cM (cN 171) (cR (cD (cM (cM (cM (cV 2) (cA (cN 1) (cV 2))) (cA (cN 2) (cV 2))) (cA (cN 3) (cM (cN 2) (cV 2)))) (cA (cN 3) (cV 2))))) (cM (cM (cV 2) (cR (cD (cM (cM (cM (cM (cV 2) (cA (cN 1) (cV 2))) (cA (cN 2) (cV 2))) (cW (cA (cN 1) (cM (cN 2) (cV 2))) 4)) (cA (cN 3) (cM (cN 2) (cV 2)))) (cA (cN 3) (cV 2))))) (cA (cN 17) (cM (cN 2) (cV 2))))))) (cM (cM (cM (cA (cN 1) (cV 2)) (cW (cA (cN 2) (cV 2)) 4)) (cW (cA (cN 3) (cM (cN 2) (cV 2))) 3)) (cA (cN 5) (cM (cN 2) (cV 2))))).
Definition QST_e261 := (cD (cB (cN 1) (cM (cN 2) (cV 2))) (cM (cV 2) (cR (cA (cN (-1)) (cM (cN 4) (cW (cV 2) 4)))))).
Definition QST_e262 := (cO (cD (cN 1) (cA (cN 1) (cV 2)))).
Definition QST_e263 := (cO (cD (cA (cA (cN (-1)) (cV 2)) (cW (cV 2) 4)) (cM (cM (cA (cN 1) (cM (cN 2) (cD (cB (cV 1) (cN 1)) (cN 2)))) (cV 2)) (cA (cN 1) (cV 2))))).
Definition QST_e264 := (cO (cD (cN 1) (cA (cA (cA (cN 1) (cM (cN 2) (cD (cB (cV 1) (cN 1)) (cN 2)))) (cV 2)) (cM (cM (cN 2) (cD (cB (cV 1) (cN 1)) (cN 2))) (cV 2))))).
Definition QST_e265 := (cD (cR (cA (cN 1) (cD (cN 2) (cA (cN 1) (cM (cN 2) (cV 2)))))) (cA (cN 1) (cV 2))).
Definition QST_e266 := (cD (cA (cM (cN 2) (cR (cM (cM (cA (cN 1) (cM (cN 2) (cD (cB (cV 1) (cN 1)) (cN 2)))) (cV 2)) (cA (cN 1) (cM (cN 2) (cV 2)))))) (cM (cB (cN 1) (cM (cN 2) (cV 2))) (cR (cD (cA (cV 2) (cM (cM (cN 2) (cD (cB (cV 1) (cN 1)) (cN 2))) (cV 2))) (cA (cN 1) (cM (cN 2) (cV 2))))))) (cM (cM (cW (cA (cN 1) (cM (cN 2) (cD (cB (cV 1) (cN 1)) (cN 2)))) 3) (cA (cN 1) (cV 2))) (cR (cM (cV 2) (cA (cN 3) (cM (cN 2) (cV 2))))))).
Definition QST_e267 := (cO (cD (cR (cM (cV 2) (cA (cN 2) (cV 2)))) (cA (cA (cA (cN 1) (cM (cN 2) (cD (cB (cV 1) (cN 1)) (cN 2)))) (cV 2)) (cM (cM (cN 2) (cD (cB (cV 1) (cN 1)) (cN 2))) (cV 2))))).
Definition QST_e268 := (cD (cM (cR (cA (cN 1) (cM (cN 2) (cD (cB (cV 1) (cN 1)) (cN 2))))) (cB (cA (cA (cO (cM (cM (cA (cN (-1)) (cV 2)) (cR (cD (cM (cD (cB (cV 1) (cN 1)) (cN 2)) (cV 2)) (cA (cN 1) (cM (cN 2) (cD (cB (cV 1) (cN 1)) (cN 2))))))) (cW (cM (cA (cN 1) (cD (cB (cV 1) (cN 1)) (cN 2))) (cA (cN 1) (cV 2))) 3))) (cM (cV 2) (cR (cD (cM (cM (cM (cD (cB (cV 1) (cN 1)) (cN 2)) (cW (cA (cN 1) (cD (cB (cV 1) (cN 1)) (cN 2))) 6)) (cV 2)) (cW (cA (cN 1) (cV 2)) 6)) (cW (cA (cN 1) (cM (cN 2) (cD (cB (cV 1) (cN 1)) (cN 2)))) 6))))) (cM (cV 2) (cR (cD (cM (cM (cM (cD (cB (cV 1) (cN 1)) (cN 2)) (cW (cA (cN 1) (cD (cB (cV 1) (cN 1)) (cN 2))) 6)) (cV 2)) (cW (cA (cN 1) (cV 2)) 6)) (cA (cN 1) (cM (cN 2) (cD (cB (cV 1) (cN 1)) (cN 2)))))))) (cD (cM (cM (cA (cN 1) (cD (cB (cV 1) (cN 1)) (cN 2))) (cR (cM (cM (cM (cD (cB (cV 1) (cN 1)) (cN 2)) (cA (cN 1) (cD (cB (cV 1) (cN 1)) (cN 2)))) (cV 2)) (cA (cN 1) (cV 2))))) (cA (cN (-1)) (cW (cV 2) 4))) (cW (cA (cN 1) (cM (cN 2) (cD (cB (cV 1) (cN 1)) (cN 2)))) 3)))) (cM (cW (cA (cN 1) (cD (cB (cV 1) (cN 1)) (cN 2))) 4) (cW (cM (cV 2) (cA (cN 1) (cV 2))) 3))).
Definition QST_e269 := (cO (cD (cM (cM (cR (cA (cN 1) (cM (cN 2) (cD (cB (cV 1) (cN 1)) (cN 2))))) (cA (cN 1) (cM (cN 2) (cV 2)))) (cB (cB (cB (cB (cD (cM (cM (cM (cN 4) (cA (cN 1) (cD (cB (cV 1) (cN 1)) (cN 2)))) (cV 2)) (cR (cM (cM (cD (cB (cV 1) (cN 1)) (cN 2)) (cA (cN 1) (cD (cB (cV 1) (cN 1)) (cN 2)))) (cA (cN 3) (cM (cN 2) (cV 2)))))) (cW (cM (cA (cN 1) (cM (cN 2) (cD (cB (cV 1) (cN 1)) (cN 2)))) (cA (cN 1) (cM (cN 2) (cV 2)))) 3)) (cR (cD (cM (cM (cD (cB (cV 1) (cN 1)) (cN 2)) (cA (cN 1) (cD (cB (cV 1) (cN 1)) (cN 2)))) (cA (cN 3) (cM (cN 2) (cV 2)))) (cM (cW (cA (cN 1) (cM (cN 2) (cD (cB (cV 1) (cN 1)) (cN 2)))) 6) (cW (cA (cN 1) (cM (cN 2) (cV 2))) 6))))) (cR (cD (cM (cM (cD (cB (cV 1) (cN 1)) (cN 2)) (cA (cN 1) (cD (cB (cV 1) (cN 1)) (cN 2)))) (cA (cN 3) (cM (cN 2) (cV 2)))) (cM (cA (cN 1) (cM (cN 2) (cD (cB (cV 1) (cN 1)) (cN 2)))) (cW (cA (cN 1) (cM (cN 2) (cV 2))) 6))))) (cM (cN 2) (cR (cD (cM (cM (cD (cB (cV 1) (cN 1)) (cN 2)) (cA (cN 1) (cD (cB (cV 1) (cN 1)) (cN 2)))) (cA (cN 3) (cM (cN 2) (cV 2)))) (cM (cW (cA (cN 1) (cM (cN 2) (cD (cB (cV 1) (cN 1)) (cN 2)))) 6) (cA (cN 1) (cM (cN 2) (cV 2)))))))) (cM (cN 2) (cR (cD (cM (cM (cD (cB (cV 1) (cN 1)) (cN 2)) (cA (cN 1) (cD (cB (cV 1) (cN 1)) (cN 2)))) (cA (cN 3) (cM (cN 2) (cV 2)))) (cM (cA (cN 1) (cM (cN 2) (cD (cB (cV 1) (cN 1)) (cN 2)))) (cA (cN 1) (cM (cN 2) (cV 2))))))))) (cM (cM (cA (cN 1) (cD (cB (cV 1) (cN 1)) (cN 2))) (cA (cN 1) (cV 2))) (cA (cN 3) (cM (cN 2) (cV 2)))))).
Definition QST_e270 := (cD (cM (cN (-2)) (cR (cM (cM (cM (cD (cB (cV 1) (cN 1)) (cN 2)) (cA (cN 1) (cD (cB (cV 1) (cN 1)) (cN 2)))) (cV 2)) (cA (cN 2) (cV 2))))) (cA (cA (cA (cN 1) (cM (cN 2) (cD (cB (cV 1) (cN 1)) (cN 2)))) (cV 2)) (cM (cM (cN 2) (cD (cB (cV 1) (cN 1)) (cN 2))) (cV 2)))).
Definition QST_e271 := (cD (cA (cN (-1)) (cM (cN 2) (cV 2))) (cM (cV 2) (cR (cA (cN (-1)) (cM (cN 4) (cW (cV 2) 4)))))).
Definition QST_e272 := (cR (cD (cA (cN (-1)) (cW (cV 2) 4)) (cM (cA (cD (cB (cV 1) (cN 1)) (cN 2)) (cM (cN 2) (cW (cD (cB (cV 1) (cN 1)) (cN 2)) 4))) (cW (cV 2) 4)))).
Definition QST_e273 := (cD (cA (cN (-1)) (cM (cN 2) (cV 2))) (cM (cV 2) (cR (cM (cM (cD (cB (cV 1) (cN 1)) (cN 2)) (cA (cN 1) (cM (cN 2) (cD (cB (cV 1) (cN 1)) (cN 2))))) (cA (cN (-1)) (cM (cN 4) (cW (cV 2) 4))))))).
Definition QST_e274 := (cD (cA (cA (cN (-1)) (cV 2)) (cW (cV 2) 4)) (cM (cR (cM (cD (cB (cV 1) (cN 1)) (cN 2)) (cA (cN 1) (cM (cN 2) (cD (cB (cV 1) (cN 1)) (cN 2)))))) (cA (cV 2) (cW (cV 2) 4)))).
Definition QST_e275 := (cD (cN 1) (cM (cR (cM (cD (cB (cV 1) (cN 1)) (cN 2)) (cA (cN 1) (cM (cN 2) (cD (cB (cV 1) (cN 1)) (cN 2)))))) (cA (cN 1) (cV 2)))).
Definition QST_e276 := (cO (cD (cR (cA (cN 1) (cD (cN 2) (cA (cN 1) (cM (cN 2) (cV 2)))))) (cA (cN 1) (cV 2)))).
Definition QST_e277 := (cD (cR (cM (cV 2) (cA (cN 2) (cV 2)))) (cA (cN 1) (cV 2))).
Definition QST_e278 := (cD (cA (cM (cN (-2)) (cR (cM (cM (cA (cN 1) (cM (cN 2) (cD (cB (cV 1) (cN 1)) (cN 2)))) (cV 2)) (cA (cN 1) (cM (cN 2) (cV 2)))))) (cM (cA (cN (-1)) (cM (cN 2) (cV 2))) (cR (cD (cA (cV 2) (cM (cM (cN 2) (cD (cB (cV 1) (cN 1)) (cN 2))) (cV 2))) (cA (cN 1) (cM (cN 2) (cV 2))))))) (cM (cM (cA (cN 1) (cM (cN 2) (cD (cB (cV 1) (cN 1)) (cN 2)))) (cA (cN 1) (cV 2))) (cR (cM (cM (cD (cB (cV 1) (cN 1)) (cN 2)) (cV 2)) (cA (cN 3) (cM (cN 2) (cV 2))))))).
Definition QST_e279 := (cD (cM (cV 2) (cA (cN 2) (cV 2))) (cM (cA (cN 1) (cV 2)) (cR (cM (cM (cM (cD (cB (cV 1) (cN 1)) (cN 2)) (cA (cN 1) (cM (cN 2) (cD (cB (cV 1) (cN 1)) (cN 2))))) (cV 2)) (cA (cN 2) (cV 2)))))).
Definition QST_e280 := (cM (cR (cD (cA (cN 1) (cV 2)) (cA (cV 2) (cM (cD (cB (cV 1) (cN 1)) (cN 2)) (cV 2))))) (cA (cB (cR (cD (cM (cB (cN 2) (cD (cN 1) (cD (cB (cV 1) (cN 1)) (cN 2)))) (cA (cN (-1)) (cV 2))) (cA (cV 2) (cM (cM (cN 2) (cD (cB (cV 1) (cN 1)) (cN 2))) (cV 2))))) (cR (cD (cB (cD (cB (cV 1) (cN 1)) (cN 2)) (cM (cD (cB (cV 1) (cN 1)) (cN 2)) (cV 2))) (cB (cV 2) (cM (cM (cN 4) (cW (cD (cB (cV 1) (cN 1)) (cN 2)) 4)) (cV 2)))))) (cM (cM (cN 2) (cD (cB (cV 1) (cN 1)) (cN 2))) (cR (cD (cB (cD (cB (cV 1) (cN 1)) (cN 2)) (cM (cD (cB (cV 1) (cN 1)) (cN 2)) (cV 2))) (cB (cV 2) (cM (cM (cN 4) (cW (cD (cB (cV 1) (cN 1)) (cN 2)) 4)) (cV 2)))))))).
Definition QST_e281 := (cM (cR (cD (cA (cN 1) (cV 2)) (cM (cA (cN 1) (cD (cB (cV 1) (cN 1)) (cN 2))) (cA (cV 2) (cM (cN 2) (cW (cV 2) 4)))))) (cA (cA (cO (cR (cD (cM (cD (cB (cV 1) (cN 1)) (cN 2)) (cA (cN (-1)) (cM (cN 2) (cV 2)))) (cM (cM (cA (cN (-1)) (cM (cN 4) (cW (cD (cB (cV 1) (cN 1)) (cN 2)) 4))) (cV 2)) (cA (cN 1) (cV 2)))))) (cM (cM (cN 2) (cD (cB (cV 1) (cN 1)) (cN 2))) (cR (cD (cM (cD (cB (cV 1) (cN 1)) (cN 2)) (cA (cN (-1)) (cM (cN 2) (cV 2)))) (cM (cM (cA (cN (-1)) (cM (cN 4) (cW (cD (cB (cV 1) (cN 1)) (cN 2)) 4))) (cV 2)) (cA (cN 1) (cV 2))))))) (cR (cD (cM (cB (cN 2) (cD (cN 1) (cD (cB (cV 1) (cN 1)) (cN 2)))) (cA (cN (-1)) (cM (cN 2) (cV 2)))) (cM (cA (cN 1) (cM (cN 2) (cD (cB (cV 1) (cN 1)) (cN 2)))) (cA (cV 2) (cW (cV 2) 4))))))).
Definition QST_e282 := (cR (cD (cA (cN (-1)) (cW (cV 2) 4)) (cM (cA (cA (cN 1) (cM (cN 3) (cD (cB (cV 1) (cN 1)) (cN 2)))) (cM (cN 2) (cW (cD (cB (cV 1) (cN 1)) (cN 2)) 4))) (cW (cV 2) 4)))).
Definition QST_e283 := (cR (cD (cA (cN (-1)) (cM (cN 2) (cV 2))) (cM (cM (cA (cA (cN 1) (cM (cN 3) (cD (cB (cV 1) (cN 1)) (cN 2)))) (cM (cN 2) (cW (cD (cB (cV 1) (cN 1)) (cN 2)) 4))) (cW (cV 2) 4)) (cA (cN 1) (cM (cN 2) (cV 2)))))).
Definition QST_e284 := (cD (cM (cA (cN 1) (cM (cN 2) (cD (cB (cV 1) (cN 1)) (cN 2)))) (cA (cB (cB (cA (cA (cA (cB (cO (cR (cM (cM (cM (cD (cB (cV 1) (cN 1)) (cN 2)) (cA (cA (cN (-1)) (cD (cB (cV 1) (cN 1)) (cN 2))) (cM (cN 2) (cW (cD (cB (cV 1) (cN 1)) (cN 2)) 4)))) (cV 2)) (cA (cN 1) (cV 2))))) (cR (cM (cM (cM (cW (cD (cB (cV 1) (cN 1)) (cN 2)) 6) (cA (cA (cN (-1)) (cD (cB (cV 1) (cN 1)) (cN 2))) (cM (cN 2) (cW (cD (cB (cV 1) (cN 1)) (cN 2)) 4)))) (cV 2)) (cA (cN 1) (cV 2))))) (cR (cM (cM (cM (cD (cB (cV 1) (cN 1)) (cN 2)) (cA (cA (cN (-1)) (cD (cB (cV 1) (cN 1)) (cN 2))) (cM (cN 2) (cW (cD (cB (cV 1) (cN 1)) (cN 2)) 4)))) (cW (cV 2) 10)) (cA (cN 1) (cV 2))))) (cR (cM (cM (cM (cW (cD (cB (cV 1) (cN 1)) (cN 2)) 6) (cA (cA (cN (-1)) (cD (cB (cV 1) (cN 1)) (cN 2))) (cM (cN 2) (cW (cD (cB (cV 1) (cN 1)) (cN 2)) 4)))) (cW (cV 2) 10)) (cA (cN 1) (cV 2))))) (cM (cM (cD (cB (cV 1) (cN 1)) (cN 2)) (cV 2)) (cR (cD (cM (cM (cM (cD (cB (cV 1) (cN 1)) (cN 2)) (cW (cA (cN 1) (cD (cB (cV 1) (cN 1)) (cN 2))) 6)) (cV 2)) (cW (cA (cN 1) (cV 2)) 6)) (cA (cN (-1)) (cM (cN 2) (cD (cB (cV 1) (cN 1)) (cN 2)))))))) (cM (cV 2) (cR (cM (cM (cM (cM (cD (cB (cV 1) (cN 1)) (cN 2)) (cW (cA (cN 1) (cD (cB (cV 1) (cN 1)) (cN 2))) 6)) (cA (cN (-1)) (cM (cN 2) (cD (cB (cV 1) (cN 1)) (cN 2))))) (cV 2)) (cW (cA (cN 1) (cV 2)) 6))))) (cM (cD (cB (cV 1) (cN 1)) (cN 2)) (cR (cD (cM (cM (cM (cM (cD (cB (cV 1) (cN 1)) (cN 2)) (cW (cA (cN 1) (cD (cB (cV 1) (cN 1)) (cN 2))) 6)) (cW (cA (cN (-1)) (cV 2)) 4)) (cV 2)) (cW (cA (cN 1) (cV 2)) 6)) (cA (cN (-1)) (cM (cN 2) (cD (cB (cV 1) (cN 1)) (cN 2)))))))) (cM (cM (cN 2) (cW (cD (cB (cV 1) (cN 1)) (cN 2)) 4)) (cA (cO (cM (cV 2) (cR (cD (cM (cM (cM (cD (cB (cV 1) (cN 1)) (cN 2)) (cW (cA (cN 1) (cD (cB (cV 1) (cN 1)) (cN 2))) 6)) (cV 2)) (cW (cA (cN 1) (cV 2)) 6)) (cA (cN (-1)) (cM (cN 2) (cD (cB (cV 1) (cN 1)) (cN 2)))))))) (cR (cD (cM (cM (cM (cM (cD (cB (cV 1) (cN 1)) (cN 2)) (cW (cA (cN 1) (cD (cB (cV 1) (cN 1)) (cN 2))) 6)) (cW (cA (cN (-1)) (cV 2)) 4)) (cV 2)) (cW (cA (cN 1) (cV 2)) 6)) (cA (cN (-1)) (cM (cN 2) (cD (cB (cV 1) (cN 1)) (cN 2)))))))))) (cM (cM (cD (cB (cV 1) (cN 1)) (cN 2)) (cW (cA (cN 1) (cD (cB (cV 1) (cN 1)) (cN 2))) 4)) (cW (cM (cM (cA (cN 1) (cM (cN 2) (cD (cB (cV 1) (cN 1)) (cN 2)))) (cV 2)) (cA (cN 1) (cV 2))) 3))).
Definition QST_e285 := (cD (cA (cA (cB (cB (cA (cA (cB (cA (cO (cM (cM (cM (cD (cB (cV 1) (cN 1)) (cN 2)) (cA (cN 1) (cD (cB (cV 1) (cN 1)) (cN 2)))) (cA (cN 1) (cV 2))) (cR (cM (cM (cM (cM (cM (cD (cB (cV 1) (cN 1)) (cN 2)) (cA (cN 1) (cD (cB (cV 1) (cN 1)) (cN 2)))) (cA (cN 1) (cM (cN 2) (cD (cB (cV 1) (cN 1)) (cN 2))))) (cW (cB (cN 1) (cM (cN 2) (cV 2))) 4)) (cV 2)) (cW (cA (cN 1) (cV 2)) 6))))) (cM (cM (cM (cM (cN 2) (cW (cD (cB (cV 1) (cN 1)) (cN 2)) 4)) (cA (cN 1) (cD (cB (cV 1) (cN 1)) (cN 2)))) (cA (cN 1) (cV 2))) (cR (cM (cM (cM (cM (cM (cD (cB (cV 1) (cN 1)) (cN 2)) (cA (cN 1) (cD (cB (cV 1) (cN 1)) (cN 2)))) (cA (cN 1) (cM (cN 2) (cD (cB (cV 1) (cN 1)) (cN 2))))) (cW (cB (cN 1) (cM (cN 2) (cV 2))) 4)) (cV 2)) (cW (cA (cN 1) (cV 2)) 6))))) (cM (cM (cA (cN 1) (cD (cB (cV 1) (cN 1)) (cN 2))) (cA (cN 1) (cV 2))) (cR (cM (cM (cM (cM (cM (cW (cB (cN 1) (cM (cN 2) (cD (cB (cV 1) (cN 1)) (cN 2)))) 4) (cD (cB (cV 1) (cN 1)) (cN 2))) (cA (cN 1) (cD (cB (cV 1) (cN 1)) (cN 2)))) (cA (cN 1) (cM (cN 2) (cD (cB (cV 1) (cN 1)) (cN 2))))) (cW (cV 2) 6)) (cW (cA (cN 1) (cV 2)) 6))))) (cM (cM (cM (cA (cN 1) (cD (cB (cV 1) (cN 1)) (cN 2))) (cV 2)) (cA (cN 1) (cV 2))) (cR (cM (cM (cM (cM (cM (cW (cB (cN 1) (cM (cN 2) (cD (cB (cV 1) (cN 1)) (cN 2)))) 4) (cD (cB (cV 1) (cN 1)) (cN 2))) (cA (cN 1) (cD (cB (cV 1) (cN 1)) (cN 2)))) (cA (cN 1) (cM (cN 2) (cD (cB (cV 1) (cN 1)) (cN 2))))) (cW (cV 2) 6)) (cW (cA (cN 1) (cV 2)) 6))))) (cM (cD (cB (cV 1) (cN 1)) (cN 2)) (cR (cM (cM (cM (cM (cD (cB (cV 1) (cN 1)) (cN 2)) (cW (cA (cN 1) (cD (cB (cV 1) (cN 1)) (cN 2))) 6)) (cA (cN 1) (cM (cN 2) (cD (cB (cV 1) (cN 1)) (cN 2))))) (cW (cV 2) 6)) (cW (cA (cN 1) (cV 2)) 10))))) (cM (cM (cN 2) (cW (cD (cB (cV 1) (cN 1)) (cN 2)) 4)) (cR (cM (cM (cM (cM (cD (cB (cV 1) (cN 1)) (cN 2)) (cW (cA (cN 1) (cD (cB (cV 1) (cN 1)) (cN 2))) 6)) (cA (cN 1) (cM (cN 2) (cD (cB (cV 1) (cN 1)) (cN 2))))) (cW (cV 2) 6)) (cW (cA (cN 1) (cV 2)) 10))))) (cM (cM (cD (cB (cV 1) (cN 1)) (cN 2)) (cV 2)) (cR (cM (cM (cM (cM (cD (cB (cV 1) (cN 1)) (cN 2)) (cW (cA (cN 1) (cD (cB (cV 1) (cN 1)) (cN 2))) 6)) (cA (cN 1) (cM (cN 2) (cD (cB (cV 1) (cN 1)) (cN 2))))) (cW (cV 2) 6)) (cW (cA (cN 1) (cV 2)) 10))))) (cM (cM (cM (cN 2) (cW (cD (cB (cV 1) (cN 1)) (cN 2)) 4)) (cV 2)) (cR (cM (cM (cM (cM (cD (cB (cV 1) (cN 1)) (cN 2)) (cW (cA (cN 1) (cD (cB (cV 1) (cN 1)) (cN 2))) 6)) (cA (cN 1) (cM (cN 2) (cD (cB (cV 1) (cN 1)) (cN 2))))) (cW (cV 2) 6)) (cW (cA (cN 1) (cV 2)) 10))))) (cM (cM (cM (cM (cA (cN 1) (cD (cB (cV 1) (cN 1)) (cN 2))) (cA (cN (-1)) (cM (cN 2) (cD (cB (cV 1) (cN 1)) (cN 2))))) (cR (cM (cM (cM (cD (cB (cV 1) (cN 1)) (cN 2)) (cA (cN 1) (cD (cB (cV 1) (cN 1)) (cN 2)))) (cA (cN 1) (cM (cN 2) (cD (cB (cV 1) (cN 1)) (cN 2))))) (cV 2)))) (cW (cA (cN 1) (cV 2)) 5)) (cA (cN (-1)) (cM (cN 2) (cV 2))))) (cM (cM (cM (cM (cM (cD (cB (cV 1) (cN 1)) (cN 2)) (cW (cA (cN 1) (cD (cB (cV 1) (cN 1)) (cN 2))) 4)) (cR (cA (cN (-1)) (cM (cN 2) (cD (cB (cV 1) (cN 1)) (cN 2)))))) (cA (cN 1) (cM (cN 2) (cD (cB (cV 1) (cN 1)) (cN 2))))) (cW (cV 2) 3)) (cW (cA (cN 1) (cV 2)) 7))).
Definition QST_e286 := (cD (cA (cA (cO (cR (cD (cM (cM (cW (cD (cB (cV 1) (cN 1)) (cN 2)) 6) (cA (cN 1) (cD (cB (cV 1) (cN 1)) (cN 2)))) (cA (cN 1) (cV 2))) (cA (cN (-1)) (cM (cN 2) (cD (cB (cV 1) (cN 1)) (cN 2))))))) (cM (cN 2) (cR (cD (cM (cM (cW (cD (cB (cV 1) (cN 1)) (cN 2)) 10) (cA (cN 1) (cD (cB (cV 1) (cN 1)) (cN 2)))) (cA (cN 1) (cV 2))) (cA (cN (-1)) (cM (cN 2) (cD (cB (cV 1) (cN 1)) (cN 2)))))))) (cR (cM (cM (cM (cD (cB (cV 1) (cN 1)) (cN 2)) (cA (cN 1) (cD (cB (cV 1) (cN 1)) (cN 2)))) (cA (cN (-1)) (cM (cN 2) (cD (cB (cV 1) (cN 1)) (cN 2))))) (cA (cN 1) (cV 2))))) (cM (cM (cM (cD (cB (cV 1) (cN 1)) (cN 2)) (cA (cN 1) (cD (cB (cV 1) (cN 1)) (cN 2)))) (cR (cA (cN 1) (cM (cN 2) (cD (cB (cV 1) (cN 1)) (cN 2)))))) (cW (cA (cN 1) (cV 2)) 3))).
Definition QST_e287 := (cO (cD (cN 1) (cM (cR (cM (cA (cN 1) (cD (cB (cV 1) (cN 1)) (cN 2))) (cA (cN 1) (cM (cN 2) (cD (cB (cV 1) (cN 1)) (cN 2)))))) (cV 2)))).
Definition QST_e288 := (cD (cA (cA (cN (-1)) (cV 2)) (cW (cV 2) 4)) (cM (cR (cA (cA (cN 1) (cM (cN 3) (cD (cB (cV 1) (cN 1)) (cN 2)))) (cM (cN 2) (cW (cD (cB (cV 1) (cN 1)) (cN 2)) 4)))) (cA (cV 2) (cW (cV 2) 4)))).
Definition QST_e289 := (cD (cN 1) (cM (cR (cM (cA (cN 1) (cD (cB (cV 1) (cN 1)) (cN 2))) (cA (cN 1) (cM (cN 2) (cD (cB (cV 1) (cN 1)) (cN 2)))))) (cA (cN 1) (cV 2)))).
Definition QST_e290 := (cO (cD (cM (cM (cA (cN 1) (cD (cB (cV 1) (cN 1)) (cN 2))) (cA (cN (-1)) (cM (cN 2) (cD (cB (cV 1) (cN 1)) (cN 2))))) (cA (cN 3) (cM (cN 2) (cV 2)))) (cM (cA (cN 1) (cV 2)) (cR (cM (cM (cM (cM (cD (cB (cV 1) (cN 1)) (cN 2)) (cA (cN 1) (cD (cB (cV 1) (cN 1)) (cN 2)))) (cA (cN (-1)) (cM (cN 2) (cD (cB (cV 1) (cN 1)) (cN 2))))) (cA (cN 1) (cM (cN 2) (cD (cB (cV 1) (cN 1)) (cN 2))))) (cA (cN 3) (cM (cM (cN 4) (cV 2)) (cA (cN 2) (cV 2))))))))).
Definition QST_e291 := (cD (cM (cR (cD (cA (cN 1) (cV 2)) (cM (cA (cA (cN 1) (cM (cN 3) (cD (cB (cV 1) (cN 1)) (cN 2)))) (cM (cN 2) (cW (cD (cB (cV 1) (cN 1)) (cN 2)) 4))) (cA (cN 2) (cV 2))))) (cA (cA (cA (cA (cA (cB (cM (cN (-5)) (cR (cD (cM (cD (cB (cV 1) (cN 1)) (cN 2)) (cV 2)) (cM (cA (cN (-1)) (cM (cN 2) (cD (cB (cV 1) (cN 1)) (cN 2)))) (cA (cN 1) (cV 2)))))) (cM (cM (cN 4) (cV 2)) (cR (cD (cM (cD (cB (cV 1) (cN 1)) (cN 2)) (cV 2)) (cM (cA (cN (-1)) (cM (cN 2) (cD (cB (cV 1) (cN 1)) (cN 2)))) (cA (cN 1) (cV 2))))))) (cM (cM (cM (cN 2) (cW (cD (cB (cV 1) (cN 1)) (cN 2)) 4)) (cR (cD (cM (cV 2) (cA (cN 1) (cV 2))) (cM (cD (cB (cV 1) (cN 1)) (cN 2)) (cA (cN (-1)) (cM (cN 2) (cD (cB (cV 1) (cN 1)) (cN 2)))))))) (cA (cN 1) (cM (cN 2) (cV 2))))) (cM (cR (cD (cM (cM (cA (cN (-1)) (cM (cN 2) (cD (cB (cV 1) (cN 1)) (cN 2)))) (cV 2)) (cA (cN 1) (cV 2))) (cD (cB (cV 1) (cN 1)) (cN 2)))) (cA (cN 1) (cM (cN 2) (cV 2))))) (cM (cN 5) (cR (cO (cD (cB (cV 2) (cM (cM (cN 2) (cD (cB (cV 1) (cN 1)) (cN 2))) (cV 2))) (cA (cD (cB (cV 1) (cN 1)) (cN 2)) (cM (cD (cB (cV 1) (cN 1)) (cN 2)) (cV 2)))))))) (cM (cM (cN 4) (cV 2)) (cR (cO (cD (cB (cV 2) (cM (cM (cN 2) (cD (cB (cV 1) (cN 1)) (cN 2))) (cV 2))) (cA (cD (cB (cV 1) (cN 1)) (cN 2)) (cM (cD (cB (cV 1) (cN 1)) (cN 2)) (cV 2)))))))) (cM (cD (cB (cV 1) (cN 1)) (cN 2)) (cB (cA (cM (cN 6) (cR (cD (cM (cD (cB (cV 1) (cN 1)) (cN 2)) (cV 2)) (cM (cA (cN (-1)) (cM (cN 2) (cD (cB (cV 1) (cN 1)) (cN 2)))) (cA (cN 1) (cV 2)))))) (cM (cM (cN 4) (cR (cD (cM (cD (cB (cV 1) (cN 1)) (cN 2)) (cV 2)) (cM (cA (cN (-1)) (cM (cN 2) (cD (cB (cV 1) (cN 1)) (cN 2)))) (cA (cN 1) (cV 2)))))) (cA (cN 1) (cM (cN 2) (cV 2))))) (cM (cR (cD (cM (cV 2) (cA (cN 1) (cV 2))) (cM (cD (cB (cV 1) (cN 1)) (cN 2)) (cA (cN (-1)) (cM (cN 2) (cD (cB (cV 1) (cN 1)) (cN 2))))))) (cA (cN 1) (cM (cN 2) (cV 2)))))))) (cA (cA (cN 3) (cM (cN 5) (cV 2))) (cM (cN 2) (cW (cV 2) 4)))).
Definition QST_e292 := (cD (cB (cN (-3)) (cM (cN 2) (cV 2))) (cM (cA (cN 1) (cV 2)) (cR (cM (cM (cA (cN 1) (cD (cB (cV 1) (cN 1)) (cN 2))) (cA (cN 1) (cM (cN 2) (cD (cB (cV 1) (cN 1)) (cN 2))))) (cA (cN 3) (cM (cM (cN 4) (cV 2)) (cA (cN 2) (cV 2)))))))).
Definition QST_e293 := (cD (cR (cD (cM (cV 2) (cA (cN 2) (cV 2))) (cA (cA (cN 1) (cM (cN 3) (cD (cB (cV 1) (cN 1)) (cN 2)))) (cM (cN 2) (cW (cD (cB (cV 1) (cN 1)) (cN 2)) 4))))) (cA (cN 1) (cV 2))).
Definition QST_e294 := (cM (cR (cD (cA (cN 1) (cV 2)) (cA (cA (cM (cN 3) (cV 2)) (cM (cM (cN 5) (cD (cB (cV 1) (cN 1)) (cN 2))) (cV 2))) (cM (cM (cN 2) (cW (cD (cB (cV 1) (cN 1)) (cN 2)) 4)) (cV 2))))) (cA (cA (cR (cD (cM (cM (cD (cB (cV 1) (cN 1)) (cN 2)) (cA (cN 1) (cM (cN 2) (cD (cB (cV 1) (cN 1)) (cN 2))))) (cA (cN (-1)) (cV 2))) (cV 2))) (cR (cD (cM (cM (cD (cB (cV 1) (cN 1)) (cN 2)) (cA (cN 1) (cM (cN 2) (cD (cB (cV 1) (cN 1)) (cN 2))))) (cA (cN (-1)) (cV 2))) (cM (cW (cA (cN 1) (cD (cB (cV 1) (cN 1)) (cN 2))) 4) (cV 2))))) (cR (cD (cM (cD (cB (cV 1) (cN 1)) (cN 2)) (cA (cN (-1)) (cV 2))) (cM (cW (cA (cN 1) (cD (cB (cV 1) (cN 1)) (cN 2))) 4) (cA (cV 2) (cM (cM (cN 2) (cD (cB (cV 1) (cN 1)) (cN 2))) (cV 2)))))))).
Definition QST_e295 := (cD (cA (cN 3) (cM (cN 2) (cD (cB (cV 1) (cN 1)) (cN 2)))) (cR (cD (cM (cM (cM (cM (cA (cN 1) (cD (cB (cV 1) (cN 1)) (cN 2))) (cA (cN 1) (cM (cN 2) (cD (cB (cV 1) (cN 1)) (cN 2))))) (cA (cN 3) (cM (cN 2) (cD (cB (cV 1) (cN 1)) (cN 2))))) (cW (cV 2) 4)) (cA (cN 1) (cM (cN 2) (cV 2)))) (cM (cD (cB (cV 1) (cN 1)) (cN 2)) (cA (cN (-1)) (cM (cN 2) (cV 2))))))).
Definition QST_e296 := (cD (cB (cN (-3)) (cM (cN 2) (cD (cB (cV 1) (cN 1)) (cN 2)))) (cR (cD (cM (cM (cM (cA (cN 1) (cD (cB (cV 1) (cN 1)) (cN 2))) (cA (cN 1) (cM (cN 2) (cD (cB (cV 1) (cN 1)) (cN 2))))) (cA (cN 3) (cM (cN 2) (cD (cB (cV 1) (cN 1)) (cN 2))))) (cW (cV 2) 4)) (cD (cB (cV 1) (cN 1)) (cN 2))))).
Definition QST_e297 := (cD (cM (cR (cD (cM (cM (cD (cB (cV 1) (cN 1)) (cN 2)) (cA (cN 1) (cD (cB (cV 1) (cN 1)) (cN 2)))) (cA (cN 3) (cM (cN 2) (cD (cB (cV 1) (cN 1)) (cN 2))))) (cA (cN 1) (cM (cN 2) (cD (cB (cV 1) (cN 1)) (cN 2)))))) (cA (cA (cN (-1)) (cV 2)) (cW (cV 2) 4))) (cM (cM (cA (cN 1) (cD (cB (cV 1) (cN 1)) (cN 2))) (cV 2)) (cA (cN 1) (cV 2)))).
Definition QST_e298 := (cD (cR (cB (cA (cN 1) (cD (cN 1) (cA (cN 1) (cD (cB (cV 1) (cN 1)) (cN 2))))) (cD (cN 2) (cA (cN 1) (cM (cN 2) (cD (cB (cV 1) (cN 1)) (cN 2))))))) (cA (cN 1) (cV 2))).
Definition QST_e299 := (cO (cD (cM (cA (cN 3) (cM (cN 2) (cV 2))) (cA (cA (cA (cR (cD (cM (cM (cD (cB (cV 1) (cN 1)) (cN 2)) (cA (cN 1) (cD (cB (cV 1) (cN 1)) (cN 2)))) (cA (cN 1) (cM (cN 2) (cD (cB (cV 1) (cN 1)) (cN 2))))) (cA (cN 1) (cV 2)))) (cM (cN 2) (cR (cD (cM (cM (cW (cD (cB (cV 1) (cN 1)) (cN 2)) 6) (cA (cN 1) (cD (cB (cV 1) (cN 1)) (cN 2)))) (cA (cN 1) (cM (cN 2) (cD (cB (cV 1) (cN 1)) (cN 2))))) (cA (cN 1) (cV 2)))))) (cM (cN 2) (cR (cD (cA (cD (cB (cV 1) (cN 1)) (cN 2)) (cM (cN 2) (cW (cD (cB (cV 1) (cN 1)) (cN 2)) 4))) (cA (cA (cA (cN 1) (cD (cB (cV 1) (cN 1)) (cN 2))) (cV 2)) (cM (cD (cB (cV 1) (cN 1)) (cN 2)) (cV 2))))))) (cM (cN 2) (cR (cD (cA (cW (cD (cB (cV 1) (cN 1)) (cN 2)) 6) (cM (cN 2) (cW (cD (cB (cV 1) (cN 1)) (cN 2)) 8))) (cA (cA (cA (cN 1) (cD (cB (cV 1) (cN 1)) (cN 2))) (cV 2)) (cM (cD (cB (cV 1) (cN 1)) (cN 2)) (cV 2)))))))) (cM (cM (cA (cN 1) (cD (cB (cV 1) (cN 1)) (cN 2))) (cA (cN 1) (cM (cN 2) (cD (cB (cV 1) (cN 1)) (cN 2))))) (cR (cM (cM (cM (cA (cN 3) (cM (cN 2) (cD (cB (cV 1) (cN 1)) (cN 2)))) (cA (cN 1) (cV 2))) (cA (cN 1) (cM (cN 2) (cV 2)))) (cA (cN 3) (cM (cN 2) (cV 2)))))))).
Definition QST_e300 := (cD (cR (cD (cM (cM (cM (cD (cB (cV 1) (cN 1)) (cN 2)) (cA (cN 3) (cM (cN 2) (cD (cB (cV 1) (cN 1)) (cN 2))))) (cV 2)) (cA (cN 2) (cV 2))) (cA (cA (cN 1) (cM (cN 3) (cD (cB (cV 1) (cN 1)) (cN 2)))) (cM (cN 2) (cW (cD (cB (cV 1) (cN 1)) (cN 2)) 4))))) (cA (cN 1) (cV 2))).
Definition QST_e301 := (cO (cD (cR (cM (cA (cN (-2)) (cV 2)) (cA (cN 1) (cV 2)))) (cM (cA (cN 1) (cM (cN 2) (cD (cB (cV 1) (cN 1)) (cN 2)))) (cR (cM (cA (cN (-1)) (cV 2)) (cV 2)))))).
Definition QST_e302 := (cD (cM (cR (cN 2)) (cB (cN 3) (cM (cN 2) (cV 2)))) (cM (cA (cN 1) (cM (cN 2) (cD (cB (cV 1) (cN 1)) (cN 2)))) (cR (cM (cM (cM (cA (cN (-1)) (cV 2)) (cV 2)) (cA (cN (-3)) (cM (cN 2) (cV 2)))) (cA (cN (-1)) (cM (cN 2) (cV 2))))))).
Definition QST_e303 := (cD (cB (cN 3) (cW (cV 2) 4)) (cR (cM (cW (cV 2) 4) (cA (cN (-1)) (cW (cV 2) 4))))).
Definition QST_e304 := (cD (cB (cN 3) (cW (cV 2) 4)) (cM (cA (cV 2) (cM (cM (cN 2) (cD (cB (cV 1) (cN 1)) (cN 2))) (cV 2))) (cR (cA (cN (-1)) (cW (cV 2) 4))))).
Definition QST_e305 := (cO (cD (cM (cR (cN 3)) (cA (cA (cN (-3)) (cV 2)) (cM (cN 2) (cW (cV 2) 4)))) (cM (cR (cM (cM (cM (cA (cN (-1)) (cV 2)) (cA (cN 1) (cV 2))) (cA (cN 1) (cM (cN 2) (cV 2)))) (cA (cN 3) (cM (cN 2) (cV 2))))) (cA (cV 2) (cM (cM (cN 2) (cD (cB (cV 1) (cN 1)) (cN 2))) (cV 2)))))).
Definition QST_e306 := (cD (cM (cR (cN 3)) (cA (cA (cN (-3)) (cV 2)) (cM (cN 2) (cW (cV 2) 4)))) (cM (cV 2) (cR (cM (cA (cN 1) (cV 2)) (cA (cB (cN 3) (cM (cN 7) (cV 2))) (cM (cN 4) (cW (cV 2) 6))))))).
Definition QST_e307 := (cD (cM (cR (cN 3)) (cA (cA (cN (-3)) (cV 2)) (cM (cN 2) (cW (cV 2) 4)))) (cM (cR (cM (cM (cM (cA (cN (-1)) (cV 2)) (cA (cN 1) (cV 2))) (cA (cN (-1)) (cM (cN 2) (cV 2)))) (cA (cN 3) (cM (cN 2) (cV 2))))) (cA (cV 2) (cM (cM (cN 2) (cD (cB (cV 1) (cN 1)) (cN 2))) (cV 2))))).
Definition QST_e308 := (cO (cD (cA (cA (cN (-3)) (cV 2)) (cW (cV 2) 4)) (cM (cA (cN 1) (cV 2)) (cA (cV 2) (cM (cM (cN 2) (cD (cB (cV 1) (cN 1)) (cN 2))) (cV 2)))))).
Definition QST_e309 := (cO (cD (cM (cM (cM (cR (cN 3)) (cV 2)) (cR (cA (cN 1) (cV 2)))) (cA (cM (cM (cV 2) (cR (cD (cM (cA (cN 1) (cM (cN 2) (cD (cB (cV 1) (cN 1)) (cN 2)))) (cA (cN 2) (cV 2))) (cA (cN (-1)) (cM (cN 2) (cV 2)))))) (cA (cN (-19)) (cM (cM (cN 4) (cV 2)) (cA (cN 3) (cV 2))))) (cM (cN 6) (cA (cR (cD (cM (cA (cN 1) (cM (cN 2) (cD (cB (cV 1) (cN 1)) (cN 2)))) (cA (cN 2) (cV 2))) (cA (cN (-1)) (cM (cN 2) (cV 2))))) (cM (cN 2) (cR (cM (cM (cA (cN 1) (cM (cN 2) (cD (cB (cV 1) (cN 1)) (cN 2)))) (cA (cN 2) (cV 2))) (cA (cN (-1)) (cM (cN 2) (cV 2)))))))))) (cM (cA (cN 2) (cV 2)) (cW (cM (cM (cM (cA (cN 1) (cM (cN 2) (cD (cB (cV 1) (cN 1)) (cN 2)))) (cV 2)) (cA (cN 1) (cV 2))) (cA (cN 3) (cM (cN 2) (cV 2)))) 3)))).
Definition QST_e310 := (cO (cM (cM (cR (cN 3)) (cR (cA (cN 1) (cV 2)))) (cA (cA (cA (cM (cM (cM (cA (cN (-3)) (cV 2)) (cV 2)) (cA (cN (-1)) (cM (cN 2) (cV 2)))) (cR (cD (cA (cN 1) (cM (cN 2) (cV 2))) (cM (cM (cM (cV 2) (cW (cA (cN 1) (cV 2)) 6)) (cW (cA (cN 3) (cM (cN 2) (cV 2))) 4)) (cA (cA (cN (-2)) (cM (cN 3) (cV 2))) (cM (cN 2) (cW (cV 2) 4))))))) (cM (cN 6) (cR (cD (cM (cW (cA (cN (-1)) (cV 2)) 4) (cA (cN (-1)) (cM (cN 2) (cV 2)))) (cM (cM (cM (cV 2) (cW (cA (cN 1) (cV 2)) 6)) (cW (cA (cN 3) (cM (cN 2) (cV 2))) 4)) (cA (cA (cN 2) (cM (cN 5) (cV 2))) (cM (cN 2) (cW (cV 2) 4)))))))) (cM (cB (cN 1) (cM (cN 2) (cV 2))) (cR (cD (cM (cV 2) (cA (cN 1) (cM (cN 2) (cV 2)))) (cM (cW (cA (cN 3) (cM (cN 2) (cV 2))) 4) (cA (cA (cA (cN (-2)) (cV 2)) (cM (cN 5) (cW (cV 2) 4))) (cM (cN 2) (cW (cV 2) 6)))))))) (cD (cM (cM (cN 3) (cA (cN (-3)) (cM (cN 2) (cV 2)))) (cR (cD (cM (cV 2) (cA (cN (-1)) (cM (cN 2) (cV 2)))) (cA (cA (cA (cN 2) (cM (cN 7) (cV 2))) (cM (cN 7) (cW (cV 2) 4))) (cM (cN 2) (cW (cV 2) 6)))))) (cA (cA (cN 3) (cM (cN 5) (cV 2))) (cM (cN 2) (cW (cV 2) 4))))))).
Definition QST_e311 := (cO (cD (cM (cR (cA (cN 2) (cD (cN 2) (cV 2)))) (cA (cM (cM (cN 45) (cV 2)) (cR (cM (cM (cM (cV 2) (cA (cN 1) (cV 2))) (cA (cN 2) (cV 2))) (cA (cN 3) (cM (cN 2) (cV 2)))))) (cM (cN 2) (cA (cA (cM (cN 15) (cR (cM (cM (cM (cV 2) (cA (cN 1) (cV 2))) (cA (cN 2) (cV 2))) (cA (cN 3) (cM (cN 2) (cV 2)))))) (cM (cN 9) (cR (cM (cM (cM (cW (cV 2) 10) (cA (cN 1) (cV 2))) (cA (cN 2) (cV 2))) (cA (cN 3) (cM (cN 2) (cV 2))))))) (cR (cM (cM (cM (cM (cW (cV 2) 6) (cW (cA (cN 1) (cV 2)) 6)) (cA (cN 2) (cV 2))) (cW (cA (cN 1) (cM (cN 2) (cV 2))) 4)) (cA (cN 3) (cM (cN 2) (cV 2))))))))) (cM (cM (cW (cA (cN 2) (cV 2)) 4) (cW (cM (cA (cN 1) (cV 2)) (cA (cN 3) (cM (cN 2) (cV 2)))) 3)) (cA (cN 5) (cM (cN 2) (cV 2)))))).
Definition QST_e312 := (cD (cM (cM (cR (cN 3)) (cA (cN 2) (cV 2))) (cA (cN (-1)) (cM (cN 2) (cV 2)))) (cM (cM (cA (cN 1) (cM (cN 2) (cD (cB (cV 1) (cN 1)) (cN 2)))) (cA (cN 1) (cV 2))) (cR (cM (cM (cM (cV 2) (cA (cN 2) (cV 2))) (cA (cN (-1)) (cM (cN 2) (cV 2)))) (cA (cN 1) (cM (cN 2) (cV 2))))))).
Definition QST_e313 := (cD (cB (cN 2) (cM (cV 2) (cA (cN 2) (cV 2)))) (cM (cM (cA (cN 1) (cM (cN 2) (cD (cB (cV 1) (cN 1)) (cN 2)))) (cA (cN 1) (cV 2))) (cR (cM (cV 2) (cA (cN 2) (cV 2)))))).
Definition QST_e314 := (cO (cD (cR (cN 2)) (cM (cA (cN 1) (cM (cN 2) (cD (cB (cV 1) (cN 1)) (cN 2)))) (cR (cM (cA (cN 1) (cV 2)) (cA (cN 2) (cV 2))))))).
Definition QST_e315 := (cM (cM (cR (cN 2)) (cR (cD (cN 1) (cM (cM (cM (cV 2) (cW (cA (cN 1) (cV 2)) 4)) (cA (cN 5) (cM (cN 2) (cV 2)))) (cW (cA (cA (cN 6) (cM (cN 7) (cV 2))) (cM (cN 2) (cW (cV 2) 4))) 6))))) (cA (cA (cA (cM (cN 30) (cR (cM (cV 2) (cA (cN 1) (cV 2))))) (cM (cN 47) (cR (cM (cW (cV 2) 6) (cA (cN 1) (cV 2)))))) (cM (cN 24) (cR (cM (cW (cV 2) 10) (cA (cN 1) (cV 2)))))) (cM (cN 4) (cR (cM (cW (cV 2) 14) (cA (cN 1) (cV 2))))))).
Definition QST_e316 := (cO (cD (cM (cV 2) (cA (cN 3) (cV 2))) (cR (cM (cM (cM (cV 2) (cA (cN 1) (cV 2))) (cA (cN 2) (cV 2))) (cA (cN 3) (cV 2)))))).
Definition QST_e317 := (cM (cM (cR (cN 2)) (cR (cD (cN 1) (cM (cM (cM (cM (cW (cA (cN 1) (cM (cN 2) (cD (cB (cV 1) (cN 1)) (cN 2)))) 6) (cV 2)) (cW (cA (cN 1) (cV 2)) 4)) (cA (cN 5) (cM (cN 2) (cV 2)))) (cW (cA (cA (cN 6) (cM (cN 7) (cV 2))) (cM (cN 2) (cW (cV 2) 4))) 6))))) (cA (cB (cB (cB (cB (cM (cN 30) (cR (cM (cM (cA (cN 1) (cM (cN 2) (cD (cB (cV 1) (cN 1)) (cN 2)))) (cV 2)) (cA (cN 1) (cV 2))))) (cM (cN 9) (cR (cM (cM (cA (cN 1) (cM (cN 2) (cD (cB (cV 1) (cN 1)) (cN 2)))) (cW (cV 2) 6)) (cA (cN 1) (cV 2)))))) (cM (cN 29) (cR (cM (cM (cA (cN 1) (cM (cN 2) (cD (cB (cV 1) (cN 1)) (cN 2)))) (cW (cV 2) 10)) (cA (cN 1) (cV 2)))))) (cM (cN 24) (cR (cM (cM (cA (cN 1) (cM (cN 2) (cD (cB (cV 1) (cN 1)) (cN 2)))) (cW (cV 2) 14)) (cA (cN 1) (cV 2)))))) (cM (cN 4) (cR (cM (cM (cA (cN 1) (cM (cN 2) (cD (cB (cV 1) (cN 1)) (cN 2)))) (cW (cV 2) 18)) (cA (cN 1) (cV 2)))))) (cM (cM (cV 2) (cR (cM (cM (cA (cN 1) (cM (cN 2) (cD (cB (cV 1) (cN 1)) (cN 2)))) (cV 2)) (cA (cN 1) (cV 2))))) (cA (cN 56) (cM (cV 2) (cA (cN 53) (cM (cM (cN 4) (cV 2)) (cA (cN 7) (cV 2))))))))).
Definition QST_e318 := (cO (cD (cR (cD (cM (cM (cV 2) (cA (cN 1) (cV 2))) (cA (cN 3) (cV 2))) (cA (cN 2) (cV 2)))) (cM (cA (cN 1) (cM (cN 2) (cD (cB (cV 1) (cN 1)) (cN 2)))) (cA (cN 1) (cV 2))))).
Definition QST_e319 := (cO (cD (cM (cR (cN 2)) (cA (cR (cD (cM (cD (cB (cV 1) (cN 1)) (cN 2)) (cA (cN (-3)) (cM (cN 2) (cV 2)))) (cA (cN 1) (cM (cN 2) (cD (cB (cV 1) (cN 1)) (cN 2)))))) (cR (cM (cM (cD (cB (cV 1) (cN 1)) (cN 2)) (cA (cN 1) (cM (cN 2) (cD (cB (cV 1) (cN 1)) (cN 2))))) (cA (cN (-3)) (cM (cN 2) (cV 2))))))) (cR (cM (cM (cM (cM (cA (cN 1) (cD (cB (cV 1) (cN 1)) (cN 2))) (cA (cN 1) (cM (cN 2) (cD (cB (cV 1) (cN 1)) (cN 2))))) (cA (cN (-1)) (cV 2))) (cV 2)) (cA (cN (-1)) (cM (cN 2) (cV 2))))))).
Definition QST_e320 := (cD (cM (cM (cN (-2)) (cA (cN (-3)) (cW (cV 2) 4))) (cR (cD (cM (cD (cB (cV 1) (cN 1)) (cN 2)) (cA (cN 1) (cD (cB (cV 1) (cN 1)) (cN 2)))) (cA (cN (-1)) (cW (cV 2) 4))))) (cA (cV 2) (cM (cM (cN 2) (cD (cB (cV 1) (cN 1)) (cN 2))) (cV 2)))).
Definition QST_e321 := (cD (cM (cM (cN (-2)) (cR (cN 3))) (cA (cM (cM (cV 2) (cR (cD (cM (cM (cD (cB (cV 1) (cN 1)) (cN 2)) (cA (cN 1) (cD (cB (cV 1) (cN 1)) (cN 2)))) (cA (cN 1) (cV 2))) (cA (cN (-1)) (cV 2))))) (cA (cN (-5)) (cM (cN 2) (cV 2)))) (cM (cN 3) (cA (cR (cD (cM (cM (cD (cB (cV 1) (cN 1)) (cN 2)) (cA (cN 1) (cD (cB (cV 1) (cN 1)) (cN 2)))) (cA (cN 1) (cV 2))) (cA (cN (-1)) (cV 2)))) (cM (cN 2) (cR (cM (cM (cD (cB (cV 1) (cN 1)) (cN 2)) (cA (cN 1) (cD (cB (cV 1) (cN 1)) (cN 2)))) (cA (cN (-1)) (cW (cV 2) 4))))))))) (cM (cM (cM (cA (cN 1) (cM (cN 2) (cD (cB (cV 1) (cN 1)) (cN 2)))) (cV 2)) (cA (cN 1) (cV 2))) (cR (cA (cN 3) (cM (cM (cN 4) (cV 2)) (cA (cN 2) (cV 2))))))).
Definition QST_e322 := (cD (cM (cR (cN 3)) (cA (cA (cB (cB (cA (cA (cB (cA (cA (cA (cM (cN 3) (cR (cD (cM (cD (cB (cV 1) (cN 1)) (cN 2)) (cA (cN (-1)) (cV 2))) (cM (cM (cA (cN 1) (cM (cN 2) (cD (cB (cV 1) (cN 1)) (cN 2)))) (cV 2)) (cA (cN (-1)) (cM (cN 2) (cV 2))))))) (cM (cM (cB (cN 3) (cM (cN 2) (cV 2))) (cV 2)) (cR (cD (cM (cD (cB (cV 1) (cN 1)) (cN 2)) (cA (cN (-1)) (cV 2))) (cM (cM (cA (cN 1) (cM (cN 2) (cD (cB (cV 1) (cN 1)) (cN 2)))) (cV 2)) (cA (cN (-1)) (cM (cN 2) (cV 2)))))))) (cM (cN 3) (cR (cD (cM (cM (cD (cB (cV 1) (cN 1)) (cN 2)) (cA (cN 1) (cM (cN 2) (cD (cB (cV 1) (cN 1)) (cN 2))))) (cA (cN (-1)) (cV 2))) (cM (cV 2) (cA (cN (-1)) (cM (cN 2) (cV 2)))))))) (cM (cN 3) (cR (cD (cM (cM (cM (cD (cB (cV 1) (cN 1)) (cN 2)) (cA (cN 1) (cM (cN 2) (cD (cB (cV 1) (cN 1)) (cN 2))))) (cA (cN (-1)) (cV 2))) (cV 2)) (cA (cN (-1)) (cM (cN 2) (cV 2))))))) (cM (cN 2) (cR (cD (cM (cM (cM (cD (cB (cV 1) (cN 1)) (cN 2)) (cA (cN 1) (cM (cN 2) (cD (cB (cV 1) (cN 1)) (cN 2))))) (cA (cN (-1)) (cV 2))) (cW (cV 2) 6)) (cA (cN (-1)) (cM (cN 2) (cV 2))))))) (cR (cD (cM (cD (cB (cV 1) (cN 1)) (cN 2)) (cV 2)) (cM (cA (cN 1) (cM (cN 2) (cD (cB (cV 1) (cN 1)) (cN 2)))) (cA (cB (cN 1) (cM (cN 3) (cV 2))) (cM (cN 2) (cW (cV 2) 4))))))) (cR (cD (cM (cM (cD (cB (cV 1) (cN 1)) (cN 2)) (cA (cN 1) (cM (cN 2) (cD (cB (cV 1) (cN 1)) (cN 2))))) (cV 2)) (cA (cB (cN 1) (cM (cN 3) (cV 2))) (cM (cN 2) (cW (cV 2) 4)))))) (cM (cN 3) (cR (cD (cM (cD (cB (cV 1) (cN 1)) (cN 2)) (cW (cV 2) 6)) (cM (cA (cN 1) (cM (cN 2) (cD (cB (cV 1) (cN 1)) (cN 2)))) (cA (cB (cN 1) (cM (cN 3) (cV 2))) (cM (cN 2) (cW (cV 2) 4)))))))) (cM (cN 3) (cR (cD (cM (cM (cD (cB (cV 1) (cN 1)) (cN 2)) (cA (cN 1) (cM (cN 2) (cD (cB (cV 1) (cN 1)) (cN 2))))) (cW (cV 2) 6)) (cA (cB (cN 1) (cM (cN 3) (cV 2))) (cM (cN 2) (cW (cV 2) 4))))))) (cM (cN 2) (cR (cD (cM (cD (cB (cV 1) (cN 1)) (cN 2)) (cW (cV 2) 10)) (cM (cA (cN 1) (cM (cN 2) (cD (cB (cV 1) (cN 1)) (cN 2)))) (cA (cB (cN 1) (cM (cN 3) (cV 2))) (cM (cN 2) (cW (cV 2) 4)))))))) (cM (cN 2) (cR (cD (cM (cM (cD (cB (cV 1) (cN 1)) (cN 2)) (cA (cN 1) (cM (cN 2) (cD (cB (cV 1) (cN 1)) (cN 2))))) (cW (cV 2) 10)) (cA (cB (cN 1) (cM (cN 3) (cV 2))) (cM (cN 2) (cW (cV 2) 4)))))))) (cR (cM (cM (cM (cM (cA (cN 1) (cD (cB (cV 1) (cN 1)) (cN 2))) (cA (cN 1) (cM (cN 2) (cD (cB (cV 1) (cN 1)) (cN 2))))) (cV 2)) (cA (cN 1) (cV 2))) (cA (cN 3) (cM (cN 2) (cV 2)))))).
Definition QST_e323 := (cD (cM (cM (cN (-2)) (cR (cM (cD (cB (cV 1) (cN 1)) (cN 2)) (cA (cN 1) (cD (cB (cV 1) (cN 1)) (cN 2)))))) (cA (cA (cN (-3)) (cV 2)) (cW (cV 2) 4))) (cM (cA (cN 1) (cV 2)) (cA (cV 2) (cM (cM (cN 2) (cD (cB (cV 1) (cN 1)) (cN 2))) (cV 2))))).
Definition QST_e324 := (cD (cM (cM (cM (cN (-2)) (cA (cN 1) (cD (cB (cV 1) (cN 1)) (cN 2)))) (cR (cD (cA (cN 3) (cM (cN 3) (cV 2))) (cA (cV 2) (cM (cD (cB (cV 1) (cN 1)) (cN 2)) (cV 2)))))) (cA (cM (cM (cV 2) (cR (cD (cM (cM (cM (cD (cB (cV 1) (cN 1)) (cN 2)) (cA (cN 1) (cV 2))) (cA (cN 2) (cV 2))) (cA (cN 3) (cM (cN 2) (cV 2)))) (cA (cN (-1)) (cM (cN 2) (cV 2)))))) (cA (cN (-19)) (cM (cM (cN 4) (cV 2)) (cA (cN 3) (cV 2))))) (cM (cN 6) (cA (cR (cD (cM (cM (cM (cD (cB (cV 1) (cN 1)) (cN 2)) (cA (cN 1) (cV 2))) (cA (cN 2) (cV 2))) (cA (cN 3) (cM (cN 2) (cV 2)))) (cA (cN (-1)) (cM (cN 2) (cV 2))))) (cM (cN 2) (cR (cM (cM (cM (cM (cD (cB (cV 1) (cN 1)) (cN 2)) (cA (cN 1) (cV 2))) (cA (cN 2) (cV 2))) (cA (cN (-1)) (cM (cN 2) (cV 2)))) (cA (cN 3) (cM (cN 2) (cV 2)))))))))) (cM (cM (cM (cA (cN 1) (cM (cN 2) (cD (cB (cV 1) (cN 1)) (cN 2)))) (cW (cA (cN 1) (cV 2)) 4)) (cA (cN 2) (cV 2))) (cW (cA (cN 3) (cM (cN 2) (cV 2))) 4))).
Definition QST_e325 := (cO (cM (cM (cR (cN 3)) (cR (cA (cN 1) (cV 2)))) (cA (cA (cA (cA (cA (cA (cA (cM (cM (cM (cA (cN (-3)) (cV 2)) (cV 2)) (cA (cN (-1)) (cM (cN 2) (cV 2)))) (cR (cD (cM (cD (cB (cV 1) (cN 1)) (cN 2)) (cA (cN 1) (cM (cN 2) (cV 2)))) (cM (cM (cM (cM (cA (cN 1) (cD (cB (cV 1) (cN 1)) (cN 2))) (cV 2)) (cW (cA (cN 1) (cV 2)) 6)) (cW (cA (cN 3) (cM (cN 2) (cV 2))) 4)) (cA (cA (cN (-2)) (cM (cN 3) (cV 2))) (cM (cN 2) (cW (cV 2) 4))))))) (cM (cM (cM (cA (cN (-3)) (cV 2)) (cV 2)) (cA (cN (-1)) (cM (cN 2) (cV 2)))) (cR (cD (cM (cD (cB (cV 1) (cN 1)) (cN 2)) (cA (cN 1) (cM (cN 2) (cV 2)))) (cM (cM (cM (cM (cM (cA (cN 1) (cD (cB (cV 1) (cN 1)) (cN 2))) (cW (cA (cN 1) (cM (cN 2) (cD (cB (cV 1) (cN 1)) (cN 2)))) 4)) (cV 2)) (cW (cA (cN 1) (cV 2)) 6)) (cW (cA (cN 3) (cM (cN 2) (cV 2))) 4)) (cA (cA (cN (-2)) (cM (cN 3) (cV 2))) (cM (cN 2) (cW (cV 2) 4)))))))) (cM (cM (cM (cN 3) (cV 2)) (cA (cN (-3)) (cM (cN 2) (cV 2)))) (cR (cD (cM (cD (cB (cV 1) (cN 1)) (cN 2)) (cA (cN (-1)) (cM (cN 2) (cV 2)))) (cM (cM (cM (cM (cA (cN 1) (cD (cB (cV 1) (cN 1)) (cN 2))) (cV 2)) (cW (cA (cN 1) (cV 2)) 6)) (cW (cA (cN 3) (cM (cN 2) (cV 2))) 4)) (cA (cA (cN 2) (cM (cN 5) (cV 2))) (cM (cN 2) (cW (cV 2) 4)))))))) (cM (cN 6) (cR (cD (cM (cM (cD (cB (cV 1) (cN 1)) (cN 2)) (cW (cA (cN (-1)) (cV 2)) 4)) (cA (cN (-1)) (cM (cN 2) (cV 2)))) (cM (cM (cM (cM (cA (cN 1) (cD (cB (cV 1) (cN 1)) (cN 2))) (cV 2)) (cW (cA (cN 1) (cV 2)) 6)) (cW (cA (cN 3) (cM (cN 2) (cV 2))) 4)) (cA (cA (cN 2) (cM (cN 5) (cV 2))) (cM (cN 2) (cW (cV 2) 4)))))))) (cM (cN 6) (cR (cD (cM (cM (cD (cB (cV 1) (cN 1)) (cN 2)) (cW (cA (cN (-1)) (cV 2)) 4)) (cA (cN (-1)) (cM (cN 2) (cV 2)))) (cM (cM (cM (cM (cM (cA (cN 1) (cD (cB (cV 1) (cN 1)) (cN 2))) (cW (cA (cN 1) (cM (cN 2) (cD (cB (cV 1) (cN 1)) (cN 2)))) 4)) (cV 2)) (cW (cA (cN 1) (cV 2)) 6)) (cW (cA (cN 3) (cM (cN 2) (cV 2))) 4)) (cA (cA (cN 2) (cM (cN 5) (cV 2))) (cM (cN 2) (cW (cV 2) 4)))))))) (cM (cM (cB (cN 1) (cM (cN 2) (cV 2))) (cV 2)) (cR (cD (cM (cD (cB (cV 1) (cN 1)) (cN 2)) (cA (cN 1) (cM (cN 2) (cV 2)))) (cM (cM (cM (cA (cN 1) (cD (cB (cV 1) (cN 1)) (cN 2))) (cV 2)) (cW (cA (cN 3) (cM (cN 2) (cV 2))) 4)) (cA (cA (cA (cN (-2)) (cV 2)) (cM (cN 5) (cW (cV 2) 4))) (cM (cN 2) (cW (cV 2) 6)))))))) (cM (cM (cB (cN 1) (cM (cN 2) (cV 2))) (cV 2)) (cR (cD (cM (cD (cB (cV 1) (cN 1)) (cN 2)) (cA (cN 1) (cM (cN 2) (cV 2)))) (cM (cM (cM (cM (cA (cN 1) (cD (cB (cV 1) (cN 1)) (cN 2))) (cW (cA (cN 1) (cM (cN 2) (cD (cB (cV 1) (cN 1)) (cN 2)))) 4)) (cV 2)) (cW (cA (cN 3) (cM (cN 2) (cV 2))) 4)) (cA (cA (cA (cN (-2)) (cV 2)) (cM (cN 5) (cW (cV 2) 4))) (cM (cN 2) (cW (cV 2) 6)))))))) (cD (cM (cM (cN 3) (cA (cN (-3)) (cM (cN 2) (cV 2)))) (cR (cD (cM (cM (cD (cB (cV 1) (cN 1)) (cN 2)) (cV 2)) (cA (cN (-1)) (cM (cN 2) (cV 2)))) (cM (cM (cA (cN 1) (cD (cB (cV 1) (cN 1)) (cN 2))) (cW (cA (cN 1) (cM (cN 2) (cD (cB (cV 1) (cN 1)) (cN 2)))) 4)) (cA (cA (cA (cN 2) (cM (cN 7) (cV 2))) (cM (cN 7) (cW (cV 2) 4))) (cM (cN 2) (cW (cV 2) 6))))))) (cA (cA (cN 3) (cM (cN 5) (cV 2))) (cM (cN 2) (cW (cV 2) 4))))))).
Definition QST_e326 := (cO (cD (cM (cM (cV 2) (cA (cN 1) (cM (cN 2) (cV 2)))) (cA (cA (cA (cD (cM (cM (cM (cM (cM (cM (cN 6) (cR (cD (cB (cV 1) (cN 1)) (cN 2)))) (cA (cN 1) (cD (cB (cV 1) (cN 1)) (cN 2)))) (cV 2)) (cA (cN 1) (cV 2))) (cW (cM (cA (cN 2) (cV 2)) (cA (cN 3) (cM (cN 2) (cV 2)))) 5)) (cA (cN (-4)) (cM (cW (cV 2) 4) (cA (cN 7) (cM (cN 4) (cV 2)))))) (cM (cA (cN 1) (cM (cN 2) (cD (cB (cV 1) (cN 1)) (cN 2)))) (cA (cN 1) (cM (cN 2) (cV 2))))) (cD (cM (cM (cM (cM (cM (cM (cN 12) (cW (cD (cB (cV 1) (cN 1)) (cN 2)) 3)) (cA (cN 1) (cD (cB (cV 1) (cN 1)) (cN 2)))) (cV 2)) (cA (cN 1) (cV 2))) (cW (cM (cA (cN 2) (cV 2)) (cA (cN 3) (cM (cN 2) (cV 2)))) 5)) (cA (cN (-4)) (cM (cW (cV 2) 4) (cA (cN 7) (cM (cN 4) (cV 2)))))) (cM (cA (cN 1) (cM (cN 2) (cD (cB (cV 1) (cN 1)) (cN 2)))) (cA (cN 1) (cM (cN 2) (cV 2)))))) (cD (cM (cM (cM (cM (cM (cN 6) (cA (cN 1) (cD (cB (cV 1) (cN 1)) (cN 2)))) (cV 2)) (cA (cN 1) (cV 2))) (cW (cM (cM (cD (cB (cV 1) (cN 1)) (cN 2)) (cA (cN 2) (cV 2))) (cA (cN 3) (cM (cN 2) (cV 2)))) 5)) (cA (cN (-4)) (cM (cW (cV 2) 4) (cA (cN 7) (cM (cN 4) (cV 2)))))) (cM (cA (cN 1) (cM (cN 2) (cD (cB (cV 1) (cN 1)) (cN 2)))) (cA (cN 1) (cM (cN 2) (cV 2)))))) (cM (cA (cN (-2)) (cV 2)) (cA (cR (cM (cM (cM (cD (cB (cV 1) (cN 1)) (cN 2)) (cW (cA (cN 1) (cD (cB (cV 1) (cN 1)) (cN 2))) 8)) (cW (cA (cV 2) (cW (cV 2) 4)) 8)) (cW (cA (cA (cN 6) (cM (cN 7) (cV 2))) (cM (cN 2) (cW (cV 2) 4))) 10))) (cR (cD (cM (cM (cM (cD (cB (cV 1) (cN 1)) (cN 2)) (cW (cA (cN 1) (cD (cB (cV 1) (cN 1)) (cN 2))) 8)) (cW (cA (cV 2) (cW (cV 2) 4)) 8)) (cW (cA (cA (cN 6) (cM (cN 7) (cV 2))) (cM (cN 2) (cW (cV 2) 4))) 10)) (cW (cA (cN 1) (cM (cN 2) (cD (cB (cV 1) (cN 1)) (cN 2)))) 4))))))) (cM (cM (cM (cW (cM (cA (cN 1) (cD (cB (cV 1) (cN 1)) (cN 2))) (cV 2)) 5) (cW (cA (cN 1) (cV 2)) 4)) (cW (cA (cN 2) (cV 2)) 8)) (cW (cA (cN 3) (cM (cN 2) (cV 2))) 7)))).
Definition QST_e327 := (cD (cM (cM (cN (-2)) (cR (cN 2))) (cR (cD (cM (cD (cB (cV 1) (cN 1)) (cN 2)) (cA (cN 1) (cD (cB (cV 1) (cN 1)) (cN 2)))) (cA (cA (cN 2) (cM (cN 3) (cV 2))) (cW (cV 2) 4))))) (cA (cN 1) (cM (cN 2) (cD (cB (cV 1) (cN 1)) (cN 2))))).
Definition QST_e328 := (cD (cM (cM (cN 2) (cV 2)) (cA (cB (cA (cM (cM (cN 11) (cV 2)) (cR (cM (cM (cM (cM (cM (cD (cB (cV 1) (cN 1)) (cN 2)) (cA (cN 1) (cD (cB (cV 1) (cN 1)) (cN 2)))) (cV 2)) (cA (cN 1) (cV 2))) (cA (cN 1) (cM (cN 2) (cV 2)))) (cA (cN 5) (cM (cN 2) (cV 2)))))) (cM (cM (cN 2) (cW (cV 2) 4)) (cR (cM (cM (cM (cM (cM (cD (cB (cV 1) (cN 1)) (cN 2)) (cA (cN 1) (cD (cB (cV 1) (cN 1)) (cN 2)))) (cV 2)) (cA (cN 1) (cV 2))) (cA (cN 1) (cM (cN 2) (cV 2)))) (cA (cN 5) (cM (cN 2) (cV 2))))))) (cM (cN 3) (cB (cA (cM (cM (cA (cN 1) (cM (cN 2) (cD (cB (cV 1) (cN 1)) (cN 2)))) (cA (cN (-1)) (cM (cN 2) (cV 2)))) (cR (cD (cM (cM (cM (cM (cD (cB (cV 1) (cN 1)) (cN 2)) (cA (cN 1) (cD (cB (cV 1) (cN 1)) (cN 2)))) (cV 2)) (cA (cN 1) (cV 2))) (cA (cN 5) (cM (cN 2) (cV 2)))) (cA (cN 1) (cM (cN 2) (cV 2)))))) (cR (cD (cM (cM (cM (cM (cM (cD (cB (cV 1) (cN 1)) (cN 2)) (cA (cN 1) (cD (cB (cV 1) (cN 1)) (cN 2)))) (cW (cB (cN 1) (cM (cN 2) (cV 2))) 4)) (cV 2)) (cA (cN 1) (cV 2))) (cA (cN 5) (cM (cN 2) (cV 2)))) (cA (cN 1) (cM (cN 2) (cV 2)))))) (cM (cN 8) (cR (cM (cM (cM (cM (cM (cD (cB (cV 1) (cN 1)) (cN 2)) (cA (cN 1) (cD (cB (cV 1) (cN 1)) (cN 2)))) (cV 2)) (cA (cN 1) (cV 2))) (cA (cN 1) (cM (cN 2) (cV 2)))) (cA (cN 5) (cM (cN 2) (cV 2))))))))) (cM (cM (cD (cB (cV 1) (cN 1)) (cN 2)) (cR (cM (cM (cM (cM (cM (cD (cB (cV 1) (cN 1)) (cN 2)) (cA (cN 1) (cD (cB (cV 1) (cN 1)) (cN 2)))) (cV 2)) (cA (cN 1) (cV 2))) (cA (cN 1) (cM (cN 2) (cV 2)))) (cA (cN 5) (cM (cN 2) (cV 2)))))) (cA (cN 24) (cM (cV 2) (cA (cN 11) (cM (cN 2) (cV 2)))))))) (cM (cM (cM (cM (cM (cA (cN 1) (cD (cB (cV 1) (cN 1)) (cN 2))) (cA (cN 1) (cM (cN 2) (cD (cB (cV 1) (cN 1)) (cN 2))))) (cA (cN 1) (cV 2))) (cA (cN 5) (cM (cN 2) (cV 2)))) (cW (cD (cM (cM (cV 2) (cA (cN 2) (cV 2))) (cA (cN 3) (cM (cN 2) (cV 2)))) (cA (cN 2) (cM (cN 4) (cV 2)))) 3)) (cA (cN 2) (cM (cN 4) (cV 2))))).
Definition QST_e329 := (cD (cM (cN (-2)) (cA (cA (cA (cA (cA (cA (cM (cN 54) (cR (cD (cM (cM (cM (cM (cD (cB (cV 1) (cN 1)) (cN 2)) (cA (cN 1) (cD (cB (cV 1) (cN 1)) (cN 2)))) (cV 2)) (cA (cN 1) (cM (cN 2) (cV 2)))) (cA (cN 5) (cM (cN 2) (cV 2)))) (cA (cN 2) (cV 2))))) (cM (cN 19) (cR (cD (cM (cM (cM (cM (cD (cB (cV 1) (cN 1)) (cN 2)) (cA (cN 1) (cD (cB (cV 1) (cN 1)) (cN 2)))) (cW (cV 2) 6)) (cA (cN 1) (cM (cN 2) (cV 2)))) (cA (cN 5) (cM (cN 2) (cV 2)))) (cA (cN 2) (cV 2)))))) (cM (cN 4) (cR (cD (cM (cM (cM (cM (cD (cB (cV 1) (cN 1)) (cN 2)) (cA (cN 1) (cD (cB (cV 1) (cN 1)) (cN 2)))) (cW (cV 2) 10)) (cA (cN 1) (cM (cN 2) (cV 2)))) (cA (cN 5) (cM (cN 2) (cV 2)))) (cA (cN 2) (cV 2)))))) (cM (cN 3) (cR (cM (cM (cM (cM (cM (cD (cB (cV 1) (cN 1)) (cN 2)) (cA (cN 1) (cD (cB (cV 1) (cN 1)) (cN 2)))) (cV 2)) (cA (cN 2) (cV 2))) (cA (cN 1) (cM (cN 2) (cV 2)))) (cA (cN 5) (cM (cN 2) (cV 2))))))) (cM (cN 30) (cR (cD (cM (cM (cM (cD (cB (cV 1) (cN 1)) (cN 2)) (cA (cN 1) (cD (cB (cV 1) (cN 1)) (cN 2)))) (cV 2)) (cA (cN 5) (cM (cN 2) (cV 2)))) (cA (cA (cN 2) (cM (cN 5) (cV 2))) (cM (cN 2) (cW (cV 2) 4))))))) (cM (cD (cB (cV 1) (cN 1)) (cN 2)) (cA (cA (cA (cA (cA (cM (cN 54) (cR (cD (cM (cM (cM (cM (cD (cB (cV 1) (cN 1)) (cN 2)) (cA (cN 1) (cD (cB (cV 1) (cN 1)) (cN 2)))) (cV 2)) (cA (cN 1) (cM (cN 2) (cV 2)))) (cA (cN 5) (cM (cN 2) (cV 2)))) (cA (cN 2) (cV 2))))) (cM (cN 38) (cR (cD (cM (cM (cM (cM (cD (cB (cV 1) (cN 1)) (cN 2)) (cA (cN 1) (cD (cB (cV 1) (cN 1)) (cN 2)))) (cW (cV 2) 6)) (cA (cN 1) (cM (cN 2) (cV 2)))) (cA (cN 5) (cM (cN 2) (cV 2)))) (cA (cN 2) (cV 2)))))) (cM (cN 8) (cR (cD (cM (cM (cM (cM (cD (cB (cV 1) (cN 1)) (cN 2)) (cA (cN 1) (cD (cB (cV 1) (cN 1)) (cN 2)))) (cW (cV 2) 10)) (cA (cN 1) (cM (cN 2) (cV 2)))) (cA (cN 5) (cM (cN 2) (cV 2)))) (cA (cN 2) (cV 2)))))) (cM (cN 3) (cR (cM (cM (cM (cM (cM (cD (cB (cV 1) (cN 1)) (cN 2)) (cA (cN 1) (cD (cB (cV 1) (cN 1)) (cN 2)))) (cV 2)) (cA (cN 2) (cV 2))) (cA (cN 1) (cM (cN 2) (cV 2)))) (cA (cN 5) (cM (cN 2) (cV 2))))))) (cM (cM (cV 2) (cA (cN 5) (cM (cN 2) (cV 2)))) (cR (cM (cM (cM (cM (cM (cD (cB (cV 1) (cN 1)) (cN 2)) (cA (cN 1) (cD (cB (cV 1) (cN 1)) (cN 2)))) (cV 2)) (cA (cN 2) (cV 2))) (cA (cN 1) (cM (cN 2) (cV 2)))) (cA (cN 5) (cM (cN 2) (cV 2))))))) (cM (cN 30) (cR (cD (cM (cM (cM (cD (cB (cV 1) (cN 1)) (cN 2)) (cA (cN 1) (cD (cB (cV 1) (cN 1)) (cN 2)))) (cV 2)) (cA (cN 5) (cM (cN 2) (cV 2)))) (cA (cA (cN 2) (cM (cN 5) (cV 2))) (cM (cN 2) (cW (cV 2) 4))))))))) (cM (cV 2) (cA (cA (cM (cN 19) (cR (cD (cM (cM (cM (cM (cD (cB (cV 1) (cN 1)) (cN 2)) (cA (cN 1) (cD (cB (cV 1) (cN 1)) (cN 2)))) (cV 2)) (cA (cN 1) (cM (cN 2) (cV 2)))) (cA (cN 5) (cM (cN 2) (cV 2)))) (cA (cN 2) (cV 2))))) (cM (cN 5) (cR (cM (cM (cM (cM (cM (cD (cB (cV 1) (cN 1)) (cN 2)) (cA (cN 1) (cD (cB (cV 1) (cN 1)) (cN 2)))) (cV 2)) (cA (cN 2) (cV 2))) (cA (cN 1) (cM (cN 2) (cV 2)))) (cA (cN 5) (cM (cN 2) (cV 2))))))) (cM (cM (cN 2) (cV 2)) (cA (cM (cN 2) (cR (cD (cM (cM (cM (cM (cD (cB (cV 1) (cN 1)) (cN 2)) (cA (cN 1) (cD (cB (cV 1) (cN 1)) (cN 2)))) (cV 2)) (cA (cN 1) (cM (cN 2) (cV 2)))) (cA (cN 5) (cM (cN 2) (cV 2)))) (cA (cN 2) (cV 2))))) (cR (cM (cM (cM (cM (cM (cD (cB (cV 1) (cN 1)) (cN 2)) (cA (cN 1) (cD (cB (cV 1) (cN 1)) (cN 2)))) (cV 2)) (cA (cN 2) (cV 2))) (cA (cN 1) (cM (cN 2) (cV 2)))) (cA (cN 5) (cM (cN 2) (cV 2))))))))))) (cM (cM (cM (cM (cM (cA (cN 1) (cD (cB (cV 1) (cN 1)) (cN 2))) (cA (cN 1) (cM (cN 2) (cD (cB (cV 1) (cN 1)) (cN 2))))) (cA (cN 2) (cV 2))) (cA (cN 3) (cM (cN 2) (cV 2)))) (cA (cN 5) (cM (cN 2) (cV 2)))) (cR (cA (cM (cV 2) (cA (cN 6) (cV 2))) (cM (cN 5) (cA (cN 2) (cD (cN 1) (cA (cN 1) (cM (cN 2) (cV 2)))))))))).
Definition QST_e330 := (cO (cD (cR (cA (cA (cB (cN (-1)) (cD (cN 1) (cD (cB (cV 1) (cN 1)) (cN 2)))) (cM (cN 4) (cD (cB (cV 1) (cN 1)) (cN 2)))) (cM (cN 4) (cW (cD (cB (cV 1) (cN 1)) (cN 2)) 4)))) (cA (cV 2) (cM (cM (cN 2) (cD (cB (cV 1) (cN 1)) (cN 2))) (cV 2))))).
Definition QST_e331 := (cD (cM (cN (-2)) (cR (cM (cM (cD (cB (cV 1) (cN 1)) (cN 2)) (cA (cN 1) (cD (cB (cV 1) (cN 1)) (cN 2)))) (cA (cN (-3)) (cM (cM (cN 4) (cV 2)) (cA (cN 1) (cV 2))))))) (cM (cA (cN 1) (cM (cN 2) (cD (cB (cV 1) (cN 1)) (cN 2)))) (cA (cN 1) (cM (cN 2) (cV 2))))).
Definition QST_e332 := (cD (cM (cN 2) (cR (cD (cM (cM (cD (cB (cV 1) (cN 1)) (cN 2)) (cA (cN 1) (cD (cB (cV 1) (cN 1)) (cN 2)))) (cA (cN 3) (cM (cN 2) (cV 2)))) (cA (cN 1) (cM (cN 2) (cV 2)))))) (cA (cA (cA (cN 1) (cM (cN 2) (cD (cB (cV 1) (cN 1)) (cN 2)))) (cV 2)) (cM (cM (cN 2) (cD (cB (cV 1) (cN 1)) (cN 2))) (cV 2)))).
Definition QST_e333 := (cD (cM (cN (-2)) (cA (cM (cN 2) (cR (cD (cM (cM (cD (cB (cV 1) (cN 1)) (cN 2)) (cA (cN 1) (cD (cB (cV 1) (cN 1)) (cN 2)))) (cV 2)) (cA (cN 2) (cV 2))))) (cR (cD (cM (cM (cD (cB (cV 1) (cN 1)) (cN 2)) (cA (cN 1) (cD (cB (cV 1) (cN 1)) (cN 2)))) (cW (cV 2) 6)) (cA (cN 2) (cV 2)))))) (cA (cA (cA (cN 1) (cM (cN 2) (cD (cB (cV 1) (cN 1)) (cN 2)))) (cV 2)) (cM (cM (cN 2) (cD (cB (cV 1) (cN 1)) (cN 2))) (cV 2)))).
Definition QST_e334 := (cD (cM (cN (-2)) (cR (cD (cM (cD (cB (cV 1) (cN 1)) (cN 2)) (cA (cN 1) (cD (cB (cV 1) (cN 1)) (cN 2)))) (cW (cA (cN 1) (cM (cN 2) (cD (cB (cV 1) (cN 1)) (cN 2)))) 4)))) (cA (cA (cN 1) (cM (cN 3) (cV 2))) (cM (cN 2) (cW (cV 2) 4)))).
Definition QST_e335 := (cD (cM (cN 2) (cR (cM (cD (cB (cV 1) (cN 1)) (cN 2)) (cA (cN 1) (cD (cB (cV 1) (cN 1)) (cN 2)))))) (cA (cA (cA (cN 1) (cM (cN 2) (cD (cB (cV 1) (cN 1)) (cN 2)))) (cV 2)) (cM (cM (cN 2) (cD (cB (cV 1) (cN 1)) (cN 2))) (cV 2)))).
Definition QST_e336 := (cD (cA (cA (cB (cM (cM (cN (-2)) (cW (cV 2) 4)) (cR (cD (cM (cM (cA (cN 1) (cD (cB (cV 1) (cN 1)) (cN 2))) (cV 2)) (cA (cN 1) (cV 2))) (cA (cN 1) (cM (cN 2) (cV 2)))))) (cR (cD (cM (cA (cN 1) (cD (cB (cV 1) (cN 1)) (cN 2))) (cW (cV 2) 6)) (cA (cA (cN 1) (cM (cN 3) (cV 2))) (cM (cN 2) (cW (cV 2) 4)))))) (cR (cD (cM (cA (cN 1) (cD (cB (cV 1) (cN 1)) (cN 2))) (cW (cV 2) 10)) (cA (cA (cN 1) (cM (cN 3) (cV 2))) (cM (cN 2) (cW (cV 2) 4)))))) (cM (cN 2) (cR (cD (cM (cA (cN 1) (cD (cB (cV 1) (cN 1)) (cN 2))) (cW (cV 2) 14)) (cA (cA (cN 1) (cM (cN 3) (cV 2))) (cM (cN 2) (cW (cV 2) 4))))))) (cM (cM (cM (cA (cN 1) (cM (cN 2) (cD (cB (cV 1) (cN 1)) (cN 2)))) (cW (cV 2) 3)) (cW (cA (cN 1) (cV 2)) 4)) (cR (cD (cA (cN 1) (cD (cB (cV 1) (cN 1)) (cN 2))) (cA (cA (cN 3) (cM (cN 5) (cV 2))) (cM (cN 2) (cW (cV 2) 4))))))).
Definition QST_e337 := (cD (cB (cA (cM (cM (cV 2) (cR (cD (cM (cM (cA (cN 1) (cD (cB (cV 1) (cN 1)) (cN 2))) (cV 2)) (cA (cN 3) (cM (cN 2) (cV 2)))) (cA (cN 1) (cM (cN 2) (cD (cB (cV 1) (cN 1)) (cN 2))))))) (cA (cN (-1)) (cW (cV 2) 4))) (cM (cN 3) (cA (cR (cD (cM (cM (cA (cN 1) (cD (cB (cV 1) (cN 1)) (cN 2))) (cW (cV 2) 6)) (cA (cN 3) (cM (cN 2) (cV 2)))) (cA (cN 1) (cM (cN 2) (cD (cB (cV 1) (cN 1)) (cN 2)))))) (cR (cD (cM (cM (cA (cN 1) (cD (cB (cV 1) (cN 1)) (cN 2))) (cW (cV 2) 10)) (cA (cN 3) (cM (cN 2) (cV 2)))) (cA (cN 1) (cM (cN 2) (cD (cB (cV 1) (cN 1)) (cN 2))))))))) (cM (cM (cN 2) (cD (cB (cV 1) (cN 1)) (cN 2))) (cA (cM (cM (cV 2) (cR (cD (cM (cM (cA (cN 1) (cD (cB (cV 1) (cN 1)) (cN 2))) (cV 2)) (cA (cN 3) (cM (cN 2) (cV 2)))) (cW (cA (cN 1) (cM (cN 2) (cD (cB (cV 1) (cN 1)) (cN 2)))) 6)))) (cA (cN (-1)) (cW (cV 2) 4))) (cM (cN 3) (cA (cR (cD (cM (cM (cA (cN 1) (cD (cB (cV 1) (cN 1)) (cN 2))) (cW (cV 2) 6)) (cA (cN 3) (cM (cN 2) (cV 2)))) (cW (cA (cN 1) (cM (cN 2) (cD (cB (cV 1) (cN 1)) (cN 2)))) 6))) (cR (cD (cM (cM (cA (cN 1) (cD (cB (cV 1) (cN 1)) (cN 2))) (cW (cV 2) 10)) (cA (cN 3) (cM (cN 2) (cV 2)))) (cW (cA (cN 1) (cM (cN 2) (cD (cB (cV 1) (cN 1)) (cN 2)))) 6)))))))) (cM (cM (cV 2) (cW (cA (cN 1) (cV 2)) 4)) (cR (cD (cM (cM (cA (cN 1) (cD (cB (cV 1) (cN 1)) (cN 2))) (cA (cN 2) (cV 2))) (cA (cN 3) (cM (cN 2) (cV 2)))) (cA (cN 1) (cM (cN 2) (cD (cB (cV 1) (cN 1)) (cN 2)))))))).
Definition QST_e338 := (cD (cA (cA (cR (cM (cA (cN 1) (cD (cB (cV 1) (cN 1)) (cN 2))) (cV 2))) (cM (cN 2) (cR (cM (cA (cN 1) (cD (cB (cV 1) (cN 1)) (cN 2))) (cW (cV 2) 6))))) (cR (cM (cA (cN 1) (cD (cB (cV 1) (cN 1)) (cN 2))) (cW (cV 2) 10)))) (cM (cW (cA (cN 1) (cV 2)) 6) (cR (cD (cM (cM (cA (cN 1) (cD (cB (cV 1) (cN 1)) (cN 2))) (cV 2)) (cA (cN 1) (cM (cN 2) (cV 2)))) (cA (cN 3) (cM (cN 2) (cV 2))))))).
Definition QST_e339 := (cO (cD (cM (cA (cN 2) (cV 2)) (cA (cM (cM (cA (cN (-1)) (cV 2)) (cV 2)) (cA (cM (cN 2) (cR (cD (cM (cM (cM (cM (cW (cA (cN 1) (cD (cB (cV 1) (cN 1)) (cN 2))) 6) (cA (cN 3) (cM (cN 2) (cD (cB (cV 1) (cN 1)) (cN 2))))) (cV 2)) (cW (cA (cN 1) (cV 2)) 10)) (cW (cA (cN 3) (cM (cN 2) (cV 2))) 4)) (cW (cA (cN 1) (cM (cN 2) (cD (cB (cV 1) (cN 1)) (cN 2)))) 6)))) (cR (cD (cM (cM (cM (cM (cW (cA (cN 1) (cD (cB (cV 1) (cN 1)) (cN 2))) 6) (cA (cN 3) (cM (cN 2) (cD (cB (cV 1) (cN 1)) (cN 2))))) (cV 2)) (cW (cA (cN 1) (cV 2)) 10)) (cW (cA (cN 3) (cM (cN 2) (cV 2))) 4)) (cA (cN 1) (cM (cN 2) (cD (cB (cV 1) (cN 1)) (cN 2)))))))) (cM (cN 3) (cA (cM (cN 2) (cR (cD (cM (cM (cM (cM (cW (cA (cN 1) (cD (cB (cV 1) (cN 1)) (cN 2))) 6) (cA (cN 3) (cM (cN 2) (cD (cB (cV 1) (cN 1)) (cN 2))))) (cW (cV 2) 6)) (cW (cA (cN 1) (cV 2)) 10)) (cW (cA (cN 3) (cM (cN 2) (cV 2))) 4)) (cW (cA (cN 1) (cM (cN 2) (cD (cB (cV 1) (cN 1)) (cN 2)))) 6)))) (cR (cD (cM (cM (cM (cM (cW (cA (cN 1) (cD (cB (cV 1) (cN 1)) (cN 2))) 6) (cA (cN 3) (cM (cN 2) (cD (cB (cV 1) (cN 1)) (cN 2))))) (cW (cV 2) 6)) (cW (cA (cN 1) (cV 2)) 10)) (cW (cA (cN 3) (cM (cN 2) (cV 2))) 4)) (cA (cN 1) (cM (cN 2) (cD (cB (cV 1) (cN 1)) (cN 2)))))))))) (cM (cM (cM (cV 2) (cW (cA (cN 1) (cV 2)) 7)) (cW (cD (cM (cM (cA (cN 1) (cD (cB (cV 1) (cN 1)) (cN 2))) (cA (cN 3) (cM (cN 2) (cD (cB (cV 1) (cN 1)) (cN 2))))) (cA (cN 2) (cV 2))) (cA (cN 1) (cM (cN 2) (cD (cB (cV 1) (cN 1)) (cN 2))))) 3)) (cA (cN 3) (cM (cN 2) (cV 2)))))).
Definition QST_e340 := (cD (cN 1) (cM (cA (cN 1) (cM (cN 2) (cD (cB (cV 1) (cN 1)) (cN 2)))) (cA (cA (cN 1) (cM (cN 3) (cV 2))) (cM (cN 2) (cW (cV 2) 4))))).
Definition QST_e341 := (cD (cN 1) (cB (cB (cN (-1)) (cM (cN 3) (cV 2))) (cM (cN 2) (cW (cV 2) 4)))).
Definition QST_e342 := (cR (cD (cB (cN 9) (cM (cN 4) (cW (cV 2) 4))) (cB (cN 1) (cM (cN 4) (cW (cV 2) 4))))).
Definition QST_e343 := (cO (cD (cN 1) (cR (cD (cM (cM (cV 2) (cA (cN 1) (cV 2))) (cA (cN 1) (cM (cN 2) (cV 2)))) (cA (cN 6) (cM (cN 4) (cV 2))))))).
Definition QST_e344 := (cD (cA (cA (cN (-2)) (cV 2)) (cW (cV 2) 4)) (cR (cD (cM (cM (cM (cM (cA (cN (-1)) (cV 2)) (cV 2)) (cA (cN 1) (cV 2))) (cA (cN 2) (cV 2))) (cW (cA (cN 1) (cM (cN 2) (cV 2))) 4)) (cA (cN (-3)) (cM (cM (cN 4) (cV 2)) (cA (cN 1) (cV 2))))))).
Definition QST_e345 := (cD (cR (cN 6)) (cR (cM (cM (cM (cV 2) (cA (cN 1) (cV 2))) (cA (cN (-1)) (cM (cN 2) (cV 2)))) (cA (cN 1) (cM (cN 2) (cV 2)))))).
Definition QST_e346 := (cO (cD (cM (cA (cN 2) (cV 2)) (cR (cD (cA (cN (-3)) (cM (cN 6) (cV 2))) (cM (cV 2) (cA (cA (cN 2) (cM (cN 5) (cV 2))) (cM (cN 2) (cW (cV 2) 4))))))) (cA (cN 1) (cV 2)))).
Definition QST_e347 := (cD (cM (cM (cA (cN 2) (cV 2)) (cA (cN (-1)) (cM (cN 2) (cV 2)))) (cA (cN 5) (cM (cN 2) (cV 2)))) (cM (cA (cN 1) (cV 2)) (cR (cD (cM (cM (cM (cM (cA (cN 2) (cV 2)) (cA (cN (-1)) (cM (cN 2) (cV 2)))) (cA (cN 1) (cM (cN 2) (cV 2)))) (cA (cN 3) (cM (cN 2) (cV 2)))) (cA (cN 5) (cM (cN 2) (cV 2)))) (cV 2))))).
Definition QST_e348 := (cD (cN 3) (cA (cA (cN 1) (cM (cN 3) (cV 2))) (cM (cN 2) (cW (cV 2) 4)))).
Definition QST_e349 := (cD (cM (cM (cR (cN 3)) (cV 2)) (cA (cM (cN 2) (cA (cM (cN (-60)) (cR (cD (cA (cN 3) (cM (cN 2) (cV 2))) (cM (cM (cA (cN 1) (cV 2)) (cA (cN 2) (cV 2))) (cA (cN 5) (cM (cN 2) (cV 2))))))) (cR (cM (cM (cM (cA (cN 1) (cV 2)) (cA (cN 2) (cV 2))) (cA (cN 3) (cM (cN 2) (cV 2)))) (cA (cN 5) (cM (cN 2) (cV 2))))))) (cM (cV 2) (cA (cM (cN (-6)) (cA (cM (cN 43) (cR (cD (cA (cN 3) (cM (cN 2) (cV 2))) (cM (cM (cA (cN 1) (cV 2)) (cA (cN 2) (cV 2))) (cA (cN 5) (cM (cN 2) (cV 2))))))) (cR (cM (cM (cM (cA (cN 1) (cV 2)) (cA (cN 2) (cV 2))) (cA (cN 3) (cM (cN 2) (cV 2)))) (cA (cN 5) (cM (cN 2) (cV 2))))))) (cM (cV 2) (cA (cB (cM (cN (-9)) (cR (cD (cA (cN 3) (cM (cN 2) (cV 2))) (cM (cM (cA (cN 1) (cV 2)) (cA (cN 2) (cV 2))) (cA (cN 5) (cM (cN 2) (cV 2))))))) (cM (cN 20) (cR (cM (cM (cM (cA (cN 1) (cV 2)) (cA (cN 2) (cV 2))) (cA (cN 3) (cM (cN 2) (cV 2)))) (cA (cN 5) (cM (cN 2) (cV 2))))))) (cM (cM (cM (cN 3) (cV 2)) (cR (cD (cA (cN 3) (cM (cN 2) (cV 2))) (cM (cM (cA (cN 1) (cV 2)) (cA (cN 2) (cV 2))) (cA (cN 5) (cM (cN 2) (cV 2))))))) (cA (cN 95) (cM (cM (cN 4) (cV 2)) (cA (cN 16) (cM (cN 3) (cV 2)))))))))))) (cM (cM (cM (cA (cN 1) (cV 2)) (cW (cA (cN 2) (cV 2)) 4)) (cR (cM (cM (cM (cV 2) (cA (cN 1) (cV 2))) (cA (cN 1) (cM (cN 2) (cV 2)))) (cA (cN 3) (cM (cN 2) (cV 2)))))) (cA (cN 5) (cM (cN 2) (cV 2))))).
Definition QST_e350 := (cD (cM (cV 2) (cA (cN 3) (cV 2))) (cR (cM (cM (cM (cV 2) (cA (cN 1) (cV 2))) (cA (cN 2) (cV 2))) (cA (cN 3) (cV 2))))).
Definition QST_e351 := (cD (cR (cN 6)) (cR (cM (cM (cM (cA (cN 1) (cV 2)) (cA (cN 2) (cV 2))) (cA (cN 1) (cM (cN 2) (cV 2)))) (cA (cN 3) (cM (cN 2) (cV 2)))))).
Definition QST_e352 := (cO (cD (cR (cN 2)) (cR (cM (cA (cN 1) (cV 2)) (cA (cN 2) (cV 2)))))).
Definition QST_e353 := (cD (cR (cD (cM (cA (cA (cN (-1)) (cD (cB (cV 1) (cN 1)) (cN 2))) (cM (cN 2) (cW (cD (cB (cV 1) (cN 1)) (cN 2)) 4))) (cA (cN (-3)) (cM (cM (cN 4) (cV 2)) (cA (cN 1) (cV 2))))) (cM (cD (cB (cV 1) (cN 1)) (cN 2)) (cA (cN 1) (cM (cN 2) (cD (cB (cV 1) (cN 1)) (cN 2))))))) (cA (cN 1) (cM (cN 2) (cV 2)))).
Definition QST_e354 := (cO (cD (cR (cD (cM (cA (cA (cN (-1)) (cD (cB (cV 1) (cN 1)) (cN 2))) (cM (cN 2) (cW (cD (cB (cV 1) (cN 1)) (cN 2)) 4))) (cA (cN 3) (cM (cN 2) (cV 2)))) (cM (cA (cD (cB (cV 1) (cN 1)) (cN 2)) (cM (cN 2) (cW (cD (cB (cV 1) (cN 1)) (cN 2)) 4))) (cA (cN 1) (cM (cN 2) (cV 2)))))) (cA (cN 1) (cV 2)))).
Definition QST_e355 := (cD (cN 1) (cM (cR (cD (cM (cD (cB (cV 1) (cN 1)) (cN 2)) (cA (cN 1) (cM (cN 2) (cD (cB (cV 1) (cN 1)) (cN 2))))) (cA (cA (cN (-1)) (cD (cB (cV 1) (cN 1)) (cN 2))) (cM (cN 2) (cW (cD (cB (cV 1) (cN 1)) (cN 2)) 4))))) (cA (cA (cN 1) (cM (cN 3) (cV 2))) (cM (cN 2) (cW (cV 2) 4))))).
Definition QST_e356 := (cO (cD (cN 1) (cM (cR (cD (cM (cD (cB (cV 1) (cN 1)) (cN 2)) (cA (cN 1) (cM (cN 2) (cD (cB (cV 1) (cN 1)) (cN 2))))) (cA (cA (cN (-1)) (cD (cB (cV 1) (cN 1)) (cN 2))) (cM (cN 2) (cW (cD (cB (cV 1) (cN 1)) (cN 2)) 4))))) (cA (cN 1) (cV 2))))).
Definition QST_e357 := (cD (cN 1) (cR (cD (cM (cD (cB (cV 1) (cN 1)) (cN 2)) (cA (cN 1) (cM (cN 2) (cD (cB (cV 1) (cN 1)) (cN 2))))) (cA (cA (cN (-1)) (cD (cB (cV 1) (cN 1)) (cN 2))) (cM (cN 2) (cW (cD (cB (cV 1) (cN 1)) (cN 2)) 4)))))).
Definition QST_e358 := (cD (cM (cR (cB (cA (cN 1) (cD (cN 3) (cV 2))) (cD (cN 2) (cA (cN 1) (cM (cN 2) (cV 2)))))) (cA (cA (cB (cM (cN 4) (cR (cD (cM (cM (cM (cD (cB (cV 1) (cN 1)) (cN 2)) (cA (cN 1) (cD (cB (cV 1) (cN 1)) (cN 2)))) (cV 2)) (cA (cN (-1)) (cM (cN 2) (cV 2)))) (cM (cM (cA (cN 3) (cM (cM (cN 4) (cD (cB (cV 1) (cN 1)) (cN 2))) (cA (cN 2) (cD (cB (cV 1) (cN 1)) (cN 2))))) (cA (cN 1) (cV 2))) (cA (cN 1) (cM (cN 2) (cV 2))))))) (cR (cD (cM (cM (cD (cB (cV 1) (cN 1)) (cN 2)) (cV 2)) (cA (cN (-1)) (cM (cN 2) (cV 2)))) (cM (cA (cA (cA (cN 3) (cM (cN 11) (cD (cB (cV 1) (cN 1)) (cN 2)))) (cM (cN 12) (cW (cD (cB (cV 1) (cN 1)) (cN 2)) 4))) (cM (cN 4) (cW (cD (cB (cV 1) (cN 1)) (cN 2)) 6))) (cA (cA (cN 1) (cM (cN 3) (cV 2))) (cM (cN 2) (cW (cV 2) 4))))))) (cR (cD (cM (cM (cW (cD (cB (cV 1) (cN 1)) (cN 2)) 6) (cV 2)) (cA (cN (-1)) (cM (cN 2) (cV 2)))) (cM (cA (cA (cA (cN 3) (cM (cN 11) (cD (cB (cV 1) (cN 1)) (cN 2)))) (cM (cN 12) (cW (cD (cB (cV 1) (cN 1)) (cN 2)) 4))) (cM (cN 4) (cW (cD (cB (cV 1) (cN 1)) (cN 2)) 6))) (cA (cA (cN 1) (cM (cN 3) (cV 2))) (cM (cN 2) (cW (cV 2) 4))))))) (cM (cN 2) (cR (cD (cM (cM (cW (cD (cB (cV 1) (cN 1)) (cN 2)) 10) (cV 2)) (cA (cN (-1)) (cM (cN 2) (cV 2)))) (cM (cA (cA (cA (cN 3) (cM (cN 11) (cD (cB (cV 1) (cN 1)) (cN 2)))) (cM (cN 12) (cW (cD (cB (cV 1) (cN 1)) (cN 2)) 4))) (cM (cN 4) (cW (cD (cB (cV 1) (cN 1)) (cN 2)) 6))) (cA (cA (cN 1) (cM (cN 3) (cV 2))) (cM (cN 2) (cW (cV 2) 4))))))))) (cA (cN 1) (cD (cB (cV 1) (cN 1)) (cN 2)))).
Definition QST_e359 := (cD (cM (cR (cM (cA (cN 1) (cV 2)) (cA (cN 3) (cM (cN 2) (cV 2))))) (cA (cA (cB (cD (cM (cM (cM (cN (-2)) (cW (cM (cM (cD (cB (cV 1) (cN 1)) (cN 2)) (cA (cN 1) (cD (cB (cV 1) (cN 1)) (cN 2)))) (cV 2)) 3)) (cW (cA (cN 1) (cV 2)) 4)) (cA (cN (-1)) (cM (cN 2) (cV 2)))) (cR (cM (cM (cA (cN 1) (cM (cN 2) (cD (cB (cV 1) (cN 1)) (cN 2)))) (cA (cN 1) (cV 2))) (cA (cN 1) (cM (cN 2) (cV 2)))))) (cD (cM (cM (cM (cM (cN 2) (cW (cA (cN 1) (cD (cB (cV 1) (cN 1)) (cN 2))) 3)) (cA (cN (-1)) (cM (cN 2) (cD (cB (cV 1) (cN 1)) (cN 2))))) (cW (cV 2) 5)) (cW (cA (cN 1) (cV 2)) 4)) (cR (cD (cM (cM (cA (cN 1) (cM (cN 2) (cD (cB (cV 1) (cN 1)) (cN 2)))) (cA (cN 1) (cV 2))) (cA (cN 1) (cM (cN 2) (cV 2)))) (cD (cB (cV 1) (cN 1)) (cN 2)))))) (cD (cM (cM (cM (cA (cN (-1)) (cM (cN 2) (cD (cB (cV 1) (cN 1)) (cN 2)))) (cW (cM (cA (cN 1) (cD (cB (cV 1) (cN 1)) (cN 2))) (cV 2)) 3)) (cW (cA (cN 1) (cV 2)) 4)) (cA (cN (-1)) (cM (cN 2) (cV 2)))) (cR (cD (cM (cM (cA (cN 1) (cM (cN 2) (cD (cB (cV 1) (cN 1)) (cN 2)))) (cA (cN 1) (cV 2))) (cA (cN 1) (cM (cN 2) (cV 2)))) (cD (cB (cV 1) (cN 1)) (cN 2)))))) (cM (cM (cM (cN 4) (cD (cB (cV 1) (cN 1)) (cN 2))) (cV 2)) (cR (cD (cM (cM (cD (cB (cV 1) (cN 1)) (cN 2)) (cW (cA (cN 1) (cD (cB (cV 1) (cN 1)) (cN 2))) 6)) (cW (cA (cV 2) (cW (cV 2) 4)) 6)) (cM (cA (cN 1) (cM (cN 2) (cD (cB (cV 1) (cN 1)) (cN 2)))) (cA (cN 1) (cM (cN 2) (cV 2))))))))) (cM (cM (cD (cB (cV 1) (cN 1)) (cN 2)) (cW (cM (cA (cN 1) (cD (cB (cV 1) (cN 1)) (cN 2))) (cV 2)) 3)) (cW (cA (cN 1) (cV 2)) 6))).
Definition QST_e360 := (cD (cA (cB (cB (cM (cM (cM (cN (-2)) (cV 2)) (cA (cN 1) (cV 2))) (cR (cM (cM (cA (cN 1) (cD (cB (cV 1) (cN 1)) (cN 2))) (cV 2)) (cA (cN 1) (cV 2))))) (cR (cM (cM (cA (cN 1) (cD (cB (cV 1) (cN 1)) (cN 2))) (cW (cV 2) 10)) (cA (cN 1) (cV 2))))) (cR (cM (cM (cA (cN 1) (cD (cB (cV 1) (cN 1)) (cN 2))) (cW (cV 2) 14)) (cA (cN 1) (cV 2))))) (cM (cM (cN 2) (cD (cB (cV 1) (cN 1)) (cN 2))) (cA (cA (cO (cM (cM (cV 2) (cA (cN 1) (cV 2))) (cR (cM (cM (cA (cN 1) (cD (cB (cV 1) (cN 1)) (cN 2))) (cV 2)) (cA (cN 1) (cV 2)))))) (cR (cM (cM (cA (cN 1) (cD (cB (cV 1) (cN 1)) (cN 2))) (cW (cV 2) 6)) (cA (cN 1) (cV 2))))) (cR (cM (cM (cA (cN 1) (cD (cB (cV 1) (cN 1)) (cN 2))) (cW (cV 2) 10)) (cA (cN 1) (cV 2))))))) (cM (cM (cV 2) (cW (cA (cN 1) (cV 2)) 5)) (cR (cM (cM (cM (cD (cB (cV 1) (cN 1)) (cN 2)) (cA (cN 1) (cD (cB (cV 1) (cN 1)) (cN 2)))) (cA (cN 1) (cM (cN 2) (cD (cB (cV 1) (cN 1)) (cN 2))))) (cA (cN 2) (cV 2)))))).
Definition QST_e361 := (cD (cB (cM (cN (-3)) (cR (cM (cM (cM (cM (cM (cM (cD (cB (cV 1) (cN 1)) (cN 2)) (cA (cN 1) (cD (cB (cV 1) (cN 1)) (cN 2)))) (cA (cN 1) (cM (cN 2) (cD (cB (cV 1) (cN 1)) (cN 2))))) (cA (cN 3) (cM (cN 2) (cD (cB (cV 1) (cN 1)) (cN 2))))) (cV 2)) (cA (cN 1) (cV 2))) (cA (cN 1) (cM (cN 2) (cV 2)))))) (cM (cN 2) (cR (cM (cM (cM (cM (cM (cM (cW (cD (cB (cV 1) (cN 1)) (cN 2)) 6) (cA (cN 1) (cD (cB (cV 1) (cN 1)) (cN 2)))) (cA (cN 1) (cM (cN 2) (cD (cB (cV 1) (cN 1)) (cN 2))))) (cA (cN 3) (cM (cN 2) (cD (cB (cV 1) (cN 1)) (cN 2))))) (cV 2)) (cA (cN 1) (cV 2))) (cA (cN 1) (cM (cN 2) (cV 2))))))) (cM (cM (cM (cM (cA (cN 1) (cD (cB (cV 1) (cN 1)) (cN 2))) (cA (cN 3) (cM (cM (cN 4) (cD (cB (cV 1) (cN 1)) (cN 2))) (cA (cN 2) (cD (cB (cV 1) (cN 1)) (cN 2)))))) (cW (cA (cN 1) (cV 2)) 4)) (cA (cN 1) (cM (cN 2) (cV 2)))) (cR (cD (cV 2) (cA (cA (cN 3) (cM (cN 5) (cV 2))) (cM (cN 2) (cW (cV 2) 4))))))).
Definition QST_e362 := (cD (cA (cB (cM (cN 6) (cR (cM (cM (cD (cB (cV 1) (cN 1)) (cN 2)) (cV 2)) (cA (cN 3) (cM (cN 2) (cV 2)))))) (cM (cN 3) (cR (cM (cM (cD (cB (cV 1) (cN 1)) (cN 2)) (cW (cV 2) 6)) (cA (cN 3) (cM (cN 2) (cV 2))))))) (cM (cR (cM (cM (cD (cB (cV 1) (cN 1)) (cN 2)) (cV 2)) (cA (cN 3) (cM (cN 2) (cV 2))))) (cA (cM (cM (cM (cN 2) (cD (cB (cV 1) (cN 1)) (cN 2))) (cA (cN 1) (cV 2))) (cA (cN 2) (cV 2))) (cM (cM (cN 3) (cV 2)) (cA (cN 4) (cV 2)))))) (cM (cW (cA (cN 1) (cV 2)) 4) (cR (cM (cM (cM (cA (cN 1) (cD (cB (cV 1) (cN 1)) (cN 2))) (cA (cN 3) (cM (cM (cN 4) (cD (cB (cV 1) (cN 1)) (cN 2))) (cA (cN 2) (cD (cB (cV 1) (cN 1)) (cN 2)))))) (cA (cN 2) (cV 2))) (cA (cN 3) (cM (cN 2) (cV 2))))))).
Definition QST_e363 := (cO (cD (cN 1) (cM (cM (cR (cM (cD (cB (cV 1) (cN 1)) (cN 2)) (cA (cN 1) (cM (cN 2) (cD (cB (cV 1) (cN 1)) (cN 2)))))) (cA (cN 1) (cV 2))) (cA (cN 1) (cM (cN 2) (cV 2)))))).
Definition QST_e364 := (cD (cA (cA (cM (cN 3) (cR (cM (cM (cM (cD (cB (cV 1) (cN 1)) (cN 2)) (cA (cN 1) (cD (cB (cV 1) (cN 1)) (cN 2)))) (cA (cN 1) (cV 2))) (cA (cN 1) (cM (cN 2) (cV 2)))))) (cM (cN 2) (cR (cM (cM (cM (cW (cD (cB (cV 1) (cN 1)) (cN 2)) 6) (cA (cN 1) (cD (cB (cV 1) (cN 1)) (cN 2)))) (cA (cN 1) (cV 2))) (cA (cN 1) (cM (cN 2) (cV 2))))))) (cM (cV 2) (cA (cB (cA (cB (cB (cM (cN (-6)) (cR (cD (cM (cM (cD (cB (cV 1) (cN 1)) (cN 2)) (cA (cN 1) (cD (cB (cV 1) (cN 1)) (cN 2)))) (cA (cN 1) (cM (cN 2) (cV 2)))) (cA (cN 1) (cV 2))))) (cM (cN 4) (cR (cD (cM (cM (cW (cD (cB (cV 1) (cN 1)) (cN 2)) 6) (cA (cN 1) (cD (cB (cV 1) (cN 1)) (cN 2)))) (cA (cN 1) (cM (cN 2) (cV 2)))) (cA (cN 1) (cV 2)))))) (cM (cN 3) (cR (cD (cM (cD (cB (cV 1) (cN 1)) (cN 2)) (cA (cN 1) (cD (cB (cV 1) (cN 1)) (cN 2)))) (cA (cA (cN 1) (cM (cN 3) (cV 2))) (cM (cN 2) (cW (cV 2) 4))))))) (cM (cM (cN 6) (cV 2)) (cR (cD (cM (cD (cB (cV 1) (cN 1)) (cN 2)) (cA (cN 1) (cD (cB (cV 1) (cN 1)) (cN 2)))) (cA (cA (cN 1) (cM (cN 3) (cV 2))) (cM (cN 2) (cW (cV 2) 4))))))) (cM (cN 2) (cR (cD (cM (cW (cD (cB (cV 1) (cN 1)) (cN 2)) 6) (cA (cN 1) (cD (cB (cV 1) (cN 1)) (cN 2)))) (cA (cA (cN 1) (cM (cN 3) (cV 2))) (cM (cN 2) (cW (cV 2) 4))))))) (cM (cM (cN 4) (cV 2)) (cR (cD (cM (cW (cD (cB (cV 1) (cN 1)) (cN 2)) 6) (cA (cN 1) (cD (cB (cV 1) (cN 1)) (cN 2)))) (cA (cA (cN 1) (cM (cN 3) (cV 2))) (cM (cN 2) (cW (cV 2) 4))))))))) (cM (cA (cN 1) (cD (cB (cV 1) (cN 1)) (cN 2))) (cR (cM (cM (cA (cN 3) (cM (cM (cN 4) (cD (cB (cV 1) (cN 1)) (cN 2))) (cA (cN 2) (cD (cB (cV 1) (cN 1)) (cN 2))))) (cA (cN 1) (cV 2))) (cA (cN 1) (cM (cN 2) (cV 2))))))).
Definition QST_e365 := (cD (cB (cM (cN (-3)) (cR (cM (cD (cB (cV 1) (cN 1)) (cN 2)) (cA (cN 2) (cV 2))))) (cM (cN 2) (cR (cM (cW (cD (cB (cV 1) (cN 1)) (cN 2)) 6) (cA (cN 2) (cV 2)))))) (cM (cM (cA (cN 1) (cD (cB (cV 1) (cN 1)) (cN 2))) (cA (cN 1) (cV 2))) (cR (cD (cM (cA (cN 3) (cM (cM (cN 4) (cD (cB (cV 1) (cN 1)) (cN 2))) (cA (cN 2) (cD (cB (cV 1) (cN 1)) (cN 2))))) (cA (cN 2) (cV 2))) (cA (cN 1) (cD (cB (cV 1) (cN 1)) (cN 2))))))).
Definition QST_e366 := (cD (cA (cA (cA (cA (cM (cN 27) (cR (cD (cM (cD (cB (cV 1) (cN 1)) (cN 2)) (cA (cN 1) (cD (cB (cV 1) (cN 1)) (cN 2)))) (cA (cN 1) (cV 2))))) (cM (cN 18) (cR (cD (cM (cW (cD (cB (cV 1) (cN 1)) (cN 2)) 6) (cA (cN 1) (cD (cB (cV 1) (cN 1)) (cN 2)))) (cA (cN 1) (cV 2)))))) (cM (cN 3) (cR (cM (cM (cD (cB (cV 1) (cN 1)) (cN 2)) (cA (cN 1) (cD (cB (cV 1) (cN 1)) (cN 2)))) (cA (cN 1) (cV 2)))))) (cM (cN 2) (cR (cM (cM (cW (cD (cB (cV 1) (cN 1)) (cN 2)) 6) (cA (cN 1) (cD (cB (cV 1) (cN 1)) (cN 2)))) (cA (cN 1) (cV 2)))))) (cM (cM (cN 2) (cV 2)) (cA (cA (cA (cM (cN 9) (cR (cD (cM (cD (cB (cV 1) (cN 1)) (cN 2)) (cA (cN 1) (cD (cB (cV 1) (cN 1)) (cN 2)))) (cA (cN 1) (cV 2))))) (cM (cN 6) (cR (cD (cM (cW (cD (cB (cV 1) (cN 1)) (cN 2)) 6) (cA (cN 1) (cD (cB (cV 1) (cN 1)) (cN 2)))) (cA (cN 1) (cV 2)))))) (cM (cN 3) (cR (cM (cM (cD (cB (cV 1) (cN 1)) (cN 2)) (cA (cN 1) (cD (cB (cV 1) (cN 1)) (cN 2)))) (cA (cN 1) (cV 2)))))) (cM (cN 2) (cR (cM (cM (cW (cD (cB (cV 1) (cN 1)) (cN 2)) 6) (cA (cN 1) (cD (cB (cV 1) (cN 1)) (cN 2)))) (cA (cN 1) (cV 2)))))))) (cM (cM (cM (cA (cN 1) (cD (cB (cV 1) (cN 1)) (cN 2))) (cR (cD (cA (cN 3) (cM (cM (cN 4) (cD (cB (cV 1) (cN 1)) (cN 2))) (cA (cN 2) (cD (cB (cV 1) (cN 1)) (cN 2))))) (cA (cN 1) (cV 2))))) (cA (cN 2) (cV 2))) (cA (cN 5) (cM (cN 2) (cV 2))))).
Definition QST_e367 := (cD (cB (cM (cM (cN 4) (cD (cB (cV 1) (cN 1)) (cN 2))) (cR (cD (cM (cA (cN 1) (cD (cB (cV 1) (cN 1)) (cN 2))) (cA (cN (-3)) (cM (cM (cN 4) (cV 2)) (cA (cN 1) (cV 2))))) (cA (cN 1) (cM (cN 2) (cD (cB (cV 1) (cN 1)) (cN 2))))))) (cM (cN 3) (cR (cM (cM (cA (cN 1) (cD (cB (cV 1) (cN 1)) (cN 2))) (cA (cN 1) (cM (cN 2) (cD (cB (cV 1) (cN 1)) (cN 2))))) (cA (cN (-3)) (cM (cM (cN 4) (cV 2)) (cA (cN 1) (cV 2)))))))) (cM (cM (cA (cN 1) (cD (cB (cV 1) (cN 1)) (cN 2))) (cA (cN 3) (cM (cN 2) (cD (cB (cV 1) (cN 1)) (cN 2))))) (cA (cN 1) (cM (cN 2) (cV 2))))).
Definition QST_e368 := (cD (cR (cA (cN (-3)) (cM (cM (cN 4) (cV 2)) (cA (cN 1) (cV 2))))) (cA (cN 1) (cM (cN 2) (cV 2)))).
Definition QST_e369 := (cD (cN 1) (cM (cA (cN 1) (cV 2)) (cR (cD (cM (cM (cA (cN 1) (cD (cB (cV 1) (cN 1)) (cN 2))) (cA (cN 1) (cM (cN 2) (cD (cB (cV 1) (cN 1)) (cN 2))))) (cA (cN 1) (cM (cN 2) (cV 2)))) (cA (cN 3) (cM (cN 2) (cV 2))))))).
Definition QST_e370 := (cO (cD (cR (cD (cM (cV 2) (cA (cN 2) (cV 2))) (cA (cA (cN 1) (cM (cN 3) (cD (cB (cV 1) (cN 1)) (cN 2)))) (cM (cN 2) (cW (cD (cB (cV 1) (cN 1)) (cN 2)) 4))))) (cA (cN 1) (cV 2)))).
Definition QST_e371 := (cO (cD (cR (cA (cN 3) (cM (cM (cN 4) (cV 2)) (cA (cN 2) (cV 2))))) (cM (cA (cN 1) (cV 2)) (cA (cN 1) (cM (cN 2) (cV 2)))))).
Definition QST_e372 := (cO (cD (cN 1) (cM (cR (cA (cA (cN 1) (cM (cN 3) (cD (cB (cV 1) (cN 1)) (cN 2)))) (cM (cN 2) (cW (cD (cB (cV 1) (cN 1)) (cN 2)) 4)))) (cA (cA (cN 1) (cM (cN 3) (cV 2))) (cM (cN 2) (cW (cV 2) 4)))))).
Definition QST_e373 := (cD (cN 1) (cA (cA (cN 1) (cM (cN 3) (cV 2))) (cM (cN 2) (cW (cV 2) 4)))).
Definition QST_e374 := (cD (cM (cN (-2)) (cR (cD (cM (cM (cD (cB (cV 1) (cN 1)) (cN 2)) (cA (cN 1) (cD (cB (cV 1) (cN 1)) (cN 2)))) (cA (cN (-9)) (cM (cN 4) (cW (cV 2) 4)))) (cA (cN (-1)) (cM (cN 4) (cW (cV 2) 4)))))) (cA (cN 1) (cM (cN 2) (cD (cB (cV 1) (cN 1)) (cN 2))))).
Definition QST_e375 := (cM (cM (cM (cN 2) (cR (cN 2))) (cR (cD (cM (cA (cN 1) (cD (cB (cV 1) (cN 1)) (cN 2))) (cA (cN (-3)) (cM (cM (cN 4) (cV 2)) (cA (cN 1) (cV 2))))) (cA (cN 1) (cM (cN 2) (cD (cB (cV 1) (cN 1)) (cN 2))))))) (cA (cB (cR (cD (cD (cB (cV 1) (cN 1)) (cN 2)) (cM (cM (cA (cN 1) (cM (cN 2) (cD (cB (cV 1) (cN 1)) (cN 2)))) (cV 2)) (cA (cA (cB (cN (-1)) (cV 2)) (cM (cN 4) (cW (cV 2) 4))) (cM (cN 4) (cW (cV 2) 6)))))) (cM (cM (cN 2) (cV 2)) (cR (cD (cD (cB (cV 1) (cN 1)) (cN 2)) (cM (cM (cA (cN 1) (cM (cN 2) (cD (cB (cV 1) (cN 1)) (cN 2)))) (cV 2)) (cA (cA (cB (cN (-1)) (cV 2)) (cM (cN 4) (cW (cV 2) 4))) (cM (cN 4) (cW (cV 2) 6)))))))) (cM (cN 2) (cR (cD (cM (cD (cB (cV 1) (cN 1)) (cN 2)) (cV 2)) (cM (cA (cN 1) (cM (cN 2) (cD (cB (cV 1) (cN 1)) (cN 2)))) (cA (cA (cB (cN (-1)) (cV 2)) (cM (cN 4) (cW (cV 2) 4))) (cM (cN 4) (cW (cV 2) 6))))))))).
Definition QST_e376 := (cM (cM (cN (-2)) (cR (cD (cM (cA (cN 1) (cD (cB (cV 1) (cN 1)) (cN 2))) (cA (cN 3) (cM (cN 2) (cV 2)))) (cM (cA (cN 1) (cM (cN 2) (cD (cB (cV 1) (cN 1)) (cN 2)))) (cA (cV 2) (cM (cN 2) (cW (cV 2) 4))))))) (cA (cA (cM (cN 6) (cR (cD (cM (cD (cB (cV 1) (cN 1)) (cN 2)) (cA (cB (cN 1) (cM (cN 3) (cV 2))) (cM (cN 2) (cW (cV 2) 4)))) (cM (cA (cN 1) (cM (cN 2) (cD (cB (cV 1) (cN 1)) (cN 2)))) (cA (cA (cA (cN 2) (cM (cN 7) (cV 2))) (cM (cN 7) (cW (cV 2) 4))) (cM (cN 2) (cW (cV 2) 6))))))) (cM (cN 4) (cR (cD (cM (cD (cB (cV 1) (cN 1)) (cN 2)) (cA (cN (-1)) (cM (cN 2) (cV 2)))) (cM (cA (cN 1) (cM (cN 2) (cD (cB (cV 1) (cN 1)) (cN 2)))) (cA (cA (cB (cN (-2)) (cM (cN 5) (cV 2))) (cM (cN 5) (cW (cV 2) 6))) (cM (cN 2) (cW (cV 2) 8)))))))) (cM (cM (cA (cN (-5)) (cV 2)) (cV 2)) (cR (cD (cM (cD (cB (cV 1) (cN 1)) (cN 2)) (cA (cN (-1)) (cM (cN 2) (cV 2)))) (cM (cA (cN 1) (cM (cN 2) (cD (cB (cV 1) (cN 1)) (cN 2)))) (cA (cA (cB (cN (-2)) (cM (cN 5) (cV 2))) (cM (cN 5) (cW (cV 2) 6))) (cM (cN 2) (cW (cV 2) 8))))))))).
Definition QST_e377 := (cD (cM (cM (cN (-2)) (cR (cN 6))) (cR (cO (cD (cM (cD (cB (cV 1) (cN 1)) (cN 2)) (cA (cN 1) (cD (cB (cV 1) (cN 1)) (cN 2)))) (cB (cB (cA (cV 2) (cW (cV 2) 4)) (cM (cN 4) (cW (cV 2) 6))) (cM (cN 4) (cW (cV 2) 8))))))) (cA (cN 1) (cM (cN 2) (cD (cB (cV 1) (cN 1)) (cN 2))))).
Definition QST_e378 := (cM (cM (cM (cN (-2)) (cR (cN 3))) (cR (cD (cM (cM (cA (cN 1) (cD (cB (cV 1) (cN 1)) (cN 2))) (cA (cN 1) (cV 2))) (cA (cN 3) (cM (cN 2) (cV 2)))) (cA (cN 1) (cM (cN 2) (cD (cB (cV 1) (cN 1)) (cN 2))))))) (cB (cA (cD (cM (cA (cN (-4)) (cV 2)) (cW (cA (cN (-1)) (cM (cN 2) (cV 2))) 3)) (cM (cA (cN 1) (cV 2)) (cR (cD (cM (cM (cM (cM (cM (cA (cN 1) (cM (cN 2) (cD (cB (cV 1) (cN 1)) (cN 2)))) (cV 2)) (cA (cN 1) (cV 2))) (cA (cN 2) (cV 2))) (cA (cN 1) (cM (cN 2) (cV 2)))) (cA (cN 3) (cM (cN 2) (cV 2)))) (cD (cB (cV 1) (cN 1)) (cN 2)))))) (cM (cN 6) (cR (cD (cM (cM (cD (cB (cV 1) (cN 1)) (cN 2)) (cW (cA (cN (-1)) (cV 2)) 4)) (cA (cN (-1)) (cM (cN 2) (cV 2)))) (cM (cM (cM (cA (cN 1) (cM (cN 2) (cD (cB (cV 1) (cN 1)) (cN 2)))) (cV 2)) (cW (cA (cN 1) (cV 2)) 6)) (cA (cA (cA (cN 6) (cM (cN 19) (cV 2))) (cM (cN 16) (cW (cV 2) 4))) (cM (cN 4) (cW (cV 2) 6)))))))) (cM (cM (cM (cN 2) (cA (cN (-1)) (cV 2))) (cA (cN (-1)) (cM (cN 2) (cV 2)))) (cR (cD (cM (cD (cB (cV 1) (cN 1)) (cN 2)) (cV 2)) (cM (cM (cA (cN 1) (cM (cN 2) (cD (cB (cV 1) (cN 1)) (cN 2)))) (cW (cA (cN 1) (cV 2)) 6)) (cA (cA (cA (cB (cN (-6)) (cM (cN 7) (cV 2))) (cM (cN 22) (cW (cV 2) 4))) (cM (cN 28) (cW (cV 2) 6))) (cM (cN 8) (cW (cV 2) 8))))))))).
Definition QST_e379 := (cD (cM (cM (cN (-2)) (cR (cD (cA (cN 1) (cD (cB (cV 1) (cN 1)) (cN 2))) (cA (cN 1) (cM (cN 2) (cD (cB (cV 1) (cN 1)) (cN 2))))))) (cA (cA (cM (cN 36) (cR (cD (cM (cM (cD (cB (cV 1) (cN 1)) (cN 2)) (cV 2)) (cA (cN (-1)) (cM (cN 2) (cV 2)))) (cM (cA (cN 1) (cM (cN 2) (cD (cB (cV 1) (cN 1)) (cN 2)))) (cA (cA (cA (cA (cN 30) (cM (cN 107) (cV 2))) (cM (cN 118) (cW (cV 2) 4))) (cM (cN 52) (cW (cV 2) 6))) (cM (cN 8) (cW (cV 2) 8))))))) (cM (cN 26) (cR (cD (cM (cD (cB (cV 1) (cN 1)) (cN 2)) (cV 2)) (cM (cA (cN 1) (cM (cN 2) (cD (cB (cV 1) (cN 1)) (cN 2)))) (cA (cA (cA (cA (cB (cN (-30)) (cM (cN 47) (cV 2))) (cM (cN 96) (cW (cV 2) 4))) (cM (cN 184) (cW (cV 2) 6))) (cM (cN 96) (cW (cV 2) 8))) (cM (cN 16) (cW (cV 2) 10)))))))) (cM (cM (cV 2) (cR (cD (cM (cD (cB (cV 1) (cN 1)) (cN 2)) (cV 2)) (cM (cA (cN 1) (cM (cN 2) (cD (cB (cV 1) (cN 1)) (cN 2)))) (cA (cA (cA (cA (cB (cN (-30)) (cM (cN 47) (cV 2))) (cM (cN 96) (cW (cV 2) 4))) (cM (cN 184) (cW (cV 2) 6))) (cM (cN 96) (cW (cV 2) 8))) (cM (cN 16) (cW (cV 2) 10))))))) (cA (cN (-61)) (cM (cM (cN 4) (cV 2)) (cA (cN 4) (cV 2))))))) (cA (cN 1) (cV 2))).
Definition QST_e380 := (cD (cM (cN (-6)) (cR (cM (cD (cB (cV 1) (cN 1)) (cN 2)) (cA (cN 1) (cD (cB (cV 1) (cN 1)) (cN 2)))))) (cM (cA (cN 1) (cM (cN 2) (cD (cB (cV 1) (cN 1)) (cN 2)))) (cA (cA (cN 1) (cM (cN 3) (cV 2))) (cM (cN 2) (cW (cV 2) 4))))).
Definition QST_e381 := (cM (cM (cM (cM (cN (-2)) (cR (cN 3))) (cV 2)) (cR (cD (cA (cN 1) (cD (cB (cV 1) (cN 1)) (cN 2))) (cM (cM (cM (cA (cN 1) (cM (cN 2) (cD (cB (cV 1) (cN 1)) (cN 2)))) (cV 2)) (cW (cA (cN 2) (cV 2)) 6)) (cA (cA (cN 3) (cM (cN 5) (cV 2))) (cM (cN 2) (cW (cV 2) 4))))))) (cA (cA (cB (cR (cD (cM (cM (cM (cD (cB (cV 1) (cN 1)) (cN 2)) (cA (cN 1) (cV 2))) (cA (cN 1) (cM (cN 2) (cV 2)))) (cA (cN 3) (cM (cN 2) (cV 2)))) (cM (cA (cN 1) (cM (cN 2) (cD (cB (cV 1) (cN 1)) (cN 2)))) (cA (cN 5) (cM (cN 2) (cV 2)))))) (cM (cN 12) (cR (cD (cM (cD (cB (cV 1) (cN 1)) (cN 2)) (cA (cN 3) (cM (cN 2) (cV 2)))) (cM (cA (cN 1) (cM (cN 2) (cD (cB (cV 1) (cN 1)) (cN 2)))) (cA (cA (cA (cN 5) (cM (cN 17) (cV 2))) (cM (cN 16) (cW (cV 2) 4))) (cM (cN 4) (cW (cV 2) 6)))))))) (cR (cD (cM (cD (cB (cV 1) (cN 1)) (cN 2)) (cA (cN 3) (cM (cM (cN 4) (cV 2)) (cA (cN 2) (cV 2))))) (cM (cM (cA (cN 1) (cM (cN 2) (cD (cB (cV 1) (cN 1)) (cN 2)))) (cA (cN 1) (cV 2))) (cA (cN 5) (cM (cN 2) (cV 2))))))) (cM (cV 2) (cA (cB (cB (cM (cN (-2)) (cR (cD (cM (cM (cM (cD (cB (cV 1) (cN 1)) (cN 2)) (cA (cN 1) (cV 2))) (cA (cN 1) (cM (cN 2) (cV 2)))) (cA (cN 3) (cM (cN 2) (cV 2)))) (cM (cA (cN 1) (cM (cN 2) (cD (cB (cV 1) (cN 1)) (cN 2)))) (cA (cN 5) (cM (cN 2) (cV 2))))))) (cM (cN 3) (cR (cD (cM (cD (cB (cV 1) (cN 1)) (cN 2)) (cA (cN 3) (cM (cN 2) (cV 2)))) (cM (cA (cN 1) (cM (cN 2) (cD (cB (cV 1) (cN 1)) (cN 2)))) (cA (cA (cA (cN 5) (cM (cN 17) (cV 2))) (cM (cN 16) (cW (cV 2) 4))) (cM (cN 4) (cW (cV 2) 6)))))))) (cM (cN 9) (cR (cD (cM (cD (cB (cV 1) (cN 1)) (cN 2)) (cA (cN 3) (cM (cM (cN 4) (cV 2)) (cA (cN 2) (cV 2))))) (cM (cM (cA (cN 1) (cM (cN 2) (cD (cB (cV 1) (cN 1)) (cN 2)))) (cA (cN 1) (cV 2))) (cA (cN 5) (cM (cN 2) (cV 2)))))))) (cM (cM (cN 2) (cV 2)) (cA (cM (cN 9) (cR (cD (cM (cD (cB (cV 1) (cN 1)) (cN 2)) (cA (cN 3) (cM (cN 2) (cV 2)))) (cM (cA (cN 1) (cM (cN 2) (cD (cB (cV 1) (cN 1)) (cN 2)))) (cA (cA (cA (cN 5) (cM (cN 17) (cV 2))) (cM (cN 16) (cW (cV 2) 4))) (cM (cN 4) (cW (cV 2) 6))))))) (cR (cD (cM (cD (cB (cV 1) (cN 1)) (cN 2)) (cA (cN 3) (cM (cM (cN 4) (cV 2)) (cA (cN 2) (cV 2))))) (cM (cM (cA (cN 1) (cM (cN 2) (cD (cB (cV 1) (cN 1)) (cN 2)))) (cA (cN 1) (cV 2))) (cA (cN 5) (cM (cN 2) (cV 2)))))))))))).
Definition QST_e382 := (cD (cM (cM (cM (cM (cN (-2)) (cD (cB (cV 1) (cN 1)) (cN 2))) (cA (cN 1) (cD (cB (cV 1) (cN 1)) (cN 2)))) (cV 2)) (cA (cN 3) (cV 2))) (cM (cA (cN 1) (cM (cN 2) (cD (cB (cV 1) (cN 1)) (cN 2)))) (cR (cM (cM (cM (cM (cM (cD (cB (cV 1) (cN 1)) (cN 2)) (cA (cN 1) (cD (cB (cV 1) (cN 1)) (cN 2)))) (cV 2)) (cA (cN 1) (cV 2))) (cA (cN 2) (cV 2))) (cA (cN 3) (cV 2)))))).
Definition QST_e383 := (cD (cM (cM (cN (-2)) (cR (cN 6))) (cR (cD (cM (cD (cB (cV 1) (cN 1)) (cN 2)) (cA (cN 1) (cD (cB (cV 1) (cN 1)) (cN 2)))) (cA (cA (cA (cA (cN 6) (cM (cN 25) (cV 2))) (cM (cN 35) (cW (cV 2) 4))) (cM (cN 20) (cW (cV 2) 6))) (cM (cN 4) (cW (cV 2) 8)))))) (cA (cN 1) (cM (cN 2) (cD (cB (cV 1) (cN 1)) (cN 2))))).
Definition QST_e384 := (cD (cM (cM (cM (cN 2) (cR (cN 2))) (cR (cD (cM (cM (cA (cN 1) (cD (cB (cV 1) (cN 1)) (cN 2))) (cA (cN 1) (cV 2))) (cA (cN 3) (cM (cN 2) (cV 2)))) (cM (cA (cN 1) (cM (cN 2) (cD (cB (cV 1) (cN 1)) (cN 2)))) (cA (cN 3) (cV 2)))))) (cA (cM (cN 5) (cA (cR (cD (cM (cD (cB (cV 1) (cN 1)) (cN 2)) (cA (cN 3) (cM (cN 2) (cV 2)))) (cM (cA (cN 1) (cM (cN 2) (cD (cB (cV 1) (cN 1)) (cN 2)))) (cA (cN 3) (cV 2))))) (cM (cN 3) (cR (cD (cD (cB (cV 1) (cN 1)) (cN 2)) (cM (cA (cN 1) (cM (cN 2) (cD (cB (cV 1) (cN 1)) (cN 2)))) (cA (cA (cN 9) (cM (cN 9) (cV 2))) (cM (cN 2) (cW (cV 2) 4))))))))) (cM (cV 2) (cB (cB (cB (cA (cM (cN 15) (cR (cD (cM (cD (cB (cV 1) (cN 1)) (cN 2)) (cA (cN 3) (cM (cN 2) (cV 2)))) (cM (cA (cN 1) (cM (cN 2) (cD (cB (cV 1) (cN 1)) (cN 2)))) (cA (cN 3) (cV 2)))))) (cM (cM (cN 10) (cV 2)) (cR (cD (cM (cD (cB (cV 1) (cN 1)) (cN 2)) (cA (cN 3) (cM (cN 2) (cV 2)))) (cM (cA (cN 1) (cM (cN 2) (cD (cB (cV 1) (cN 1)) (cN 2)))) (cA (cN 3) (cV 2))))))) (cM (cN 18) (cR (cD (cD (cB (cV 1) (cN 1)) (cN 2)) (cM (cA (cN 1) (cM (cN 2) (cD (cB (cV 1) (cN 1)) (cN 2)))) (cA (cA (cN 9) (cM (cN 9) (cV 2))) (cM (cN 2) (cW (cV 2) 4)))))))) (cM (cM (cN 45) (cV 2)) (cR (cD (cD (cB (cV 1) (cN 1)) (cN 2)) (cM (cA (cN 1) (cM (cN 2) (cD (cB (cV 1) (cN 1)) (cN 2)))) (cA (cA (cN 9) (cM (cN 9) (cV 2))) (cM (cN 2) (cW (cV 2) 4)))))))) (cM (cM (cN 18) (cW (cV 2) 4)) (cR (cD (cD (cB (cV 1) (cN 1)) (cN 2)) (cM (cA (cN 1) (cM (cN 2) (cD (cB (cV 1) (cN 1)) (cN 2)))) (cA (cA (cN 9) (cM (cN 9) (cV 2))) (cM (cN 2) (cW (cV 2) 4))))))))))) (cM (cM (cA (cN 1) (cV 2)) (cW (cA (cN 2) (cV 2)) 3)) (cA (cN 5) (cM (cN 2) (cV 2))))).
Definition QST_e385 := (cM (cM (cN (-2)) (cR (cD (cA (cN 1) (cD (cB (cV 1) (cN 1)) (cN 2))) (cM (cM (cM (cM (cW (cA (cN 1) (cM (cN 2) (cD (cB (cV 1) (cN 1)) (cN 2)))) 4) (cA (cN 2) (cV 2))) (cW (cA (cN 3) (cV 2)) 4)) (cW (cA (cN 5) (cM (cN 2) (cV 2))) 4)) (cW (cA (cN 7) (cM (cN 2) (cV 2))) 4))))) (cA (cM (cN 3) (cA (cM (cN 68) (cR (cD (cD (cB (cV 1) (cN 1)) (cN 2)) (cA (cN 2) (cV 2))))) (cR (cM (cD (cB (cV 1) (cN 1)) (cN 2)) (cA (cN 2) (cV 2)))))) (cM (cV 2) (cA (cA (cM (cN 294) (cR (cD (cD (cB (cV 1) (cN 1)) (cN 2)) (cA (cN 2) (cV 2))))) (cM (cN 11) (cR (cM (cD (cB (cV 1) (cN 1)) (cN 2)) (cA (cN 2) (cV 2)))))) (cM (cM (cN 4) (cV 2)) (cA (cA (cM (cN 36) (cR (cD (cD (cB (cV 1) (cN 1)) (cN 2)) (cA (cN 2) (cV 2))))) (cM (cN 3) (cR (cM (cD (cB (cV 1) (cN 1)) (cN 2)) (cA (cN 2) (cV 2)))))) (cM (cV 2) (cA (cM (cN 6) (cR (cD (cD (cB (cV 1) (cN 1)) (cN 2)) (cA (cN 2) (cV 2))))) (cR (cM (cD (cB (cV 1) (cN 1)) (cN 2)) (cA (cN 2) (cV 2)))))))))))).
Definition QST_e386 := (cD (cR (cD (cB (cN 9) (cM (cN 4) (cW (cV 2) 4))) (cB (cN 1) (cM (cN 4) (cW (cV 2) 4))))) (cA (cN 1) (cM (cN 2) (cD (cB (cV 1) (cN 1)) (cN 2))))).
Definition QST_e387 := (cO (cR (cD (cB (cN 9) (cM (cN 4) (cW (cV 2) 4))) (cB (cN 1) (cM (cN 4) (cW (cV 2) 4)))))).
Definition QST_e388 := (cO (cD (cR (cB (cA (cN 2) (cD (cN 6) (cV 2))) (cD (cN 4) (cA (cN 1) (cM (cN 2) (cV 2)))))) (cM (cA (cN 1) (cM (cN 2) (cD (cB (cV 1) (cN 1)) (cN 2)))) (cA (cN 1) (cV 2))))).
Definition QST_e389 := (cD (cM (cM (cA (cA (cN (-2)) (cV 2)) (cW (cV 2) 4)) (cA (cM (cM (cN (-2)) (cD (cB (cV 1) (cN 1)) (cN 2))) (cR (cD (cA (cN 1) (cD (cB (cV 1) (cN 1)) (cN 2))) (cM (cW (cA (cN 1) (cM (cN 2) (cD (cB (cV 1) (cN 1)) (cN 2)))) 6) (cA (cA (cN 2) (cM (cN 5) (cV 2))) (cM (cN 2) (cW (cV 2) 4))))))) (cR (cD (cA (cN 1) (cD (cB (cV 1) (cN 1)) (cN 2))) (cM (cA (cN 1) (cM (cN 2) (cD (cB (cV 1) (cN 1)) (cN 2)))) (cA (cA (cN 2) (cM (cN 5) (cV 2))) (cM (cN 2) (cW (cV 2) 4)))))))) (cR (cD (cM (cM (cA (cN 1) (cD (cB (cV 1) (cN 1)) (cN 2))) (cA (cN 1) (cM (cN 2) (cD (cB (cV 1) (cN 1)) (cN 2))))) (cA (cN (-3)) (cM (cV 2) (cA (cN 1) (cM (cM (cN 4) (cV 2)) (cA (cN 2) (cV 2))))))) (cM (cM (cA (cN (-1)) (cV 2)) (cV 2)) (cA (cN 1) (cM (cN 2) (cV 2))))))) (cM (cA (cN 1) (cD (cB (cV 1) (cN 1)) (cN 2))) (cA (cN 1) (cV 2)))).
Definition QST_e390 := (cD (cM (cR (cN 2)) (cA (cN 3) (cM (cN 2) (cV 2)))) (cR (cM (cM (cM (cV 2) (cA (cN 1) (cV 2))) (cA (cN 1) (cM (cN 2) (cV 2)))) (cA (cN 3) (cM (cN 2) (cV 2)))))).
Definition QST_e391 := (cO (cD (cM (cM (cA (cA (cN (-2)) (cV 2)) (cW (cV 2) 4)) (cA (cR (cD (cM (cA (cN 1) (cD (cB (cV 1) (cN 1)) (cN 2))) (cA (cN 1) (cM (cN 2) (cD (cB (cV 1) (cN 1)) (cN 2))))) (cM (cM (cA (cN 3) (cM (cN 2) (cD (cB (cV 1) (cN 1)) (cN 2)))) (cA (cN 2) (cV 2))) (cA (cN 1) (cM (cN 2) (cV 2)))))) (cM (cN 2) (cR (cD (cA (cN 1) (cD (cB (cV 1) (cN 1)) (cN 2))) (cM (cM (cA (cN 3) (cM (cM (cN 4) (cD (cB (cV 1) (cN 1)) (cN 2))) (cA (cN 2) (cD (cB (cV 1) (cN 1)) (cN 2))))) (cA (cN 2) (cV 2))) (cA (cN 1) (cM (cN 2) (cV 2))))))))) (cR (cD (cM (cM (cA (cN 1) (cD (cB (cV 1) (cN 1)) (cN 2))) (cA (cN 1) (cM (cN 2) (cD (cB (cV 1) (cN 1)) (cN 2))))) (cA (cN (-3)) (cM (cV 2) (cA (cN 1) (cM (cM (cN 4) (cV 2)) (cA (cN 2) (cV 2))))))) (cM (cM (cM (cA (cN 3) (cM (cN 2) (cD (cB (cV 1) (cN 1)) (cN 2)))) (cA (cN (-1)) (cV 2))) (cV 2)) (cA (cN 1) (cM (cN 2) (cV 2))))))) (cM (cA (cN 1) (cD (cB (cV 1) (cN 1)) (cN 2))) (cA (cN 1) (cV 2))))).
Definition QST_e392 := (cD (cR (cN 6)) (cM (cA (cN 1) (cM (cN 2) (cD (cB (cV 1) (cN 1)) (cN 2)))) (cR (cM (cM (cM (cV 2) (cA (cN 1) (cV 2))) (cA (cN (-1)) (cM (cN 2) (cV 2)))) (cA (cN 1) (cM (cN 2) (cV 2))))))).
Definition QST_e393 := (cM (cM (cR (cN 2)) (cR (cM (cM (cA (cN 1) (cD (cB (cV 1) (cN 1)) (cN 2))) (cA (cN 1) (cV 2))) (cA (cN 3) (cM (cN 2) (cV 2)))))) (cA (cA (cB (cD (cM (cM (cR (cQ 3 2)) (cA (cN (-4)) (cV 2))) (cA (cN (-1)) (cM (cN 2) (cV 2)))) (cM (cA (cN 1) (cV 2)) (cR (cD (cM (cM (cM (cM (cM (cA (cN 1) (cD (cB (cV 1) (cN 1)) (cN 2))) (cV 2)) (cA (cN 1) (cV 2))) (cA (cN 2) (cV 2))) (cA (cN 1) (cM (cN 2) (cV 2)))) (cA (cN 3) (cM (cN 2) (cV 2)))) (cA (cN (-1)) (cM (cN 2) (cV 2))))))) (cD (cM (cM (cM (cR (cN 6)) (cA (cN (-1)) (cV 2))) (cV 2)) (cA (cN (-1)) (cM (cN 2) (cV 2)))) (cR (cM (cM (cM (cM (cM (cM (cA (cN 1) (cD (cB (cV 1) (cN 1)) (cN 2))) (cV 2)) (cW (cA (cN 1) (cV 2)) 6)) (cA (cN 2) (cV 2))) (cA (cN (-1)) (cM (cN 2) (cV 2)))) (cA (cN 1) (cM (cN 2) (cV 2)))) (cA (cN 3) (cM (cN 2) (cV 2))))))) (cD (cM (cM (cN 3) (cR (cN 6))) (cR (cD (cM (cW (cA (cN (-1)) (cV 2)) 4) (cA (cN (-1)) (cM (cN 2) (cV 2)))) (cM (cM (cM (cA (cN 1) (cD (cB (cV 1) (cN 1)) (cN 2))) (cV 2)) (cW (cA (cN 1) (cV 2)) 6)) (cA (cA (cA (cN 6) (cM (cN 19) (cV 2))) (cM (cN 16) (cW (cV 2) 4))) (cM (cN 4) (cW (cV 2) 6))))))) (cA (cN 1) (cM (cN 2) (cD (cB (cV 1) (cN 1)) (cN 2)))))) (cM (cM (cM (cR (cN 6)) (cR (cD (cD (cB (cV 1) (cN 1)) (cN 2)) (cA (cN 1) (cM (cN 2) (cD (cB (cV 1) (cN 1)) (cN 2))))))) (cA (cN (-1)) (cM (cN 2) (cV 2)))) (cA (cD (cB (cN 4) (cV 2)) (cM (cA (cN 1) (cV 2)) (cR (cD (cM (cM (cM (cM (cM (cM (cA (cN 1) (cD (cB (cV 1) (cN 1)) (cN 2))) (cA (cN 1) (cM (cN 2) (cD (cB (cV 1) (cN 1)) (cN 2))))) (cV 2)) (cA (cN 1) (cV 2))) (cA (cN 2) (cV 2))) (cA (cN 1) (cM (cN 2) (cV 2)))) (cA (cN 3) (cM (cN 2) (cV 2)))) (cM (cD (cB (cV 1) (cN 1)) (cN 2)) (cA (cN (-1)) (cM (cN 2) (cV 2)))))))) (cM (cM (cM (cN 2) (cA (cN (-1)) (cV 2))) (cV 2)) (cR (cD (cD (cB (cV 1) (cN 1)) (cN 2)) (cM (cM (cM (cA (cA (cN 1) (cM (cN 3) (cD (cB (cV 1) (cN 1)) (cN 2)))) (cM (cN 2) (cW (cD (cB (cV 1) (cN 1)) (cN 2)) 4))) (cV 2)) (cW (cA (cN 1) (cV 2)) 6)) (cA (cA (cA (cB (cN (-6)) (cM (cN 7) (cV 2))) (cM (cN 22) (cW (cV 2) 4))) (cM (cN 28) (cW (cV 2) 6))) (cM (cN 8) (cW (cV 2) 8))))))))))).
Definition QST_e394 := (cD (cA (cM (cM (cV 2) (cA (cN (-9)) (cM (cN 2) (cV 2)))) (cR (cM (cM (cM (cM (cM (cM (cA (cN 1) (cD (cB (cV 1) (cN 1)) (cN 2))) (cV 2)) (cA (cN 1) (cV 2))) (cA (cN 2) (cV 2))) (cA (cN (-1)) (cM (cN 2) (cV 2)))) (cA (cN 1) (cM (cN 2) (cV 2)))) (cA (cN 5) (cM (cN 2) (cV 2)))))) (cM (cN 2) (cA (cM (cN 5) (cR (cM (cM (cM (cM (cM (cM (cA (cN 1) (cD (cB (cV 1) (cN 1)) (cN 2))) (cV 2)) (cA (cN 1) (cV 2))) (cA (cN 2) (cV 2))) (cA (cN (-1)) (cM (cN 2) (cV 2)))) (cA (cN 1) (cM (cN 2) (cV 2)))) (cA (cN 5) (cM (cN 2) (cV 2)))))) (cM (cN 9) (cR (cM (cM (cM (cM (cM (cM (cA (cN 1) (cD (cB (cV 1) (cN 1)) (cN 2))) (cW (cV 2) 6)) (cA (cN 1) (cV 2))) (cA (cN 2) (cV 2))) (cA (cN (-1)) (cM (cN 2) (cV 2)))) (cA (cN 1) (cM (cN 2) (cV 2)))) (cA (cN 5) (cM (cN 2) (cV 2))))))))) (cM (cM (cM (cM (cM (cA (cN 1) (cM (cN 2) (cD (cB (cV 1) (cN 1)) (cN 2)))) (cA (cN 1) (cV 2))) (cA (cN 2) (cV 2))) (cA (cN 1) (cM (cN 2) (cV 2)))) (cR (cM (cM (cA (cN 1) (cD (cB (cV 1) (cN 1)) (cN 2))) (cA (cN 1) (cV 2))) (cA (cN 3) (cM (cN 2) (cV 2)))))) (cA (cN 5) (cM (cN 2) (cV 2))))).
Definition QST_e395 := (cO (cD (cR (cN 6)) (cR (cM (cM (cV 2) (cA (cN 1) (cV 2))) (cA (cN (-1)) (cM (cN 4) (cW (cV 2) 4))))))).
Definition QST_e396 := (cD (cM (cR (cN 3)) (cR (cA (cA (cB (cN (-1)) (cD (cN 2) (cV 2))) (cM (cN 8) (cV 2))) (cM (cN 4) (cW (cV 2) 4))))) (cA (cA (cN 1) (cM (cN 3) (cV 2))) (cM (cN 2) (cW (cV 2) 4)))).
Definition QST_e397 := (cD (cB (cA (cB (cB (cB (cA (cM (cN (-80)) (cR (cD (cM (cA (cN 3) (cM (cN 2) (cD (cB (cV 1) (cN 1)) (cN 2)))) (cV 2)) (cA (cN (-1)) (cM (cN 2) (cV 2)))))) (cM (cN 205) (cR (cD (cM (cA (cN 3) (cM (cN 2) (cD (cB (cV 1) (cN 1)) (cN 2)))) (cW (cV 2) 6)) (cA (cN (-1)) (cM (cN 2) (cV 2))))))) (cM (cN 88) (cR (cD (cM (cA (cN 3) (cM (cN 2) (cD (cB (cV 1) (cN 1)) (cN 2)))) (cW (cV 2) 10)) (cA (cN (-1)) (cM (cN 2) (cV 2))))))) (cM (cN 4) (cR (cD (cM (cA (cN 3) (cM (cN 2) (cD (cB (cV 1) (cN 1)) (cN 2)))) (cW (cV 2) 14)) (cA (cN (-1)) (cM (cN 2) (cV 2))))))) (cM (cN 110) (cR (cM (cM (cA (cN 3) (cM (cN 2) (cD (cB (cV 1) (cN 1)) (cN 2)))) (cV 2)) (cA (cN (-1)) (cM (cN 2) (cV 2))))))) (cM (cM (cM (cN 2) (cB (cN 9) (cM (cN 2) (cV 2)))) (cV 2)) (cR (cM (cM (cA (cN 3) (cM (cN 2) (cD (cB (cV 1) (cN 1)) (cN 2)))) (cV 2)) (cA (cN (-1)) (cM (cN 2) (cV 2))))))) (cM (cM (cN 2) (cD (cB (cV 1) (cN 1)) (cN 2))) (cA (cA (cA (cB (cM (cN 26) (cR (cD (cM (cA (cN 3) (cM (cN 2) (cD (cB (cV 1) (cN 1)) (cN 2)))) (cV 2)) (cA (cN (-1)) (cM (cN 2) (cV 2)))))) (cM (cN 61) (cR (cD (cM (cA (cN 3) (cM (cN 2) (cD (cB (cV 1) (cN 1)) (cN 2)))) (cW (cV 2) 6)) (cA (cN (-1)) (cM (cN 2) (cV 2))))))) (cM (cN 16) (cR (cD (cM (cA (cN 3) (cM (cN 2) (cD (cB (cV 1) (cN 1)) (cN 2)))) (cW (cV 2) 10)) (cA (cN (-1)) (cM (cN 2) (cV 2))))))) (cM (cN 4) (cR (cD (cM (cA (cN 3) (cM (cN 2) (cD (cB (cV 1) (cN 1)) (cN 2)))) (cW (cV 2) 14)) (cA (cN (-1)) (cM (cN 2) (cV 2))))))) (cM (cN 36) (cR (cM (cM (cA (cN 3) (cM (cN 2) (cD (cB (cV 1) (cN 1)) (cN 2)))) (cV 2)) (cA (cN (-1)) (cM (cN 2) (cV 2))))))))) (cM (cM (cW (cA (cN 3) (cM (cN 2) (cD (cB (cV 1) (cN 1)) (cN 2)))) 3) (cA (cN 1) (cV 2))) (cR (cM (cM (cM (cA (cN 2) (cV 2)) (cA (cN 1) (cM (cN 2) (cV 2)))) (cA (cN 3) (cM (cN 2) (cV 2)))) (cA (cN 5) (cM (cN 2) (cV 2))))))).
Definition QST_e398 := (cD (cN 3) (cM (cA (cN 1) (cM (cN 2) (cD (cB (cV 1) (cN 1)) (cN 2)))) (cA (cA (cN 1) (cM (cN 3) (cV 2))) (cM (cN 2) (cW (cV 2) 4))))).
Definition QST_e399 := (cO (cD (cM (cM (cR (cN 3)) (cA (cN 5) (cM (cN 2) (cV 2)))) (cR (cD (cV 2) (cA (cA (cA (cN 10) (cM (cN 29) (cV 2))) (cM (cN 20) (cW (cV 2) 4))) (cM (cN 4) (cW (cV 2) 6)))))) (cM (cA (cN 1) (cM (cN 2) (cD (cB (cV 1) (cN 1)) (cN 2)))) (cA (cN 1) (cV 2))))).
Definition QST_e400 := (cD (cR (cD (cM (cV 2) (cA (cN 3) (cV 2))) (cA (cA (cN 2) (cM (cN 3) (cV 2))) (cW (cV 2) 4)))) (cA (cN 1) (cM (cN 2) (cD (cB (cV 1) (cN 1)) (cN 2))))).
Definition QST_e401 := (cD (cN (-3)) (cA (cA (cN 1) (cM (cN 3) (cV 2))) (cM (cN 2) (cW (cV 2) 4)))).
Definition QST_e402 := (cD (cM (cR (cN 3)) (cA (cA (cA (cA (cA (cA (cA (cA (cM (cN 1800) (cR (cM (cM (cW (cV 2) 6) (cA (cN 2) (cV 2))) (cA (cN 5) (cM (cN 2) (cV 2)))))) (cM (cN 8340) (cR (cM (cM (cW (cV 2) 10) (cA (cN 2) (cV 2))) (cA (cN 5) (cM (cN 2) (cV 2))))))) (cM (cN 16658) (cR (cM (cM (cW (cV 2) 14) (cA (cN 2) (cV 2))) (cA (cN 5) (cM (cN 2) (cV 2))))))) (cM (cN 18759) (cR (cM (cM (cW (cV 2) 18) (cA (cN 2) (cV 2))) (cA (cN 5) (cM (cN 2) (cV 2))))))) (cM (cN 13041) (cR (cM (cM (cW (cV 2) 22) (cA (cN 2) (cV 2))) (cA (cN 5) (cM (cN 2) (cV 2))))))) (cM (cN 5736) (cR (cM (cM (cW (cV 2) 26) (cA (cN 2) (cV 2))) (cA (cN 5) (cM (cN 2) (cV 2))))))) (cM (cN 1560) (cR (cM (cM (cW (cV 2) 30) (cA (cN 2) (cV 2))) (cA (cN 5) (cM (cN 2) (cV 2))))))) (cM (cN 240) (cR (cM (cM (cW (cV 2) 34) (cA (cN 2) (cV 2))) (cA (cN 5) (cM (cN 2) (cV 2))))))) (cM (cN 16) (cR (cM (cM (cW (cV 2) 38) (cA (cN 2) (cV 2))) (cA (cN 5) (cM (cN 2) (cV 2)))))))) (cM (cM (cM (cM (cM (cV 2) (cW (cA (cN 1) (cV 2)) 4)) (cW (cA (cN 2) (cV 2)) 8)) (cR (cA (cN 1) (cM (cN 2) (cV 2))))) (cW (cA (cN 3) (cM (cN 2) (cV 2))) 4)) (cW (cA (cN 5) (cM (cN 2) (cV 2))) 4))).
Definition QST_e403 := (cO (cR (cD (cM (cV 2) (cA (cN 3) (cV 2))) (cA (cA (cN 2) (cM (cN 3) (cV 2))) (cW (cV 2) 4))))).
Definition QST_e404 := (cD (cR (cN 6)) (cM (cA (cN 1) (cM (cN 2) (cD (cB (cV 1) (cN 1)) (cN 2)))) (cR (cM (cM (cM (cA (cN 1) (cV 2)) (cA (cN 2) (cV 2))) (cA (cN 1) (cM (cN 2) (cV 2)))) (cA (cN 3) (cM (cN 2) (cV 2))))))).
Definition QST_e405 := (cD (cM (cR (cN 2)) (cB (cA (cA (cA (cM (cM (cN 300) (cD (cB (cV 1) (cN 1)) (cN 2))) (cR (cD (cM (cA (cN 1) (cD (cB (cV 1) (cN 1)) (cN 2))) (cA (cN 1) (cM (cN 2) (cV 2)))) (cM (cM (cM (cA (cN 1) (cM (cN 2) (cD (cB (cV 1) (cN 1)) (cN 2)))) (cA (cN 2) (cV 2))) (cA (cN 3) (cV 2))) (cA (cN 5) (cM (cN 2) (cV 2))))))) (cM (cM (cN 2) (cW (cV 2) 6)) (cA (cM (cM (cN 2) (cD (cB (cV 1) (cN 1)) (cN 2))) (cR (cD (cM (cA (cN 1) (cD (cB (cV 1) (cN 1)) (cN 2))) (cA (cN 1) (cM (cN 2) (cV 2)))) (cM (cM (cM (cA (cN 1) (cM (cN 2) (cD (cB (cV 1) (cN 1)) (cN 2)))) (cA (cN 2) (cV 2))) (cA (cN 3) (cV 2))) (cA (cN 5) (cM (cN 2) (cV 2))))))) (cR (cD (cM (cM (cM (cA (cN 1) (cD (cB (cV 1) (cN 1)) (cN 2))) (cA (cN 1) (cM (cN 2) (cD (cB (cV 1) (cN 1)) (cN 2))))) (cA (cN 1) (cM (cN 2) (cV 2)))) (cA (cN 5) (cM (cN 2) (cV 2)))) (cM (cA (cN 2) (cV 2)) (cA (cN 3) (cV 2)))))))) (cM (cV 2) (cB (cA (cB (cA (cM (cN 150) (cR (cD (cM (cA (cN 1) (cD (cB (cV 1) (cN 1)) (cN 2))) (cA (cN 1) (cM (cN 2) (cD (cB (cV 1) (cN 1)) (cN 2))))) (cM (cM (cM (cA (cN 2) (cV 2)) (cA (cN 3) (cV 2))) (cA (cN 1) (cM (cN 2) (cV 2)))) (cA (cN 5) (cM (cN 2) (cV 2))))))) (cM (cM (cN 190) (cD (cB (cV 1) (cN 1)) (cN 2))) (cR (cD (cM (cA (cN 1) (cD (cB (cV 1) (cN 1)) (cN 2))) (cA (cN 1) (cM (cN 2) (cV 2)))) (cM (cM (cM (cA (cN 1) (cM (cN 2) (cD (cB (cV 1) (cN 1)) (cN 2)))) (cA (cN 2) (cV 2))) (cA (cN 3) (cV 2))) (cA (cN 5) (cM (cN 2) (cV 2)))))))) (cM (cM (cN 60) (cD (cB (cV 1) (cN 1)) (cN 2))) (cR (cD (cM (cA (cN 1) (cD (cB (cV 1) (cN 1)) (cN 2))) (cA (cN 5) (cM (cN 2) (cV 2)))) (cM (cM (cM (cA (cN 1) (cM (cN 2) (cD (cB (cV 1) (cN 1)) (cN 2)))) (cA (cN 2) (cV 2))) (cA (cN 3) (cV 2))) (cA (cN 1) (cM (cN 2) (cV 2)))))))) (cM (cN 6) (cR (cD (cM (cM (cM (cA (cN 1) (cD (cB (cV 1) (cN 1)) (cN 2))) (cA (cN 1) (cM (cN 2) (cD (cB (cV 1) (cN 1)) (cN 2))))) (cA (cN 1) (cM (cN 2) (cV 2)))) (cA (cN 5) (cM (cN 2) (cV 2)))) (cM (cA (cN 2) (cV 2)) (cA (cN 3) (cV 2))))))) (cM (cN 5) (cR (cD (cM (cM (cM (cM (cA (cN 1) (cD (cB (cV 1) (cN 1)) (cN 2))) (cA (cN 1) (cM (cN 2) (cD (cB (cV 1) (cN 1)) (cN 2))))) (cA (cN 2) (cV 2))) (cA (cN 1) (cM (cN 2) (cV 2)))) (cA (cN 5) (cM (cN 2) (cV 2)))) (cA (cN 3) (cV 2)))))))) (cM (cW (cV 2) 4) (cB (cA (cA (cM (cN 60) (cR (cD (cM (cA (cN 1) (cD (cB (cV 1) (cN 1)) (cN 2))) (cA (cN 1) (cM (cN 2) (cD (cB (cV 1) (cN 1)) (cN 2))))) (cM (cM (cM (cA (cN 2) (cV 2)) (cA (cN 3) (cV 2))) (cA (cN 1) (cM (cN 2) (cV 2)))) (cA (cN 5) (cM (cN 2) (cV 2))))))) (cM (cM (cN 38) (cD (cB (cV 1) (cN 1)) (cN 2))) (cR (cD (cM (cA (cN 1) (cD (cB (cV 1) (cN 1)) (cN 2))) (cA (cN 1) (cM (cN 2) (cV 2)))) (cM (cM (cM (cA (cN 1) (cM (cN 2) (cD (cB (cV 1) (cN 1)) (cN 2)))) (cA (cN 2) (cV 2))) (cA (cN 3) (cV 2))) (cA (cN 5) (cM (cN 2) (cV 2)))))))) (cM (cN 8) (cR (cD (cM (cM (cM (cA (cN 1) (cD (cB (cV 1) (cN 1)) (cN 2))) (cA (cN 1) (cM (cN 2) (cD (cB (cV 1) (cN 1)) (cN 2))))) (cA (cN 1) (cM (cN 2) (cV 2)))) (cA (cN 5) (cM (cN 2) (cV 2)))) (cM (cA (cN 2) (cV 2)) (cA (cN 3) (cV 2))))))) (cM (cN 2) (cR (cD (cM (cM (cM (cM (cA (cN 1) (cD (cB (cV 1) (cN 1)) (cN 2))) (cA (cN 1) (cM (cN 2) (cD (cB (cV 1) (cN 1)) (cN 2))))) (cA (cN 2) (cV 2))) (cA (cN 1) (cM (cN 2) (cV 2)))) (cA (cN 5) (cM (cN 2) (cV 2)))) (cA (cN 3) (cV 2)))))))) (cM (cN 3) (cA (cM (cN 8) (cR (cD (cM (cM (cM (cA (cN 1) (cD (cB (cV 1) (cN 1)) (cN 2))) (cA (cN 1) (cM (cN 2) (cD (cB (cV 1) (cN 1)) (cN 2))))) (cA (cN 1) (cM (cN 2) (cV 2)))) (cA (cN 5) (cM (cN 2) (cV 2)))) (cM (cA (cN 2) (cV 2)) (cA (cN 3) (cV 2)))))) (cR (cD (cM (cM (cM (cM (cA (cN 1) (cD (cB (cV 1) (cN 1)) (cN 2))) (cA (cN 1) (cM (cN 2) (cD (cB (cV 1) (cN 1)) (cN 2))))) (cA (cN 2) (cV 2))) (cA (cN 1) (cM (cN 2) (cV 2)))) (cA (cN 5) (cM (cN 2) (cV 2)))) (cA (cN 3) (cV 2)))))))) (cR (cD (cM (cM (cM (cM (cM (cA (cN 1) (cD (cB (cV 1) (cN 1)) (cN 2))) (cA (cN 1) (cM (cN 2) (cD (cB (cV 1) (cN 1)) (cN 2))))) (cA (cN 1) (cV 2))) (cW (cA (cN 2) (cV 2)) 4)) (cA (cN 3) (cV 2))) (cW (cA (cN 5) (cM (cN 2) (cV 2))) 6)) (cA (cN 1) (cM (cN 2) (cV 2)))))).
Definition QST_e406 := (cD (cA (cM (cN 30) (cB (cA (cA (cM (cM (cN (-40)) (cD (cB (cV 1) (cN 1)) (cN 2))) (cR (cD (cM (cA (cN 1) (cD (cB (cV 1) (cN 1)) (cN 2))) (cA (cN 1) (cM (cN 2) (cV 2)))) (cM (cM (cM (cA (cN 1) (cM (cN 2) (cD (cB (cV 1) (cN 1)) (cN 2)))) (cA (cN 3) (cV 2))) (cA (cN 5) (cM (cN 2) (cV 2)))) (cA (cN 7) (cM (cN 2) (cV 2))))))) (cM (cN 3) (cR (cD (cM (cM (cA (cN 1) (cD (cB (cV 1) (cN 1)) (cN 2))) (cA (cN 1) (cM (cN 2) (cD (cB (cV 1) (cN 1)) (cN 2))))) (cA (cN 5) (cM (cN 2) (cV 2)))) (cM (cM (cA (cN 3) (cV 2)) (cA (cN 1) (cM (cN 2) (cV 2)))) (cA (cN 7) (cM (cN 2) (cV 2)))))))) (cM (cN 4) (cR (cD (cM (cM (cM (cA (cN 1) (cD (cB (cV 1) (cN 1)) (cN 2))) (cA (cN 1) (cM (cN 2) (cD (cB (cV 1) (cN 1)) (cN 2))))) (cA (cN 1) (cM (cN 2) (cV 2)))) (cA (cN 5) (cM (cN 2) (cV 2)))) (cM (cA (cN 3) (cV 2)) (cA (cN 7) (cM (cN 2) (cV 2)))))))) (cM (cM (cN 6) (cD (cB (cV 1) (cN 1)) (cN 2))) (cR (cD (cM (cA (cN 1) (cD (cB (cV 1) (cN 1)) (cN 2))) (cA (cN 5) (cM (cN 2) (cV 2)))) (cM (cA (cN 1) (cM (cN 2) (cD (cB (cV 1) (cN 1)) (cN 2)))) (cA (cA (cA (cN 21) (cM (cN 55) (cV 2))) (cM (cN 28) (cW (cV 2) 4))) (cM (cN 4) (cW (cV 2) 6))))))))) (cM (cV 2) (cA (cA (cM (cM (cN (-1270)) (cD (cB (cV 1) (cN 1)) (cN 2))) (cR (cD (cM (cA (cN 1) (cD (cB (cV 1) (cN 1)) (cN 2))) (cA (cN 1) (cM (cN 2) (cV 2)))) (cM (cM (cM (cA (cN 1) (cM (cN 2) (cD (cB (cV 1) (cN 1)) (cN 2)))) (cA (cN 3) (cV 2))) (cA (cN 5) (cM (cN 2) (cV 2)))) (cA (cN 7) (cM (cN 2) (cV 2))))))) (cM (cN 79) (cR (cD (cM (cM (cM (cA (cN 1) (cD (cB (cV 1) (cN 1)) (cN 2))) (cA (cN 1) (cM (cN 2) (cD (cB (cV 1) (cN 1)) (cN 2))))) (cA (cN 1) (cM (cN 2) (cV 2)))) (cA (cN 5) (cM (cN 2) (cV 2)))) (cM (cA (cN 3) (cV 2)) (cA (cN 7) (cM (cN 2) (cV 2)))))))) (cM (cV 2) (cA (cA (cM (cM (cN (-526)) (cD (cB (cV 1) (cN 1)) (cN 2))) (cR (cD (cM (cA (cN 1) (cD (cB (cV 1) (cN 1)) (cN 2))) (cA (cN 1) (cM (cN 2) (cV 2)))) (cM (cM (cM (cA (cN 1) (cM (cN 2) (cD (cB (cV 1) (cN 1)) (cN 2)))) (cA (cN 3) (cV 2))) (cA (cN 5) (cM (cN 2) (cV 2)))) (cA (cN 7) (cM (cN 2) (cV 2))))))) (cM (cN 21) (cR (cD (cM (cM (cM (cA (cN 1) (cD (cB (cV 1) (cN 1)) (cN 2))) (cA (cN 1) (cM (cN 2) (cD (cB (cV 1) (cN 1)) (cN 2))))) (cA (cN 1) (cM (cN 2) (cV 2)))) (cA (cN 5) (cM (cN 2) (cV 2)))) (cM (cA (cN 3) (cV 2)) (cA (cN 7) (cM (cN 2) (cV 2)))))))) (cM (cM (cN 2) (cV 2)) (cA (cM (cM (cM (cN (-4)) (cD (cB (cV 1) (cN 1)) (cN 2))) (cA (cN 13) (cV 2))) (cR (cD (cM (cA (cN 1) (cD (cB (cV 1) (cN 1)) (cN 2))) (cA (cN 1) (cM (cN 2) (cV 2)))) (cM (cM (cM (cA (cN 1) (cM (cN 2) (cD (cB (cV 1) (cN 1)) (cN 2)))) (cA (cN 3) (cV 2))) (cA (cN 5) (cM (cN 2) (cV 2)))) (cA (cN 7) (cM (cN 2) (cV 2))))))) (cR (cD (cM (cM (cM (cA (cN 1) (cD (cB (cV 1) (cN 1)) (cN 2))) (cA (cN 1) (cM (cN 2) (cD (cB (cV 1) (cN 1)) (cN 2))))) (cA (cN 1) (cM (cN 2) (cV 2)))) (cA (cN 5) (cM (cN 2) (cV 2)))) (cM (cA (cN 3) (cV 2)) (cA (cN 7) (cM (cN 2) (cV 2))))))))))))) (cR (cD (cM (cM (cM (cM (cM (cA (cN 1) (cD (cB (cV 1) (cN 1)) (cN 2))) (cA (cN 1) (cM (cN 2) (cD (cB (cV 1) (cN 1)) (cN 2))))) (cW (cA (cN 2) (cV 2)) 4)) (cA (cN 3) (cV 2))) (cW (cA (cN 5) (cM (cN 2) (cV 2))) 6)) (cA (cN 7) (cM (cN 2) (cV 2)))) (cA (cN 1) (cM (cN 2) (cV 2)))))).
Definition QST_e407 := (cO (cD (cR (cN 6)) (cR (cM (cM (cM (cA (cN 1) (cV 2)) (cA (cN 2) (cV 2))) (cA (cN 1) (cM (cN 2) (cV 2)))) (cA (cN 3) (cM (cN 2) (cV 2))))))).
Definition QST_e408 := (cD (cM (cR (cN 2)) (cA (cM (cN 15) (cA (cM (cN 3) (cR (cD (cA (cN 1) (cD (cB (cV 1) (cN 1)) (cN 2))) (cA (cN 3) (cM (cN 2) (cV 2)))))) (cR (cM (cA (cN 1) (cD (cB (cV 1) (cN 1)) (cN 2))) (cA (cN 3) (cM (cN 2) (cV 2))))))) (cM (cV 2) (cA (cM (cN 3) (cB (cM (cN 65) (cR (cD (cA (cN 1) (cD (cB (cV 1) (cN 1)) (cN 2))) (cA (cN 3) (cM (cN 2) (cV 2)))))) (cM (cN 6) (cR (cM (cA (cN 1) (cD (cB (cV 1) (cN 1)) (cN 2))) (cA (cN 3) (cM (cN 2) (cV 2)))))))) (cM (cV 2) (cA (cM (cN 5) (cB (cM (cN 58) (cR (cD (cA (cN 1) (cD (cB (cV 1) (cN 1)) (cN 2))) (cA (cN 3) (cM (cN 2) (cV 2)))))) (cM (cN 9) (cR (cM (cA (cN 1) (cD (cB (cV 1) (cN 1)) (cN 2))) (cA (cN 3) (cM (cN 2) (cV 2)))))))) (cM (cM (cN 2) (cV 2)) (cB (cA (cM (cN 90) (cR (cD (cA (cN 1) (cD (cB (cV 1) (cN 1)) (cN 2))) (cA (cN 3) (cM (cN 2) (cV 2)))))) (cM (cM (cN 20) (cV 2)) (cR (cD (cA (cN 1) (cD (cB (cV 1) (cN 1)) (cN 2))) (cA (cN 3) (cM (cN 2) (cV 2))))))) (cM (cN 9) (cR (cM (cA (cN 1) (cD (cB (cV 1) (cN 1)) (cN 2))) (cA (cN 3) (cM (cN 2) (cV 2)))))))))))))) (cM (cM (cM (cW (cA (cN 2) (cV 2)) 3) (cA (cN 3) (cV 2))) (cR (cM (cM (cA (cN 1) (cD (cB (cV 1) (cN 1)) (cN 2))) (cA (cN 1) (cV 2))) (cA (cN 3) (cM (cN 2) (cV 2)))))) (cA (cN 5) (cM (cN 2) (cV 2))))).
Definition QST_e409 := (cM (cN (-2)) (cR (cD (cM (cD (cB (cV 1) (cN 1)) (cN 2)) (cA (cN 2) (cD (cB (cV 1) (cN 1)) (cN 2)))) (cA (cN 3) (cM (cM (cN 4) (cD (cB (cV 1) (cN 1)) (cN 2))) (cA (cN 2) (cD (cB (cV 1) (cN 1)) (cN 2)))))))).
Definition QST_e410 := (cD (cR (cN 3)) (cR (cA (cN 3) (cM (cM (cN 4) (cD (cB (cV 1) (cN 1)) (cN 2))) (cA (cN 2) (cD (cB (cV 1) (cN 1)) (cN 2))))))).
Definition QST_e411 := (cO (cD (cR (cA (cN (-3)) (cM (cM (cN 4) (cV 2)) (cA (cN 1) (cV 2))))) (cM (cA (cN 1) (cM (cN 2) (cD (cB (cV 1) (cN 1)) (cN 2)))) (cA (cN 1) (cM (cN 2) (cV 2)))))).
Definition QST_e412 := (cD (cR (cA (cN 1) (cD (cN 2) (cA (cN 1) (cM (cN 2) (cV 2)))))) (cM (cA (cN 1) (cM (cN 2) (cD (cB (cV 1) (cN 1)) (cN 2)))) (cA (cN 1) (cV 2)))).
Definition QST_e413 := (cO (cD (cN 1) (cA (cA (cN 1) (cM (cN 3) (cV 2))) (cM (cN 2) (cW (cV 2) 4))))).
Definition QST_e414 := (cO (cD (cN 1) (cM (cA (cN 1) (cM (cN 2) (cD (cB (cV 1) (cN 1)) (cN 2)))) (cA (cA (cN 1) (cM (cN 3) (cV 2))) (cM (cN 2) (cW (cV 2) 4)))))).
Definition QST_e415 := (cD (cM (cM (cA (cN 1) (cM (cN 2) (cD (cB (cV 1) (cN 1)) (cN 2)))) (cR (cA (cN 3) (cM (cN 2) (cV 2))))) (cB (cB (cA (cM (cM (cN 2) (cV 2)) (cR (cD (cM (cM (cD (cB (cV 1) (cN 1)) (cN 2)) (cW (cA (cN 1) (cD (cB (cV 1) (cN 1)) (cN 2))) 6)) (cW (cA (cV 2) (cW (cV 2) 4)) 6)) (cM (cW (cA (cN 1) (cM (cN 2) (cD (cB (cV 1) (cN 1)) (cN 2)))) 8) (cA (cN 1) (cM (cN 2) (cV 2))))))) (cM (cM (cN 2) (cV 2)) (cR (cD (cM (cM (cD (cB (cV 1) (cN 1)) (cN 2)) (cW (cA (cN 1) (cD (cB (cV 1) (cN 1)) (cN 2))) 6)) (cW (cA (cV 2) (cW (cV 2) 4)) 6)) (cM (cW (cA (cN 1) (cM (cN 2) (cD (cB (cV 1) (cN 1)) (cN 2)))) 4) (cA (cN 1) (cM (cN 2) (cV 2)))))))) (cD (cM (cM (cM (cM (cA (cN 1) (cD (cB (cV 1) (cN 1)) (cN 2))) (cV 2)) (cW (cA (cN 1) (cV 2)) 4)) (cA (cN (-1)) (cM (cN 2) (cV 2)))) (cR (cD (cM (cM (cD (cB (cV 1) (cN 1)) (cN 2)) (cA (cN 1) (cD (cB (cV 1) (cN 1)) (cN 2)))) (cV 2)) (cA (cA (cN 1) (cM (cN 3) (cV 2))) (cM (cN 2) (cW (cV 2) 4)))))) (cW (cA (cN 1) (cM (cN 2) (cD (cB (cV 1) (cN 1)) (cN 2)))) 4))) (cD (cM (cM (cM (cM (cA (cN 1) (cD (cB (cV 1) (cN 1)) (cN 2))) (cV 2)) (cW (cA (cN 1) (cV 2)) 4)) (cA (cN (-1)) (cM (cN 2) (cV 2)))) (cR (cD (cM (cM (cD (cB (cV 1) (cN 1)) (cN 2)) (cA (cN 1) (cD (cB (cV 1) (cN 1)) (cN 2)))) (cV 2)) (cA (cA (cN 1) (cM (cN 3) (cV 2))) (cM (cN 2) (cW (cV 2) 4)))))) (cA (cN 1) (cM (cN 2) (cD (cB (cV 1) (cN 1)) (cN 2))))))) (cM (cM (cW (cA (cN 1) (cD (cB (cV 1) (cN 1)) (cN 2))) 4) (cW (cV 2) 3)) (cW (cA (cN 1) (cV 2)) 5))).
Definition QST_e416 := (cD (cM (cN (-2)) (cR (cM (cD (cB (cV 1) (cN 1)) (cN 2)) (cA (cN 1) (cD (cB (cV 1) (cN 1)) (cN 2)))))) (cM (cA (cN 1) (cM (cN 2) (cD (cB (cV 1) (cN 1)) (cN 2)))) (cA (cA (cN 1) (cM (cN 3) (cV 2))) (cM (cN 2) (cW (cV 2) 4))))).
Definition QST_e417 := (cD (cM (cM (cM (cA (cN 2) (cV 2)) (cA (cN (-1)) (cM (cN 2) (cV 2)))) (cA (cN 5) (cM (cN 2) (cV 2)))) (cR (cD (cV 2) (cA (cA (cA (cA (cB (cN (-30)) (cM (cN 47) (cV 2))) (cM (cN 96) (cW (cV 2) 4))) (cM (cN 184) (cW (cV 2) 6))) (cM (cN 96) (cW (cV 2) 8))) (cM (cN 16) (cW (cV 2) 10)))))) (cA (cN 1) (cV 2))).
Definition QST_e418 := (cO (cD (cM (cM (cR (cN 3)) (cV 2)) (cA (cN 5) (cM (cN 2) (cV 2)))) (cM (cA (cN 1) (cV 2)) (cR (cM (cM (cM (cV 2) (cA (cN 2) (cV 2))) (cA (cN 1) (cM (cN 2) (cV 2)))) (cA (cN 5) (cM (cN 2) (cV 2)))))))).
Definition QST_e419 := (cR (cD (cM (cV 2) (cA (cN 3) (cV 2))) (cA (cA (cN 2) (cM (cN 3) (cV 2))) (cW (cV 2) 4)))).
Definition QST_e420 := (cR (cD (cA (cN (-3)) (cM (cM (cN 4) (cV 2)) (cA (cN 1) (cV 2)))) (cM (cM (cD (cB (cV 1) (cN 1)) (cN 2)) (cA (cN 1) (cM (cN 2) (cD (cB (cV 1) (cN 1)) (cN 2))))) (cW (cA (cN 1) (cM (cN 2) (cV 2))) 4)))).
Definition QST_e421 := (cO (cD (cR (cD (cA (cN 3) (cM (cN 2) (cV 2))) (cM (cA (cD (cB (cV 1) (cN 1)) (cN 2)) (cM (cN 2) (cW (cD (cB (cV 1) (cN 1)) (cN 2)) 4))) (cA (cN 1) (cM (cN 2) (cV 2)))))) (cA (cN 1) (cV 2)))).
Definition QST_e422 := (cD (cR (cD (cM (cV 2) (cA (cN 2) (cV 2))) (cM (cD (cB (cV 1) (cN 1)) (cN 2)) (cA (cN 1) (cM (cN 2) (cD (cB (cV 1) (cN 1)) (cN 2))))))) (cA (cN 1) (cV 2))).
Definition QST_e423 := (cD (cN 1) (cM (cR (cM (cD (cB (cV 1) (cN 1)) (cN 2)) (cA (cN 1) (cM (cN 2) (cD (cB (cV 1) (cN 1)) (cN 2)))))) (cA (cA (cN 1) (cM (cN 3) (cV 2))) (cM (cN 2) (cW (cV 2) 4))))).
Definition QST_e424 := (cM (cR (cD (cM (cA (cN 1) (cV 2)) (cA (cN 3) (cM (cN 2) (cV 2)))) (cM (cM (cA (cN 1) (cD (cB (cV 1) (cN 1)) (cN 2))) (cV 2)) (cA (cN 1) (cM (cN 2) (cV 2)))))) (cA (cB (cR (cD (cM (cM (cB (cN 2) (cD (cN 1) (cD (cB (cV 1) (cN 1)) (cN 2)))) (cV 2)) (cA (cN (-1)) (cM (cN 2) (cV 2)))) (cM (cA (cN 1) (cM (cN 2) (cD (cB (cV 1) (cN 1)) (cN 2)))) (cA (cA (cN 1) (cM (cN 3) (cV 2))) (cM (cN 2) (cW (cV 2) 4)))))) (cR (cD (cM (cM (cD (cB (cV 1) (cN 1)) (cN 2)) (cV 2)) (cA (cN (-1)) (cM (cN 2) (cV 2)))) (cM (cA (cN (-1)) (cM (cN 4) (cW (cD (cB (cV 1) (cN 1)) (cN 2)) 4))) (cA (cA (cN 1) (cM (cN 3) (cV 2))) (cM (cN 2) (cW (cV 2) 4))))))) (cM (cM (cN 2) (cD (cB (cV 1) (cN 1)) (cN 2))) (cR (cD (cM (cM (cD (cB (cV 1) (cN 1)) (cN 2)) (cV 2)) (cA (cN (-1)) (cM (cN 2) (cV 2)))) (cM (cA (cN (-1)) (cM (cN 4) (cW (cD (cB (cV 1) (cN 1)) (cN 2)) 4))) (cA (cA (cN 1) (cM (cN 3) (cV 2))) (cM (cN 2) (cW (cV 2) 4))))))))).
Definition QST_e425 := (cR (cD (cA (cN (-3)) (cM (cM (cN 4) (cV 2)) (cA (cN 1) (cV 2)))) (cM (cM (cA (cN 1) (cD (cB (cV 1) (cN 1)) (cN 2))) (cA (cN 1) (cM (cN 2) (cD (cB (cV 1) (cN 1)) (cN 2))))) (cW (cA (cN 1) (cM (cN 2) (cV 2))) 4)))).
Definition QST_e426 := (cD (cM (cR (cA (cN 3) (cM (cN 2) (cV 2)))) (cA (cA (cB (cB (cA (cM (cM (cN (-2)) (cV 2)) (cR (cD (cM (cM (cM (cW (cD (cB (cV 1) (cN 1)) (cN 2)) 10) (cA (cN 1) (cD (cB (cV 1) (cN 1)) (cN 2)))) (cV 2)) (cA (cN 1) (cV 2))) (cM (cA (cN (-1)) (cM (cN 4) (cW (cD (cB (cV 1) (cN 1)) (cN 2)) 4))) (cA (cN 1) (cM (cN 2) (cV 2))))))) (cR (cD (cM (cM (cM (cW (cD (cB (cV 1) (cN 1)) (cN 2)) 6) (cA (cN 1) (cD (cB (cV 1) (cN 1)) (cN 2)))) (cW (cV 2) 6)) (cA (cN 1) (cV 2))) (cM (cA (cN (-1)) (cM (cN 4) (cW (cD (cB (cV 1) (cN 1)) (cN 2)) 4))) (cA (cN 1) (cM (cN 2) (cV 2))))))) (cM (cN 2) (cR (cD (cM (cM (cM (cD (cB (cV 1) (cN 1)) (cN 2)) (cA (cA (cN (-1)) (cD (cB (cV 1) (cN 1)) (cN 2))) (cM (cN 2) (cW (cD (cB (cV 1) (cN 1)) (cN 2)) 4)))) (cW (cV 2) 10)) (cA (cN 1) (cV 2))) (cM (cA (cN 1) (cM (cN 2) (cD (cB (cV 1) (cN 1)) (cN 2)))) (cA (cN 1) (cM (cN 2) (cV 2)))))))) (cR (cD (cM (cM (cD (cB (cV 1) (cN 1)) (cN 2)) (cA (cA (cN (-1)) (cD (cB (cV 1) (cN 1)) (cN 2))) (cM (cN 2) (cW (cD (cB (cV 1) (cN 1)) (cN 2)) 4)))) (cW (cV 2) 6)) (cM (cA (cN 1) (cM (cN 2) (cD (cB (cV 1) (cN 1)) (cN 2)))) (cA (cA (cN 1) (cM (cN 3) (cV 2))) (cM (cN 2) (cW (cV 2) 4))))))) (cR (cD (cM (cM (cD (cB (cV 1) (cN 1)) (cN 2)) (cA (cA (cN (-1)) (cD (cB (cV 1) (cN 1)) (cN 2))) (cM (cN 2) (cW (cD (cB (cV 1) (cN 1)) (cN 2)) 4)))) (cW (cV 2) 10)) (cM (cA (cN 1) (cM (cN 2) (cD (cB (cV 1) (cN 1)) (cN 2)))) (cA (cA (cN 1) (cM (cN 3) (cV 2))) (cM (cN 2) (cW (cV 2) 4))))))) (cM (cN 2) (cR (cD (cM (cM (cD (cB (cV 1) (cN 1)) (cN 2)) (cA (cA (cN (-1)) (cD (cB (cV 1) (cN 1)) (cN 2))) (cM (cN 2) (cW (cD (cB (cV 1) (cN 1)) (cN 2)) 4)))) (cW (cV 2) 14)) (cM (cA (cN 1) (cM (cN 2) (cD (cB (cV 1) (cN 1)) (cN 2)))) (cA (cA (cN 1) (cM (cN 3) (cV 2))) (cM (cN 2) (cW (cV 2) 4))))))))) (cM (cM (cD (cB (cV 1) (cN 1)) (cN 2)) (cA (cN 1) (cD (cB (cV 1) (cN 1)) (cN 2)))) (cW (cM (cV 2) (cA (cN 1) (cV 2))) 3))).
Definition QST_e427 := (cD (cA (cM (cM (cA (cN (-1)) (cV 2)) (cV 2)) (cA (cM (cM (cD (cB (cV 1) (cN 1)) (cN 2)) (cA (cN (-1)) (cM (cN 2) (cD (cB (cV 1) (cN 1)) (cN 2))))) (cR (cM (cM (cM (cM (cM (cD (cB (cV 1) (cN 1)) (cN 2)) (cW (cA (cN 1) (cD (cB (cV 1) (cN 1)) (cN 2))) 6)) (cA (cN 1) (cM (cN 2) (cD (cB (cV 1) (cN 1)) (cN 2))))) (cV 2)) (cW (cA (cN 1) (cV 2)) 8)) (cA (cN 2) (cV 2))))) (cR (cM (cM (cM (cM (cM (cM (cW (cB (cN 1) (cM (cN 2) (cD (cB (cV 1) (cN 1)) (cN 2)))) 4) (cD (cB (cV 1) (cN 1)) (cN 2))) (cW (cA (cN 1) (cD (cB (cV 1) (cN 1)) (cN 2))) 6)) (cA (cN 1) (cM (cN 2) (cD (cB (cV 1) (cN 1)) (cN 2))))) (cV 2)) (cW (cA (cN 1) (cV 2)) 8)) (cA (cN 2) (cV 2)))))) (cM (cN 3) (cA (cM (cM (cD (cB (cV 1) (cN 1)) (cN 2)) (cA (cN (-1)) (cM (cN 2) (cD (cB (cV 1) (cN 1)) (cN 2))))) (cR (cM (cM (cM (cM (cM (cD (cB (cV 1) (cN 1)) (cN 2)) (cW (cA (cN 1) (cD (cB (cV 1) (cN 1)) (cN 2))) 6)) (cA (cN 1) (cM (cN 2) (cD (cB (cV 1) (cN 1)) (cN 2))))) (cW (cV 2) 6)) (cW (cA (cN 1) (cV 2)) 8)) (cA (cN 2) (cV 2))))) (cR (cM (cM (cM (cM (cM (cM (cW (cB (cN 1) (cM (cN 2) (cD (cB (cV 1) (cN 1)) (cN 2)))) 4) (cD (cB (cV 1) (cN 1)) (cN 2))) (cW (cA (cN 1) (cD (cB (cV 1) (cN 1)) (cN 2))) 6)) (cA (cN 1) (cM (cN 2) (cD (cB (cV 1) (cN 1)) (cN 2))))) (cW (cV 2) 6)) (cW (cA (cN 1) (cV 2)) 8)) (cA (cN 2) (cV 2))))))) (cM (cM (cM (cM (cM (cM (cD (cB (cV 1) (cN 1)) (cN 2)) (cW (cA (cN 1) (cD (cB (cV 1) (cN 1)) (cN 2))) 4)) (cR (cA (cN (-1)) (cM (cN 2) (cD (cB (cV 1) (cN 1)) (cN 2)))))) (cA (cN 1) (cM (cN 2) (cD (cB (cV 1) (cN 1)) (cN 2))))) (cV 2)) (cW (cA (cN 1) (cV 2)) 6)) (cA (cN 2) (cV 2)))).
Definition QST_e428 := (cO (cD (cN 1) (cM (cA (cN 1) (cV 2)) (cR (cD (cM (cM (cA (cN 1) (cD (cB (cV 1) (cN 1)) (cN 2))) (cA (cN 1) (cM (cN 2) (cD (cB (cV 1) (cN 1)) (cN 2))))) (cA (cN 1) (cM (cN 2) (cV 2)))) (cA (cN 3) (cM (cN 2) (cV 2)))))))).
Definition QST_e429 := (cD (cA (cM (cN 2) (cR (cM (cV 2) (cA (cN 3) (cM (cN 2) (cV 2)))))) (cR (cM (cW (cV 2) 6) (cA (cN 3) (cM (cN 2) (cV 2)))))) (cM (cA (cN 1) (cV 2)) (cR (cM (cM (cM (cA (cN 1) (cD (cB (cV 1) (cN 1)) (cN 2))) (cA (cN 1) (cM (cN 2) (cD (cB (cV 1) (cN 1)) (cN 2))))) (cA (cN 2) (cV 2))) (cA (cN 3) (cM (cN 2) (cV 2))))))).
Definition QST_e430 := (cD (cA (cA (cN (-1)) (cD (cB (cV 1) (cN 1)) (cN 2))) (cM (cN 2) (cW (cD (cB (cV 1) (cN 1)) (cN 2)) 4))) (cM (cM (cR (cM (cM (cM (cD (cB (cV 1) (cN 1)) (cN 2)) (cA (cN 1) (cD (cB (cV 1) (cN 1)) (cN 2)))) (cA (cN (-1)) (cM (cN 2) (cD (cB (cV 1) (cN 1)) (cN 2))))) (cA (cN 1) (cM (cN 2) (cD (cB (cV 1) (cN 1)) (cN 2)))))) (cA (cN 1) (cV 2))) (cA (cN 1) (cM (cN 2) (cV 2))))).
Definition QST_e431 := (cO (cD (cM (cA (cN 1) (cD (cB (cV 1) (cN 1)) (cN 2))) (cA (cN (-1)) (cM (cN 2) (cD (cB (cV 1) (cN 1)) (cN 2))))) (cM (cR (cM (cM (cM (cD (cB (cV 1) (cN 1)) (cN 2)) (cA (cN 1) (cD (cB (cV 1) (cN 1)) (cN 2)))) (cA (cN (-1)) (cM (cN 2) (cD (cB (cV 1) (cN 1)) (cN 2))))) (cA (cN 1) (cM (cN 2) (cD (cB (cV 1) (cN 1)) (cN 2)))))) (cA (cN 1) (cV 2))))).
Definition QST_e432 := (cD (cA (cA (cN (-1)) (cD (cB (cV 1) (cN 1)) (cN 2))) (cM (cN 2) (cW (cD (cB (cV 1) (cN 1)) (cN 2)) 4))) (cR (cM (cM (cM (cD (cB (cV 1) (cN 1)) (cN 2)) (cA (cN 1) (cD (cB (cV 1) (cN 1)) (cN 2)))) (cA (cN (-1)) (cM (cN 2) (cD (cB (cV 1) (cN 1)) (cN 2))))) (cA (cN 1) (cM (cN 2) (cD (cB (cV 1) (cN 1)) (cN 2))))))).
Definition QST_e433 := (cD (cN 1) (cM (cR (cA (cA (cN 1) (cM (cN 3) (cD (cB (cV 1) (cN 1)) (cN 2)))) (cM (cN 2) (cW (cD (cB (cV 1) (cN 1)) (cN 2)) 4)))) (cA (cA (cN 1) (cM (cN 3) (cV 2))) (cM (cN 2) (cW (cV 2) 4))))).
Definition QST_e434 := (cM (cA (cN 3) (cM (cN 2) (cD (cB (cV 1) (cN 1)) (cN 2)))) (cR (cD (cM (cD (cB (cV 1) (cN 1)) (cN 2)) (cA (cN (-3)) (cM (cM (cN 4) (cV 2)) (cA (cN 1) (cV 2))))) (cM (cM (cM (cA (cN 1) (cD (cB (cV 1) (cN 1)) (cN 2))) (cA (cN 1) (cM (cN 2) (cD (cB (cV 1) (cN 1)) (cN 2))))) (cA (cN 3) (cM (cN 2) (cD (cB (cV 1) (cN 1)) (cN 2))))) (cW (cA (cN 1) (cM (cN 2) (cV 2))) 4))))).
Definition QST_e435 := (cO (cD (cA (cA (cA (cA (cA (cA (cM (cA (cN 1) (cD (cB (cV 1) (cN 1)) (cN 2))) (cR (cD (cM (cM (cD (cB (cV 1) (cN 1)) (cN 2)) (cA (cN 1) (cM (cN 2) (cD (cB (cV 1) (cN 1)) (cN 2))))) (cV 2)) (cA (cN 1) (cM (cN 2) (cV 2)))))) (cM (cM (cD (cB (cV 1) (cN 1)) (cN 2)) (cA (cN 1) (cD (cB (cV 1) (cN 1)) (cN 2)))) (cR (cD (cM (cM (cD (cB (cV 1) (cN 1)) (cN 2)) (cA (cN 1) (cM (cN 2) (cD (cB (cV 1) (cN 1)) (cN 2))))) (cV 2)) (cA (cN 1) (cM (cN 2) (cV 2))))))) (cM (cM (cN 2) (cA (cN 1) (cD (cB (cV 1) (cN 1)) (cN 2)))) (cR (cD (cM (cM (cD (cB (cV 1) (cN 1)) (cN 2)) (cA (cN 1) (cM (cN 2) (cD (cB (cV 1) (cN 1)) (cN 2))))) (cW (cV 2) 6)) (cA (cN 1) (cM (cN 2) (cV 2))))))) (cM (cM (cM (cN 4) (cW (cD (cB (cV 1) (cN 1)) (cN 2)) 3)) (cB (cN 1) (cM (cN 2) (cV 2)))) (cR (cD (cV 2) (cA (cA (cA (cN 1) (cM (cN 2) (cD (cB (cV 1) (cN 1)) (cN 2)))) (cM (cN 2) (cV 2))) (cM (cM (cN 4) (cD (cB (cV 1) (cN 1)) (cN 2))) (cV 2))))))) (cM (cM (cM (cN 2) (cW (cD (cB (cV 1) (cN 1)) (cN 2)) 5)) (cB (cN 1) (cM (cN 2) (cV 2)))) (cR (cD (cV 2) (cA (cA (cA (cN 1) (cM (cN 2) (cD (cB (cV 1) (cN 1)) (cN 2)))) (cM (cN 2) (cV 2))) (cM (cM (cN 4) (cD (cB (cV 1) (cN 1)) (cN 2))) (cV 2))))))) (cM (cM (cN 2) (cB (cN 1) (cM (cN 2) (cV 2)))) (cR (cD (cM (cD (cB (cV 1) (cN 1)) (cN 2)) (cV 2)) (cA (cA (cA (cN 1) (cM (cN 2) (cD (cB (cV 1) (cN 1)) (cN 2)))) (cM (cN 2) (cV 2))) (cM (cM (cN 4) (cD (cB (cV 1) (cN 1)) (cN 2))) (cV 2))))))) (cM (cM (cN 2) (cA (cN 1) (cD (cB (cV 1) (cN 1)) (cN 2)))) (cR (cD (cM (cD (cB (cV 1) (cN 1)) (cN 2)) (cW (cV 2) 6)) (cA (cA (cA (cN 1) (cM (cN 2) (cD (cB (cV 1) (cN 1)) (cN 2)))) (cM (cN 2) (cV 2))) (cM (cM (cN 4) (cD (cB (cV 1) (cN 1)) (cN 2))) (cV 2))))))) (cM (cW (cA (cN 1) (cD (cB (cV 1) (cN 1)) (cN 2))) 4) (cR (cD (cM (cM (cM (cA (cN 1) (cD (cB (cV 1) (cN 1)) (cN 2))) (cA (cN 3) (cM (cN 2) (cD (cB (cV 1) (cN 1)) (cN 2))))) (cV 2)) (cW (cA (cN 1) (cV 2)) 4)) (cA (cN 3) (cM (cN 2) (cV 2)))))))).
Definition QST_e436 := (cD (cA (cA (cA (cA (cM (cN 4) (cR (cD (cM (cM (cM (cD (cB (cV 1) (cN 1)) (cN 2)) (cV 2)) (cA (cN 1) (cV 2))) (cA (cN 3) (cM (cN 2) (cV 2)))) (cA (cN 1) (cD (cB (cV 1) (cN 1)) (cN 2)))))) (cM (cM (cN 2) (cV 2)) (cR (cD (cM (cM (cM (cD (cB (cV 1) (cN 1)) (cN 2)) (cV 2)) (cA (cN 1) (cV 2))) (cA (cN 3) (cM (cN 2) (cV 2)))) (cA (cN 1) (cD (cB (cV 1) (cN 1)) (cN 2))))))) (cM (cN 2) (cR (cM (cM (cM (cM (cD (cB (cV 1) (cN 1)) (cN 2)) (cA (cN 1) (cD (cB (cV 1) (cN 1)) (cN 2)))) (cV 2)) (cA (cN 1) (cV 2))) (cA (cN 3) (cM (cN 2) (cV 2))))))) (cR (cM (cM (cM (cM (cD (cB (cV 1) (cN 1)) (cN 2)) (cA (cN 1) (cD (cB (cV 1) (cN 1)) (cN 2)))) (cW (cV 2) 6)) (cA (cN 1) (cV 2))) (cA (cN 3) (cM (cN 2) (cV 2)))))) (cM (cM (cN 2) (cD (cB (cV 1) (cN 1)) (cN 2))) (cA (cA (cA (cM (cN 2) (cR (cD (cM (cM (cM (cD (cB (cV 1) (cN 1)) (cN 2)) (cV 2)) (cA (cN 1) (cV 2))) (cA (cN 3) (cM (cN 2) (cV 2)))) (cA (cN 1) (cD (cB (cV 1) (cN 1)) (cN 2)))))) (cM (cV 2) (cR (cD (cM (cM (cM (cD (cB (cV 1) (cN 1)) (cN 2)) (cV 2)) (cA (cN 1) (cV 2))) (cA (cN 3) (cM (cN 2) (cV 2)))) (cA (cN 1) (cD (cB (cV 1) (cN 1)) (cN 2))))))) (cM (cN 2) (cR (cM (cM (cM (cM (cD (cB (cV 1) (cN 1)) (cN 2)) (cA (cN 1) (cD (cB (cV 1) (cN 1)) (cN 2)))) (cV 2)) (cA (cN 1) (cV 2))) (cA (cN 3) (cM (cN 2) (cV 2))))))) (cR (cM (cM (cM (cM (cD (cB (cV 1) (cN 1)) (cN 2)) (cA (cN 1) (cD (cB (cV 1) (cN 1)) (cN 2)))) (cW (cV 2) 6)) (cA (cN 1) (cV 2))) (cA (cN 3) (cM (cN 2) (cV 2)))))))) (cR (cM (cM (cM (cM (cW (cA (cN 1) (cD (cB (cV 1) (cN 1)) (cN 2))) 4) (cA (cN 3) (cM (cM (cN 4) (cD (cB (cV 1) (cN 1)) (cN 2))) (cA (cN 2) (cD (cB (cV 1) (cN 1)) (cN 2)))))) (cW (cA (cN 1) (cV 2)) 6)) (cA (cN 2) (cV 2))) (cA (cN 3) (cM (cN 2) (cV 2)))))).
Definition QST_e437 := (cD (cB (cA (cA (cM (cN 2) (cR (cM (cM (cD (cB (cV 1) (cN 1)) (cN 2)) (cA (cN 1) (cM (cN 2) (cD (cB (cV 1) (cN 1)) (cN 2))))) (cA (cN 1) (cV 2))))) (cM (cM (cD (cB (cV 1) (cN 1)) (cN 2)) (cA (cN 3) (cM (cN 2) (cD (cB (cV 1) (cN 1)) (cN 2))))) (cR (cM (cM (cD (cB (cV 1) (cN 1)) (cN 2)) (cA (cN 1) (cM (cN 2) (cD (cB (cV 1) (cN 1)) (cN 2))))) (cA (cN 1) (cV 2)))))) (cR (cM (cM (cM (cD (cB (cV 1) (cN 1)) (cN 2)) (cW (cA (cN 1) (cM (cN 2) (cD (cB (cV 1) (cN 1)) (cN 2)))) 6)) (cA (cN 1) (cV 2))) (cW (cA (cN 1) (cM (cN 2) (cV 2))) 4)))) (cM (cV 2) (cA (cB (cB (cA (cA (cM (cN 9) (cR (cD (cM (cD (cB (cV 1) (cN 1)) (cN 2)) (cA (cN 1) (cM (cN 2) (cD (cB (cV 1) (cN 1)) (cN 2))))) (cA (cN 1) (cV 2))))) (cM (cN 15) (cR (cD (cM (cW (cD (cB (cV 1) (cN 1)) (cN 2)) 6) (cA (cN 1) (cM (cN 2) (cD (cB (cV 1) (cN 1)) (cN 2))))) (cA (cN 1) (cV 2)))))) (cM (cN 6) (cR (cD (cM (cW (cD (cB (cV 1) (cN 1)) (cN 2)) 10) (cA (cN 1) (cM (cN 2) (cD (cB (cV 1) (cN 1)) (cN 2))))) (cA (cN 1) (cV 2)))))) (cM (cN 4) (cR (cM (cM (cD (cB (cV 1) (cN 1)) (cN 2)) (cA (cN 1) (cM (cN 2) (cD (cB (cV 1) (cN 1)) (cN 2))))) (cA (cN 1) (cV 2)))))) (cM (cM (cM (cN 2) (cD (cB (cV 1) (cN 1)) (cN 2))) (cA (cN 3) (cM (cN 2) (cD (cB (cV 1) (cN 1)) (cN 2))))) (cR (cM (cM (cD (cB (cV 1) (cN 1)) (cN 2)) (cA (cN 1) (cM (cN 2) (cD (cB (cV 1) (cN 1)) (cN 2))))) (cA (cN 1) (cV 2)))))) (cM (cM (cN 2) (cV 2)) (cA (cA (cM (cN 3) (cR (cD (cM (cD (cB (cV 1) (cN 1)) (cN 2)) (cA (cN 1) (cM (cN 2) (cD (cB (cV 1) (cN 1)) (cN 2))))) (cA (cN 1) (cV 2))))) (cM (cN 5) (cR (cD (cM (cW (cD (cB (cV 1) (cN 1)) (cN 2)) 6) (cA (cN 1) (cM (cN 2) (cD (cB (cV 1) (cN 1)) (cN 2))))) (cA (cN 1) (cV 2)))))) (cM (cN 2) (cR (cD (cM (cW (cD (cB (cV 1) (cN 1)) (cN 2)) 10) (cA (cN 1) (cM (cN 2) (cD (cB (cV 1) (cN 1)) (cN 2))))) (cA (cN 1) (cV 2)))))))))) (cM (cM (cM (cW (cA (cN 1) (cD (cB (cV 1) (cN 1)) (cN 2))) 3) (cA (cN 1) (cM (cN 2) (cD (cB (cV 1) (cN 1)) (cN 2))))) (cR (cM (cA (cN 3) (cM (cN 2) (cD (cB (cV 1) (cN 1)) (cN 2)))) (cA (cN 1) (cV 2))))) (cA (cN 1) (cM (cN 2) (cV 2))))).
Definition QST_e438 := (cD (cM (cA (cN 3) (cM (cN 2) (cD (cB (cV 1) (cN 1)) (cN 2)))) (cA (cA (cM (cM (cM (cN (-2)) (cA (cN 1) (cD (cB (cV 1) (cN 1)) (cN 2)))) (cA (cN 3) (cM (cN 2) (cD (cB (cV 1) (cN 1)) (cN 2))))) (cR (cM (cM (cD (cB (cV 1) (cN 1)) (cN 2)) (cA (cN 1) (cM (cN 2) (cD (cB (cV 1) (cN 1)) (cN 2))))) (cA (cN 2) (cV 2))))) (cM (cM (cN 3) (cW (cV 2) 4)) (cA (cA (cM (cN 3) (cR (cD (cM (cD (cB (cV 1) (cN 1)) (cN 2)) (cA (cN 1) (cM (cN 2) (cD (cB (cV 1) (cN 1)) (cN 2))))) (cA (cN 2) (cV 2))))) (cM (cM (cN 5) (cD (cB (cV 1) (cN 1)) (cN 2))) (cR (cD (cM (cD (cB (cV 1) (cN 1)) (cN 2)) (cA (cN 1) (cM (cN 2) (cD (cB (cV 1) (cN 1)) (cN 2))))) (cA (cN 2) (cV 2)))))) (cM (cN 2) (cR (cD (cM (cW (cD (cB (cV 1) (cN 1)) (cN 2)) 10) (cA (cN 1) (cM (cN 2) (cD (cB (cV 1) (cN 1)) (cN 2))))) (cA (cN 2) (cV 2)))))))) (cM (cM (cN 2) (cV 2)) (cA (cB (cA (cM (cN 9) (cR (cD (cM (cD (cB (cV 1) (cN 1)) (cN 2)) (cA (cN 1) (cM (cN 2) (cD (cB (cV 1) (cN 1)) (cN 2))))) (cA (cN 2) (cV 2))))) (cM (cN 6) (cR (cD (cM (cW (cD (cB (cV 1) (cN 1)) (cN 2)) 10) (cA (cN 1) (cM (cN 2) (cD (cB (cV 1) (cN 1)) (cN 2))))) (cA (cN 2) (cV 2)))))) (cM (cN 6) (cR (cM (cM (cD (cB (cV 1) (cN 1)) (cN 2)) (cA (cN 1) (cM (cN 2) (cD (cB (cV 1) (cN 1)) (cN 2))))) (cA (cN 2) (cV 2)))))) (cM (cD (cB (cV 1) (cN 1)) (cN 2)) (cB (cB (cM (cN 15) (cR (cD (cM (cD (cB (cV 1) (cN 1)) (cN 2)) (cA (cN 1) (cM (cN 2) (cD (cB (cV 1) (cN 1)) (cN 2))))) (cA (cN 2) (cV 2))))) (cM (cN 10) (cR (cM (cM (cD (cB (cV 1) (cN 1)) (cN 2)) (cA (cN 1) (cM (cN 2) (cD (cB (cV 1) (cN 1)) (cN 2))))) (cA (cN 2) (cV 2)))))) (cM (cM (cN 4) (cD (cB (cV 1) (cN 1)) (cN 2))) (cR (cM (cM (cD (cB (cV 1) (cN 1)) (cN 2)) (cA (cN 1) (cM (cN 2) (cD (cB (cV 1) (cN 1)) (cN 2))))) (cA (cN 2) (cV 2))))))))))) (cM (cM (cA (cN 1) (cM (cN 2) (cD (cB (cV 1) (cN 1)) (cN 2)))) (cA (cN 1) (cV 2))) (cW (cM (cM (cA (cN 1) (cD (cB (cV 1) (cN 1)) (cN 2))) (cA (cN 3) (cM (cN 2) (cD (cB (cV 1) (cN 1)) (cN 2))))) (cA (cN 2) (cV 2))) 3))).
Definition QST_e439 := (cR (cB (cA (cN 1) (cD (cN 1) (cA (cN 1) (cD (cB (cV 1) (cN 1)) (cN 2))))) (cD (cN 2) (cA (cN 1) (cM (cN 2) (cD (cB (cV 1) (cN 1)) (cN 2))))))).
Definition QST_e440 := (cO (cD (cR (cD (cB (cN 9) (cM (cN 4) (cW (cV 2) 4))) (cB (cN 1) (cM (cN 4) (cW (cV 2) 4))))) (cA (cN 1) (cM (cN 2) (cD (cB (cV 1) (cN 1)) (cN 2)))))).
Definition QST_e441 := (cD (cN 1) (cR (cD (cM (cM (cV 2) (cA (cN 1) (cV 2))) (cA (cN 1) (cM (cN 2) (cV 2)))) (cA (cN 6) (cM (cN 4) (cV 2)))))).
Definition QST_e442 := (cO (cD (cM (cA (cN (-1)) (cV 2)) (cA (cN 2) (cV 2))) (cR (cD (cM (cM (cM (cM (cA (cN (-1)) (cV 2)) (cV 2)) (cA (cN 1) (cV 2))) (cA (cN 2) (cV 2))) (cW (cA (cN 1) (cM (cN 2) (cV 2))) 4)) (cA (cN (-3)) (cM (cM (cN 4) (cV 2)) (cA (cN 1) (cV 2)))))))).
Definition QST_e443 := (cD (cR (cD (cA (cN 6) (cM (cN 4) (cV 2))) (cA (cA (cV 2) (cM (cN 3) (cW (cV 2) 4))) (cM (cN 2) (cW (cV 2) 6))))) (cA (cN 1) (cM (cN 2) (cD (cB (cV 1) (cN 1)) (cN 2))))).
Definition QST_e444 := (cO (cM (cR (cD (cA (cN 3) (cM (cN 2) (cV 2))) (cM (cA (cN 1) (cM (cN 2) (cD (cB (cV 1) (cN 1)) (cN 2)))) (cA (cV 2) (cM (cN 2) (cW (cV 2) 4)))))) (cA (cA (cM (cN 6) (cR (cD (cA (cB (cN 1) (cM (cN 3) (cV 2))) (cM (cN 2) (cW (cV 2) 4))) (cM (cA (cN 1) (cM (cN 2) (cD (cB (cV 1) (cN 1)) (cN 2)))) (cA (cA (cA (cN 2) (cM (cN 7) (cV 2))) (cM (cN 7) (cW (cV 2) 4))) (cM (cN 2) (cW (cV 2) 6))))))) (cM (cN 4) (cR (cD (cA (cN (-1)) (cM (cN 2) (cV 2))) (cM (cA (cN 1) (cM (cN 2) (cD (cB (cV 1) (cN 1)) (cN 2)))) (cA (cA (cB (cN (-2)) (cM (cN 5) (cV 2))) (cM (cN 5) (cW (cV 2) 6))) (cM (cN 2) (cW (cV 2) 8)))))))) (cM (cM (cA (cN (-5)) (cV 2)) (cV 2)) (cR (cD (cA (cN (-1)) (cM (cN 2) (cV 2))) (cM (cA (cN 1) (cM (cN 2) (cD (cB (cV 1) (cN 1)) (cN 2)))) (cA (cA (cB (cN (-2)) (cM (cN 5) (cV 2))) (cM (cN 5) (cW (cV 2) 6))) (cM (cN 2) (cW (cV 2) 8)))))))))).
Definition QST_e445 := (cO (cD (cR (cN 6)) (cR (cM (cM (cM (cV 2) (cA (cN 1) (cV 2))) (cA (cN (-1)) (cM (cN 2) (cV 2)))) (cA (cN 1) (cM (cN 2) (cV 2))))))).
Definition QST_e446 := (cD (cM (cA (cN 2) (cV 2)) (cR (cD (cA (cN (-3)) (cM (cN 6) (cV 2))) (cM (cV 2) (cA (cA (cN 2) (cM (cN 5) (cV 2))) (cM (cN 2) (cW (cV 2) 4))))))) (cA (cN 1) (cV 2))).
Definition QST_e447 := (cO (cD (cM (cM (cM (cA (cN 2) (cV 2)) (cA (cN (-1)) (cM (cN 2) (cV 2)))) (cA (cN 5) (cM (cN 2) (cV 2)))) (cR (cD (cV 2) (cA (cA (cA (cA (cB (cN (-30)) (cM (cN 47) (cV 2))) (cM (cN 96) (cW (cV 2) 4))) (cM (cN 184) (cW (cV 2) 6))) (cM (cN 96) (cW (cV 2) 8))) (cM (cN 16) (cW (cV 2) 10)))))) (cA (cN 1) (cV 2)))).
Definition QST_e448 := (cO (cD (cR (cN 6)) (cM (cA (cN 1) (cM (cN 2) (cD (cB (cV 1) (cN 1)) (cN 2)))) (cR (cM (cM (cM (cV 2) (cA (cN 1) (cV 2))) (cA (cN (-1)) (cM (cN 2) (cV 2)))) (cA (cN 1) (cM (cN 2) (cV 2)))))))).
Definition QST_e449 := (cO (cD (cM (cM (cM (cA (cN 2) (cV 2)) (cA (cN (-1)) (cM (cN 2) (cV 2)))) (cA (cN 5) (cM (cN 2) (cV 2)))) (cR (cD (cV 2) (cA (cA (cA (cA (cB (cN (-30)) (cM (cN 47) (cV 2))) (cM (cN 96) (cW (cV 2) 4))) (cM (cN 184) (cW (cV 2) 6))) (cM (cN 96) (cW (cV 2) 8))) (cM (cN 16) (cW (cV 2) 10)))))) (cM (cA (cN 1) (cM (cN 2) (cD (cB (cV 1) (cN 1)) (cN 2)))) (cA (cN 1) (cV 2))))).
Definition QST_e450 := (cD (cM (cM (cR (cN 3)) (cV 2)) (cA (cN 5) (cM (cN 2) (cV 2)))) (cM (cA (cN 1) (cV 2)) (cR (cM (cM (cM (cV 2) (cA (cN 2) (cV 2))) (cA (cN 1) (cM (cN 2) (cV 2)))) (cA (cN 5) (cM (cN 2) (cV 2))))))).
Definition QST_e451 := (cD (cN (-3)) (cM (cA (cN 1) (cM (cN 2) (cD (cB (cV 1) (cN 1)) (cN 2)))) (cA (cA (cN 1) (cM (cN 3) (cV 2))) (cM (cN 2) (cW (cV 2) 4))))).
Definition QST_e452 := (cD (cM (cM (cR (cN 3)) (cV 2)) (cA (cN 5) (cM (cN 2) (cV 2)))) (cM (cM (cA (cN 1) (cM (cN 2) (cD (cB (cV 1) (cN 1)) (cN 2)))) (cA (cN 1) (cV 2))) (cR (cM (cM (cM (cV 2) (cA (cN 2) (cV 2))) (cA (cN 1) (cM (cN 2) (cV 2)))) (cA (cN 5) (cM (cN 2) (cV 2))))))).
Definition QST_e453 := (cO (cD (cM (cR (cB (cA (cN 1) (cD (cN 1) (cA (cN 2) (cV 2)))) (cD (cN 6) (cA (cN 5) (cM (cN 2) (cV 2)))))) (cA (cA (cA (cM (cN 30) (cR (cM (cM (cM (cM (cA (cN 1) (cM (cN 2) (cD (cB (cV 1) (cN 1)) (cN 2)))) (cV 2)) (cA (cN 3) (cV 2))) (cA (cN 3) (cM (cN 2) (cV 2)))) (cA (cN 5) (cM (cN 2) (cV 2)))))) (cM (cN 63) (cR (cM (cM (cM (cM (cA (cN 1) (cM (cN 2) (cD (cB (cV 1) (cN 1)) (cN 2)))) (cW (cV 2) 6)) (cA (cN 3) (cV 2))) (cA (cN 3) (cM (cN 2) (cV 2)))) (cA (cN 5) (cM (cN 2) (cV 2))))))) (cM (cN 18) (cR (cM (cM (cM (cM (cA (cN 1) (cM (cN 2) (cD (cB (cV 1) (cN 1)) (cN 2)))) (cW (cV 2) 10)) (cA (cN 3) (cV 2))) (cA (cN 3) (cM (cN 2) (cV 2)))) (cA (cN 5) (cM (cN 2) (cV 2))))))) (cM (cM (cV 2) (cR (cM (cM (cM (cM (cA (cN 1) (cM (cN 2) (cD (cB (cV 1) (cN 1)) (cN 2)))) (cV 2)) (cA (cN 3) (cV 2))) (cA (cN 3) (cM (cN 2) (cV 2)))) (cA (cN 5) (cM (cN 2) (cV 2)))))) (cA (cN (-26)) (cM (cV 2) (cA (cN (-3)) (cM (cN 2) (cV 2)))))))) (cM (cM (cM (cM (cM (cW (cA (cN 1) (cM (cN 2) (cD (cB (cV 1) (cN 1)) (cN 2)))) 3) (cA (cN 1) (cV 2))) (cA (cN 2) (cV 2))) (cA (cN 3) (cV 2))) (cA (cN 3) (cM (cN 2) (cV 2)))) (cA (cN 5) (cM (cN 2) (cV 2)))))).
Definition QST_e454 := (cD (cR (cN 2)) (cR (cM (cA (cN 1) (cV 2)) (cA (cN 2) (cV 2))))).
Definition QST_e455 := (cO (cD (cR (cN 6)) (cM (cA (cN 1) (cM (cN 2) (cD (cB (cV 1) (cN 1)) (cN 2)))) (cR (cM (cM (cA (cN 1) (cV 2)) (cA (cN 2) (cV 2))) (cA (cN 3) (cM (cM (cN 4) (cV 2)) (cA (cN 2) (cV 2))))))))).
Definition QST_e456 := (cD (cM (cM (cM (cN 2) (cR (cN 2))) (cA (cR (cO (cD (cM (cD (cB (cV 1) (cN 1)) (cN 2)) (cA (cN 1) (cD (cB (cV 1) (cN 1)) (cN 2)))) (cB (cV 2) (cM (cN 4) (cW (cV 2) 6)))))) (cR (cO (cD (cM (cW (cD (cB (cV 1) (cN 1)) (cN 2)) 6) (cA (cN 1) (cD (cB (cV 1) (cN 1)) (cN 2)))) (cB (cV 2) (cM (cN 4) (cW (cV 2) 6)))))))) (cR (cA (cN (-3)) (cM (cV 2) (cA (cN 1) (cM (cM (cN 4) (cV 2)) (cA (cN 2) (cV 2)))))))) (cM (cM (cA (cN 1) (cD (cB (cV 1) (cN 1)) (cN 2))) (cA (cN 1) (cM (cN 2) (cD (cB (cV 1) (cN 1)) (cN 2))))) (cA (cN 1) (cV 2)))).
Definition QST_e457 := (cO (cD (cM (cR (cD (cM (cM (cA (cN 1) (cM (cN 2) (cD (cB (cV 1) (cN 1)) (cN 2)))) (cA (cN 1) (cV 2))) (cA (cN 3) (cM (cN 2) (cV 2)))) (cM (cV 2) (cA (cN 1) (cM (cN 2) (cV 2)))))) (cA (cA (cA (cA (cM (cN 6) (cR (cD (cM (cM (cM (cD (cB (cV 1) (cN 1)) (cN 2)) (cA (cN 1) (cD (cB (cV 1) (cN 1)) (cN 2)))) (cA (cN (-1)) (cV 2))) (cA (cN (-1)) (cM (cN 2) (cV 2)))) (cM (cM (cW (cA (cN 1) (cM (cN 2) (cD (cB (cV 1) (cN 1)) (cN 2)))) 6) (cA (cN 2) (cV 2))) (cA (cN 1) (cM (cN 2) (cV 2))))))) (cM (cN 6) (cR (cD (cM (cM (cM (cD (cB (cV 1) (cN 1)) (cN 2)) (cA (cN 1) (cD (cB (cV 1) (cN 1)) (cN 2)))) (cA (cN (-1)) (cV 2))) (cA (cN (-1)) (cM (cN 2) (cV 2)))) (cM (cM (cA (cN 1) (cM (cN 2) (cD (cB (cV 1) (cN 1)) (cN 2)))) (cA (cN 2) (cV 2))) (cA (cN 1) (cM (cN 2) (cV 2)))))))) (cD (cM (cM (cM (cM (cN 2) (cA (cN 1) (cD (cB (cV 1) (cN 1)) (cN 2)))) (cA (cN (-5)) (cV 2))) (cV 2)) (cR (cD (cM (cM (cD (cB (cV 1) (cN 1)) (cN 2)) (cA (cN 1) (cD (cB (cV 1) (cN 1)) (cN 2)))) (cA (cN (-1)) (cM (cN 2) (cV 2)))) (cM (cM (cA (cN 1) (cM (cN 2) (cD (cB (cV 1) (cN 1)) (cN 2)))) (cA (cN (-1)) (cV 2))) (cA (cA (cN 2) (cM (cN 5) (cV 2))) (cM (cN 2) (cW (cV 2) 4))))))) (cA (cN 1) (cM (cN 2) (cD (cB (cV 1) (cN 1)) (cN 2)))))) (cM (cN 4) (cR (cD (cM (cM (cD (cB (cV 1) (cN 1)) (cN 2)) (cA (cN 1) (cD (cB (cV 1) (cN 1)) (cN 2)))) (cA (cN (-1)) (cM (cN 2) (cV 2)))) (cM (cW (cA (cN 1) (cM (cN 2) (cD (cB (cV 1) (cN 1)) (cN 2)))) 6) (cA (cA (cB (cN (-2)) (cM (cN 3) (cV 2))) (cM (cN 3) (cW (cV 2) 4))) (cM (cN 2) (cW (cV 2) 6)))))))) (cM (cN 4) (cR (cD (cM (cM (cD (cB (cV 1) (cN 1)) (cN 2)) (cA (cN 1) (cD (cB (cV 1) (cN 1)) (cN 2)))) (cA (cN (-1)) (cM (cN 2) (cV 2)))) (cM (cA (cN 1) (cM (cN 2) (cD (cB (cV 1) (cN 1)) (cN 2)))) (cA (cA (cB (cN (-2)) (cM (cN 3) (cV 2))) (cM (cN 3) (cW (cV 2) 4))) (cM (cN 2) (cW (cV 2) 6))))))))) (cM (cA (cN 1) (cD (cB (cV 1) (cN 1)) (cN 2))) (cA (cN 1) (cV 2))))).
Definition QST_e458 := (cD (cM (cM (cN (-2)) (cR (cN 6))) (cA (cN 1) (cD (cB (cV 1) (cN 1)) (cN 2)))) (cR (cD (cM (cM (cM (cM (cM (cA (cN 1) (cD (cB (cV 1) (cN 1)) (cN 2))) (cW (cA (cN 1) (cM (cN 2) (cD (cB (cV 1) (cN 1)) (cN 2)))) 4)) (cV 2)) (cA (cN 1) (cV 2))) (cA (cN (-1)) (cM (cN 2) (cV 2)))) (cA (cN 1) (cM (cN 2) (cV 2)))) (cD (cB (cV 1) (cN 1)) (cN 2))))).
Definition QST_e459 := (cO (cM (cM (cR (cN 3)) (cR (cM (cA (cN 1) (cV 2)) (cA (cN 3) (cM (cN 2) (cV 2)))))) (cB (cB (cA (cA (cA (cD (cM (cA (cN (-4)) (cV 2)) (cW (cA (cN (-1)) (cM (cN 2) (cV 2))) 3)) (cM (cM (cA (cN 1) (cM (cN 2) (cD (cB (cV 1) (cN 1)) (cN 2)))) (cA (cN 1) (cV 2))) (cR (cD (cM (cM (cM (cM (cM (cA (cN 1) (cD (cB (cV 1) (cN 1)) (cN 2))) (cV 2)) (cA (cN 1) (cV 2))) (cA (cN 2) (cV 2))) (cA (cN 1) (cM (cN 2) (cV 2)))) (cA (cN 3) (cM (cN 2) (cV 2)))) (cD (cB (cV 1) (cN 1)) (cN 2)))))) (cM (cM (cA (cN (-4)) (cV 2)) (cA (cN (-1)) (cM (cN 2) (cV 2)))) (cR (cD (cM (cD (cB (cV 1) (cN 1)) (cN 2)) (cA (cN (-1)) (cM (cN 2) (cV 2)))) (cM (cM (cM (cA (cN 1) (cD (cB (cV 1) (cN 1)) (cN 2))) (cV 2)) (cW (cA (cN 1) (cV 2)) 6)) (cA (cA (cA (cN 6) (cM (cN 19) (cV 2))) (cM (cN 16) (cW (cV 2) 4))) (cM (cN 4) (cW (cV 2) 6)))))))) (cM (cN 6) (cR (cD (cM (cM (cD (cB (cV 1) (cN 1)) (cN 2)) (cW (cA (cN (-1)) (cV 2)) 4)) (cA (cN (-1)) (cM (cN 2) (cV 2)))) (cM (cM (cM (cA (cN 1) (cD (cB (cV 1) (cN 1)) (cN 2))) (cV 2)) (cW (cA (cN 1) (cV 2)) 6)) (cA (cA (cA (cN 6) (cM (cN 19) (cV 2))) (cM (cN 16) (cW (cV 2) 4))) (cM (cN 4) (cW (cV 2) 6)))))))) (cM (cN 6) (cR (cD (cM (cM (cD (cB (cV 1) (cN 1)) (cN 2)) (cW (cA (cN (-1)) (cV 2)) 4)) (cA (cN (-1)) (cM (cN 2) (cV 2)))) (cM (cM (cM (cM (cA (cN 1) (cD (cB (cV 1) (cN 1)) (cN 2))) (cW (cA (cN 1) (cM (cN 2) (cD (cB (cV 1) (cN 1)) (cN 2)))) 4)) (cV 2)) (cW (cA (cN 1) (cV 2)) 6)) (cA (cA (cA (cN 6) (cM (cN 19) (cV 2))) (cM (cN 16) (cW (cV 2) 4))) (cM (cN 4) (cW (cV 2) 6)))))))) (cM (cM (cM (cM (cN 2) (cA (cN (-1)) (cV 2))) (cV 2)) (cA (cN (-1)) (cM (cN 2) (cV 2)))) (cR (cD (cD (cB (cV 1) (cN 1)) (cN 2)) (cM (cM (cM (cA (cN 1) (cD (cB (cV 1) (cN 1)) (cN 2))) (cV 2)) (cW (cA (cN 1) (cV 2)) 6)) (cA (cA (cA (cB (cN (-6)) (cM (cN 7) (cV 2))) (cM (cN 22) (cW (cV 2) 4))) (cM (cN 28) (cW (cV 2) 6))) (cM (cN 8) (cW (cV 2) 8)))))))) (cM (cM (cM (cM (cN 2) (cA (cN (-1)) (cV 2))) (cV 2)) (cA (cN (-1)) (cM (cN 2) (cV 2)))) (cR (cD (cD (cB (cV 1) (cN 1)) (cN 2)) (cM (cM (cM (cM (cA (cN 1) (cD (cB (cV 1) (cN 1)) (cN 2))) (cW (cA (cN 1) (cM (cN 2) (cD (cB (cV 1) (cN 1)) (cN 2)))) 4)) (cV 2)) (cW (cA (cN 1) (cV 2)) 6)) (cA (cA (cA (cB (cN (-6)) (cM (cN 7) (cV 2))) (cM (cN 22) (cW (cV 2) 4))) (cM (cN 28) (cW (cV 2) 6))) (cM (cN 8) (cW (cV 2) 8)))))))))).
Definition QST_e460 := (cD (cA (cB (cB (cB (cB (cB (cA (cA (cB (cM (cN (-27)) (cR (cD (cM (cD (cB (cV 1) (cN 1)) (cN 2)) (cV 2)) (cM (cA (cN 1) (cM (cN 2) (cD (cB (cV 1) (cN 1)) (cN 2)))) (cA (cN (-1)) (cM (cN 2) (cV 2))))))) (cM (cN 26) (cR (cD (cM (cM (cD (cB (cV 1) (cN 1)) (cN 2)) (cA (cN 1) (cM (cN 2) (cD (cB (cV 1) (cN 1)) (cN 2))))) (cV 2)) (cA (cN (-1)) (cM (cN 2) (cV 2))))))) (cM (cN 72) (cR (cD (cM (cD (cB (cV 1) (cN 1)) (cN 2)) (cW (cV 2) 6)) (cM (cA (cN 1) (cM (cN 2) (cD (cB (cV 1) (cN 1)) (cN 2)))) (cA (cN (-1)) (cM (cN 2) (cV 2)))))))) (cM (cN 61) (cR (cD (cM (cM (cD (cB (cV 1) (cN 1)) (cN 2)) (cA (cN 1) (cM (cN 2) (cD (cB (cV 1) (cN 1)) (cN 2))))) (cW (cV 2) 6)) (cA (cN (-1)) (cM (cN 2) (cV 2))))))) (cM (cN 36) (cR (cD (cM (cD (cB (cV 1) (cN 1)) (cN 2)) (cW (cV 2) 10)) (cM (cA (cN 1) (cM (cN 2) (cD (cB (cV 1) (cN 1)) (cN 2)))) (cA (cN (-1)) (cM (cN 2) (cV 2)))))))) (cM (cN 16) (cR (cD (cM (cM (cD (cB (cV 1) (cN 1)) (cN 2)) (cA (cN 1) (cM (cN 2) (cD (cB (cV 1) (cN 1)) (cN 2))))) (cW (cV 2) 10)) (cA (cN (-1)) (cM (cN 2) (cV 2))))))) (cM (cN 4) (cR (cD (cM (cM (cD (cB (cV 1) (cN 1)) (cN 2)) (cA (cN 1) (cM (cN 2) (cD (cB (cV 1) (cN 1)) (cN 2))))) (cW (cV 2) 14)) (cA (cN (-1)) (cM (cN 2) (cV 2))))))) (cM (cN 36) (cR (cD (cM (cM (cD (cB (cV 1) (cN 1)) (cN 2)) (cV 2)) (cA (cN (-1)) (cM (cN 2) (cV 2)))) (cA (cN 1) (cM (cN 2) (cD (cB (cV 1) (cN 1)) (cN 2)))))))) (cM (cN 36) (cR (cM (cM (cM (cD (cB (cV 1) (cN 1)) (cN 2)) (cA (cN 1) (cM (cN 2) (cD (cB (cV 1) (cN 1)) (cN 2))))) (cV 2)) (cA (cN (-1)) (cM (cN 2) (cV 2))))))) (cM (cM (cV 2) (cR (cD (cD (cB (cV 1) (cN 1)) (cN 2)) (cM (cM (cA (cN 1) (cM (cN 2) (cD (cB (cV 1) (cN 1)) (cN 2)))) (cV 2)) (cA (cN (-1)) (cM (cN 2) (cV 2))))))) (cA (cN 1) (cM (cV 2) (cB (cN (-11)) (cM (cM (cN 4) (cA (cN (-5)) (cV 2))) (cV 2))))))) (cM (cA (cN 1) (cV 2)) (cR (cM (cM (cM (cM (cM (cA (cN 1) (cD (cB (cV 1) (cN 1)) (cN 2))) (cA (cN 1) (cM (cN 2) (cD (cB (cV 1) (cN 1)) (cN 2))))) (cA (cN 2) (cV 2))) (cA (cN 1) (cM (cN 2) (cV 2)))) (cA (cN 3) (cM (cN 2) (cV 2)))) (cA (cN 5) (cM (cN 2) (cV 2))))))).
Definition QST_e461 := (cD (cM (cM (cM (cN 2) (cR (cN 3))) (cR (cD (cM (cD (cB (cV 1) (cN 1)) (cN 2)) (cA (cN 1) (cD (cB (cV 1) (cN 1)) (cN 2)))) (cA (cA (cN 5) (cM (cN 12) (cV 2))) (cM (cN 4) (cW (cV 2) 4)))))) (cA (cA (cM (cN 10) (cR (cM (cV 2) (cA (cN 2) (cV 2))))) (cM (cN 9) (cR (cM (cW (cV 2) 6) (cA (cN 2) (cV 2)))))) (cM (cN 2) (cR (cM (cW (cV 2) 10) (cA (cN 2) (cV 2))))))) (cM (cM (cA (cN 1) (cM (cN 2) (cD (cB (cV 1) (cN 1)) (cN 2)))) (cA (cN 1) (cV 2))) (cW (cA (cN 2) (cV 2)) 4))).
Definition QST_e462 := (cD (cM (cM (cN (-2)) (cR (cN 6))) (cA (cA (cR (cD (cM (cM (cD (cB (cV 1) (cN 1)) (cN 2)) (cA (cN 1) (cD (cB (cV 1) (cN 1)) (cN 2)))) (cA (cN 1) (cV 2))) (cA (cN 3) (cM (cN 2) (cV 2))))) (cM (cN 3) (cR (cM (cM (cM (cD (cB (cV 1) (cN 1)) (cN 2)) (cA (cN 1) (cD (cB (cV 1) (cN 1)) (cN 2)))) (cA (cN 1) (cV 2))) (cA (cN 3) (cM (cN 2) (cV 2))))))) (cM (cV 2) (cA (cB (cB (cA (cM (cN (-7)) (cR (cD (cM (cM (cD (cB (cV 1) (cN 1)) (cN 2)) (cA (cN 1) (cD (cB (cV 1) (cN 1)) (cN 2)))) (cA (cN 1) (cV 2))) (cA (cN 3) (cM (cN 2) (cV 2)))))) (cM (cN 5) (cR (cM (cM (cM (cD (cB (cV 1) (cN 1)) (cN 2)) (cA (cN 1) (cD (cB (cV 1) (cN 1)) (cN 2)))) (cA (cN 1) (cV 2))) (cA (cN 3) (cM (cN 2) (cV 2))))))) (cM (cN 15) (cR (cD (cM (cD (cB (cV 1) (cN 1)) (cN 2)) (cA (cN 1) (cD (cB (cV 1) (cN 1)) (cN 2)))) (cA (cA (cN 3) (cM (cN 5) (cV 2))) (cM (cN 2) (cW (cV 2) 4))))))) (cM (cM (cN 2) (cV 2)) (cA (cM (cN 8) (cR (cD (cM (cM (cD (cB (cV 1) (cN 1)) (cN 2)) (cA (cN 1) (cD (cB (cV 1) (cN 1)) (cN 2)))) (cA (cN 1) (cV 2))) (cA (cN 3) (cM (cN 2) (cV 2)))))) (cR (cM (cM (cM (cD (cB (cV 1) (cN 1)) (cN 2)) (cA (cN 1) (cD (cB (cV 1) (cN 1)) (cN 2)))) (cA (cN 1) (cV 2))) (cA (cN 3) (cM (cN 2) (cV 2)))))))) (cM (cM (cN 4) (cW (cV 2) 4)) (cA (cR (cD (cM (cM (cD (cB (cV 1) (cN 1)) (cN 2)) (cA (cN 1) (cD (cB (cV 1) (cN 1)) (cN 2)))) (cA (cN 1) (cV 2))) (cA (cN 3) (cM (cN 2) (cV 2))))) (cM (cN 3) (cR (cD (cM (cD (cB (cV 1) (cN 1)) (cN 2)) (cA (cN 1) (cD (cB (cV 1) (cN 1)) (cN 2)))) (cA (cA (cN 3) (cM (cN 5) (cV 2))) (cM (cN 2) (cW (cV 2) 4)))))))))))) (cM (cM (cM (cA (cN 1) (cM (cN 2) (cD (cB (cV 1) (cN 1)) (cN 2)))) (cW (cA (cN 2) (cV 2)) 3)) (cR (cA (cN 1) (cM (cN 2) (cV 2))))) (cA (cN 5) (cM (cN 2) (cV 2))))).
Definition QST_e463 := (cD (cM (cM (cN 2) (cR (cA (cN 2) (cM (cN 4) (cV 2))))) (cB (cM (cN 15) (cA (cR (cD (cM (cM (cD (cB (cV 1) (cN 1)) (cN 2)) (cA (cN 1) (cD (cB (cV 1) (cN 1)) (cN 2)))) (cA (cN 1) (cM (cN 2) (cV 2)))) (cA (cN 1) (cV 2)))) (cR (cM (cM (cM (cD (cB (cV 1) (cN 1)) (cN 2)) (cA (cN 1) (cD (cB (cV 1) (cN 1)) (cN 2)))) (cA (cN 1) (cV 2))) (cA (cN 1) (cM (cN 2) (cV 2))))))) (cM (cV 2) (cA (cB (cA (cM (cN 18) (cR (cD (cM (cM (cD (cB (cV 1) (cN 1)) (cN 2)) (cA (cN 1) (cD (cB (cV 1) (cN 1)) (cN 2)))) (cA (cN 1) (cM (cN 2) (cV 2)))) (cA (cN 1) (cV 2))))) (cM (cM (cN 9) (cV 2)) (cR (cD (cM (cM (cD (cB (cV 1) (cN 1)) (cN 2)) (cA (cN 1) (cD (cB (cV 1) (cN 1)) (cN 2)))) (cA (cN 1) (cM (cN 2) (cV 2)))) (cA (cN 1) (cV 2)))))) (cM (cN 10) (cR (cM (cM (cM (cD (cB (cV 1) (cN 1)) (cN 2)) (cA (cN 1) (cD (cB (cV 1) (cN 1)) (cN 2)))) (cA (cN 1) (cV 2))) (cA (cN 1) (cM (cN 2) (cV 2))))))) (cM (cN 30) (cR (cD (cM (cD (cB (cV 1) (cN 1)) (cN 2)) (cA (cN 1) (cD (cB (cV 1) (cN 1)) (cN 2)))) (cA (cA (cN 1) (cM (cN 3) (cV 2))) (cM (cN 2) (cW (cV 2) 4)))))))))) (cM (cM (cM (cA (cN 1) (cM (cN 2) (cD (cB (cV 1) (cN 1)) (cN 2)))) (cW (cA (cN 2) (cV 2)) 3)) (cA (cN 3) (cV 2))) (cA (cN 5) (cM (cN 2) (cV 2))))).
Definition QST_e464 := (cD (cR (cD (cM (cA (cN 1) (cM (cN 2) (cH 1))) (cA (cN 1) (cM (cN 2) (cV 2)))) (cM (cA (cN 1) (cH 1)) (cA (cN 3) (cM (cN 2) (cV 2)))))) (cR (cN 6))).
Definition QST_e465 := (cD (cR (cD (cA (cN 1) (cM (cN 2) (cH 1))) (cA (cN 1) (cH 1)))) (cR (cN 2))).
Definition QST_e466 := (cD (cA (cR (cD (cM (cA (cN 1) (cM (cN 2) (cH 1))) (cW (cV 2) 6)) (cA (cN 2) (cV 2)))) (cM (cN 2) (cR (cD (cA (cV 2) (cM (cM (cN 2) (cH 1)) (cV 2))) (cA (cN 2) (cV 2)))))) (cM (cN 2) (cR (cM (cM (cA (cN 1) (cH 1)) (cV 2)) (cA (cN 1) (cV 2)))))).
Definition QST_e467 := (cD (cA (cA (cN 10) (cM (cN 9) (cV 2))) (cM (cN 2) (cW (cV 2) 4))) (cM (cM (cN 2) (cR (cN 3))) (cR (cD (cM (cM (cA (cN 1) (cH 1)) (cA (cN 1) (cV 2))) (cA (cA (cA (cN 30) (cM (cN 47) (cV 2))) (cM (cN 24) (cW (cV 2) 4))) (cM (cN 4) (cW (cV 2) 6)))) (cA (cN 1) (cM (cN 2) (cH 1))))))).
Definition QST_e468 := (cR (cD (cV 2) (cA (cN 1) (cV 2)))).
Definition QST_e469 := (cD (cM (cA (cN 2) (cV 2)) (cR (cD (cA (cA (cN 1) (cM (cN 3) (cV 2))) (cM (cN 2) (cW (cV 2) 4))) (cA (cA (cN 6) (cM (cN 7) (cV 2))) (cM (cN 2) (cW (cV 2) 4)))))) (cA (cN 1) (cV 2))).
Definition QST_e470 := (cD (cA (cN 3) (cM (cN 2) (cH 1))) (cM (cN 2) (cR (cD (cM (cA (cA (cN 3) (cM (cN 5) (cH 1))) (cM (cN 2) (cW (cH 1) 4))) (cA (cN 1) (cV 2))) (cV 2))))).
Definition QST_e471 := (cD (cM (cM (cA (cN 3) (cM (cN 2) (cH 1))) (cA (cN 2) (cV 2))) (cR (cD (cA (cN 1) (cM (cN 2) (cV 2))) (cM (cA (cA (cN 3) (cM (cN 5) (cH 1))) (cM (cN 2) (cW (cH 1) 4))) (cA (cA (cA (cN 6) (cM (cN 13) (cV 2))) (cM (cN 9) (cW (cV 2) 4))) (cM (cN 2) (cW (cV 2) 6))))))) (cN 2)).
Definition QST_e472 := (cD (cM (cV 2) (cA (cN (-1)) (cM (cN 2) (cV 2)))) (cM (cM (cN 2) (cR (cN 3))) (cR (cM (cV 2) (cA (cA (cA (cN (-3)) (cV 2)) (cM (cN 8) (cW (cV 2) 4))) (cM (cN 4) (cW (cV 2) 6))))))).
Definition QST_e473 := (cD (cM (cH 1) (cV 2)) (cM (cN 2) (cR (cM (cM (cM (cH 1) (cA (cN 1) (cH 1))) (cV 2)) (cA (cN 1) (cV 2)))))).
Definition QST_e474 := (cD (cM (cV 2) (cA (cR (cD (cM (cV 2) (cA (cN 1) (cM (cN 2) (cV 2)))) (cA (cA (cN 3) (cM (cN 5) (cV 2))) (cM (cN 2) (cW (cV 2) 4))))) (cM (cN 2) (cR (cD (cA (cN 1) (cM (cN 2) (cV 2))) (cA (cA (cM (cN 3) (cV 2)) (cM (cN 5) (cW (cV 2) 4))) (cM (cN 2) (cW (cV 2) 6)))))))) (cM (cN 2) (cA (cN 2) (cV 2)))).
Definition QST_e475 := (cD (cM (cM (cH 1) (cA (cN 2) (cV 2))) (cR (cD (cA (cN 1) (cM (cN 2) (cV 2))) (cM (cM (cA (cH 1) (cW (cH 1) 4)) (cA (cN 3) (cM (cN 2) (cV 2)))) (cA (cA (cN 2) (cM (cN 3) (cV 2))) (cW (cV 2) 4)))))) (cN 2)).
Definition QST_e476 := (cD (cA (cA (cR (cD (cM (cM (cA (cN 1) (cM (cN 2) (cH 1))) (cA (cN 1) (cM (cN 2) (cV 2)))) (cA (cA (cN 6) (cM (cN 7) (cV 2))) (cM (cN 2) (cW (cV 2) 4)))) (cA (cN 5) (cM (cN 2) (cV 2))))) (cR (cD (cM (cA (cN 1) (cM (cN 2) (cH 1))) (cA (cA (cN 3) (cM (cN 8) (cV 2))) (cM (cN 4) (cW (cV 2) 4)))) (cA (cA (cN 10) (cM (cN 9) (cV 2))) (cM (cN 2) (cW (cV 2) 4)))))) (cR (cD (cM (cA (cN 1) (cM (cN 2) (cH 1))) (cA (cN 1) (cM (cN 2) (cV 2)))) (cA (cA (cA (cN 30) (cM (cN 47) (cV 2))) (cM (cN 24) (cW (cV 2) 4))) (cM (cN 4) (cW (cV 2) 6)))))) (cM (cR (cN 2)) (cR (cM (cA (cN 1) (cM (cN 2) (cH 1))) (cA (cA (cN 10) (cM (cN 9) (cV 2))) (cM (cN 2) (cW (cV 2) 4))))))).
Definition QST_e477 := (cD (cM (cV 2) (cA (cR (cD (cA (cN 1) (cM (cN 2) (cH 1))) (cM (cA (cN 1) (cH 1)) (cA (cV 2) (cW (cV 2) 4))))) (cM (cN 2) (cR (cD (cA (cA (cN 1) (cM (cN 3) (cH 1))) (cM (cN 2) (cW (cH 1) 4))) (cA (cV 2) (cW (cV 2) 4))))))) (cA (cN 6) (cM (cN 4) (cH 1)))).
Definition QST_e478 := (cD (cM (cA (cN 2) (cV 2)) (cR (cD (cM (cA (cN 1) (cM (cN 2) (cH 1))) (cA (cA (cN 1) (cM (cN 3) (cV 2))) (cM (cN 2) (cW (cV 2) 4)))) (cM (cA (cN 1) (cH 1)) (cA (cA (cN 6) (cM (cN 7) (cV 2))) (cM (cN 2) (cW (cV 2) 4))))))) (cM (cN 2) (cA (cN 1) (cV 2)))).
Definition QST_e479 := (cD (cR (cD (cA (cN (-1)) (cV 2)) (cA (cN 1) (cV 2)))) (cR (cN 2))).
Definition QST_e480 := (cO (cD (cN 1) (cR (cA (cN 2) (cD (cN 2) (cH 1)))))).
Definition QST_e481 := (cD (cM (cM (cR (cN 3)) (cA (cN 2) (cV 2))) (cA (cN (-1)) (cM (cN 2) (cV 2)))) (cM (cN 2) (cR (cM (cA (cN 1) (cV 2)) (cA (cA (cA (cN (-6)) (cM (cN 5) (cV 2))) (cM (cN 12) (cW (cV 2) 4))) (cM (cN 4) (cW (cV 2) 6))))))).
Definition QST_e482 := (cO (cD (cR (cD (cM (cH 1) (cA (cA (cN 2) (cM (cN 3) (cV 2))) (cW (cV 2) 4))) (cA (cN 1) (cH 1)))) (cA (cN 2) (cM (cN 2) (cV 2))))).
Definition QST_e483 := (cD (cM (cM (cR (cN 3)) (cV 2)) (cA (cA (cM (cN 10) (cR (cD (cM (cA (cN 1) (cM (cN 2) (cH 1))) (cA (cN 1) (cM (cN 2) (cV 2)))) (cM (cV 2) (cA (cA (cN 6) (cM (cN 7) (cV 2))) (cM (cN 2) (cW (cV 2) 4))))))) (cM (cN 9) (cR (cD (cM (cM (cA (cN 1) (cM (cN 2) (cH 1))) (cV 2)) (cA (cN 1) (cM (cN 2) (cV 2)))) (cA (cA (cN 6) (cM (cN 7) (cV 2))) (cM (cN 2) (cW (cV 2) 4))))))) (cM (cN 2) (cR (cD (cM (cM (cA (cN 1) (cM (cN 2) (cH 1))) (cW (cV 2) 6)) (cA (cN 1) (cM (cN 2) (cV 2)))) (cA (cA (cN 6) (cM (cN 7) (cV 2))) (cM (cN 2) (cW (cV 2) 4)))))))) (cM (cN 2) (cR (cM (cA (cN 1) (cM (cN 2) (cH 1))) (cA (cA (cA (cA (cN 10) (cM (cN 39) (cV 2))) (cM (cN 49) (cW (cV 2) 4))) (cM (cN 24) (cW (cV 2) 6))) (cM (cN 4) (cW (cV 2) 8))))))).
Definition QST_e484 := (cD (cO (cM (cH 1) (cA (cA (cN 10) (cM (cN 9) (cV 2))) (cM (cN 2) (cW (cV 2) 4))))) (cM (cM (cN 2) (cR (cN 3))) (cR (cM (cM (cM (cH 1) (cA (cN 1) (cH 1))) (cA (cN 3) (cM (cN 2) (cV 2)))) (cA (cA (cA (cN 10) (cM (cN 19) (cV 2))) (cM (cN 11) (cW (cV 2) 4))) (cM (cN 2) (cW (cV 2) 6))))))).
Definition QST_e485 := (cD (cA (cA (cA (cA (cA (cR (cD (cM (cA (cN 1) (cM (cN 2) (cV 2))) (cA (cA (cN 6) (cM (cN 7) (cV 2))) (cM (cN 2) (cW (cV 2) 4)))) (cA (cN 5) (cM (cN 2) (cV 2))))) (cM (cV 2) (cR (cD (cM (cA (cN 1) (cM (cN 2) (cV 2))) (cA (cA (cN 6) (cM (cN 7) (cV 2))) (cM (cN 2) (cW (cV 2) 4)))) (cA (cN 5) (cM (cN 2) (cV 2))))))) (cM (cN 3) (cR (cD (cA (cA (cN 3) (cM (cN 8) (cV 2))) (cM (cN 4) (cW (cV 2) 4))) (cA (cA (cN 10) (cM (cN 9) (cV 2))) (cM (cN 2) (cW (cV 2) 4))))))) (cM (cM (cN 3) (cV 2)) (cR (cD (cA (cA (cN 3) (cM (cN 8) (cV 2))) (cM (cN 4) (cW (cV 2) 4))) (cA (cA (cN 10) (cM (cN 9) (cV 2))) (cM (cN 2) (cW (cV 2) 4))))))) (cM (cN 15) (cR (cD (cA (cN 1) (cM (cN 2) (cV 2))) (cA (cA (cA (cN 30) (cM (cN 47) (cV 2))) (cM (cN 24) (cW (cV 2) 4))) (cM (cN 4) (cW (cV 2) 6))))))) (cM (cM (cN 9) (cV 2)) (cR (cD (cA (cN 1) (cM (cN 2) (cV 2))) (cA (cA (cA (cN 30) (cM (cN 47) (cV 2))) (cM (cN 24) (cW (cV 2) 4))) (cM (cN 4) (cW (cV 2) 6))))))) (cM (cR (cN 2)) (cR (cA (cA (cA (cA (cN 30) (cM (cN 67) (cV 2))) (cM (cN 52) (cW (cV 2) 4))) (cM (cN 17) (cW (cV 2) 6))) (cM (cN 2) (cW (cV 2) 8)))))).
Definition QST_e486 := (cD (cO (cR (cD (cA (cN 2) (cM (cN 4) (cH 1))) (cA (cN 1) (cH 1))))) (cN 2)).
Definition QST_e487 := (cD (cO (cA (cM (cN 2) (cR (cM (cM (cA (cN 1) (cM (cN 2) (cH 1))) (cV 2)) (cA (cA (cN 1) (cM (cN 3) (cV 2))) (cM (cN 2) (cW (cV 2) 4)))))) (cR (cM (cM (cA (cN 1) (cM (cN 2) (cH 1))) (cW (cV 2) 6)) (cA (cA (cN 1) (cM (cN 3) (cV 2))) (cM (cN 2) (cW (cV 2) 4))))))) (cM (cM (cN 2) (cA (cN 1) (cV 2))) (cR (cM (cM (cA (cN 1) (cH 1)) (cV 2)) (cA (cA (cN 2) (cM (cN 5) (cV 2))) (cM (cN 2) (cW (cV 2) 4))))))).
Definition QST_e488 := (cD (cB (cB (cN (-10)) (cM (cN 9) (cV 2))) (cM (cN 2) (cW (cV 2) 4))) (cM (cM (cN 2) (cR (cN 3))) (cR (cD (cM (cM (cA (cN 1) (cH 1)) (cA (cN 1) (cV 2))) (cA (cA (cA (cN 30) (cM (cN 47) (cV 2))) (cM (cN 24) (cW (cV 2) 4))) (cM (cN 4) (cW (cV 2) 6)))) (cA (cN 1) (cM (cN 2) (cH 1))))))).
Definition QST_e489 := (cR (cD (cA (cN 1) (cM (cN 2) (cV 2))) (cA (cN 3) (cM (cN 2) (cV 2))))).
Definition QST_e490 := (cD (cA (cM (cN 3) (cR (cD (cM (cH 1) (cA (cA (cN 1) (cM (cN 3) (cV 2))) (cM (cN 2) (cW (cV 2) 4)))) (cA (cN 3) (cM (cN 2) (cH 1)))))) (cM (cN 2) (cR (cD (cM (cW (cH 1) 6) (cA (cA (cN 1) (cM (cN 3) (cV 2))) (cM (cN 2) (cW (cV 2) 4)))) (cA (cN 3) (cM (cN 2) (cH 1))))))) (cM (cR (cN 3)) (cR (cM (cM (cH 1) (cA (cN 1) (cH 1))) (cA (cA (cN 3) (cM (cN 5) (cV 2))) (cM (cN 2) (cW (cV 2) 4))))))).
Definition QST_e491 := (cD (cR (cD (cM (cA (cN 2) (cH 1)) (cA (cN 1) (cM (cN 2) (cV 2)))) (cM (cA (cN 1) (cH 1)) (cA (cN 3) (cM (cN 2) (cV 2)))))) (cR (cN 3))).
Definition QST_e492 := (cO (cD (cR (cD (cM (cA (cN 1) (cM (cN 2) (cH 1))) (cA (cN 1) (cM (cN 2) (cV 2)))) (cM (cA (cN 1) (cH 1)) (cA (cN 3) (cM (cN 2) (cV 2)))))) (cR (cN 3)))).
Definition QST_e493 := (cD (cO (cR (cD (cA (cN 1) (cM (cN 2) (cH 1))) (cA (cN 1) (cH 1))))) (cN 2)).
Definition QST_e494 := (cD (cO (cM (cA (cN (-1)) (cV 2)) (cR (cD (cA (cN 1) (cM (cN 2) (cH 1))) (cM (cA (cN 1) (cH 1)) (cA (cN (-1)) (cW (cV 2) 4))))))) (cN 2)).
Definition QST_e495 := (cD (cO (cR (cD (cM (cA (cN 1) (cM (cN 2) (cH 1))) (cA (cN 2) (cV 2))) (cM (cA (cN 1) (cH 1)) (cA (cN 1) (cV 2)))))) (cM (cN 2) (cR (cN 2)))).
Definition QST_e496 := (cD (cM (cM (cR (cQ 3 2)) (cB (cN 1) (cM (cN 2) (cV 2)))) (cR (cD (cM (cA (cN 1) (cM (cN 2) (cH 1))) (cA (cN 2) (cV 2))) (cM (cA (cN 1) (cH 1)) (cA (cA (cA (cN (-3)) (cV 2)) (cM (cN 8) (cW (cV 2) 4))) (cM (cN 4) (cW (cV 2) 6))))))) (cN 2)).
Definition QST_e497 := (cD (cB (cB (cN (-10)) (cM (cN 9) (cV 2))) (cM (cN 2) (cW (cV 2) 4))) (cM (cM (cN 2) (cR (cN 6))) (cR (cD (cM (cM (cA (cN 1) (cH 1)) (cA (cN 1) (cV 2))) (cA (cA (cA (cN 30) (cM (cN 47) (cV 2))) (cM (cN 24) (cW (cV 2) 4))) (cM (cN 4) (cW (cV 2) 6)))) (cA (cN 1) (cM (cN 2) (cH 1))))))).
Definition QST_e498 := (cD (cO (cM (cM (cM (cR (cQ 3 2)) (cV 2)) (cA (cN 5) (cM (cN 2) (cV 2)))) (cR (cD (cM (cA (cN 1) (cM (cN 2) (cH 1))) (cA (cN 1) (cV 2))) (cM (cM (cA (cN 1) (cH 1)) (cV 2)) (cA (cA (cN 15) (cM (cN 16) (cV 2))) (cM (cN 4) (cW (cV 2) 4)))))))) (cM (cN 2) (cA (cN 1) (cV 2)))).
Definition QST_e499 := (cD (cO (cA (cA (cM (cM (cN 2) (cW (cV 2) 4)) (cA (cR (cD (cA (cA (cN 2) (cM (cN 5) (cV 2))) (cM (cN 2) (cW (cV 2) 4))) (cA (cA (cN 15) (cM (cN 11) (cV 2))) (cM (cN 2) (cW (cV 2) 4))))) (cM (cN 3) (cR (cD (cA (cN 1) (cM (cN 2) (cV 2))) (cA (cA (cA (cN 30) (cM (cN 37) (cV 2))) (cM (cN 15) (cW (cV 2) 4))) (cM (cN 2) (cW (cV 2) 6)))))))) (cM (cN 3) (cA (cR (cD (cA (cA (cN 2) (cM (cN 5) (cV 2))) (cM (cN 2) (cW (cV 2) 4))) (cA (cA (cN 15) (cM (cN 11) (cV 2))) (cM (cN 2) (cW (cV 2) 4))))) (cM (cN 8) (cR (cD (cA (cN 1) (cM (cN 2) (cV 2))) (cA (cA (cA (cN 30) (cM (cN 37) (cV 2))) (cM (cN 15) (cW (cV 2) 4))) (cM (cN 2) (cW (cV 2) 6))))))))) (cM (cV 2) (cA (cM (cN 5) (cR (cD (cA (cA (cN 2) (cM (cN 5) (cV 2))) (cM (cN 2) (cW (cV 2) 4))) (cA (cA (cN 15) (cM (cN 11) (cV 2))) (cM (cN 2) (cW (cV 2) 4)))))) (cM (cN 24) (cR (cD (cA (cN 1) (cM (cN 2) (cV 2))) (cA (cA (cA (cN 30) (cM (cN 37) (cV 2))) (cM (cN 15) (cW (cV 2) 4))) (cM (cN 2) (cW (cV 2) 6)))))))))) (cM (cN 2) (cR (cD (cM (cA (cN 1) (cH 1)) (cA (cA (cA (cA (cN 30) (cM (cN 77) (cV 2))) (cM (cN 71) (cW (cV 2) 4))) (cM (cN 28) (cW (cV 2) 6))) (cM (cN 4) (cW (cV 2) 8)))) (cA (cN 1) (cM (cN 2) (cH 1))))))).
Definition QST_e500 := (cD (cN 1) (cR (cA (cN 2) (cD (cN 2) (cV 2))))).
Definition QST_e501 := (cD (cB (cV 2) (cM (cN 2) (cW (cV 2) 4))) (cM (cR (cN 6)) (cR (cM (cV 2) (cA (cA (cA (cN (-3)) (cV 2)) (cM (cN 8) (cW (cV 2) 4))) (cM (cN 4) (cW (cV 2) 6))))))).
Definition QST_e502 := (cD (cB (cN 1) (cM (cN 2) (cH 1))) (cM (cR (cN 6)) (cR (cA (cA (cN (-1)) (cH 1)) (cM (cN 2) (cW (cH 1) 4)))))).
Definition QST_e503 := (cD (cM (cA (cN 2) (cV 2)) (cR (cD (cA (cA (cN 1) (cM (cN 3) (cV 2))) (cM (cN 2) (cW (cV 2) 4))) (cA (cA (cN 6) (cM (cN 7) (cV 2))) (cM (cN 2) (cW (cV 2) 4)))))) (cM (cR (cN 2)) (cA (cN 1) (cV 2)))).
Definition QST_e504 := (cO (cD (cR (cD (cM (cV 2) (cA (cA (cN 1) (cM (cN 3) (cV 2))) (cM (cN 2) (cW (cV 2) 4)))) (cA (cN 6) (cM (cN 4) (cV 2))))) (cA (cN 1) (cV 2)))).
Definition QST_e505 := (cO (cR (cD (cA (cN 1) (cM (cN 2) (cV 2))) (cA (cN 3) (cM (cN 2) (cV 2)))))).
Definition QST_e506 := (cD (cA (cN 3) (cM (cN 2) (cH 1))) (cM (cM (cN 2) (cR (cN 2))) (cR (cD (cM (cA (cA (cN 3) (cM (cN 5) (cH 1))) (cM (cN 2) (cW (cH 1) 4))) (cA (cN 1) (cV 2))) (cV 2))))).
Definition QST_e507 := (cD (cO (cM (cM (cA (cN 3) (cM (cN 2) (cH 1))) (cV 2)) (cA (cN (-1)) (cM (cN 2) (cV 2))))) (cM (cM (cN 2) (cR (cN 6))) (cR (cM (cM (cM (cM (cA (cN 1) (cH 1)) (cA (cN 3) (cM (cN 2) (cH 1)))) (cV 2)) (cA (cN 1) (cV 2))) (cA (cA (cN (-3)) (cM (cN 4) (cV 2))) (cM (cN 4) (cW (cV 2) 4))))))).
Definition QST_e508 := (cO (cD (cM (cR (cQ 2 3)) (cH 1)) (cR (cM (cH 1) (cA (cN 1) (cH 1)))))).
Definition QST_e509 := (cD (cM (cA (cN 3) (cM (cN 2) (cH 1))) (cA (cN 2) (cV 2))) (cM (cM (cN 2) (cR (cN 2))) (cR (cD (cM (cM (cM (cA (cN 1) (cH 1)) (cA (cN 3) (cM (cN 2) (cH 1)))) (cA (cN 2) (cV 2))) (cA (cA (cN 3) (cM (cN 5) (cV 2))) (cM (cN 2) (cW (cV 2) 4)))) (cA (cN 1) (cM (cN 2) (cV 2))))))).
Definition QST_e510 := (cD (cO (cM (cA (cN 3) (cM (cN 2) (cH 1))) (cV 2))) (cM (cM (cM (cN 2) (cR (cN 2))) (cA (cN 1) (cV 2))) (cR (cD (cM (cM (cA (cA (cN 3) (cM (cN 5) (cH 1))) (cM (cN 2) (cW (cH 1) 4))) (cV 2)) (cA (cN 3) (cM (cN 2) (cV 2)))) (cA (cA (cN 1) (cM (cN 3) (cV 2))) (cM (cN 2) (cW (cV 2) 4))))))).
Definition QST_e511 := (cD (cO (cM (cA (cN 3) (cM (cN 2) (cH 1))) (cR (cD (cA (cN 1) (cM (cN 2) (cV 2))) (cM (cA (cA (cN 3) (cM (cN 5) (cH 1))) (cM (cN 2) (cW (cH 1) 4))) (cA (cN 3) (cM (cN 2) (cV 2)))))))) (cN 2)).
Definition QST_e512 := (cD (cO (cA (cA (cR (cD (cM (cA (cN 1) (cM (cN 2) (cH 1))) (cA (cA (cN 3) (cM (cN 5) (cH 1))) (cM (cN 2) (cW (cH 1) 4)))) (cA (cN 2) (cH 1)))) (cM (cN 2) (cR (cD (cM (cA (cN 1) (cH 1)) (cA (cN 1) (cM (cN 2) (cH 1)))) (cA (cA (cN 6) (cM (cN 7) (cH 1))) (cM (cN 2) (cW (cH 1) 4))))))) (cR (cD (cA (cN 1) (cM (cN 2) (cH 1))) (cA (cA (cA (cN 6) (cM (cN 13) (cH 1))) (cM (cN 9) (cW (cH 1) 4))) (cM (cN 2) (cW (cH 1) 6))))))) (cM (cN 2) (cR (cA (cA (cN 3) (cD (cM (cN 7) (cH 1)) (cN 2))) (cW (cH 1) 4))))).
Definition QST_e513 := (cO (cD (cN 1) (cR (cN 3)))).
Definition QST_e514 := (cD (cM (cV 2) (cA (cN (-1)) (cM (cN 2) (cV 2)))) (cM (cR (cN 6)) (cR (cM (cV 2) (cA (cA (cA (cN (-3)) (cV 2)) (cM (cN 8) (cW (cV 2) 4))) (cM (cN 4) (cW (cV 2) 6))))))).
Definition QST_e515 := (cO (cD (cM (cH 1) (cV 2)) (cM (cR (cN 2)) (cR (cM (cM (cM (cH 1) (cA (cN 1) (cH 1))) (cV 2)) (cA (cN 1) (cV 2))))))).
Definition QST_e516 := (cD (cM (cV 2) (cA (cR (cD (cM (cV 2) (cA (cN 1) (cM (cN 2) (cV 2)))) (cA (cA (cN 3) (cM (cN 5) (cV 2))) (cM (cN 2) (cW (cV 2) 4))))) (cM (cN 2) (cR (cD (cA (cN 1) (cM (cN 2) (cV 2))) (cA (cA (cM (cN 3) (cV 2)) (cM (cN 5) (cW (cV 2) 4))) (cM (cN 2) (cW (cV 2) 6)))))))) (cM (cR (cN 2)) (cA (cN 2) (cV 2)))).
Definition QST_e517 := (cO (cD (cM (cH 1) (cA (cN 2) (cV 2))) (cM (cR (cN 2)) (cR (cD (cM (cM (cM (cH 1) (cA (cN 1) (cH 1))) (cA (cN 3) (cM (cN 2) (cV 2)))) (cA (cA (cN 2) (cM (cN 3) (cV 2))) (cW (cV 2) 4))) (cA (cN 1) (cM (cN 2) (cV 2)))))))).
Definition QST_e518 := (cD (cA (cA (cR (cD (cA (cN 1) (cM (cN 2) (cV 2))) (cA (cN 3) (cM (cN 2) (cV 2))))) (cM (cN 3) (cR (cA (cA (cN 3) (cM (cN 8) (cV 2))) (cM (cN 4) (cW (cV 2) 4)))))) (cM (cV 2) (cR (cA (cA (cN 3) (cM (cN 8) (cV 2))) (cM (cN 4) (cW (cV 2) 4)))))) (cA (cA (cN 10) (cM (cN 9) (cV 2))) (cM (cN 2) (cW (cV 2) 4)))).
Definition QST_e519 := (cO (cD (cM (cV 2) (cA (cR (cD (cA (cN 1) (cM (cN 2) (cH 1))) (cM (cM (cA (cA (cN 3) (cM (cN 5) (cH 1))) (cM (cN 2) (cW (cH 1) 4))) (cV 2)) (cA (cN 1) (cV 2))))) (cM (cN 2) (cR (cD (cM (cA (cN 1) (cH 1)) (cA (cN 1) (cM (cN 2) (cH 1)))) (cM (cA (cN 3) (cM (cN 2) (cH 1))) (cA (cV 2) (cW (cV 2) 4)))))))) (cR (cA (cN 6) (cM (cN 4) (cH 1)))))).
Definition QST_e520 := (cO (cD (cM (cA (cN 2) (cV 2)) (cR (cM (cA (cN 1) (cM (cN 2) (cH 1))) (cA (cA (cN 1) (cM (cN 3) (cV 2))) (cM (cN 2) (cW (cV 2) 4)))))) (cM (cM (cR (cN 2)) (cA (cN 1) (cV 2))) (cR (cM (cA (cN 1) (cH 1)) (cA (cA (cN 6) (cM (cN 7) (cV 2))) (cM (cN 2) (cW (cV 2) 4)))))))).
Definition QST_e521 := (cO (cD (cR (cD (cM (cA (cN 1) (cM (cN 2) (cH 1))) (cA (cN 1) (cM (cN 2) (cV 2)))) (cM (cA (cN 1) (cH 1)) (cA (cN 3) (cM (cN 2) (cV 2)))))) (cR (cN 2)))).
Definition QST_e522 := (cO (cD (cR (cD (cA (cN 1) (cM (cN 2) (cH 1))) (cA (cN 1) (cH 1)))) (cR (cN 6)))).
Definition QST_e523 := (cD (cA (cN (-1)) (cV 2)) (cM (cN 2) (cR (cD (cM (cM (cA (cN 1) (cH 1)) (cA (cN (-1)) (cV 2))) (cV 2)) (cA (cN 1) (cM (cN 2) (cH 1))))))).
Definition QST_e524 := (cD (cM (cA (cN (-1)) (cM (cN 2) (cV 2))) (cA (cM (cN 2) (cR (cM (cA (cN 1) (cM (cN 2) (cH 1))) (cW (cV 2) 6)))) (cM (cN 3) (cR (cA (cV 2) (cM (cM (cN 2) (cH 1)) (cV 2))))))) (cM (cM (cM (cN 2) (cR (cN 3))) (cV 2)) (cR (cM (cA (cN 1) (cH 1)) (cA (cA (cA (cN (-3)) (cV 2)) (cM (cN 8) (cW (cV 2) 4))) (cM (cN 4) (cW (cV 2) 6))))))).
Definition QST_e525 := (cD (cA (cN 2) (cV 2)) (cM (cN 2) (cR (cD (cM (cA (cN 1) (cH 1)) (cA (cA (cN 2) (cM (cN 3) (cV 2))) (cW (cV 2) 4))) (cA (cN 1) (cM (cN 2) (cH 1))))))).
Definition QST_e526 := (cO (cR (cA (cN 1) (cD (cN 1) (cV 2))))).
Definition QST_e527 := (cO (cD (cN 1) (cR (cM (cV 2) (cA (cN 1) (cV 2)))))).
Definition QST_e528 := (cD (cO (cM (cA (cN 3) (cM (cN 2) (cH 1))) (cR (cD (cA (cN 1) (cV 2)) (cA (cA (cM (cN 3) (cV 2)) (cM (cM (cN 5) (cH 1)) (cV 2))) (cM (cM (cN 2) (cW (cH 1) 4)) (cV 2))))))) (cN 2)).
Definition QST_e529 := (cD (cO (cA (cN 3) (cM (cN 2) (cH 1)))) (cM (cN 2) (cR (cM (cM (cA (cA (cN 3) (cM (cN 5) (cH 1))) (cM (cN 2) (cW (cH 1) 4))) (cV 2)) (cA (cN 1) (cV 2)))))).
Definition QST_e530 := (cD (cB (cN 1) (cV 2)) (cM (cN 2) (cR (cM (cA (cN (-1)) (cV 2)) (cV 2))))).
Definition QST_e531 := (cD (cO (cR (cD (cM (cM (cH 1) (cV 2)) (cA (cN 1) (cV 2))) (cA (cN 1) (cH 1))))) (cM (cN 2) (cV 2))).
Definition QST_e532 := (cD (cO (cM (cA (cN (-1)) (cM (cN 2) (cV 2))) (cA (cM (cN 2) (cR (cM (cA (cN 1) (cM (cN 2) (cH 1))) (cW (cV 2) 6)))) (cM (cN 3) (cR (cA (cV 2) (cM (cM (cN 2) (cH 1)) (cV 2)))))))) (cM (cM (cM (cN 2) (cR (cN 3))) (cV 2)) (cR (cM (cA (cN 1) (cM (cN 2) (cH 1))) (cA (cA (cA (cN (-3)) (cV 2)) (cM (cN 8) (cW (cV 2) 4))) (cM (cN 4) (cW (cV 2) 6))))))).
Definition QST_e533 := (cD (cO (cH 1)) (cM (cN 2) (cR (cM (cM (cM (cH 1) (cA (cN 1) (cH 1))) (cV 2)) (cA (cN 1) (cV 2)))))).
Definition QST_e534 := (cD (cO (cM (cV 2) (cA (cA (cM (cA (cN 1) (cM (cN 2) (cV 2))) (cR (cD (cM (cA (cN 1) (cM (cN 2) (cH 1))) (cA (cN 1) (cV 2))) (cM (cV 2) (cA (cA (cN 6) (cM (cN 7) (cV 2))) (cM (cN 2) (cW (cV 2) 4))))))) (cM (cN 3) (cR (cD (cA (cN 1) (cM (cN 2) (cH 1))) (cA (cA (cA (cM (cN 6) (cV 2)) (cM (cN 13) (cW (cV 2) 4))) (cM (cN 9) (cW (cV 2) 6))) (cM (cN 2) (cW (cV 2) 8))))))) (cM (cM (cN 2) (cA (cN 1) (cM (cN 2) (cV 2)))) (cR (cD (cA (cN 1) (cM (cN 2) (cH 1))) (cA (cA (cA (cM (cN 6) (cV 2)) (cM (cN 13) (cW (cV 2) 4))) (cM (cN 9) (cW (cV 2) 6))) (cM (cN 2) (cW (cV 2) 8))))))))) (cM (cN 2) (cR (cM (cM (cA (cN 1) (cM (cN 2) (cH 1))) (cV 2)) (cA (cN 3) (cM (cN 2) (cV 2))))))).
Definition QST_e535 := (cD (cM (cH 1) (cB (cM (cA (cN 1) (cM (cN 2) (cV 2))) (cR (cD (cA (cN 1) (cV 2)) (cM (cA (cH 1) (cW (cH 1) 4)) (cA (cN 3) (cM (cN 2) (cV 2))))))) (cR (cD (cN 1) (cM (cM (cH 1) (cA (cN 1) (cH 1))) (cA (cA (cN 3) (cM (cN 5) (cV 2))) (cM (cN 2) (cW (cV 2) 4)))))))) (cM (cN 2) (cR (cM (cV 2) (cA (cN 3) (cM (cN 2) (cV 2))))))).
Definition QST_e536 := (cD (cO (cR (cD (cA (cA (cA (cN 1) (cM (cN 2) (cH 1))) (cV 2)) (cM (cM (cN 2) (cH 1)) (cV 2))) (cA (cV 2) (cM (cH 1) (cV 2)))))) (cN 2)).
Definition QST_e537 := (cD (cN (-1)) (cM (cN 2) (cR (cD (cM (cM (cA (cN 1) (cH 1)) (cV 2)) (cA (cN 1) (cV 2))) (cA (cN 1) (cM (cN 2) (cH 1))))))).
Definition QST_e538 := (cD (cV 2) (cM (cN 2) (cR (cD (cM (cM (cA (cN 1) (cH 1)) (cV 2)) (cA (cN 1) (cV 2))) (cA (cN 1) (cM (cN 2) (cH 1))))))).
Definition QST_e539 := (cD (cO (cA (cA (cB (cR (cD (cM (cV 2) (cA (cN (-1)) (cM (cN 2) (cV 2)))) (cA (cN (-1)) (cW (cV 2) 4)))) (cM (cM (cN 2) (cV 2)) (cR (cD (cM (cV 2) (cA (cN (-1)) (cM (cN 2) (cV 2)))) (cA (cN (-1)) (cW (cV 2) 4)))))) (cR (cD (cM (cW (cV 2) 10) (cA (cN (-1)) (cM (cN 2) (cV 2)))) (cA (cN (-1)) (cW (cV 2) 4))))) (cM (cN 4) (cR (cD (cM (cV 2) (cA (cB (cN 1) (cM (cN 3) (cV 2))) (cM (cN 2) (cW (cV 2) 4)))) (cA (cN 1) (cV 2))))))) (cM (cM (cN 2) (cV 2)) (cR (cA (cB (cN 1) (cM (cN 3) (cV 2))) (cM (cN 2) (cW (cV 2) 4)))))).
Definition QST_e540 := (cD (cO (cR (cD (cM (cM (cH 1) (cA (cN (-1)) (cV 2))) (cV 2)) (cA (cN 1) (cH 1))))) (cM (cN 2) (cV 2))).
Definition QST_e541 := (cD (cN (-3)) (cM (cN 2) (cR (cM (cV 2) (cA (cN 1) (cV 2)))))).
Definition QST_e542 := (cD (cO (cM (cM (cH 1) (cA (cN (-1)) (cM (cN 2) (cV 2)))) (cA (cM (cN 2) (cR (cM (cA (cN 1) (cM (cN 2) (cH 1))) (cW (cV 2) 6)))) (cM (cN 3) (cR (cA (cV 2) (cM (cM (cN 2) (cH 1)) (cV 2)))))))) (cM (cM (cN 2) (cR (cN 3))) (cR (cM (cM (cM (cH 1) (cA (cA (cN 1) (cM (cN 3) (cH 1))) (cM (cN 2) (cW (cH 1) 4)))) (cW (cV 2) 4)) (cA (cA (cA (cN (-3)) (cV 2)) (cM (cN 8) (cW (cV 2) 4))) (cM (cN 4) (cW (cV 2) 6))))))).
Definition QST_e543 := (cD (cA (cN (-2)) (cV 2)) (cM (cN 2) (cR (cM (cV 2) (cA (cN 1) (cV 2)))))).
Definition QST_e544 := (cD (cO (cM (cH 1) (cA (cN 2) (cV 2)))) (cM (cN 2) (cR (cM (cM (cH 1) (cA (cN 1) (cH 1))) (cA (cA (cN 2) (cM (cN 3) (cV 2))) (cW (cV 2) 4)))))).
Definition QST_e545 := (cD (cO (cA (cN (-1)) (cV 2))) (cM (cN 2) (cR (cD (cM (cM (cA (cN 1) (cH 1)) (cA (cN (-1)) (cV 2))) (cV 2)) (cA (cN 1) (cM (cN 2) (cH 1))))))).
Definition QST_e546 := (cD (cO (cM (cA (cN (-1)) (cM (cN 2) (cV 2))) (cA (cN 3) (cM (cN 2) (cV 2))))) (cM (cM (cN 2) (cR (cN 3))) (cR (cD (cM (cM (cA (cN 1) (cH 1)) (cV 2)) (cA (cA (cA (cN (-3)) (cV 2)) (cM (cN 8) (cW (cV 2) 4))) (cM (cN 4) (cW (cV 2) 6)))) (cA (cN 1) (cM (cN 2) (cH 1))))))).
Definition QST_e547 := (cD (cO (cA (cN 2) (cV 2))) (cM (cN 2) (cR (cD (cM (cM (cA (cN 1) (cH 1)) (cA (cN 1) (cV 2))) (cA (cN 2) (cV 2))) (cA (cN 1) (cM (cN 2) (cH 1))))))).
Definition QST_e548 := (cO (cD (cR (cD (cA (cN 3) (cM (cN 2) (cH 1))) (cA (cN 1) (cH 1)))) (cR (cN 3)))).
Definition QST_e549 := (cO (cD (cA (cN 2) (cH 1)) (cM (cR (cN 3)) (cR (cA (cA (cN 2) (cM (cN 3) (cH 1))) (cW (cH 1) 4)))))).
Definition QST_e550 := (cD (cR (cD (cA (cN 1) (cM (cN 2) (cH 1))) (cA (cN 1) (cH 1)))) (cR (cN 3))).
Definition QST_e551 := (cD (cR (cD (cM (cM (cA (cN 1) (cM (cN 2) (cH 1))) (cV 2)) (cA (cN 1) (cV 2))) (cA (cN 1) (cH 1)))) (cM (cR (cN 2)) (cV 2))).
Definition QST_e552 := (cD (cB (cN 1) (cV 2)) (cM (cM (cN 2) (cR (cN 2))) (cR (cD (cM (cM (cA (cN 1) (cH 1)) (cA (cN (-1)) (cV 2))) (cV 2)) (cA (cN 1) (cM (cN 2) (cH 1))))))).
Definition QST_e553 := (cD (cA (cA (cB (cR (cD (cM (cV 2) (cA (cN (-1)) (cM (cN 2) (cV 2)))) (cA (cN (-1)) (cW (cV 2) 4)))) (cM (cM (cN 2) (cV 2)) (cR (cD (cM (cV 2) (cA (cN (-1)) (cM (cN 2) (cV 2)))) (cA (cN (-1)) (cW (cV 2) 4)))))) (cR (cD (cM (cW (cV 2) 10) (cA (cN (-1)) (cM (cN 2) (cV 2)))) (cA (cN (-1)) (cW (cV 2) 4))))) (cM (cN 4) (cR (cD (cM (cV 2) (cA (cB (cN 1) (cM (cN 3) (cV 2))) (cM (cN 2) (cW (cV 2) 4)))) (cA (cN 1) (cV 2)))))) (cM (cM (cM (cN 2) (cR (cN 2))) (cV 2)) (cR (cD (cM (cA (cN 1) (cH 1)) (cA (cB (cN 1) (cM (cN 3) (cV 2))) (cM (cN 2) (cW (cV 2) 4)))) (cA (cN 1) (cM (cN 2) (cH 1))))))).
Definition QST_e554 := (cD (cO (cM (cA (cN (-1)) (cM (cN 2) (cV 2))) (cA (cM (cN 2) (cR (cM (cA (cN 1) (cM (cN 2) (cH 1))) (cW (cV 2) 6)))) (cM (cN 3) (cR (cA (cV 2) (cM (cM (cN 2) (cH 1)) (cV 2)))))))) (cM (cM (cM (cN 2) (cR (cN 6))) (cV 2)) (cR (cM (cA (cN 1) (cH 1)) (cA (cA (cA (cN (-3)) (cV 2)) (cM (cN 8) (cW (cV 2) 4))) (cM (cN 4) (cW (cV 2) 6))))))).
Definition QST_e555 := (cD (cN 3) (cM (cM (cN 2) (cR (cN 2))) (cR (cD (cM (cM (cA (cN 1) (cH 1)) (cV 2)) (cA (cN 1) (cV 2))) (cA (cN 1) (cM (cN 2) (cH 1))))))).
Definition QST_e556 := (cD (cO (cA (cN 2) (cV 2))) (cM (cM (cN 2) (cR (cN 2))) (cR (cD (cM (cA (cN 1) (cH 1)) (cA (cA (cN 2) (cM (cN 3) (cV 2))) (cW (cV 2) 4))) (cA (cN 1) (cM (cN 2) (cH 1))))))).
Definition QST_e557 := (cD (cO (cA (cN (-2)) (cV 2))) (cM (cM (cN 2) (cR (cN 2))) (cR (cD (cM (cM (cA (cN 1) (cH 1)) (cV 2)) (cA (cN 1) (cV 2))) (cA (cN 1) (cM (cN 2) (cH 1))))))).
Definition QST_e558 := (cD (cO (cM (cR (cA (cN 2) (cM (cN 4) (cH 1)))) (cB (cB (cA (cM (cA (cN 1) (cM (cN 2) (cV 2))) (cR (cD (cA (cA (cN 3) (cM (cN 5) (cV 2))) (cM (cN 2) (cW (cV 2) 4))) (cA (cA (cN 10) (cM (cN 9) (cV 2))) (cM (cN 2) (cW (cV 2) 4)))))) (cD (cA (cN 1) (cM (cN 2) (cV 2))) (cR (cD (cA (cN 5) (cM (cN 2) (cV 2))) (cA (cA (cA (cN 6) (cM (cN 13) (cV 2))) (cM (cN 9) (cW (cV 2) 4))) (cM (cN 2) (cW (cV 2) 6))))))) (cD (cN 6) (cR (cA (cA (cA (cA (cN 30) (cM (cN 77) (cV 2))) (cM (cN 71) (cW (cV 2) 4))) (cM (cN 28) (cW (cV 2) 6))) (cM (cN 4) (cW (cV 2) 8)))))) (cD (cM (cN 3) (cA (cN 1) (cM (cN 2) (cV 2)))) (cR (cA (cA (cA (cA (cN 30) (cM (cN 77) (cV 2))) (cM (cN 71) (cW (cV 2) 4))) (cM (cN 28) (cW (cV 2) 6))) (cM (cN 4) (cW (cV 2) 8)))))))) (cM (cN 2) (cR (cM (cM (cA (cN 1) (cH 1)) (cV 2)) (cA (cA (cA (cN 30) (cM (cN 47) (cV 2))) (cM (cN 24) (cW (cV 2) 4))) (cM (cN 4) (cW (cV 2) 6))))))).
Definition QST_e559 := (cO (cD (cR (cA (cN 1) (cD (cN 1) (cV 2)))) (cR (cN 2)))).
Definition QST_e560 := (cD (cA (cN (-1)) (cV 2)) (cM (cR (cB (cN 2) (cD (cN 2) (cV 2)))) (cV 2))).
Definition QST_e561 := (cO (cD (cN 1) (cM (cR (cN 2)) (cR (cM (cV 2) (cA (cN 1) (cV 2))))))).
Definition QST_e562 := (cD (cM (cA (cN (-1)) (cM (cN 2) (cV 2))) (cA (cN 3) (cM (cN 2) (cV 2)))) (cM (cR (cN 6)) (cR (cM (cV 2) (cA (cA (cA (cN (-3)) (cV 2)) (cM (cN 8) (cW (cV 2) 4))) (cM (cN 4) (cW (cV 2) 6))))))).
Definition QST_e563 := (cD (cV 2) (cM (cR (cN 2)) (cR (cM (cV 2) (cA (cN 1) (cV 2)))))).
Definition QST_e564 := (cD (cA (cN 2) (cV 2)) (cM (cR (cN 2)) (cR (cM (cA (cN 1) (cV 2)) (cA (cN 2) (cV 2)))))).
Definition QST_e565 := (cD (cO (cA (cN 3) (cM (cN 2) (cH 1)))) (cM (cM (cN 2) (cR (cN 2))) (cR (cD (cM (cM (cA (cN 1) (cH 1)) (cA (cN 3) (cM (cN 2) (cH 1)))) (cV 2)) (cA (cN 1) (cV 2)))))).
Definition QST_e566 := (cD (cM (cA (cN 3) (cM (cN 2) (cH 1))) (cA (cN (-1)) (cV 2))) (cM (cM (cN 2) (cR (cN 2))) (cR (cM (cM (cA (cA (cN 3) (cM (cN 5) (cH 1))) (cM (cN 2) (cW (cH 1) 4))) (cA (cN (-1)) (cV 2))) (cV 2))))).
Definition QST_e567 := (cD (cO (cA (cN 3) (cM (cN 2) (cH 1)))) (cM (cM (cN 2) (cR (cN 2))) (cR (cM (cM (cA (cA (cN 3) (cM (cN 5) (cH 1))) (cM (cN 2) (cW (cH 1) 4))) (cV 2)) (cA (cN 1) (cV 2)))))).
Definition QST_e568 := (cD (cM (cM (cA (cN 3) (cM (cN 2) (cH 1))) (cA (cN (-1)) (cM (cN 2) (cV 2)))) (cA (cM (cN 2) (cR (cM (cA (cN 1) (cM (cN 2) (cH 1))) (cW (cV 2) 6)))) (cM (cN 3) (cR (cA (cV 2) (cM (cM (cN 2) (cH 1)) (cV 2))))))) (cM (cM (cN 2) (cR (cN 6))) (cR (cM (cM (cM (cA (cN 1) (cH 1)) (cA (cA (cN 3) (cM (cN 8) (cH 1))) (cM (cN 4) (cW (cH 1) 4)))) (cW (cV 2) 4)) (cA (cA (cA (cN (-3)) (cV 2)) (cM (cN 8) (cW (cV 2) 4))) (cM (cN 4) (cW (cV 2) 6))))))).
Definition QST_e569 := (cO (cD (cM (cM (cR (cQ 2 3)) (cH 1)) (cA (cM (cN 2) (cR (cD (cM (cH 1) (cA (cN 1) (cM (cN 2) (cH 1)))) (cA (cA (cN 3) (cM (cN 5) (cH 1))) (cM (cN 2) (cW (cH 1) 4)))))) (cM (cN 3) (cR (cD (cA (cN 1) (cM (cN 2) (cH 1))) (cA (cA (cM (cN 3) (cH 1)) (cM (cN 5) (cW (cH 1) 4))) (cM (cN 2) (cW (cH 1) 6)))))))) (cR (cA (cA (cN 3) (cM (cN 8) (cH 1))) (cM (cN 4) (cW (cH 1) 4)))))).
Definition QST_e570 := (cD (cM (cA (cN 3) (cM (cN 2) (cH 1))) (cV 2)) (cM (cM (cN 2) (cR (cN 2))) (cR (cM (cM (cA (cA (cN 3) (cM (cN 5) (cH 1))) (cM (cN 2) (cW (cH 1) 4))) (cV 2)) (cA (cN 1) (cV 2)))))).
Definition QST_e571 := (cD (cM (cA (cN 3) (cM (cN 2) (cH 1))) (cA (cN 2) (cV 2))) (cM (cM (cN 2) (cR (cN 2))) (cR (cM (cM (cA (cA (cN 3) (cM (cN 5) (cH 1))) (cM (cN 2) (cW (cH 1) 4))) (cA (cN 1) (cV 2))) (cA (cN 2) (cV 2)))))).
Definition QST_e572 := (cO (cD (cA (cA (cR (cD (cA (cN 1) (cM (cN 2) (cH 1))) (cA (cN 1) (cH 1)))) (cM (cN 5) (cR (cA (cA (cN 1) (cM (cN 3) (cH 1))) (cM (cN 2) (cW (cH 1) 4)))))) (cM (cM (cN 2) (cH 1)) (cR (cA (cA (cN 1) (cM (cN 3) (cH 1))) (cM (cN 2) (cW (cH 1) 4)))))) (cM (cR (cN 2)) (cA (cA (cN 6) (cM (cN 7) (cH 1))) (cM (cN 2) (cW (cH 1) 4)))))).
Definition QST_e573 := (cO (cD (cA (cN (-1)) (cV 2)) (cM (cR (cB (cN 2) (cD (cN 2) (cV 2)))) (cV 2)))).
Definition QST_e574 := (cD (cR (cD (cM (cM (cH 1) (cV 2)) (cA (cN 1) (cV 2))) (cA (cN 1) (cH 1)))) (cM (cR (cN 2)) (cV 2))).
Definition QST_e575 := (cO (cD (cM (cA (cN (-1)) (cM (cN 2) (cV 2))) (cA (cM (cN 2) (cR (cM (cA (cN 1) (cM (cN 2) (cH 1))) (cW (cV 2) 6)))) (cM (cN 3) (cR (cA (cV 2) (cM (cM (cN 2) (cH 1)) (cV 2))))))) (cM (cM (cR (cN 6)) (cV 2)) (cR (cM (cA (cN 1) (cM (cN 2) (cH 1))) (cA (cA (cA (cN (-3)) (cV 2)) (cM (cN 8) (cW (cV 2) 4))) (cM (cN 4) (cW (cV 2) 6)))))))).
Definition QST_e576 := (cD (cH 1) (cM (cR (cN 2)) (cR (cM (cM (cM (cH 1) (cA (cN 1) (cH 1))) (cV 2)) (cA (cN 1) (cV 2)))))).
Definition QST_e577 := (cO (cD (cM (cV 2) (cA (cA (cM (cA (cN 1) (cM (cN 2) (cV 2))) (cR (cD (cM (cA (cN 1) (cM (cN 2) (cH 1))) (cA (cN 1) (cV 2))) (cM (cV 2) (cA (cA (cN 6) (cM (cN 7) (cV 2))) (cM (cN 2) (cW (cV 2) 4))))))) (cM (cN 3) (cR (cD (cA (cN 1) (cM (cN 2) (cH 1))) (cA (cA (cA (cM (cN 6) (cV 2)) (cM (cN 13) (cW (cV 2) 4))) (cM (cN 9) (cW (cV 2) 6))) (cM (cN 2) (cW (cV 2) 8))))))) (cM (cM (cN 2) (cA (cN 1) (cM (cN 2) (cV 2)))) (cR (cD (cA (cN 1) (cM (cN 2) (cH 1))) (cA (cA (cA (cM (cN 6) (cV 2)) (cM (cN 13) (cW (cV 2) 4))) (cM (cN 9) (cW (cV 2) 6))) (cM (cN 2) (cW (cV 2) 8)))))))) (cM (cR (cN 2)) (cR (cM (cM (cA (cN 1) (cM (cN 2) (cH 1))) (cV 2)) (cA (cN 3) (cM (cN 2) (cV 2)))))))).
Definition QST_e578 := (cD (cM (cH 1) (cA (cO (cM (cA (cN 1) (cM (cN 2) (cV 2))) (cR (cD (cA (cN 1) (cV 2)) (cM (cA (cH 1) (cW (cH 1) 4)) (cA (cN 3) (cM (cN 2) (cV 2)))))))) (cR (cD (cN 1) (cM (cM (cH 1) (cA (cN 1) (cH 1))) (cA (cA (cN 3) (cM (cN 5) (cV 2))) (cM (cN 2) (cW (cV 2) 4)))))))) (cM (cR (cN 2)) (cR (cM (cV 2) (cA (cN 3) (cM (cN 2) (cV 2))))))).
Definition QST_e579 := (cD (cR (cD (cM (cA (cN 1) (cM (cN 2) (cH 1))) (cA (cN 1) (cV 2))) (cM (cA (cN 1) (cH 1)) (cV 2)))) (cR (cN 2))).
Definition QST_e580 := (cD (cN 1) (cM (cR (cN 2)) (cR (cD (cM (cM (cA (cN 1) (cH 1)) (cV 2)) (cA (cN 1) (cV 2))) (cA (cN 1) (cM (cN 2) (cH 1))))))).
Definition QST_e581 := (cO (cD (cV 2) (cM (cR (cN 2)) (cR (cD (cM (cM (cA (cN 1) (cH 1)) (cV 2)) (cA (cN 1) (cV 2))) (cA (cN 1) (cM (cN 2) (cH 1)))))))).
Definition QST_e582 := (cD (cR (cD (cM (cA (cN 1) (cM (cN 2) (cH 1))) (cA (cN 1) (cM (cN 2) (cV 2)))) (cM (cA (cN 1) (cH 1)) (cA (cN (-1)) (cM (cN 2) (cV 2)))))) (cR (cN 6))).
Definition QST_e583 := (cD (cM (cA (cN 1) (cM (cN 2) (cH 1))) (cA (cB (cN 3) (cM (cN 5) (cV 2))) (cM (cN 2) (cW (cV 2) 4)))) (cM (cM (cN 2) (cR (cN 3))) (cR (cM (cM (cM (cM (cA (cN 1) (cH 1)) (cA (cN 1) (cM (cN 2) (cH 1)))) (cV 2)) (cA (cN (-1)) (cM (cN 2) (cV 2)))) (cA (cB (cN 3) (cM (cN 5) (cV 2))) (cM (cN 2) (cW (cV 2) 4))))))).
Definition QST_e584 := (cD (cM (cR (cD (cM (cA (cN 2) (cM (cN 4) (cH 1))) (cA (cN 1) (cM (cN 2) (cV 2)))) (cM (cA (cN 1) (cH 1)) (cA (cA (cA (cN (-3)) (cV 2)) (cM (cN 8) (cW (cV 2) 4))) (cM (cN 4) (cW (cV 2) 6)))))) (cA (cA (cR (cD (cM (cA (cN (-1)) (cM (cN 2) (cV 2))) (cA (cA (cN 1) (cM (cN 3) (cV 2))) (cM (cN 2) (cW (cV 2) 4)))) (cA (cN 3) (cM (cN 2) (cV 2))))) (cR (cD (cA (cN (-1)) (cM (cN 4) (cW (cV 2) 4))) (cA (cA (cN 3) (cM (cN 5) (cV 2))) (cM (cN 2) (cW (cV 2) 4)))))) (cR (cD (cA (cN (-1)) (cM (cN 2) (cV 2))) (cA (cA (cA (cN 3) (cM (cN 11) (cV 2))) (cM (cN 12) (cW (cV 2) 4))) (cM (cN 4) (cW (cV 2) 6))))))) (cN 2)).
Definition QST_e585 := (cO (cR (cD (cB (cA (cN 1) (cV 2)) (cM (cN 2) (cW (cV 2) 4))) (cB (cV 2) (cM (cN 2) (cW (cV 2) 4)))))).
Definition QST_e586 := (cD (cO (cM (cM (cA (cN 3) (cM (cN 2) (cH 1))) (cA (cN (-1)) (cV 2))) (cR (cD (cM (cV 2) (cA (cN 1) (cM (cN 2) (cV 2)))) (cM (cA (cA (cN 3) (cM (cN 5) (cH 1))) (cM (cN 2) (cW (cH 1) 4))) (cA (cB (cN 1) (cM (cN 3) (cV 2))) (cM (cN 2) (cW (cV 2) 4)))))))) (cM (cN 2) (cV 2))).
Definition QST_e587 := (cD (cB (cN (-3)) (cM (cN 2) (cH 1))) (cM (cN 2) (cR (cD (cM (cA (cA (cN 3) (cM (cN 5) (cH 1))) (cM (cN 2) (cW (cH 1) 4))) (cV 2)) (cA (cN 1) (cV 2)))))).
Definition QST_e588 := (cR (cD (cA (cN 1) (cM (cN 2) (cV 2))) (cA (cN (-2)) (cM (cN 4) (cV 2))))).
Definition QST_e589 := (cD (cA (cB (cA (cM (cN 2) (cR (cD (cM (cA (cN 1) (cM (cN 2) (cH 1))) (cA (cN (-1)) (cV 2))) (cA (cN 1) (cV 2))))) (cR (cD (cA (cN 1) (cM (cN 2) (cH 1))) (cA (cN (-1)) (cW (cV 2) 4))))) (cM (cM (cN 2) (cV 2)) (cR (cD (cA (cN 1) (cM (cN 2) (cH 1))) (cA (cN (-1)) (cW (cV 2) 4)))))) (cM (cW (cV 2) 4) (cR (cD (cA (cN 1) (cM (cN 2) (cH 1))) (cA (cN (-1)) (cW (cV 2) 4)))))) (cM (cN 2) (cR (cD (cM (cM (cM (cA (cN 1) (cM (cN 2) (cH 1))) (cA (cN (-1)) (cV 2))) (cV 2)) (cA (cN (-1)) (cM (cN 2) (cV 2)))) (cA (cN 1) (cM (cN 2) (cV 2))))))).
Definition QST_e590 := (cD (cO (cR (cD (cM (cM (cH 1) (cA (cN (-1)) (cV 2))) (cA (cN 1) (cM (cN 2) (cV 2)))) (cM (cM (cA (cN 1) (cH 1)) (cV 2)) (cA (cN (-1)) (cM (cN 2) (cV 2))))))) (cN 2)).
Definition QST_e591 := (cD (cR (cA (cA (cB (cN 1) (cD (cN 3) (cV 2))) (cM (cN 8) (cV 2))) (cM (cN 4) (cW (cV 2) 4)))) (cM (cM (cN 2) (cR (cN 3))) (cA (cN (-1)) (cM (cN 2) (cV 2))))).
Definition QST_e592 := (cD (cO (cR (cD (cM (cM (cA (cN 1) (cM (cN 2) (cH 1))) (cA (cN (-1)) (cV 2))) (cA (cN 1) (cM (cN 2) (cV 2)))) (cM (cM (cA (cN 1) (cH 1)) (cV 2)) (cA (cN (-1)) (cM (cN 2) (cV 2))))))) (cN 2)).
Definition QST_e593 := (cD (cO (cR (cD (cM (cM (cA (cN 1) (cM (cN 2) (cH 1))) (cV 2)) (cA (cN 1) (cV 2))) (cA (cN 1) (cH 1))))) (cM (cN 2) (cV 2))).
Definition QST_e594 := (cO (cD (cA (cN (-2)) (cV 2)) (cM (cR (cN 2)) (cR (cD (cM (cM (cA (cN (-2)) (cV 2)) (cV 2)) (cA (cN (-1)) (cM (cN 2) (cV 2)))) (cA (cN 1) (cM (cN 2) (cV 2)))))))).
Definition QST_e595 := (cD (cO (cM (cM (cR (cN 3)) (cA (cN (-3)) (cM (cN 2) (cV 2)))) (cA (cB (cA (cM (cN 2) (cR (cD (cM (cA (cN 1) (cM (cN 2) (cH 1))) (cA (cN (-1)) (cV 2))) (cA (cN 1) (cV 2))))) (cR (cD (cA (cN 1) (cM (cN 2) (cH 1))) (cA (cN (-1)) (cW (cV 2) 4))))) (cM (cM (cN 2) (cV 2)) (cR (cD (cA (cN 1) (cM (cN 2) (cH 1))) (cA (cN (-1)) (cW (cV 2) 4)))))) (cM (cW (cV 2) 4) (cR (cD (cA (cN 1) (cM (cN 2) (cH 1))) (cA (cN (-1)) (cW (cV 2) 4)))))))) (cM (cN 2) (cR (cM (cM (cM (cA (cN 1) (cM (cN 2) (cH 1))) (cV 2)) (cA (cN (-1)) (cM (cN 2) (cV 2)))) (cA (cB (cN 3) (cM (cN 5) (cV 2))) (cM (cN 2) (cW (cV 2) 4))))))).
Definition QST_e596 := (cD (cB (cA (cN (-3)) (cM (cN 5) (cV 2))) (cM (cN 2) (cW (cV 2) 4))) (cM (cM (cN 2) (cR (cN 3))) (cR (cD (cM (cM (cM (cA (cN 1) (cH 1)) (cV 2)) (cA (cN (-1)) (cM (cN 2) (cV 2)))) (cA (cB (cN 3) (cM (cN 5) (cV 2))) (cM (cN 2) (cW (cV 2) 4)))) (cH 1))))).
Definition QST_e597 := (cD (cO (cM (cM (cR (cN 3)) (cA (cN (-1)) (cV 2))) (cA (cA (cM (cN 3) (cR (cM (cV 2) (cA (cN (-1)) (cM (cN 2) (cV 2)))))) (cM (cM (cN 5) (cV 2)) (cR (cM (cV 2) (cA (cN (-1)) (cM (cN 2) (cV 2))))))) (cM (cN 2) (cR (cM (cW (cV 2) 10) (cA (cN (-1)) (cM (cN 2) (cV 2))))))))) (cM (cM (cM (cM (cN 2) (cV 2)) (cA (cN 1) (cV 2))) (cA (cN (-1)) (cM (cN 2) (cV 2)))) (cR (cA (cA (cN (-3)) (cV 2)) (cM (cN 2) (cW (cV 2) 4)))))).
Definition QST_e598 := (cD (cM (cH 1) (cB (cR (cM (cM (cA (cN 1) (cM (cN 2) (cH 1))) (cV 2)) (cA (cN (-1)) (cM (cN 2) (cV 2))))) (cR (cM (cM (cA (cN 1) (cM (cN 2) (cH 1))) (cW (cV 2) 10)) (cA (cN (-1)) (cM (cN 2) (cV 2))))))) (cM (cM (cM (cN 2) (cV 2)) (cA (cN 1) (cV 2))) (cR (cM (cM (cH 1) (cA (cA (cN 1) (cM (cN 3) (cH 1))) (cM (cN 2) (cW (cH 1) 4)))) (cA (cB (cN 1) (cM (cN 3) (cV 2))) (cM (cN 2) (cW (cV 2) 4))))))).
Definition QST_e599 := (cO (cD (cA (cA (cA (cM (cM (cV 2) (cA (cN 1) (cM (cN 2) (cV 2)))) (cR (cD (cA (cA (cN (-1)) (cV 2)) (cM (cN 2) (cW (cV 2) 4))) (cA (cA (cN 6) (cM (cN 7) (cV 2))) (cM (cN 2) (cW (cV 2) 4)))))) (cM (cN 6) (cR (cD (cA (cN (-1)) (cM (cN 2) (cV 2))) (cA (cA (cA (cN 6) (cM (cN 13) (cV 2))) (cM (cN 9) (cW (cV 2) 4))) (cM (cN 2) (cW (cV 2) 6))))))) (cM (cM (cN 9) (cV 2)) (cR (cD (cA (cN (-1)) (cM (cN 2) (cV 2))) (cA (cA (cA (cN 6) (cM (cN 13) (cV 2))) (cM (cN 9) (cW (cV 2) 4))) (cM (cN 2) (cW (cV 2) 6))))))) (cM (cM (cM (cN 3) (cV 2)) (cA (cN 1) (cM (cN 2) (cV 2)))) (cR (cD (cA (cN (-1)) (cM (cN 2) (cV 2))) (cA (cA (cA (cN 6) (cM (cN 13) (cV 2))) (cM (cN 9) (cW (cV 2) 4))) (cM (cN 2) (cW (cV 2) 6))))))) (cM (cR (cN 2)) (cR (cM (cV 2) (cA (cA (cA (cN (-3)) (cV 2)) (cM (cN 8) (cW (cV 2) 4))) (cM (cN 4) (cW (cV 2) 6)))))))).
Definition QST_e600 := (cO (cD (cM (cH 1) (cA (cA (cM (cA (cN 1) (cM (cN 2) (cV 2))) (cR (cD (cM (cV 2) (cA (cA (cN (-1)) (cV 2)) (cM (cN 2) (cW (cV 2) 4)))) (cM (cA (cH 1) (cW (cH 1) 4)) (cA (cN 3) (cM (cN 2) (cV 2))))))) (cR (cD (cM (cV 2) (cA (cN (-1)) (cM (cN 2) (cV 2)))) (cM (cM (cH 1) (cA (cN 1) (cH 1))) (cA (cA (cN 3) (cM (cN 5) (cV 2))) (cM (cN 2) (cW (cV 2) 4))))))) (cM (cA (cN 1) (cM (cN 2) (cV 2))) (cR (cD (cM (cV 2) (cA (cN (-1)) (cM (cN 2) (cV 2)))) (cM (cM (cH 1) (cA (cN 1) (cH 1))) (cA (cA (cN 3) (cM (cN 5) (cV 2))) (cM (cN 2) (cW (cV 2) 4))))))))) (cM (cR (cN 2)) (cR (cM (cV 2) (cA (cA (cA (cN (-3)) (cV 2)) (cM (cN 8) (cW (cV 2) 4))) (cM (cN 4) (cW (cV 2) 6)))))))).
Definition QST_e601 := (cD (cO (cA (cB (cN 3) (cM (cN 5) (cV 2))) (cM (cN 2) (cW (cV 2) 4)))) (cM (cM (cN 2) (cR (cN 3))) (cR (cD (cM (cM (cM (cA (cN 1) (cH 1)) (cV 2)) (cA (cN (-1)) (cM (cN 2) (cV 2)))) (cA (cB (cN 3) (cM (cN 5) (cV 2))) (cM (cN 2) (cW (cV 2) 4)))) (cA (cN 1) (cM (cN 2) (cH 1))))))).
Definition QST_e602 := (cD (cB (cN 1) (cV 2)) (cM (cN 2) (cR (cD (cM (cM (cA (cN 1) (cH 1)) (cA (cN (-1)) (cV 2))) (cV 2)) (cA (cN 1) (cM (cN 2) (cH 1))))))).
Definition QST_e603 := (cO (cD (cR (cD (cA (cN 1) (cM (cN 2) (cH 1))) (cA (cN 1) (cH 1)))) (cR (cN 2)))).
Definition QST_e604 := (cR (cD (cA (cN 1) (cM (cN 2) (cV 2))) (cA (cN (-1)) (cM (cN 2) (cV 2))))).
Definition QST_e605 := (cD (cA (cM (cN 3) (cR (cD (cM (cM (cH 1) (cV 2)) (cA (cN (-1)) (cM (cN 2) (cV 2)))) (cA (cN 3) (cM (cN 2) (cH 1)))))) (cM (cN 2) (cR (cD (cM (cM (cW (cH 1) 6) (cV 2)) (cA (cN (-1)) (cM (cN 2) (cV 2)))) (cA (cN 3) (cM (cN 2) (cH 1))))))) (cM (cR (cN 3)) (cR (cD (cM (cM (cM (cH 1) (cA (cN 1) (cH 1))) (cW (cB (cN 1) (cM (cN 2) (cV 2))) 4)) (cV 2)) (cA (cN 1) (cM (cN 2) (cV 2))))))).
Definition QST_e606 := (cD (cR (cD (cM (cA (cN 2) (cH 1)) (cA (cN 1) (cM (cN 2) (cV 2)))) (cM (cA (cN 1) (cH 1)) (cA (cN (-1)) (cM (cN 2) (cV 2)))))) (cR (cN 3))).
Definition QST_e607 := (cO (cD (cR (cD (cM (cA (cN 1) (cM (cN 2) (cH 1))) (cA (cN 1) (cM (cN 2) (cV 2)))) (cM (cA (cN 1) (cH 1)) (cA (cN (-1)) (cM (cN 2) (cV 2)))))) (cR (cN 3)))).
Definition QST_e608 := (cD (cR (cD (cM (cM (cA (cN 1) (cM (cN 2) (cH 1))) (cA (cN (-2)) (cV 2))) (cA (cN 1) (cM (cN 2) (cV 2)))) (cM (cM (cA (cN 1) (cH 1)) (cV 2)) (cA (cN (-1)) (cM (cN 2) (cV 2)))))) (cN 2)).
Definition QST_e609 := (cD (cO (cM (cA (cN 1) (cM (cN 2) (cH 1))) (cA (cB (cN 3) (cM (cN 5) (cV 2))) (cM (cN 2) (cW (cV 2) 4))))) (cM (cM (cN 2) (cR (cN 6))) (cR (cM (cM (cM (cM (cA (cN 1) (cH 1)) (cA (cN 1) (cM (cN 2) (cH 1)))) (cV 2)) (cA (cN (-1)) (cM (cN 2) (cV 2)))) (cA (cB (cN 3) (cM (cN 5) (cV 2))) (cM (cN 2) (cW (cV 2) 4))))))).
Definition QST_e610 := (cD (cM (cM (cR (cA (cN 6) (cM (cN 12) (cH 1)))) (cA (cN (-3)) (cM (cN 2) (cV 2)))) (cA (cO (cR (cM (cV 2) (cA (cN (-1)) (cM (cN 2) (cV 2)))))) (cR (cM (cW (cV 2) 10) (cA (cN (-1)) (cM (cN 2) (cV 2))))))) (cM (cM (cM (cM (cN 4) (cA (cN (-1)) (cV 2))) (cV 2)) (cA (cN (-1)) (cM (cN 2) (cV 2)))) (cR (cM (cA (cN 1) (cH 1)) (cA (cB (cN (-3)) (cV 2)) (cM (cN 2) (cW (cV 2) 4))))))).
Definition QST_e611 := (cD (cO (cR (cD (cM (cA (cN 1) (cM (cN 2) (cH 1))) (cA (cN (-1)) (cV 2))) (cM (cA (cN 1) (cH 1)) (cV 2))))) (cM (cN 2) (cR (cN 2)))).
Definition QST_e612 := (cD (cM (cM (cR (cA (cQ 3 2) (cM (cN 3) (cH 1)))) (cA (cN (-1)) (cV 2))) (cA (cN 3) (cM (cN 2) (cV 2)))) (cM (cN 2) (cR (cM (cM (cA (cN 1) (cH 1)) (cV 2)) (cA (cB (cN 3) (cM (cN 7) (cV 2))) (cM (cN 4) (cW (cV 2) 6))))))).
Definition QST_e613 := (cD (cO (cM (cR (cD (cM (cA (cN 1) (cM (cN 2) (cH 1))) (cA (cN 1) (cM (cN 2) (cV 2)))) (cM (cA (cN 1) (cH 1)) (cA (cA (cA (cN (-3)) (cV 2)) (cM (cN 8) (cW (cV 2) 4))) (cM (cN 4) (cW (cV 2) 6)))))) (cA (cA (cR (cD (cM (cA (cN (-1)) (cM (cN 2) (cV 2))) (cA (cA (cN 1) (cM (cN 3) (cV 2))) (cM (cN 2) (cW (cV 2) 4)))) (cA (cN 3) (cM (cN 2) (cV 2))))) (cR (cD (cA (cN (-1)) (cM (cN 4) (cW (cV 2) 4))) (cA (cA (cN 3) (cM (cN 5) (cV 2))) (cM (cN 2) (cW (cV 2) 4)))))) (cR (cD (cA (cN (-1)) (cM (cN 2) (cV 2))) (cA (cA (cA (cN 3) (cM (cN 11) (cV 2))) (cM (cN 12) (cW (cV 2) 4))) (cM (cN 4) (cW (cV 2) 6)))))))) (cN 2)).
Definition QST_e614 := (cD (cM (cR (cD (cM (cA (cN 1) (cM (cN 2) (cH 1))) (cA (cN 1) (cM (cN 2) (cV 2)))) (cM (cA (cN 1) (cH 1)) (cA (cA (cA (cB (cN (-6)) (cV 2)) (cM (cN 17) (cW (cV 2) 4))) (cM (cN 16) (cW (cV 2) 6))) (cM (cN 4) (cW (cV 2) 8)))))) (cA (cA (cA (cR (cD (cM (cM (cV 2) (cA (cN (-1)) (cM (cN 2) (cV 2)))) (cA (cA (cN 1) (cM (cN 3) (cV 2))) (cM (cN 2) (cW (cV 2) 4)))) (cA (cN 3) (cM (cN 2) (cV 2))))) (cM (cN 3) (cR (cD (cM (cV 2) (cA (cN (-1)) (cM (cN 4) (cW (cV 2) 4)))) (cA (cA (cN 3) (cM (cN 5) (cV 2))) (cM (cN 2) (cW (cV 2) 4))))))) (cM (cN 6) (cR (cD (cA (cN (-1)) (cM (cN 2) (cV 2))) (cM (cV 2) (cA (cA (cA (cN 3) (cM (cN 11) (cV 2))) (cM (cN 12) (cW (cV 2) 4))) (cM (cN 4) (cW (cV 2) 6)))))))) (cM (cN 9) (cR (cD (cM (cV 2) (cA (cN (-1)) (cM (cN 2) (cV 2)))) (cA (cA (cA (cN 3) (cM (cN 11) (cV 2))) (cM (cN 12) (cW (cV 2) 4))) (cM (cN 4) (cW (cV 2) 6)))))))) (cN 2)).
Definition QST_e615 := (cO (cR (cD (cA (cN 1) (cM (cN 2) (cV 2))) (cA (cN (-1)) (cM (cN 2) (cV 2)))))).
Definition QST_e616 := (cO (cD (cN 1) (cM (cR (cN 2)) (cR (cD (cM (cB (cN 1) (cM (cN 2) (cV 2))) (cV 2)) (cB (cA (cN 1) (cV 2)) (cM (cN 2) (cW (cV 2) 4)))))))).
Definition QST_e617 := (cO (cD (cA (cN 1) (cV 2)) (cM (cR (cN 2)) (cR (cD (cM (cV 2) (cA (cA (cN (-1)) (cV 2)) (cM (cN 2) (cW (cV 2) 4)))) (cA (cN 1) (cM (cN 2) (cV 2)))))))).
Definition QST_e618 := (cO (cD (cA (cN 1) (cV 2)) (cM (cR (cA (cN 2) (cD (cN 2) (cV 2)))) (cV 2)))).
Definition QST_e619 := (cD (cB (cB (cM (cV 2) (cR (cM (cM (cH 1) (cV 2)) (cA (cN (-1)) (cM (cN 2) (cV 2)))))) (cM (cM (cN 2) (cW (cV 2) 4)) (cR (cM (cM (cH 1) (cV 2)) (cA (cN (-1)) (cM (cN 2) (cV 2))))))) (cM (cN 3) (cA (cR (cM (cM (cH 1) (cV 2)) (cA (cN (-1)) (cM (cN 2) (cV 2))))) (cM (cN 2) (cR (cM (cM (cH 1) (cW (cV 2) 6)) (cA (cN (-1)) (cM (cN 2) (cV 2))))))))) (cM (cM (cM (cR (cN 6)) (cV 2)) (cA (cN (-1)) (cM (cN 2) (cV 2)))) (cR (cM (cH 1) (cA (cA (cN 3) (cM (cN 5) (cV 2))) (cM (cN 2) (cW (cV 2) 4))))))).
Definition QST_e620 := (cD (cO (cM (cA (cN 3) (cM (cN 2) (cH 1))) (cR (cD (cA (cN 1) (cM (cN 2) (cV 2))) (cM (cA (cA (cN 3) (cM (cN 5) (cH 1))) (cM (cN 2) (cW (cH 1) 4))) (cA (cN (-1)) (cM (cN 2) (cV 2)))))))) (cN 2)).
Definition QST_e621 := (cD (cO (cM (cA (cN 3) (cM (cN 2) (cH 1))) (cA (cN (-1)) (cV 2)))) (cM (cM (cN 2) (cR (cN 2))) (cR (cD (cM (cM (cA (cA (cN 3) (cM (cN 5) (cH 1))) (cM (cN 2) (cW (cH 1) 4))) (cV 2)) (cA (cB (cN 1) (cM (cN 3) (cV 2))) (cM (cN 2) (cW (cV 2) 4)))) (cA (cN 1) (cM (cN 2) (cV 2))))))).
Definition QST_e622 := (cD (cO (cM (cA (cN 3) (cM (cN 2) (cH 1))) (cA (cN 1) (cV 2)))) (cM (cM (cN 2) (cR (cN 2))) (cR (cD (cM (cM (cA (cA (cN 3) (cM (cN 5) (cH 1))) (cM (cN 2) (cW (cH 1) 4))) (cV 2)) (cA (cA (cN (-1)) (cV 2)) (cM (cN 2) (cW (cV 2) 4)))) (cA (cN 1) (cM (cN 2) (cV 2))))))).
Definition QST_e623 := (cD (cO (cM (cA (cN 3) (cM (cN 2) (cH 1))) (cA (cN 1) (cV 2)))) (cM (cM (cN 2) (cR (cN 2))) (cR (cM (cM (cA (cA (cN 3) (cM (cN 5) (cH 1))) (cM (cN 2) (cW (cH 1) 4))) (cV 2)) (cA (cN 1) (cV 2)))))).
Definition QST_e624 := (cD (cO (cM (cA (cN 3) (cM (cN 2) (cH 1))) (cA (cA (cB (cM (cN 3) (cR (cM (cM (cA (cN 1) (cM (cN 2) (cH 1))) (cV 2)) (cA (cN (-1)) (cM (cN 2) (cV 2)))))) (cM (cV 2) (cR (cM (cM (cA (cN 1) (cM (cN 2) (cH 1))) (cV 2)) (cA (cN (-1)) (cM (cN 2) (cV 2))))))) (cM (cM (cN 2) (cW (cV 2) 4)) (cR (cM (cM (cA (cN 1) (cM (cN 2) (cH 1))) (cV 2)) (cA (cN (-1)) (cM (cN 2) (cV 2))))))) (cM (cN 6) (cR (cM (cM (cA (cN 1) (cM (cN 2) (cH 1))) (cW (cV 2) 6)) (cA (cN (-1)) (cM (cN 2) (cV 2))))))))) (cM (cM (cM (cN 2) (cR (cN 6))) (cV 2)) (cR (cM (cM (cM (cA (cN 1) (cH 1)) (cA (cA (cN 3) (cM (cN 8) (cH 1))) (cM (cN 4) (cW (cH 1) 4)))) (cA (cN (-1)) (cM (cN 2) (cV 2)))) (cA (cA (cA (cN (-3)) (cV 2)) (cM (cN 8) (cW (cV 2) 4))) (cM (cN 4) (cW (cV 2) 6))))))).
Definition QST_e625 := (cO (cD (cA (cA (cR (cD (cM (cA (cN 1) (cM (cN 2) (cH 1))) (cA (cA (cN 3) (cM (cN 5) (cH 1))) (cM (cN 2) (cW (cH 1) 4)))) (cA (cN 2) (cH 1)))) (cM (cN 2) (cR (cD (cM (cA (cN 1) (cH 1)) (cA (cN 1) (cM (cN 2) (cH 1)))) (cA (cA (cN 6) (cM (cN 7) (cH 1))) (cM (cN 2) (cW (cH 1) 4))))))) (cR (cD (cA (cN 1) (cM (cN 2) (cH 1))) (cA (cA (cA (cN 6) (cM (cN 13) (cH 1))) (cM (cN 9) (cW (cH 1) 4))) (cM (cN 2) (cW (cH 1) 6)))))) (cM (cR (cN 2)) (cR (cA (cA (cN 6) (cM (cN 7) (cH 1))) (cM (cN 2) (cW (cH 1) 4))))))).
Definition QST_e626 := (cD (cA (cB (cA (cM (cN 2) (cR (cD (cM (cA (cN 1) (cM (cN 2) (cH 1))) (cA (cN (-1)) (cV 2))) (cA (cN 1) (cV 2))))) (cR (cD (cA (cN 1) (cM (cN 2) (cH 1))) (cA (cN (-1)) (cW (cV 2) 4))))) (cM (cM (cN 2) (cV 2)) (cR (cD (cA (cN 1) (cM (cN 2) (cH 1))) (cA (cN (-1)) (cW (cV 2) 4)))))) (cM (cW (cV 2) 4) (cR (cD (cA (cN 1) (cM (cN 2) (cH 1))) (cA (cN (-1)) (cW (cV 2) 4)))))) (cM (cR (cN 2)) (cR (cD (cM (cM (cM (cA (cN 1) (cM (cN 2) (cH 1))) (cA (cN (-1)) (cV 2))) (cV 2)) (cA (cN (-1)) (cM (cN 2) (cV 2)))) (cA (cN 1) (cM (cN 2) (cV 2))))))).
Definition QST_e627 := (cR (cD (cM (cM (cH 1) (cA (cN (-1)) (cV 2))) (cA (cN 1) (cM (cN 2) (cV 2)))) (cM (cM (cA (cN 1) (cH 1)) (cV 2)) (cA (cN (-2)) (cM (cN 4) (cV 2)))))).
Definition QST_e628 := (cD (cA (cA (cN 3) (cM (cN 5) (cV 2))) (cM (cN 2) (cW (cV 2) 4))) (cM (cR (cN 6)) (cR (cM (cV 2) (cA (cA (cA (cN (-3)) (cV 2)) (cM (cN 8) (cW (cV 2) 4))) (cM (cN 4) (cW (cV 2) 6))))))).
Definition QST_e629 := (cD (cM (cH 1) (cA (cN 1) (cV 2))) (cM (cR (cN 2)) (cR (cM (cM (cM (cH 1) (cA (cN 1) (cH 1))) (cV 2)) (cA (cN 1) (cV 2)))))).
Definition QST_e630 := (cD (cR (cD (cM (cM (cA (cN 1) (cM (cN 2) (cH 1))) (cA (cN (-1)) (cV 2))) (cA (cN 1) (cM (cN 2) (cV 2)))) (cM (cM (cA (cN 1) (cH 1)) (cV 2)) (cA (cN (-1)) (cM (cN 2) (cV 2)))))) (cR (cN 2))).
Definition QST_e631 := (cD (cA (cN 1) (cV 2)) (cM (cR (cN 2)) (cR (cD (cM (cM (cA (cN 1) (cH 1)) (cV 2)) (cA (cN 1) (cV 2))) (cA (cN 1) (cM (cN 2) (cH 1))))))).
Definition QST_e632 := (cO (cD (cR (cD (cM (cA (cN 1) (cM (cN 2) (cH 1))) (cA (cN 1) (cM (cN 2) (cV 2)))) (cM (cA (cN 1) (cH 1)) (cA (cN (-1)) (cM (cN 2) (cV 2)))))) (cR (cN 2)))).
Definition QST_e633 := (cO (cD (cR (cD (cM (cM (cH 1) (cA (cN 1) (cM (cN 2) (cH 1)))) (cA (cN 1) (cM (cN 2) (cV 2)))) (cA (cN 3) (cM (cN 2) (cV 2))))) (cM (cR (cN 6)) (cH 1)))).
Definition QST_e634 := (cO (cD (cR (cA (cN 2) (cD (cN 1) (cH 1)))) (cR (cN 2)))).
Definition QST_e635 := (cD (cO (cR (cD (cM (cM (cH 1) (cA (cN 1) (cM (cN 2) (cH 1)))) (cA (cN 2) (cV 2))) (cA (cN 1) (cV 2))))) (cM (cN 2) (cH 1))).
Definition QST_e636 := (cD (cO (cA (cA (cN 10) (cM (cN 9) (cV 2))) (cM (cN 2) (cW (cV 2) 4)))) (cM (cM (cN 2) (cR (cN 3))) (cR (cD (cM (cH 1) (cA (cA (cA (cA (cN 30) (cM (cN 77) (cV 2))) (cM (cN 71) (cW (cV 2) 4))) (cM (cN 28) (cW (cV 2) 6))) (cM (cN 4) (cW (cV 2) 8)))) (cA (cN 1) (cM (cN 2) (cH 1))))))).
Definition QST_e637 := (cD (cM (cA (cN (-1)) (cM (cN 2) (cH 1))) (cV 2)) (cM (cN 2) (cR (cM (cM (cM (cH 1) (cA (cN (-1)) (cM (cN 2) (cH 1)))) (cV 2)) (cA (cN 1) (cV 2)))))).
Definition QST_e638 := (cD (cM (cA (cN 2) (cV 2)) (cR (cD (cM (cA (cN (-1)) (cM (cN 2) (cH 1))) (cA (cA (cN 1) (cM (cN 3) (cV 2))) (cM (cN 2) (cW (cV 2) 4)))) (cM (cH 1) (cA (cA (cN 6) (cM (cN 7) (cV 2))) (cM (cN 2) (cW (cV 2) 4))))))) (cM (cN 2) (cA (cN 1) (cV 2)))).
Definition QST_e639 := (cD (cO (cR (cD (cA (cV 2) (cM (cM (cN 2) (cH 1)) (cV 2))) (cA (cH 1) (cM (cH 1) (cV 2)))))) (cN 2)).
Definition QST_e640 := (cD (cO (cM (cA (cN 2) (cV 2)) (cR (cD (cM (cM (cH 1) (cA (cN 1) (cM (cN 2) (cH 1)))) (cA (cA (cN 1) (cM (cN 3) (cV 2))) (cM (cN 2) (cW (cV 2) 4)))) (cA (cA (cN 6) (cM (cN 7) (cV 2))) (cM (cN 2) (cW (cV 2) 4))))))) (cM (cM (cN 2) (cH 1)) (cA (cN 1) (cV 2)))).
Definition QST_e641 := (cD (cO (cM (cA (cN 1) (cH 1)) (cV 2))) (cM (cN 2) (cR (cM (cM (cM (cH 1) (cA (cN 1) (cH 1))) (cV 2)) (cA (cN 1) (cV 2)))))).
Definition QST_e642 := (cD (cM (cV 2) (cA (cM (cN 2) (cR (cD (cM (cH 1) (cA (cN 1) (cM (cN 2) (cV 2)))) (cM (cV 2) (cA (cA (cN 6) (cM (cN 7) (cV 2))) (cM (cN 2) (cW (cV 2) 4))))))) (cR (cD (cM (cM (cH 1) (cV 2)) (cA (cN 1) (cM (cN 2) (cV 2)))) (cA (cA (cN 6) (cM (cN 7) (cV 2))) (cM (cN 2) (cW (cV 2) 4))))))) (cM (cN 2) (cR (cM (cH 1) (cA (cA (cN 2) (cM (cN 3) (cV 2))) (cW (cV 2) 4)))))).
Definition QST_e643 := (cD (cO (cM (cM (cA (cN 1) (cH 1)) (cA (cN 2) (cV 2))) (cR (cD (cM (cH 1) (cA (cA (cN 1) (cM (cN 3) (cV 2))) (cM (cN 2) (cW (cV 2) 4)))) (cM (cA (cN 1) (cH 1)) (cA (cA (cN 6) (cM (cN 7) (cV 2))) (cM (cN 2) (cW (cV 2) 4)))))))) (cM (cM (cN 2) (cH 1)) (cA (cN 1) (cV 2)))).
Definition QST_e644 := (cD (cA (cA (cR (cD (cM (cH 1) (cA (cA (cN 3) (cM (cN 8) (cV 2))) (cM (cN 4) (cW (cV 2) 4)))) (cA (cA (cN 10) (cM (cN 9) (cV 2))) (cM (cN 2) (cW (cV 2) 4))))) (cR (cD (cM (cH 1) (cA (cA (cA (cN 6) (cM (cN 19) (cV 2))) (cM (cN 16) (cW (cV 2) 4))) (cM (cN 4) (cW (cV 2) 6)))) (cA (cN 5) (cM (cN 2) (cV 2)))))) (cR (cD (cA (cH 1) (cM (cM (cN 2) (cH 1)) (cV 2))) (cA (cA (cA (cN 30) (cM (cN 47) (cV 2))) (cM (cN 24) (cW (cV 2) 4))) (cM (cN 4) (cW (cV 2) 6)))))) (cM (cR (cN 2)) (cR (cM (cH 1) (cA (cA (cN 10) (cM (cN 9) (cV 2))) (cM (cN 2) (cW (cV 2) 4))))))).
Definition QST_e645 := (cD (cR (cA (cN 2) (cD (cN 1) (cH 1)))) (cR (cN 2))).
Definition QST_e646 := (cD (cM (cA (cN 1) (cM (cN 2) (cH 1))) (cA (cN 2) (cV 2))) (cM (cN 2) (cR (cM (cM (cM (cH 1) (cA (cN 1) (cM (cN 2) (cH 1)))) (cA (cN 1) (cV 2))) (cA (cN 2) (cV 2)))))).
Definition QST_e647 := (cD (cA (cA (cN 10) (cM (cN 9) (cV 2))) (cM (cN 2) (cW (cV 2) 4))) (cM (cM (cN 2) (cR (cN 3))) (cR (cD (cM (cH 1) (cA (cA (cA (cA (cN 30) (cM (cN 77) (cV 2))) (cM (cN 71) (cW (cV 2) 4))) (cM (cN 28) (cW (cV 2) 6))) (cM (cN 4) (cW (cV 2) 8)))) (cA (cN 1) (cM (cN 2) (cH 1))))))).
Definition QST_e648 := (cD (cR (cA (cN 1) (cD (cN 1) (cH 1)))) (cR (cN 2))).
Definition QST_e649 := (cD (cM (cA (cN 2) (cV 2)) (cA (cR (cM (cH 1) (cA (cA (cN 1) (cM (cN 3) (cV 2))) (cM (cN 2) (cW (cV 2) 4))))) (cR (cM (cW (cH 1) 6) (cA (cA (cN 1) (cM (cN 3) (cV 2))) (cM (cN 2) (cW (cV 2) 4))))))) (cM (cM (cM (cN 2) (cH 1)) (cA (cN 1) (cV 2))) (cR (cM (cA (cN 1) (cH 1)) (cA (cA (cN 2) (cM (cN 5) (cV 2))) (cM (cN 2) (cW (cV 2) 4))))))).
Definition QST_e650 := (cD (cM (cM (cR (cN 3)) (cV 2)) (cA (cA (cM (cN 9) (cR (cD (cM (cM (cH 1) (cV 2)) (cA (cN 1) (cM (cN 2) (cV 2)))) (cA (cA (cN 6) (cM (cN 7) (cV 2))) (cM (cN 2) (cW (cV 2) 4)))))) (cM (cN 2) (cR (cD (cM (cM (cH 1) (cW (cV 2) 6)) (cA (cN 1) (cM (cN 2) (cV 2)))) (cA (cA (cN 6) (cM (cN 7) (cV 2))) (cM (cN 2) (cW (cV 2) 4))))))) (cM (cN 10) (cR (cD (cA (cH 1) (cM (cM (cN 2) (cH 1)) (cV 2))) (cA (cA (cM (cN 6) (cV 2)) (cM (cN 7) (cW (cV 2) 4))) (cM (cN 2) (cW (cV 2) 6)))))))) (cM (cN 2) (cR (cM (cH 1) (cA (cA (cA (cA (cN 10) (cM (cN 39) (cV 2))) (cM (cN 49) (cW (cV 2) 4))) (cM (cN 24) (cW (cV 2) 6))) (cM (cN 4) (cW (cV 2) 8))))))).
Definition QST_e651 := (cD (cM (cA (cN 1) (cH 1)) (cA (cA (cN 10) (cM (cN 9) (cV 2))) (cM (cN 2) (cW (cV 2) 4)))) (cM (cM (cN 2) (cR (cN 3))) (cR (cM (cM (cM (cH 1) (cA (cN 1) (cH 1))) (cA (cN 1) (cV 2))) (cA (cA (cA (cN 30) (cM (cN 47) (cV 2))) (cM (cN 24) (cW (cV 2) 4))) (cM (cN 4) (cW (cV 2) 6))))))).
Definition QST_e652 := (cD (cR (cD (cM (cM (cA (cN (-1)) (cH 1)) (cH 1)) (cA (cN 1) (cM (cN 2) (cV 2)))) (cA (cN 3) (cM (cN 2) (cV 2))))) (cM (cR (cN 3)) (cH 1))).
Definition QST_e653 := (cD (cR (cD (cM (cA (cN (-1)) (cM (cN 2) (cH 1))) (cA (cH 1) (cM (cM (cN 2) (cH 1)) (cV 2)))) (cA (cN 9) (cM (cN 6) (cV 2))))) (cH 1)).
Definition QST_e654 := (cM (cA (cA (cR (cD (cM (cH 1) (cA (cA (cN 1) (cM (cN 3) (cH 1))) (cM (cN 2) (cW (cH 1) 4)))) (cA (cN 3) (cM (cN 2) (cH 1))))) (cR (cD (cM (cH 1) (cA (cN 1) (cM (cN 2) (cH 1)))) (cA (cA (cN 3) (cM (cN 5) (cH 1))) (cM (cN 2) (cW (cH 1) 4)))))) (cR (cD (cH 1) (cA (cA (cA (cN 3) (cM (cN 11) (cH 1))) (cM (cN 12) (cW (cH 1) 4))) (cM (cN 4) (cW (cH 1) 6)))))) (cR (cD (cM (cA (cN 1) (cM (cN 2) (cH 1))) (cA (cN 1) (cM (cN 2) (cV 2)))) (cM (cM (cH 1) (cA (cA (cN 3) (cM (cN 5) (cH 1))) (cM (cN 2) (cW (cH 1) 4)))) (cA (cN 3) (cM (cN 2) (cV 2))))))).
Definition QST_e655 := (cD (cR (cD (cM (cM (cH 1) (cA (cN 1) (cM (cN 2) (cH 1)))) (cA (cN 1) (cM (cN 2) (cV 2)))) (cA (cN 9) (cM (cN 6) (cV 2))))) (cH 1)).
Definition QST_e656 := (cD (cR (cA (cN 2) (cD (cN 1) (cH 1)))) (cN 2)).
Definition QST_e657 := (cD (cM (cA (cN (-1)) (cV 2)) (cR (cD (cM (cH 1) (cA (cN 1) (cM (cN 2) (cH 1)))) (cA (cN (-1)) (cW (cV 2) 4))))) (cM (cN 2) (cH 1))).
Definition QST_e658 := (cD (cA (cM (cN 2) (cR (cD (cM (cH 1) (cV 2)) (cA (cN 2) (cV 2))))) (cR (cD (cM (cH 1) (cW (cV 2) 6)) (cA (cN 2) (cV 2))))) (cM (cM (cM (cN 2) (cR (cN 2))) (cH 1)) (cR (cD (cM (cV 2) (cA (cN 1) (cV 2))) (cA (cN 1) (cM (cN 2) (cH 1))))))).
Definition QST_e659 := (cD (cM (cM (cR (cQ 3 2)) (cA (cN (-1)) (cM (cN 2) (cV 2)))) (cR (cD (cM (cM (cH 1) (cA (cN 1) (cM (cN 2) (cH 1)))) (cA (cN 2) (cV 2))) (cA (cA (cA (cN (-3)) (cV 2)) (cM (cN 8) (cW (cV 2) 4))) (cM (cN 4) (cW (cV 2) 6)))))) (cM (cN 2) (cH 1))).
Definition QST_e660 := (cD (cA (cA (cN 10) (cM (cN 9) (cV 2))) (cM (cN 2) (cW (cV 2) 4))) (cM (cM (cN 2) (cR (cN 6))) (cR (cD (cM (cH 1) (cA (cA (cA (cA (cN 30) (cM (cN 77) (cV 2))) (cM (cN 71) (cW (cV 2) 4))) (cM (cN 28) (cW (cV 2) 6))) (cM (cN 4) (cW (cV 2) 8)))) (cA (cN 1) (cM (cN 2) (cH 1))))))).
Definition QST_e661 := (cD (cM (cM (cV 2) (cA (cN 5) (cM (cN 2) (cV 2)))) (cR (cD (cA (cA (cA (cN 3) (cM (cN 6) (cH 1))) (cM (cN 3) (cV 2))) (cM (cM (cN 6) (cH 1)) (cV 2))) (cA (cA (cM (cM (cN 30) (cH 1)) (cV 2)) (cM (cM (cN 32) (cH 1)) (cW (cV 2) 4))) (cM (cM (cN 8) (cH 1)) (cW (cV 2) 6)))))) (cM (cN 2) (cA (cN 1) (cV 2)))).
Definition QST_e662 := (cD (cA (cA (cM (cM (cN 2) (cW (cV 2) 4)) (cA (cR (cD (cA (cA (cN 2) (cM (cN 5) (cV 2))) (cM (cN 2) (cW (cV 2) 4))) (cA (cA (cN 15) (cM (cN 11) (cV 2))) (cM (cN 2) (cW (cV 2) 4))))) (cM (cN 3) (cR (cD (cA (cN 1) (cM (cN 2) (cV 2))) (cA (cA (cA (cN 30) (cM (cN 37) (cV 2))) (cM (cN 15) (cW (cV 2) 4))) (cM (cN 2) (cW (cV 2) 6)))))))) (cM (cN 3) (cA (cR (cD (cA (cA (cN 2) (cM (cN 5) (cV 2))) (cM (cN 2) (cW (cV 2) 4))) (cA (cA (cN 15) (cM (cN 11) (cV 2))) (cM (cN 2) (cW (cV 2) 4))))) (cM (cN 8) (cR (cD (cA (cN 1) (cM (cN 2) (cV 2))) (cA (cA (cA (cN 30) (cM (cN 37) (cV 2))) (cM (cN 15) (cW (cV 2) 4))) (cM (cN 2) (cW (cV 2) 6))))))))) (cM (cV 2) (cA (cM (cN 5) (cR (cD (cA (cA (cN 2) (cM (cN 5) (cV 2))) (cM (cN 2) (cW (cV 2) 4))) (cA (cA (cN 15) (cM (cN 11) (cV 2))) (cM (cN 2) (cW (cV 2) 4)))))) (cM (cN 24) (cR (cD (cA (cN 1) (cM (cN 2) (cV 2))) (cA (cA (cA (cN 30) (cM (cN 37) (cV 2))) (cM (cN 15) (cW (cV 2) 4))) (cM (cN 2) (cW (cV 2) 6))))))))) (cM (cN 2) (cR (cD (cM (cH 1) (cA (cA (cA (cA (cN 30) (cM (cN 77) (cV 2))) (cM (cN 71) (cW (cV 2) 4))) (cM (cN 28) (cW (cV 2) 6))) (cM (cN 4) (cW (cV 2) 8)))) (cA (cN 1) (cM (cN 2) (cH 1))))))).
Definition QST_e663 := (cD (cM (cA (cN (-1)) (cM (cN 2) (cH 1))) (cV 2)) (cM (cM (cN 2) (cR (cN 2))) (cR (cM (cM (cM (cH 1) (cA (cN (-1)) (cM (cN 2) (cH 1)))) (cV 2)) (cA (cN 1) (cV 2)))))).
Definition QST_e664 := (cD (cO (cM (cM (cA (cN (-1)) (cM (cN 2) (cH 1))) (cV 2)) (cA (cN (-1)) (cM (cN 2) (cV 2))))) (cM (cM (cN 2) (cR (cN 6))) (cR (cM (cM (cM (cH 1) (cA (cN (-1)) (cM (cN 2) (cH 1)))) (cV 2)) (cA (cA (cA (cN (-3)) (cV 2)) (cM (cN 8) (cW (cV 2) 4))) (cM (cN 4) (cW (cV 2) 6))))))).
Definition QST_e665 := (cD (cM (cR (cQ 2 3)) (cA (cA (cO (cR (cM (cH 1) (cA (cN 1) (cH 1))))) (cR (cM (cW (cH 1) 6) (cA (cN 1) (cH 1))))) (cM (cN 2) (cR (cM (cW (cH 1) 10) (cA (cN 1) (cH 1))))))) (cM (cH 1) (cA (cA (cN (-1)) (cH 1)) (cM (cN 2) (cW (cH 1) 4))))).
Definition QST_e666 := (cD (cM (cA (cN 2) (cV 2)) (cR (cM (cA (cN (-1)) (cM (cN 2) (cH 1))) (cA (cA (cN 1) (cM (cN 3) (cV 2))) (cM (cN 2) (cW (cV 2) 4)))))) (cM (cM (cM (cN 2) (cR (cN 2))) (cA (cN 1) (cV 2))) (cR (cM (cH 1) (cA (cA (cN 6) (cM (cN 7) (cV 2))) (cM (cN 2) (cW (cV 2) 4))))))).
Definition QST_e667 := (cD (cO (cM (cV 2) (cR (cM (cA (cN (-1)) (cM (cN 2) (cH 1))) (cA (cA (cN 1) (cM (cN 3) (cV 2))) (cM (cN 2) (cW (cV 2) 4))))))) (cM (cM (cM (cN 2) (cR (cN 2))) (cA (cN 1) (cV 2))) (cR (cM (cM (cH 1) (cV 2)) (cA (cN 3) (cM (cN 2) (cV 2))))))).
Definition QST_e668 := (cD (cO (cM (cA (cN (-1)) (cM (cN 2) (cH 1))) (cA (cA (cR (cD (cA (cA (cN 1) (cM (cN 3) (cV 2))) (cM (cN 2) (cW (cV 2) 4))) (cM (cA (cN (-1)) (cM (cN 4) (cW (cH 1) 4))) (cA (cA (cN 10) (cM (cN 9) (cV 2))) (cM (cN 2) (cW (cV 2) 4)))))) (cR (cD (cM (cW (cA (cN 3) (cM (cN 2) (cV 2))) 4) (cA (cA (cN 1) (cM (cN 3) (cV 2))) (cM (cN 2) (cW (cV 2) 4)))) (cM (cA (cN (-1)) (cM (cN 4) (cW (cH 1) 4))) (cA (cA (cN 10) (cM (cN 9) (cV 2))) (cM (cN 2) (cW (cV 2) 4))))))) (cR (cD (cM (cW (cA (cN 3) (cM (cN 2) (cV 2))) 4) (cA (cA (cA (cN 2) (cM (cN 7) (cV 2))) (cM (cN 7) (cW (cV 2) 4))) (cM (cN 2) (cW (cV 2) 6)))) (cM (cA (cN (-1)) (cM (cN 4) (cW (cH 1) 4))) (cA (cN 5) (cM (cN 2) (cV 2))))))))) (cM (cN 2) (cR (cD (cM (cH 1) (cA (cA (cA (cA (cN 30) (cM (cN 77) (cV 2))) (cM (cN 71) (cW (cV 2) 4))) (cM (cN 28) (cW (cV 2) 6))) (cM (cN 4) (cW (cV 2) 8)))) (cA (cN 1) (cM (cN 2) (cH 1))))))).
Definition QST_e669 := (cD (cR (cA (cN 2) (cD (cN 3) (cH 1)))) (cR (cN 6))).
Definition QST_e670 := (cD (cN 1) (cM (cR (cN 2)) (cR (cD (cM (cH 1) (cA (cN 1) (cV 2))) (cA (cV 2) (cM (cM (cN 2) (cH 1)) (cV 2))))))).
Definition QST_e671 := (cD (cM (cA (cN 2) (cV 2)) (cR (cD (cM (cM (cH 1) (cA (cN 1) (cM (cN 2) (cH 1)))) (cA (cA (cN 1) (cM (cN 3) (cV 2))) (cM (cN 2) (cW (cV 2) 4)))) (cA (cA (cN 6) (cM (cN 7) (cV 2))) (cM (cN 2) (cW (cV 2) 4)))))) (cM (cM (cR (cN 2)) (cH 1)) (cA (cN 1) (cV 2)))).
Definition QST_e672 := (cD (cM (cA (cN 1) (cH 1)) (cV 2)) (cM (cR (cN 2)) (cR (cM (cM (cM (cH 1) (cA (cN 1) (cH 1))) (cV 2)) (cA (cN 1) (cV 2)))))).
Definition QST_e673 := (cD (cM (cV 2) (cA (cM (cN 2) (cR (cD (cM (cH 1) (cA (cN 1) (cM (cN 2) (cV 2)))) (cM (cV 2) (cA (cA (cN 6) (cM (cN 7) (cV 2))) (cM (cN 2) (cW (cV 2) 4))))))) (cR (cD (cM (cM (cH 1) (cV 2)) (cA (cN 1) (cM (cN 2) (cV 2)))) (cA (cA (cN 6) (cM (cN 7) (cV 2))) (cM (cN 2) (cW (cV 2) 4))))))) (cM (cR (cN 2)) (cR (cM (cH 1) (cA (cA (cN 2) (cM (cN 3) (cV 2))) (cW (cV 2) 4)))))).
Definition QST_e674 := (cD (cM (cM (cA (cN 1) (cH 1)) (cA (cN 2) (cV 2))) (cR (cM (cH 1) (cA (cA (cN 1) (cM (cN 3) (cV 2))) (cM (cN 2) (cW (cV 2) 4)))))) (cM (cM (cM (cR (cN 2)) (cH 1)) (cA (cN 1) (cV 2))) (cR (cM (cA (cN 1) (cH 1)) (cA (cA (cN 6) (cM (cN 7) (cV 2))) (cM (cN 2) (cW (cV 2) 4))))))).
Definition QST_e675 := (cD (cA (cA (cR (cD (cM (cA (cN 1) (cM (cN 2) (cV 2))) (cA (cA (cN 6) (cM (cN 7) (cV 2))) (cM (cN 2) (cW (cV 2) 4)))) (cA (cN 5) (cM (cN 2) (cV 2))))) (cR (cD (cA (cA (cN 3) (cM (cN 8) (cV 2))) (cM (cN 4) (cW (cV 2) 4))) (cA (cA (cN 10) (cM (cN 9) (cV 2))) (cM (cN 2) (cW (cV 2) 4)))))) (cR (cD (cA (cN 1) (cM (cN 2) (cV 2))) (cA (cA (cA (cN 30) (cM (cN 47) (cV 2))) (cM (cN 24) (cW (cV 2) 4))) (cM (cN 4) (cW (cV 2) 6)))))) (cR (cA (cA (cN 10) (cM (cN 9) (cV 2))) (cM (cN 2) (cW (cV 2) 4))))).
Definition QST_e676 := (cD (cR (cD (cM (cM (cH 1) (cA (cN 1) (cM (cN 2) (cH 1)))) (cA (cN 1) (cM (cN 2) (cV 2)))) (cA (cN 6) (cM (cN 4) (cV 2))))) (cH 1)).
Definition QST_e677 := (cD (cR (cA (cN 2) (cD (cN 1) (cH 1)))) (cR (cN 6))).
Definition QST_e678 := (cD (cO (cR (cD (cM (cM (cA (cN 1) (cM (cN 2) (cH 1))) (cA (cN (-1)) (cV 2))) (cV 2)) (cH 1)))) (cM (cN 2) (cV 2))).
Definition QST_e679 := (cD (cO (cM (cA (cN (-1)) (cM (cN 2) (cV 2))) (cA (cM (cN 3) (cR (cM (cH 1) (cV 2)))) (cM (cN 2) (cR (cM (cH 1) (cW (cV 2) 6))))))) (cM (cM (cM (cM (cN 2) (cR (cN 3))) (cH 1)) (cV 2)) (cR (cD (cA (cA (cA (cN (-3)) (cV 2)) (cM (cN 8) (cW (cV 2) 4))) (cM (cN 4) (cW (cV 2) 6))) (cA (cN 1) (cM (cN 2) (cH 1))))))).
Definition QST_e680 := (cD (cO (cM (cM (cV 2) (cR (cD (cA (cN 1) (cM (cN 2) (cH 1))) (cA (cM (cN 3) (cV 2)) (cM (cN 2) (cW (cV 2) 4)))))) (cA (cA (cM (cA (cN 1) (cM (cN 2) (cV 2))) (cR (cD (cM (cH 1) (cA (cN 1) (cV 2))) (cM (cV 2) (cA (cA (cN 6) (cM (cN 7) (cV 2))) (cM (cN 2) (cW (cV 2) 4))))))) (cM (cN 3) (cR (cD (cH 1) (cM (cV 2) (cA (cA (cA (cN 6) (cM (cN 13) (cV 2))) (cM (cN 9) (cW (cV 2) 4))) (cM (cN 2) (cW (cV 2) 6)))))))) (cM (cM (cN 2) (cA (cN 1) (cM (cN 2) (cV 2)))) (cR (cD (cH 1) (cM (cV 2) (cA (cA (cA (cN 6) (cM (cN 13) (cV 2))) (cM (cN 9) (cW (cV 2) 4))) (cM (cN 2) (cW (cV 2) 6)))))))))) (cM (cN 2) (cH 1))).
Definition QST_e681 := (cD (cO (cR (cD (cM (cM (cA (cN (-1)) (cM (cN 2) (cH 1))) (cV 2)) (cA (cN 1) (cV 2))) (cH 1)))) (cM (cN 2) (cV 2))).
Definition QST_e682 := (cD (cO (cR (cD (cA (cN (-1)) (cM (cN 2) (cH 1))) (cM (cH 1) (cA (cV 2) (cW (cV 2) 4)))))) (cN 2)).
Definition QST_e683 := (cD (cR (cO (cD (cB (cV 2) (cM (cM (cN 2) (cH 1)) (cV 2))) (cA (cH 1) (cM (cH 1) (cV 2)))))) (cN 2)).
Definition QST_e684 := (cD (cR (cD (cM (cM (cA (cN 1) (cM (cN 2) (cH 1))) (cV 2)) (cA (cN 1) (cV 2))) (cH 1))) (cM (cN 2) (cV 2))).
Definition QST_e685 := (cD (cN 1) (cM (cN 2) (cR (cD (cM (cM (cH 1) (cV 2)) (cA (cN 1) (cV 2))) (cA (cN 1) (cM (cN 2) (cH 1))))))).
Definition QST_e686 := (cD (cO (cV 2)) (cM (cN 2) (cR (cD (cM (cM (cH 1) (cV 2)) (cA (cN 1) (cV 2))) (cA (cN 1) (cM (cN 2) (cH 1))))))).
Definition QST_e687 := (cD (cA (cN 1) (cH 1)) (cM (cN 2) (cR (cD (cM (cM (cH 1) (cA (cN 1) (cH 1))) (cV 2)) (cA (cN 1) (cV 2)))))).
Definition QST_e688 := (cD (cO (cM (cA (cN (-1)) (cM (cN 2) (cV 2))) (cA (cM (cN 3) (cR (cM (cH 1) (cV 2)))) (cM (cN 2) (cR (cM (cH 1) (cW (cV 2) 6))))))) (cM (cM (cM (cN 2) (cR (cN 3))) (cV 2)) (cR (cM (cH 1) (cA (cA (cA (cN (-3)) (cV 2)) (cM (cN 8) (cW (cV 2) 4))) (cM (cN 4) (cW (cV 2) 6))))))).
Definition QST_e689 := (cD (cA (cN 1) (cH 1)) (cM (cN 2) (cR (cM (cM (cM (cH 1) (cA (cN 1) (cH 1))) (cV 2)) (cA (cN 1) (cV 2)))))).
Definition QST_e690 := (cD (cB (cN (-2)) (cV 2)) (cM (cN 2) (cR (cA (cA (cN 2) (cM (cN 3) (cV 2))) (cW (cV 2) 4))))).
Definition QST_e691 := (cD (cR (cD (cM (cM (cA (cN 1) (cM (cN 2) (cH 1))) (cA (cN (-1)) (cV 2))) (cV 2)) (cH 1))) (cM (cN 2) (cV 2))).
Definition QST_e692 := (cD (cA (cA (cN (-3)) (cM (cN 4) (cV 2))) (cM (cN 4) (cW (cV 2) 4))) (cM (cM (cN 2) (cR (cN 3))) (cR (cD (cM (cM (cH 1) (cV 2)) (cA (cA (cA (cN (-3)) (cV 2)) (cM (cN 8) (cW (cV 2) 4))) (cM (cN 4) (cW (cV 2) 6)))) (cA (cN 1) (cM (cN 2) (cH 1))))))).
Definition QST_e693 := (cD (cR (cD (cM (cM (cA (cN 1) (cM (cN 2) (cH 1))) (cA (cN 1) (cV 2))) (cA (cN 2) (cV 2))) (cH 1))) (cM (cN 2) (cA (cN 1) (cV 2)))).
Definition QST_e694 := (cD (cM (cA (cN 1) (cH 1)) (cA (cN (-1)) (cV 2))) (cM (cN 2) (cR (cM (cM (cM (cH 1) (cA (cN 1) (cH 1))) (cA (cN (-1)) (cV 2))) (cV 2))))).
Definition QST_e695 := (cD (cM (cA (cN (-1)) (cM (cN 2) (cV 2))) (cA (cA (cA (cM (cN 3) (cR (cM (cH 1) (cV 2)))) (cM (cN 2) (cW (cM (cH 1) (cV 2)) 3))) (cM (cN 3) (cR (cM (cW (cH 1) 6) (cV 2))))) (cM (cN 2) (cR (cM (cH 1) (cW (cV 2) 6)))))) (cM (cM (cM (cN 2) (cR (cN 3))) (cH 1)) (cR (cM (cM (cA (cN 1) (cH 1)) (cW (cV 2) 4)) (cA (cA (cA (cN (-3)) (cV 2)) (cM (cN 8) (cW (cV 2) 4))) (cM (cN 4) (cW (cV 2) 6))))))).
Definition QST_e696 := (cD (cM (cA (cN 1) (cH 1)) (cA (cN 2) (cV 2))) (cM (cN 2) (cR (cM (cM (cM (cH 1) (cA (cN 1) (cH 1))) (cA (cN 1) (cV 2))) (cA (cN 2) (cV 2)))))).
Definition QST_e697 := (cO (cD (cR (cD (cA (cN (-1)) (cH 1)) (cH 1))) (cR (cN 3)))).
Definition QST_e698 := (cO (cD (cM (cA (cN 1) (cH 1)) (cA (cN (-1)) (cM (cN 2) (cH 1)))) (cM (cH 1) (cR (cA (cA (cD (cN (-3)) (cH 1)) (cM (cN 9) (cH 1))) (cM (cN 6) (cW (cH 1) 4))))))).
Definition QST_e699 := (cO (cD (cR (cA (cN 2) (cD (cN 1) (cH 1)))) (cR (cN 3)))).
Definition QST_e700 := (cO (cD (cR (cD (cM (cM (cA (cN 1) (cM (cN 2) (cH 1))) (cV 2)) (cA (cN 1) (cV 2))) (cH 1))) (cM (cR (cN 2)) (cV 2)))).
Definition QST_e701 := (cD (cA (cN (-1)) (cV 2)) (cM (cM (cN 2) (cR (cN 2))) (cR (cD (cM (cM (cH 1) (cA (cN (-1)) (cV 2))) (cV 2)) (cA (cN 1) (cM (cN 2) (cH 1))))))).
Definition QST_e702 := (cD (cO (cA (cA (cB (cR (cD (cM (cV 2) (cA (cN (-1)) (cM (cN 2) (cV 2)))) (cA (cN (-1)) (cW (cV 2) 4)))) (cM (cM (cN 2) (cV 2)) (cR (cD (cM (cV 2) (cA (cN (-1)) (cM (cN 2) (cV 2)))) (cA (cN (-1)) (cW (cV 2) 4)))))) (cR (cD (cM (cW (cV 2) 10) (cA (cN (-1)) (cM (cN 2) (cV 2)))) (cA (cN (-1)) (cW (cV 2) 4))))) (cM (cN 4) (cR (cD (cM (cV 2) (cA (cB (cN 1) (cM (cN 3) (cV 2))) (cM (cN 2) (cW (cV 2) 4)))) (cA (cN 1) (cV 2))))))) (cM (cM (cN 2) (cV 2)) (cR (cD (cM (cH 1) (cA (cB (cN 2) (cM (cN 6) (cV 2))) (cM (cN 4) (cW (cV 2) 4)))) (cA (cN 1) (cM (cN 2) (cH 1))))))).
Definition QST_e703 := (cD (cM (cA (cN (-1)) (cM (cN 2) (cV 2))) (cA (cM (cN 3) (cR (cM (cH 1) (cV 2)))) (cM (cN 2) (cR (cM (cH 1) (cW (cV 2) 6)))))) (cM (cM (cM (cM (cN 2) (cR (cN 6))) (cH 1)) (cV 2)) (cR (cD (cA (cA (cA (cN (-3)) (cV 2)) (cM (cN 8) (cW (cV 2) 4))) (cM (cN 4) (cW (cV 2) 6))) (cA (cN 1) (cM (cN 2) (cH 1))))))).
Definition QST_e704 := (cD (cN (-3)) (cM (cM (cN 2) (cR (cN 2))) (cR (cD (cM (cM (cH 1) (cV 2)) (cA (cN 1) (cV 2))) (cA (cN 1) (cM (cN 2) (cH 1))))))).
Definition QST_e705 := (cD (cM (cV 2) (cA (cA (cM (cA (cN 1) (cM (cN 2) (cV 2))) (cR (cD (cM (cH 1) (cA (cN 1) (cV 2))) (cM (cV 2) (cA (cA (cN 6) (cM (cN 7) (cV 2))) (cM (cN 2) (cW (cV 2) 4))))))) (cM (cN 3) (cR (cD (cH 1) (cM (cV 2) (cA (cA (cA (cN 6) (cM (cN 13) (cV 2))) (cM (cN 9) (cW (cV 2) 4))) (cM (cN 2) (cW (cV 2) 6)))))))) (cM (cM (cN 2) (cA (cN 1) (cM (cN 2) (cV 2)))) (cR (cD (cH 1) (cM (cV 2) (cA (cA (cA (cN 6) (cM (cN 13) (cV 2))) (cM (cN 9) (cW (cV 2) 4))) (cM (cN 2) (cW (cV 2) 6))))))))) (cM (cM (cM (cN 2) (cR (cN 2))) (cH 1)) (cR (cD (cM (cV 2) (cA (cN 3) (cM (cN 2) (cV 2)))) (cA (cN 1) (cM (cN 2) (cH 1))))))).
Definition QST_e706 := (cD (cA (cN (-2)) (cV 2)) (cM (cM (cN 2) (cR (cN 2))) (cR (cD (cM (cM (cH 1) (cV 2)) (cA (cN 1) (cV 2))) (cA (cN 1) (cM (cN 2) (cH 1))))))).
Definition QST_e707 := (cD (cB (cB (cA (cM (cA (cN 1) (cM (cN 2) (cV 2))) (cR (cD (cA (cA (cN 3) (cM (cN 5) (cV 2))) (cM (cN 2) (cW (cV 2) 4))) (cA (cA (cN 10) (cM (cN 9) (cV 2))) (cM (cN 2) (cW (cV 2) 4)))))) (cD (cA (cN 1) (cM (cN 2) (cV 2))) (cR (cD (cA (cN 5) (cM (cN 2) (cV 2))) (cA (cA (cA (cN 6) (cM (cN 13) (cV 2))) (cM (cN 9) (cW (cV 2) 4))) (cM (cN 2) (cW (cV 2) 6))))))) (cD (cN 6) (cR (cA (cA (cA (cA (cN 30) (cM (cN 77) (cV 2))) (cM (cN 71) (cW (cV 2) 4))) (cM (cN 28) (cW (cV 2) 6))) (cM (cN 4) (cW (cV 2) 8)))))) (cD (cM (cN 3) (cA (cN 1) (cM (cN 2) (cV 2)))) (cR (cA (cA (cA (cA (cN 30) (cM (cN 77) (cV 2))) (cM (cN 71) (cW (cV 2) 4))) (cM (cN 28) (cW (cV 2) 6))) (cM (cN 4) (cW (cV 2) 8)))))) (cM (cR (cN 2)) (cR (cD (cM (cM (cH 1) (cV 2)) (cA (cA (cA (cN 30) (cM (cN 47) (cV 2))) (cM (cN 24) (cW (cV 2) 4))) (cM (cN 4) (cW (cV 2) 6)))) (cA (cN 1) (cM (cN 2) (cH 1))))))).
Definition QST_e708 := (cD (cO (cR (cD (cM (cM (cA (cN (-1)) (cM (cN 2) (cH 1))) (cV 2)) (cA (cN 1) (cV 2))) (cH 1)))) (cM (cM (cN 2) (cR (cN 2))) (cV 2))).
Definition QST_e709 := (cD (cR (cD (cM (cM (cA (cN (-1)) (cM (cN 2) (cH 1))) (cA (cN (-1)) (cV 2))) (cV 2)) (cH 1))) (cM (cM (cN 2) (cR (cN 2))) (cV 2))).
Definition QST_e710 := (cD (cO (cR (cD (cM (cM (cH 1) (cA (cN (-1)) (cM (cN 2) (cH 1)))) (cV 2)) (cA (cN 1) (cV 2))))) (cM (cM (cM (cN 2) (cR (cN 2))) (cH 1)) (cV 2))).
Definition QST_e711 := (cD (cM (cA (cN (-1)) (cM (cN 2) (cV 2))) (cA (cM (cN 3) (cR (cM (cH 1) (cV 2)))) (cM (cN 2) (cR (cM (cH 1) (cW (cV 2) 6)))))) (cM (cM (cM (cM (cN 2) (cR (cN 6))) (cH 1)) (cV 2)) (cR (cD (cA (cA (cA (cN (-3)) (cV 2)) (cM (cN 8) (cW (cV 2) 4))) (cM (cN 4) (cW (cV 2) 6))) (cA (cN (-1)) (cM (cN 2) (cH 1))))))).
Definition QST_e712 := (cM (cR (cQ 2 3)) (cR (cA (cN 1) (cD (cN 1) (cH 1))))).
Definition QST_e713 := (cD (cR (cD (cM (cM (cA (cN (-1)) (cM (cN 2) (cH 1))) (cV 2)) (cA (cN 1) (cV 2))) (cH 1))) (cM (cR (cN 2)) (cA (cN 2) (cM (cN 2) (cV 2))))).
Definition QST_e714 := (cD (cA (cN 2) (cV 2)) (cM (cM (cN 2) (cR (cN 2))) (cR (cD (cM (cH 1) (cA (cA (cN 2) (cM (cN 3) (cV 2))) (cW (cV 2) 4))) (cA (cN (-1)) (cM (cN 2) (cH 1))))))).
Definition QST_e715 := (cD (cR (cD (cA (cN (-1)) (cV 2)) (cV 2))) (cR (cN 2))).
Definition QST_e716 := (cO (cD (cN 1) (cM (cR (cN 2)) (cR (cD (cM (cM (cH 1) (cV 2)) (cA (cN 1) (cV 2))) (cA (cN 1) (cM (cN 2) (cH 1)))))))).
Definition QST_e717 := (cD (cV 2) (cM (cR (cN 2)) (cR (cD (cM (cM (cH 1) (cV 2)) (cA (cN 1) (cV 2))) (cA (cN 1) (cM (cN 2) (cH 1))))))).
Definition QST_e718 := (cO (cD (cA (cN 1) (cH 1)) (cM (cR (cN 2)) (cR (cD (cM (cM (cH 1) (cA (cN 1) (cH 1))) (cV 2)) (cA (cN 1) (cV 2))))))).
Definition QST_e719 := (cO (cD (cM (cA (cN (-1)) (cM (cN 2) (cV 2))) (cA (cM (cN 3) (cR (cM (cH 1) (cV 2)))) (cM (cN 2) (cR (cM (cH 1) (cW (cV 2) 6)))))) (cM (cM (cR (cN 6)) (cV 2)) (cR (cM (cH 1) (cA (cA (cA (cN (-3)) (cV 2)) (cM (cN 8) (cW (cV 2) 4))) (cM (cN 4) (cW (cV 2) 6)))))))).
Definition QST_e720 := (cO (cD (cA (cN 1) (cH 1)) (cM (cR (cN 2)) (cR (cM (cM (cM (cH 1) (cA (cN 1) (cH 1))) (cV 2)) (cA (cN 1) (cV 2))))))).
Definition QST_e721 := (cO (cD (cA (cN 2) (cV 2)) (cM (cR (cN 2)) (cR (cA (cA (cN 2) (cM (cN 3) (cV 2))) (cW (cV 2) 4)))))).
Definition QST_e722 := (cD (cR (cM (cM (cH 1) (cA (cN 1) (cM (cN 2) (cH 1)))) (cA (cN (-1)) (cM (cN 4) (cW (cV 2) 4))))) (cM (cR (cN 6)) (cB (cH 1) (cM (cM (cN 2) (cH 1)) (cV 2))))).
Definition QST_e723 := (cD (cR (cD (cM (cM (cA (cN 1) (cM (cN 2) (cH 1))) (cV 2)) (cA (cB (cA (cN (-3)) (cM (cN 11) (cV 2))) (cM (cN 12) (cW (cV 2) 4))) (cM (cN 4) (cW (cV 2) 6)))) (cH 1))) (cM (cR (cN 3)) (cB (cM (cN 2) (cV 2)) (cM (cN 4) (cW (cV 2) 4))))).
Definition QST_e724 := (cD (cO (cR (cD (cM (cA (cN 1) (cM (cN 2) (cH 1))) (cA (cN (-1)) (cV 2))) (cM (cH 1) (cV 2))))) (cN 2)).
Definition QST_e725 := (cO (cD (cM (cR (cD (cM (cA (cN 1) (cM (cN 2) (cH 1))) (cA (cN 1) (cM (cN 2) (cV 2)))) (cA (cA (cA (cN (-3)) (cV 2)) (cM (cN 8) (cW (cV 2) 4))) (cM (cN 4) (cW (cV 2) 6))))) (cA (cA (cR (cD (cM (cH 1) (cA (cN (-1)) (cM (cN 4) (cW (cV 2) 4)))) (cA (cA (cN 3) (cM (cN 5) (cV 2))) (cM (cN 2) (cW (cV 2) 4))))) (cR (cD (cM (cH 1) (cA (cA (cB (cN (-1)) (cV 2)) (cM (cN 4) (cW (cV 2) 4))) (cM (cN 4) (cW (cV 2) 6)))) (cA (cN 3) (cM (cN 2) (cV 2)))))) (cR (cD (cM (cH 1) (cA (cN (-1)) (cM (cN 2) (cV 2)))) (cA (cA (cA (cN 3) (cM (cN 11) (cV 2))) (cM (cN 12) (cW (cV 2) 4))) (cM (cN 4) (cW (cV 2) 6))))))) (cM (cR (cN 2)) (cH 1)))).
Definition QST_e726 := (cD (cR (cD (cM (cM (cA (cN (-1)) (cM (cN 2) (cH 1))) (cV 2)) (cA (cB (cB (cN 1) (cV 2)) (cM (cN 4) (cW (cV 2) 4))) (cM (cN 4) (cW (cV 2) 6)))) (cH 1))) (cB (cM (cN 2) (cV 2)) (cM (cN 4) (cW (cV 2) 4)))).
Definition QST_e727 := (cD (cO (cR (cD (cM (cM (cH 1) (cA (cN (-1)) (cM (cN 2) (cH 1)))) (cA (cN 1) (cV 2))) (cV 2)))) (cM (cN 2) (cH 1))).
Definition QST_e728 := (cD (cO (cM (cM (cA (cR (cD (cM (cH 1) (cA (cN 1) (cM (cN 2) (cH 1)))) (cM (cM (cA (cN 1) (cH 1)) (cA (cN (-1)) (cV 2))) (cV 2)))) (cR (cD (cH 1) (cM (cM (cA (cA (cN 1) (cM (cN 3) (cH 1))) (cM (cN 2) (cW (cH 1) 4))) (cA (cN (-1)) (cV 2))) (cV 2))))) (cA (cN (-1)) (cV 2))) (cR (cD (cM (cA (cN 1) (cM (cN 2) (cH 1))) (cA (cN 1) (cM (cN 2) (cV 2)))) (cM (cA (cH 1) (cW (cH 1) 4)) (cA (cN (-1)) (cM (cN 2) (cV 2)))))))) (cN 2)).
Definition QST_e729 := (cD (cR (cD (cM (cM (cA (cN 1) (cM (cN 2) (cH 1))) (cA (cN (-1)) (cV 2))) (cA (cN 1) (cM (cN 2) (cV 2)))) (cM (cM (cH 1) (cV 2)) (cA (cN (-1)) (cM (cN 2) (cV 2)))))) (cN 2)).
Definition QST_e730 := (cD (cA (cB (cA (cM (cN 2) (cR (cD (cM (cH 1) (cA (cN (-1)) (cV 2))) (cA (cN 1) (cV 2))))) (cR (cD (cH 1) (cA (cN (-1)) (cW (cV 2) 4))))) (cM (cM (cN 2) (cV 2)) (cR (cD (cH 1) (cA (cN (-1)) (cW (cV 2) 4)))))) (cM (cW (cV 2) 4) (cR (cD (cH 1) (cA (cN (-1)) (cW (cV 2) 4)))))) (cM (cN 2) (cR (cD (cM (cM (cM (cH 1) (cA (cN (-1)) (cV 2))) (cV 2)) (cA (cN (-1)) (cM (cN 2) (cV 2)))) (cA (cN 1) (cM (cN 2) (cV 2))))))).
Definition QST_e731 := (cD (cR (cM (cM (cA (cN 1) (cH 1)) (cA (cN (-1)) (cV 2))) (cA (cN (-1)) (cM (cN 4) (cW (cV 2) 4))))) (cM (cM (cN 2) (cR (cM (cH 1) (cV 2)))) (cA (cN (-1)) (cM (cN 2) (cV 2))))).
Definition QST_e732 := (cD (cA (cA (cM (cN 3) (cR (cM (cM (cH 1) (cV 2)) (cA (cN (-1)) (cM (cN 2) (cV 2)))))) (cM (cN 5) (cR (cM (cM (cH 1) (cW (cV 2) 6)) (cA (cN (-1)) (cM (cN 2) (cV 2))))))) (cM (cN 2) (cR (cM (cM (cH 1) (cW (cV 2) 10)) (cA (cN (-1)) (cM (cN 2) (cV 2))))))) (cM (cM (cM (cM (cN 2) (cR (cN 3))) (cV 2)) (cA (cN (-1)) (cM (cN 2) (cV 2)))) (cR (cM (cH 1) (cA (cA (cN 3) (cM (cN 5) (cV 2))) (cM (cN 2) (cW (cV 2) 4))))))).
Definition QST_e733 := (cD (cA (cA (cA (cR (cM (cM (cH 1) (cV 2)) (cA (cN (-1)) (cM (cN 2) (cV 2))))) (cM (cV 2) (cR (cM (cM (cH 1) (cV 2)) (cA (cN (-1)) (cM (cN 2) (cV 2))))))) (cR (cM (cM (cW (cH 1) 6) (cV 2)) (cA (cN (-1)) (cM (cN 2) (cV 2)))))) (cR (cM (cM (cW (cH 1) 6) (cW (cV 2) 6)) (cA (cN (-1)) (cM (cN 2) (cV 2)))))) (cM (cM (cM (cN 2) (cH 1)) (cV 2)) (cR (cM (cA (cN 1) (cH 1)) (cA (cA (cN (-1)) (cV 2)) (cM (cN 2) (cW (cV 2) 4))))))).
Definition QST_e734 := (cD (cA (cB (cN 3) (cM (cN 5) (cV 2))) (cM (cN 2) (cW (cV 2) 4))) (cM (cM (cN 2) (cR (cN 3))) (cR (cD (cM (cM (cM (cH 1) (cV 2)) (cA (cN (-1)) (cM (cN 2) (cV 2)))) (cA (cB (cN 3) (cM (cN 5) (cV 2))) (cM (cN 2) (cW (cV 2) 4)))) (cA (cN 1) (cM (cN 2) (cH 1))))))).
Definition QST_e735 := (cD (cA (cN (-1)) (cV 2)) (cM (cN 2) (cR (cD (cM (cM (cH 1) (cA (cN (-1)) (cV 2))) (cV 2)) (cA (cN 1) (cM (cN 2) (cH 1))))))).
Definition QST_e736 := (cD (cO (cM (cM (cR (cN 3)) (cA (cN (-3)) (cM (cN 2) (cV 2)))) (cA (cB (cA (cM (cN 2) (cR (cD (cM (cH 1) (cA (cN (-1)) (cV 2))) (cA (cN 1) (cV 2))))) (cR (cD (cH 1) (cA (cN (-1)) (cW (cV 2) 4))))) (cM (cM (cN 2) (cV 2)) (cR (cD (cH 1) (cA (cN (-1)) (cW (cV 2) 4)))))) (cM (cW (cV 2) 4) (cR (cD (cH 1) (cA (cN (-1)) (cW (cV 2) 4)))))))) (cM (cN 2) (cR (cM (cM (cM (cH 1) (cV 2)) (cA (cN (-1)) (cM (cN 2) (cV 2)))) (cA (cB (cN 3) (cM (cN 5) (cV 2))) (cM (cN 2) (cW (cV 2) 4))))))).
Definition QST_e737 := (cD (cM (cA (cN 1) (cH 1)) (cA (cB (cN 3) (cM (cN 5) (cV 2))) (cM (cN 2) (cW (cV 2) 4)))) (cM (cM (cN 2) (cR (cN 3))) (cR (cM (cM (cM (cM (cH 1) (cA (cN 1) (cH 1))) (cV 2)) (cA (cN (-1)) (cM (cN 2) (cV 2)))) (cA (cB (cN 3) (cM (cN 5) (cV 2))) (cM (cN 2) (cW (cV 2) 4))))))).
Definition QST_e738 := (cD (cM (cA (cN (-1)) (cV 2)) (cA (cA (cA (cR (cM (cM (cH 1) (cV 2)) (cA (cN (-1)) (cM (cN 2) (cV 2))))) (cM (cV 2) (cR (cM (cM (cH 1) (cV 2)) (cA (cN (-1)) (cM (cN 2) (cV 2))))))) (cR (cM (cM (cW (cH 1) 6) (cV 2)) (cA (cN (-1)) (cM (cN 2) (cV 2)))))) (cR (cM (cM (cW (cH 1) 6) (cW (cV 2) 6)) (cA (cN (-1)) (cM (cN 2) (cV 2))))))) (cM (cM (cM (cM (cN 2) (cH 1)) (cV 2)) (cA (cN 1) (cV 2))) (cR (cM (cM (cA (cN 1) (cH 1)) (cA (cN (-1)) (cV 2))) (cA (cN (-1)) (cM (cN 2) (cV 2))))))).
Definition QST_e739 := (cD (cA (cN (-1)) (cH 1)) (cM (cR (cN 3)) (cR (cD (cM (cM (cA (cN (-1)) (cH 1)) (cH 1)) (cA (cN (-1)) (cM (cN 2) (cV 2)))) (cA (cN 1) (cM (cN 2) (cV 2))))))).
Definition QST_e740 := (cD (cR (cD (cM (cA (cN (-1)) (cM (cN 2) (cH 1))) (cA (cN 1) (cM (cN 2) (cV 2)))) (cM (cH 1) (cA (cN (-1)) (cM (cN 2) (cV 2)))))) (cR (cN 3))).
Definition QST_e741 := (cM (cA (cA (cR (cD (cM (cH 1) (cA (cA (cN 1) (cM (cN 3) (cH 1))) (cM (cN 2) (cW (cH 1) 4)))) (cA (cN 3) (cM (cN 2) (cH 1))))) (cR (cD (cM (cH 1) (cA (cN 1) (cM (cN 2) (cH 1)))) (cA (cA (cN 3) (cM (cN 5) (cH 1))) (cM (cN 2) (cW (cH 1) 4)))))) (cR (cD (cH 1) (cA (cA (cA (cN 3) (cM (cN 11) (cH 1))) (cM (cN 12) (cW (cH 1) 4))) (cM (cN 4) (cW (cH 1) 6)))))) (cR (cD (cM (cA (cN 1) (cM (cN 2) (cH 1))) (cA (cN 1) (cM (cN 2) (cV 2)))) (cM (cM (cH 1) (cA (cA (cN 3) (cM (cN 5) (cH 1))) (cM (cN 2) (cW (cH 1) 4)))) (cA (cN (-1)) (cM (cN 2) (cV 2))))))).
Definition QST_e742 := (cO (cD (cR (cM (cM (cH 1) (cA (cN 1) (cM (cN 2) (cH 1)))) (cA (cN (-1)) (cM (cN 4) (cW (cV 2) 4))))) (cM (cR (cN 3)) (cB (cH 1) (cM (cM (cN 2) (cH 1)) (cV 2)))))).
Definition QST_e743 := (cD (cO (cR (cD (cM (cM (cA (cN 1) (cM (cN 2) (cH 1))) (cA (cN (-2)) (cV 2))) (cA (cN 1) (cM (cN 2) (cV 2)))) (cM (cM (cH 1) (cV 2)) (cA (cN (-1)) (cM (cN 2) (cV 2))))))) (cN 2)).
Definition QST_e744 := (cD (cA (cB (cN 3) (cM (cN 5) (cV 2))) (cM (cN 2) (cW (cV 2) 4))) (cM (cM (cN 2) (cR (cN 6))) (cR (cD (cM (cM (cM (cH 1) (cV 2)) (cA (cN (-1)) (cM (cN 2) (cV 2)))) (cA (cB (cN 3) (cM (cN 5) (cV 2))) (cM (cN 2) (cW (cV 2) 4)))) (cA (cN 1) (cM (cN 2) (cH 1))))))).
Definition QST_e745 := (cD (cM (cM (cA (cN (-3)) (cM (cN 2) (cV 2))) (cR (cO (cD (cA (cN 3) (cM (cN 6) (cH 1))) (cB (cA (cM (cN 6) (cH 1)) (cM (cM (cN 2) (cH 1)) (cV 2))) (cM (cM (cN 4) (cH 1)) (cW (cV 2) 4))))))) (cB (cR (cM (cV 2) (cA (cN (-1)) (cM (cN 2) (cV 2))))) (cR (cM (cW (cV 2) 10) (cA (cN (-1)) (cM (cN 2) (cV 2))))))) (cM (cM (cM (cN 2) (cA (cN (-1)) (cV 2))) (cV 2)) (cA (cN (-1)) (cM (cN 2) (cV 2))))).
Definition QST_e746 := (cD (cR (cD (cM (cA (cN 1) (cM (cN 2) (cH 1))) (cA (cN (-1)) (cV 2))) (cM (cH 1) (cV 2)))) (cM (cN 2) (cR (cN 2)))).
Definition QST_e747 := (cD (cO (cM (cM (cR (cA (cQ 3 2) (cM (cN 3) (cH 1)))) (cA (cN (-1)) (cV 2))) (cA (cN 3) (cM (cN 2) (cV 2))))) (cM (cN 2) (cR (cM (cM (cH 1) (cV 2)) (cA (cB (cN 3) (cM (cN 7) (cV 2))) (cM (cN 4) (cW (cV 2) 6))))))).
Definition QST_e748 := (cD (cM (cR (cD (cM (cA (cN 1) (cM (cN 2) (cH 1))) (cA (cN 1) (cM (cN 2) (cV 2)))) (cA (cA (cA (cN (-3)) (cV 2)) (cM (cN 8) (cW (cV 2) 4))) (cM (cN 4) (cW (cV 2) 6))))) (cA (cA (cR (cD (cM (cM (cH 1) (cA (cN (-1)) (cM (cN 2) (cV 2)))) (cA (cA (cN 1) (cM (cN 3) (cV 2))) (cM (cN 2) (cW (cV 2) 4)))) (cA (cN 3) (cM (cN 2) (cV 2))))) (cR (cD (cM (cH 1) (cA (cN (-1)) (cM (cN 4) (cW (cV 2) 4)))) (cA (cA (cN 3) (cM (cN 5) (cV 2))) (cM (cN 2) (cW (cV 2) 4)))))) (cR (cD (cM (cH 1) (cA (cN (-1)) (cM (cN 2) (cV 2)))) (cA (cA (cA (cN 3) (cM (cN 11) (cV 2))) (cM (cN 12) (cW (cV 2) 4))) (cM (cN 4) (cW (cV 2) 6))))))) (cM (cN 2) (cH 1))).
Definition QST_e749 := (cD (cO (cM (cR (cD (cM (cM (cH 1) (cA (cN 1) (cM (cN 2) (cH 1)))) (cA (cN 1) (cM (cN 2) (cV 2)))) (cA (cA (cA (cB (cN (-6)) (cV 2)) (cM (cN 17) (cW (cV 2) 4))) (cM (cN 16) (cW (cV 2) 6))) (cM (cN 4) (cW (cV 2) 8))))) (cA (cA (cA (cR (cD (cM (cM (cV 2) (cA (cN (-1)) (cM (cN 2) (cV 2)))) (cA (cA (cN 1) (cM (cN 3) (cV 2))) (cM (cN 2) (cW (cV 2) 4)))) (cA (cN 3) (cM (cN 2) (cV 2))))) (cM (cN 3) (cR (cD (cM (cV 2) (cA (cN (-1)) (cM (cN 4) (cW (cV 2) 4)))) (cA (cA (cN 3) (cM (cN 5) (cV 2))) (cM (cN 2) (cW (cV 2) 4))))))) (cM (cN 6) (cR (cD (cA (cN (-1)) (cM (cN 2) (cV 2))) (cM (cV 2) (cA (cA (cA (cN 3) (cM (cN 11) (cV 2))) (cM (cN 12) (cW (cV 2) 4))) (cM (cN 4) (cW (cV 2) 6)))))))) (cM (cN 9) (cR (cD (cM (cV 2) (cA (cN (-1)) (cM (cN 2) (cV 2)))) (cA (cA (cA (cN 3) (cM (cN 11) (cV 2))) (cM (cN 12) (cW (cV 2) 4))) (cM (cN 4) (cW (cV 2) 6))))))))) (cM (cN 2) (cH 1))).
Definition QST_e750 := (cD (cB (cN 1) (cM (cN 2) (cH 1))) (cM (cN 2) (cR (cD (cM (cM (cH 1) (cA (cN (-1)) (cM (cN 2) (cH 1)))) (cA (cN (-1)) (cM (cN 2) (cV 2)))) (cA (cN 1) (cM (cN 2) (cV 2))))))).
Definition QST_e751 := (cD (cO (cM (cA (cN 1) (cM (cN 2) (cV 2))) (cR (cD (cM (cA (cN (-1)) (cM (cN 2) (cH 1))) (cA (cN (-1)) (cV 2))) (cM (cH 1) (cA (cM (cN (-2)) (cV 2)) (cM (cN 8) (cW (cV 2) 6)))))))) (cN 2)).
Definition QST_e752 := (cD (cM (cA (cN (-1)) (cM (cN 2) (cH 1))) (cB (cR (cM (cV 2) (cA (cN (-1)) (cM (cN 2) (cV 2))))) (cR (cM (cW (cV 2) 10) (cA (cN (-1)) (cM (cN 2) (cV 2))))))) (cM (cM (cM (cM (cM (cN 2) (cR (cN 2))) (cA (cN (-1)) (cV 2))) (cV 2)) (cA (cN (-1)) (cM (cN 2) (cV 2)))) (cR (cD (cM (cM (cH 1) (cA (cN (-1)) (cM (cN 2) (cH 1)))) (cA (cN 1) (cV 2))) (cA (cN 1) (cM (cN 2) (cV 2))))))).
Definition QST_e753 := (cD (cO (cM (cA (cN (-1)) (cM (cN 2) (cH 1))) (cA (cA (cN 3) (cM (cN 5) (cV 2))) (cM (cN 2) (cW (cV 2) 4))))) (cM (cM (cN 2) (cR (cN 6))) (cR (cM (cM (cM (cH 1) (cA (cN (-1)) (cM (cN 2) (cH 1)))) (cV 2)) (cA (cA (cA (cN (-3)) (cV 2)) (cM (cN 8) (cW (cV 2) 4))) (cM (cN 4) (cW (cV 2) 6))))))).
Definition QST_e754 := (cD (cA (cB (cA (cM (cN 3) (cR (cD (cM (cM (cA (cN (-1)) (cM (cN 2) (cH 1))) (cV 2)) (cA (cN (-1)) (cM (cN 2) (cV 2)))) (cA (cN 1) (cH 1))))) (cR (cD (cM (cV 2) (cA (cN (-1)) (cM (cN 2) (cV 2)))) (cA (cA (cN (-1)) (cH 1)) (cM (cN 2) (cW (cH 1) 4)))))) (cM (cM (cN 4) (cH 1)) (cR (cD (cM (cV 2) (cA (cN (-1)) (cM (cN 2) (cV 2)))) (cA (cA (cN (-1)) (cH 1)) (cM (cN 2) (cW (cH 1) 4))))))) (cM (cM (cN 4) (cW (cH 1) 4)) (cR (cD (cM (cV 2) (cA (cN (-1)) (cM (cN 2) (cV 2)))) (cA (cA (cN (-1)) (cH 1)) (cM (cN 2) (cW (cH 1) 4))))))) (cM (cR (cN 6)) (cR (cM (cM (cM (cH 1) (cA (cN (-1)) (cM (cN 2) (cH 1)))) (cV 2)) (cA (cN (-1)) (cM (cN 2) (cV 2))))))).
Definition QST_e755 := (cD (cO (cM (cA (cR (cD (cM (cH 1) (cA (cN 1) (cM (cN 2) (cH 1)))) (cM (cM (cA (cN 1) (cH 1)) (cA (cN (-1)) (cV 2))) (cV 2)))) (cR (cD (cH 1) (cM (cM (cA (cA (cN 1) (cM (cN 3) (cH 1))) (cM (cN 2) (cW (cH 1) 4))) (cA (cN (-1)) (cV 2))) (cV 2))))) (cA (cN (-1)) (cV 2)))) (cM (cM (cN 2) (cR (cN 2))) (cR (cD (cM (cM (cH 1) (cA (cN 1) (cH 1))) (cA (cN (-1)) (cM (cN 2) (cV 2)))) (cM (cA (cN 1) (cM (cN 2) (cH 1))) (cA (cN 1) (cM (cN 2) (cV 2)))))))).
Definition QST_e756 := (cD (cB (cN 1) (cV 2)) (cM (cR (cN 2)) (cR (cD (cM (cM (cM (cH 1) (cA (cN (-1)) (cV 2))) (cV 2)) (cA (cN (-1)) (cM (cN 2) (cV 2)))) (cM (cA (cN 1) (cM (cN 2) (cH 1))) (cA (cN 1) (cM (cN 2) (cV 2)))))))).
Definition QST_e757 := (cD (cA (cB (cA (cM (cN 2) (cR (cD (cM (cH 1) (cA (cN (-1)) (cV 2))) (cA (cN 1) (cV 2))))) (cR (cD (cH 1) (cA (cN (-1)) (cW (cV 2) 4))))) (cM (cM (cN 2) (cV 2)) (cR (cD (cH 1) (cA (cN (-1)) (cW (cV 2) 4)))))) (cM (cW (cV 2) 4) (cR (cD (cH 1) (cA (cN (-1)) (cW (cV 2) 4)))))) (cM (cR (cN 2)) (cR (cD (cM (cM (cM (cH 1) (cA (cN (-1)) (cV 2))) (cV 2)) (cA (cN (-1)) (cM (cN 2) (cV 2)))) (cA (cN 1) (cM (cN 2) (cV 2))))))).
Definition QST_e758 := (cO (cD (cR (cM (cM (cA (cN 1) (cH 1)) (cA (cN (-1)) (cV 2))) (cA (cN (-1)) (cM (cN 4) (cW (cV 2) 4))))) (cM (cM (cR (cN 2)) (cR (cM (cH 1) (cV 2)))) (cA (cN (-1)) (cM (cN 2) (cV 2)))))).
Definition QST_e759 := (cD (cA (cA (cM (cN 3) (cR (cM (cM (cH 1) (cV 2)) (cA (cN (-1)) (cM (cN 2) (cV 2)))))) (cM (cN 5) (cR (cM (cM (cH 1) (cW (cV 2) 6)) (cA (cN (-1)) (cM (cN 2) (cV 2))))))) (cM (cN 2) (cR (cM (cM (cH 1) (cW (cV 2) 10)) (cA (cN (-1)) (cM (cN 2) (cV 2))))))) (cM (cM (cM (cR (cN 6)) (cV 2)) (cA (cN (-1)) (cM (cN 2) (cV 2)))) (cR (cM (cH 1) (cA (cA (cN 3) (cM (cN 5) (cV 2))) (cM (cN 2) (cW (cV 2) 4))))))).
Definition QST_e760 := (cO (cD (cA (cA (cA (cR (cM (cM (cH 1) (cV 2)) (cA (cN (-1)) (cM (cN 2) (cV 2))))) (cM (cV 2) (cR (cM (cM (cH 1) (cV 2)) (cA (cN (-1)) (cM (cN 2) (cV 2))))))) (cR (cM (cM (cW (cH 1) 6) (cV 2)) (cA (cN (-1)) (cM (cN 2) (cV 2)))))) (cR (cM (cM (cW (cH 1) 6) (cW (cV 2) 6)) (cA (cN (-1)) (cM (cN 2) (cV 2)))))) (cM (cM (cM (cR (cN 2)) (cH 1)) (cV 2)) (cR (cM (cA (cN 1) (cH 1)) (cA (cA (cN (-1)) (cV 2)) (cM (cN 2) (cW (cV 2) 4)))))))).
Definition QST_e761 := (cO (cD (cR (cM (cM (cH 1) (cA (cN 1) (cM (cN 2) (cH 1)))) (cA (cN (-1)) (cM (cN 4) (cW (cV 2) 4))))) (cM (cR (cN 2)) (cB (cH 1) (cM (cM (cN 2) (cH 1)) (cV 2)))))).
Definition QST_e762 := (cD (cA (cA (cR (cD (cM (cM (cA (cN (-1)) (cM (cN 2) (cD (cB (cV 1) (cN 1)) (cN 2)))) (cA (cN 1) (cV 2))) (cW (cA (cN 1) (cM (cN 2) (cV 2))) 4)) (cM (cD (cB (cV 1) (cN 1)) (cN 2)) (cA (cN 3) (cM (cN 2) (cV 2)))))) (cR (cD (cA (cN (-1)) (cM (cN 2) (cD (cB (cV 1) (cN 1)) (cN 2)))) (cM (cD (cB (cV 1) (cN 1)) (cN 2)) (cA (cA (cN 3) (cM (cN 5) (cV 2))) (cM (cN 2) (cW (cV 2) 4))))))) (cR (cD (cM (cA (cN (-1)) (cM (cN 2) (cD (cB (cV 1) (cN 1)) (cN 2)))) (cW (cA (cN 1) (cM (cN 2) (cV 2))) 4)) (cM (cD (cB (cV 1) (cN 1)) (cN 2)) (cA (cA (cN 3) (cM (cN 5) (cV 2))) (cM (cN 2) (cW (cV 2) 4))))))) (cR (cD (cM (cM (cA (cN 1) (cM (cN 2) (cD (cB (cV 1) (cN 1)) (cN 2)))) (cA (cN 1) (cV 2))) (cA (cN 3) (cM (cN 2) (cV 2)))) (cA (cN 1) (cD (cB (cV 1) (cN 1)) (cN 2)))))).
Definition QST_e763 := (cD (cM (cA (cN 1) (cM (cN 2) (cD (cB (cV 1) (cN 1)) (cN 2)))) (cB (cA (cB (cA (cO (cR (cD (cM (cM (cD (cB (cV 1) (cN 1)) (cN 2)) (cA (cN 1) (cD (cB (cV 1) (cN 1)) (cN 2)))) (cW (cV 2) 6)) (cW (cA (cN 1) (cM (cN 2) (cD (cB (cV 1) (cN 1)) (cN 2)))) 6)))) (cM (cM (cN 2) (cD (cB (cV 1) (cN 1)) (cN 2))) (cR (cD (cM (cM (cD (cB (cV 1) (cN 1)) (cN 2)) (cA (cN 1) (cD (cB (cV 1) (cN 1)) (cN 2)))) (cW (cV 2) 6)) (cW (cA (cN 1) (cM (cN 2) (cD (cB (cV 1) (cN 1)) (cN 2)))) 6))))) (cR (cD (cM (cM (cD (cB (cV 1) (cN 1)) (cN 2)) (cA (cN 1) (cD (cB (cV 1) (cN 1)) (cN 2)))) (cW (cV 2) 6)) (cA (cN 1) (cM (cN 2) (cD (cB (cV 1) (cN 1)) (cN 2))))))) (cR (cD (cM (cM (cM (cW (cB (cN 1) (cM (cN 2) (cD (cB (cV 1) (cN 1)) (cN 2)))) 4) (cD (cB (cV 1) (cN 1)) (cN 2))) (cA (cN 1) (cD (cB (cV 1) (cN 1)) (cN 2)))) (cW (cV 2) 10)) (cW (cA (cN 1) (cM (cN 2) (cD (cB (cV 1) (cN 1)) (cN 2)))) 6)))) (cR (cD (cM (cM (cD (cB (cV 1) (cN 1)) (cN 2)) (cA (cN 1) (cD (cB (cV 1) (cN 1)) (cN 2)))) (cW (cV 2) 10)) (cA (cN 1) (cM (cN 2) (cD (cB (cV 1) (cN 1)) (cN 2)))))))) (cM (cM (cM (cM (cN 2) (cD (cB (cV 1) (cN 1)) (cN 2))) (cR (cA (cN 1) (cD (cB (cV 1) (cN 1)) (cN 2))))) (cW (cV 2) 3)) (cA (cN 1) (cV 2)))).
Definition QST_e764 := (cD (cA (cA (cA (cA (cA (cA (cA (cM (cN 3) (cR (cM (cD (cB (cV 1) (cN 1)) (cN 2)) (cV 2)))) (cM (cM (cN 4) (cD (cB (cV 1) (cN 1)) (cN 2))) (cR (cM (cD (cB (cV 1) (cN 1)) (cN 2)) (cV 2))))) (cM (cM (cN 2) (cV 2)) (cR (cM (cD (cB (cV 1) (cN 1)) (cN 2)) (cV 2))))) (cM (cM (cN 2) (cD (cB (cV 1) (cN 1)) (cN 2))) (cW (cM (cD (cB (cV 1) (cN 1)) (cN 2)) (cV 2)) 3))) (cR (cM (cW (cD (cB (cV 1) (cN 1)) (cN 2)) 6) (cV 2)))) (cM (cN 2) (cR (cM (cW (cD (cB (cV 1) (cN 1)) (cN 2)) 10) (cV 2))))) (cR (cM (cD (cB (cV 1) (cN 1)) (cN 2)) (cW (cV 2) 6)))) (cM (cM (cN 5) (cD (cB (cV 1) (cN 1)) (cN 2))) (cR (cM (cD (cB (cV 1) (cN 1)) (cN 2)) (cW (cV 2) 6))))) (cM (cM (cA (cN 1) (cD (cB (cV 1) (cN 1)) (cN 2))) (cR (cM (cM (cA (cN 1) (cD (cB (cV 1) (cN 1)) (cN 2))) (cA (cN 3) (cM (cM (cN 4) (cD (cB (cV 1) (cN 1)) (cN 2))) (cA (cN 2) (cD (cB (cV 1) (cN 1)) (cN 2)))))) (cV 2)))) (cA (cN 1) (cV 2)))).
Definition QST_e765 := (cD (cR (cA (cN (-1)) (cW (cD (cB (cV 1) (cN 1)) (cN 2)) 4))) (cD (cB (cV 1) (cN 1)) (cN 2))).
Definition QST_e766 := (cD (cA (cN (-1)) (cM (cN 2) (cD (cB (cV 1) (cN 1)) (cN 2)))) (cM (cD (cB (cV 1) (cN 1)) (cN 2)) (cR (cA (cN (-1)) (cM (cN 4) (cW (cD (cB (cV 1) (cN 1)) (cN 2)) 4)))))).
Definition QST_e767 := (cD (cR (cB (cN 1) (cD (cN 2) (cA (cN 1) (cM (cN 2) (cD (cB (cV 1) (cN 1)) (cN 2))))))) (cD (cB (cV 1) (cN 1)) (cN 2))).
Definition QST_e768 := (cM (cR (cD (cA (cN 1) (cD (cB (cV 1) (cN 1)) (cN 2))) (cA (cA (cM (cN 3) (cD (cB (cV 1) (cN 1)) (cN 2))) (cM (cM (cN 5) (cD (cB (cV 1) (cN 1)) (cN 2))) (cV 2))) (cM (cM (cN 2) (cD (cB (cV 1) (cN 1)) (cN 2))) (cW (cV 2) 4))))) (cA (cA (cM (cA (cN 1) (cM (cN 2) (cV 2))) (cR (cD (cM (cA (cN (-1)) (cD (cB (cV 1) (cN 1)) (cN 2))) (cA (cN 1) (cV 2))) (cM (cD (cB (cV 1) (cN 1)) (cN 2)) (cA (cN 3) (cM (cN 2) (cV 2))))))) (cR (cD (cA (cN (-1)) (cD (cB (cV 1) (cN 1)) (cN 2))) (cM (cD (cB (cV 1) (cN 1)) (cN 2)) (cA (cA (cN 3) (cM (cN 5) (cV 2))) (cM (cN 2) (cW (cV 2) 4))))))) (cM (cA (cN 1) (cM (cN 2) (cV 2))) (cR (cD (cA (cN (-1)) (cD (cB (cV 1) (cN 1)) (cN 2))) (cM (cD (cB (cV 1) (cN 1)) (cN 2)) (cA (cA (cN 3) (cM (cN 5) (cV 2))) (cM (cN 2) (cW (cV 2) 4))))))))).
Definition QST_e769 := (cM (cR (cD (cA (cN 1) (cD (cB (cV 1) (cN 1)) (cN 2))) (cM (cM (cD (cB (cV 1) (cN 1)) (cN 2)) (cA (cN 1) (cM (cN 2) (cD (cB (cV 1) (cN 1)) (cN 2))))) (cA (cA (cN 3) (cM (cN 5) (cV 2))) (cM (cN 2) (cW (cV 2) 4)))))) (cA (cA (cM (cA (cN 1) (cM (cN 2) (cV 2))) (cR (cD (cM (cA (cN (-1)) (cM (cN 2) (cD (cB (cV 1) (cN 1)) (cN 2)))) (cA (cN 1) (cV 2))) (cM (cA (cD (cB (cV 1) (cN 1)) (cN 2)) (cW (cD (cB (cV 1) (cN 1)) (cN 2)) 4)) (cA (cN 3) (cM (cN 2) (cV 2))))))) (cR (cD (cA (cN (-1)) (cM (cN 2) (cD (cB (cV 1) (cN 1)) (cN 2)))) (cM (cM (cD (cB (cV 1) (cN 1)) (cN 2)) (cA (cN 1) (cD (cB (cV 1) (cN 1)) (cN 2)))) (cA (cA (cN 3) (cM (cN 5) (cV 2))) (cM (cN 2) (cW (cV 2) 4))))))) (cM (cA (cN 1) (cM (cN 2) (cV 2))) (cR (cD (cA (cN (-1)) (cM (cN 2) (cD (cB (cV 1) (cN 1)) (cN 2)))) (cM (cM (cD (cB (cV 1) (cN 1)) (cN 2)) (cA (cN 1) (cD (cB (cV 1) (cN 1)) (cN 2)))) (cA (cA (cN 3) (cM (cN 5) (cV 2))) (cM (cN 2) (cW (cV 2) 4))))))))).
Definition QST_e770 := (cO (cD (cN 1) (cD (cB (cV 1) (cN 1)) (cN 2)))).
Definition QST_e771 := (cA (cB (cN 1) (cD (cN 1) (cD (cB (cV 1) (cN 1)) (cN 2)))) (cD (cN 1) (cA (cN 1) (cD (cB (cV 1) (cN 1)) (cN 2))))).
Definition QST_e772 := (cD (cN 1) (cA (cN 1) (cD (cB (cV 1) (cN 1)) (cN 2)))).
Definition QST_e773 := (cO (cD (cR (cA (cN 1) (cD (cN 2) (cA (cN 1) (cM (cN 2) (cD (cB (cV 1) (cN 1)) (cN 2))))))) (cA (cN 1) (cD (cB (cV 1) (cN 1)) (cN 2))))).
Definition QST_e774 := (cD (cR (cM (cD (cB (cV 1) (cN 1)) (cN 2)) (cA (cN 2) (cD (cB (cV 1) (cN 1)) (cN 2))))) (cA (cN 1) (cD (cB (cV 1) (cN 1)) (cN 2)))).
Definition QST_e775 := (cD (cM (cR (cD (cA (cN 1) (cD (cB (cV 1) (cN 1)) (cN 2))) (cA (cN 1) (cM (cN 2) (cD (cB (cV 1) (cN 1)) (cN 2)))))) (cA (cA (cM (cN (-3)) (cR (cD (cM (cM (cA (cN (-1)) (cM (cN 2) (cD (cB (cV 1) (cN 1)) (cN 2)))) (cA (cN 1) (cV 2))) (cA (cN 3) (cM (cN 2) (cV 2)))) (cD (cB (cV 1) (cN 1)) (cN 2))))) (cM (cN 18) (cR (cD (cA (cN (-1)) (cM (cN 2) (cD (cB (cV 1) (cN 1)) (cN 2)))) (cM (cD (cB (cV 1) (cN 1)) (cN 2)) (cA (cA (cN 3) (cM (cN 5) (cV 2))) (cM (cN 2) (cW (cV 2) 4)))))))) (cM (cM (cV 2) (cA (cN 5) (cM (cN 2) (cV 2)))) (cA (cR (cD (cM (cM (cA (cN (-1)) (cM (cN 2) (cD (cB (cV 1) (cN 1)) (cN 2)))) (cA (cN 1) (cV 2))) (cA (cN 3) (cM (cN 2) (cV 2)))) (cD (cB (cV 1) (cN 1)) (cN 2)))) (cM (cN 6) (cR (cD (cA (cN (-1)) (cM (cN 2) (cD (cB (cV 1) (cN 1)) (cN 2)))) (cM (cD (cB (cV 1) (cN 1)) (cN 2)) (cA (cA (cN 3) (cM (cN 5) (cV 2))) (cM (cN 2) (cW (cV 2) 4))))))))))) (cW (cM (cA (cN 1) (cV 2)) (cA (cN 3) (cM (cN 2) (cV 2)))) 3)).
Definition QST_e776 := (cD (cM (cR (cD (cA (cN 1) (cD (cB (cV 1) (cN 1)) (cN 2))) (cA (cV 2) (cM (cM (cN 2) (cD (cB (cV 1) (cN 1)) (cN 2))) (cV 2))))) (cA (cA (cA (cM (cN 6) (cR (cM (cB (cN 2) (cD (cN 1) (cD (cB (cV 1) (cN 1)) (cN 2)))) (cV 2)))) (cM (cN 13) (cR (cD (cM (cA (cN (-1)) (cM (cN 2) (cD (cB (cV 1) (cN 1)) (cN 2)))) (cW (cV 2) 6)) (cD (cB (cV 1) (cN 1)) (cN 2)))))) (cM (cN 9) (cR (cD (cM (cA (cN (-1)) (cM (cN 2) (cD (cB (cV 1) (cN 1)) (cN 2)))) (cW (cV 2) 10)) (cD (cB (cV 1) (cN 1)) (cN 2)))))) (cM (cN 2) (cR (cD (cM (cA (cN (-1)) (cM (cN 2) (cD (cB (cV 1) (cN 1)) (cN 2)))) (cW (cV 2) 14)) (cD (cB (cV 1) (cN 1)) (cN 2))))))) (cM (cM (cA (cN 1) (cV 2)) (cA (cN 2) (cV 2))) (cA (cN 3) (cM (cN 2) (cV 2))))).
Definition QST_e777 := (cM (cR (cD (cA (cN 1) (cD (cB (cV 1) (cN 1)) (cN 2))) (cM (cA (cN 1) (cM (cN 2) (cD (cB (cV 1) (cN 1)) (cN 2)))) (cA (cA (cA (cA (cN 30) (cM (cN 77) (cV 2))) (cM (cN 71) (cW (cV 2) 4))) (cM (cN 28) (cW (cV 2) 6))) (cM (cN 4) (cW (cV 2) 8)))))) (cA (cA (cA (cA (cM (cM (cN 2) (cA (cN 1) (cM (cN 2) (cV 2)))) (cR (cD (cM (cM (cA (cN (-1)) (cM (cN 2) (cD (cB (cV 1) (cN 1)) (cN 2)))) (cA (cN 1) (cV 2))) (cA (cN 3) (cM (cN 2) (cV 2)))) (cM (cM (cD (cB (cV 1) (cN 1)) (cN 2)) (cA (cN 2) (cV 2))) (cA (cN 5) (cM (cN 2) (cV 2))))))) (cM (cA (cN 1) (cM (cN 2) (cV 2))) (cR (cD (cM (cM (cM (cA (cN (-1)) (cM (cN 2) (cD (cB (cV 1) (cN 1)) (cN 2)))) (cA (cN 1) (cV 2))) (cA (cN 2) (cV 2))) (cA (cN 3) (cM (cN 2) (cV 2)))) (cM (cD (cB (cV 1) (cN 1)) (cN 2)) (cA (cN 5) (cM (cN 2) (cV 2)))))))) (cM (cM (cN 6) (cA (cN 1) (cM (cN 2) (cV 2)))) (cR (cD (cM (cA (cN (-1)) (cM (cN 2) (cD (cB (cV 1) (cN 1)) (cN 2)))) (cA (cN 1) (cV 2))) (cM (cD (cB (cV 1) (cN 1)) (cN 2)) (cA (cA (cA (cN 30) (cM (cN 47) (cV 2))) (cM (cN 24) (cW (cV 2) 4))) (cM (cN 4) (cW (cV 2) 6)))))))) (cM (cN 6) (cR (cD (cA (cN (-1)) (cM (cN 2) (cD (cB (cV 1) (cN 1)) (cN 2)))) (cM (cD (cB (cV 1) (cN 1)) (cN 2)) (cA (cA (cA (cA (cN 30) (cM (cN 77) (cV 2))) (cM (cN 71) (cW (cV 2) 4))) (cM (cN 28) (cW (cV 2) 6))) (cM (cN 4) (cW (cV 2) 8)))))))) (cM (cM (cN 6) (cA (cN 1) (cM (cN 2) (cV 2)))) (cR (cD (cA (cN (-1)) (cM (cN 2) (cD (cB (cV 1) (cN 1)) (cN 2)))) (cM (cD (cB (cV 1) (cN 1)) (cN 2)) (cA (cA (cA (cA (cN 30) (cM (cN 77) (cV 2))) (cM (cN 71) (cW (cV 2) 4))) (cM (cN 28) (cW (cV 2) 6))) (cM (cN 4) (cW (cV 2) 8))))))))).
Definition QST_e778 := (cD (cM (cD (cB (cV 1) (cN 1)) (cN 2)) (cA (cN 3) (cM (cN 2) (cD (cB (cV 1) (cN 1)) (cN 2))))) (cR (cM (cM (cM (cD (cB (cV 1) (cN 1)) (cN 2)) (cA (cN 1) (cD (cB (cV 1) (cN 1)) (cN 2)))) (cA (cN 1) (cM (cN 2) (cD (cB (cV 1) (cN 1)) (cN 2))))) (cA (cN 3) (cM (cN 2) (cD (cB (cV 1) (cN 1)) (cN 2))))))).
Definition QST_e779 := (cD (cA (cN 3) (cM (cN 2) (cD (cB (cV 1) (cN 1)) (cN 2)))) (cR (cD (cM (cM (cA (cN 1) (cD (cB (cV 1) (cN 1)) (cN 2))) (cA (cN 1) (cM (cN 2) (cD (cB (cV 1) (cN 1)) (cN 2))))) (cA (cN 3) (cM (cN 2) (cD (cB (cV 1) (cN 1)) (cN 2))))) (cD (cB (cV 1) (cN 1)) (cN 2))))).
Definition QST_e780 := (cR (cA (cA (cN 1) (cD (cN 6) (cB (cN 1) (cM (cN 2) (cD (cB (cV 1) (cN 1)) (cN 2)))))) (cD (cN 3) (cD (cB (cV 1) (cN 1)) (cN 2))))).
Definition QST_e781 := (cD (cR (cA (cB (cN 3) (cM (cN 9) (cD (cB (cV 1) (cN 1)) (cN 2)))) (cM (cN 6) (cW (cD (cB (cV 1) (cN 1)) (cN 2)) 4)))) (cM (cD (cB (cV 1) (cN 1)) (cN 2)) (cA (cN (-1)) (cM (cN 2) (cD (cB (cV 1) (cN 1)) (cN 2)))))).
Definition QST_e782 := (cO (cD (cR (cN 3)) (cR (cM (cD (cB (cV 1) (cN 1)) (cN 2)) (cA (cN (-1)) (cM (cN 2) (cD (cB (cV 1) (cN 1)) (cN 2)))))))).
Definition QST_e783 := (cD (cA (cA (cN (-4)) (cD (cB (cV 1) (cN 1)) (cN 2))) (cM (cN 2) (cW (cD (cB (cV 1) (cN 1)) (cN 2)) 4))) (cR (cM (cM (cM (cD (cB (cV 1) (cN 1)) (cN 2)) (cA (cN 1) (cD (cB (cV 1) (cN 1)) (cN 2)))) (cA (cN (-1)) (cM (cN 2) (cD (cB (cV 1) (cN 1)) (cN 2))))) (cA (cN 1) (cM (cN 2) (cD (cB (cV 1) (cN 1)) (cN 2))))))).
Definition QST_e784 := (cD (cR (cA (cA (cB (cN (-2)) (cD (cN 3) (cD (cB (cV 1) (cN 1)) (cN 2)))) (cM (cN 12) (cD (cB (cV 1) (cN 1)) (cN 2)))) (cM (cN 8) (cW (cD (cB (cV 1) (cN 1)) (cN 2)) 4)))) (cA (cA (cN 1) (cM (cN 3) (cD (cB (cV 1) (cN 1)) (cN 2)))) (cM (cN 2) (cW (cD (cB (cV 1) (cN 1)) (cN 2)) 4)))).
Definition QST_e785 := (cO (cD (cN 1) (cM (cD (cB (cV 1) (cN 1)) (cN 2)) (cR (cD (cM (cA (cN 1) (cD (cB (cV 1) (cN 1)) (cN 2))) (cA (cN 1) (cM (cN 2) (cD (cB (cV 1) (cN 1)) (cN 2))))) (cA (cN (-3)) (cM (cM (cN 4) (cD (cB (cV 1) (cN 1)) (cN 2))) (cA (cN 1) (cD (cB (cV 1) (cN 1)) (cN 2)))))))))).
Definition QST_e786 := (cD (cA (cN (-3)) (cM (cD (cB (cV 1) (cN 1)) (cN 2)) (cA (cN 3) (cM (cN 2) (cD (cB (cV 1) (cN 1)) (cN 2)))))) (cR (cM (cM (cM (cD (cB (cV 1) (cN 1)) (cN 2)) (cA (cN 1) (cD (cB (cV 1) (cN 1)) (cN 2)))) (cA (cN 1) (cM (cN 2) (cD (cB (cV 1) (cN 1)) (cN 2))))) (cA (cN 3) (cM (cN 2) (cD (cB (cV 1) (cN 1)) (cN 2))))))).
Definition QST_e787 := (cD (cM (cR (cN 3)) (cA (cA (cM (cN 6) (cR (cM (cM (cD (cB (cV 1) (cN 1)) (cN 2)) (cA (cN 1) (cD (cB (cV 1) (cN 1)) (cN 2)))) (cA (cN 3) (cM (cN 2) (cD (cB (cV 1) (cN 1)) (cN 2))))))) (cM (cN 7) (cR (cM (cM (cW (cD (cB (cV 1) (cN 1)) (cN 2)) 6) (cA (cN 1) (cD (cB (cV 1) (cN 1)) (cN 2)))) (cA (cN 3) (cM (cN 2) (cD (cB (cV 1) (cN 1)) (cN 2)))))))) (cM (cN 2) (cR (cM (cM (cW (cD (cB (cV 1) (cN 1)) (cN 2)) 10) (cA (cN 1) (cD (cB (cV 1) (cN 1)) (cN 2)))) (cA (cN 3) (cM (cN 2) (cD (cB (cV 1) (cN 1)) (cN 2))))))))) (cM (cM (cM (cR (cD (cB (cV 1) (cN 1)) (cN 2))) (cA (cN 1) (cD (cB (cV 1) (cN 1)) (cN 2)))) (cA (cN 2) (cD (cB (cV 1) (cN 1)) (cN 2)))) (cW (cA (cN 3) (cM (cN 2) (cD (cB (cV 1) (cN 1)) (cN 2)))) 4))).
Definition QST_e788 := (cO (cD (cR (cD (cA (cN 6) (cM (cN 3) (cD (cB (cV 1) (cN 1)) (cN 2)))) (cA (cN 3) (cM (cN 2) (cD (cB (cV 1) (cN 1)) (cN 2)))))) (cA (cN 1) (cD (cB (cV 1) (cN 1)) (cN 2))))).
Definition QST_e789 := (cD (cM (cA (cN 5) (cM (cN 2) (cD (cB (cV 1) (cN 1)) (cN 2)))) (cR (cD (cM (cD (cB (cV 1) (cN 1)) (cN 2)) (cA (cN 1) (cD (cB (cV 1) (cN 1)) (cN 2)))) (cA (cA (cN 15) (cM (cN 16) (cD (cB (cV 1) (cN 1)) (cN 2)))) (cM (cN 4) (cW (cD (cB (cV 1) (cN 1)) (cN 2)) 4)))))) (cA (cN 1) (cD (cB (cV 1) (cN 1)) (cN 2)))).
Definition QST_e790 := (cM (cR (cD (cA (cN 3) (cM (cN 2) (cD (cB (cV 1) (cN 1)) (cN 2)))) (cM (cA (cN 1) (cM (cN 2) (cD (cB (cV 1) (cN 1)) (cN 2)))) (cA (cA (cN 3) (cM (cN 5) (cV 2))) (cM (cN 2) (cW (cV 2) 4)))))) (cA (cA (cM (cA (cN 1) (cM (cN 2) (cV 2))) (cR (cD (cM (cD (cB (cV 1) (cN 1)) (cN 2)) (cA (cN 1) (cV 2))) (cM (cA (cN 1) (cD (cB (cV 1) (cN 1)) (cN 2))) (cA (cN 3) (cM (cN 2) (cV 2))))))) (cR (cD (cD (cB (cV 1) (cN 1)) (cN 2)) (cM (cA (cN 1) (cD (cB (cV 1) (cN 1)) (cN 2))) (cA (cA (cN 3) (cM (cN 5) (cV 2))) (cM (cN 2) (cW (cV 2) 4))))))) (cM (cA (cN 1) (cM (cN 2) (cV 2))) (cR (cD (cD (cB (cV 1) (cN 1)) (cN 2)) (cM (cA (cN 1) (cD (cB (cV 1) (cN 1)) (cN 2))) (cA (cA (cN 3) (cM (cN 5) (cV 2))) (cM (cN 2) (cW (cV 2) 4))))))))).
Definition QST_e791 := (cD (cR (cA (cN (-3)) (cM (cM (cN 4) (cD (cB (cV 1) (cN 1)) (cN 2))) (cA (cN 1) (cD (cB (cV 1) (cN 1)) (cN 2)))))) (cA (cN 1) (cM (cN 2) (cD (cB (cV 1) (cN 1)) (cN 2))))).
Definition QST_e792 := (cM (cR (cD (cM (cA (cN 1) (cD (cB (cV 1) (cN 1)) (cN 2))) (cA (cN 3) (cM (cN 2) (cD (cB (cV 1) (cN 1)) (cN 2))))) (cM (cM (cM (cD (cB (cV 1) (cN 1)) (cN 2)) (cA (cN 1) (cM (cN 2) (cD (cB (cV 1) (cN 1)) (cN 2))))) (cA (cN 1) (cV 2))) (cA (cN 3) (cM (cN 2) (cV 2)))))) (cA (cA (cM (cA (cN 1) (cM (cN 2) (cV 2))) (cR (cD (cM (cM (cD (cB (cV 1) (cN 1)) (cN 2)) (cA (cN (-1)) (cM (cN 2) (cD (cB (cV 1) (cN 1)) (cN 2))))) (cA (cN 1) (cV 2))) (cM (cA (cA (cN 1) (cM (cN 3) (cD (cB (cV 1) (cN 1)) (cN 2)))) (cM (cN 2) (cW (cD (cB (cV 1) (cN 1)) (cN 2)) 4))) (cA (cN 3) (cM (cN 2) (cV 2))))))) (cR (cD (cM (cD (cB (cV 1) (cN 1)) (cN 2)) (cA (cN (-1)) (cM (cN 2) (cD (cB (cV 1) (cN 1)) (cN 2))))) (cM (cA (cA (cN 1) (cM (cN 3) (cD (cB (cV 1) (cN 1)) (cN 2)))) (cM (cN 2) (cW (cD (cB (cV 1) (cN 1)) (cN 2)) 4))) (cA (cA (cN 3) (cM (cN 5) (cV 2))) (cM (cN 2) (cW (cV 2) 4))))))) (cM (cA (cN 1) (cM (cN 2) (cV 2))) (cR (cD (cM (cD (cB (cV 1) (cN 1)) (cN 2)) (cA (cN (-1)) (cM (cN 2) (cD (cB (cV 1) (cN 1)) (cN 2))))) (cM (cA (cA (cN 1) (cM (cN 3) (cD (cB (cV 1) (cN 1)) (cN 2)))) (cM (cN 2) (cW (cD (cB (cV 1) (cN 1)) (cN 2)) 4))) (cA (cA (cN 3) (cM (cN 5) (cV 2))) (cM (cN 2) (cW (cV 2) 4))))))))).
Definition QST_e793 := (cD (cA (cB (cM (cM (cN 3) (cA (cN 1) (cV 2))) (cR (cM (cM (cM (cM (cW (cD (cB (cV 1) (cN 1)) (cN 2)) 6) (cW (cA (cN 1) (cD (cB (cV 1) (cN 1)) (cN 2))) 8)) (cA (cN 2) (cD (cB (cV 1) (cN 1)) (cN 2)))) (cW (cV 2) 6)) (cW (cA (cN 1) (cV 2)) 8)))) (cM (cD (cB (cV 1) (cN 1)) (cN 2)) (cA (cM (cW (cV 2) 4) (cR (cM (cM (cM (cM (cD (cB (cV 1) (cN 1)) (cN 2)) (cW (cA (cN 1) (cD (cB (cV 1) (cN 1)) (cN 2))) 8)) (cA (cN 2) (cD (cB (cV 1) (cN 1)) (cN 2)))) (cV 2)) (cW (cA (cN 1) (cV 2)) 8)))) (cR (cM (cM (cM (cM (cD (cB (cV 1) (cN 1)) (cN 2)) (cW (cA (cN 1) (cD (cB (cV 1) (cN 1)) (cN 2))) 8)) (cA (cN 2) (cD (cB (cV 1) (cN 1)) (cN 2)))) (cW (cV 2) 6)) (cW (cA (cN 1) (cV 2)) 8)))))) (cM (cW (cD (cB (cV 1) (cN 1)) (cN 2)) 4) (cA (cM (cW (cV 2) 4) (cR (cM (cM (cM (cM (cD (cB (cV 1) (cN 1)) (cN 2)) (cW (cA (cN 1) (cD (cB (cV 1) (cN 1)) (cN 2))) 8)) (cA (cN 2) (cD (cB (cV 1) (cN 1)) (cN 2)))) (cV 2)) (cW (cA (cN 1) (cV 2)) 8)))) (cR (cM (cM (cM (cM (cD (cB (cV 1) (cN 1)) (cN 2)) (cW (cA (cN 1) (cD (cB (cV 1) (cN 1)) (cN 2))) 8)) (cA (cN 2) (cD (cB (cV 1) (cN 1)) (cN 2)))) (cW (cV 2) 6)) (cW (cA (cN 1) (cV 2)) 8)))))) (cM (cM (cM (cM (cD (cB (cV 1) (cN 1)) (cN 2)) (cW (cA (cN 1) (cD (cB (cV 1) (cN 1)) (cN 2))) 6)) (cA (cN 2) (cD (cB (cV 1) (cN 1)) (cN 2)))) (cW (cV 2) 3)) (cW (cA (cN 1) (cV 2)) 6))).
Definition QST_e794 := (cO (cD (cR (cA (cN 3) (cM (cM (cN 4) (cD (cB (cV 1) (cN 1)) (cN 2))) (cA (cN 2) (cD (cB (cV 1) (cN 1)) (cN 2)))))) (cM (cA (cN 1) (cD (cB (cV 1) (cN 1)) (cN 2))) (cA (cN 1) (cM (cN 2) (cD (cB (cV 1) (cN 1)) (cN 2))))))).
Definition QST_e795 := (cD (cA (cB (cA (cM (cN 3) (cR (cD (cM (cD (cB (cV 1) (cN 1)) (cN 2)) (cA (cN 3) (cM (cN 2) (cD (cB (cV 1) (cN 1)) (cN 2))))) (cA (cN 1) (cD (cB (cV 1) (cN 1)) (cN 2)))))) (cM (cN 3) (cR (cD (cM (cW (cD (cB (cV 1) (cN 1)) (cN 2)) 6) (cA (cN 3) (cM (cN 2) (cD (cB (cV 1) (cN 1)) (cN 2))))) (cA (cN 1) (cD (cB (cV 1) (cN 1)) (cN 2))))))) (cR (cM (cM (cD (cB (cV 1) (cN 1)) (cN 2)) (cA (cN 1) (cD (cB (cV 1) (cN 1)) (cN 2)))) (cA (cN 3) (cM (cN 2) (cD (cB (cV 1) (cN 1)) (cN 2))))))) (cR (cM (cM (cW (cD (cB (cV 1) (cN 1)) (cN 2)) 6) (cA (cN 1) (cD (cB (cV 1) (cN 1)) (cN 2)))) (cA (cN 3) (cM (cN 2) (cD (cB (cV 1) (cN 1)) (cN 2))))))) (cM (cW (cA (cN 1) (cD (cB (cV 1) (cN 1)) (cN 2))) 3) (cR (cM (cA (cN 2) (cD (cB (cV 1) (cN 1)) (cN 2))) (cA (cN 3) (cM (cN 2) (cD (cB (cV 1) (cN 1)) (cN 2)))))))).
Definition QST_e796 := (cD (cN 1) (cA (cA (cN 1) (cM (cN 3) (cD (cB (cV 1) (cN 1)) (cN 2)))) (cM (cN 2) (cW (cD (cB (cV 1) (cN 1)) (cN 2)) 4)))).
Definition QST_e797 := (cO (cD (cN 1) (cA (cN 1) (cD (cB (cV 1) (cN 1)) (cN 2))))).
Definition QST_e798 := (cD (cM (cR (cD (cA (cN 3) (cM (cN 2) (cD (cB (cV 1) (cN 1)) (cN 2)))) (cA (cV 2) (cM (cM (cN 2) (cD (cB (cV 1) (cN 1)) (cN 2))) (cV 2))))) (cA (cA (cA (cM (cN 6) (cR (cD (cM (cD (cB (cV 1) (cN 1)) (cN 2)) (cV 2)) (cA (cN 1) (cD (cB (cV 1) (cN 1)) (cN 2)))))) (cM (cN 13) (cR (cD (cM (cD (cB (cV 1) (cN 1)) (cN 2)) (cW (cV 2) 6)) (cA (cN 1) (cD (cB (cV 1) (cN 1)) (cN 2))))))) (cM (cN 9) (cR (cD (cM (cD (cB (cV 1) (cN 1)) (cN 2)) (cW (cV 2) 10)) (cA (cN 1) (cD (cB (cV 1) (cN 1)) (cN 2))))))) (cM (cN 2) (cR (cD (cM (cD (cB (cV 1) (cN 1)) (cN 2)) (cW (cV 2) 14)) (cA (cN 1) (cD (cB (cV 1) (cN 1)) (cN 2)))))))) (cA (cA (cA (cN 6) (cM (cN 13) (cV 2))) (cM (cN 9) (cW (cV 2) 4))) (cM (cN 2) (cW (cV 2) 6)))).
Definition QST_e799 := (cM (cR (cD (cA (cN 3) (cM (cN 2) (cD (cB (cV 1) (cN 1)) (cN 2)))) (cM (cA (cN 1) (cM (cN 2) (cD (cB (cV 1) (cN 1)) (cN 2)))) (cA (cA (cA (cA (cN 30) (cM (cN 77) (cV 2))) (cM (cN 71) (cW (cV 2) 4))) (cM (cN 28) (cW (cV 2) 6))) (cM (cN 4) (cW (cV 2) 8)))))) (cA (cA (cA (cA (cM (cM (cN 2) (cA (cN 1) (cM (cN 2) (cV 2)))) (cR (cD (cM (cM (cD (cB (cV 1) (cN 1)) (cN 2)) (cA (cN 1) (cV 2))) (cA (cN 3) (cM (cN 2) (cV 2)))) (cM (cM (cA (cN 1) (cD (cB (cV 1) (cN 1)) (cN 2))) (cA (cN 2) (cV 2))) (cA (cN 5) (cM (cN 2) (cV 2))))))) (cM (cA (cN 1) (cM (cN 2) (cV 2))) (cR (cD (cM (cM (cM (cD (cB (cV 1) (cN 1)) (cN 2)) (cA (cN 1) (cV 2))) (cA (cN 2) (cV 2))) (cA (cN 3) (cM (cN 2) (cV 2)))) (cM (cA (cN 1) (cD (cB (cV 1) (cN 1)) (cN 2))) (cA (cN 5) (cM (cN 2) (cV 2)))))))) (cM (cM (cN 6) (cA (cN 1) (cM (cN 2) (cV 2)))) (cR (cD (cM (cD (cB (cV 1) (cN 1)) (cN 2)) (cA (cN 1) (cV 2))) (cM (cA (cN 1) (cD (cB (cV 1) (cN 1)) (cN 2))) (cA (cA (cA (cN 30) (cM (cN 47) (cV 2))) (cM (cN 24) (cW (cV 2) 4))) (cM (cN 4) (cW (cV 2) 6)))))))) (cM (cN 6) (cR (cD (cD (cB (cV 1) (cN 1)) (cN 2)) (cM (cA (cN 1) (cD (cB (cV 1) (cN 1)) (cN 2))) (cA (cA (cA (cA (cN 30) (cM (cN 77) (cV 2))) (cM (cN 71) (cW (cV 2) 4))) (cM (cN 28) (cW (cV 2) 6))) (cM (cN 4) (cW (cV 2) 8)))))))) (cM (cM (cN 6) (cA (cN 1) (cM (cN 2) (cV 2)))) (cR (cD (cD (cB (cV 1) (cN 1)) (cN 2)) (cM (cA (cN 1) (cD (cB (cV 1) (cN 1)) (cN 2))) (cA (cA (cA (cA (cN 30) (cM (cN 77) (cV 2))) (cM (cN 71) (cW (cV 2) 4))) (cM (cN 28) (cW (cV 2) 6))) (cM (cN 4) (cW (cV 2) 8))))))))).
Definition QST_e800 := (cD (cN 1) (cR (cD (cM (cD (cB (cV 1) (cN 1)) (cN 2)) (cA (cN 1) (cM (cN 2) (cD (cB (cV 1) (cN 1)) (cN 2))))) (cA (cA (cN (-3)) (cD (cB (cV 1) (cN 1)) (cN 2))) (cM (cN 2) (cW (cD (cB (cV 1) (cN 1)) (cN 2)) 4)))))).
Definition QST_e801 := (cO (cD (cR (cA (cA (cN 9) (cM (cN 15) (cD (cB (cV 1) (cN 1)) (cN 2)))) (cM (cN 6) (cW (cD (cB (cV 1) (cN 1)) (cN 2)) 4)))) (cA (cA (cN 1) (cM (cN 3) (cD (cB (cV 1) (cN 1)) (cN 2)))) (cM (cN 2) (cW (cD (cB (cV 1) (cN 1)) (cN 2)) 4))))).
Definition QST_e802 := (cD (cR (cM (cM (cM (cD (cB (cV 1) (cN 1)) (cN 2)) (cA (cN 2) (cD (cB (cV 1) (cN 1)) (cN 2)))) (cA (cN (-1)) (cM (cN 2) (cD (cB (cV 1) (cN 1)) (cN 2))))) (cA (cN 3) (cM (cN 2) (cD (cB (cV 1) (cN 1)) (cN 2)))))) (cM (cA (cN 1) (cD (cB (cV 1) (cN 1)) (cN 2))) (cA (cN 1) (cM (cN 2) (cD (cB (cV 1) (cN 1)) (cN 2)))))).
Definition QST_e803 := (cD (cR (cN 3)) (cM (cR (cM (cD (cB (cV 1) (cN 1)) (cN 2)) (cA (cN 1) (cD (cB (cV 1) (cN 1)) (cN 2))))) (cA (cN 1) (cM (cN 2) (cD (cB (cV 1) (cN 1)) (cN 2)))))).
Definition QST_e804 := (cD (cM (cN (-4)) (cA (cM (cN 2) (cR (cM (cM (cD (cB (cV 1) (cN 1)) (cN 2)) (cA (cN 2) (cD (cB (cV 1) (cN 1)) (cN 2)))) (cA (cN 3) (cM (cN 2) (cD (cB (cV 1) (cN 1)) (cN 2))))))) (cR (cM (cM (cW (cD (cB (cV 1) (cN 1)) (cN 2)) 6) (cA (cN 2) (cD (cB (cV 1) (cN 1)) (cN 2)))) (cA (cN 3) (cM (cN 2) (cD (cB (cV 1) (cN 1)) (cN 2)))))))) (cM (cM (cM (cR (cA (cN 1) (cD (cB (cV 1) (cN 1)) (cN 2)))) (cA (cN 2) (cD (cB (cV 1) (cN 1)) (cN 2)))) (cA (cN 1) (cM (cN 2) (cD (cB (cV 1) (cN 1)) (cN 2))))) (cA (cN 3) (cM (cN 2) (cD (cB (cV 1) (cN 1)) (cN 2)))))).
Definition QST_e805 := (cR (cD (cM (cD (cB (cV 1) (cN 1)) (cN 2)) (cA (cN 5) (cM (cN 2) (cD (cB (cV 1) (cN 1)) (cN 2))))) (cA (cA (cN 3) (cM (cN 5) (cD (cB (cV 1) (cN 1)) (cN 2)))) (cM (cN 2) (cW (cD (cB (cV 1) (cN 1)) (cN 2)) 4))))).
Definition QST_e806 := (cD (cR (cN 3)) (cM (cA (cN 1) (cD (cB (cV 1) (cN 1)) (cN 2))) (cR (cA (cN 3) (cM (cM (cN 4) (cD (cB (cV 1) (cN 1)) (cN 2))) (cA (cN 2) (cD (cB (cV 1) (cN 1)) (cN 2)))))))).
Definition QST_e807 := (cO (cD (cR (cN 3)) (cR (cM (cA (cN 1) (cD (cB (cV 1) (cN 1)) (cN 2))) (cA (cN 3) (cM (cN 2) (cD (cB (cV 1) (cN 1)) (cN 2)))))))).
Definition QST_e808 := (cD (cR (cM (cM (cD (cB (cV 1) (cN 1)) (cN 2)) (cA (cN 1) (cD (cB (cV 1) (cN 1)) (cN 2)))) (cA (cN (-1)) (cM (cN 4) (cW (cD (cB (cV 1) (cN 1)) (cN 2)) 4))))) (cM (cD (cB (cV 1) (cN 1)) (cN 2)) (cA (cN 1) (cM (cN 2) (cD (cB (cV 1) (cN 1)) (cN 2)))))).
Definition QST_e809 := (cD (cN 1) (cD (cB (cV 1) (cN 1)) (cN 2))).
Definition QST_e810 := (cD (cN 1) (cA (cD (cB (cV 1) (cN 1)) (cN 2)) (cM (cN 2) (cW (cD (cB (cV 1) (cN 1)) (cN 2)) 4)))).
Definition QST_e811 := (cD (cM (cR (cA (cN 1) (cM (cN 2) (cV 2)))) (cA (cA (cA (cA (cA (cR (cD (cM (cM (cM (cM (cM (cD (cB (cV 1) (cN 1)) (cN 2)) (cA (cN 1) (cD (cB (cV 1) (cN 1)) (cN 2)))) (cA (cN (-1)) (cM (cN 2) (cD (cB (cV 1) (cN 1)) (cN 2))))) (cA (cN 1) (cM (cN 2) (cD (cB (cV 1) (cN 1)) (cN 2))))) (cA (cN 1) (cV 2))) (cA (cN 3) (cM (cN 2) (cV 2)))) (cA (cN 1) (cM (cN 2) (cV 2))))) (cR (cD (cM (cM (cM (cM (cM (cW (cD (cB (cV 1) (cN 1)) (cN 2)) 6) (cA (cN 1) (cD (cB (cV 1) (cN 1)) (cN 2)))) (cA (cN (-1)) (cM (cN 2) (cD (cB (cV 1) (cN 1)) (cN 2))))) (cA (cN 1) (cM (cN 2) (cD (cB (cV 1) (cN 1)) (cN 2))))) (cA (cN 1) (cV 2))) (cA (cN 3) (cM (cN 2) (cV 2)))) (cA (cN 1) (cM (cN 2) (cV 2)))))) (cR (cM (cM (cM (cM (cM (cM (cD (cB (cV 1) (cN 1)) (cN 2)) (cA (cN 1) (cD (cB (cV 1) (cN 1)) (cN 2)))) (cA (cN (-1)) (cM (cN 2) (cD (cB (cV 1) (cN 1)) (cN 2))))) (cA (cN 1) (cM (cN 2) (cD (cB (cV 1) (cN 1)) (cN 2))))) (cA (cN 1) (cV 2))) (cA (cN 1) (cM (cN 2) (cV 2)))) (cA (cN 3) (cM (cN 2) (cV 2)))))) (cR (cM (cM (cM (cM (cM (cM (cW (cD (cB (cV 1) (cN 1)) (cN 2)) 6) (cA (cN 1) (cD (cB (cV 1) (cN 1)) (cN 2)))) (cA (cN (-1)) (cM (cN 2) (cD (cB (cV 1) (cN 1)) (cN 2))))) (cA (cN 1) (cM (cN 2) (cD (cB (cV 1) (cN 1)) (cN 2))))) (cA (cN 1) (cV 2))) (cA (cN 1) (cM (cN 2) (cV 2)))) (cA (cN 3) (cM (cN 2) (cV 2)))))) (cR (cM (cM (cM (cM (cM (cD (cB (cV 1) (cN 1)) (cN 2)) (cA (cN 1) (cD (cB (cV 1) (cN 1)) (cN 2)))) (cA (cN (-1)) (cM (cN 2) (cD (cB (cV 1) (cN 1)) (cN 2))))) (cA (cN 1) (cM (cN 2) (cD (cB (cV 1) (cN 1)) (cN 2))))) (cW (cA (cN 1) (cV 2)) 6)) (cA (cN 3) (cM (cM (cN 4) (cV 2)) (cA (cN 2) (cV 2))))))) (cM (cD (cB (cV 1) (cN 1)) (cN 2)) (cR (cM (cM (cM (cM (cM (cD (cB (cV 1) (cN 1)) (cN 2)) (cA (cN 1) (cD (cB (cV 1) (cN 1)) (cN 2)))) (cA (cN (-1)) (cM (cN 2) (cD (cB (cV 1) (cN 1)) (cN 2))))) (cA (cN 1) (cM (cN 2) (cD (cB (cV 1) (cN 1)) (cN 2))))) (cW (cA (cN 1) (cV 2)) 6)) (cA (cN 3) (cM (cM (cN 4) (cV 2)) (cA (cN 2) (cV 2))))))))) (cM (cA (cN 1) (cM (cN 2) (cD (cB (cV 1) (cN 1)) (cN 2)))) (cW (cM (cM (cM (cD (cB (cV 1) (cN 1)) (cN 2)) (cA (cN 1) (cD (cB (cV 1) (cN 1)) (cN 2)))) (cA (cN 1) (cV 2))) (cA (cN 3) (cM (cN 2) (cV 2)))) 3))).
Definition QST_e812 := (cD (cA (cA (cR (cM (cM (cM (cD (cB (cV 1) (cN 1)) (cN 2)) (cA (cN 1) (cD (cB (cV 1) (cN 1)) (cN 2)))) (cA (cN (-1)) (cM (cN 2) (cD (cB (cV 1) (cN 1)) (cN 2))))) (cA (cN 1) (cM (cN 2) (cD (cB (cV 1) (cN 1)) (cN 2)))))) (cR (cD (cM (cD (cB (cV 1) (cN 1)) (cN 2)) (cA (cN (-1)) (cM (cN 2) (cD (cB (cV 1) (cN 1)) (cN 2))))) (cA (cA (cN 1) (cM (cN 3) (cD (cB (cV 1) (cN 1)) (cN 2)))) (cM (cN 2) (cW (cD (cB (cV 1) (cN 1)) (cN 2)) 4)))))) (cR (cD (cM (cD (cB (cV 1) (cN 1)) (cN 2)) (cA (cN (-1)) (cM (cN 4) (cW (cD (cB (cV 1) (cN 1)) (cN 2)) 4)))) (cA (cN 1) (cD (cB (cV 1) (cN 1)) (cN 2)))))) (cR (cM (cM (cM (cD (cB (cV 1) (cN 1)) (cN 2)) (cA (cN 1) (cD (cB (cV 1) (cN 1)) (cN 2)))) (cA (cN 1) (cM (cN 2) (cD (cB (cV 1) (cN 1)) (cN 2))))) (cA (cN 3) (cM (cN 2) (cD (cB (cV 1) (cN 1)) (cN 2))))))).
Definition QST_e813 := (cD (cA (cM (cV 2) (cR (cM (cM (cM (cM (cM (cW (cD (cB (cV 1) (cN 1)) (cN 2)) 4) (cW (cV 2) 6)) (cW (cA (cN 1) (cV 2)) 8)) (cW (cA (cN 2) (cV 2)) 6)) (cA (cN 1) (cM (cN 2) (cV 2)))) (cW (cA (cN 3) (cM (cN 2) (cV 2))) 6)))) (cD (cM (cM (cM (cM (cM (cM (cN 6) (cD (cB (cV 1) (cN 1)) (cN 2))) (cV 2)) (cA (cN 1) (cV 2))) (cA (cN 2) (cV 2))) (cA (cN 3) (cM (cN 2) (cV 2)))) (cA (cA (cR (cM (cM (cV 2) (cA (cN 2) (cV 2))) (cA (cN 3) (cM (cN 2) (cV 2))))) (cM (cN 2) (cR (cM (cM (cW (cV 2) 6) (cA (cN 2) (cV 2))) (cA (cN 3) (cM (cN 2) (cV 2))))))) (cR (cM (cM (cW (cV 2) 10) (cA (cN 2) (cV 2))) (cA (cN 3) (cM (cN 2) (cV 2))))))) (cR (cA (cN 1) (cM (cN 2) (cV 2)))))) (cR (cD (cM (cM (cM (cM (cM (cW (cD (cB (cV 1) (cN 1)) (cN 2)) 6) (cA (cN 1) (cM (cN 2) (cD (cB (cV 1) (cN 1)) (cN 2))))) (cW (cV 2) 6)) (cW (cA (cN 1) (cV 2)) 8)) (cW (cA (cN 2) (cV 2)) 10)) (cW (cA (cN 3) (cM (cN 2) (cV 2))) 10)) (cA (cN 1) (cM (cN 2) (cV 2)))))).
Definition QST_e814 := (cD (cM (cR (cD (cA (cN 1) (cM (cN 2) (cV 2))) (cA (cN 1) (cM (cN 2) (cD (cB (cV 1) (cN 1)) (cN 2)))))) (cA (cM (cM (cV 2) (cR (cM (cM (cD (cB (cV 1) (cN 1)) (cN 2)) (cA (cN 1) (cM (cN 2) (cV 2)))) (cA (cN 5) (cM (cN 2) (cV 2)))))) (cA (cN 29) (cM (cV 2) (cA (cN 13) (cM (cN 2) (cV 2)))))) (cM (cN 6) (cA (cM (cN 4) (cR (cM (cM (cD (cB (cV 1) (cN 1)) (cN 2)) (cA (cN 1) (cM (cN 2) (cV 2)))) (cA (cN 5) (cM (cN 2) (cV 2)))))) (cR (cA (cD (cB (cV 1) (cN 1)) (cN 2)) (cD (cM (cN 4) (cD (cB (cV 1) (cN 1)) (cN 2))) (cA (cN 1) (cM (cN 2) (cV 2)))))))))) (cM (cM (cM (cM (cD (cB (cV 1) (cN 1)) (cN 2)) (cA (cN 1) (cV 2))) (cA (cN 2) (cV 2))) (cA (cN 3) (cM (cN 2) (cV 2)))) (cW (cA (cN 5) (cM (cN 2) (cV 2))) 3))).
Definition QST_e815 := (cM (cA (cN 1) (cD (cB (cV 1) (cN 1)) (cN 2))) (cR (cD (cA (cN (-1)) (cM (cN 2) (cD (cB (cV 1) (cN 1)) (cN 2)))) (cA (cA (cD (cB (cV 1) (cN 1)) (cN 2)) (cM (cN 3) (cW (cD (cB (cV 1) (cN 1)) (cN 2)) 4))) (cM (cN 2) (cW (cD (cB (cV 1) (cN 1)) (cN 2)) 6)))))).
Definition QST_e816 := (cD (cR (cN 3)) (cR (cM (cD (cB (cV 1) (cN 1)) (cN 2)) (cA (cN (-1)) (cM (cN 2) (cD (cB (cV 1) (cN 1)) (cN 2))))))).
Definition QST_e817 := (cD (cR (cN 3)) (cM (cD (cB (cV 1) (cN 1)) (cN 2)) (cR (cA (cN (-1)) (cM (cN 4) (cW (cD (cB (cV 1) (cN 1)) (cN 2)) 4)))))).
Definition QST_e818 := (cD (cA (cN 1) (cD (cB (cV 1) (cN 1)) (cN 2))) (cR (cD (cM (cD (cB (cV 1) (cN 1)) (cN 2)) (cA (cA (cN (-1)) (cD (cB (cV 1) (cN 1)) (cN 2))) (cM (cN 2) (cW (cD (cB (cV 1) (cN 1)) (cN 2)) 4)))) (cA (cN (-3)) (cM (cN 2) (cD (cB (cV 1) (cN 1)) (cN 2))))))).
Definition QST_e819 := (cD (cM (cN 4) (cR (cA (cB (cA (cN (-2)) (cD (cN 1) (cD (cB (cV 1) (cN 1)) (cN 2)))) (cD (cB (cV 1) (cN 1)) (cN 2))) (cM (cN 2) (cW (cD (cB (cV 1) (cN 1)) (cN 2)) 4))))) (cA (cN (-1)) (cM (cN 4) (cW (cD (cB (cV 1) (cN 1)) (cN 2)) 4)))).
Definition QST_e820 := (cD (cA (cM (cN 3) (cR (cA (cD (cN 3) (cA (cN 1) (cM (cN 2) (cD (cB (cV 1) (cN 1)) (cN 2))))) (cM (cD (cB (cV 1) (cN 1)) (cN 2)) (cA (cA (cN (-4)) (cD (cB (cV 1) (cN 1)) (cN 2))) (cM (cN 2) (cW (cD (cB (cV 1) (cN 1)) (cN 2)) 4))))))) (cM (cM (cA (cN (-1)) (cD (cB (cV 1) (cN 1)) (cN 2))) (cD (cB (cV 1) (cN 1)) (cN 2))) (cA (cR (cD (cM (cM (cM (cA (cN 1) (cD (cB (cV 1) (cN 1)) (cN 2))) (cA (cN (-1)) (cM (cN 2) (cD (cB (cV 1) (cN 1)) (cN 2))))) (cA (cN 1) (cM (cN 2) (cD (cB (cV 1) (cN 1)) (cN 2))))) (cA (cN 3) (cM (cN 2) (cD (cB (cV 1) (cN 1)) (cN 2))))) (cA (cN (-1)) (cD (cB (cV 1) (cN 1)) (cN 2))))) (cM (cN 4) (cR (cA (cA (cA (cN 5) (cD (cN 10) (cM (cN 3) (cA (cN (-1)) (cD (cB (cV 1) (cN 1)) (cN 2)))))) (cM (cN 2) (cD (cB (cV 1) (cN 1)) (cN 2)))) (cD (cN 4) (cA (cN 3) (cM (cN 6) (cD (cB (cV 1) (cN 1)) (cN 2))))))))))) (cM (cM (cM (cD (cB (cV 1) (cN 1)) (cN 2)) (cA (cN 1) (cD (cB (cV 1) (cN 1)) (cN 2)))) (cR (cA (cN 1) (cM (cN 2) (cD (cB (cV 1) (cN 1)) (cN 2)))))) (cA (cN 3) (cM (cN 2) (cD (cB (cV 1) (cN 1)) (cN 2)))))).
Definition QST_e821 := (cD (cM (cR (cN 3)) (cA (cA (cR (cM (cM (cM (cM (cW (cD (cB (cV 1) (cN 1)) (cN 2)) 6) (cA (cN 1) (cD (cB (cV 1) (cN 1)) (cN 2)))) (cA (cN (-1)) (cM (cN 2) (cD (cB (cV 1) (cN 1)) (cN 2))))) (cA (cN 1) (cM (cN 2) (cD (cB (cV 1) (cN 1)) (cN 2))))) (cA (cN 3) (cM (cN 2) (cD (cB (cV 1) (cN 1)) (cN 2)))))) (cM (cN 3) (cR (cD (cM (cD (cB (cV 1) (cN 1)) (cN 2)) (cA (cN (-3)) (cM (cD (cB (cV 1) (cN 1)) (cN 2)) (cA (cN 1) (cM (cM (cN 4) (cD (cB (cV 1) (cN 1)) (cN 2))) (cA (cN 2) (cD (cB (cV 1) (cN 1)) (cN 2)))))))) (cA (cN 1) (cM (cN 2) (cD (cB (cV 1) (cN 1)) (cN 2)))))))) (cM (cM (cN 4) (cD (cB (cV 1) (cN 1)) (cN 2))) (cR (cD (cM (cD (cB (cV 1) (cN 1)) (cN 2)) (cA (cN (-3)) (cM (cD (cB (cV 1) (cN 1)) (cN 2)) (cA (cN 1) (cM (cM (cN 4) (cD (cB (cV 1) (cN 1)) (cN 2))) (cA (cN 2) (cD (cB (cV 1) (cN 1)) (cN 2)))))))) (cA (cN 1) (cM (cN 2) (cD (cB (cV 1) (cN 1)) (cN 2))))))))) (cM (cM (cD (cB (cV 1) (cN 1)) (cN 2)) (cR (cA (cN 1) (cM (cN 2) (cD (cB (cV 1) (cN 1)) (cN 2)))))) (cW (cM (cA (cN 1) (cD (cB (cV 1) (cN 1)) (cN 2))) (cA (cN 3) (cM (cN 2) (cD (cB (cV 1) (cN 1)) (cN 2))))) 3))).
Definition QST_e822 := (cD (cA (cA (cA (cA (cM (cN 3) (cR (cD (cM (cD (cB (cV 1) (cN 1)) (cN 2)) (cA (cA (cN (-1)) (cD (cB (cV 1) (cN 1)) (cN 2))) (cM (cN 2) (cW (cD (cB (cV 1) (cN 1)) (cN 2)) 4)))) (cA (cN 3) (cM (cN 2) (cD (cB (cV 1) (cN 1)) (cN 2))))))) (cM (cM (cN 6) (cD (cB (cV 1) (cN 1)) (cN 2))) (cR (cD (cM (cD (cB (cV 1) (cN 1)) (cN 2)) (cA (cA (cN (-1)) (cD (cB (cV 1) (cN 1)) (cN 2))) (cM (cN 2) (cW (cD (cB (cV 1) (cN 1)) (cN 2)) 4)))) (cA (cN 3) (cM (cN 2) (cD (cB (cV 1) (cN 1)) (cN 2)))))))) (cM (cN 3) (cR (cD (cM (cD (cB (cV 1) (cN 1)) (cN 2)) (cA (cN (-1)) (cM (cN 2) (cD (cB (cV 1) (cN 1)) (cN 2))))) (cA (cA (cN 3) (cM (cN 5) (cD (cB (cV 1) (cN 1)) (cN 2)))) (cM (cN 2) (cW (cD (cB (cV 1) (cN 1)) (cN 2)) 4))))))) (cM (cM (cN 3) (cA (cN 1) (cM (cN 2) (cD (cB (cV 1) (cN 1)) (cN 2))))) (cR (cD (cM (cD (cB (cV 1) (cN 1)) (cN 2)) (cA (cN (-1)) (cM (cN 2) (cD (cB (cV 1) (cN 1)) (cN 2))))) (cA (cA (cN 3) (cM (cN 5) (cD (cB (cV 1) (cN 1)) (cN 2)))) (cM (cN 2) (cW (cD (cB (cV 1) (cN 1)) (cN 2)) 4))))))) (cM (cA (cN 1) (cM (cN 2) (cD (cB (cV 1) (cN 1)) (cN 2)))) (cR (cM (cD (cB (cV 1) (cN 1)) (cN 2)) (cA (cN (-3)) (cM (cD (cB (cV 1) (cN 1)) (cN 2)) (cA (cN 1) (cM (cM (cN 4) (cD (cB (cV 1) (cN 1)) (cN 2))) (cA (cN 2) (cD (cB (cV 1) (cN 1)) (cN 2))))))))))) (cM (cM (cN 2) (cA (cN 1) (cD (cB (cV 1) (cN 1)) (cN 2)))) (cR (cM (cM (cM (cD (cB (cV 1) (cN 1)) (cN 2)) (cA (cN 2) (cD (cB (cV 1) (cN 1)) (cN 2)))) (cA (cN 1) (cM (cN 2) (cD (cB (cV 1) (cN 1)) (cN 2))))) (cA (cN 3) (cM (cN 2) (cD (cB (cV 1) (cN 1)) (cN 2)))))))).
Definition QST_e823 := (cD (cA (cA (cA (cA (cA (cA (cA (cA (cA (cA (cA (cA (cA (cA (cA (cM (cN 18) (cR (cM (cM (cM (cD (cB (cV 1) (cN 1)) (cN 2)) (cA (cN 1) (cD (cB (cV 1) (cN 1)) (cN 2)))) (cV 2)) (cA (cN 3) (cM (cN 2) (cV 2)))))) (cM (cM (cM (cN 12) (cV 2)) (cA (cN 3) (cV 2))) (cR (cM (cM (cM (cD (cB (cV 1) (cN 1)) (cN 2)) (cA (cN 1) (cD (cB (cV 1) (cN 1)) (cN 2)))) (cV 2)) (cA (cN 3) (cM (cN 2) (cV 2))))))) (cM (cN 36) (cR (cM (cM (cM (cW (cD (cB (cV 1) (cN 1)) (cN 2)) 6) (cA (cN 1) (cD (cB (cV 1) (cN 1)) (cN 2)))) (cV 2)) (cA (cN 3) (cM (cN 2) (cV 2))))))) (cM (cN 18) (cR (cM (cM (cM (cW (cD (cB (cV 1) (cN 1)) (cN 2)) 10) (cA (cN 1) (cD (cB (cV 1) (cN 1)) (cN 2)))) (cV 2)) (cA (cN 3) (cM (cN 2) (cV 2))))))) (cM (cN 15) (cR (cM (cM (cM (cD (cB (cV 1) (cN 1)) (cN 2)) (cA (cN 1) (cD (cB (cV 1) (cN 1)) (cN 2)))) (cW (cV 2) 6)) (cA (cN 3) (cM (cN 2) (cV 2))))))) (cM (cN 102) (cR (cM (cM (cM (cW (cD (cB (cV 1) (cN 1)) (cN 2)) 6) (cA (cN 1) (cD (cB (cV 1) (cN 1)) (cN 2)))) (cW (cV 2) 6)) (cA (cN 3) (cM (cN 2) (cV 2))))))) (cM (cN 51) (cR (cM (cM (cM (cW (cD (cB (cV 1) (cN 1)) (cN 2)) 10) (cA (cN 1) (cD (cB (cV 1) (cN 1)) (cN 2)))) (cW (cV 2) 6)) (cA (cN 3) (cM (cN 2) (cV 2))))))) (cM (cN 41) (cR (cM (cM (cM (cD (cB (cV 1) (cN 1)) (cN 2)) (cA (cN 1) (cD (cB (cV 1) (cN 1)) (cN 2)))) (cW (cV 2) 10)) (cA (cN 3) (cM (cN 2) (cV 2))))))) (cM (cN 106) (cR (cM (cM (cM (cW (cD (cB (cV 1) (cN 1)) (cN 2)) 6) (cA (cN 1) (cD (cB (cV 1) (cN 1)) (cN 2)))) (cW (cV 2) 10)) (cA (cN 3) (cM (cN 2) (cV 2))))))) (cM (cN 53) (cR (cM (cM (cM (cW (cD (cB (cV 1) (cN 1)) (cN 2)) 10) (cA (cN 1) (cD (cB (cV 1) (cN 1)) (cN 2)))) (cW (cV 2) 10)) (cA (cN 3) (cM (cN 2) (cV 2))))))) (cM (cN 24) (cR (cM (cM (cM (cD (cB (cV 1) (cN 1)) (cN 2)) (cA (cN 1) (cD (cB (cV 1) (cN 1)) (cN 2)))) (cW (cV 2) 14)) (cA (cN 3) (cM (cN 2) (cV 2))))))) (cM (cN 48) (cR (cM (cM (cM (cW (cD (cB (cV 1) (cN 1)) (cN 2)) 6) (cA (cN 1) (cD (cB (cV 1) (cN 1)) (cN 2)))) (cW (cV 2) 14)) (cA (cN 3) (cM (cN 2) (cV 2))))))) (cM (cN 24) (cR (cM (cM (cM (cW (cD (cB (cV 1) (cN 1)) (cN 2)) 10) (cA (cN 1) (cD (cB (cV 1) (cN 1)) (cN 2)))) (cW (cV 2) 14)) (cA (cN 3) (cM (cN 2) (cV 2))))))) (cM (cN 4) (cR (cM (cM (cM (cD (cB (cV 1) (cN 1)) (cN 2)) (cA (cN 1) (cD (cB (cV 1) (cN 1)) (cN 2)))) (cW (cV 2) 18)) (cA (cN 3) (cM (cN 2) (cV 2))))))) (cM (cN 8) (cR (cM (cM (cM (cW (cD (cB (cV 1) (cN 1)) (cN 2)) 6) (cA (cN 1) (cD (cB (cV 1) (cN 1)) (cN 2)))) (cW (cV 2) 18)) (cA (cN 3) (cM (cN 2) (cV 2))))))) (cM (cN 4) (cR (cM (cM (cM (cW (cD (cB (cV 1) (cN 1)) (cN 2)) 10) (cA (cN 1) (cD (cB (cV 1) (cN 1)) (cN 2)))) (cW (cV 2) 18)) (cA (cN 3) (cM (cN 2) (cV 2))))))) (cM (cM (cW (cA (cN 1) (cV 2)) 4) (cR (cM (cD (cB (cV 1) (cN 1)) (cN 2)) (cA (cN 2) (cV 2))))) (cW (cM (cA (cN 1) (cD (cB (cV 1) (cN 1)) (cN 2))) (cA (cN 3) (cM (cN 2) (cV 2)))) 5))).
Definition QST_e824 := (cM (cA (cA (cM (cA (cN 1) (cM (cN 2) (cD (cB (cV 1) (cN 1)) (cN 2)))) (cR (cD (cM (cA (cN 1) (cD (cB (cV 1) (cN 1)) (cN 2))) (cA (cN (-1)) (cV 2))) (cM (cA (cN 3) (cM (cN 2) (cD (cB (cV 1) (cN 1)) (cN 2)))) (cV 2))))) (cR (cD (cA (cN (-1)) (cV 2)) (cM (cA (cA (cN 3) (cM (cN 5) (cD (cB (cV 1) (cN 1)) (cN 2)))) (cM (cN 2) (cW (cD (cB (cV 1) (cN 1)) (cN 2)) 4))) (cV 2))))) (cM (cA (cN 1) (cM (cN 2) (cD (cB (cV 1) (cN 1)) (cN 2)))) (cR (cD (cA (cN (-1)) (cV 2)) (cM (cA (cA (cN 3) (cM (cN 5) (cD (cB (cV 1) (cN 1)) (cN 2)))) (cM (cN 2) (cW (cD (cB (cV 1) (cN 1)) (cN 2)) 4))) (cV 2)))))) (cR (cD (cA (cN 1) (cV 2)) (cA (cA (cM (cN 3) (cV 2)) (cM (cM (cN 5) (cD (cB (cV 1) (cN 1)) (cN 2))) (cV 2))) (cM (cM (cN 2) (cW (cD (cB (cV 1) (cN 1)) (cN 2)) 4)) (cV 2)))))).
Definition QST_e825 := (cM (cR (cD (cA (cN 1) (cV 2)) (cM (cM (cA (cA (cN 3) (cM (cN 5) (cD (cB (cV 1) (cN 1)) (cN 2)))) (cM (cN 2) (cW (cD (cB (cV 1) (cN 1)) (cN 2)) 4))) (cV 2)) (cA (cN 1) (cM (cN 2) (cV 2)))))) (cA (cA (cR (cD (cA (cN (-1)) (cM (cN 2) (cV 2))) (cM (cM (cA (cA (cN 3) (cM (cN 5) (cD (cB (cV 1) (cN 1)) (cN 2)))) (cM (cN 2) (cW (cD (cB (cV 1) (cN 1)) (cN 2)) 4))) (cV 2)) (cA (cN 1) (cV 2))))) (cM (cA (cN 1) (cM (cN 2) (cD (cB (cV 1) (cN 1)) (cN 2)))) (cR (cD (cA (cN (-1)) (cM (cN 2) (cV 2))) (cM (cM (cA (cA (cN 3) (cM (cN 5) (cD (cB (cV 1) (cN 1)) (cN 2)))) (cM (cN 2) (cW (cD (cB (cV 1) (cN 1)) (cN 2)) 4))) (cV 2)) (cA (cN 1) (cV 2))))))) (cM (cA (cN 1) (cM (cN 2) (cD (cB (cV 1) (cN 1)) (cN 2)))) (cR (cD (cM (cA (cN 1) (cD (cB (cV 1) (cN 1)) (cN 2))) (cA (cN (-1)) (cM (cN 2) (cV 2)))) (cM (cA (cN 3) (cM (cN 2) (cD (cB (cV 1) (cN 1)) (cN 2)))) (cA (cV 2) (cW (cV 2) 4)))))))).
Definition QST_e826 := (cO (cM (cM (cR (cN 2)) (cR (cD (cN 1) (cM (cM (cM (cV 2) (cW (cA (cN 1) (cV 2)) 4)) (cA (cN 5) (cM (cN 2) (cV 2)))) (cW (cA (cA (cN 6) (cM (cN 7) (cV 2))) (cM (cN 2) (cW (cV 2) 4))) 6))))) (cA (cA (cA (cM (cN 30) (cR (cM (cV 2) (cA (cN 1) (cV 2))))) (cM (cN 47) (cR (cM (cW (cV 2) 6) (cA (cN 1) (cV 2)))))) (cM (cN 24) (cR (cM (cW (cV 2) 10) (cA (cN 1) (cV 2)))))) (cM (cN 4) (cR (cM (cW (cV 2) 14) (cA (cN 1) (cV 2)))))))).
Definition QST_e827 := (cD (cM (cR (cN 2)) (cA (cN (-3)) (cM (cN 2) (cV 2)))) (cR (cM (cM (cM (cA (cN (-1)) (cV 2)) (cV 2)) (cA (cN (-3)) (cM (cN 2) (cV 2)))) (cA (cN (-1)) (cM (cN 2) (cV 2)))))).
Definition QST_e828 := (cD (cA (cN (-3)) (cW (cV 2) 4)) (cM (cV 2) (cR (cA (cN (-1)) (cW (cV 2) 4))))).
Definition QST_e829 := (cD (cM (cR (cD (cA (cN 3) (cM (cN 6) (cD (cB (cV 1) (cN 1)) (cN 2)))) (cM (cM (cM (cW (cA (cN 1) (cD (cB (cV 1) (cN 1)) (cN 2))) 6) (cW (cV 2) 4)) (cW (cA (cN 1) (cV 2)) 4)) (cA (cN 3) (cM (cM (cN 4) (cV 2)) (cA (cN 2) (cV 2))))))) (cA (cM (cM (cV 2) (cA (cN (-5)) (cM (cN 2) (cV 2)))) (cA (cR (cD (cM (cA (cN 1) (cD (cB (cV 1) (cN 1)) (cN 2))) (cA (cN 1) (cV 2))) (cM (cA (cN 1) (cM (cN 2) (cD (cB (cV 1) (cN 1)) (cN 2)))) (cA (cN (-1)) (cV 2))))) (cR (cD (cM (cM (cA (cN 1) (cD (cB (cV 1) (cN 1)) (cN 2))) (cA (cN 1) (cM (cN 2) (cD (cB (cV 1) (cN 1)) (cN 2))))) (cA (cN 1) (cV 2))) (cA (cN (-1)) (cV 2)))))) (cM (cN 3) (cA (cA (cA (cR (cD (cM (cA (cN 1) (cD (cB (cV 1) (cN 1)) (cN 2))) (cA (cN 1) (cV 2))) (cM (cA (cN 1) (cM (cN 2) (cD (cB (cV 1) (cN 1)) (cN 2)))) (cA (cN (-1)) (cV 2))))) (cR (cD (cM (cM (cA (cN 1) (cD (cB (cV 1) (cN 1)) (cN 2))) (cA (cN 1) (cM (cN 2) (cD (cB (cV 1) (cN 1)) (cN 2))))) (cA (cN 1) (cV 2))) (cA (cN (-1)) (cV 2))))) (cM (cN 2) (cR (cD (cM (cA (cN 1) (cD (cB (cV 1) (cN 1)) (cN 2))) (cA (cN (-1)) (cW (cV 2) 4))) (cA (cN 1) (cM (cN 2) (cD (cB (cV 1) (cN 1)) (cN 2)))))))) (cM (cN 2) (cR (cM (cM (cA (cN 1) (cD (cB (cV 1) (cN 1)) (cN 2))) (cA (cN 1) (cM (cN 2) (cD (cB (cV 1) (cN 1)) (cN 2))))) (cA (cN (-1)) (cW (cV 2) 4))))))))) (cN 2)).
Definition QST_e830 := (cD (cM (cR (cD (cA (cN 3) (cM (cN 3) (cV 2))) (cA (cV 2) (cM (cD (cB (cV 1) (cN 1)) (cN 2)) (cV 2))))) (cA (cM (cM (cV 2) (cR (cD (cM (cM (cM (cA (cN 1) (cD (cB (cV 1) (cN 1)) (cN 2))) (cA (cN 1) (cV 2))) (cA (cN 2) (cV 2))) (cA (cN 3) (cM (cN 2) (cV 2)))) (cA (cN (-1)) (cM (cN 2) (cV 2)))))) (cA (cN (-19)) (cM (cM (cN 4) (cV 2)) (cA (cN 3) (cV 2))))) (cM (cN 6) (cA (cR (cD (cM (cM (cM (cA (cN 1) (cD (cB (cV 1) (cN 1)) (cN 2))) (cA (cN 1) (cV 2))) (cA (cN 2) (cV 2))) (cA (cN 3) (cM (cN 2) (cV 2)))) (cA (cN (-1)) (cM (cN 2) (cV 2))))) (cM (cN 2) (cR (cM (cM (cM (cM (cA (cN 1) (cD (cB (cV 1) (cN 1)) (cN 2))) (cA (cN 1) (cV 2))) (cA (cN 2) (cV 2))) (cA (cN (-1)) (cM (cN 2) (cV 2)))) (cA (cN 3) (cM (cN 2) (cV 2)))))))))) (cM (cM (cW (cA (cN 1) (cV 2)) 4) (cA (cN 2) (cV 2))) (cW (cA (cN 3) (cM (cN 2) (cV 2))) 4))).
Definition QST_e831 := (cD (cM (cM (cR (cN 3)) (cR (cA (cN 1) (cV 2)))) (cA (cA (cA (cA (cA (cA (cB (cD (cM (cM (cM (cA (cN 1) (cM (cN 2) (cD (cB (cV 1) (cN 1)) (cN 2)))) (cA (cN (-3)) (cV 2))) (cV 2)) (cA (cN (-1)) (cM (cN 2) (cV 2)))) (cM (cM (cM (cA (cN 1) (cD (cB (cV 1) (cN 1)) (cN 2))) (cW (cA (cN 1) (cV 2)) 3)) (cR (cD (cM (cM (cV 2) (cA (cN 2) (cV 2))) (cA (cN (-1)) (cM (cN 2) (cV 2)))) (cA (cN 1) (cM (cN 2) (cV 2)))))) (cA (cN 3) (cM (cN 2) (cV 2))))) (cD (cM (cM (cA (cN 1) (cM (cN 2) (cD (cB (cV 1) (cN 1)) (cN 2)))) (cV 2)) (cA (cN (-1)) (cM (cN 2) (cV 2)))) (cM (cM (cA (cN 1) (cD (cB (cV 1) (cN 1)) (cN 2))) (cR (cD (cM (cM (cM (cV 2) (cA (cN 1) (cV 2))) (cA (cN 2) (cV 2))) (cA (cN (-1)) (cM (cN 2) (cV 2)))) (cA (cN 1) (cM (cN 2) (cV 2)))))) (cA (cN 3) (cM (cN 2) (cV 2)))))) (cD (cM (cM (cM (cN 3) (cA (cN 1) (cM (cN 2) (cD (cB (cV 1) (cN 1)) (cN 2))))) (cV 2)) (cA (cN (-3)) (cM (cN 2) (cV 2)))) (cM (cM (cM (cA (cN 1) (cD (cB (cV 1) (cN 1)) (cN 2))) (cW (cA (cN 1) (cV 2)) 3)) (cR (cD (cM (cM (cV 2) (cA (cN 2) (cV 2))) (cA (cN 1) (cM (cN 2) (cV 2)))) (cA (cN (-1)) (cM (cN 2) (cV 2)))))) (cA (cN 3) (cM (cN 2) (cV 2)))))) (cD (cM (cM (cN 6) (cA (cN 1) (cM (cN 2) (cD (cB (cV 1) (cN 1)) (cN 2))))) (cA (cN (-1)) (cV 2))) (cM (cM (cM (cA (cN 1) (cD (cB (cV 1) (cN 1)) (cN 2))) (cA (cN 1) (cV 2))) (cR (cD (cM (cM (cM (cV 2) (cA (cN 1) (cV 2))) (cA (cN 2) (cV 2))) (cA (cN 1) (cM (cN 2) (cV 2)))) (cA (cN (-1)) (cM (cN 2) (cV 2)))))) (cA (cN 3) (cM (cN 2) (cV 2)))))) (cM (cM (cM (cA (cN (-3)) (cV 2)) (cV 2)) (cA (cN (-1)) (cM (cN 2) (cV 2)))) (cR (cD (cA (cN 1) (cM (cN 2) (cV 2))) (cM (cM (cM (cM (cW (cA (cN 1) (cD (cB (cV 1) (cN 1)) (cN 2))) 4) (cV 2)) (cW (cA (cN 1) (cV 2)) 6)) (cW (cA (cN 3) (cM (cN 2) (cV 2))) 4)) (cA (cA (cN (-2)) (cM (cN 3) (cV 2))) (cM (cN 2) (cW (cV 2) 4)))))))) (cD (cM (cM (cB (cN 1) (cM (cN 2) (cV 2))) (cV 2)) (cR (cD (cA (cN 1) (cM (cN 2) (cV 2))) (cM (cV 2) (cA (cA (cA (cN (-2)) (cV 2)) (cM (cN 5) (cW (cV 2) 4))) (cM (cN 2) (cW (cV 2) 6))))))) (cM (cA (cN 1) (cD (cB (cV 1) (cN 1)) (cN 2))) (cA (cN 3) (cM (cN 2) (cV 2)))))) (cD (cM (cM (cN 6) (cA (cN (-1)) (cV 2))) (cR (cD (cA (cN (-1)) (cM (cN 2) (cV 2))) (cM (cV 2) (cA (cA (cA (cN 2) (cM (cN 7) (cV 2))) (cM (cN 7) (cW (cV 2) 4))) (cM (cN 2) (cW (cV 2) 6))))))) (cM (cA (cN 1) (cD (cB (cV 1) (cN 1)) (cN 2))) (cA (cA (cN 3) (cM (cN 5) (cV 2))) (cM (cN 2) (cW (cV 2) 4)))))) (cD (cM (cM (cN 3) (cA (cN (-3)) (cM (cN 2) (cV 2)))) (cR (cD (cM (cV 2) (cA (cN (-1)) (cM (cN 2) (cV 2)))) (cA (cA (cA (cN 2) (cM (cN 7) (cV 2))) (cM (cN 7) (cW (cV 2) 4))) (cM (cN 2) (cW (cV 2) 6)))))) (cM (cA (cN 1) (cD (cB (cV 1) (cN 1)) (cN 2))) (cA (cA (cN 3) (cM (cN 5) (cV 2))) (cM (cN 2) (cW (cV 2) 4))))))) (cN 2)).
Definition QST_e832 := (cD (cA (cM (cN 30) (cA (cR (cD (cM (cM (cM (cW (cA (cN 1) (cD (cB (cV 1) (cN 1)) (cN 2))) 10) (cA (cN 5) (cM (cN 2) (cV 2)))) (cW (cA (cV 2) (cW (cV 2) 4)) 6)) (cW (cA (cA (cN 6) (cM (cN 7) (cV 2))) (cM (cN 2) (cW (cV 2) 4))) 10)) (cW (cA (cN 1) (cM (cN 2) (cV 2))) 4))) (cR (cD (cM (cM (cM (cW (cA (cN 1) (cD (cB (cV 1) (cN 1)) (cN 2))) 10) (cA (cN 5) (cM (cN 2) (cV 2)))) (cW (cA (cV 2) (cW (cV 2) 4)) 6)) (cW (cA (cA (cN 6) (cM (cN 7) (cV 2))) (cM (cN 2) (cW (cV 2) 4))) 10)) (cM (cW (cA (cN 1) (cM (cN 2) (cD (cB (cV 1) (cN 1)) (cN 2)))) 4) (cW (cA (cN 1) (cM (cN 2) (cV 2))) 4)))))) (cM (cV 2) (cA (cA (cA (cA (cA (cM (cN 2) (cR (cM (cM (cM (cM (cM (cW (cA (cN 1) (cD (cB (cV 1) (cN 1)) (cN 2))) 10) (cW (cV 2) 6)) (cW (cA (cN 1) (cV 2)) 10)) (cW (cA (cN 2) (cV 2)) 10)) (cW (cA (cN 3) (cM (cN 2) (cV 2))) 10)) (cA (cN 5) (cM (cN 2) (cV 2)))))) (cM (cN 2) (cR (cD (cM (cM (cM (cM (cM (cW (cA (cN 1) (cD (cB (cV 1) (cN 1)) (cN 2))) 10) (cW (cV 2) 6)) (cW (cA (cN 1) (cV 2)) 10)) (cW (cA (cN 2) (cV 2)) 10)) (cW (cA (cN 3) (cM (cN 2) (cV 2))) 10)) (cA (cN 5) (cM (cN 2) (cV 2)))) (cW (cA (cN 1) (cM (cN 2) (cD (cB (cV 1) (cN 1)) (cN 2)))) 4))))) (cM (cN 9) (cR (cM (cM (cM (cW (cA (cN 1) (cD (cB (cV 1) (cN 1)) (cN 2))) 10) (cA (cN 5) (cM (cN 2) (cV 2)))) (cW (cA (cV 2) (cW (cV 2) 4)) 6)) (cW (cA (cA (cN 6) (cM (cN 7) (cV 2))) (cM (cN 2) (cW (cV 2) 4))) 10))))) (cM (cN 9) (cR (cD (cM (cM (cM (cW (cA (cN 1) (cD (cB (cV 1) (cN 1)) (cN 2))) 10) (cA (cN 5) (cM (cN 2) (cV 2)))) (cW (cA (cV 2) (cW (cV 2) 4)) 6)) (cW (cA (cA (cN 6) (cM (cN 7) (cV 2))) (cM (cN 2) (cW (cV 2) 4))) 10)) (cW (cA (cN 1) (cM (cN 2) (cD (cB (cV 1) (cN 1)) (cN 2)))) 4))))) (cM (cN 36) (cR (cD (cM (cM (cM (cW (cA (cN 1) (cD (cB (cV 1) (cN 1)) (cN 2))) 10) (cA (cN 5) (cM (cN 2) (cV 2)))) (cW (cA (cV 2) (cW (cV 2) 4)) 6)) (cW (cA (cA (cN 6) (cM (cN 7) (cV 2))) (cM (cN 2) (cW (cV 2) 4))) 10)) (cW (cA (cN 1) (cM (cN 2) (cV 2))) 4))))) (cM (cN 36) (cR (cD (cM (cM (cM (cW (cA (cN 1) (cD (cB (cV 1) (cN 1)) (cN 2))) 10) (cA (cN 5) (cM (cN 2) (cV 2)))) (cW (cA (cV 2) (cW (cV 2) 4)) 6)) (cW (cA (cA (cN 6) (cM (cN 7) (cV 2))) (cM (cN 2) (cW (cV 2) 4))) 10)) (cM (cW (cA (cN 1) (cM (cN 2) (cD (cB (cV 1) (cN 1)) (cN 2)))) 4) (cW (cA (cN 1) (cM (cN 2) (cV 2))) 4)))))))) (cM (cR (cN 2)) (cR (cD (cM (cM (cM (cM (cM (cW (cA (cN 1) (cD (cB (cV 1) (cN 1)) (cN 2))) 14) (cW (cV 2) 6)) (cW (cA (cN 1) (cV 2)) 8)) (cW (cA (cN 2) (cV 2)) 16)) (cW (cA (cN 3) (cM (cN 2) (cV 2))) 14)) (cW (cA (cN 5) (cM (cN 2) (cV 2))) 6)) (cM (cW (cA (cN 1) (cM (cN 2) (cD (cB (cV 1) (cN 1)) (cN 2)))) 4) (cW (cA (cN 1) (cM (cN 2) (cV 2))) 4)))))).
Definition QST_e833 := (cD (cM (cR (cD (cA (cN 2) (cM (cN 4) (cV 2))) (cA (cA (cN 6) (cM (cN 7) (cV 2))) (cM (cN 2) (cW (cV 2) 4))))) (cA (cM (cN (-6)) (cA (cA (cM (cN 3) (cR (cM (cM (cA (cN 1) (cV 2)) (cA (cN 1) (cM (cN 2) (cV 2)))) (cA (cN 5) (cM (cN 2) (cV 2)))))) (cR (cD (cA (cN 5) (cM (cN 2) (cV 2))) (cA (cA (cN 1) (cM (cN 3) (cV 2))) (cM (cN 2) (cW (cV 2) 4)))))) (cR (cB (cA (cN 8) (cM (cN 4) (cV 2))) (cD (cN 3) (cA (cN 1) (cV 2))))))) (cM (cV 2) (cA (cA (cM (cN (-2)) (cR (cM (cM (cA (cN 1) (cV 2)) (cA (cN 1) (cM (cN 2) (cV 2)))) (cA (cN 5) (cM (cN 2) (cV 2)))))) (cM (cN 12) (cR (cD (cA (cN 5) (cM (cN 2) (cV 2))) (cA (cA (cN 1) (cM (cN 3) (cV 2))) (cM (cN 2) (cW (cV 2) 4))))))) (cM (cN 9) (cR (cB (cA (cN 8) (cM (cN 4) (cV 2))) (cD (cN 3) (cA (cN 1) (cV 2)))))))))) (cM (cM (cA (cN 2) (cV 2)) (cA (cN 3) (cM (cN 2) (cV 2)))) (cA (cN 5) (cM (cN 2) (cV 2))))).
Definition QST_e834 := (cD (cA (cA (cM (cN 3) (cA (cA (cA (cM (cN 18) (cR (cD (cM (cM (cM (cA (cN 1) (cD (cB (cV 1) (cN 1)) (cN 2))) (cV 2)) (cA (cN 1) (cM (cN 2) (cV 2)))) (cA (cN 5) (cM (cN 2) (cV 2)))) (cA (cN 2) (cV 2))))) (cM (cN 3) (cR (cD (cM (cM (cM (cA (cN 1) (cD (cB (cV 1) (cN 1)) (cN 2))) (cW (cV 2) 6)) (cA (cN 1) (cM (cN 2) (cV 2)))) (cA (cN 5) (cM (cN 2) (cV 2)))) (cA (cN 2) (cV 2)))))) (cR (cM (cM (cM (cM (cA (cN 1) (cD (cB (cV 1) (cN 1)) (cN 2))) (cV 2)) (cA (cN 2) (cV 2))) (cA (cN 1) (cM (cN 2) (cV 2)))) (cA (cN 5) (cM (cN 2) (cV 2)))))) (cM (cN 10) (cR (cD (cM (cM (cA (cN 1) (cD (cB (cV 1) (cN 1)) (cN 2))) (cV 2)) (cA (cN 5) (cM (cN 2) (cV 2)))) (cA (cA (cN 2) (cM (cN 5) (cV 2))) (cM (cN 2) (cW (cV 2) 4)))))))) (cM (cV 2) (cA (cA (cM (cN 29) (cR (cD (cM (cM (cM (cA (cN 1) (cD (cB (cV 1) (cN 1)) (cN 2))) (cV 2)) (cA (cN 1) (cM (cN 2) (cV 2)))) (cA (cN 5) (cM (cN 2) (cV 2)))) (cA (cN 2) (cV 2))))) (cM (cN 5) (cR (cM (cM (cM (cM (cA (cN 1) (cD (cB (cV 1) (cN 1)) (cN 2))) (cV 2)) (cA (cN 2) (cV 2))) (cA (cN 1) (cM (cN 2) (cV 2)))) (cA (cN 5) (cM (cN 2) (cV 2))))))) (cM (cM (cN 2) (cV 2)) (cA (cM (cN 4) (cR (cD (cM (cM (cM (cA (cN 1) (cD (cB (cV 1) (cN 1)) (cN 2))) (cV 2)) (cA (cN 1) (cM (cN 2) (cV 2)))) (cA (cN 5) (cM (cN 2) (cV 2)))) (cA (cN 2) (cV 2))))) (cR (cM (cM (cM (cM (cA (cN 1) (cD (cB (cV 1) (cN 1)) (cN 2))) (cV 2)) (cA (cN 2) (cV 2))) (cA (cN 1) (cM (cN 2) (cV 2)))) (cA (cN 5) (cM (cN 2) (cV 2)))))))))) (cM (cD (cB (cV 1) (cN 1)) (cN 2)) (cA (cM (cM (cV 2) (cA (cN 5) (cM (cN 2) (cV 2)))) (cA (cM (cN 4) (cR (cD (cM (cM (cM (cA (cN 1) (cD (cB (cV 1) (cN 1)) (cN 2))) (cV 2)) (cA (cN 1) (cM (cN 2) (cV 2)))) (cA (cN 5) (cM (cN 2) (cV 2)))) (cA (cN 2) (cV 2))))) (cR (cM (cM (cM (cM (cA (cN 1) (cD (cB (cV 1) (cN 1)) (cN 2))) (cV 2)) (cA (cN 2) (cV 2))) (cA (cN 1) (cM (cN 2) (cV 2)))) (cA (cN 5) (cM (cN 2) (cV 2))))))) (cM (cN 3) (cA (cA (cA (cM (cN 18) (cR (cD (cM (cM (cM (cA (cN 1) (cD (cB (cV 1) (cN 1)) (cN 2))) (cV 2)) (cA (cN 1) (cM (cN 2) (cV 2)))) (cA (cN 5) (cM (cN 2) (cV 2)))) (cA (cN 2) (cV 2))))) (cM (cN 6) (cR (cD (cM (cM (cM (cA (cN 1) (cD (cB (cV 1) (cN 1)) (cN 2))) (cW (cV 2) 6)) (cA (cN 1) (cM (cN 2) (cV 2)))) (cA (cN 5) (cM (cN 2) (cV 2)))) (cA (cN 2) (cV 2)))))) (cR (cM (cM (cM (cM (cA (cN 1) (cD (cB (cV 1) (cN 1)) (cN 2))) (cV 2)) (cA (cN 2) (cV 2))) (cA (cN 1) (cM (cN 2) (cV 2)))) (cA (cN 5) (cM (cN 2) (cV 2)))))) (cM (cN 10) (cR (cD (cM (cM (cA (cN 1) (cD (cB (cV 1) (cN 1)) (cN 2))) (cV 2)) (cA (cN 5) (cM (cN 2) (cV 2)))) (cA (cA (cN 2) (cM (cN 5) (cV 2))) (cM (cN 2) (cW (cV 2) 4))))))))))) (cM (cM (cM (cM (cA (cN 1) (cD (cB (cV 1) (cN 1)) (cN 2))) (cA (cN 2) (cV 2))) (cA (cN 3) (cM (cN 2) (cV 2)))) (cA (cN 5) (cM (cN 2) (cV 2)))) (cR (cD (cM (cM (cM (cA (cN 1) (cD (cB (cV 1) (cN 1)) (cN 2))) (cA (cN 1) (cV 2))) (cA (cN 3) (cV 2))) (cA (cN 5) (cM (cN 2) (cV 2)))) (cA (cN 1) (cM (cN 2) (cV 2))))))).
Definition QST_e835 := (cD (cA (cM (cM (cN 3) (cA (cN 1) (cD (cB (cV 1) (cN 1)) (cN 2)))) (cR (cM (cM (cM (cM (cW (cD (cB (cV 1) (cN 1)) (cN 2)) 6) (cW (cA (cN 1) (cD (cB (cV 1) (cN 1)) (cN 2))) 8)) (cW (cV 2) 6)) (cW (cA (cN 1) (cV 2)) 8)) (cA (cN 2) (cV 2))))) (cM (cM (cA (cN (-1)) (cV 2)) (cV 2)) (cA (cM (cW (cD (cB (cV 1) (cN 1)) (cN 2)) 4) (cR (cM (cM (cM (cM (cD (cB (cV 1) (cN 1)) (cN 2)) (cW (cA (cN 1) (cD (cB (cV 1) (cN 1)) (cN 2))) 8)) (cV 2)) (cW (cA (cN 1) (cV 2)) 8)) (cA (cN 2) (cV 2))))) (cR (cM (cM (cM (cM (cW (cD (cB (cV 1) (cN 1)) (cN 2)) 6) (cW (cA (cN 1) (cD (cB (cV 1) (cN 1)) (cN 2))) 8)) (cV 2)) (cW (cA (cN 1) (cV 2)) 8)) (cA (cN 2) (cV 2))))))) (cM (cM (cM (cM (cW (cD (cB (cV 1) (cN 1)) (cN 2)) 3) (cW (cA (cN 1) (cD (cB (cV 1) (cN 1)) (cN 2))) 6)) (cV 2)) (cW (cA (cN 1) (cV 2)) 6)) (cA (cN 2) (cV 2)))).
Definition QST_e836 := (cD (cA (cM (cM (cN (-2)) (cA (cN 1) (cD (cB (cV 1) (cN 1)) (cN 2)))) (cR (cM (cM (cD (cB (cV 1) (cN 1)) (cN 2)) (cA (cN 1) (cD (cB (cV 1) (cN 1)) (cN 2)))) (cA (cN 2) (cV 2))))) (cM (cV 2) (cA (cB (cO (cR (cM (cM (cD (cB (cV 1) (cN 1)) (cN 2)) (cA (cN 1) (cD (cB (cV 1) (cN 1)) (cN 2)))) (cA (cN 2) (cV 2))))) (cM (cM (cN 4) (cD (cB (cV 1) (cN 1)) (cN 2))) (cR (cM (cM (cD (cB (cV 1) (cN 1)) (cN 2)) (cA (cN 1) (cD (cB (cV 1) (cN 1)) (cN 2)))) (cA (cN 2) (cV 2)))))) (cM (cN 3) (cR (cM (cM (cW (cD (cB (cV 1) (cN 1)) (cN 2)) 6) (cA (cN 1) (cD (cB (cV 1) (cN 1)) (cN 2)))) (cA (cN 2) (cV 2)))))))) (cR (cM (cM (cM (cD (cB (cV 1) (cN 1)) (cN 2)) (cW (cA (cN 1) (cD (cB (cV 1) (cN 1)) (cN 2))) 6)) (cW (cA (cN 1) (cV 2)) 4)) (cW (cA (cN 2) (cV 2)) 6)))).
Definition QST_e837 := (cM (cR (cD (cM (cA (cN 1) (cV 2)) (cA (cN 3) (cM (cN 2) (cV 2)))) (cM (cM (cM (cA (cN 1) (cD (cB (cV 1) (cN 1)) (cN 2))) (cA (cN 3) (cM (cN 2) (cD (cB (cV 1) (cN 1)) (cN 2))))) (cV 2)) (cA (cN 1) (cM (cN 2) (cV 2)))))) (cA (cA (cM (cA (cN 1) (cM (cN 2) (cD (cB (cV 1) (cN 1)) (cN 2)))) (cR (cD (cM (cM (cA (cN 1) (cD (cB (cV 1) (cN 1)) (cN 2))) (cV 2)) (cA (cN (-1)) (cM (cN 2) (cV 2)))) (cM (cA (cN 3) (cM (cN 2) (cD (cB (cV 1) (cN 1)) (cN 2)))) (cA (cA (cN 1) (cM (cN 3) (cV 2))) (cM (cN 2) (cW (cV 2) 4))))))) (cR (cD (cM (cV 2) (cA (cN (-1)) (cM (cN 2) (cV 2)))) (cM (cA (cA (cN 3) (cM (cN 5) (cD (cB (cV 1) (cN 1)) (cN 2)))) (cM (cN 2) (cW (cD (cB (cV 1) (cN 1)) (cN 2)) 4))) (cA (cA (cN 1) (cM (cN 3) (cV 2))) (cM (cN 2) (cW (cV 2) 4))))))) (cM (cA (cN 1) (cM (cN 2) (cD (cB (cV 1) (cN 1)) (cN 2)))) (cR (cD (cM (cV 2) (cA (cN (-1)) (cM (cN 2) (cV 2)))) (cM (cA (cA (cN 3) (cM (cN 5) (cD (cB (cV 1) (cN 1)) (cN 2)))) (cM (cN 2) (cW (cD (cB (cV 1) (cN 1)) (cN 2)) 4))) (cA (cA (cN 1) (cM (cN 3) (cV 2))) (cM (cN 2) (cW (cV 2) 4))))))))).
Definition QST_e838 := (cD (cA (cB (cA (cM (cN 3) (cR (cD (cM (cV 2) (cA (cN 3) (cM (cN 2) (cV 2)))) (cA (cN 1) (cV 2))))) (cM (cN 3) (cR (cD (cM (cW (cV 2) 6) (cA (cN 3) (cM (cN 2) (cV 2)))) (cA (cN 1) (cV 2)))))) (cR (cM (cM (cV 2) (cA (cN 1) (cV 2))) (cA (cN 3) (cM (cN 2) (cV 2)))))) (cR (cM (cM (cW (cV 2) 6) (cA (cN 1) (cV 2))) (cA (cN 3) (cM (cN 2) (cV 2)))))) (cM (cW (cA (cN 1) (cV 2)) 3) (cR (cM (cA (cN 2) (cV 2)) (cA (cN 3) (cM (cN 2) (cV 2))))))).
Definition QST_e839 := (cO (cD (cR (cB (cA (cN 2) (cD (cN 6) (cV 2))) (cD (cN 4) (cA (cN 1) (cM (cN 2) (cV 2)))))) (cA (cN 1) (cV 2)))).
Definition QST_e840 := (cD (cM (cR (cD (cA (cN 3) (cM (cN 2) (cV 2))) (cA (cM (cN 2) (cV 2)) (cW (cV 2) 4)))) (cA (cA (cM (cN 6) (cR (cM (cM (cA (cN (-1)) (cV 2)) (cA (cN 1) (cV 2))) (cA (cN (-1)) (cM (cN 2) (cV 2)))))) (cM (cN 4) (cR (cA (cA (cN 3) (cD (cN 2) (cA (cN (-1)) (cV 2)))) (cM (cN 2) (cV 2)))))) (cM (cM (cA (cN (-5)) (cV 2)) (cV 2)) (cR (cA (cA (cN 3) (cD (cN 2) (cA (cN (-1)) (cV 2)))) (cM (cN 2) (cV 2))))))) (cM (cA (cN 1) (cV 2)) (cA (cN 1) (cM (cN 2) (cV 2))))).
Definition QST_e841 := (cD (cR (cN 6)) (cR (cM (cM (cV 2) (cA (cN 1) (cV 2))) (cA (cN (-1)) (cM (cN 4) (cW (cV 2) 4)))))).
Definition QST_e842 := (cO (cD (cM (cR (cN 3)) (cR (cA (cA (cB (cN (-1)) (cD (cN 2) (cV 2))) (cM (cN 8) (cV 2))) (cM (cN 4) (cW (cV 2) 4))))) (cA (cA (cN 1) (cM (cN 3) (cV 2))) (cM (cN 2) (cW (cV 2) 4))))).
Definition QST_e843 := (cD (cM (cR (cM (cM (cA (cN 1) (cM (cN 2) (cD (cB (cV 1) (cN 1)) (cN 2)))) (cA (cN 1) (cV 2))) (cA (cN 3) (cM (cN 2) (cV 2))))) (cA (cD (cM (cM (cM (cM (cM (cM (cN 2) (cD (cB (cV 1) (cN 1)) (cN 2))) (cA (cN 2) (cV 2))) (cA (cN 1) (cM (cN 2) (cV 2)))) (cA (cN 5) (cM (cN 2) (cV 2)))) (cR (cD (cM (cV 2) (cA (cA (cN (-1)) (cV 2)) (cM (cN 2) (cW (cV 2) 4)))) (cM (cA (cN 1) (cM (cN 2) (cD (cB (cV 1) (cN 1)) (cN 2)))) (cA (cA (cA (cN 10) (cM (cN 29) (cV 2))) (cM (cN 20) (cW (cV 2) 4))) (cM (cN 4) (cW (cV 2) 6))))))) (cA (cN 1) (cM (cV 2) (cA (cN (-9)) (cM (cN 2) (cV 2)))))) (cM (cA (cN 1) (cV 2)) (cA (cN 3) (cM (cN 2) (cV 2))))) (cD (cB (cA (cA (cA (cA (cA (cM (cM (cN 9) (cR (cM (cV 2) (cA (cN 1) (cV 2))))) (cW (cM (cM (cM (cM (cA (cN 1) (cM (cN 2) (cD (cB (cV 1) (cN 1)) (cN 2)))) (cA (cN 2) (cV 2))) (cA (cN (-1)) (cM (cN 2) (cV 2)))) (cA (cN 1) (cM (cN 2) (cV 2)))) (cA (cN 5) (cM (cN 2) (cV 2)))) 3)) (cM (cM (cN 121) (cW (cV 2) 3)) (cR (cM (cM (cM (cM (cM (cA (cN 1) (cM (cN 2) (cD (cB (cV 1) (cN 1)) (cN 2)))) (cA (cN 1) (cV 2))) (cA (cN 2) (cV 2))) (cA (cN (-1)) (cM (cN 2) (cV 2)))) (cA (cN 1) (cM (cN 2) (cV 2)))) (cA (cN 5) (cM (cN 2) (cV 2))))))) (cM (cM (cN 136) (cW (cV 2) 5)) (cR (cM (cM (cM (cM (cM (cA (cN 1) (cM (cN 2) (cD (cB (cV 1) (cN 1)) (cN 2)))) (cA (cN 1) (cV 2))) (cA (cN 2) (cV 2))) (cA (cN (-1)) (cM (cN 2) (cV 2)))) (cA (cN 1) (cM (cN 2) (cV 2)))) (cA (cN 5) (cM (cN 2) (cV 2))))))) (cM (cM (cN 88) (cW (cV 2) 7)) (cR (cM (cM (cM (cM (cM (cA (cN 1) (cM (cN 2) (cD (cB (cV 1) (cN 1)) (cN 2)))) (cA (cN 1) (cV 2))) (cA (cN 2) (cV 2))) (cA (cN (-1)) (cM (cN 2) (cV 2)))) (cA (cN 1) (cM (cN 2) (cV 2)))) (cA (cN 5) (cM (cN 2) (cV 2))))))) (cM (cM (cN 64) (cW (cV 2) 9)) (cR (cM (cM (cM (cM (cM (cA (cN 1) (cM (cN 2) (cD (cB (cV 1) (cN 1)) (cN 2)))) (cA (cN 1) (cV 2))) (cA (cN 2) (cV 2))) (cA (cN (-1)) (cM (cN 2) (cV 2)))) (cA (cN 1) (cM (cN 2) (cV 2)))) (cA (cN 5) (cM (cN 2) (cV 2))))))) (cM (cM (cN 16) (cW (cV 2) 11)) (cR (cM (cM (cM (cM (cM (cA (cN 1) (cM (cN 2) (cD (cB (cV 1) (cN 1)) (cN 2)))) (cA (cN 1) (cV 2))) (cA (cN 2) (cV 2))) (cA (cN (-1)) (cM (cN 2) (cV 2)))) (cA (cN 1) (cM (cN 2) (cV 2)))) (cA (cN 5) (cM (cN 2) (cV 2))))))) (cM (cN 110) (cR (cM (cM (cM (cM (cM (cM (cA (cN 1) (cM (cN 2) (cD (cB (cV 1) (cN 1)) (cN 2)))) (cV 2)) (cA (cN 1) (cV 2))) (cA (cN 2) (cV 2))) (cA (cN (-1)) (cM (cN 2) (cV 2)))) (cA (cN 1) (cM (cN 2) (cV 2)))) (cA (cN 5) (cM (cN 2) (cV 2))))))) (cM (cM (cM (cM (cM (cA (cN 1) (cM (cN 2) (cD (cB (cV 1) (cN 1)) (cN 2)))) (cA (cN 1) (cV 2))) (cA (cN 2) (cV 2))) (cA (cN (-1)) (cM (cN 2) (cV 2)))) (cA (cN 3) (cM (cN 2) (cV 2)))) (cA (cN 5) (cM (cN 2) (cV 2))))))) (cM (cM (cM (cM (cM (cN 2) (cA (cN 1) (cD (cB (cV 1) (cN 1)) (cN 2)))) (cA (cN 1) (cV 2))) (cA (cN 2) (cV 2))) (cA (cN 1) (cM (cN 2) (cV 2)))) (cA (cN 5) (cM (cN 2) (cV 2))))).
Definition QST_e844 := (cO (cD (cM (cR (cN 3)) (cA (cA (cM (cN 10) (cR (cM (cM (cM (cM (cM (cV 2) (cA (cN 1) (cV 2))) (cA (cN 2) (cV 2))) (cA (cN 1) (cM (cN 2) (cV 2)))) (cA (cN 3) (cM (cN 2) (cV 2)))) (cA (cN 5) (cM (cN 2) (cV 2)))))) (cM (cN 9) (cR (cM (cM (cM (cM (cM (cW (cV 2) 6) (cA (cN 1) (cV 2))) (cA (cN 2) (cV 2))) (cA (cN 1) (cM (cN 2) (cV 2)))) (cA (cN 3) (cM (cN 2) (cV 2)))) (cA (cN 5) (cM (cN 2) (cV 2))))))) (cM (cN 2) (cR (cM (cM (cM (cM (cM (cW (cV 2) 10) (cA (cN 1) (cV 2))) (cA (cN 2) (cV 2))) (cA (cN 1) (cM (cN 2) (cV 2)))) (cA (cN 3) (cM (cN 2) (cV 2)))) (cA (cN 5) (cM (cN 2) (cV 2)))))))) (cM (cM (cM (cM (cW (cA (cN 1) (cV 2)) 3) (cW (cA (cN 2) (cV 2)) 4)) (cA (cN 1) (cM (cN 2) (cV 2)))) (cR (cA (cN 3) (cM (cN 2) (cV 2))))) (cA (cN 5) (cM (cN 2) (cV 2)))))).
Definition QST_e845 := (cD (cA (cA (cA (cA (cA (cA (cA (cM (cN 600) (cR (cM (cM (cV 2) (cA (cN 3) (cV 2))) (cA (cN 3) (cM (cN 2) (cV 2)))))) (cM (cN 2180) (cR (cM (cM (cW (cV 2) 6) (cA (cN 3) (cV 2))) (cA (cN 3) (cM (cN 2) (cV 2))))))) (cM (cN 3306) (cR (cM (cM (cW (cV 2) 10) (cA (cN 3) (cV 2))) (cA (cN 3) (cM (cN 2) (cV 2))))))) (cM (cN 2727) (cR (cM (cM (cW (cV 2) 14) (cA (cN 3) (cV 2))) (cA (cN 3) (cM (cN 2) (cV 2))))))) (cM (cN 1326) (cR (cM (cM (cW (cV 2) 18) (cA (cN 3) (cV 2))) (cA (cN 3) (cM (cN 2) (cV 2))))))) (cM (cN 381) (cR (cM (cM (cW (cV 2) 22) (cA (cN 3) (cV 2))) (cA (cN 3) (cM (cN 2) (cV 2))))))) (cM (cN 60) (cR (cM (cM (cW (cV 2) 26) (cA (cN 3) (cV 2))) (cA (cN 3) (cM (cN 2) (cV 2))))))) (cM (cN 4) (cR (cM (cM (cW (cV 2) 30) (cA (cN 3) (cV 2))) (cA (cN 3) (cM (cN 2) (cV 2))))))) (cM (cM (cM (cM (cW (cA (cN 1) (cV 2)) 3) (cW (cA (cN 2) (cV 2)) 7)) (cA (cN 3) (cV 2))) (cR (cA (cN 3) (cM (cN 2) (cV 2))))) (cW (cA (cN 5) (cM (cN 2) (cV 2))) 4))).
Definition QST_e846 := (cD (cM (cA (cN (-1)) (cV 2)) (cA (cA (cO (cR (cM (cM (cA (cN 1) (cD (cB (cV 1) (cN 1)) (cN 2))) (cV 2)) (cA (cN 1) (cV 2))))) (cR (cM (cM (cA (cN 1) (cD (cB (cV 1) (cN 1)) (cN 2))) (cW (cV 2) 10)) (cA (cN 1) (cV 2))))) (cM (cM (cD (cB (cV 1) (cN 1)) (cN 2)) (cR (cM (cM (cA (cN 1) (cD (cB (cV 1) (cN 1)) (cN 2))) (cV 2)) (cA (cN 1) (cV 2))))) (cA (cN (-1)) (cW (cV 2) 4))))) (cM (cW (cM (cM (cA (cN 1) (cD (cB (cV 1) (cN 1)) (cN 2))) (cA (cN (-1)) (cV 2))) (cV 2)) 3) (cA (cN 1) (cV 2)))).
Definition QST_e847 := (cD (cA (cA (cA (cM (cM (cM (cM (cW (cD (cB (cV 1) (cN 1)) (cN 2)) 3) (cW (cA (cN 1) (cD (cB (cV 1) (cN 1)) (cN 2))) 4)) (cW (cV 2) 5)) (cW (cA (cN 1) (cV 2)) 4)) (cR (cA (cN (-1)) (cM (cN 4) (cW (cV 2) 4))))) (cR (cM (cM (cM (cM (cD (cB (cV 1) (cN 1)) (cN 2)) (cW (cA (cN 1) (cD (cB (cV 1) (cN 1)) (cN 2))) 8)) (cW (cV 2) 6)) (cW (cA (cN 1) (cV 2)) 8)) (cA (cN (-1)) (cM (cN 4) (cW (cV 2) 4)))))) (cM (cD (cB (cV 1) (cN 1)) (cN 2)) (cR (cM (cM (cM (cM (cD (cB (cV 1) (cN 1)) (cN 2)) (cW (cA (cN 1) (cD (cB (cV 1) (cN 1)) (cN 2))) 8)) (cW (cV 2) 6)) (cW (cA (cN 1) (cV 2)) 8)) (cA (cN (-1)) (cM (cN 4) (cW (cV 2) 4))))))) (cM (cV 2) (cR (cM (cM (cM (cM (cD (cB (cV 1) (cN 1)) (cN 2)) (cW (cA (cN 1) (cD (cB (cV 1) (cN 1)) (cN 2))) 8)) (cW (cV 2) 6)) (cW (cA (cN 1) (cV 2)) 8)) (cA (cN (-1)) (cM (cN 4) (cW (cV 2) 4))))))) (cM (cM (cM (cM (cR (cD (cB (cV 1) (cN 1)) (cN 2))) (cW (cA (cN 1) (cD (cB (cV 1) (cN 1)) (cN 2))) 6)) (cW (cV 2) 5)) (cW (cA (cN 1) (cV 2)) 6)) (cA (cN 1) (cM (cN 2) (cV 2))))).
Definition QST_e848 := (cD (cM (cR (cD (cD (cB (cV 1) (cN 1)) (cN 2)) (cA (cA (cN 3) (cM (cN 5) (cV 2))) (cM (cN 2) (cW (cV 2) 4))))) (cA (cA (cA (cA (cA (cR (cD (cM (cA (cN 1) (cD (cB (cV 1) (cN 1)) (cN 2))) (cA (cN (-1)) (cM (cN 2) (cV 2)))) (cM (cD (cB (cV 1) (cN 1)) (cN 2)) (cA (cN 1) (cV 2))))) (cR (cD (cM (cM (cD (cB (cV 1) (cN 1)) (cN 2)) (cA (cN 1) (cD (cB (cV 1) (cN 1)) (cN 2)))) (cA (cN (-1)) (cM (cN 2) (cV 2)))) (cA (cN 1) (cV 2))))) (cM (cR (cD (cM (cA (cN 1) (cD (cB (cV 1) (cN 1)) (cN 2))) (cA (cN (-1)) (cM (cN 2) (cV 2)))) (cM (cD (cB (cV 1) (cN 1)) (cN 2)) (cA (cN 1) (cV 2))))) (cA (cN 1) (cM (cN 2) (cV 2))))) (cM (cM (cD (cB (cV 1) (cN 1)) (cN 2)) (cR (cD (cM (cA (cN 1) (cD (cB (cV 1) (cN 1)) (cN 2))) (cA (cN (-1)) (cM (cN 2) (cV 2)))) (cM (cD (cB (cV 1) (cN 1)) (cN 2)) (cA (cN 1) (cV 2)))))) (cA (cN 1) (cM (cN 2) (cV 2))))) (cM (cA (cN 1) (cM (cN 2) (cV 2))) (cR (cD (cM (cA (cN 1) (cD (cB (cV 1) (cN 1)) (cN 2))) (cA (cA (cN (-1)) (cV 2)) (cM (cN 2) (cW (cV 2) 4)))) (cD (cB (cV 1) (cN 1)) (cN 2)))))) (cM (cA (cN 1) (cM (cN 2) (cV 2))) (cR (cM (cM (cD (cB (cV 1) (cN 1)) (cN 2)) (cA (cN 1) (cD (cB (cV 1) (cN 1)) (cN 2)))) (cA (cA (cN (-1)) (cV 2)) (cM (cN 2) (cW (cV 2) 4)))))))) (cM (cW (cA (cN 1) (cD (cB (cV 1) (cN 1)) (cN 2))) 3) (cA (cN 1) (cM (cN 2) (cV 2))))).
Definition QST_e849 := (cD (cM (cR (cA (cN 1) (cM (cN 2) (cD (cB (cV 1) (cN 1)) (cN 2))))) (cA (cA (cA (cA (cA (cR (cD (cM (cM (cM (cM (cM (cA (cN 1) (cD (cB (cV 1) (cN 1)) (cN 2))) (cA (cN 3) (cM (cN 2) (cD (cB (cV 1) (cN 1)) (cN 2))))) (cV 2)) (cA (cN 1) (cV 2))) (cA (cN (-1)) (cM (cN 2) (cV 2)))) (cA (cN 1) (cM (cN 2) (cV 2)))) (cA (cN 1) (cM (cN 2) (cD (cB (cV 1) (cN 1)) (cN 2)))))) (cR (cM (cM (cM (cM (cM (cM (cA (cN 1) (cD (cB (cV 1) (cN 1)) (cN 2))) (cA (cN 1) (cM (cN 2) (cD (cB (cV 1) (cN 1)) (cN 2))))) (cA (cN 3) (cM (cN 2) (cD (cB (cV 1) (cN 1)) (cN 2))))) (cV 2)) (cA (cN 1) (cV 2))) (cA (cN (-1)) (cM (cN 2) (cV 2)))) (cA (cN 1) (cM (cN 2) (cV 2)))))) (cR (cM (cM (cM (cM (cM (cW (cA (cN 1) (cD (cB (cV 1) (cN 1)) (cN 2))) 6) (cA (cN 3) (cM (cM (cN 4) (cD (cB (cV 1) (cN 1)) (cN 2))) (cA (cN 2) (cD (cB (cV 1) (cN 1)) (cN 2)))))) (cV 2)) (cA (cN 1) (cV 2))) (cA (cN (-1)) (cM (cN 2) (cV 2)))) (cA (cN 1) (cM (cN 2) (cV 2)))))) (cM (cV 2) (cR (cM (cM (cM (cM (cM (cW (cA (cN 1) (cD (cB (cV 1) (cN 1)) (cN 2))) 6) (cA (cN 3) (cM (cM (cN 4) (cD (cB (cV 1) (cN 1)) (cN 2))) (cA (cN 2) (cD (cB (cV 1) (cN 1)) (cN 2)))))) (cV 2)) (cA (cN 1) (cV 2))) (cA (cN (-1)) (cM (cN 2) (cV 2)))) (cA (cN 1) (cM (cN 2) (cV 2))))))) (cR (cD (cM (cM (cM (cM (cM (cA (cN 1) (cD (cB (cV 1) (cN 1)) (cN 2))) (cA (cN 3) (cM (cN 2) (cD (cB (cV 1) (cN 1)) (cN 2))))) (cW (cV 2) 6)) (cA (cN 1) (cV 2))) (cA (cN (-1)) (cM (cN 2) (cV 2)))) (cA (cN 1) (cM (cN 2) (cV 2)))) (cA (cN 1) (cM (cN 2) (cD (cB (cV 1) (cN 1)) (cN 2))))))) (cR (cM (cM (cM (cM (cM (cM (cA (cN 1) (cD (cB (cV 1) (cN 1)) (cN 2))) (cA (cN 1) (cM (cN 2) (cD (cB (cV 1) (cN 1)) (cN 2))))) (cA (cN 3) (cM (cN 2) (cD (cB (cV 1) (cN 1)) (cN 2))))) (cW (cV 2) 6)) (cA (cN 1) (cV 2))) (cA (cN (-1)) (cM (cN 2) (cV 2)))) (cA (cN 1) (cM (cN 2) (cV 2))))))) (cM (cW (cM (cM (cM (cA (cN 1) (cD (cB (cV 1) (cN 1)) (cN 2))) (cA (cN 3) (cM (cN 2) (cD (cB (cV 1) (cN 1)) (cN 2))))) (cV 2)) (cA (cN 1) (cV 2))) 3) (cA (cN 1) (cM (cN 2) (cV 2))))).
Definition QST_e850 := (cD (cA (cA (cA (cA (cR (cM (cM (cM (cV 2) (cA (cN 2) (cV 2))) (cA (cN (-1)) (cM (cN 2) (cV 2)))) (cA (cN 3) (cM (cN 2) (cV 2))))) (cM (cN 2) (cR (cM (cM (cM (cW (cV 2) 6) (cA (cN 2) (cV 2))) (cA (cN (-1)) (cM (cN 2) (cV 2)))) (cA (cN 3) (cM (cN 2) (cV 2))))))) (cM (cN 18) (cR (cD (cM (cV 2) (cA (cN (-1)) (cM (cN 2) (cV 2)))) (cA (cA (cN 6) (cM (cN 7) (cV 2))) (cM (cN 2) (cW (cV 2) 4))))))) (cM (cN 2) (cR (cD (cM (cV 2) (cA (cN (-3)) (cM (cM (cN 4) (cV 2)) (cA (cN 1) (cV 2))))) (cA (cN 2) (cV 2)))))) (cM (cM (cN 4) (cV 2)) (cA (cM (cN 3) (cR (cD (cM (cV 2) (cA (cN (-1)) (cM (cN 2) (cV 2)))) (cA (cA (cN 6) (cM (cN 7) (cV 2))) (cM (cN 2) (cW (cV 2) 4)))))) (cR (cD (cM (cV 2) (cA (cN (-3)) (cM (cM (cN 4) (cV 2)) (cA (cN 1) (cV 2))))) (cA (cN 2) (cV 2))))))) (cM (cA (cN 3) (cM (cN 2) (cV 2))) (cR (cM (cM (cM (cV 2) (cA (cN 2) (cV 2))) (cA (cN 1) (cM (cN 2) (cV 2)))) (cA (cN 5) (cM (cN 2) (cV 2))))))).
Definition QST_e851 := (cD (cM (cA (cN (-2)) (cV 2)) (cA (cN 1) (cV 2))) (cR (cM (cM (cM (cA (cN (-2)) (cV 2)) (cA (cN (-1)) (cV 2))) (cV 2)) (cA (cN 1) (cV 2))))).
Definition QST_e852 := (cD (cM (cM (cR (cN 3)) (cA (cN 1) (cV 2))) (cA (cN (-3)) (cM (cN 2) (cV 2)))) (cM (cV 2) (cR (cM (cM (cM (cA (cN (-1)) (cV 2)) (cA (cN 1) (cV 2))) (cA (cN (-3)) (cM (cN 2) (cV 2)))) (cA (cN 1) (cM (cN 2) (cV 2))))))).
Definition QST_e853 := (cD (cM (cR (cN 3)) (cA (cA (cN (-3)) (cV 2)) (cM (cN 2) (cW (cV 2) 4)))) (cM (cV 2) (cR (cM (cA (cN (-1)) (cW (cV 2) 4)) (cA (cN 3) (cM (cM (cN 4) (cV 2)) (cA (cN 2) (cV 2)))))))).
Definition QST_e854 := (cD (cA (cM (cN 6) (cR (cM (cM (cA (cN (-1)) (cV 2)) (cA (cN 1) (cV 2))) (cA (cN (-1)) (cM (cN 2) (cV 2)))))) (cM (cM (cM (cA (cN (-1)) (cV 2)) (cV 2)) (cR (cA (cA (cN 3) (cD (cN 2) (cA (cN (-1)) (cV 2)))) (cM (cN 2) (cV 2))))) (cA (cN 13) (cM (cV 2) (cA (cN 9) (cM (cN 2) (cV 2))))))) (cM (cM (cW (cA (cN 1) (cV 2)) 4) (cA (cN 1) (cM (cN 2) (cV 2)))) (cR (cM (cM (cV 2) (cA (cN 2) (cV 2))) (cA (cN 3) (cM (cN 2) (cV 2))))))).
Definition QST_e855 := (cD (cM (cR (cN 2)) (cA (cN (-1)) (cM (cN 2) (cV 2)))) (cR (cM (cM (cM (cV 2) (cA (cN 1) (cV 2))) (cA (cN (-1)) (cM (cN 2) (cV 2)))) (cA (cN 1) (cM (cN 2) (cV 2)))))).
Definition QST_e856 := (cD (cA (cA (cA (cA (cM (cN 12) (cR (cD (cM (cM (cM (cM (cA (cN 1) (cD (cB (cV 1) (cN 1)) (cN 2))) (cV 2)) (cA (cN (-1)) (cM (cN 2) (cV 2)))) (cA (cN 1) (cM (cN 2) (cV 2)))) (cA (cN 5) (cM (cN 2) (cV 2)))) (cM (cA (cN 2) (cV 2)) (cA (cN 3) (cM (cN 2) (cV 2))))))) (cM (cN 2) (cR (cD (cM (cM (cM (cM (cM (cA (cN 1) (cD (cB (cV 1) (cN 1)) (cN 2))) (cV 2)) (cA (cN (-1)) (cM (cN 2) (cV 2)))) (cA (cN 1) (cM (cN 2) (cV 2)))) (cA (cN 3) (cM (cN 2) (cV 2)))) (cA (cN 5) (cM (cN 2) (cV 2)))) (cA (cN 2) (cV 2)))))) (cR (cM (cM (cM (cM (cM (cM (cA (cN 1) (cD (cB (cV 1) (cN 1)) (cN 2))) (cV 2)) (cA (cN 2) (cV 2))) (cA (cN (-1)) (cM (cN 2) (cV 2)))) (cA (cN 1) (cM (cN 2) (cV 2)))) (cA (cN 3) (cM (cN 2) (cV 2)))) (cA (cN 5) (cM (cN 2) (cV 2)))))) (cM (cN 6) (cR (cD (cM (cM (cA (cN 1) (cD (cB (cV 1) (cN 1)) (cN 2))) (cV 2)) (cA (cA (cN (-5)) (cM (cN 8) (cV 2))) (cM (cN 4) (cW (cV 2) 4)))) (cA (cA (cA (cN 6) (cM (cN 19) (cV 2))) (cM (cN 16) (cW (cV 2) 4))) (cM (cN 4) (cW (cV 2) 6))))))) (cM (cV 2) (cA (cA (cM (cN 6) (cR (cD (cM (cM (cM (cM (cA (cN 1) (cD (cB (cV 1) (cN 1)) (cN 2))) (cV 2)) (cA (cN (-1)) (cM (cN 2) (cV 2)))) (cA (cN 1) (cM (cN 2) (cV 2)))) (cA (cN 5) (cM (cN 2) (cV 2)))) (cM (cA (cN 2) (cV 2)) (cA (cN 3) (cM (cN 2) (cV 2))))))) (cM (cN 2) (cR (cD (cM (cM (cM (cM (cM (cA (cN 1) (cD (cB (cV 1) (cN 1)) (cN 2))) (cV 2)) (cA (cN (-1)) (cM (cN 2) (cV 2)))) (cA (cN 1) (cM (cN 2) (cV 2)))) (cA (cN 3) (cM (cN 2) (cV 2)))) (cA (cN 5) (cM (cN 2) (cV 2)))) (cA (cN 2) (cV 2)))))) (cR (cM (cM (cM (cM (cM (cM (cA (cN 1) (cD (cB (cV 1) (cN 1)) (cN 2))) (cV 2)) (cA (cN 2) (cV 2))) (cA (cN (-1)) (cM (cN 2) (cV 2)))) (cA (cN 1) (cM (cN 2) (cV 2)))) (cA (cN 3) (cM (cN 2) (cV 2)))) (cA (cN 5) (cM (cN 2) (cV 2)))))))) (cM (cM (cM (cA (cN 1) (cV 2)) (cR (cM (cM (cA (cN 1) (cD (cB (cV 1) (cN 1)) (cN 2))) (cV 2)) (cA (cN 2) (cV 2))))) (cA (cN 3) (cM (cN 2) (cV 2)))) (cA (cN 5) (cM (cN 2) (cV 2))))).
Definition QST_e857 := (cD (cM (cM (cR (cQ 2 3)) (cH 1)) (cA (cN (-1)) (cM (cN 2) (cV 2)))) (cR (cM (cM (cH 1) (cA (cN 1) (cM (cN 2) (cH 1)))) (cA (cN (-1)) (cM (cN 4) (cW (cV 2) 4)))))).
Definition QST_e858 := (cD (cM (cR (cN 2)) (cH 1)) (cR (cM (cH 1) (cA (cN 1) (cM (cN 2) (cH 1)))))).
Definition QST_e859 := (cA (cD (cA (cN (-1)) (cV 2)) (cR (cD (cM (cM (cA (cN 1) (cM (cN 2) (cH 1))) (cV 2)) (cA (cN 1) (cV 2))) (cH 1)))) (cD (cM (cN 2) (cH 1)) (cR (cM (cM (cM (cH 1) (cA (cN 1) (cM (cN 2) (cH 1)))) (cV 2)) (cA (cN 1) (cV 2)))))).
Definition QST_e860 := (cD (cM (cH 1) (cA (cA (cD (cA (cN (-1)) (cM (cN 2) (cV 2))) (cR (cD (cM (cM (cH 1) (cA (cN 1) (cM (cN 2) (cH 1)))) (cA (cA (cA (cN 3) (cM (cN 11) (cV 2))) (cM (cN 12) (cW (cV 2) 4))) (cM (cN 4) (cW (cV 2) 6)))) (cV 2)))) (cD (cN 6) (cR (cM (cM (cM (cH 1) (cA (cN 1) (cM (cN 2) (cH 1)))) (cV 2)) (cA (cA (cA (cN 3) (cM (cN 11) (cV 2))) (cM (cN 12) (cW (cV 2) 4))) (cM (cN 4) (cW (cV 2) 6))))))) (cD (cM (cN 3) (cW (cA (cN (-1)) (cM (cN 2) (cV 2))) 3)) (cR (cM (cM (cM (cH 1) (cA (cN 1) (cM (cN 2) (cH 1)))) (cV 2)) (cA (cA (cA (cB (cN (-3)) (cM (cN 5) (cV 2))) (cM (cN 10) (cW (cV 2) 4))) (cM (cN 20) (cW (cV 2) 6))) (cM (cN 8) (cW (cV 2) 8)))))))) (cR (cN 3))).
Definition QST_e861 := (cR (cD (cA (cN (-1)) (cV 2)) (cV 2))).
Definition QST_e862 := (cD (cA (cA (cN (-1)) (cV 2)) (cM (cN 2) (cW (cV 2) 4))) (cR (cM (cV 2) (cA (cA (cB (cN (-1)) (cV 2)) (cM (cN 4) (cW (cV 2) 4))) (cM (cN 4) (cW (cV 2) 6)))))).
Definition QST_e863 := (cD (cA (cN 1) (cH 1)) (cR (cD (cM (cA (cA (cN 1) (cM (cN 3) (cH 1))) (cM (cN 2) (cW (cH 1) 4))) (cV 2)) (cA (cN (-1)) (cV 2))))).
Definition QST_e864 := (cM (cA (cN (-1)) (cM (cN 2) (cV 2))) (cA (cA (cD (cN 1) (cM (cA (cN (-1)) (cM (cN 4) (cW (cV 2) 4))) (cR (cD (cM (cA (cA (cN 1) (cM (cN 3) (cH 1))) (cM (cN 2) (cW (cH 1) 4))) (cV 2)) (cA (cA (cB (cN (-1)) (cV 2)) (cM (cN 4) (cW (cV 2) 4))) (cM (cN 4) (cW (cV 2) 6))))))) (cD (cH 1) (cR (cM (cM (cA (cA (cN 1) (cM (cN 3) (cH 1))) (cM (cN 2) (cW (cH 1) 4))) (cV 2)) (cA (cA (cB (cN (-1)) (cV 2)) (cM (cN 4) (cW (cV 2) 4))) (cM (cN 4) (cW (cV 2) 6))))))) (cD (cM (cH 1) (cV 2)) (cR (cM (cM (cA (cA (cN 1) (cM (cN 3) (cH 1))) (cM (cN 2) (cW (cH 1) 4))) (cV 2)) (cA (cA (cB (cN (-1)) (cV 2)) (cM (cN 4) (cW (cV 2) 4))) (cM (cN 4) (cW (cV 2) 6)))))))).
Definition QST_e865 := (cO (cD (cM (cR (cN 2)) (cH 1)) (cR (cA (cM (cN 3) (cH 1)) (cM (cN 6) (cW (cH 1) 4)))))).
Definition QST_e866 := (cD (cA (cN (-1)) (cV 2)) (cR (cD (cM (cM (cA (cN 1) (cM (cN 2) (cH 1))) (cA (cN (-1)) (cV 2))) (cV 2)) (cH 1)))).
Definition QST_e867 := (cD (cM (cH 1) (cB (cA (cA (cM (cM (cN 4) (cV 2)) (cR (cM (cM (cA (cN 1) (cM (cN 2) (cH 1))) (cV 2)) (cA (cN 1) (cV 2))))) (cM (cM (cN 2) (cW (cV 2) 4)) (cR (cM (cM (cA (cN 1) (cM (cN 2) (cH 1))) (cV 2)) (cA (cN 1) (cV 2)))))) (cM (cM (cN 4) (cW (cV 2) 6)) (cR (cM (cM (cA (cN 1) (cM (cN 2) (cH 1))) (cV 2)) (cA (cN 1) (cV 2)))))) (cM (cN 3) (cB (cA (cR (cM (cM (cA (cN 1) (cM (cN 2) (cH 1))) (cV 2)) (cA (cN 1) (cV 2)))) (cR (cM (cM (cA (cN 1) (cM (cN 2) (cH 1))) (cW (cV 2) 6)) (cA (cN 1) (cV 2))))) (cM (cN 2) (cR (cM (cM (cA (cN 1) (cM (cN 2) (cH 1))) (cW (cV 2) 10)) (cA (cN 1) (cV 2))))))))) (cM (cM (cM (cR (cN 3)) (cW (cA (cN 1) (cV 2)) 4)) (cA (cV 2) (cM (cM (cN 2) (cH 1)) (cV 2)))) (cR (cM (cH 1) (cA (cA (cN (-3)) (cM (cN 4) (cV 2))) (cM (cN 4) (cW (cV 2) 4))))))).
Definition QST_e868 := (cD (cH 1) (cR (cD (cM (cM (cH 1) (cA (cN 1) (cM (cN 2) (cH 1)))) (cA (cN 1) (cV 2))) (cA (cN 2) (cV 2))))).
Definition QST_e869 := (cD (cB (cN (-1)) (cV 2)) (cR (cM (cV 2) (cA (cN 1) (cV 2))))).
Definition QST_e870 := (cA (cD (cR (cD (cV 2) (cW (cA (cN 1) (cV 2)) 6))) (cA (cN 3) (cM (cN 2) (cV 2)))) (cD (cM (cM (cV 2) (cA (cN 1) (cM (cN 2) (cV 2)))) (cA (cR (cD (cM (cH 1) (cA (cN 1) (cV 2))) (cA (cN 3) (cM (cN 2) (cV 2))))) (cR (cD (cH 1) (cA (cA (cN 3) (cM (cN 5) (cV 2))) (cM (cN 2) (cW (cV 2) 4))))))) (cM (cA (cN 1) (cV 2)) (cR (cM (cM (cH 1) (cV 2)) (cA (cN 3) (cM (cN 2) (cV 2)))))))).
Definition QST_e871 := (cO (cD (cM (cA (cN 1) (cH 1)) (cA (cN 1) (cV 2))) (cR (cM (cM (cA (cA (cN 1) (cM (cN 3) (cH 1))) (cM (cN 2) (cW (cH 1) 4))) (cV 2)) (cA (cN 1) (cV 2)))))).
Definition QST_e872 := (cA (cA (cB (cM (cN (-2)) (cR (cD (cV 2) (cM (cA (cA (cN 1) (cM (cN 3) (cH 1))) (cM (cN 2) (cW (cH 1) 4))) (cW (cA (cN 1) (cV 2)) 6))))) (cM (cM (cN 2) (cH 1)) (cR (cD (cV 2) (cM (cA (cA (cN 1) (cM (cN 3) (cH 1))) (cM (cN 2) (cW (cH 1) 4))) (cW (cA (cN 1) (cV 2)) 6)))))) (cD (cA (cN (-1)) (cV 2)) (cR (cM (cM (cA (cA (cN 1) (cM (cN 3) (cH 1))) (cM (cN 2) (cW (cH 1) 4))) (cV 2)) (cW (cA (cN 1) (cV 2)) 6))))) (cD (cM (cW (cH 1) 3) (cA (cN (-1)) (cV 2))) (cR (cM (cM (cM (cH 1) (cA (cA (cN 1) (cM (cN 3) (cH 1))) (cM (cN 2) (cW (cH 1) 4)))) (cV 2)) (cW (cA (cN 1) (cV 2)) 6))))).
Definition QST_e873 := (cD (cA (cA (cA (cA (cM (cN 3) (cR (cD (cV 2) (cM (cA (cA (cN 1) (cM (cN 3) (cH 1))) (cM (cN 2) (cW (cH 1) 4))) (cW (cA (cN 1) (cV 2)) 6))))) (cM (cM (cN 2) (cH 1)) (cR (cD (cV 2) (cM (cA (cA (cN 1) (cM (cN 3) (cH 1))) (cM (cN 2) (cW (cH 1) 4))) (cW (cA (cN 1) (cV 2)) 6)))))) (cM (cN 5) (cR (cD (cW (cV 2) 6) (cM (cA (cA (cN 1) (cM (cN 3) (cH 1))) (cM (cN 2) (cW (cH 1) 4))) (cW (cA (cN 1) (cV 2)) 6)))))) (cM (cN 2) (cR (cD (cW (cV 2) 10) (cM (cA (cA (cN 1) (cM (cN 3) (cH 1))) (cM (cN 2) (cW (cH 1) 4))) (cW (cA (cN 1) (cV 2)) 6)))))) (cD (cM (cH 1) (cA (cA (cN 1) (cM (cN 5) (cV 2))) (cM (cN 2) (cW (cV 2) 4)))) (cM (cR (cD (cA (cA (cN 1) (cM (cN 3) (cH 1))) (cM (cN 2) (cW (cH 1) 4))) (cV 2))) (cW (cA (cN 1) (cV 2)) 3)))) (cA (cN 3) (cM (cN 2) (cV 2)))).
Definition QST_e874 := (cD (cM (cM (cR (cQ 2 3)) (cH 1)) (cA (cN 3) (cM (cN 2) (cV 2)))) (cR (cM (cM (cH 1) (cA (cN 1) (cM (cN 2) (cH 1)))) (cA (cA (cN 3) (cM (cN 8) (cV 2))) (cM (cN 4) (cW (cV 2) 4)))))).
Definition QST_e875 := (cD (cR (cD (cM (cM (cH 1) (cV 2)) (cA (cN (-1)) (cM (cN 2) (cV 2)))) (cM (cA (cN 1) (cM (cN 2) (cH 1))) (cA (cA (cN 1) (cM (cN 3) (cV 2))) (cM (cN 2) (cW (cV 2) 4)))))) (cR (cN 3))).
Definition QST_e876 := (cA (cB (cD (cM (cR (cD (cM (cH 1) (cV 2)) (cA (cN 1) (cM (cN 2) (cH 1))))) (cA (cN 5) (cM (cN 2) (cV 2)))) (cM (cW (cA (cN 1) (cV 2)) 3) (cA (cN 3) (cM (cN 2) (cV 2))))) (cD (cM (cM (cV 2) (cA (cN 1) (cM (cN 2) (cV 2)))) (cR (cD (cH 1) (cM (cA (cN 1) (cM (cN 2) (cH 1))) (cA (cV 2) (cW (cV 2) 4)))))) (cM (cA (cN 1) (cV 2)) (cA (cN 3) (cM (cN 2) (cV 2)))))) (cD (cM (cV 2) (cA (cA (cD (cM (cA (cN 1) (cV 2)) (cA (cN 1) (cM (cN 2) (cV 2)))) (cM (cA (cN 2) (cV 2)) (cR (cD (cM (cV 2) (cA (cN 3) (cM (cN 2) (cV 2)))) (cH 1))))) (cD (cA (cN 2) (cM (cN 4) (cV 2))) (cR (cD (cM (cA (cN 3) (cM (cN 2) (cV 2))) (cW (cA (cA (cN 2) (cM (cN 3) (cV 2))) (cW (cV 2) 4)) 4)) (cM (cH 1) (cV 2)))))) (cD (cM (cN 3) (cA (cN (-1)) (cV 2))) (cR (cD (cM (cM (cV 2) (cA (cN 3) (cM (cN 2) (cV 2)))) (cW (cA (cA (cN 2) (cM (cN 3) (cV 2))) (cW (cV 2) 4)) 4)) (cH 1)))))) (cR (cM (cA (cN 1) (cM (cN 2) (cH 1))) (cA (cA (cN 3) (cM (cN 5) (cV 2))) (cM (cN 2) (cW (cV 2) 4))))))).
Definition QST_e877 := (cD (cM (cR (cN 2)) (cA (cA (cA (cA (cM (cN 6) (cR (cD (cM (cH 1) (cA (cN 1) (cV 2))) (cA (cN 3) (cM (cN 2) (cV 2)))))) (cM (cN 12) (cR (cD (cH 1) (cA (cA (cN 3) (cM (cN 5) (cV 2))) (cM (cN 2) (cW (cV 2) 4))))))) (cM (cN 4) (cR (cM (cH 1) (cA (cA (cN 3) (cM (cN 5) (cV 2))) (cM (cN 2) (cW (cV 2) 4))))))) (cM (cM (cN 2) (cW (cV 2) 4)) (cR (cM (cH 1) (cA (cA (cN 3) (cM (cN 5) (cV 2))) (cM (cN 2) (cW (cV 2) 4))))))) (cM (cM (cN 3) (cV 2)) (cA (cA (cM (cN 4) (cR (cD (cM (cH 1) (cA (cN 1) (cV 2))) (cA (cN 3) (cM (cN 2) (cV 2)))))) (cM (cN 4) (cR (cD (cH 1) (cA (cA (cN 3) (cM (cN 5) (cV 2))) (cM (cN 2) (cW (cV 2) 4))))))) (cM (cN 3) (cR (cM (cH 1) (cA (cA (cN 3) (cM (cN 5) (cV 2))) (cM (cN 2) (cW (cV 2) 4)))))))))) (cM (cM (cA (cN 2) (cV 2)) (cA (cN 5) (cM (cN 2) (cV 2)))) (cR (cM (cA (cN 1) (cM (cN 2) (cH 1))) (cA (cA (cN 3) (cM (cN 5) (cV 2))) (cM (cN 2) (cW (cV 2) 4))))))).
Definition QST_e878 := (cO (cD (cM (cV 2) (cA (cN 3) (cM (cN 2) (cV 2)))) (cR (cM (cV 2) (cA (cA (cA (cN 3) (cM (cN 11) (cV 2))) (cM (cN 12) (cW (cV 2) 4))) (cM (cN 4) (cW (cV 2) 6))))))).
Definition QST_e879 := (cD (cB (cN (-2)) (cV 2)) (cR (cA (cA (cN 2) (cM (cN 3) (cV 2))) (cW (cV 2) 4)))).
Definition QST_e880 := (cB (cO (cD (cM (cM (cH 1) (cV 2)) (cA (cN 3) (cM (cN 2) (cV 2)))) (cR (cM (cM (cA (cA (cN 1) (cM (cN 3) (cH 1))) (cM (cN 2) (cW (cH 1) 4))) (cV 2)) (cA (cA (cA (cN 3) (cM (cN 11) (cV 2))) (cM (cN 12) (cW (cV 2) 4))) (cM (cN 4) (cW (cV 2) 6))))))) (cD (cA (cB (cA (cD (cM (cW (cA (cN 1) (cV 2)) 4) (cR (cD (cM (cM (cM (cA (cA (cN 1) (cM (cN 3) (cH 1))) (cM (cN 2) (cW (cH 1) 4))) (cV 2)) (cA (cN 1) (cM (cN 2) (cV 2)))) (cA (cN 3) (cM (cN 2) (cV 2)))) (cA (cN 1) (cV 2))))) (cA (cN 3) (cM (cN 2) (cV 2)))) (cD (cM (cW (cA (cN 1) (cV 2)) 4) (cR (cM (cM (cM (cA (cA (cN 1) (cM (cN 3) (cH 1))) (cM (cN 2) (cW (cH 1) 4))) (cV 2)) (cA (cN 3) (cM (cN 2) (cV 2)))) (cA (cA (cN 1) (cM (cN 3) (cV 2))) (cM (cN 2) (cW (cV 2) 4)))))) (cA (cN 3) (cM (cN 2) (cV 2))))) (cM (cW (cA (cN 1) (cV 2)) 3) (cR (cD (cM (cA (cA (cN 1) (cM (cN 3) (cH 1))) (cM (cN 2) (cW (cH 1) 4))) (cV 2)) (cA (cA (cN 3) (cM (cN 8) (cV 2))) (cM (cN 4) (cW (cV 2) 4))))))) (cD (cM (cM (cN 2) (cA (cN 1) (cV 2))) (cR (cM (cM (cA (cA (cN 1) (cM (cN 3) (cH 1))) (cM (cN 2) (cW (cH 1) 4))) (cV 2)) (cA (cA (cA (cN 3) (cM (cN 11) (cV 2))) (cM (cN 12) (cW (cV 2) 4))) (cM (cN 4) (cW (cV 2) 6)))))) (cA (cA (cN 3) (cM (cN 8) (cV 2))) (cM (cN 4) (cW (cV 2) 4))))) (cM (cA (cA (cN 1) (cM (cN 3) (cH 1))) (cM (cN 2) (cW (cH 1) 4))) (cW (cA (cN 1) (cV 2)) 6)))).
Definition QST_e881 := (cA (cB (cA (cD (cM (cM (cM (cN (-2)) (cH 1)) (cA (cN 2) (cV 2))) (cA (cN 1) (cM (cN 2) (cV 2)))) (cM (cA (cN 1) (cV 2)) (cR (cM (cM (cA (cA (cN 1) (cM (cN 3) (cH 1))) (cM (cN 2) (cW (cH 1) 4))) (cW (cA (cN 3) (cM (cN 2) (cV 2))) 4)) (cA (cA (cN 2) (cM (cN 3) (cV 2))) (cW (cV 2) 4)))))) (cD (cB (cB (cB (cN (-2)) (cM (cN 3) (cV 2))) (cM (cN 5) (cW (cV 2) 4))) (cM (cN 2) (cW (cV 2) 6))) (cM (cR (cM (cM (cA (cN 1) (cH 1)) (cA (cN 1) (cM (cN 2) (cH 1)))) (cA (cA (cN 2) (cM (cN 3) (cV 2))) (cW (cV 2) 4)))) (cA (cA (cN 3) (cM (cN 5) (cV 2))) (cM (cN 2) (cW (cV 2) 4)))))) (cD (cM (cM (cN 2) (cR (cD (cA (cN 1) (cM (cN 2) (cV 2))) (cA (cA (cN 1) (cM (cN 3) (cH 1))) (cM (cN 2) (cW (cH 1) 4)))))) (cA (cR (cD (cA (cN 1) (cM (cN 2) (cV 2))) (cA (cA (cN 2) (cM (cN 3) (cV 2))) (cW (cV 2) 4)))) (cR (cD (cA (cA (cN 1) (cM (cN 3) (cV 2))) (cM (cN 2) (cW (cV 2) 4))) (cA (cN 2) (cV 2)))))) (cA (cA (cN 3) (cM (cN 5) (cV 2))) (cM (cN 2) (cW (cV 2) 4))))) (cD (cM (cW (cH 1) 4) (cA (cO (cD (cM (cW (cA (cN 1) (cV 2)) 3) (cA (cN 1) (cM (cN 2) (cV 2)))) (cR (cM (cM (cM (cH 1) (cA (cN 1) (cH 1))) (cA (cN 3) (cM (cN 2) (cV 2)))) (cA (cA (cN 2) (cM (cN 3) (cV 2))) (cW (cV 2) 4)))))) (cD (cA (cN (-1)) (cV 2)) (cR (cM (cM (cM (cH 1) (cA (cN 1) (cH 1))) (cW (cA (cN 1) (cV 2)) 4)) (cA (cA (cN 6) (cM (cN 7) (cV 2))) (cM (cN 2) (cW (cV 2) 4)))))))) (cR (cM (cM (cH 1) (cA (cN 1) (cM (cN 2) (cH 1)))) (cA (cA (cN 3) (cM (cN 5) (cV 2))) (cM (cN 2) (cW (cV 2) 4))))))).
Definition QST_e882 := (cO (cD (cM (cM (cR (cQ 2 3)) (cA (cN 1) (cH 1))) (cA (cN (-1)) (cM (cN 2) (cV 2)))) (cR (cM (cA (cA (cN 1) (cM (cN 3) (cH 1))) (cM (cN 2) (cW (cH 1) 4))) (cA (cN (-1)) (cM (cN 4) (cW (cV 2) 4))))))).
Definition QST_e883 := (cO (cD (cM (cR (cN 2)) (cA (cN 1) (cH 1))) (cR (cA (cA (cN 1) (cM (cN 3) (cH 1))) (cM (cN 2) (cW (cH 1) 4)))))).
Definition QST_e884 := (cO (cD (cA (cR (cM (cM (cA (cA (cN 1) (cM (cN 3) (cH 1))) (cM (cN 2) (cW (cH 1) 4))) (cV 2)) (cA (cN 1) (cV 2)))) (cR (cD (cM (cA (cN 1) (cH 1)) (cA (cV 2) (cW (cV 2) 4))) (cA (cN 1) (cM (cN 2) (cH 1)))))) (cA (cM (cN 2) (cV 2)) (cM (cM (cN 2) (cH 1)) (cV 2))))).
Definition QST_e885 := (cB (cB (cB (cB (cA (cD (cB (cN 1) (cM (cN 2) (cV 2))) (cM (cM (cN 2) (cR (cN 3))) (cR (cD (cM (cM (cM (cA (cN 1) (cH 1)) (cA (cN 1) (cM (cN 2) (cH 1)))) (cA (cN 1) (cM (cN 2) (cV 2)))) (cA (cA (cN 3) (cM (cN 5) (cV 2))) (cM (cN 2) (cW (cV 2) 4)))) (cV 2))))) (cD (cB (cN 1) (cM (cN 2) (cV 2))) (cM (cM (cN 2) (cR (cN 3))) (cR (cD (cM (cM (cA (cN 1) (cH 1)) (cA (cN 1) (cM (cN 2) (cV 2)))) (cA (cA (cN 3) (cM (cN 5) (cV 2))) (cM (cN 2) (cW (cV 2) 4)))) (cA (cV 2) (cM (cM (cN 2) (cH 1)) (cV 2)))))))) (cR (cD (cA (cN 3) (cM (cN 6) (cH 1))) (cM (cM (cA (cN 1) (cH 1)) (cV 2)) (cA (cA (cA (cN 3) (cM (cN 11) (cV 2))) (cM (cN 12) (cW (cV 2) 4))) (cM (cN 4) (cW (cV 2) 6))))))) (cD (cR (cN 3)) (cR (cM (cM (cM (cA (cN 1) (cH 1)) (cA (cN 1) (cM (cN 2) (cH 1)))) (cV 2)) (cA (cA (cA (cN 3) (cM (cN 11) (cV 2))) (cM (cN 12) (cW (cV 2) 4))) (cM (cN 4) (cW (cV 2) 6))))))) (cD (cM (cR (cN 3)) (cW (cA (cN (-1)) (cM (cN 2) (cV 2))) 3)) (cM (cN 2) (cR (cM (cM (cM (cM (cA (cN 1) (cH 1)) (cA (cN 1) (cM (cN 2) (cH 1)))) (cV 2)) (cA (cN (-1)) (cM (cN 2) (cV 2)))) (cA (cA (cA (cN 3) (cM (cN 11) (cV 2))) (cM (cN 12) (cW (cV 2) 4))) (cM (cN 4) (cW (cV 2) 6)))))))) (cD (cW (cA (cN (-1)) (cM (cN 2) (cV 2))) 3) (cM (cN 2) (cR (cD (cM (cM (cM (cA (cN 1) (cH 1)) (cV 2)) (cA (cN (-1)) (cM (cN 2) (cV 2)))) (cA (cA (cA (cN 3) (cM (cN 11) (cV 2))) (cM (cN 12) (cW (cV 2) 4))) (cM (cN 4) (cW (cV 2) 6)))) (cA (cN 3) (cM (cN 6) (cH 1)))))))).
Definition QST_e886 := (cD (cA (cR (cD (cM (cM (cH 1) (cA (cN 1) (cM (cN 2) (cH 1)))) (cA (cN (-1)) (cV 2))) (cV 2))) (cR (cD (cM (cH 1) (cA (cN (-1)) (cV 2))) (cA (cV 2) (cM (cM (cN 2) (cH 1)) (cV 2)))))) (cM (cN 2) (cA (cN 1) (cH 1)))).
Definition QST_e887 := (cD (cA (cA (cA (cO (cM (cM (cH 1) (cA (cN (-1)) (cM (cN 2) (cV 2)))) (cR (cD (cV 2) (cM (cM (cH 1) (cA (cN 1) (cM (cN 2) (cH 1)))) (cA (cA (cB (cN (-1)) (cV 2)) (cM (cN 4) (cW (cV 2) 4))) (cM (cN 4) (cW (cV 2) 6)))))))) (cM (cM (cM (cH 1) (cA (cN 3) (cM (cN 2) (cH 1)))) (cA (cN (-1)) (cM (cN 2) (cV 2)))) (cR (cD (cV 2) (cM (cM (cH 1) (cA (cN 1) (cM (cN 2) (cH 1)))) (cA (cA (cB (cN (-1)) (cV 2)) (cM (cN 4) (cW (cV 2) 4))) (cM (cN 4) (cW (cV 2) 6)))))))) (cD (cB (cH 1) (cM (cM (cN 2) (cH 1)) (cV 2))) (cR (cM (cM (cM (cH 1) (cA (cN 1) (cM (cN 2) (cH 1)))) (cV 2)) (cA (cA (cB (cN (-1)) (cV 2)) (cM (cN 4) (cW (cV 2) 4))) (cM (cN 4) (cW (cV 2) 6))))))) (cD (cM (cM (cH 1) (cA (cN (-1)) (cM (cN 2) (cV 2)))) (cA (cM (cN 2) (cR (cD (cV 2) (cA (cN 1) (cM (cN 2) (cH 1)))))) (cR (cA (cV 2) (cM (cM (cN 2) (cH 1)) (cV 2)))))) (cM (cV 2) (cR (cM (cH 1) (cA (cA (cB (cN (-1)) (cV 2)) (cM (cN 4) (cW (cV 2) 4))) (cM (cN 4) (cW (cV 2) 6)))))))) (cM (cN 2) (cA (cN 1) (cH 1)))).
Definition QST_e888 := (cD (cM (cR (cN 2)) (cA (cN 1) (cH 1))) (cR (cA (cA (cN 3) (cM (cN 9) (cH 1))) (cM (cN 6) (cW (cH 1) 4))))).
Definition QST_e889 := (cA (cA (cA (cD (cA (cN (-1)) (cV 2)) (cM (cN 2) (cR (cD (cM (cM (cM (cA (cN 1) (cH 1)) (cA (cN (-1)) (cV 2))) (cV 2)) (cW (cA (cN 1) (cV 2)) 4)) (cA (cN 1) (cM (cN 2) (cH 1))))))) (cD (cA (cN (-1)) (cV 2)) (cM (cN 2) (cR (cM (cM (cM (cM (cA (cN 1) (cH 1)) (cA (cN 1) (cM (cN 2) (cH 1)))) (cV 2)) (cA (cN 1) (cV 2))) (cA (cN (-1)) (cW (cV 2) 4))))))) (cD (cB (cB (cN 2) (cV 2)) (cW (cV 2) 4)) (cM (cN 2) (cR (cM (cM (cM (cM (cA (cN 1) (cH 1)) (cA (cN 1) (cM (cN 2) (cH 1)))) (cV 2)) (cA (cN 1) (cV 2))) (cA (cN (-1)) (cW (cV 2) 4))))))) (cD (cB (cA (cM (cN (-2)) (cR (cD (cM (cA (cN 1) (cM (cN 2) (cH 1))) (cA (cN (-1)) (cV 2))) (cA (cN 1) (cV 2))))) (cM (cV 2) (cR (cD (cA (cN 1) (cM (cN 2) (cH 1))) (cA (cN (-1)) (cW (cV 2) 4)))))) (cM (cW (cV 2) 4) (cR (cD (cA (cN 1) (cM (cN 2) (cH 1))) (cA (cN (-1)) (cW (cV 2) 4)))))) (cM (cN 2) (cR (cM (cM (cA (cN 1) (cH 1)) (cV 2)) (cA (cN 1) (cV 2))))))).
Definition QST_e890 := (cD (cA (cA (cA (cA (cA (cD (cA (cN (-1)) (cM (cN 2) (cV 2))) (cM (cA (cN 1) (cV 2)) (cR (cD (cM (cA (cA (cN 1) (cM (cN 3) (cH 1))) (cM (cN 2) (cW (cH 1) 4))) (cA (cA (cA (cN (-3)) (cV 2)) (cM (cN 8) (cW (cV 2) 4))) (cM (cN 4) (cW (cV 2) 6)))) (cV 2))))) (cD (cB (cB (cA (cN (-3)) (cM (cN 9) (cV 2))) (cM (cN 4) (cW (cV 2) 4))) (cM (cN 4) (cW (cV 2) 6))) (cM (cM (cV 2) (cA (cN 1) (cV 2))) (cR (cD (cM (cA (cA (cN 1) (cM (cN 3) (cH 1))) (cM (cN 2) (cW (cH 1) 4))) (cA (cA (cA (cN (-3)) (cV 2)) (cM (cN 8) (cW (cV 2) 4))) (cM (cN 4) (cW (cV 2) 6)))) (cV 2)))))) (cD (cB (cB (cN 6) (cM (cN 9) (cV 2))) (cM (cN 6) (cW (cV 2) 4))) (cM (cA (cN 1) (cV 2)) (cR (cM (cM (cA (cA (cN 1) (cM (cN 3) (cH 1))) (cM (cN 2) (cW (cH 1) 4))) (cV 2)) (cA (cA (cA (cN (-3)) (cV 2)) (cM (cN 8) (cW (cV 2) 4))) (cM (cN 4) (cW (cV 2) 6)))))))) (cD (cA (cN (-1)) (cM (cN 2) (cV 2))) (cM (cA (cN 1) (cV 2)) (cR (cD (cM (cA (cN 1) (cH 1)) (cA (cA (cA (cN (-3)) (cV 2)) (cM (cN 8) (cW (cV 2) 4))) (cM (cN 4) (cW (cV 2) 6)))) (cA (cV 2) (cM (cM (cN 2) (cH 1)) (cV 2)))))))) (cD (cB (cB (cA (cN (-3)) (cM (cN 9) (cV 2))) (cM (cN 4) (cW (cV 2) 4))) (cM (cN 4) (cW (cV 2) 6))) (cM (cM (cV 2) (cA (cN 1) (cV 2))) (cR (cD (cM (cA (cN 1) (cH 1)) (cA (cA (cA (cN (-3)) (cV 2)) (cM (cN 8) (cW (cV 2) 4))) (cM (cN 4) (cW (cV 2) 6)))) (cA (cV 2) (cM (cM (cN 2) (cH 1)) (cV 2)))))))) (cD (cM (cM (cM (cN 3) (cA (cN 1) (cH 1))) (cV 2)) (cB (cA (cM (cN (-2)) (cR (cD (cM (cA (cN 1) (cM (cN 2) (cH 1))) (cA (cN (-1)) (cM (cN 2) (cV 2)))) (cA (cN 3) (cM (cN 2) (cV 2)))))) (cM (cV 2) (cR (cD (cA (cN 1) (cM (cN 2) (cH 1))) (cA (cA (cN (-3)) (cM (cN 4) (cV 2))) (cM (cN 4) (cW (cV 2) 4))))))) (cM (cM (cN 2) (cW (cV 2) 4)) (cR (cD (cA (cN 1) (cM (cN 2) (cH 1))) (cA (cA (cN (-3)) (cM (cN 4) (cV 2))) (cM (cN 4) (cW (cV 2) 4)))))))) (cW (cM (cM (cA (cN 1) (cH 1)) (cV 2)) (cA (cN 1) (cV 2))) 3))) (cM (cN 2) (cR (cN 3)))).
Definition QST_e891 := (cO (cD (cR (cM (cM (cA (cA (cN 1) (cM (cN 3) (cH 1))) (cM (cN 2) (cW (cH 1) 4))) (cA (cN 1) (cV 2))) (cA (cN 2) (cV 2)))) (cM (cA (cN 1) (cM (cN 2) (cH 1))) (cA (cN 1) (cV 2))))).
Definition QST_e892 := (cO (cR (cD (cM (cH 1) (cA (cN 1) (cV 2))) (cA (cV 2) (cM (cM (cN 2) (cH 1)) (cV 2)))))).
Definition QST_e893 := (cD (cA (cB (cA (cB (cA (cD (cR (cD (cM (cH 1) (cV 2)) (cM (cA (cN 1) (cM (cN 2) (cH 1))) (cW (cA (cN 1) (cV 2)) 6)))) (cA (cN 1) (cH 1))) (cD (cM (cH 1) (cV 2)) (cM (cM (cA (cN 1) (cH 1)) (cR (cM (cM (cH 1) (cA (cN 1) (cM (cN 2) (cH 1)))) (cV 2)))) (cW (cA (cN 1) (cV 2)) 3)))) (cD (cM (cM (cH 1) (cA (cN 3) (cM (cN 2) (cH 1)))) (cV 2)) (cM (cM (cA (cN 1) (cH 1)) (cA (cN 1) (cV 2))) (cR (cM (cM (cM (cH 1) (cA (cN 1) (cM (cN 2) (cH 1)))) (cV 2)) (cA (cN 1) (cV 2))))))) (cD (cB (cH 1) (cM (cH 1) (cV 2))) (cR (cM (cM (cM (cM (cH 1) (cW (cA (cN 1) (cH 1)) 4)) (cA (cN 1) (cM (cN 2) (cH 1)))) (cV 2)) (cW (cA (cN 1) (cV 2)) 6))))) (cD (cM (cA (cN 3) (cM (cN 2) (cH 1))) (cR (cD (cM (cH 1) (cV 2)) (cA (cA (cA (cN 1) (cM (cN 2) (cH 1))) (cV 2)) (cM (cM (cN 2) (cH 1)) (cV 2)))))) (cM (cA (cN 1) (cH 1)) (cA (cN 1) (cV 2))))) (cD (cM (cA (cN (-1)) (cV 2)) (cA (cM (cN 2) (cR (cD (cM (cH 1) (cV 2)) (cA (cN 1) (cM (cN 2) (cH 1)))))) (cR (cM (cM (cH 1) (cA (cN 1) (cM (cN 2) (cH 1)))) (cV 2))))) (cM (cM (cA (cN 1) (cH 1)) (cV 2)) (cW (cA (cN 1) (cV 2)) 3)))) (cN 2)).
Definition QST_e894 := (cD (cM (cH 1) (cV 2)) (cR (cM (cM (cM (cH 1) (cA (cN 1) (cM (cN 2) (cH 1)))) (cV 2)) (cA (cN 1) (cV 2))))).
Definition QST_e895 := (cO (cD (cA (cA (cA (cR (cD (cW (cV 2) 6) (cA (cN 1) (cV 2)))) (cR (cD (cW (cV 2) 10) (cA (cN 1) (cV 2))))) (cR (cM (cV 2) (cA (cN 1) (cV 2))))) (cM (cH 1) (cA (cR (cM (cV 2) (cA (cN 1) (cV 2)))) (cR (cM (cW (cV 2) 6) (cA (cN 1) (cV 2))))))) (cM (cM (cA (cN 1) (cH 1)) (cV 2)) (cW (cA (cN 1) (cV 2)) 4)))).
Definition QST_e896 := (cO (cD (cM (cM (cR (cQ 2 3)) (cA (cN 1) (cH 1))) (cA (cN 3) (cM (cN 2) (cV 2)))) (cR (cM (cA (cA (cN 1) (cM (cN 3) (cH 1))) (cM (cN 2) (cW (cH 1) 4))) (cA (cA (cN 3) (cM (cN 8) (cV 2))) (cM (cN 4) (cW (cV 2) 4))))))).
Definition QST_e897 := (cD (cB (cO (cR (cD (cM (cM (cA (cN 1) (cH 1)) (cV 2)) (cA (cA (cB (cN (-1)) (cV 2)) (cM (cN 4) (cW (cV 2) 4))) (cM (cN 4) (cW (cV 2) 6)))) (cA (cN 1) (cM (cN 2) (cH 1)))))) (cR (cM (cM (cA (cA (cN 1) (cM (cN 3) (cH 1))) (cM (cN 2) (cW (cH 1) 4))) (cV 2)) (cA (cA (cB (cN (-1)) (cV 2)) (cM (cN 4) (cW (cV 2) 4))) (cM (cN 4) (cW (cV 2) 6)))))) (cM (cM (cM (cN 2) (cR (cN 3))) (cA (cN 1) (cH 1))) (cA (cA (cN 1) (cM (cN 3) (cV 2))) (cM (cN 2) (cW (cV 2) 4))))).
Definition QST_e898 := (cD (cA (cA (cB (cB (cA (cD (cM (cM (cV 2) (cA (cN 1) (cV 2))) (cA (cN 1) (cM (cN 2) (cV 2)))) (cM (cR (cM (cM (cA (cA (cN 1) (cM (cN 3) (cH 1))) (cM (cN 2) (cW (cH 1) 4))) (cV 2)) (cA (cN 1) (cV 2)))) (cA (cN 3) (cM (cN 2) (cV 2))))) (cD (cM (cM (cV 2) (cA (cN 1) (cV 2))) (cA (cN 1) (cM (cN 2) (cV 2)))) (cR (cD (cM (cM (cM (cA (cN 1) (cH 1)) (cV 2)) (cA (cN 1) (cV 2))) (cW (cA (cN 3) (cM (cN 2) (cV 2))) 4)) (cA (cN 1) (cM (cN 2) (cH 1))))))) (cD (cM (cM (cV 2) (cA (cN 1) (cV 2))) (cA (cN 5) (cM (cN 2) (cV 2)))) (cM (cR (cM (cM (cA (cA (cN 1) (cM (cN 3) (cH 1))) (cM (cN 2) (cW (cH 1) 4))) (cV 2)) (cA (cN 1) (cV 2)))) (cA (cN 3) (cM (cN 2) (cV 2)))))) (cD (cM (cM (cV 2) (cA (cN 1) (cV 2))) (cA (cN 5) (cM (cN 2) (cV 2)))) (cR (cD (cM (cM (cM (cA (cN 1) (cH 1)) (cV 2)) (cA (cN 1) (cV 2))) (cW (cA (cN 3) (cM (cN 2) (cV 2))) 4)) (cA (cN 1) (cM (cN 2) (cH 1))))))) (cD (cB (cB (cB (cM (cN 2) (cR (cM (cV 2) (cA (cA (cN 3) (cM (cN 5) (cV 2))) (cM (cN 2) (cW (cV 2) 4)))))) (cM (cM (cN 9) (cV 2)) (cR (cM (cV 2) (cA (cA (cN 3) (cM (cN 5) (cV 2))) (cM (cN 2) (cW (cV 2) 4))))))) (cM (cN 9) (cR (cM (cW (cV 2) 10) (cA (cA (cN 3) (cM (cN 5) (cV 2))) (cM (cN 2) (cW (cV 2) 4))))))) (cM (cN 2) (cR (cM (cW (cV 2) 14) (cA (cA (cN 3) (cM (cN 5) (cV 2))) (cM (cN 2) (cW (cV 2) 4))))))) (cM (cM (cR (cD (cA (cN 1) (cH 1)) (cA (cN 1) (cM (cN 2) (cH 1))))) (cA (cN 2) (cV 2))) (cW (cA (cN 3) (cM (cN 2) (cV 2))) 3)))) (cD (cB (cB (cB (cM (cN 2) (cR (cM (cV 2) (cA (cA (cN 3) (cM (cN 5) (cV 2))) (cM (cN 2) (cW (cV 2) 4)))))) (cM (cM (cN 9) (cV 2)) (cR (cM (cV 2) (cA (cA (cN 3) (cM (cN 5) (cV 2))) (cM (cN 2) (cW (cV 2) 4))))))) (cM (cN 9) (cR (cM (cW (cV 2) 10) (cA (cA (cN 3) (cM (cN 5) (cV 2))) (cM (cN 2) (cW (cV 2) 4))))))) (cM (cN 2) (cR (cM (cW (cV 2) 14) (cA (cA (cN 3) (cM (cN 5) (cV 2))) (cM (cN 2) (cW (cV 2) 4))))))) (cM (cM (cR (cA (cA (cN 1) (cM (cN 3) (cH 1))) (cM (cN 2) (cW (cH 1) 4)))) (cA (cN 2) (cV 2))) (cW (cA (cN 3) (cM (cN 2) (cV 2))) 3)))) (cM (cN 2) (cW (cA (cN 1) (cV 2)) 4))).
Definition QST_e899 := (cD (cB (cB (cA (cB (cB (cO (cM (cA (cN 1) (cM (cN 2) (cV 2))) (cR (cD (cA (cN 1) (cM (cN 2) (cH 1))) (cM (cA (cN 1) (cH 1)) (cW (cA (cA (cN 3) (cM (cN 5) (cV 2))) (cM (cN 2) (cW (cV 2) 4))) 4)))))) (cD (cR (cD (cA (cN 1) (cM (cN 2) (cH 1))) (cA (cN 1) (cH 1)))) (cA (cA (cN 3) (cM (cN 5) (cV 2))) (cM (cN 2) (cW (cV 2) 4))))) (cD (cN 1) (cM (cR (cA (cA (cN 1) (cM (cN 3) (cH 1))) (cM (cN 2) (cW (cH 1) 4)))) (cA (cA (cN 3) (cM (cN 5) (cV 2))) (cM (cN 2) (cW (cV 2) 4)))))) (cD (cB (cN (-1)) (cM (cN 2) (cV 2))) (cM (cR (cA (cA (cN 1) (cM (cN 3) (cH 1))) (cM (cN 2) (cW (cH 1) 4)))) (cA (cA (cN 3) (cM (cN 5) (cV 2))) (cM (cN 2) (cW (cV 2) 4)))))) (cD (cM (cA (cN 1) (cM (cN 2) (cV 2))) (cA (cA (cR (cD (cA (cN 1) (cV 2)) (cA (cN 3) (cM (cN 2) (cV 2))))) (cM (cN 3) (cR (cA (cA (cN 3) (cM (cN 5) (cV 2))) (cM (cN 2) (cW (cV 2) 4)))))) (cM (cV 2) (cR (cA (cA (cN 3) (cM (cN 5) (cV 2))) (cM (cN 2) (cW (cV 2) 4))))))) (cM (cR (cD (cM (cA (cN 1) (cH 1)) (cA (cA (cN 3) (cM (cN 5) (cV 2))) (cM (cN 2) (cW (cV 2) 4)))) (cA (cN 1) (cM (cN 2) (cH 1))))) (cA (cA (cN 10) (cM (cN 9) (cV 2))) (cM (cN 2) (cW (cV 2) 4)))))) (cD (cM (cA (cN 1) (cM (cN 2) (cV 2))) (cA (cA (cR (cD (cA (cN 1) (cV 2)) (cA (cN 3) (cM (cN 2) (cV 2))))) (cM (cN 3) (cR (cA (cA (cN 3) (cM (cN 5) (cV 2))) (cM (cN 2) (cW (cV 2) 4)))))) (cM (cV 2) (cR (cA (cA (cN 3) (cM (cN 5) (cV 2))) (cM (cN 2) (cW (cV 2) 4))))))) (cM (cR (cM (cA (cA (cN 1) (cM (cN 3) (cH 1))) (cM (cN 2) (cW (cH 1) 4))) (cA (cA (cN 3) (cM (cN 5) (cV 2))) (cM (cN 2) (cW (cV 2) 4))))) (cA (cA (cN 10) (cM (cN 9) (cV 2))) (cM (cN 2) (cW (cV 2) 4)))))) (cR (cN 2))).
Definition QST_e900 := (cA (cB (cA (cA (cB (cD (cO (cM (cM (cM (cH 1) (cA (cN 3) (cM (cN 2) (cH 1)))) (cV 2)) (cA (cN 2) (cV 2)))) (cM (cM (cM (cN 2) (cA (cN 1) (cH 1))) (cA (cN 1) (cV 2))) (cR (cD (cM (cM (cM (cM (cH 1) (cA (cN 1) (cM (cN 2) (cH 1)))) (cV 2)) (cA (cN 1) (cV 2))) (cA (cN 3) (cM (cN 2) (cV 2)))) (cA (cN 1) (cM (cN 2) (cV 2))))))) (cD (cM (cH 1) (cV 2)) (cM (cM (cM (cN 2) (cA (cN 1) (cH 1))) (cA (cN 1) (cV 2))) (cR (cM (cM (cM (cM (cH 1) (cA (cN 1) (cM (cN 2) (cH 1)))) (cV 2)) (cA (cN 3) (cM (cN 2) (cV 2)))) (cA (cA (cN 1) (cM (cN 3) (cV 2))) (cM (cN 2) (cW (cV 2) 4)))))))) (cD (cM (cM (cH 1) (cA (cN 3) (cM (cN 2) (cH 1)))) (cV 2)) (cM (cM (cM (cN 2) (cA (cN 1) (cH 1))) (cA (cN 1) (cV 2))) (cR (cM (cM (cM (cM (cH 1) (cA (cN 1) (cM (cN 2) (cH 1)))) (cV 2)) (cA (cN 3) (cM (cN 2) (cV 2)))) (cA (cA (cN 1) (cM (cN 3) (cV 2))) (cM (cN 2) (cW (cV 2) 4)))))))) (cD (cH 1) (cR (cD (cM (cM (cM (cM (cH 1) (cW (cA (cN 1) (cH 1)) 4)) (cA (cN 1) (cM (cN 2) (cH 1)))) (cW (cA (cN 1) (cV 2)) 6)) (cA (cA (cN 3) (cM (cN 8) (cV 2))) (cM (cN 4) (cW (cV 2) 4)))) (cV 2))))) (cD (cM (cH 1) (cA (cM (cN 2) (cR (cD (cV 2) (cA (cN 1) (cM (cN 2) (cH 1)))))) (cR (cA (cV 2) (cM (cM (cN 2) (cH 1)) (cV 2)))))) (cM (cM (cA (cN 1) (cH 1)) (cA (cN 1) (cV 2))) (cR (cM (cM (cH 1) (cA (cN 3) (cM (cN 2) (cV 2)))) (cA (cA (cN 1) (cM (cN 3) (cV 2))) (cM (cN 2) (cW (cV 2) 4)))))))) (cD (cM (cM (cH 1) (cV 2)) (cA (cR (cD (cA (cN 1) (cM (cN 2) (cV 2))) (cA (cN 1) (cV 2)))) (cR (cA (cA (cN 1) (cM (cN 3) (cV 2))) (cM (cN 2) (cW (cV 2) 4)))))) (cM (cM (cM (cN 2) (cA (cN 1) (cH 1))) (cA (cN 1) (cV 2))) (cR (cM (cM (cM (cH 1) (cA (cN 1) (cM (cN 2) (cH 1)))) (cV 2)) (cA (cN 3) (cM (cN 2) (cV 2)))))))).
Definition QST_e901 := (cA (cA (cB (cB (cD (cM (cM (cH 1) (cA (cN 2) (cV 2))) (cA (cN 1) (cM (cN 2) (cV 2)))) (cM (cM (cM (cA (cN 1) (cH 1)) (cA (cN 1) (cV 2))) (cA (cN 3) (cM (cN 2) (cV 2)))) (cR (cM (cM (cH 1) (cA (cN 1) (cM (cN 2) (cH 1)))) (cA (cA (cN 2) (cM (cN 3) (cV 2))) (cW (cV 2) 4)))))) (cD (cM (cA (cA (cA (cN 2) (cM (cN 3) (cV 2))) (cM (cN 5) (cW (cV 2) 4))) (cM (cN 2) (cW (cV 2) 6))) (cA (cM (cN 2) (cR (cD (cH 1) (cM (cA (cN 1) (cM (cN 2) (cH 1))) (cA (cA (cN 2) (cM (cN 3) (cV 2))) (cW (cV 2) 4)))))) (cR (cD (cM (cH 1) (cA (cN 1) (cM (cN 2) (cH 1)))) (cA (cA (cN 2) (cM (cN 3) (cV 2))) (cW (cV 2) 4)))))) (cM (cM (cN 2) (cA (cN 1) (cH 1))) (cA (cA (cN 3) (cM (cN 5) (cV 2))) (cM (cN 2) (cW (cV 2) 4)))))) (cD (cM (cA (cN 1) (cM (cN 2) (cV 2))) (cA (cA (cA (cM (cN 2) (cR (cD (cM (cH 1) (cA (cN 1) (cV 2))) (cM (cA (cN 1) (cM (cN 2) (cH 1))) (cA (cN 2) (cV 2)))))) (cR (cD (cM (cM (cH 1) (cA (cN 1) (cM (cN 2) (cH 1)))) (cA (cN 1) (cV 2))) (cA (cN 2) (cV 2))))) (cM (cN 2) (cR (cD (cH 1) (cM (cA (cN 1) (cM (cN 2) (cH 1))) (cA (cA (cN 2) (cM (cN 3) (cV 2))) (cW (cV 2) 4))))))) (cR (cD (cM (cH 1) (cA (cN 1) (cM (cN 2) (cH 1)))) (cA (cA (cN 2) (cM (cN 3) (cV 2))) (cW (cV 2) 4)))))) (cM (cM (cN 2) (cA (cN 1) (cH 1))) (cA (cA (cN 3) (cM (cN 5) (cV 2))) (cM (cN 2) (cW (cV 2) 4)))))) (cD (cB (cB (cB (cO (cM (cM (cH 1) (cR (cD (cM (cA (cN 1) (cM (cN 2) (cH 1))) (cA (cN 1) (cV 2))) (cA (cN 2) (cV 2))))) (cA (cN 1) (cM (cN 2) (cV 2))))) (cM (cM (cM (cN 2) (cH 1)) (cA (cN 1) (cM (cN 2) (cV 2)))) (cR (cD (cA (cN 1) (cV 2)) (cA (cA (cA (cN 2) (cM (cN 4) (cH 1))) (cV 2)) (cM (cM (cN 2) (cH 1)) (cV 2))))))) (cM (cM (cH 1) (cA (cN 1) (cM (cN 2) (cV 2)))) (cR (cD (cA (cN 1) (cM (cN 2) (cH 1))) (cA (cA (cN 2) (cM (cN 3) (cV 2))) (cW (cV 2) 4)))))) (cD (cM (cN 2) (cA (cH 1) (cM (cM (cN 2) (cH 1)) (cV 2)))) (cR (cM (cA (cN 1) (cM (cN 2) (cH 1))) (cA (cA (cN 2) (cM (cN 3) (cV 2))) (cW (cV 2) 4)))))) (cM (cM (cM (cN 2) (cR (cH 1))) (cA (cN 1) (cH 1))) (cA (cA (cN 3) (cM (cN 5) (cV 2))) (cM (cN 2) (cW (cV 2) 4)))))) (cD (cM (cH 1) (cA (cD (cM (cW (cA (cN 1) (cV 2)) 3) (cA (cN 1) (cM (cN 2) (cV 2)))) (cR (cM (cM (cM (cH 1) (cA (cN 1) (cH 1))) (cA (cN 3) (cM (cN 2) (cV 2)))) (cA (cA (cN 2) (cM (cN 3) (cV 2))) (cW (cV 2) 4))))) (cD (cB (cN 1) (cV 2)) (cR (cM (cM (cM (cH 1) (cA (cN 1) (cH 1))) (cW (cA (cN 1) (cV 2)) 4)) (cA (cA (cN 6) (cM (cN 7) (cV 2))) (cM (cN 2) (cW (cV 2) 4)))))))) (cM (cN 2) (cR (cM (cM (cA (cN 1) (cH 1)) (cA (cN 1) (cM (cN 2) (cH 1)))) (cA (cA (cN 3) (cM (cN 5) (cV 2))) (cM (cN 2) (cW (cV 2) 4)))))))).
Definition QST_e902 := (cB (cA (cA (cB (cB (cD (cO (cM (cV 2) (cA (cN 2) (cV 2)))) (cM (cM (cM (cN 2) (cA (cN 1) (cH 1))) (cW (cA (cN 1) (cV 2)) 4)) (cR (cD (cM (cV 2) (cA (cN 3) (cM (cN 2) (cV 2)))) (cA (cA (cN 1) (cM (cN 3) (cV 2))) (cM (cN 2) (cW (cV 2) 4))))))) (cD (cV 2) (cM (cM (cA (cN 1) (cH 1)) (cA (cN 1) (cV 2))) (cR (cM (cM (cV 2) (cA (cN 3) (cM (cN 2) (cV 2)))) (cA (cA (cN 1) (cM (cN 3) (cV 2))) (cM (cN 2) (cW (cV 2) 4)))))))) (cD (cM (cA (cN 1) (cM (cN 2) (cH 1))) (cV 2)) (cM (cM (cA (cN 1) (cH 1)) (cA (cN 1) (cV 2))) (cR (cM (cM (cV 2) (cA (cN 3) (cM (cN 2) (cV 2)))) (cA (cA (cN 1) (cM (cN 3) (cV 2))) (cM (cN 2) (cW (cV 2) 4)))))))) (cD (cV 2) (cM (cN 2) (cR (cM (cM (cM (cW (cA (cN 1) (cH 1)) 4) (cV 2)) (cW (cA (cN 1) (cV 2)) 6)) (cA (cA (cN 3) (cM (cN 8) (cV 2))) (cM (cN 4) (cW (cV 2) 4)))))))) (cD (cA (cV 2) (cM (cM (cN 2) (cH 1)) (cV 2))) (cM (cN 2) (cR (cM (cM (cM (cW (cA (cN 1) (cH 1)) 4) (cV 2)) (cW (cA (cN 1) (cV 2)) 6)) (cA (cA (cN 3) (cM (cN 8) (cV 2))) (cM (cN 4) (cW (cV 2) 4)))))))) (cD (cM (cA (cA (cN 3) (cM (cN 8) (cH 1))) (cM (cN 4) (cW (cH 1) 4))) (cA (cR (cD (cM (cV 2) (cA (cN 1) (cM (cN 2) (cV 2)))) (cM (cA (cN 3) (cM (cN 2) (cH 1))) (cA (cN 1) (cV 2))))) (cR (cD (cM (cV 2) (cA (cA (cN 1) (cM (cN 3) (cV 2))) (cM (cN 2) (cW (cV 2) 4)))) (cA (cN 3) (cM (cN 2) (cH 1))))))) (cM (cM (cM (cN 2) (cA (cN 1) (cH 1))) (cA (cN 1) (cV 2))) (cR (cM (cA (cN 3) (cM (cN 2) (cH 1))) (cA (cN 3) (cM (cN 2) (cV 2)))))))).
Definition QST_e903 := (cR (cD (cB (cN 3) (cM (cN 2) (cV 2))) (cB (cN 2) (cM (cN 4) (cV 2))))).
Definition QST_e904 := (cO (cR (cD (cA (cN (-2)) (cV 2)) (cA (cN (-1)) (cV 2))))).
Definition QST_e905 := (cO (cM (cA (cN 1) (cV 2)) (cR (cD (cA (cN (-3)) (cM (cN 2) (cV 2))) (cA (cB (cB (cN 2) (cM (cN 4) (cV 2))) (cM (cN 2) (cW (cV 2) 4))) (cM (cN 4) (cW (cV 2) 6))))))).
Definition QST_e906 := (cD (cB (cN 2) (cV 2)) (cR (cA (cB (cN 2) (cM (cN 3) (cV 2))) (cW (cV 2) 4)))).
Definition QST_e907 := (cD (cB (cN (-1)) (cV 2)) (cM (cN 2) (cR (cM (cV 2) (cA (cN 1) (cV 2)))))).
Definition QST_e908 := (cD (cM (cA (cN (-1)) (cV 2)) (cR (cD (cB (cN 1) (cM (cN 2) (cV 2))) (cB (cA (cV 2) (cW (cV 2) 4)) (cM (cN 2) (cW (cV 2) 6)))))) (cN 2)).
Definition QST_e909 := (cA (cB (cB (cD (cA (cN 2) (cV 2)) (cM (cM (cM (cN 4) (cA (cN 1) (cH 1))) (cA (cN 1) (cV 2))) (cR (cD (cM (cV 2) (cA (cN 1) (cM (cN 2) (cV 2)))) (cA (cB (cN 1) (cM (cN 3) (cV 2))) (cM (cN 2) (cW (cV 2) 4))))))) (cD (cM (cA (cN (-1)) (cV 2)) (cR (cD (cB (cN 1) (cM (cN 2) (cV 2))) (cB (cA (cV 2) (cW (cV 2) 4)) (cM (cN 2) (cW (cV 2) 6)))))) (cM (cM (cN 4) (cA (cN 1) (cH 1))) (cA (cN 1) (cV 2))))) (cD (cM (cM (cA (cN 1) (cM (cN 2) (cH 1))) (cA (cN (-1)) (cV 2))) (cR (cD (cB (cN 1) (cM (cN 2) (cV 2))) (cB (cA (cV 2) (cW (cV 2) 4)) (cM (cN 2) (cW (cV 2) 6)))))) (cM (cM (cN 4) (cA (cN 1) (cH 1))) (cA (cN 1) (cV 2))))) (cD (cA (cA (cO (cR (cD (cM (cM (cA (cN 1) (cM (cN 2) (cH 1))) (cV 2)) (cA (cN (-1)) (cM (cN 2) (cV 2)))) (cM (cA (cN 1) (cM (cN 2) (cV 2))) (cA (cN (-1)) (cW (cV 2) 4)))))) (cM (cN 2) (cR (cD (cM (cA (cN 1) (cM (cN 2) (cH 1))) (cA (cB (cN 1) (cM (cN 3) (cV 2))) (cM (cN 2) (cW (cV 2) 4)))) (cM (cA (cN 1) (cV 2)) (cA (cV 2) (cM (cN 2) (cW (cV 2) 4)))))))) (cR (cD (cM (cM (cA (cN 1) (cM (cN 2) (cH 1))) (cW (cV 2) 6)) (cA (cN (-1)) (cM (cN 2) (cV 2)))) (cA (cA (cB (cN (-1)) (cM (cN 2) (cV 2))) (cW (cV 2) 4)) (cM (cN 2) (cW (cV 2) 6)))))) (cM (cN 4) (cR (cD (cM (cW (cA (cN 1) (cH 1)) 4) (cA (cN 1) (cV 2))) (cA (cN 1) (cM (cN 2) (cH 1)))))))).
Definition QST_e910 := (cD (cA (cN 1) (cV 2)) (cM (cR (cN 2)) (cR (cA (cN (-1)) (cW (cV 2) 4))))).
Definition QST_e911 := (cD (cB (cN 3) (cV 2)) (cM (cN 2) (cR (cM (cA (cN (-1)) (cV 2)) (cV 2))))).
Definition QST_e912 := (cD (cM (cR (cN 3)) (cA (cA (cD (cM (cN 2) (cA (cN (-1)) (cV 2))) (cM (cA (cN 1) (cV 2)) (cR (cM (cV 2) (cA (cA (cB (cN (-3)) (cM (cN 5) (cV 2))) (cM (cN 4) (cW (cV 2) 4))) (cM (cN 4) (cW (cV 2) 6))))))) (cD (cB (cB (cN 7) (cM (cN 5) (cV 2))) (cM (cN 2) (cW (cV 2) 4))) (cM (cA (cN 1) (cV 2)) (cR (cM (cV 2) (cA (cA (cB (cN (-3)) (cM (cN 5) (cV 2))) (cM (cN 4) (cW (cV 2) 4))) (cM (cN 4) (cW (cV 2) 6)))))))) (cD (cM (cA (cN (-1)) (cM (cN 2) (cV 2))) (cB (cB (cR (cD (cM (cM (cH 1) (cV 2)) (cA (cN (-1)) (cM (cN 2) (cV 2)))) (cA (cA (cB (cN (-1)) (cM (cN 2) (cV 2))) (cW (cV 2) 4)) (cM (cN 2) (cW (cV 2) 6))))) (cR (cD (cM (cM (cH 1) (cW (cV 2) 6)) (cA (cN (-1)) (cM (cN 2) (cV 2)))) (cA (cA (cB (cN (-1)) (cM (cN 2) (cV 2))) (cW (cV 2) 4)) (cM (cN 2) (cW (cV 2) 6)))))) (cM (cN 2) (cR (cD (cA (cB (cH 1) (cM (cM (cN 3) (cH 1)) (cV 2))) (cM (cM (cN 2) (cH 1)) (cW (cV 2) 4))) (cA (cA (cV 2) (cM (cN 3) (cW (cV 2) 4))) (cM (cN 2) (cW (cV 2) 6)))))))) (cR (cM (cH 1) (cA (cA (cA (cN (-3)) (cV 2)) (cM (cN 8) (cW (cV 2) 4))) (cM (cN 4) (cW (cV 2) 6)))))))) (cN 2)).
Definition QST_e913 := (cD (cM (cR (cN 3)) (cB (cB (cA (cA (cA (cO (cD (cM (cA (cN 2) (cV 2)) (cA (cN (-1)) (cM (cN 2) (cV 2)))) (cM (cM (cA (cN 1) (cH 1)) (cA (cN 1) (cV 2))) (cR (cD (cM (cV 2) (cA (cA (cN 3) (cM (cN 8) (cV 2))) (cM (cN 4) (cW (cV 2) 4)))) (cA (cN (-1)) (cV 2))))))) (cD (cM (cN 2) (cA (cN (-1)) (cV 2))) (cM (cM (cA (cN 1) (cH 1)) (cA (cN 1) (cV 2))) (cR (cM (cV 2) (cA (cA (cB (cN (-3)) (cM (cN 5) (cV 2))) (cM (cN 4) (cW (cV 2) 4))) (cM (cN 4) (cW (cV 2) 6)))))))) (cD (cM (cM (cN 2) (cA (cN 1) (cM (cN 2) (cH 1)))) (cA (cN (-1)) (cV 2))) (cM (cM (cA (cN 1) (cH 1)) (cA (cN 1) (cV 2))) (cR (cM (cV 2) (cA (cA (cB (cN (-3)) (cM (cN 5) (cV 2))) (cM (cN 4) (cW (cV 2) 4))) (cM (cN 4) (cW (cV 2) 6)))))))) (cD (cB (cB (cN 7) (cM (cN 5) (cV 2))) (cM (cN 2) (cW (cV 2) 4))) (cM (cM (cA (cN 1) (cH 1)) (cA (cN 1) (cV 2))) (cR (cM (cV 2) (cA (cA (cB (cN (-3)) (cM (cN 5) (cV 2))) (cM (cN 4) (cW (cV 2) 4))) (cM (cN 4) (cW (cV 2) 6)))))))) (cD (cM (cA (cN 1) (cM (cN 2) (cH 1))) (cA (cA (cN (-7)) (cM (cN 5) (cV 2))) (cM (cN 2) (cW (cV 2) 4)))) (cM (cM (cA (cN 1) (cH 1)) (cA (cN 1) (cV 2))) (cR (cM (cV 2) (cA (cA (cB (cN (-3)) (cM (cN 5) (cV 2))) (cM (cN 4) (cW (cV 2) 4))) (cM (cN 4) (cW (cV 2) 6)))))))) (cM (cM (cA (cN (-1)) (cM (cN 2) (cV 2))) (cR (cD (cA (cN 1) (cM (cN 2) (cH 1))) (cM (cW (cA (cN 1) (cH 1)) 4) (cA (cA (cA (cN (-3)) (cV 2)) (cM (cN 8) (cW (cV 2) 4))) (cM (cN 4) (cW (cV 2) 6))))))) (cA (cB (cM (cN 2) (cR (cD (cM (cA (cN 1) (cM (cN 2) (cH 1))) (cA (cB (cN 1) (cM (cN 3) (cV 2))) (cM (cN 2) (cW (cV 2) 4)))) (cM (cV 2) (cA (cA (cN 1) (cM (cN 3) (cV 2))) (cM (cN 2) (cW (cV 2) 4))))))) (cR (cD (cM (cM (cA (cN 1) (cM (cN 2) (cH 1))) (cV 2)) (cA (cN (-1)) (cM (cN 2) (cV 2)))) (cA (cA (cB (cN (-1)) (cM (cN 2) (cV 2))) (cW (cV 2) 4)) (cM (cN 2) (cW (cV 2) 6)))))) (cR (cD (cM (cM (cA (cN 1) (cM (cN 2) (cH 1))) (cW (cV 2) 6)) (cA (cN (-1)) (cM (cN 2) (cV 2)))) (cA (cA (cB (cN (-1)) (cM (cN 2) (cV 2))) (cW (cV 2) 4)) (cM (cN 2) (cW (cV 2) 6))))))))) (cN 4)).
Definition QST_e914 := (cD (cA (cA (cN 3) (cM (cN 5) (cV 2))) (cM (cN 2) (cW (cV 2) 4))) (cM (cM (cN 2) (cR (cN 3))) (cR (cM (cV 2) (cA (cA (cA (cN (-3)) (cV 2)) (cM (cN 8) (cW (cV 2) 4))) (cM (cN 4) (cW (cV 2) 6))))))).
Definition QST_e915 := (cD (cA (cB (cB (cM (cM (cN (-4)) (cV 2)) (cR (cM (cM (cH 1) (cV 2)) (cA (cN 1) (cV 2))))) (cM (cM (cN 2) (cW (cV 2) 4)) (cR (cM (cM (cH 1) (cV 2)) (cA (cN 1) (cV 2)))))) (cM (cM (cN 4) (cW (cV 2) 6)) (cR (cM (cM (cH 1) (cV 2)) (cA (cN 1) (cV 2)))))) (cM (cN 3) (cB (cA (cR (cM (cM (cH 1) (cV 2)) (cA (cN 1) (cV 2)))) (cR (cM (cM (cH 1) (cW (cV 2) 6)) (cA (cN 1) (cV 2))))) (cM (cN 2) (cR (cM (cM (cH 1) (cW (cV 2) 10)) (cA (cN 1) (cV 2)))))))) (cM (cM (cM (cM (cN 2) (cR (cN 3))) (cV 2)) (cW (cA (cN 1) (cV 2)) 4)) (cR (cM (cH 1) (cA (cA (cN (-3)) (cM (cN 4) (cV 2))) (cM (cN 4) (cW (cV 2) 4))))))).
Definition QST_e916 := (cD (cB (cB (cB (cM (cN 3) (cR (cM (cV 2) (cA (cA (cN (-3)) (cM (cN 4) (cV 2))) (cM (cN 4) (cW (cV 2) 4)))))) (cR (cM (cW (cV 2) 6) (cA (cA (cN (-3)) (cM (cN 4) (cV 2))) (cM (cN 4) (cW (cV 2) 4)))))) (cM (cN 8) (cR (cM (cW (cV 2) 10) (cA (cA (cN (-3)) (cM (cN 4) (cV 2))) (cM (cN 4) (cW (cV 2) 4))))))) (cM (cN 4) (cR (cM (cW (cV 2) 14) (cA (cA (cN (-3)) (cM (cN 4) (cV 2))) (cM (cN 4) (cW (cV 2) 4))))))) (cM (cM (cM (cM (cN 2) (cR (cN 3))) (cV 2)) (cR (cA (cN 1) (cV 2)))) (cA (cA (cA (cN (-3)) (cV 2)) (cM (cN 8) (cW (cV 2) 4))) (cM (cN 4) (cW (cV 2) 6))))).
Definition QST_e917 := (cD (cR (cD (cB (cB (cN 9) (cM (cN 3) (cV 2))) (cM (cN 6) (cW (cV 2) 4))) (cB (cV 2) (cM (cN 2) (cW (cV 2) 4))))) (cN 2)).
Definition QST_e918 := (cD (cM (cN 3) (cA (cA (cO (cD (cM (cV 2) (cA (cA (cN (-7)) (cV 2)) (cM (cN 2) (cW (cV 2) 4)))) (cM (cW (cM (cV 2) (cA (cN 1) (cV 2))) 3) (cA (cN 3) (cM (cN 2) (cV 2)))))) (cD (cM (cA (cN 2) (cV 2)) (cA (cN (-1)) (cM (cN 2) (cV 2)))) (cM (cR (cM (cV 2) (cA (cN 1) (cV 2)))) (cA (cA (cN 3) (cM (cN 5) (cV 2))) (cM (cN 2) (cW (cV 2) 4)))))) (cD (cM (cA (cN (-1)) (cM (cN 2) (cV 2))) (cA (cB (cM (cN 2) (cR (cD (cM (cH 1) (cA (cN (-1)) (cM (cN 2) (cV 2)))) (cA (cN 3) (cM (cN 2) (cV 2)))))) (cM (cV 2) (cR (cD (cH 1) (cA (cA (cN (-3)) (cM (cN 4) (cV 2))) (cM (cN 4) (cW (cV 2) 4))))))) (cM (cM (cN 2) (cW (cV 2) 4)) (cR (cD (cH 1) (cA (cA (cN (-3)) (cM (cN 4) (cV 2))) (cM (cN 4) (cW (cV 2) 4)))))))) (cM (cA (cN 1) (cV 2)) (cR (cM (cM (cH 1) (cV 2)) (cA (cA (cA (cN (-3)) (cV 2)) (cM (cN 8) (cW (cV 2) 4))) (cM (cN 4) (cW (cV 2) 6))))))))) (cN 2)).
Definition QST_e919 := (cD (cO (cM (cR (cN 3)) (cA (cA (cN (-2)) (cM (cN 3) (cV 2))) (cM (cN 2) (cW (cV 2) 4))))) (cM (cN 2) (cR (cA (cA (cA (cB (cN (-6)) (cV 2)) (cM (cN 17) (cW (cV 2) 4))) (cM (cN 16) (cW (cV 2) 6))) (cM (cN 4) (cW (cV 2) 8)))))).
Definition QST_e920 := (cD (cM (cN 3) (cA (cA (cA (cB (cB (cD (cM (cM (cV 2) (cA (cN 2) (cV 2))) (cA (cN (-1)) (cM (cN 2) (cV 2)))) (cM (cW (cM (cV 2) (cA (cN 1) (cV 2))) 3) (cA (cN 3) (cM (cN 2) (cV 2))))) (cD (cM (cV 2) (cA (cA (cN (-7)) (cV 2)) (cM (cN 2) (cW (cV 2) 4)))) (cM (cW (cM (cV 2) (cA (cN 1) (cV 2))) 3) (cA (cN 3) (cM (cN 2) (cV 2)))))) (cD (cM (cM (cA (cN 1) (cM (cN 2) (cH 1))) (cV 2)) (cA (cA (cN (-7)) (cV 2)) (cM (cN 2) (cW (cV 2) 4)))) (cM (cW (cM (cV 2) (cA (cN 1) (cV 2))) 3) (cA (cN 3) (cM (cN 2) (cV 2)))))) (cD (cM (cA (cN 2) (cV 2)) (cA (cN (-1)) (cM (cN 2) (cV 2)))) (cM (cR (cM (cV 2) (cA (cN 1) (cV 2)))) (cA (cA (cN 3) (cM (cN 5) (cV 2))) (cM (cN 2) (cW (cV 2) 4)))))) (cD (cM (cM (cA (cN 1) (cM (cN 2) (cH 1))) (cA (cN 2) (cV 2))) (cA (cN (-1)) (cM (cN 2) (cV 2)))) (cM (cR (cM (cV 2) (cA (cN 1) (cV 2)))) (cA (cA (cN 3) (cM (cN 5) (cV 2))) (cM (cN 2) (cW (cV 2) 4)))))) (cD (cM (cA (cN (-1)) (cM (cN 2) (cV 2))) (cA (cB (cM (cN 2) (cR (cD (cM (cA (cN 1) (cM (cN 2) (cH 1))) (cA (cN (-1)) (cM (cN 2) (cV 2)))) (cA (cN 3) (cM (cN 2) (cV 2)))))) (cM (cV 2) (cR (cD (cA (cN 1) (cM (cN 2) (cH 1))) (cA (cA (cN (-3)) (cM (cN 4) (cV 2))) (cM (cN 4) (cW (cV 2) 4))))))) (cM (cM (cN 2) (cW (cV 2) 4)) (cR (cD (cA (cN 1) (cM (cN 2) (cH 1))) (cA (cA (cN (-3)) (cM (cN 4) (cV 2))) (cM (cN 4) (cW (cV 2) 4)))))))) (cM (cA (cN 1) (cV 2)) (cR (cD (cM (cV 2) (cA (cA (cA (cN (-3)) (cV 2)) (cM (cN 8) (cW (cV 2) 4))) (cM (cN 4) (cW (cV 2) 6)))) (cA (cN 1) (cM (cN 2) (cH 1))))))))) (cM (cN 4) (cA (cN 1) (cH 1)))).
Definition QST_e921 := (cO (cD (cM (cR (cN 3)) (cR (cA (cA (cA (cB (cN (-6)) (cV 2)) (cM (cN 17) (cW (cV 2) 4))) (cM (cN 16) (cW (cV 2) 6))) (cM (cN 4) (cW (cV 2) 8))))) (cA (cA (cN 6) (cM (cN 10) (cV 2))) (cM (cN 4) (cW (cV 2) 4))))).
Definition QST_e922 := (cA (cA (cD (cM (cW (cV 2) 4) (cR (cD (cA (cN 1) (cM (cN 2) (cV 2))) (cM (cW (cA (cN 1) (cV 2)) 6) (cA (cA (cN 6) (cM (cN 7) (cV 2))) (cM (cN 2) (cW (cV 2) 4))))))) (cN 2)) (cD (cN 3) (cR (cM (cW (cA (cN 1) (cV 2)) 6) (cA (cA (cA (cN 6) (cM (cN 19) (cV 2))) (cM (cN 16) (cW (cV 2) 4))) (cM (cN 4) (cW (cV 2) 6))))))) (cM (cV 2) (cA (cM (cN 2) (cR (cD (cA (cN 1) (cM (cN 2) (cV 2))) (cM (cW (cA (cN 1) (cV 2)) 6) (cA (cA (cN 6) (cM (cN 7) (cV 2))) (cM (cN 2) (cW (cV 2) 4))))))) (cD (cN 9) (cM (cM (cN 2) (cW (cA (cN 1) (cV 2)) 3)) (cR (cA (cA (cA (cN 6) (cM (cN 19) (cV 2))) (cM (cN 16) (cW (cV 2) 4))) (cM (cN 4) (cW (cV 2) 6))))))))).
Definition QST_e923 := (cB (cB (cD (cM (cW (cV 2) 4) (cA (cN 1) (cM (cN 2) (cV 2)))) (cM (cM (cN 2) (cW (cM (cV 2) (cA (cN 1) (cV 2))) 3)) (cA (cN 3) (cM (cN 2) (cV 2))))) (cD (cM (cR (cV 2)) (cA (cN 5) (cM (cN 2) (cV 2)))) (cM (cM (cN 2) (cW (cA (cN 1) (cV 2)) 3)) (cA (cN 3) (cM (cN 2) (cV 2)))))) (cD (cM (cV 2) (cA (cA (cD (cM (cA (cN 1) (cV 2)) (cA (cN 1) (cM (cN 2) (cV 2)))) (cM (cA (cN 2) (cV 2)) (cR (cD (cM (cV 2) (cA (cN 3) (cM (cN 2) (cV 2)))) (cH 1))))) (cD (cA (cN 2) (cM (cN 4) (cV 2))) (cR (cD (cM (cA (cN 3) (cM (cN 2) (cV 2))) (cW (cA (cA (cN 2) (cM (cN 3) (cV 2))) (cW (cV 2) 4)) 4)) (cM (cH 1) (cV 2)))))) (cD (cM (cN 3) (cA (cN (-1)) (cV 2))) (cR (cD (cM (cM (cV 2) (cA (cN 3) (cM (cN 2) (cV 2)))) (cW (cA (cA (cN 2) (cM (cN 3) (cV 2))) (cW (cV 2) 4)) 4)) (cH 1)))))) (cM (cN 2) (cR (cM (cH 1) (cA (cA (cN 3) (cM (cN 5) (cV 2))) (cM (cN 2) (cW (cV 2) 4)))))))).
Definition QST_e924 := (cD (cM (cA (cN 2) (cV 2)) (cA (cN 6) (cM (cN 4) (cV 2)))) (cM (cN 4) (cR (cM (cA (cN 1) (cV 2)) (cA (cA (cA (cN 6) (cM (cN 19) (cV 2))) (cM (cN 16) (cW (cV 2) 4))) (cM (cN 4) (cW (cV 2) 6))))))).
Definition QST_e925 := (cD (cO (cR (cD (cV 2) (cA (cN 1) (cV 2))))) (cN 2)).
Definition QST_e926 := (cD (cM (cR (cN 3)) (cA (cD (cM (cM (cN 3) (cA (cN 2) (cV 2))) (cA (cN (-1)) (cM (cN 2) (cV 2)))) (cM (cM (cA (cN 1) (cV 2)) (cA (cN 3) (cM (cN 2) (cV 2)))) (cR (cA (cA (cA (cB (cN (-2)) (cM (cN 3) (cV 2))) (cM (cN 7) (cW (cV 2) 4))) (cM (cN 12) (cW (cV 2) 6))) (cM (cN 4) (cW (cV 2) 8)))))) (cD (cM (cV 2) (cA (cA (cA (cB (cO (cR (cD (cM (cM (cH 1) (cV 2)) (cA (cN 1) (cM (cN 2) (cV 2)))) (cA (cA (cN 6) (cM (cN 7) (cV 2))) (cM (cN 2) (cW (cV 2) 4)))))) (cD (cM (cN 3) (cR (cD (cM (cM (cH 1) (cV 2)) (cA (cN 1) (cM (cN 2) (cV 2)))) (cA (cA (cN 6) (cM (cN 7) (cV 2))) (cM (cN 2) (cW (cV 2) 4)))))) (cA (cN 1) (cV 2)))) (cM (cN 2) (cR (cD (cM (cM (cH 1) (cW (cV 2) 6)) (cA (cN 1) (cM (cN 2) (cV 2)))) (cA (cA (cN 6) (cM (cN 7) (cV 2))) (cM (cN 2) (cW (cV 2) 4))))))) (cD (cM (cN 6) (cR (cD (cM (cM (cH 1) (cW (cV 2) 6)) (cA (cN 1) (cM (cN 2) (cV 2)))) (cA (cA (cN 6) (cM (cN 7) (cV 2))) (cM (cN 2) (cW (cV 2) 4)))))) (cA (cN 1) (cV 2)))) (cM (cN 6) (cR (cD (cM (cM (cH 1) (cW (cB (cN 1) (cM (cN 2) (cV 2))) 4)) (cV 2)) (cM (cW (cA (cN 1) (cV 2)) 4) (cA (cA (cA (cN 6) (cM (cN 19) (cV 2))) (cM (cN 16) (cW (cV 2) 4))) (cM (cN 4) (cW (cV 2) 6))))))))) (cR (cM (cM (cH 1) (cV 2)) (cA (cA (cA (cN (-3)) (cV 2)) (cM (cN 8) (cW (cV 2) 4))) (cM (cN 4) (cW (cV 2) 6)))))))) (cN 2)).
Definition QST_e927 := (cD (cM (cA (cN 4) (cV 2)) (cR (cA (cA (cN 2) (cM (cN 3) (cV 2))) (cW (cV 2) 4)))) (cM (cM (cN 2) (cA (cN 1) (cV 2))) (cA (cN 2) (cV 2)))).
Definition QST_e928 := (cO (cD (cV 2) (cM (cR (cN 2)) (cR (cM (cV 2) (cA (cN 2) (cV 2))))))).
Definition QST_e929 := (cD (cM (cR (cN 3)) (cA (cA (cA (cA (cD (cM (cM (cM (cN (-3)) (cA (cN 1) (cM (cN 2) (cH 1)))) (cA (cN 2) (cV 2))) (cA (cN (-1)) (cM (cN 2) (cV 2)))) (cM (cM (cM (cA (cN 1) (cH 1)) (cW (cA (cN 1) (cV 2)) 3)) (cA (cN 3) (cM (cN 2) (cV 2)))) (cR (cA (cA (cB (cN (-2)) (cV 2)) (cM (cN 8) (cW (cV 2) 4))) (cM (cN 4) (cW (cV 2) 6)))))) (cD (cM (cM (cN 3) (cA (cN 2) (cV 2))) (cA (cN (-1)) (cM (cN 2) (cV 2)))) (cM (cM (cM (cA (cN 1) (cH 1)) (cA (cN 1) (cV 2))) (cA (cN 3) (cM (cN 2) (cV 2)))) (cR (cA (cA (cA (cB (cN (-2)) (cM (cN 3) (cV 2))) (cM (cN 7) (cW (cV 2) 4))) (cM (cN 12) (cW (cV 2) 6))) (cM (cN 4) (cW (cV 2) 8))))))) (cD (cM (cM (cM (cN 6) (cA (cN 1) (cM (cN 2) (cH 1)))) (cA (cN 2) (cV 2))) (cA (cN (-1)) (cM (cN 2) (cV 2)))) (cM (cM (cM (cA (cN 1) (cH 1)) (cA (cN 1) (cV 2))) (cA (cN 3) (cM (cN 2) (cV 2)))) (cR (cA (cA (cA (cB (cN (-2)) (cM (cN 3) (cV 2))) (cM (cN 7) (cW (cV 2) 4))) (cM (cN 12) (cW (cV 2) 6))) (cM (cN 4) (cW (cV 2) 8))))))) (cD (cM (cV 2) (cA (cA (cA (cN (-10)) (cM (cN 11) (cV 2))) (cM (cN 16) (cW (cV 2) 4))) (cM (cN 4) (cW (cV 2) 6)))) (cM (cM (cM (cA (cN 1) (cH 1)) (cA (cN 1) (cV 2))) (cA (cN 3) (cM (cN 2) (cV 2)))) (cR (cA (cA (cA (cB (cN (-2)) (cM (cN 3) (cV 2))) (cM (cN 7) (cW (cV 2) 4))) (cM (cN 12) (cW (cV 2) 6))) (cM (cN 4) (cW (cV 2) 8))))))) (cM (cM (cV 2) (cR (cD (cA (cN 1) (cM (cN 2) (cH 1))) (cM (cM (cW (cA (cN 1) (cH 1)) 4) (cV 2)) (cA (cA (cA (cN (-3)) (cV 2)) (cM (cN 8) (cW (cV 2) 4))) (cM (cN 4) (cW (cV 2) 6))))))) (cA (cA (cA (cB (cO (cR (cD (cM (cM (cA (cN 1) (cM (cN 2) (cH 1))) (cV 2)) (cA (cN 1) (cM (cN 2) (cV 2)))) (cA (cA (cN 6) (cM (cN 7) (cV 2))) (cM (cN 2) (cW (cV 2) 4)))))) (cD (cM (cN 3) (cR (cD (cM (cM (cA (cN 1) (cM (cN 2) (cH 1))) (cV 2)) (cA (cN 1) (cM (cN 2) (cV 2)))) (cA (cA (cN 6) (cM (cN 7) (cV 2))) (cM (cN 2) (cW (cV 2) 4)))))) (cA (cN 1) (cV 2)))) (cM (cN 2) (cR (cD (cM (cM (cA (cN 1) (cM (cN 2) (cH 1))) (cW (cV 2) 6)) (cA (cN 1) (cM (cN 2) (cV 2)))) (cA (cA (cN 6) (cM (cN 7) (cV 2))) (cM (cN 2) (cW (cV 2) 4))))))) (cD (cM (cN 6) (cR (cD (cM (cM (cA (cN 1) (cM (cN 2) (cH 1))) (cW (cV 2) 6)) (cA (cN 1) (cM (cN 2) (cV 2)))) (cA (cA (cN 6) (cM (cN 7) (cV 2))) (cM (cN 2) (cW (cV 2) 4)))))) (cA (cN 1) (cV 2)))) (cM (cN 6) (cR (cD (cM (cM (cA (cN 1) (cM (cN 2) (cH 1))) (cW (cB (cN 1) (cM (cN 2) (cV 2))) 4)) (cV 2)) (cM (cW (cA (cN 1) (cV 2)) 4) (cA (cA (cA (cN 6) (cM (cN 19) (cV 2))) (cM (cN 16) (cW (cV 2) 4))) (cM (cN 4) (cW (cV 2) 6))))))))))) (cN 4)).
Definition QST_e930 := (cD (cA (cA (cA (cA (cA (cM (cN 12) (cR (cD (cM (cH 1) (cA (cN 3) (cM (cN 2) (cV 2)))) (cA (cN 1) (cV 2))))) (cM (cM (cN 12) (cV 2)) (cR (cD (cM (cH 1) (cA (cN 3) (cM (cN 2) (cV 2)))) (cA (cN 1) (cV 2)))))) (cM (cN 18) (cR (cM (cH 1) (cA (cA (cN 3) (cM (cN 5) (cV 2))) (cM (cN 2) (cW (cV 2) 4))))))) (cM (cM (cN 47) (cV 2)) (cR (cM (cH 1) (cA (cA (cN 3) (cM (cN 5) (cV 2))) (cM (cN 2) (cW (cV 2) 4))))))) (cM (cM (cN 24) (cW (cV 2) 4)) (cR (cM (cH 1) (cA (cA (cN 3) (cM (cN 5) (cV 2))) (cM (cN 2) (cW (cV 2) 4))))))) (cM (cM (cN 4) (cW (cV 2) 6)) (cR (cM (cH 1) (cA (cA (cN 3) (cM (cN 5) (cV 2))) (cM (cN 2) (cW (cV 2) 4))))))) (cM (cM (cM (cR (cN 2)) (cA (cN 2) (cV 2))) (cW (cA (cN 3) (cM (cN 2) (cV 2))) 4)) (cR (cM (cH 1) (cA (cA (cN 5) (cM (cN 7) (cV 2))) (cM (cN 2) (cW (cV 2) 4))))))).
Definition QST_e931 := (cD (cA (cA (cA (cA (cA (cD (cM (cA (cN 1) (cM (cN 2) (cV 2))) (cR (cA (cN 5) (cM (cN 2) (cV 2))))) (cM (cA (cN 1) (cH 1)) (cW (cA (cN 3) (cM (cN 2) (cV 2))) 3))) (cD (cM (cM (cA (cN 1) (cM (cN 2) (cH 1))) (cA (cN 1) (cM (cN 2) (cV 2)))) (cR (cA (cN 5) (cM (cN 2) (cV 2))))) (cM (cA (cN 1) (cH 1)) (cW (cA (cN 3) (cM (cN 2) (cV 2))) 3)))) (cD (cA (cN 5) (cM (cN 2) (cV 2))) (cM (cM (cM (cA (cN 1) (cH 1)) (cA (cN 1) (cV 2))) (cA (cN 3) (cM (cN 2) (cV 2)))) (cR (cA (cA (cN 15) (cM (cN 16) (cV 2))) (cM (cN 4) (cW (cV 2) 4))))))) (cD (cM (cA (cN 1) (cM (cN 2) (cH 1))) (cA (cN 5) (cM (cN 2) (cV 2)))) (cM (cM (cM (cA (cN 1) (cH 1)) (cA (cN 1) (cV 2))) (cA (cN 3) (cM (cN 2) (cV 2)))) (cR (cA (cA (cN 15) (cM (cN 16) (cV 2))) (cM (cN 4) (cW (cV 2) 4))))))) (cD (cA (cA (cD (cA (cN 1) (cM (cN 2) (cV 2))) (cR (cD (cM (cW (cA (cN 2) (cV 2)) 4) (cA (cN 5) (cM (cN 2) (cV 2)))) (cA (cN 1) (cV 2))))) (cM (cM (cN 4) (cA (cN 1) (cM (cN 2) (cV 2)))) (cR (cD (cA (cN 1) (cV 2)) (cM (cA (cN 5) (cM (cN 2) (cV 2))) (cW (cA (cA (cN 6) (cM (cN 7) (cV 2))) (cM (cN 2) (cW (cV 2) 4))) 4)))))) (cD (cA (cN 3) (cM (cN 6) (cV 2))) (cM (cR (cA (cA (cN 5) (cM (cN 7) (cV 2))) (cM (cN 2) (cW (cV 2) 4)))) (cA (cA (cN 6) (cM (cN 7) (cV 2))) (cM (cN 2) (cW (cV 2) 4)))))) (cR (cM (cW (cA (cN 1) (cH 1)) 4) (cA (cA (cN 3) (cM (cN 5) (cV 2))) (cM (cN 2) (cW (cV 2) 4))))))) (cD (cM (cA (cN 1) (cM (cN 2) (cH 1))) (cA (cA (cD (cA (cN 1) (cM (cN 2) (cV 2))) (cR (cD (cM (cW (cA (cN 2) (cV 2)) 4) (cA (cN 5) (cM (cN 2) (cV 2)))) (cA (cN 1) (cV 2))))) (cM (cM (cN 4) (cA (cN 1) (cM (cN 2) (cV 2)))) (cR (cD (cA (cN 1) (cV 2)) (cM (cA (cN 5) (cM (cN 2) (cV 2))) (cW (cA (cA (cN 6) (cM (cN 7) (cV 2))) (cM (cN 2) (cW (cV 2) 4))) 4)))))) (cD (cA (cN 3) (cM (cN 6) (cV 2))) (cM (cR (cA (cA (cN 5) (cM (cN 7) (cV 2))) (cM (cN 2) (cW (cV 2) 4)))) (cA (cA (cN 6) (cM (cN 7) (cV 2))) (cM (cN 2) (cW (cV 2) 4))))))) (cR (cM (cW (cA (cN 1) (cH 1)) 4) (cA (cA (cN 3) (cM (cN 5) (cV 2))) (cM (cN 2) (cW (cV 2) 4))))))) (cM (cN 2) (cR (cN 2)))).
Definition QST_e932 := (cD (cA (cB (cD (cM (cM (cN (-3)) (cV 2)) (cA (cN 5) (cM (cN 2) (cV 2)))) (cR (cM (cM (cV 2) (cW (cA (cN 1) (cV 2)) 4)) (cA (cA (cA (cN 30) (cM (cN 47) (cV 2))) (cM (cN 24) (cW (cV 2) 4))) (cM (cN 4) (cW (cV 2) 6)))))) (cD (cM (cV 2) (cA (cA (cN (-15)) (cM (cN 4) (cV 2))) (cM (cN 4) (cW (cV 2) 4)))) (cR (cM (cM (cV 2) (cW (cA (cN 1) (cV 2)) 4)) (cA (cA (cA (cN 30) (cM (cN 47) (cV 2))) (cM (cN 24) (cW (cV 2) 4))) (cM (cN 4) (cW (cV 2) 6))))))) (cD (cM (cA (cN 1) (cM (cN 2) (cV 2))) (cA (cA (cA (cM (cN 24) (cR (cD (cM (cV 2) (cA (cN 1) (cV 2))) (cA (cN 5) (cM (cN 2) (cV 2)))))) (cM (cM (cN 13) (cV 2)) (cR (cD (cM (cV 2) (cA (cN 1) (cV 2))) (cA (cN 5) (cM (cN 2) (cV 2))))))) (cM (cN 2) (cR (cD (cM (cW (cV 2) 10) (cA (cN 1) (cV 2))) (cA (cN 5) (cM (cN 2) (cV 2))))))) (cM (cN 6) (cR (cD (cV 2) (cA (cA (cN 5) (cM (cN 7) (cV 2))) (cM (cN 2) (cW (cV 2) 4)))))))) (cM (cA (cN 2) (cV 2)) (cR (cA (cA (cA (cN 6) (cM (cN 13) (cV 2))) (cM (cN 9) (cW (cV 2) 4))) (cM (cN 2) (cW (cV 2) 6))))))) (cM (cR (cN 2)) (cA (cN 3) (cM (cN 2) (cV 2))))).
Definition QST_e933 := (cA (cD (cM (cM (cN 2) (cA (cN 3) (cV 2))) (cA (cN 1) (cM (cN 2) (cV 2)))) (cM (cR (cA (cA (cN 6) (cM (cN 5) (cV 2))) (cW (cV 2) 4))) (cA (cA (cN 3) (cM (cN 5) (cV 2))) (cM (cN 2) (cW (cV 2) 4))))) (cD (cA (cB (cA (cD (cM (cA (cN 2) (cV 2)) (cA (cN 1) (cM (cN 2) (cV 2)))) (cR (cD (cM (cA (cN 3) (cV 2)) (cA (cN 5) (cM (cN 2) (cV 2)))) (cA (cA (cN 3) (cM (cN 5) (cV 2))) (cM (cN 2) (cW (cV 2) 4)))))) (cD (cM (cA (cN 1) (cV 2)) (cA (cN 1) (cM (cN 2) (cV 2)))) (cR (cD (cM (cM (cW (cA (cN 2) (cV 2)) 4) (cA (cN 3) (cV 2))) (cA (cN 5) (cM (cN 2) (cV 2)))) (cA (cA (cN 3) (cM (cN 5) (cV 2))) (cM (cN 2) (cW (cV 2) 4))))))) (cD (cM (cN 6) (cA (cN (-2)) (cV 2))) (cM (cA (cN 2) (cV 2)) (cR (cA (cA (cA (cA (cN 45) (cM (cN 108) (cV 2))) (cM (cN 91) (cW (cV 2) 4))) (cM (cN 32) (cW (cV 2) 6))) (cM (cN 4) (cW (cV 2) 8))))))) (cD (cB (cA (cN 3) (cM (cN 3) (cV 2))) (cM (cN 6) (cW (cV 2) 4))) (cM (cA (cN 2) (cV 2)) (cR (cA (cA (cA (cA (cN 45) (cM (cN 108) (cV 2))) (cM (cN 91) (cW (cV 2) 4))) (cM (cN 32) (cW (cV 2) 6))) (cM (cN 4) (cW (cV 2) 8))))))) (cR (cA (cA (cA (cA (cN 30) (cM (cN 77) (cV 2))) (cM (cN 71) (cW (cV 2) 4))) (cM (cN 28) (cW (cV 2) 6))) (cM (cN 4) (cW (cV 2) 8)))))).
Definition QST_e934 := (cD (cR (cM (cV 2) (cA (cA (cA (cN 30) (cM (cN 47) (cV 2))) (cM (cN 24) (cW (cV 2) 4))) (cM (cN 4) (cW (cV 2) 6))))) (cM (cR (cN 2)) (cA (cA (cN 6) (cM (cN 7) (cV 2))) (cM (cN 2) (cW (cV 2) 4))))).
Definition QST_e935 := (cD (cA (cN 3) (cV 2)) (cR (cA (cA (cN 6) (cM (cN 5) (cV 2))) (cW (cV 2) 4)))).
Definition QST_e936 := (cD (cR (cD (cM (cA (cN (-1)) (cM (cN 2) (cH 1))) (cA (cN (-1)) (cV 2))) (cM (cH 1) (cV 2)))) (cN 2)).
Definition QST_e937 := (cD (cA (cN 1) (cV 2)) (cM (cN 2) (cR (cD (cM (cM (cH 1) (cV 2)) (cA (cA (cN 1) (cM (cN 3) (cV 2))) (cM (cN 2) (cW (cV 2) 4)))) (cM (cA (cN (-1)) (cM (cN 2) (cH 1))) (cA (cN (-1)) (cM (cN 2) (cV 2)))))))).
Definition QST_e938 := (cD (cR (cB (cN 2) (cD (cN 1) (cH 1)))) (cR (cN 2))).
Definition QST_e939 := (cD (cM (cA (cN 1) (cV 2)) (cR (cD (cA (cN (-1)) (cM (cN 2) (cH 1))) (cM (cH 1) (cA (cV 2) (cW (cV 2) 4)))))) (cN 2)).
Definition QST_e940 := (cA (cA (cR (cD (cA (cN (-3)) (cM (cN 6) (cH 1))) (cM (cM (cM (cH 1) (cV 2)) (cA (cN 1) (cM (cN 2) (cV 2)))) (cA (cA (cN 3) (cM (cN 5) (cV 2))) (cM (cN 2) (cW (cV 2) 4)))))) (cD (cM (cV 2) (cA (cN (-1)) (cM (cN 2) (cV 2)))) (cM (cM (cN 2) (cR (cN 3))) (cR (cD (cM (cM (cM (cH 1) (cV 2)) (cA (cN 1) (cM (cN 2) (cV 2)))) (cA (cA (cN 3) (cM (cN 5) (cV 2))) (cM (cN 2) (cW (cV 2) 4)))) (cA (cN (-1)) (cM (cN 2) (cH 1)))))))) (cD (cM (cW (cA (cN (-1)) (cM (cN 2) (cV 2))) 3) (cR (cD (cA (cN (-3)) (cM (cN 6) (cH 1))) (cA (cN 1) (cM (cN 2) (cV 2)))))) (cM (cN 2) (cR (cM (cM (cH 1) (cV 2)) (cA (cA (cA (cN (-3)) (cV 2)) (cM (cN 8) (cW (cV 2) 4))) (cM (cN 4) (cW (cV 2) 6)))))))).
Definition QST_e941 := (cR (cD (cA (cN (-1)) (cM (cN 2) (cV 2))) (cA (cN 1) (cM (cN 2) (cV 2))))).
Definition QST_e942 := (cD (cA (cN 1) (cH 1)) (cM (cR (cN 3)) (cR (cD (cM (cM (cH 1) (cA (cN 1) (cH 1))) (cA (cN 1) (cM (cN 2) (cV 2)))) (cA (cN (-1)) (cM (cN 2) (cV 2))))))).
Definition QST_e943 := (cA (cD (cO (cV 2)) (cM (cN 2) (cR (cD (cM (cM (cH 1) (cV 2)) (cA (cN 1) (cV 2))) (cA (cN (-1)) (cM (cN 2) (cH 1))))))) (cD (cB (cN 1) (cM (cN 2) (cH 1))) (cM (cN 2) (cR (cM (cM (cM (cH 1) (cA (cN (-1)) (cM (cN 2) (cH 1)))) (cV 2)) (cA (cN 1) (cV 2))))))).
Definition QST_e944 := (cD (cB (cN 1) (cM (cN 2) (cH 1))) (cM (cN 2) (cR (cM (cM (cM (cH 1) (cA (cN (-1)) (cM (cN 2) (cH 1)))) (cV 2)) (cA (cN 1) (cV 2)))))).
Definition QST_e945 := (cA (cA (cO (cD (cR (cD (cM (cA (cN (-1)) (cM (cN 2) (cH 1))) (cV 2)) (cM (cH 1) (cW (cA (cN 1) (cV 2)) 6)))) (cA (cN 6) (cM (cN 4) (cV 2))))) (cD (cM (cH 1) (cW (cB (cV 2) (cM (cM (cN 2) (cH 1)) (cV 2))) 4)) (cM (cW (cM (cM (cM (cH 1) (cA (cN (-1)) (cM (cN 2) (cH 1)))) (cV 2)) (cA (cN 1) (cV 2))) 3) (cA (cN 3) (cM (cN 2) (cV 2)))))) (cD (cM (cA (cN 1) (cM (cN 2) (cV 2))) (cA (cR (cD (cM (cM (cA (cN (-1)) (cM (cN 2) (cH 1))) (cV 2)) (cA (cN 1) (cV 2))) (cA (cN 3) (cM (cN 2) (cV 2))))) (cR (cD (cM (cA (cN (-1)) (cM (cN 2) (cH 1))) (cV 2)) (cA (cA (cN 3) (cM (cN 5) (cV 2))) (cM (cN 2) (cW (cV 2) 4))))))) (cM (cM (cN 2) (cA (cN 1) (cV 2))) (cR (cM (cH 1) (cA (cN 3) (cM (cN 2) (cV 2)))))))).
Definition QST_e946 := (cD (cA (cR (cD (cM (cM (cA (cN (-1)) (cM (cN 2) (cH 1))) (cA (cN (-1)) (cV 2))) (cV 2)) (cH 1))) (cR (cD (cM (cM (cA (cN (-1)) (cM (cN 2) (cH 1))) (cA (cN (-1)) (cV 2))) (cW (cV 2) 6)) (cH 1)))) (cM (cM (cN 2) (cV 2)) (cA (cN 1) (cV 2)))).
Definition QST_e947 := (cD (cM (cM (cA (cN (-1)) (cM (cN 2) (cH 1))) (cA (cN (-1)) (cM (cN 2) (cV 2)))) (cA (cN 3) (cM (cN 2) (cV 2)))) (cM (cM (cN 2) (cR (cN 3))) (cR (cM (cM (cM (cH 1) (cA (cN (-1)) (cM (cN 2) (cH 1)))) (cV 2)) (cA (cA (cA (cN (-3)) (cV 2)) (cM (cN 8) (cW (cV 2) 4))) (cM (cN 4) (cW (cV 2) 6))))))).
Definition QST_e948 := (cA (cA (cD (cM (cN 3) (cR (cD (cM (cA (cN (-1)) (cM (cN 2) (cH 1))) (cA (cN 2) (cV 2))) (cM (cH 1) (cW (cA (cN 1) (cV 2)) 6))))) (cA (cN 6) (cM (cN 4) (cV 2)))) (cD (cM (cM (cM (cN 2) (cV 2)) (cA (cN 2) (cV 2))) (cR (cD (cM (cH 1) (cA (cN (-1)) (cM (cN 2) (cH 1)))) (cA (cA (cN 2) (cM (cN 3) (cV 2))) (cW (cV 2) 4))))) (cM (cM (cH 1) (cA (cN 1) (cV 2))) (cA (cN 3) (cM (cN 2) (cV 2)))))) (cD (cM (cM (cA (cN 1) (cM (cN 2) (cV 2))) (cR (cD (cV 2) (cA (cA (cN 6) (cM (cN 7) (cV 2))) (cM (cN 2) (cW (cV 2) 4)))))) (cA (cR (cD (cM (cM (cM (cH 1) (cA (cN (-1)) (cM (cN 2) (cH 1)))) (cV 2)) (cA (cN 1) (cV 2))) (cA (cN 3) (cM (cN 2) (cV 2))))) (cR (cD (cM (cM (cH 1) (cA (cN (-1)) (cM (cN 2) (cH 1)))) (cV 2)) (cA (cA (cN 3) (cM (cN 5) (cV 2))) (cM (cN 2) (cW (cV 2) 4))))))) (cM (cM (cN 2) (cH 1)) (cA (cN 1) (cV 2))))).
Definition QST_e949 := (cO (cD (cR (cA (cN 1) (cD (cN 1) (cH 1)))) (cR (cN 3)))).
Definition QST_e950 := (cD (cO (cA (cA (cA (cO (cM (cH 1) (cR (cD (cM (cV 2) (cA (cN 3) (cM (cN 2) (cV 2)))) (cA (cN (-1)) (cM (cN 2) (cH 1))))))) (cM (cM (cN 2) (cW (cH 1) 4)) (cR (cD (cM (cV 2) (cA (cN 3) (cM (cN 2) (cV 2)))) (cA (cN (-1)) (cM (cN 2) (cH 1))))))) (cM (cR (cM (cM (cA (cN (-1)) (cM (cN 2) (cH 1))) (cV 2)) (cA (cN 3) (cM (cN 2) (cV 2))))) (cA (cH 1) (cM (cM (cN 2) (cH 1)) (cV 2))))) (cM (cM (cH 1) (cR (cM (cM (cA (cN (-1)) (cM (cN 2) (cH 1))) (cV 2)) (cA (cN 3) (cM (cN 2) (cV 2)))))) (cA (cA (cN 1) (cM (cN 3) (cV 2))) (cM (cN 2) (cW (cV 2) 4)))))) (cM (cM (cM (cM (cN 2) (cH 1)) (cA (cN 1) (cV 2))) (cA (cN 3) (cM (cN 2) (cV 2)))) (cR (cM (cH 1) (cA (cA (cN 1) (cM (cN 3) (cV 2))) (cM (cN 2) (cW (cV 2) 4))))))).
Definition QST_e951 := (cD (cB (cB (cO (cD (cM (cA (cN 1) (cM (cN 2) (cV 2))) (cR (cM (cM (cH 1) (cA (cN (-1)) (cM (cN 2) (cH 1)))) (cA (cA (cN 2) (cM (cN 3) (cV 2))) (cW (cV 2) 4))))) (cM (cM (cH 1) (cW (cA (cN 1) (cV 2)) 4)) (cA (cN 3) (cM (cN 2) (cV 2)))))) (cD (cA (cA (cA (cN 2) (cM (cN 3) (cV 2))) (cM (cN 5) (cW (cV 2) 4))) (cM (cN 2) (cW (cV 2) 6))) (cM (cR (cD (cM (cH 1) (cA (cA (cN 2) (cM (cN 3) (cV 2))) (cW (cV 2) 4))) (cA (cN (-1)) (cM (cN 2) (cH 1))))) (cA (cA (cN 3) (cM (cN 5) (cV 2))) (cM (cN 2) (cW (cV 2) 4)))))) (cD (cM (cR (cM (cA (cN (-1)) (cM (cN 2) (cH 1))) (cA (cN 1) (cM (cN 2) (cV 2))))) (cA (cR (cD (cA (cH 1) (cM (cM (cN 2) (cH 1)) (cV 2))) (cA (cA (cN 2) (cM (cN 3) (cV 2))) (cW (cV 2) 4)))) (cR (cD (cM (cH 1) (cA (cA (cN 1) (cM (cN 3) (cV 2))) (cM (cN 2) (cW (cV 2) 4)))) (cA (cN 2) (cV 2)))))) (cM (cH 1) (cA (cA (cN 3) (cM (cN 5) (cV 2))) (cM (cN 2) (cW (cV 2) 4)))))) (cN 2)).
Definition QST_e952 := (cD (cM (cM (cA (cN (-1)) (cM (cN 2) (cH 1))) (cV 2)) (cA (cN (-1)) (cM (cN 2) (cV 2)))) (cM (cM (cN 2) (cR (cN 3))) (cR (cM (cM (cM (cH 1) (cA (cN (-1)) (cM (cN 2) (cH 1)))) (cV 2)) (cA (cA (cB (cN (-1)) (cV 2)) (cM (cN 4) (cW (cV 2) 4))) (cM (cN 4) (cW (cV 2) 6))))))).
Definition QST_e953 := (cD (cA (cA (cO (cD (cM (cR (cD (cM (cA (cN (-1)) (cM (cN 2) (cH 1))) (cV 2)) (cH 1))) (cA (cN 1) (cM (cN 2) (cV 2)))) (cM (cW (cA (cN 1) (cV 2)) 3) (cA (cN 3) (cM (cN 2) (cV 2)))))) (cD (cM (cM (cA (cN (-1)) (cM (cN 2) (cH 1))) (cV 2)) (cA (cA (cN (-1)) (cM (cN 5) (cV 2))) (cM (cN 2) (cW (cV 2) 4)))) (cM (cR (cM (cM (cM (cH 1) (cA (cN (-1)) (cM (cN 2) (cH 1)))) (cV 2)) (cA (cN 1) (cV 2)))) (cA (cA (cN 3) (cM (cN 5) (cV 2))) (cM (cN 2) (cW (cV 2) 4)))))) (cD (cM (cR (cD (cM (cH 1) (cA (cN (-1)) (cM (cN 2) (cH 1)))) (cA (cN 2) (cV 2)))) (cA (cA (cR (cD (cM (cV 2) (cA (cN 1) (cV 2))) (cA (cN 2) (cV 2)))) (cM (cN 9) (cR (cD (cV 2) (cA (cA (cN 2) (cM (cN 3) (cV 2))) (cW (cV 2) 4)))))) (cM (cM (cN 2) (cV 2)) (cA (cR (cD (cM (cV 2) (cA (cN 1) (cV 2))) (cA (cN 2) (cV 2)))) (cM (cN 3) (cR (cD (cV 2) (cA (cA (cN 2) (cM (cN 3) (cV 2))) (cW (cV 2) 4))))))))) (cM (cH 1) (cA (cA (cN 3) (cM (cN 5) (cV 2))) (cM (cN 2) (cW (cV 2) 4)))))) (cN 2)).
Definition QST_e954 := (cD (cA (cN (-1)) (cM (cN 2) (cH 1))) (cM (cR (cB (cN 4) (cD (cN 2) (cH 1)))) (cH 1))).
Definition QST_e955 := (cD (cA (cN 3) (cM (cN 2) (cV 2))) (cR (cA (cA (cN 3) (cM (cN 8) (cV 2))) (cM (cN 4) (cW (cV 2) 4))))).
Definition QST_e956 := (cD (cA (cN 3) (cM (cN 2) (cV 2))) (cM (cR (cN 3)) (cR (cD (cM (cH 1) (cA (cA (cN 3) (cM (cN 8) (cV 2))) (cM (cN 4) (cW (cV 2) 4)))) (cA (cN 1) (cH 1)))))).
Definition QST_e957 := (cA (cD (cO (cH 1)) (cM (cN 2) (cR (cD (cM (cM (cH 1) (cA (cN 1) (cH 1))) (cV 2)) (cA (cN (-1)) (cV 2)))))) (cD (cB (cN 1) (cV 2)) (cM (cN 2) (cR (cM (cM (cM (cH 1) (cA (cN 1) (cH 1))) (cA (cN (-1)) (cV 2))) (cV 2)))))).
Definition QST_e958 := (cA (cB (cA (cD (cO (cH 1)) (cM (cN 2) (cR (cD (cM (cM (cM (cM (cH 1) (cA (cN 1) (cH 1))) (cV 2)) (cA (cN 1) (cV 2))) (cA (cN 1) (cM (cN 2) (cV 2)))) (cA (cN (-1)) (cM (cN 2) (cV 2))))))) (cD (cB (cV 2) (cM (cN 2) (cW (cV 2) 4))) (cM (cN 2) (cR (cM (cM (cM (cM (cH 1) (cA (cN 1) (cH 1))) (cV 2)) (cA (cN (-1)) (cM (cN 2) (cV 2)))) (cA (cA (cN 1) (cM (cN 3) (cV 2))) (cM (cN 2) (cW (cV 2) 4)))))))) (cD (cM (cV 2) (cR (cD (cM (cH 1) (cA (cN (-1)) (cM (cN 2) (cV 2)))) (cM (cA (cN 1) (cH 1)) (cA (cA (cV 2) (cM (cN 3) (cW (cV 2) 4))) (cM (cN 2) (cW (cV 2) 6))))))) (cN 2))) (cD (cB (cN 1) (cM (cN 2) (cV 2))) (cM (cN 2) (cR (cM (cM (cM (cH 1) (cA (cN 1) (cH 1))) (cV 2)) (cA (cA (cB (cN (-1)) (cV 2)) (cM (cN 4) (cW (cV 2) 4))) (cM (cN 4) (cW (cV 2) 6)))))))).
Definition QST_e959 := (cD (cR (cD (cM (cH 1) (cA (cN (-1)) (cV 2))) (cM (cA (cN 1) (cH 1)) (cV 2)))) (cN 2)).
Definition QST_e960 := (cD (cM (cA (cN 1) (cV 2)) (cR (cM (cH 1) (cA (cN (-1)) (cM (cN 2) (cV 2)))))) (cM (cN 2) (cR (cM (cM (cA (cN 1) (cH 1)) (cV 2)) (cA (cA (cN 1) (cM (cN 3) (cV 2))) (cM (cN 2) (cW (cV 2) 4))))))).
Definition QST_e961 := (cO (cD (cR (cA (cN 1) (cD (cN 1) (cH 1)))) (cR (cN 2)))).
Definition QST_e962 := (cD (cO (cA (cN 1) (cV 2))) (cM (cN 2) (cR (cD (cM (cM (cH 1) (cV 2)) (cA (cN 1) (cV 2))) (cA (cN 1) (cH 1)))))).
Definition QST_e963 := (cD (cB (cB (cA (cB (cB (cM (cB (cN 1) (cM (cN 2) (cV 2))) (cR (cD (cM (cH 1) (cV 2)) (cM (cA (cN 1) (cH 1)) (cA (cA (cA (cN 3) (cM (cN 11) (cV 2))) (cM (cN 12) (cW (cV 2) 4))) (cM (cN 4) (cW (cV 2) 6))))))) (cD (cN 6) (cR (cM (cM (cM (cH 1) (cA (cN 1) (cH 1))) (cV 2)) (cA (cA (cA (cN 3) (cM (cN 11) (cV 2))) (cM (cN 12) (cW (cV 2) 4))) (cM (cN 4) (cW (cV 2) 6))))))) (cD (cM (cN 6) (cH 1)) (cR (cM (cM (cM (cH 1) (cA (cN 1) (cH 1))) (cV 2)) (cA (cA (cA (cN 3) (cM (cN 11) (cV 2))) (cM (cN 12) (cW (cV 2) 4))) (cM (cN 4) (cW (cV 2) 6))))))) (cD (cB (cN 3) (cM (cN 6) (cV 2))) (cR (cM (cM (cM (cH 1) (cA (cN 1) (cH 1))) (cV 2)) (cA (cA (cA (cN 3) (cM (cN 11) (cV 2))) (cM (cN 12) (cW (cV 2) 4))) (cM (cN 4) (cW (cV 2) 6))))))) (cD (cM (cN 3) (cW (cM (cH 1) (cA (cN (-1)) (cM (cN 2) (cV 2)))) 3)) (cM (cH 1) (cR (cM (cM (cA (cN 1) (cH 1)) (cV 2)) (cA (cA (cA (cB (cN (-3)) (cM (cN 5) (cV 2))) (cM (cN 10) (cW (cV 2) 4))) (cM (cN 20) (cW (cV 2) 6))) (cM (cN 8) (cW (cV 2) 8)))))))) (cD (cM (cV 2) (cW (cA (cN (-1)) (cM (cN 2) (cV 2))) 3)) (cR (cM (cM (cM (cH 1) (cA (cN 1) (cH 1))) (cV 2)) (cA (cA (cA (cB (cN (-3)) (cM (cN 5) (cV 2))) (cM (cN 10) (cW (cV 2) 4))) (cM (cN 20) (cW (cV 2) 6))) (cM (cN 8) (cW (cV 2) 8))))))) (cM (cN 2) (cR (cN 3)))).
Definition QST_e964 := (cD (cN 1) (cR (cA (cN 2) (cD (cN 2) (cH 1))))).
Definition QST_e965 := (cD (cA (cA (cB (cM (cN (-2)) (cR (cD (cH 1) (cM (cM (cW (cA (cN 1) (cH 1)) 6) (cV 2)) (cA (cN 1) (cV 2)))))) (cM (cA (cN (-1)) (cV 2)) (cR (cD (cH 1) (cM (cM (cW (cA (cN 1) (cH 1)) 6) (cV 2)) (cA (cN 1) (cV 2))))))) (cD (cM (cM (cM (cN 2) (cH 1)) (cA (cN 3) (cM (cN 2) (cH 1)))) (cR (cD (cV 2) (cM (cA (cH 1) (cW (cH 1) 4)) (cA (cN 1) (cV 2)))))) (cM (cA (cN 1) (cH 1)) (cV 2)))) (cD (cM (cM (cH 1) (cA (cN 3) (cM (cN 2) (cH 1)))) (cW (cA (cN (-1)) (cV 2)) 3)) (cR (cM (cM (cM (cH 1) (cW (cA (cN 1) (cH 1)) 6)) (cV 2)) (cA (cN (-1)) (cW (cV 2) 4)))))) (cN 4)).
Definition QST_e966 := (cD (cA (cA (cN 3) (cM (cN 5) (cV 2))) (cM (cN 2) (cW (cV 2) 4))) (cM (cM (cN 2) (cR (cN 3))) (cR (cD (cM (cM (cA (cN 1) (cH 1)) (cV 2)) (cA (cA (cA (cN 3) (cM (cN 11) (cV 2))) (cM (cN 12) (cW (cV 2) 4))) (cM (cN 4) (cW (cV 2) 6)))) (cH 1))))).
Definition QST_e967 := (cD (cA (cD (cA (cA (cN (-1)) (cM (cH 1) (cB (cN 2) (cM (cN 4) (cV 2))))) (cM (cN 2) (cV 2))) (cM (cA (cN 1) (cH 1)) (cR (cM (cM (cH 1) (cA (cN (-1)) (cM (cN 2) (cH 1)))) (cA (cN (-1)) (cM (cN 4) (cW (cV 2) 4))))))) (cD (cA (cB (cM (cN 3) (cR (cD (cM (cM (cA (cN (-1)) (cM (cN 2) (cH 1))) (cV 2)) (cA (cN (-1)) (cM (cN 2) (cV 2)))) (cA (cN 1) (cH 1))))) (cM (cM (cN 2) (cH 1)) (cR (cD (cM (cV 2) (cA (cN (-1)) (cM (cN 2) (cV 2)))) (cA (cA (cN (-1)) (cH 1)) (cM (cN 2) (cW (cH 1) 4))))))) (cM (cM (cN 4) (cW (cH 1) 4)) (cR (cD (cM (cV 2) (cA (cN (-1)) (cM (cN 2) (cV 2)))) (cA (cA (cN (-1)) (cH 1)) (cM (cN 2) (cW (cH 1) 4))))))) (cR (cM (cM (cM (cH 1) (cA (cN 1) (cH 1))) (cV 2)) (cA (cN 1) (cM (cN 2) (cV 2))))))) (cM (cN 2) (cR (cN 3)))).
Definition QST_e968 := (cD (cR (cD (cM (cA (cN 3) (cM (cN 2) (cH 1))) (cA (cN (-1)) (cM (cN 2) (cV 2)))) (cM (cA (cN 1) (cH 1)) (cA (cN 1) (cM (cN 2) (cV 2)))))) (cR (cN 3))).
Definition QST_e969 := (cD (cM (cA (cN 1) (cH 1)) (cA (cN 1) (cV 2))) (cM (cN 2) (cR (cM (cM (cM (cH 1) (cA (cN 1) (cH 1))) (cV 2)) (cA (cN 1) (cV 2)))))).
Definition QST_e970 := (cD (cA (cA (cA (cA (cR (cD (cM (cH 1) (cV 2)) (cM (cA (cN 1) (cH 1)) (cW (cA (cN 1) (cV 2)) 6)))) (cD (cM (cH 1) (cV 2)) (cM (cR (cM (cM (cH 1) (cA (cN 1) (cH 1))) (cV 2))) (cW (cA (cN 1) (cV 2)) 3)))) (cD (cM (cM (cA (cN 1) (cH 1)) (cB (cN 1) (cV 2))) (cV 2)) (cM (cW (cH 1) 4) (cW (cD (cM (cM (cA (cN 1) (cH 1)) (cV 2)) (cA (cN 1) (cV 2))) (cH 1)) 3)))) (cD (cM (cN 2) (cV 2)) (cM (cA (cN 1) (cV 2)) (cR (cM (cM (cM (cH 1) (cA (cN 1) (cH 1))) (cV 2)) (cA (cN 1) (cV 2))))))) (cD (cM (cM (cM (cH 1) (cA (cN 1) (cH 1))) (cV 2)) (cB (cH 1) (cM (cH 1) (cV 2)))) (cW (cM (cM (cM (cH 1) (cA (cN 1) (cH 1))) (cV 2)) (cA (cN 1) (cV 2))) 3))) (cN 2)).
Definition QST_e971 := (cD (cB (cB (cA (cB (cA (cD (cM (cN (-2)) (cR (cD (cM (cH 1) (cV 2)) (cM (cA (cN 1) (cH 1)) (cW (cA (cN 1) (cV 2)) 6))))) (cA (cN 3) (cM (cN 2) (cV 2)))) (cD (cM (cM (cR (cH 1)) (cA (cN 1) (cH 1))) (cW (cV 2) 4)) (cM (cW (cM (cM (cA (cN 1) (cH 1)) (cV 2)) (cA (cN 1) (cV 2))) 3) (cA (cN 3) (cM (cN 2) (cV 2)))))) (cD (cM (cN 2) (cV 2)) (cM (cM (cH 1) (cA (cN 1) (cV 2))) (cR (cD (cM (cM (cM (cA (cN 1) (cH 1)) (cV 2)) (cA (cN 1) (cV 2))) (cW (cA (cN 3) (cM (cN 2) (cV 2))) 4)) (cH 1)))))) (cD (cV 2) (cR (cM (cM (cM (cM (cH 1) (cA (cN 1) (cH 1))) (cV 2)) (cW (cA (cN 1) (cV 2)) 6)) (cW (cA (cN 3) (cM (cN 2) (cV 2))) 4))))) (cD (cM (cM (cV 2) (cA (cN 1) (cM (cN 2) (cV 2)))) (cA (cR (cD (cM (cH 1) (cA (cN 1) (cV 2))) (cA (cN 3) (cM (cN 2) (cV 2))))) (cR (cD (cH 1) (cA (cA (cN 3) (cM (cN 5) (cV 2))) (cM (cN 2) (cW (cV 2) 4))))))) (cM (cA (cN 1) (cV 2)) (cR (cM (cM (cA (cN 1) (cH 1)) (cV 2)) (cA (cN 3) (cM (cN 2) (cV 2)))))))) (cD (cM (cM (cV 2) (cA (cN 1) (cM (cN 2) (cV 2)))) (cA (cR (cD (cM (cH 1) (cA (cN 1) (cV 2))) (cA (cN 3) (cM (cN 2) (cV 2))))) (cR (cD (cH 1) (cA (cA (cN 3) (cM (cN 5) (cV 2))) (cM (cN 2) (cW (cV 2) 4))))))) (cM (cM (cH 1) (cA (cN 1) (cV 2))) (cR (cM (cM (cA (cN 1) (cH 1)) (cV 2)) (cA (cN 3) (cM (cN 2) (cV 2)))))))) (cN 2)).
Definition QST_e972 := (cD (cA (cB (cB (cD (cM (cH 1) (cR (cD (cV 2) (cM (cA (cH 1) (cW (cH 1) 4)) (cA (cN 1) (cV 2)))))) (cA (cN 1) (cH 1))) (cD (cM (cM (cH 1) (cA (cN 3) (cM (cN 2) (cH 1)))) (cR (cD (cV 2) (cM (cA (cH 1) (cW (cH 1) 4)) (cA (cN 1) (cV 2)))))) (cA (cN 1) (cH 1)))) (cD (cM (cM (cW (cH 1) 4) (cA (cN 3) (cM (cN 2) (cH 1)))) (cA (cN 1) (cV 2))) (cM (cW (cV 2) 4) (cW (cD (cM (cM (cH 1) (cA (cN 1) (cH 1))) (cA (cN 1) (cV 2))) (cV 2)) 3)))) (cD (cN 1) (cR (cD (cM (cM (cW (cA (cN 1) (cH 1)) 6) (cV 2)) (cA (cN 1) (cV 2))) (cH 1))))) (cN 4)).
Definition QST_e973 := (cD (cA (cB (cB (cB (cM (cN 2) (cR (cD (cM (cH 1) (cV 2)) (cM (cW (cA (cN 1) (cH 1)) 6) (cW (cA (cN 1) (cV 2)) 6))))) (cD (cM (cA (cN 3) (cM (cN 2) (cH 1))) (cR (cM (cH 1) (cV 2)))) (cW (cM (cA (cN 1) (cH 1)) (cA (cN 1) (cV 2))) 3))) (cD (cM (cM (cR (cH 1)) (cA (cN (-1)) (cV 2))) (cV 2)) (cW (cM (cM (cA (cN 1) (cH 1)) (cV 2)) (cA (cN 1) (cV 2))) 3))) (cD (cM (cM (cW (cH 1) 4) (cA (cN 3) (cM (cN 2) (cH 1)))) (cW (cV 2) 4)) (cW (cM (cM (cM (cH 1) (cA (cN 1) (cH 1))) (cV 2)) (cA (cN 1) (cV 2))) 3))) (cD (cM (cA (cN (-1)) (cV 2)) (cA (cM (cN 3) (cR (cD (cM (cH 1) (cV 2)) (cA (cN 1) (cH 1))))) (cM (cN 2) (cR (cD (cM (cW (cH 1) 6) (cV 2)) (cA (cN 1) (cH 1))))))) (cM (cM (cA (cN 1) (cH 1)) (cV 2)) (cW (cA (cN 1) (cV 2)) 3)))) (cN 4)).
Definition QST_e974 := (cA (cB (cB (cA (cD (cM (cW (cH 1) 4) (cW (cV 2) 4)) (cM (cM (cN 4) (cW (cM (cM (cM (cH 1) (cA (cN 1) (cH 1))) (cV 2)) (cA (cN 1) (cV 2))) 3)) (cA (cN 3) (cM (cN 2) (cV 2))))) (cD (cM (cM (cW (cH 1) 4) (cA (cN 3) (cM (cN 2) (cH 1)))) (cW (cV 2) 4)) (cM (cM (cN 4) (cW (cM (cM (cM (cH 1) (cA (cN 1) (cH 1))) (cV 2)) (cA (cN 1) (cV 2))) 3)) (cA (cN 3) (cM (cN 2) (cV 2)))))) (cD (cM (cM (cM (cW (cH 1) 4) (cW (cV 2) 4)) (cA (cN 2) (cV 2))) (cA (cN 1) (cM (cN 2) (cV 2)))) (cM (cM (cN 4) (cW (cM (cM (cM (cH 1) (cA (cN 1) (cH 1))) (cV 2)) (cA (cN 1) (cV 2))) 3)) (cA (cN 3) (cM (cN 2) (cV 2)))))) (cD (cR (cD (cM (cH 1) (cV 2)) (cM (cW (cA (cN 1) (cH 1)) 6) (cW (cA (cN 1) (cV 2)) 6)))) (cA (cN 6) (cM (cN 4) (cV 2))))) (cD (cA (cA (cA (cD (cM (cM (cM (cH 1) (cA (cN 1) (cM (cN 2) (cH 1)))) (cV 2)) (cA (cN 1) (cM (cN 2) (cV 2)))) (cR (cD (cM (cA (cN 1) (cH 1)) (cA (cN 3) (cM (cN 2) (cV 2)))) (cA (cN 1) (cV 2))))) (cM (cM (cN 2) (cV 2)) (cR (cD (cM (cA (cN 1) (cV 2)) (cW (cA (cH 1) (cM (cM (cN 2) (cH 1)) (cV 2))) 4)) (cM (cA (cN 1) (cH 1)) (cA (cN 3) (cM (cN 2) (cV 2)))))))) (cD (cM (cM (cM (cN 2) (cH 1)) (cV 2)) (cA (cN 1) (cM (cN 2) (cV 2)))) (cR (cM (cA (cN 1) (cH 1)) (cA (cA (cN 3) (cM (cN 5) (cV 2))) (cM (cN 2) (cW (cV 2) 4))))))) (cD (cM (cM (cM (cH 1) (cA (cN 1) (cM (cN 2) (cH 1)))) (cV 2)) (cA (cN 1) (cM (cN 2) (cV 2)))) (cR (cM (cA (cN 1) (cH 1)) (cA (cA (cN 3) (cM (cN 5) (cV 2))) (cM (cN 2) (cW (cV 2) 4))))))) (cM (cM (cM (cN 4) (cA (cN 1) (cH 1))) (cA (cN 1) (cV 2))) (cR (cM (cM (cH 1) (cV 2)) (cA (cN 3) (cM (cN 2) (cV 2)))))))).
Definition QST_e975 := (cD (cB (cA (cA (cR (cD (cA (cN (-1)) (cV 2)) (cM (cA (cH 1) (cW (cH 1) 4)) (cV 2)))) (cD (cA (cN (-1)) (cV 2)) (cR (cD (cM (cM (cA (cN 1) (cH 1)) (cA (cN (-1)) (cV 2))) (cV 2)) (cH 1))))) (cD (cB (cB (cM (cN 2) (cR (cM (cV 2) (cA (cN (-1)) (cM (cN 2) (cV 2)))))) (cR (cM (cW (cV 2) 6) (cA (cN (-1)) (cM (cN 2) (cV 2)))))) (cR (cM (cW (cV 2) 10) (cA (cN (-1)) (cM (cN 2) (cV 2)))))) (cM (cV 2) (cR (cM (cM (cH 1) (cA (cN 1) (cH 1))) (cA (cB (cN 1) (cM (cN 3) (cV 2))) (cM (cN 2) (cW (cV 2) 4)))))))) (cD (cA (cA (cM (cN (-2)) (cR (cM (cV 2) (cA (cN (-1)) (cM (cN 2) (cV 2)))))) (cR (cM (cW (cV 2) 6) (cA (cN (-1)) (cM (cN 2) (cV 2)))))) (cR (cM (cW (cV 2) 10) (cA (cN (-1)) (cM (cN 2) (cV 2)))))) (cM (cV 2) (cR (cD (cM (cA (cN 1) (cH 1)) (cA (cB (cN 1) (cM (cN 3) (cV 2))) (cM (cN 2) (cW (cV 2) 4)))) (cH 1)))))) (cM (cN 2) (cA (cN 1) (cV 2)))).
Definition QST_e976 := (cD (cA (cA (cB (cB (cB (cD (cM (cM (cH 1) (cV 2)) (cA (cN (-1)) (cM (cN 2) (cV 2)))) (cR (cM (cM (cM (cM (cH 1) (cA (cN 1) (cH 1))) (cV 2)) (cW (cA (cN 1) (cV 2)) 6)) (cA (cA (cN (-3)) (cM (cN 4) (cV 2))) (cM (cN 4) (cW (cV 2) 4)))))) (cD (cM (cM (cA (cN (-1)) (cM (cN 2) (cV 2))) (cA (cA (cN (-3)) (cM (cN 3) (cV 2))) (cM (cN 2) (cW (cV 2) 4)))) (cR (cD (cM (cH 1) (cV 2)) (cM (cA (cN 1) (cH 1)) (cA (cA (cA (cN (-3)) (cV 2)) (cM (cN 8) (cW (cV 2) 4))) (cM (cN 4) (cW (cV 2) 6))))))) (cM (cV 2) (cA (cN 1) (cV 2))))) (cD (cM (cM (cN 3) (cA (cA (cN (-2)) (cM (cN 3) (cV 2))) (cM (cN 2) (cW (cV 2) 4)))) (cR (cD (cM (cH 1) (cV 2)) (cM (cA (cN 1) (cH 1)) (cA (cA (cA (cN (-3)) (cV 2)) (cM (cN 8) (cW (cV 2) 4))) (cM (cN 4) (cW (cV 2) 6))))))) (cM (cV 2) (cA (cN 1) (cV 2))))) (cD (cM (cM (cN 3) (cA (cA (cN (-2)) (cM (cN 3) (cV 2))) (cM (cN 2) (cW (cV 2) 4)))) (cR (cD (cM (cH 1) (cV 2)) (cM (cA (cN 1) (cH 1)) (cA (cA (cA (cN (-3)) (cV 2)) (cM (cN 8) (cW (cV 2) 4))) (cM (cN 4) (cW (cV 2) 6))))))) (cM (cM (cH 1) (cV 2)) (cA (cN 1) (cV 2))))) (cD (cB (cB (cA (cN (-3)) (cM (cN 9) (cV 2))) (cM (cN 4) (cW (cV 2) 4))) (cM (cN 4) (cW (cV 2) 6))) (cM (cM (cH 1) (cA (cN 1) (cV 2))) (cR (cD (cM (cM (cA (cN 1) (cH 1)) (cV 2)) (cA (cA (cA (cN (-3)) (cV 2)) (cM (cN 8) (cW (cV 2) 4))) (cM (cN 4) (cW (cV 2) 6)))) (cH 1)))))) (cD (cM (cV 2) (cA (cN (-1)) (cM (cN 2) (cV 2)))) (cM (cA (cN 1) (cV 2)) (cR (cM (cM (cM (cH 1) (cA (cN 1) (cH 1))) (cV 2)) (cA (cA (cA (cN (-3)) (cV 2)) (cM (cN 8) (cW (cV 2) 4))) (cM (cN 4) (cW (cV 2) 6)))))))) (cM (cN 2) (cR (cN 3)))).
Definition QST_e977 := (cD (cO (cA (cA (cA (cR (cD (cA (cN 2) (cV 2)) (cM (cM (cH 1) (cA (cN 1) (cH 1))) (cW (cA (cN 1) (cV 2)) 6)))) (cM (cM (cN 2) (cV 2)) (cR (cD (cA (cN 2) (cV 2)) (cM (cM (cH 1) (cA (cN 1) (cH 1))) (cW (cA (cN 1) (cV 2)) 6)))))) (cM (cW (cV 2) 4) (cR (cD (cA (cN 2) (cV 2)) (cM (cM (cH 1) (cA (cN 1) (cH 1))) (cW (cA (cN 1) (cV 2)) 6)))))) (cR (cD (cM (cH 1) (cA (cA (cN 2) (cM (cN 3) (cV 2))) (cW (cV 2) 4))) (cA (cN 1) (cH 1)))))) (cM (cN 2) (cA (cN 1) (cV 2)))).
Definition QST_e978 := (cB (cA (cA (cD (cO (cM (cA (cN 3) (cM (cN 2) (cH 1))) (cR (cD (cM (cH 1) (cA (cN (-1)) (cV 2))) (cV 2))))) (cM (cM (cN 4) (cW (cA (cN 1) (cH 1)) 3)) (cA (cN 1) (cV 2)))) (cD (cM (cH 1) (cA (cN (-1)) (cV 2))) (cM (cN 4) (cR (cM (cM (cM (cM (cH 1) (cW (cA (cN 1) (cH 1)) 6)) (cA (cN (-1)) (cV 2))) (cV 2)) (cW (cA (cN 1) (cV 2)) 4)))))) (cD (cM (cM (cH 1) (cA (cN 3) (cM (cN 2) (cH 1)))) (cA (cA (cN (-2)) (cV 2)) (cW (cV 2) 4))) (cM (cM (cM (cN 4) (cA (cN 1) (cH 1))) (cR (cM (cM (cM (cH 1) (cA (cN 1) (cH 1))) (cA (cN (-1)) (cV 2))) (cV 2)))) (cA (cN 1) (cV 2))))) (cD (cM (cH 1) (cA (cA (cM (cN (-2)) (cR (cM (cV 2) (cA (cN (-1)) (cM (cN 2) (cV 2)))))) (cR (cM (cW (cV 2) 6) (cA (cN (-1)) (cM (cN 2) (cV 2)))))) (cR (cM (cW (cV 2) 10) (cA (cN (-1)) (cM (cN 2) (cV 2))))))) (cM (cM (cM (cM (cN 4) (cW (cA (cN 1) (cH 1)) 3)) (cV 2)) (cA (cN 1) (cV 2))) (cR (cM (cH 1) (cA (cB (cN 1) (cM (cN 3) (cV 2))) (cM (cN 2) (cW (cV 2) 4)))))))).
Definition QST_e979 := (cD (cA (cA (cA (cA (cB (cD (cM (cM (cH 1) (cV 2)) (cA (cN (-1)) (cM (cN 2) (cV 2)))) (cM (cW (cM (cA (cN 1) (cH 1)) (cA (cN 1) (cV 2))) 3) (cR (cM (cM (cH 1) (cV 2)) (cA (cA (cN (-3)) (cM (cN 4) (cV 2))) (cM (cN 4) (cW (cV 2) 4))))))) (cD (cM (cM (cM (cH 1) (cA (cN 3) (cM (cN 2) (cH 1)))) (cV 2)) (cA (cN (-1)) (cM (cN 2) (cV 2)))) (cM (cA (cN 1) (cH 1)) (cR (cM (cM (cM (cM (cH 1) (cA (cN 1) (cH 1))) (cV 2)) (cW (cA (cN 1) (cV 2)) 6)) (cA (cA (cN (-3)) (cM (cN 4) (cV 2))) (cM (cN 4) (cW (cV 2) 4)))))))) (cD (cB (cB (cN 6) (cM (cN 9) (cV 2))) (cM (cN 6) (cW (cV 2) 4))) (cM (cM (cW (cA (cN 1) (cH 1)) 3) (cA (cN 1) (cV 2))) (cR (cD (cM (cV 2) (cA (cA (cA (cN (-3)) (cV 2)) (cM (cN 8) (cW (cV 2) 4))) (cM (cN 4) (cW (cV 2) 6)))) (cH 1)))))) (cD (cM (cM (cA (cN 3) (cM (cN 2) (cH 1))) (cA (cN (-1)) (cM (cN 2) (cV 2)))) (cA (cA (cN (-3)) (cM (cN 3) (cV 2))) (cM (cN 2) (cW (cV 2) 4)))) (cM (cM (cW (cA (cN 1) (cH 1)) 3) (cA (cN 1) (cV 2))) (cR (cD (cM (cV 2) (cA (cA (cA (cN (-3)) (cV 2)) (cM (cN 8) (cW (cV 2) 4))) (cM (cN 4) (cW (cV 2) 6)))) (cH 1)))))) (cD (cB (cB (cA (cN (-3)) (cM (cN 9) (cV 2))) (cM (cN 4) (cW (cV 2) 4))) (cM (cN 4) (cW (cV 2) 6))) (cM (cM (cW (cA (cN 1) (cH 1)) 3) (cA (cN 1) (cV 2))) (cR (cD (cM (cV 2) (cA (cA (cA (cN (-3)) (cV 2)) (cM (cN 8) (cW (cV 2) 4))) (cM (cN 4) (cW (cV 2) 6)))) (cH 1)))))) (cD (cM (cM (cM (cM (cN 3) (cH 1)) (cA (cN 3) (cM (cN 2) (cH 1)))) (cA (cN 2) (cV 2))) (cA (cN (-1)) (cM (cN 2) (cV 2)))) (cM (cM (cA (cN 1) (cH 1)) (cA (cN 1) (cV 2))) (cR (cM (cM (cM (cH 1) (cA (cN 1) (cH 1))) (cV 2)) (cA (cA (cA (cN (-3)) (cV 2)) (cM (cN 8) (cW (cV 2) 4))) (cM (cN 4) (cW (cV 2) 6)))))))) (cM (cN 4) (cR (cN 3)))).
Definition QST_e980 := (cD (cA (cB (cA (cB (cA (cD (cM (cM (cN (-3)) (cH 1)) (cA (cN 2) (cV 2))) (cM (cA (cN 3) (cM (cN 2) (cV 2))) (cR (cM (cM (cH 1) (cA (cN 1) (cH 1))) (cA (cA (cN 2) (cM (cN 3) (cV 2))) (cW (cV 2) 4)))))) (cD (cM (cM (cM (cN 3) (cH 1)) (cA (cN 3) (cM (cN 2) (cH 1)))) (cA (cN 2) (cV 2))) (cM (cA (cN 3) (cM (cN 2) (cV 2))) (cR (cM (cM (cH 1) (cA (cN 1) (cH 1))) (cA (cA (cN 2) (cM (cN 3) (cV 2))) (cW (cV 2) 4))))))) (cD (cM (cM (cM (cN 4) (cH 1)) (cV 2)) (cA (cN 2) (cV 2))) (cM (cA (cN 3) (cM (cN 2) (cV 2))) (cR (cM (cM (cH 1) (cA (cN 1) (cH 1))) (cA (cA (cN 2) (cM (cN 3) (cV 2))) (cW (cV 2) 4))))))) (cD (cM (cM (cM (cM (cN 4) (cH 1)) (cA (cN 3) (cM (cN 2) (cH 1)))) (cV 2)) (cA (cN 2) (cV 2))) (cM (cA (cN 3) (cM (cN 2) (cV 2))) (cR (cM (cM (cH 1) (cA (cN 1) (cH 1))) (cA (cA (cN 2) (cM (cN 3) (cV 2))) (cW (cV 2) 4))))))) (cD (cM (cM (cM (cH 1) (cV 2)) (cA (cN 2) (cV 2))) (cA (cN 1) (cM (cN 2) (cV 2)))) (cM (cA (cN 3) (cM (cN 2) (cV 2))) (cR (cM (cM (cH 1) (cA (cN 1) (cH 1))) (cA (cA (cN 2) (cM (cN 3) (cV 2))) (cW (cV 2) 4))))))) (cD (cM (cV 2) (cA (cA (cA (cD (cM (cM (cH 1) (cA (cN 1) (cM (cN 2) (cH 1)))) (cA (cN 1) (cM (cN 2) (cV 2)))) (cR (cD (cM (cA (cN 1) (cH 1)) (cA (cN 3) (cM (cN 2) (cV 2)))) (cA (cN 1) (cV 2))))) (cM (cN 2) (cR (cD (cM (cA (cN 1) (cV 2)) (cW (cA (cH 1) (cM (cM (cN 2) (cH 1)) (cV 2))) 4)) (cM (cA (cN 1) (cH 1)) (cA (cN 3) (cM (cN 2) (cV 2)))))))) (cD (cM (cM (cN 2) (cH 1)) (cA (cN 1) (cM (cN 2) (cV 2)))) (cR (cM (cA (cN 1) (cH 1)) (cA (cA (cN 3) (cM (cN 5) (cV 2))) (cM (cN 2) (cW (cV 2) 4))))))) (cD (cM (cM (cH 1) (cA (cN 1) (cM (cN 2) (cH 1)))) (cA (cN 1) (cM (cN 2) (cV 2)))) (cR (cM (cA (cN 1) (cH 1)) (cA (cA (cN 3) (cM (cN 5) (cV 2))) (cM (cN 2) (cW (cV 2) 4)))))))) (cR (cM (cH 1) (cA (cA (cN 6) (cM (cN 7) (cV 2))) (cM (cN 2) (cW (cV 2) 4))))))) (cM (cM (cN 4) (cA (cN 1) (cH 1))) (cA (cN 1) (cV 2)))).
Definition QST_e981 := (cD (cA (cA (cA (cD (cM (cB (cB (cN 3) (cM (cN 4) (cH 1))) (cM (cN 4) (cW (cH 1) 4))) (cV 2)) (cR (cM (cM (cM (cH 1) (cW (cA (cN 1) (cH 1)) 4)) (cA (cN (-1)) (cM (cN 2) (cH 1)))) (cW (cA (cN 1) (cV 2)) 4)))) (cD (cR (cB (cN 2) (cD (cN 1) (cH 1)))) (cA (cA (cA (cN 1) (cH 1)) (cV 2)) (cM (cH 1) (cV 2))))) (cD (cM (cR (cB (cN 2) (cD (cN 1) (cH 1)))) (cV 2)) (cA (cA (cA (cN 1) (cH 1)) (cV 2)) (cM (cH 1) (cV 2))))) (cD (cB (cA (cM (cN (-3)) (cR (cD (cM (cA (cN (-1)) (cM (cN 2) (cH 1))) (cV 2)) (cA (cN 1) (cH 1))))) (cM (cM (cN 2) (cH 1)) (cR (cD (cV 2) (cA (cA (cN (-1)) (cH 1)) (cM (cN 2) (cW (cH 1) 4))))))) (cM (cM (cN 4) (cW (cH 1) 4)) (cR (cD (cV 2) (cA (cA (cN (-1)) (cH 1)) (cM (cN 2) (cW (cH 1) 4))))))) (cM (cR (cM (cM (cH 1) (cA (cN 1) (cH 1))) (cV 2))) (cA (cN 1) (cV 2))))) (cM (cN 2) (cR (cN 3)))).
Definition QST_e982 := (cA (cB (cB (cA (cA (cD (cM (cH 1) (cA (cN 2) (cV 2))) (cM (cM (cN 2) (cA (cN 1) (cV 2))) (cR (cD (cM (cM (cM (cH 1) (cA (cN 1) (cH 1))) (cA (cN 1) (cV 2))) (cA (cN 3) (cM (cN 2) (cV 2)))) (cM (cV 2) (cA (cN 1) (cM (cN 2) (cV 2)))))))) (cD (cV 2) (cM (cM (cH 1) (cA (cN 1) (cV 2))) (cR (cD (cM (cM (cM (cA (cN 1) (cH 1)) (cV 2)) (cA (cN 3) (cM (cN 2) (cV 2)))) (cA (cA (cN 1) (cM (cN 3) (cV 2))) (cM (cN 2) (cW (cV 2) 4)))) (cH 1)))))) (cD (cM (cH 1) (cV 2)) (cM (cA (cN 1) (cV 2)) (cR (cM (cM (cM (cM (cH 1) (cA (cN 1) (cH 1))) (cV 2)) (cA (cN 1) (cV 2))) (cA (cA (cN 3) (cM (cN 8) (cV 2))) (cM (cN 4) (cW (cV 2) 4)))))))) (cD (cV 2) (cM (cN 2) (cR (cM (cM (cM (cM (cH 1) (cA (cN 1) (cH 1))) (cV 2)) (cW (cA (cN 1) (cV 2)) 6)) (cA (cA (cN 3) (cM (cN 8) (cV 2))) (cM (cN 4) (cW (cV 2) 4)))))))) (cD (cR (cD (cM (cH 1) (cV 2)) (cM (cA (cN 1) (cH 1)) (cA (cA (cA (cN 3) (cM (cN 11) (cV 2))) (cM (cN 12) (cW (cV 2) 4))) (cM (cN 4) (cW (cV 2) 6)))))) (cA (cN 2) (cM (cN 2) (cV 2))))) (cD (cM (cV 2) (cA (cR (cD (cM (cH 1) (cA (cN 1) (cM (cN 2) (cV 2)))) (cA (cN 1) (cV 2)))) (cR (cM (cH 1) (cA (cA (cN 1) (cM (cN 3) (cV 2))) (cM (cN 2) (cW (cV 2) 4))))))) (cM (cM (cM (cN 2) (cH 1)) (cA (cN 1) (cV 2))) (cR (cM (cM (cA (cN 1) (cH 1)) (cV 2)) (cA (cN 3) (cM (cN 2) (cV 2)))))))).
Definition QST_e983 := (cA (cA (cA (cD (cM (cM (cH 1) (cA (cN 2) (cV 2))) (cA (cN 1) (cM (cN 2) (cV 2)))) (cM (cM (cA (cN 1) (cV 2)) (cA (cN 3) (cM (cN 2) (cV 2)))) (cR (cM (cM (cH 1) (cA (cN 1) (cH 1))) (cA (cA (cN 2) (cM (cN 3) (cV 2))) (cW (cV 2) 4)))))) (cD (cA (cA (cA (cN 2) (cM (cN 3) (cV 2))) (cM (cN 5) (cW (cV 2) 4))) (cM (cN 2) (cW (cV 2) 6))) (cM (cM (cM (cN 2) (cH 1)) (cR (cD (cM (cA (cN 1) (cH 1)) (cA (cA (cN 2) (cM (cN 3) (cV 2))) (cW (cV 2) 4))) (cH 1)))) (cA (cA (cN 3) (cM (cN 5) (cV 2))) (cM (cN 2) (cW (cV 2) 4)))))) (cD (cM (cA (cN 1) (cM (cN 2) (cV 2))) (cA (cR (cD (cM (cH 1) (cA (cN 1) (cV 2))) (cA (cN 2) (cV 2)))) (cR (cD (cH 1) (cA (cA (cN 2) (cM (cN 3) (cV 2))) (cW (cV 2) 4)))))) (cM (cM (cH 1) (cR (cA (cN 1) (cH 1)))) (cA (cA (cN 3) (cM (cN 5) (cV 2))) (cM (cN 2) (cW (cV 2) 4)))))) (cD (cM (cH 1) (cA (cD (cM (cW (cA (cN 1) (cV 2)) 3) (cA (cN 1) (cM (cN 2) (cV 2)))) (cR (cM (cM (cM (cH 1) (cA (cN 1) (cH 1))) (cA (cN 3) (cM (cN 2) (cV 2)))) (cA (cA (cN 2) (cM (cN 3) (cV 2))) (cW (cV 2) 4))))) (cD (cB (cN 1) (cV 2)) (cR (cM (cM (cM (cH 1) (cA (cN 1) (cH 1))) (cW (cA (cN 1) (cV 2)) 4)) (cA (cA (cN 6) (cM (cN 7) (cV 2))) (cM (cN 2) (cW (cV 2) 4)))))))) (cM (cN 2) (cR (cA (cA (cN 3) (cM (cN 5) (cV 2))) (cM (cN 2) (cW (cV 2) 4))))))).
Definition QST_e984 := (cD (cM (cV 2) (cB (cB (cB (cA (cD (cA (cN 2) (cV 2)) (cM (cM (cA (cN 1) (cH 1)) (cA (cN 1) (cV 2))) (cR (cD (cM (cM (cA (cN 1) (cH 1)) (cV 2)) (cA (cA (cN 3) (cM (cN 5) (cV 2))) (cM (cN 2) (cW (cV 2) 4)))) (cA (cH 1) (cM (cM (cN 2) (cH 1)) (cV 2))))))) (cD (cM (cM (cN 2) (cV 2)) (cR (cD (cH 1) (cA (cA (cN 3) (cM (cN 8) (cV 2))) (cM (cN 4) (cW (cV 2) 4)))))) (cW (cM (cM (cA (cN 1) (cH 1)) (cV 2)) (cA (cN 1) (cV 2))) 3))) (cD (cH 1) (cM (cM (cW (cA (cN 1) (cH 1)) 3) (cA (cN 1) (cV 2))) (cR (cM (cM (cH 1) (cV 2)) (cA (cA (cA (cN 3) (cM (cN 11) (cV 2))) (cM (cN 12) (cW (cV 2) 4))) (cM (cN 4) (cW (cV 2) 6)))))))) (cD (cM (cH 1) (cA (cN 3) (cM (cN 2) (cH 1)))) (cM (cM (cA (cN 1) (cH 1)) (cA (cN 1) (cV 2))) (cR (cM (cM (cM (cH 1) (cA (cN 1) (cH 1))) (cV 2)) (cA (cA (cA (cN 3) (cM (cN 11) (cV 2))) (cM (cN 12) (cW (cV 2) 4))) (cM (cN 4) (cW (cV 2) 6)))))))) (cD (cM (cM (cH 1) (cA (cN 3) (cM (cN 2) (cH 1)))) (cA (cR (cD (cA (cN 1) (cM (cN 2) (cV 2))) (cA (cA (cA (cN 1) (cH 1)) (cV 2)) (cM (cH 1) (cV 2))))) (cR (cD (cA (cA (cN 1) (cM (cN 3) (cV 2))) (cM (cN 2) (cW (cV 2) 4))) (cA (cN 1) (cH 1)))))) (cM (cM (cA (cN 1) (cH 1)) (cA (cN 1) (cV 2))) (cR (cM (cM (cH 1) (cV 2)) (cA (cN 3) (cM (cN 2) (cV 2))))))))) (cN 4)).
Definition QST_e985 := (cD (cB (cA (cB (cB (cD (cM (cM (cM (cN 2) (cH 1)) (cA (cN 2) (cV 2))) (cA (cN 1) (cM (cN 2) (cV 2)))) (cM (cA (cN 1) (cV 2)) (cR (cM (cM (cM (cH 1) (cW (cA (cN 1) (cH 1)) 6)) (cW (cA (cN 3) (cM (cN 2) (cV 2))) 4)) (cA (cA (cN 2) (cM (cN 3) (cV 2))) (cW (cV 2) 4)))))) (cD (cM (cM (cA (cN 3) (cM (cN 2) (cH 1))) (cR (cD (cH 1) (cA (cA (cN 2) (cM (cN 3) (cV 2))) (cW (cV 2) 4))))) (cA (cA (cA (cN 2) (cM (cN 3) (cV 2))) (cM (cN 5) (cW (cV 2) 4))) (cM (cN 2) (cW (cV 2) 6)))) (cM (cW (cA (cN 1) (cH 1)) 3) (cA (cA (cN 3) (cM (cN 5) (cV 2))) (cM (cN 2) (cW (cV 2) 4)))))) (cD (cM (cM (cA (cN 3) (cM (cN 2) (cH 1))) (cA (cN 1) (cM (cN 2) (cV 2)))) (cA (cR (cD (cM (cH 1) (cA (cN 1) (cV 2))) (cM (cA (cN 1) (cH 1)) (cA (cN 2) (cV 2))))) (cR (cD (cH 1) (cM (cA (cN 1) (cH 1)) (cA (cA (cN 2) (cM (cN 3) (cV 2))) (cW (cV 2) 4))))))) (cM (cA (cN 1) (cH 1)) (cA (cA (cN 3) (cM (cN 5) (cV 2))) (cM (cN 2) (cW (cV 2) 4)))))) (cD (cB (cB (cB (cO (cD (cM (cM (cH 1) (cA (cN 1) (cM (cN 2) (cH 1)))) (cA (cN 1) (cM (cN 2) (cV 2)))) (cR (cD (cM (cA (cN 1) (cH 1)) (cA (cN 2) (cV 2))) (cA (cN 1) (cV 2)))))) (cM (cM (cM (cN 2) (cH 1)) (cA (cN 1) (cM (cN 2) (cV 2)))) (cR (cD (cA (cN 1) (cV 2)) (cA (cA (cA (cN 2) (cM (cN 2) (cH 1))) (cV 2)) (cM (cH 1) (cV 2))))))) (cD (cM (cM (cH 1) (cA (cN 1) (cM (cN 2) (cH 1)))) (cA (cN 1) (cM (cN 2) (cV 2)))) (cR (cM (cA (cN 1) (cH 1)) (cA (cA (cN 2) (cM (cN 3) (cV 2))) (cW (cV 2) 4)))))) (cD (cM (cN 2) (cA (cH 1) (cM (cM (cN 2) (cH 1)) (cV 2)))) (cR (cM (cA (cN 1) (cH 1)) (cA (cA (cN 2) (cM (cN 3) (cV 2))) (cW (cV 2) 4)))))) (cM (cM (cR (cH 1)) (cA (cN 1) (cH 1))) (cA (cA (cN 3) (cM (cN 5) (cV 2))) (cM (cN 2) (cW (cV 2) 4)))))) (cD (cM (cH 1) (cB (cD (cA (cN (-1)) (cV 2)) (cR (cM (cM (cM (cH 1) (cA (cN 1) (cH 1))) (cW (cA (cN 1) (cV 2)) 4)) (cA (cA (cN 6) (cM (cN 7) (cV 2))) (cM (cN 2) (cW (cV 2) 4)))))) (cD (cM (cW (cA (cN 1) (cV 2)) 3) (cA (cN 1) (cM (cN 2) (cV 2)))) (cR (cM (cM (cH 1) (cA (cN 1) (cH 1))) (cA (cA (cA (cN 6) (cM (cN 13) (cV 2))) (cM (cN 9) (cW (cV 2) 4))) (cM (cN 2) (cW (cV 2) 6)))))))) (cR (cM (cW (cA (cN 1) (cH 1)) 4) (cA (cA (cN 3) (cM (cN 5) (cV 2))) (cM (cN 2) (cW (cV 2) 4))))))) (cN 4)).
Definition QST_e986 := (cD (cA (cA (cB (cB (cA (cO (cD (cM (cM (cH 1) (cV 2)) (cA (cN (-1)) (cM (cN 2) (cV 2)))) (cR (cM (cM (cM (cM (cM (cH 1) (cA (cN 1) (cH 1))) (cV 2)) (cW (cA (cN 1) (cV 2)) 6)) (cW (cA (cN 3) (cM (cN 2) (cV 2))) 4)) (cA (cN (-1)) (cM (cN 4) (cW (cV 2) 4))))))) (cD (cB (cV 2) (cM (cN 2) (cW (cV 2) 4))) (cR (cM (cM (cM (cM (cM (cH 1) (cA (cN 1) (cH 1))) (cV 2)) (cW (cA (cN 1) (cV 2)) 6)) (cW (cA (cN 3) (cM (cN 2) (cV 2))) 4)) (cA (cN (-1)) (cM (cN 4) (cW (cV 2) 4))))))) (cD (cM (cM (cV 2) (cA (cN (-1)) (cM (cN 2) (cV 2)))) (cA (cA (cN 10) (cM (cN 9) (cV 2))) (cM (cN 2) (cW (cV 2) 4)))) (cM (cM (cH 1) (cA (cA (cN 3) (cM (cN 5) (cV 2))) (cM (cN 2) (cW (cV 2) 4)))) (cR (cD (cM (cM (cA (cN 1) (cH 1)) (cV 2)) (cA (cA (cB (cN (-1)) (cV 2)) (cM (cN 4) (cW (cV 2) 4))) (cM (cN 4) (cW (cV 2) 6)))) (cH 1)))))) (cD (cM (cM (cM (cH 1) (cV 2)) (cA (cN (-1)) (cM (cN 2) (cV 2)))) (cA (cA (cN 10) (cM (cN 9) (cV 2))) (cM (cN 2) (cW (cV 2) 4)))) (cM (cM (cA (cN 1) (cV 2)) (cA (cN 3) (cM (cN 2) (cV 2)))) (cR (cM (cM (cM (cH 1) (cA (cN 1) (cH 1))) (cV 2)) (cA (cA (cB (cN (-1)) (cV 2)) (cM (cN 4) (cW (cV 2) 4))) (cM (cN 4) (cW (cV 2) 6)))))))) (cD (cM (cM (cN 2) (cR (cD (cA (cN (-1)) (cM (cN 2) (cV 2))) (cA (cN 1) (cH 1))))) (cA (cR (cD (cM (cM (cH 1) (cV 2)) (cA (cN 1) (cM (cN 2) (cV 2)))) (cA (cN 1) (cV 2)))) (cM (cN 3) (cR (cD (cM (cH 1) (cV 2)) (cA (cA (cN 1) (cM (cN 3) (cV 2))) (cM (cN 2) (cW (cV 2) 4)))))))) (cM (cH 1) (cA (cA (cN 3) (cM (cN 5) (cV 2))) (cM (cN 2) (cW (cV 2) 4)))))) (cD (cM (cM (cM (cN 2) (cH 1)) (cA (cN (-1)) (cM (cN 2) (cV 2)))) (cA (cR (cD (cM (cV 2) (cA (cN 1) (cM (cN 2) (cV 2)))) (cM (cA (cN 1) (cH 1)) (cA (cN 3) (cM (cN 2) (cV 2)))))) (cM (cN 3) (cR (cD (cV 2) (cM (cA (cN 1) (cH 1)) (cA (cA (cN 3) (cM (cN 8) (cV 2))) (cM (cN 4) (cW (cV 2) 4))))))))) (cM (cA (cN 1) (cV 2)) (cR (cM (cH 1) (cA (cA (cA (cN (-3)) (cV 2)) (cM (cN 8) (cW (cV 2) 4))) (cM (cN 4) (cW (cV 2) 6)))))))) (cM (cN 2) (cR (cN 3)))).
Definition QST_e987 := (cD (cB (cA (cA (cB (cA (cD (cA (cN 1) (cM (cN 2) (cV 2))) (cM (cM (cR (cD (cM (cH 1) (cA (cN 1) (cH 1))) (cV 2))) (cW (cA (cN 1) (cV 2)) 3)) (cA (cN 3) (cM (cN 2) (cV 2))))) (cD (cM (cM (cH 1) (cV 2)) (cA (cN 1) (cM (cN 2) (cV 2)))) (cM (cM (cA (cN 1) (cV 2)) (cR (cM (cM (cM (cH 1) (cA (cN 1) (cH 1))) (cV 2)) (cA (cN 1) (cV 2))))) (cA (cN 3) (cM (cN 2) (cV 2)))))) (cD (cM (cM (cH 1) (cV 2)) (cA (cN 5) (cM (cN 2) (cV 2)))) (cM (cM (cA (cN 1) (cV 2)) (cR (cM (cM (cM (cH 1) (cA (cN 1) (cH 1))) (cV 2)) (cA (cN 1) (cV 2))))) (cA (cN 3) (cM (cN 2) (cV 2)))))) (cD (cB (cB (cV 2) (cM (cN 5) (cW (cV 2) 4))) (cM (cN 2) (cW (cV 2) 6))) (cM (cR (cM (cM (cM (cH 1) (cA (cN 1) (cH 1))) (cV 2)) (cA (cN 1) (cV 2)))) (cA (cA (cN 3) (cM (cN 5) (cV 2))) (cM (cN 2) (cW (cV 2) 4)))))) (cD (cB (cB (cO (cM (cR (cD (cM (cV 2) (cA (cN 1) (cV 2))) (cA (cN 2) (cV 2)))) (cA (cN 1) (cM (cN 2) (cV 2))))) (cM (cN 6) (cR (cD (cV 2) (cA (cA (cN 2) (cM (cN 3) (cV 2))) (cW (cV 2) 4)))))) (cM (cM (cN 3) (cA (cN 1) (cM (cN 2) (cV 2)))) (cR (cD (cV 2) (cA (cA (cN 2) (cM (cN 3) (cV 2))) (cW (cV 2) 4)))))) (cM (cR (cM (cM (cH 1) (cA (cN 1) (cH 1))) (cA (cN 2) (cV 2)))) (cA (cA (cN 3) (cM (cN 5) (cV 2))) (cM (cN 2) (cW (cV 2) 4)))))) (cM (cM (cH 1) (cR (cD (cV 2) (cA (cA (cA (cN 6) (cM (cN 13) (cV 2))) (cM (cN 9) (cW (cV 2) 4))) (cM (cN 2) (cW (cV 2) 6)))))) (cA (cA (cD (cM (cM (cN 2) (cV 2)) (cA (cN 1) (cM (cN 2) (cV 2)))) (cM (cA (cN 1) (cV 2)) (cR (cM (cM (cH 1) (cA (cN 1) (cH 1))) (cA (cA (cN 6) (cM (cN 7) (cV 2))) (cM (cN 2) (cW (cV 2) 4))))))) (cD (cM (cN 3) (cA (cN (-1)) (cV 2))) (cR (cM (cM (cM (cH 1) (cA (cN 1) (cH 1))) (cW (cA (cN 1) (cV 2)) 4)) (cA (cA (cN 6) (cM (cN 7) (cV 2))) (cM (cN 2) (cW (cV 2) 4))))))) (cD (cM (cW (cA (cN 1) (cV 2)) 3) (cA (cN 1) (cM (cN 2) (cV 2)))) (cR (cM (cM (cH 1) (cA (cN 1) (cH 1))) (cA (cA (cA (cN 6) (cM (cN 13) (cV 2))) (cM (cN 9) (cW (cV 2) 4))) (cM (cN 2) (cW (cV 2) 6))))))))) (cN 2)).
Definition QST_e988 := (cD (cA (cA (cB (cB (cA (cD (cB (cN (-1)) (cM (cN 2) (cV 2))) (cM (cR (cA (cN 1) (cD (cN 1) (cH 1)))) (cA (cN 3) (cM (cN 2) (cV 2))))) (cD (cB (cN (-1)) (cM (cN 2) (cV 2))) (cM (cR (cM (cH 1) (cA (cN 1) (cH 1)))) (cA (cN 3) (cM (cN 2) (cV 2)))))) (cD (cN 1) (cM (cR (cM (cH 1) (cA (cN 1) (cH 1)))) (cA (cA (cN 3) (cM (cN 5) (cV 2))) (cM (cN 2) (cW (cV 2) 4)))))) (cD (cH 1) (cM (cR (cM (cH 1) (cA (cN 1) (cH 1)))) (cA (cA (cN 3) (cM (cN 5) (cV 2))) (cM (cN 2) (cW (cV 2) 4)))))) (cD (cB (cN (-1)) (cM (cN 2) (cV 2))) (cM (cR (cM (cH 1) (cA (cN 1) (cH 1)))) (cA (cA (cN 3) (cM (cN 5) (cV 2))) (cM (cN 2) (cW (cV 2) 4)))))) (cD (cM (cH 1) (cB (cB (cO (cR (cD (cM (cW (cA (cN 1) (cM (cN 2) (cV 2))) 4) (cA (cA (cN 3) (cM (cN 5) (cV 2))) (cM (cN 2) (cW (cV 2) 4)))) (cM (cM (cH 1) (cA (cN 1) (cH 1))) (cA (cA (cN 10) (cM (cN 9) (cV 2))) (cM (cN 2) (cW (cV 2) 4))))))) (cD (cM (cN 4) (cA (cN 1) (cM (cN 2) (cV 2)))) (cR (cD (cM (cM (cH 1) (cA (cN 1) (cH 1))) (cA (cA (cA (cN 30) (cM (cN 47) (cV 2))) (cM (cN 24) (cW (cV 2) 4))) (cM (cN 4) (cW (cV 2) 6)))) (cA (cN 1) (cV 2)))))) (cD (cM (cN 3) (cA (cN 1) (cM (cN 2) (cV 2)))) (cR (cM (cM (cH 1) (cA (cN 1) (cH 1))) (cA (cA (cA (cA (cN 30) (cM (cN 77) (cV 2))) (cM (cN 71) (cW (cV 2) 4))) (cM (cN 28) (cW (cV 2) 6))) (cM (cN 4) (cW (cV 2) 8)))))))) (cR (cA (cA (cA (cA (cN 30) (cM (cN 77) (cV 2))) (cM (cN 71) (cW (cV 2) 4))) (cM (cN 28) (cW (cV 2) 6))) (cM (cN 4) (cW (cV 2) 8)))))) (cR (cN 2))).
Definition QST_e989 := (cD (cA (cB (cB (cA (cB (cD (cM (cM (cM (cH 1) (cA (cN 3) (cM (cN 2) (cH 1)))) (cV 2)) (cA (cN (-1)) (cM (cN 2) (cV 2)))) (cM (cA (cN 1) (cH 1)) (cR (cM (cM (cM (cM (cM (cH 1) (cA (cN 1) (cH 1))) (cV 2)) (cW (cA (cN 1) (cV 2)) 6)) (cW (cA (cN 3) (cM (cN 2) (cV 2))) 4)) (cA (cN (-1)) (cM (cN 4) (cW (cV 2) 4))))))) (cD (cM (cM (cH 1) (cV 2)) (cA (cN (-1)) (cM (cN 2) (cV 2)))) (cM (cM (cW (cA (cN 1) (cH 1)) 3) (cA (cA (cN 3) (cM (cN 5) (cV 2))) (cM (cN 2) (cW (cV 2) 4)))) (cR (cM (cM (cH 1) (cV 2)) (cA (cA (cB (cN (-1)) (cV 2)) (cM (cN 4) (cW (cV 2) 4))) (cM (cN 4) (cW (cV 2) 6)))))))) (cD (cM (cM (cM (cM (cN 4) (cH 1)) (cV 2)) (cA (cN 2) (cV 2))) (cA (cN (-1)) (cM (cN 2) (cV 2)))) (cM (cM (cM (cA (cN 1) (cH 1)) (cA (cN 1) (cV 2))) (cA (cN 3) (cM (cN 2) (cV 2)))) (cR (cM (cM (cM (cH 1) (cA (cN 1) (cH 1))) (cV 2)) (cA (cA (cB (cN (-1)) (cV 2)) (cM (cN 4) (cW (cV 2) 4))) (cM (cN 4) (cW (cV 2) 6)))))))) (cD (cM (cM (cM (cH 1) (cV 2)) (cA (cN (-1)) (cM (cN 2) (cV 2)))) (cA (cA (cN 10) (cM (cN 9) (cV 2))) (cM (cN 2) (cW (cV 2) 4)))) (cM (cA (cN 1) (cV 2)) (cR (cM (cM (cM (cM (cH 1) (cW (cA (cN 1) (cH 1)) 6)) (cV 2)) (cW (cA (cN 3) (cM (cN 2) (cV 2))) 4)) (cA (cA (cB (cN (-1)) (cV 2)) (cM (cN 4) (cW (cV 2) 4))) (cM (cN 4) (cW (cV 2) 6)))))))) (cD (cM (cM (cN 2) (cR (cA (cN (-1)) (cM (cN 2) (cV 2))))) (cA (cA (cA (cM (cN 3) (cR (cD (cM (cM (cH 1) (cV 2)) (cA (cN 1) (cM (cN 2) (cV 2)))) (cM (cA (cN 1) (cH 1)) (cA (cN 1) (cV 2)))))) (cM (cN 2) (cR (cD (cM (cM (cW (cH 1) 6) (cV 2)) (cA (cN 1) (cM (cN 2) (cV 2)))) (cM (cA (cN 1) (cH 1)) (cA (cN 1) (cV 2))))))) (cM (cN 9) (cR (cD (cM (cH 1) (cV 2)) (cM (cA (cN 1) (cH 1)) (cA (cA (cN 1) (cM (cN 3) (cV 2))) (cM (cN 2) (cW (cV 2) 4)))))))) (cM (cM (cN 6) (cH 1)) (cR (cD (cM (cH 1) (cV 2)) (cM (cA (cN 1) (cH 1)) (cA (cA (cN 1) (cM (cN 3) (cV 2))) (cM (cN 2) (cW (cV 2) 4))))))))) (cM (cA (cN 1) (cH 1)) (cA (cA (cN 3) (cM (cN 5) (cV 2))) (cM (cN 2) (cW (cV 2) 4)))))) (cD (cM (cH 1) (cA (cA (cA (cA (cB (cA (cB (cB (cA (cD (cM (cN (-6)) (cV 2)) (cR (cD (cM (cA (cN 1) (cH 1)) (cA (cN 1) (cV 2))) (cA (cN 1) (cM (cN 2) (cV 2)))))) (cD (cM (cM (cN 6) (cA (cN 1) (cM (cN 2) (cH 1)))) (cW (cV 2) 4)) (cR (cD (cM (cA (cN 1) (cH 1)) (cA (cN 1) (cV 2))) (cA (cN 1) (cM (cN 2) (cV 2))))))) (cM (cN 3) (cR (cD (cM (cA (cN 1) (cM (cN 2) (cV 2))) (cW (cA (cV 2) (cM (cM (cN 2) (cH 1)) (cV 2))) 4)) (cM (cA (cN 1) (cH 1)) (cA (cN 1) (cV 2))))))) (cD (cM (cA (cN 1) (cM (cN 2) (cH 1))) (cV 2)) (cR (cD (cA (cN 1) (cH 1)) (cA (cA (cN 1) (cM (cN 3) (cV 2))) (cM (cN 2) (cW (cV 2) 4))))))) (cD (cM (cM (cN 2) (cA (cN 1) (cM (cN 2) (cH 1)))) (cW (cV 2) 4)) (cR (cD (cA (cN 1) (cH 1)) (cA (cA (cN 1) (cM (cN 3) (cV 2))) (cM (cN 2) (cW (cV 2) 4))))))) (cM (cM (cN 2) (cV 2)) (cR (cD (cA (cA (cN 1) (cM (cN 3) (cV 2))) (cM (cN 2) (cW (cV 2) 4))) (cA (cN 1) (cH 1)))))) (cM (cM (cN 4) (cW (cV 2) 4)) (cR (cD (cA (cA (cN 1) (cM (cN 3) (cV 2))) (cM (cN 2) (cW (cV 2) 4))) (cA (cN 1) (cH 1)))))) (cD (cM (cM (cN 12) (cV 2)) (cA (cN (-1)) (cM (cN 2) (cV 2)))) (cR (cM (cA (cN 1) (cH 1)) (cA (cA (cN 1) (cM (cN 3) (cV 2))) (cM (cN 2) (cW (cV 2) 4))))))) (cD (cM (cM (cM (cN 6) (cA (cN 1) (cM (cN 2) (cH 1)))) (cV 2)) (cA (cN (-1)) (cM (cN 2) (cV 2)))) (cR (cM (cA (cN 1) (cH 1)) (cA (cA (cN 1) (cM (cN 3) (cV 2))) (cM (cN 2) (cW (cV 2) 4))))))) (cM (cN 12) (cR (cD (cA (cW (cV 2) 8) (cM (cN 2) (cW (cV 2) 10))) (cA (cA (cA (cN 1) (cH 1)) (cV 2)) (cM (cH 1) (cV 2)))))))) (cM (cM (cA (cN 1) (cH 1)) (cR (cM (cM (cH 1) (cV 2)) (cA (cN (-1)) (cM (cN 2) (cV 2)))))) (cA (cA (cN 3) (cM (cN 5) (cV 2))) (cM (cN 2) (cW (cV 2) 4)))))) (cM (cN 4) (cR (cN 3)))).
Definition QST_e990 := (cD (cA (cB (cA (cB (cB (cD (cM (cR (cM (cH 1) (cV 2))) (cA (cN 1) (cM (cN 2) (cV 2)))) (cM (cW (cM (cA (cN 1) (cH 1)) (cA (cN 1) (cV 2))) 3) (cA (cN 3) (cM (cN 2) (cV 2))))) (cD (cM (cM (cM (cR (cH 1)) (cA (cN 3) (cM (cN 2) (cH 1)))) (cW (cV 2) 4)) (cA (cN 1) (cM (cN 2) (cV 2)))) (cM (cW (cM (cM (cA (cN 1) (cH 1)) (cV 2)) (cA (cN 1) (cV 2))) 3) (cA (cN 3) (cM (cN 2) (cV 2)))))) (cD (cM (cM (cW (cH 1) 4) (cW (cV 2) 4)) (cA (cN 5) (cM (cN 2) (cV 2)))) (cM (cW (cM (cM (cM (cH 1) (cA (cN 1) (cH 1))) (cV 2)) (cA (cN 1) (cV 2))) 3) (cA (cN 3) (cM (cN 2) (cV 2)))))) (cD (cM (cM (cM (cH 1) (cA (cN 3) (cM (cN 2) (cH 1)))) (cV 2)) (cA (cA (cN (-1)) (cM (cN 5) (cV 2))) (cM (cN 2) (cW (cV 2) 4)))) (cM (cM (cA (cN 1) (cH 1)) (cR (cM (cM (cM (cH 1) (cA (cN 1) (cH 1))) (cV 2)) (cA (cN 1) (cV 2))))) (cA (cA (cN 3) (cM (cN 5) (cV 2))) (cM (cN 2) (cW (cV 2) 4)))))) (cD (cM (cM (cH 1) (cV 2)) (cA (cA (cD (cM (cM (cN 2) (cV 2)) (cA (cN 1) (cM (cN 2) (cV 2)))) (cM (cA (cN 1) (cV 2)) (cR (cM (cM (cH 1) (cA (cN 1) (cH 1))) (cA (cA (cN 6) (cM (cN 7) (cV 2))) (cM (cN 2) (cW (cV 2) 4))))))) (cD (cM (cN 3) (cA (cN (-1)) (cV 2))) (cR (cM (cM (cM (cH 1) (cA (cN 1) (cH 1))) (cW (cA (cN 1) (cV 2)) 4)) (cA (cA (cN 6) (cM (cN 7) (cV 2))) (cM (cN 2) (cW (cV 2) 4))))))) (cD (cM (cW (cA (cN 1) (cV 2)) 3) (cA (cN 1) (cM (cN 2) (cV 2)))) (cR (cM (cM (cH 1) (cA (cN 1) (cH 1))) (cA (cA (cA (cN 6) (cM (cN 13) (cV 2))) (cM (cN 9) (cW (cV 2) 4))) (cM (cN 2) (cW (cV 2) 6)))))))) (cR (cM (cM (cW (cA (cN 1) (cH 1)) 4) (cV 2)) (cA (cA (cA (cN 6) (cM (cN 13) (cV 2))) (cM (cN 9) (cW (cV 2) 4))) (cM (cN 2) (cW (cV 2) 6))))))) (cD (cM (cM (cA (cN 3) (cM (cN 2) (cH 1))) (cR (cM (cH 1) (cV 2)))) (cA (cA (cM (cN 9) (cR (cD (cM (cA (cN 1) (cH 1)) (cA (cN 2) (cV 2))) (cA (cN 1) (cV 2))))) (cR (cM (cA (cN 1) (cH 1)) (cA (cA (cN 2) (cM (cN 3) (cV 2))) (cW (cV 2) 4))))) (cM (cM (cN 2) (cV 2)) (cA (cM (cN 3) (cR (cD (cM (cA (cN 1) (cH 1)) (cA (cN 2) (cV 2))) (cA (cN 1) (cV 2))))) (cR (cM (cA (cN 1) (cH 1)) (cA (cA (cN 2) (cM (cN 3) (cV 2))) (cW (cV 2) 4)))))))) (cM (cM (cW (cA (cN 1) (cH 1)) 4) (cW (cA (cN 2) (cV 2)) 3)) (cA (cA (cN 3) (cM (cN 5) (cV 2))) (cM (cN 2) (cW (cV 2) 4)))))) (cN 4)).
Definition QST_e991 := (cD (cA (cA (cA (cA (cB (cO (cD (cM (cR (cH 1)) (cA (cN 1) (cM (cN 2) (cV 2)))) (cM (cW (cA (cN 1) (cH 1)) 3) (cA (cN 3) (cM (cN 2) (cV 2)))))) (cD (cR (cD (cH 1) (cW (cA (cN 1) (cH 1)) 6))) (cA (cA (cN 3) (cM (cN 5) (cV 2))) (cM (cN 2) (cW (cV 2) 4))))) (cD (cM (cW (cH 1) 4) (cA (cN 3) (cM (cN 2) (cH 1)))) (cM (cW (cM (cH 1) (cA (cN 1) (cH 1))) 3) (cA (cA (cN 3) (cM (cN 5) (cV 2))) (cM (cN 2) (cW (cV 2) 4)))))) (cD (cM (cM (cW (cH 1) 4) (cA (cN 3) (cM (cN 2) (cH 1)))) (cA (cN 1) (cM (cN 2) (cV 2)))) (cM (cW (cM (cH 1) (cA (cN 1) (cH 1))) 3) (cA (cA (cN 3) (cM (cN 5) (cV 2))) (cM (cN 2) (cW (cV 2) 4)))))) (cD (cM (cH 1) (cB (cB (cO (cR (cD (cM (cW (cA (cN 1) (cM (cN 2) (cV 2))) 4) (cA (cA (cN 3) (cM (cN 5) (cV 2))) (cM (cN 2) (cW (cV 2) 4)))) (cM (cM (cH 1) (cA (cN 1) (cH 1))) (cA (cA (cN 10) (cM (cN 9) (cV 2))) (cM (cN 2) (cW (cV 2) 4))))))) (cD (cM (cN 4) (cA (cN 1) (cM (cN 2) (cV 2)))) (cR (cD (cM (cM (cH 1) (cA (cN 1) (cH 1))) (cA (cA (cA (cN 30) (cM (cN 47) (cV 2))) (cM (cN 24) (cW (cV 2) 4))) (cM (cN 4) (cW (cV 2) 6)))) (cA (cN 1) (cV 2)))))) (cD (cM (cN 3) (cA (cN 1) (cM (cN 2) (cV 2)))) (cR (cM (cM (cH 1) (cA (cN 1) (cH 1))) (cA (cA (cA (cA (cN 30) (cM (cN 77) (cV 2))) (cM (cN 71) (cW (cV 2) 4))) (cM (cN 28) (cW (cV 2) 6))) (cM (cN 4) (cW (cV 2) 8)))))))) (cR (cM (cW (cA (cN 1) (cH 1)) 4) (cA (cA (cA (cA (cN 30) (cM (cN 77) (cV 2))) (cM (cN 71) (cW (cV 2) 4))) (cM (cN 28) (cW (cV 2) 6))) (cM (cN 4) (cW (cV 2) 8))))))) (cD (cM (cM (cM (cH 1) (cA (cN 3) (cM (cN 2) (cH 1)))) (cA (cN 1) (cM (cN 2) (cV 2)))) (cA (cA (cM (cN 4) (cR (cD (cM (cA (cN 1) (cH 1)) (cA (cN 5) (cM (cN 2) (cV 2)))) (cA (cN 2) (cV 2))))) (cM (cN 3) (cR (cM (cA (cN 1) (cH 1)) (cA (cA (cN 10) (cM (cN 9) (cV 2))) (cM (cN 2) (cW (cV 2) 4))))))) (cM (cM (cN 2) (cV 2)) (cA (cR (cD (cM (cA (cN 1) (cH 1)) (cA (cN 5) (cM (cN 2) (cV 2)))) (cA (cN 2) (cV 2)))) (cR (cM (cA (cN 1) (cH 1)) (cA (cA (cN 10) (cM (cN 9) (cV 2))) (cM (cN 2) (cW (cV 2) 4))))))))) (cM (cM (cM (cW (cA (cN 1) (cH 1)) 4) (cA (cN 3) (cM (cN 2) (cV 2)))) (cA (cN 5) (cM (cN 2) (cV 2)))) (cR (cM (cH 1) (cA (cA (cN 10) (cM (cN 9) (cV 2))) (cM (cN 2) (cW (cV 2) 4)))))))) (cM (cN 2) (cR (cN 2)))).
Definition QST_e992 := (cD (cA (cA (cA (cA (cA (cD (cB (cN 1) (cM (cN 2) (cH 1))) (cM (cM (cA (cN 1) (cH 1)) (cA (cN 1) (cV 2))) (cR (cD (cM (cM (cH 1) (cA (cN (-1)) (cM (cN 2) (cH 1)))) (cA (cN 3) (cM (cN 2) (cV 2)))) (cA (cN 1) (cM (cN 2) (cV 2))))))) (cD (cB (cN 1) (cM (cN 2) (cH 1))) (cR (cD (cM (cM (cM (cH 1) (cW (cA (cN 1) (cH 1)) 4)) (cA (cN (-1)) (cM (cN 2) (cH 1)))) (cA (cN 3) (cM (cN 2) (cV 2)))) (cA (cN 1) (cM (cN 2) (cV 2))))))) (cD (cB (cN 1) (cM (cN 2) (cH 1))) (cM (cM (cA (cN 1) (cH 1)) (cA (cN 1) (cV 2))) (cR (cM (cM (cH 1) (cA (cN (-1)) (cM (cN 2) (cH 1)))) (cA (cA (cN 3) (cM (cN 8) (cV 2))) (cM (cN 4) (cW (cV 2) 4)))))))) (cD (cA (cA (cN (-3)) (cM (cN 4) (cH 1))) (cM (cN 4) (cW (cH 1) 4))) (cM (cM (cA (cN 1) (cH 1)) (cA (cN 1) (cV 2))) (cR (cM (cM (cH 1) (cA (cN (-1)) (cM (cN 2) (cH 1)))) (cA (cA (cN 3) (cM (cN 8) (cV 2))) (cM (cN 4) (cW (cV 2) 4)))))))) (cD (cA (cB (cM (cN 3) (cR (cD (cM (cA (cN (-1)) (cM (cN 2) (cH 1))) (cA (cN 1) (cM (cN 2) (cV 2)))) (cA (cN 1) (cH 1))))) (cM (cM (cN 2) (cH 1)) (cR (cD (cA (cN 1) (cM (cN 2) (cV 2))) (cA (cA (cN (-1)) (cH 1)) (cM (cN 2) (cW (cH 1) 4))))))) (cM (cM (cN 4) (cW (cH 1) 4)) (cR (cD (cA (cN 1) (cM (cN 2) (cV 2))) (cA (cA (cN (-1)) (cH 1)) (cM (cN 2) (cW (cH 1) 4))))))) (cM (cA (cN 1) (cV 2)) (cR (cM (cM (cH 1) (cA (cN 1) (cH 1))) (cA (cN 3) (cM (cN 2) (cV 2)))))))) (cD (cA (cB (cM (cN 3) (cR (cD (cM (cA (cN (-1)) (cM (cN 2) (cH 1))) (cA (cA (cN 1) (cM (cN 3) (cV 2))) (cM (cN 2) (cW (cV 2) 4)))) (cA (cN 1) (cH 1))))) (cM (cM (cN 2) (cH 1)) (cR (cD (cA (cA (cN 1) (cM (cN 3) (cV 2))) (cM (cN 2) (cW (cV 2) 4))) (cA (cA (cN (-1)) (cH 1)) (cM (cN 2) (cW (cH 1) 4))))))) (cM (cM (cN 4) (cW (cH 1) 4)) (cR (cD (cA (cA (cN 1) (cM (cN 3) (cV 2))) (cM (cN 2) (cW (cV 2) 4))) (cA (cA (cN (-1)) (cH 1)) (cM (cN 2) (cW (cH 1) 4))))))) (cR (cM (cM (cH 1) (cA (cN 1) (cH 1))) (cA (cA (cN 3) (cM (cN 5) (cV 2))) (cM (cN 2) (cW (cV 2) 4))))))) (cM (cN 2) (cR (cN 3)))).
Definition QST_e993 := (cD (cA (cN 3) (cM (cN 2) (cV 2))) (cM (cR (cN 3)) (cR (cD (cM (cA (cN 1) (cH 1)) (cA (cA (cN 3) (cM (cN 8) (cV 2))) (cM (cN 4) (cW (cV 2) 4)))) (cA (cN 3) (cM (cN 2) (cH 1))))))).
Definition QST_e994 := (cD (cO (cR (cD (cM (cA (cN 3) (cM (cN 2) (cH 1))) (cA (cN (-1)) (cV 2))) (cM (cA (cN 1) (cH 1)) (cV 2))))) (cN 2)).
Definition QST_e995 := (cD (cO (cM (cA (cN 3) (cM (cN 2) (cH 1))) (cA (cA (cN (-1)) (cV 2)) (cM (cN 2) (cW (cV 2) 4))))) (cM (cN 2) (cR (cM (cM (cA (cA (cN 3) (cM (cN 5) (cH 1))) (cM (cN 2) (cW (cH 1) 4))) (cV 2)) (cA (cA (cB (cN (-1)) (cV 2)) (cM (cN 4) (cW (cV 2) 4))) (cM (cN 4) (cW (cV 2) 6))))))).
Definition QST_e996 := (cD (cB (cN (-3)) (cM (cN 2) (cH 1))) (cR (cA (cA (cN 6) (cM (cN 10) (cH 1))) (cM (cN 4) (cW (cH 1) 4))))).
Definition QST_e997 := (cD (cO (cM (cA (cN 3) (cM (cN 2) (cH 1))) (cA (cN 1) (cV 2)))) (cM (cN 2) (cR (cM (cM (cA (cA (cN 3) (cM (cN 5) (cH 1))) (cM (cN 2) (cW (cH 1) 4))) (cV 2)) (cA (cN 1) (cV 2)))))).
Definition QST_e998 := (cD (cB (cB (cM (cN (-3)) (cR (cD (cM (cA (cA (cN 3) (cM (cN 5) (cH 1))) (cM (cN 2) (cW (cH 1) 4))) (cA (cA (cA (cN 3) (cM (cN 11) (cV 2))) (cM (cN 12) (cW (cV 2) 4))) (cM (cN 4) (cW (cV 2) 6)))) (cV 2)))) (cM (cN 5) (cR (cM (cM (cA (cA (cN 3) (cM (cN 5) (cH 1))) (cM (cN 2) (cW (cH 1) 4))) (cV 2)) (cA (cA (cA (cN 3) (cM (cN 11) (cV 2))) (cM (cN 12) (cW (cV 2) 4))) (cM (cN 4) (cW (cV 2) 6))))))) (cM (cM (cN 2) (cV 2)) (cR (cM (cM (cA (cA (cN 3) (cM (cN 5) (cH 1))) (cM (cN 2) (cW (cH 1) 4))) (cV 2)) (cA (cA (cA (cN 3) (cM (cN 11) (cV 2))) (cM (cN 12) (cW (cV 2) 4))) (cM (cN 4) (cW (cV 2) 6))))))) (cM (cM (cM (cN 2) (cR (cN 3))) (cA (cN 1) (cH 1))) (cA (cA (cA (cN 3) (cM (cN 11) (cV 2))) (cM (cN 12) (cW (cV 2) 4))) (cM (cN 4) (cW (cV 2) 6))))).
Definition QST_e999 := (cD (cM (cH 1) (cA (cN (-1)) (cM (cN 2) (cV 2)))) (cM (cR (cN 3)) (cR (cM (cM (cH 1) (cA (cN 1) (cH 1))) (cA (cN (-1)) (cM (cN 4) (cW (cV 2) 4))))))).
Definition QST_e1000 := (cD (cA (cN (-1)) (cM (cN 2) (cV 2))) (cR (cA (cN (-1)) (cM (cN 4) (cW (cV 2) 4))))).
Definition QST_e1001 := (cD (cA (cA (cM (cN 3) (cR (cD (cV 2) (cM (cA (cN 3) (cM (cN 2) (cH 1))) (cA (cN 1) (cV 2)))))) (cM (cM (cN 2) (cH 1)) (cR (cD (cV 2) (cM (cA (cN 3) (cM (cN 2) (cH 1))) (cA (cN 1) (cV 2))))))) (cR (cD (cM (cA (cN 3) (cM (cN 2) (cH 1))) (cW (cV 2) 6)) (cA (cN 1) (cV 2))))) (cM (cM (cN 2) (cR (cA (cN 1) (cH 1)))) (cV 2))).
Definition QST_e1002 := (cD (cN 1) (cM (cM (cN 2) (cA (cN 1) (cH 1))) (cR (cD (cM (cV 2) (cA (cN 1) (cV 2))) (cA (cA (cN 3) (cM (cN 5) (cH 1))) (cM (cN 2) (cW (cH 1) 4))))))).
Definition QST_e1003 := (cD (cB (cA (cB (cB (cB (cD (cR (cM (cM (cA (cN 3) (cM (cN 2) (cH 1))) (cV 2)) (cA (cN 1) (cV 2)))) (cM (cM (cW (cA (cN 1) (cH 1)) 3) (cW (cA (cN 1) (cV 2)) 4)) (cA (cN 3) (cM (cN 2) (cV 2))))) (cD (cM (cM (cN 2) (cA (cN 3) (cM (cN 2) (cH 1)))) (cV 2)) (cM (cM (cM (cA (cN 1) (cH 1)) (cA (cN 1) (cV 2))) (cR (cM (cM (cA (cA (cN 3) (cM (cN 5) (cH 1))) (cM (cN 2) (cW (cH 1) 4))) (cV 2)) (cA (cN 1) (cV 2))))) (cA (cN 3) (cM (cN 2) (cV 2)))))) (cD (cM (cM (cM (cA (cN 3) (cM (cN 2) (cH 1))) (cV 2)) (cA (cN 2) (cV 2))) (cA (cN 1) (cM (cN 2) (cV 2)))) (cM (cM (cM (cA (cN 1) (cH 1)) (cA (cN 1) (cV 2))) (cR (cM (cM (cA (cA (cN 3) (cM (cN 5) (cH 1))) (cM (cN 2) (cW (cH 1) 4))) (cV 2)) (cA (cN 1) (cV 2))))) (cA (cN 3) (cM (cN 2) (cV 2)))))) (cD (cM (cM (cN 2) (cA (cR (cD (cA (cN 1) (cM (cN 2) (cH 1))) (cA (cN 1) (cH 1)))) (cM (cN 2) (cR (cA (cA (cN 1) (cM (cN 3) (cH 1))) (cM (cN 2) (cW (cH 1) 4))))))) (cV 2)) (cM (cM (cA (cN 1) (cH 1)) (cA (cN 1) (cV 2))) (cR (cD (cM (cM (cM (cA (cN 3) (cM (cN 2) (cH 1))) (cV 2)) (cA (cN 1) (cV 2))) (cW (cA (cN 3) (cM (cN 2) (cV 2))) 4)) (cA (cN 1) (cM (cN 2) (cH 1)))))))) (cD (cM (cA (cA (cN 3) (cM (cN 8) (cH 1))) (cM (cN 4) (cW (cH 1) 4))) (cV 2)) (cM (cA (cN 1) (cH 1)) (cR (cM (cM (cM (cA (cA (cN 3) (cM (cN 5) (cH 1))) (cM (cN 2) (cW (cH 1) 4))) (cV 2)) (cW (cA (cN 1) (cV 2)) 6)) (cW (cA (cN 3) (cM (cN 2) (cV 2))) 4)))))) (cD (cM (cM (cA (cA (cN 3) (cM (cN 8) (cH 1))) (cM (cN 4) (cW (cH 1) 4))) (cR (cD (cV 2) (cA (cN 3) (cM (cN 2) (cH 1)))))) (cA (cA (cN 2) (cM (cN 5) (cV 2))) (cM (cN 2) (cW (cV 2) 4)))) (cM (cW (cM (cA (cN 1) (cH 1)) (cA (cN 1) (cV 2))) 3) (cA (cN 3) (cM (cN 2) (cV 2)))))) (cN 4)).
Definition QST_e1004 := (cD (cO (cM (cA (cN 3) (cM (cN 2) (cH 1))) (cA (cN (-1)) (cV 2)))) (cM (cN 2) (cR (cM (cM (cA (cA (cN 3) (cM (cN 5) (cH 1))) (cM (cN 2) (cW (cH 1) 4))) (cA (cN (-1)) (cV 2))) (cV 2))))).
Definition QST_e1005 := (cD (cB (cB (cA (cA (cB (cD (cM (cM (cM (cM (cM (cN (-3)) (cA (cN 1) (cH 1))) (cA (cN 3) (cM (cN 2) (cH 1)))) (cA (cN 1) (cV 2))) (cA (cA (cN (-2)) (cM (cN 3) (cV 2))) (cM (cN 2) (cW (cV 2) 4)))) (cR (cD (cV 2) (cM (cA (cA (cN 3) (cM (cN 5) (cH 1))) (cM (cN 2) (cW (cH 1) 4))) (cA (cA (cA (cN (-3)) (cV 2)) (cM (cN 8) (cW (cV 2) 4))) (cM (cN 4) (cW (cV 2) 6))))))) (cV 2)) (cD (cM (cM (cM (cM (cM (cM (cN 3) (cA (cN 1) (cH 1))) (cA (cN 1) (cM (cN 2) (cH 1)))) (cA (cN 3) (cM (cN 2) (cH 1)))) (cA (cN 1) (cV 2))) (cA (cA (cN (-2)) (cM (cN 3) (cV 2))) (cM (cN 2) (cW (cV 2) 4)))) (cR (cD (cV 2) (cM (cA (cA (cN 3) (cM (cN 5) (cH 1))) (cM (cN 2) (cW (cH 1) 4))) (cA (cA (cA (cN (-3)) (cV 2)) (cM (cN 8) (cW (cV 2) 4))) (cM (cN 4) (cW (cV 2) 6))))))) (cV 2))) (cD (cM (cM (cM (cM (cA (cN 1) (cH 1)) (cA (cN 3) (cM (cN 2) (cH 1)))) (cV 2)) (cA (cN 1) (cV 2))) (cA (cN (-1)) (cM (cN 2) (cV 2)))) (cR (cM (cM (cA (cA (cN 3) (cM (cN 5) (cH 1))) (cM (cN 2) (cW (cH 1) 4))) (cV 2)) (cA (cA (cA (cN (-3)) (cV 2)) (cM (cN 8) (cW (cV 2) 4))) (cM (cN 4) (cW (cV 2) 6))))))) (cD (cM (cM (cM (cM (cM (cA (cN 1) (cH 1)) (cA (cN 1) (cM (cN 2) (cH 1)))) (cA (cN 3) (cM (cN 2) (cH 1)))) (cV 2)) (cA (cN 1) (cV 2))) (cA (cN (-1)) (cM (cN 2) (cV 2)))) (cR (cM (cM (cA (cA (cN 3) (cM (cN 5) (cH 1))) (cM (cN 2) (cW (cH 1) 4))) (cV 2)) (cA (cA (cA (cN (-3)) (cV 2)) (cM (cN 8) (cW (cV 2) 4))) (cM (cN 4) (cW (cV 2) 6))))))) (cD (cM (cM (cM (cM (cM (cA (cN 1) (cH 1)) (cA (cN 1) (cM (cN 2) (cH 1)))) (cA (cN 3) (cM (cN 2) (cH 1)))) (cA (cN 1) (cV 2))) (cA (cN (-1)) (cM (cN 2) (cV 2)))) (cA (cA (cN (-3)) (cM (cN 3) (cV 2))) (cM (cN 2) (cW (cV 2) 4)))) (cR (cM (cM (cA (cA (cN 3) (cM (cN 5) (cH 1))) (cM (cN 2) (cW (cH 1) 4))) (cV 2)) (cA (cA (cA (cN (-3)) (cV 2)) (cM (cN 8) (cW (cV 2) 4))) (cM (cN 4) (cW (cV 2) 6))))))) (cM (cM (cA (cN (-1)) (cM (cN 2) (cV 2))) (cR (cD (cA (cN 3) (cM (cN 2) (cH 1))) (cA (cA (cN (-3)) (cM (cN 4) (cV 2))) (cM (cN 4) (cW (cV 2) 4)))))) (cA (cA (cM (cN (-3)) (cR (cD (cM (cA (cN 1) (cH 1)) (cA (cN 1) (cV 2))) (cV 2)))) (cM (cN 3) (cR (cM (cM (cA (cN 1) (cH 1)) (cV 2)) (cA (cN 1) (cV 2)))))) (cM (cM (cN 2) (cV 2)) (cR (cM (cM (cA (cN 1) (cH 1)) (cV 2)) (cA (cN 1) (cV 2)))))))) (cM (cM (cM (cN 4) (cR (cN 3))) (cW (cA (cN 1) (cH 1)) 4)) (cW (cA (cN 1) (cV 2)) 4))).
Definition QST_e1006 := (cD (cO (cM (cA (cN 3) (cM (cN 2) (cH 1))) (cA (cN 2) (cV 2)))) (cM (cN 2) (cR (cM (cA (cA (cN 3) (cM (cN 5) (cH 1))) (cM (cN 2) (cW (cH 1) 4))) (cA (cA (cN 2) (cM (cN 3) (cV 2))) (cW (cV 2) 4)))))).
Definition QST_e1007 := (cO (cD (cH 1) (cM (cR (cN 3)) (cR (cM (cH 1) (cA (cN 1) (cH 1))))))).
Definition QST_e1008 := (cD (cA (cA (cA (cB (cB (cD (cM (cM (cA (cA (cN 3) (cM (cN 8) (cH 1))) (cM (cN 4) (cW (cH 1) 4))) (cV 2)) (cA (cN 2) (cV 2))) (cM (cW (cA (cN 1) (cV 2)) 4) (cR (cD (cM (cM (cA (cA (cN 3) (cM (cN 5) (cH 1))) (cM (cN 2) (cW (cH 1) 4))) (cV 2)) (cA (cN 3) (cM (cN 2) (cV 2)))) (cA (cA (cN 1) (cM (cN 3) (cV 2))) (cM (cN 2) (cW (cV 2) 4))))))) (cD (cM (cA (cN 3) (cM (cN 2) (cH 1))) (cV 2)) (cR (cM (cM (cM (cA (cA (cN 3) (cM (cN 5) (cH 1))) (cM (cN 2) (cW (cH 1) 4))) (cV 2)) (cW (cA (cN 1) (cV 2)) 6)) (cA (cA (cN 3) (cM (cN 8) (cV 2))) (cM (cN 4) (cW (cV 2) 4))))))) (cD (cM (cM (cA (cN 1) (cM (cN 2) (cH 1))) (cA (cN 3) (cM (cN 2) (cH 1)))) (cV 2)) (cR (cM (cM (cM (cA (cA (cN 3) (cM (cN 5) (cH 1))) (cM (cN 2) (cW (cH 1) 4))) (cV 2)) (cW (cA (cN 1) (cV 2)) 6)) (cA (cA (cN 3) (cM (cN 8) (cV 2))) (cM (cN 4) (cW (cV 2) 4))))))) (cD (cM (cM (cN 2) (cA (cR (cD (cA (cN 1) (cM (cN 2) (cH 1))) (cA (cN 1) (cH 1)))) (cM (cN 2) (cR (cA (cA (cN 1) (cM (cN 3) (cH 1))) (cM (cN 2) (cW (cH 1) 4))))))) (cV 2)) (cM (cA (cN 1) (cV 2)) (cR (cD (cM (cM (cA (cN 3) (cM (cN 2) (cH 1))) (cV 2)) (cA (cA (cA (cN 3) (cM (cN 11) (cV 2))) (cM (cN 12) (cW (cV 2) 4))) (cM (cN 4) (cW (cV 2) 6)))) (cA (cN 1) (cM (cN 2) (cH 1)))))))) (cD (cM (cM (cN 2) (cA (cN 3) (cM (cN 2) (cH 1)))) (cV 2)) (cM (cA (cN 1) (cV 2)) (cR (cM (cM (cA (cA (cN 3) (cM (cN 5) (cH 1))) (cM (cN 2) (cW (cH 1) 4))) (cV 2)) (cA (cA (cA (cN 3) (cM (cN 11) (cV 2))) (cM (cN 12) (cW (cV 2) 4))) (cM (cN 4) (cW (cV 2) 6)))))))) (cD (cM (cR (cD (cA (cN 3) (cM (cN 2) (cH 1))) (cA (cN 3) (cM (cN 2) (cV 2))))) (cA (cR (cD (cA (cV 2) (cM (cN 2) (cW (cV 2) 4))) (cA (cA (cA (cN 1) (cH 1)) (cV 2)) (cM (cH 1) (cV 2))))) (cR (cD (cM (cV 2) (cA (cA (cN 1) (cM (cN 3) (cV 2))) (cM (cN 2) (cW (cV 2) 4)))) (cA (cN 1) (cH 1)))))) (cA (cN 1) (cV 2)))) (cM (cN 4) (cA (cN 1) (cH 1)))).
Definition QST_e1009 := (cD (cA (cA (cA (cA (cA (cD (cM (cM (cA (cR (cD (cA (cN 1) (cM (cN 2) (cH 1))) (cA (cN 1) (cH 1)))) (cM (cN 2) (cR (cA (cA (cN 1) (cM (cN 3) (cH 1))) (cM (cN 2) (cW (cH 1) 4)))))) (cA (cN 1) (cM (cN 2) (cV 2)))) (cR (cD (cM (cA (cN 1) (cM (cN 2) (cH 1))) (cA (cA (cN 2) (cM (cN 3) (cV 2))) (cW (cV 2) 4))) (cA (cN 3) (cM (cN 2) (cH 1)))))) (cM (cM (cA (cN 1) (cH 1)) (cW (cA (cN 1) (cV 2)) 4)) (cA (cN 3) (cM (cN 2) (cV 2))))) (cD (cM (cR (cD (cM (cA (cN 3) (cM (cN 2) (cH 1))) (cA (cN 2) (cV 2))) (cM (cA (cN 1) (cH 1)) (cA (cN 1) (cV 2))))) (cA (cN 1) (cM (cN 2) (cV 2)))) (cM (cA (cN 1) (cH 1)) (cA (cA (cN 3) (cM (cN 5) (cV 2))) (cM (cN 2) (cW (cV 2) 4)))))) (cD (cM (cA (cN 3) (cM (cN 2) (cH 1))) (cA (cA (cA (cN 2) (cM (cN 3) (cV 2))) (cM (cN 5) (cW (cV 2) 4))) (cM (cN 2) (cW (cV 2) 6)))) (cR (cM (cM (cM (cM (cW (cA (cN 1) (cH 1)) 6) (cA (cN 3) (cM (cN 2) (cH 1)))) (cW (cA (cN 1) (cV 2)) 6)) (cA (cN 2) (cV 2))) (cW (cA (cN 3) (cM (cN 2) (cV 2))) 4))))) (cD (cM (cA (cR (cD (cA (cN 1) (cM (cN 2) (cH 1))) (cA (cN 1) (cH 1)))) (cM (cN 2) (cR (cA (cA (cN 1) (cM (cN 3) (cH 1))) (cM (cN 2) (cW (cH 1) 4)))))) (cA (cA (cA (cN 2) (cM (cN 3) (cV 2))) (cM (cN 5) (cW (cV 2) 4))) (cM (cN 2) (cW (cV 2) 6)))) (cM (cM (cA (cN 1) (cH 1)) (cR (cD (cM (cA (cN 3) (cM (cN 2) (cH 1))) (cA (cA (cN 2) (cM (cN 3) (cV 2))) (cW (cV 2) 4))) (cA (cN 1) (cM (cN 2) (cH 1)))))) (cA (cA (cN 3) (cM (cN 5) (cV 2))) (cM (cN 2) (cW (cV 2) 4)))))) (cD (cM (cA (cN 1) (cM (cN 2) (cV 2))) (cA (cR (cD (cM (cA (cN 3) (cM (cN 2) (cH 1))) (cA (cN 1) (cV 2))) (cA (cN 2) (cV 2)))) (cR (cD (cA (cN 3) (cM (cN 2) (cH 1))) (cA (cA (cN 2) (cM (cN 3) (cV 2))) (cW (cV 2) 4)))))) (cM (cW (cA (cN 1) (cH 1)) 3) (cA (cA (cN 3) (cM (cN 5) (cV 2))) (cM (cN 2) (cW (cV 2) 4)))))) (cD (cM (cM (cA (cR (cD (cA (cN 1) (cM (cN 2) (cH 1))) (cA (cN 1) (cH 1)))) (cM (cN 2) (cR (cA (cA (cN 1) (cM (cN 3) (cH 1))) (cM (cN 2) (cW (cH 1) 4)))))) (cR (cD (cM (cA (cN 1) (cM (cN 2) (cH 1))) (cA (cN 1) (cM (cN 2) (cV 2)))) (cA (cN 3) (cM (cN 2) (cH 1)))))) (cA (cR (cD (cA (cN 1) (cM (cN 2) (cV 2))) (cA (cA (cN 2) (cM (cN 3) (cV 2))) (cW (cV 2) 4)))) (cR (cD (cA (cA (cN 1) (cM (cN 3) (cV 2))) (cM (cN 2) (cW (cV 2) 4))) (cA (cN 2) (cV 2)))))) (cM (cA (cN 1) (cH 1)) (cA (cA (cN 3) (cM (cN 5) (cV 2))) (cM (cN 2) (cW (cV 2) 4)))))) (cN 4)).
Definition QST_e1010 := (cD (cA (cA (cA (cA (cB (cO (cD (cM (cM (cM (cA (cN 1) (cH 1)) (cA (cN 3) (cM (cN 2) (cH 1)))) (cV 2)) (cA (cN (-1)) (cM (cN 2) (cV 2)))) (cR (cM (cM (cM (cM (cA (cA (cN 3) (cM (cN 5) (cH 1))) (cM (cN 2) (cW (cH 1) 4))) (cV 2)) (cW (cA (cN 1) (cV 2)) 6)) (cW (cA (cN 3) (cM (cN 2) (cV 2))) 4)) (cA (cN (-1)) (cM (cN 4) (cW (cV 2) 4))))))) (cD (cM (cM (cM (cM (cA (cN 1) (cH 1)) (cA (cN 1) (cM (cN 2) (cH 1)))) (cA (cN 3) (cM (cN 2) (cH 1)))) (cV 2)) (cA (cN (-1)) (cM (cN 2) (cV 2)))) (cR (cM (cM (cM (cM (cA (cA (cN 3) (cM (cN 5) (cH 1))) (cM (cN 2) (cW (cH 1) 4))) (cV 2)) (cW (cA (cN 1) (cV 2)) 6)) (cW (cA (cN 3) (cM (cN 2) (cV 2))) 4)) (cA (cN (-1)) (cM (cN 4) (cW (cV 2) 4))))))) (cD (cM (cM (cM (cM (cN 4) (cA (cN 1) (cH 1))) (cA (cA (cN 3) (cM (cN 8) (cH 1))) (cM (cN 4) (cW (cH 1) 4)))) (cA (cN 2) (cV 2))) (cA (cN (-1)) (cM (cN 2) (cV 2)))) (cM (cA (cA (cN 3) (cM (cN 5) (cV 2))) (cM (cN 2) (cW (cV 2) 4))) (cR (cD (cM (cA (cA (cN 3) (cM (cN 5) (cH 1))) (cM (cN 2) (cW (cH 1) 4))) (cA (cA (cB (cN (-1)) (cV 2)) (cM (cN 4) (cW (cV 2) 4))) (cM (cN 4) (cW (cV 2) 6)))) (cV 2)))))) (cD (cM (cM (cA (cN 1) (cH 1)) (cV 2)) (cB (cA (cB (cA (cB (cA (cB (cB (cA (cD (cN 9) (cR (cD (cM (cA (cN 1) (cH 1)) (cA (cN 1) (cV 2))) (cA (cN 1) (cM (cN 2) (cV 2)))))) (cD (cM (cN 6) (cH 1)) (cR (cD (cM (cA (cN 1) (cH 1)) (cA (cN 1) (cV 2))) (cA (cN 1) (cM (cN 2) (cV 2))))))) (cD (cM (cN 18) (cV 2)) (cR (cD (cM (cA (cN 1) (cH 1)) (cA (cN 1) (cV 2))) (cA (cN 1) (cM (cN 2) (cV 2))))))) (cD (cM (cM (cN 12) (cH 1)) (cV 2)) (cR (cD (cM (cA (cN 1) (cH 1)) (cA (cN 1) (cV 2))) (cA (cN 1) (cM (cN 2) (cV 2))))))) (cD (cA (cN 1) (cM (cN 2) (cH 1))) (cR (cD (cA (cN 1) (cH 1)) (cA (cA (cN 1) (cM (cN 3) (cV 2))) (cM (cN 2) (cW (cV 2) 4))))))) (cD (cM (cM (cN 2) (cA (cN 1) (cM (cN 2) (cH 1)))) (cV 2)) (cR (cD (cA (cN 1) (cH 1)) (cA (cA (cN 1) (cM (cN 3) (cV 2))) (cM (cN 2) (cW (cV 2) 4))))))) (cM (cN 2) (cR (cD (cA (cA (cN 1) (cM (cN 3) (cV 2))) (cM (cN 2) (cW (cV 2) 4))) (cA (cN 1) (cH 1)))))) (cM (cM (cN 4) (cV 2)) (cR (cD (cA (cA (cN 1) (cM (cN 3) (cV 2))) (cM (cN 2) (cW (cV 2) 4))) (cA (cN 1) (cH 1)))))) (cD (cB (cN 18) (cM (cN 36) (cV 2))) (cR (cM (cA (cN 1) (cH 1)) (cA (cA (cN 1) (cM (cN 3) (cV 2))) (cM (cN 2) (cW (cV 2) 4))))))) (cD (cM (cM (cN 12) (cH 1)) (cA (cN (-1)) (cM (cN 2) (cV 2)))) (cR (cM (cA (cN 1) (cH 1)) (cA (cA (cN 1) (cM (cN 3) (cV 2))) (cM (cN 2) (cW (cV 2) 4)))))))) (cM (cR (cM (cM (cA (cN 3) (cM (cN 2) (cH 1))) (cV 2)) (cA (cN (-1)) (cM (cN 2) (cV 2))))) (cA (cA (cN 3) (cM (cN 5) (cV 2))) (cM (cN 2) (cW (cV 2) 4)))))) (cD (cM (cA (cN 1) (cH 1)) (cB (cA (cB (cB (cA (cB (cA (cB (cB (cM (cM (cM (cN 6) (cA (cN 1) (cM (cN 2) (cH 1)))) (cV 2)) (cR (cD (cM (cA (cN 1) (cH 1)) (cA (cN 1) (cM (cN 2) (cV 2)))) (cA (cN 1) (cV 2))))) (cM (cM (cM (cN 12) (cA (cN 1) (cM (cN 2) (cH 1)))) (cW (cV 2) 3)) (cR (cD (cM (cM (cA (cN 1) (cH 1)) (cV 2)) (cA (cN 1) (cM (cN 2) (cV 2)))) (cA (cN 1) (cV 2)))))) (cM (cM (cM (cN 6) (cA (cN 1) (cM (cN 2) (cH 1)))) (cW (cV 2) 4)) (cR (cD (cA (cN 1) (cM (cN 2) (cV 2))) (cA (cA (cA (cN 1) (cH 1)) (cV 2)) (cM (cH 1) (cV 2))))))) (cM (cM (cN 3) (cR (cD (cA (cN 1) (cM (cN 2) (cV 2))) (cA (cA (cA (cN 1) (cH 1)) (cV 2)) (cM (cH 1) (cV 2)))))) (cA (cV 2) (cM (cM (cN 2) (cH 1)) (cV 2))))) (cM (cM (cM (cM (cN 12) (cA (cN 1) (cM (cN 2) (cH 1)))) (cV 2)) (cA (cN (-1)) (cM (cN 2) (cV 2)))) (cR (cD (cA (cN 1) (cH 1)) (cA (cA (cN 1) (cM (cN 3) (cV 2))) (cM (cN 2) (cW (cV 2) 4))))))) (cM (cM (cA (cN 1) (cM (cN 2) (cH 1))) (cV 2)) (cR (cD (cA (cA (cN 1) (cM (cN 3) (cV 2))) (cM (cN 2) (cW (cV 2) 4))) (cA (cN 1) (cH 1)))))) (cM (cM (cM (cN 2) (cA (cN 1) (cM (cN 2) (cH 1)))) (cW (cV 2) 4)) (cR (cD (cA (cA (cN 1) (cM (cN 3) (cV 2))) (cM (cN 2) (cW (cV 2) 4))) (cA (cN 1) (cH 1)))))) (cD (cM (cM (cM (cN 6) (cA (cN 1) (cM (cN 2) (cH 1)))) (cV 2)) (cA (cN (-1)) (cM (cN 2) (cV 2)))) (cR (cM (cA (cN 1) (cH 1)) (cA (cA (cN 1) (cM (cN 3) (cV 2))) (cM (cN 2) (cW (cV 2) 4))))))) (cM (cM (cM (cN 2) (cA (cN 1) (cM (cN 2) (cH 1)))) (cV 2)) (cR (cM (cA (cN 1) (cH 1)) (cA (cA (cN 1) (cM (cN 3) (cV 2))) (cM (cN 2) (cW (cV 2) 4))))))) (cM (cM (cM (cN 4) (cA (cN 1) (cM (cN 2) (cH 1)))) (cW (cV 2) 4)) (cR (cM (cA (cN 1) (cH 1)) (cA (cA (cN 1) (cM (cN 3) (cV 2))) (cM (cN 2) (cW (cV 2) 4)))))))) (cM (cR (cM (cM (cA (cN 3) (cM (cN 2) (cH 1))) (cV 2)) (cA (cN (-1)) (cM (cN 2) (cV 2))))) (cA (cA (cN 3) (cM (cN 5) (cV 2))) (cM (cN 2) (cW (cV 2) 4)))))) (cD (cM (cM (cM (cN 2) (cV 2)) (cR (cM (cA (cN 3) (cM (cN 2) (cH 1))) (cA (cN (-1)) (cM (cN 2) (cV 2)))))) (cA (cM (cN 3) (cR (cD (cA (cA (cA (cN 1) (cH 1)) (cV 2)) (cM (cH 1) (cV 2))) (cA (cV 2) (cM (cN 2) (cW (cV 2) 4)))))) (cR (cD (cM (cA (cN 1) (cH 1)) (cA (cA (cN 1) (cM (cN 3) (cV 2))) (cM (cN 2) (cW (cV 2) 4)))) (cV 2))))) (cM (cW (cA (cN 1) (cV 2)) 4) (cA (cN 3) (cM (cN 2) (cV 2)))))) (cM (cM (cN 4) (cR (cN 3))) (cW (cA (cN 1) (cH 1)) 4))).
Definition QST_e1011 := (cD (cB (cA (cB (cB (cA (cD (cM (cR (cM (cM (cA (cA (cN 3) (cM (cN 5) (cH 1))) (cM (cN 2) (cW (cH 1) 4))) (cV 2)) (cA (cN 1) (cV 2)))) (cA (cN 1) (cM (cN 2) (cV 2)))) (cM (cM (cW (cA (cN 1) (cH 1)) 4) (cW (cA (cN 1) (cV 2)) 4)) (cA (cN 3) (cM (cN 2) (cV 2))))) (cD (cM (cM (cA (cR (cD (cA (cN 1) (cM (cN 2) (cH 1))) (cA (cN 1) (cH 1)))) (cM (cN 2) (cR (cA (cA (cN 1) (cM (cN 3) (cH 1))) (cM (cN 2) (cW (cH 1) 4)))))) (cA (cN 1) (cM (cN 2) (cV 2)))) (cR (cD (cA (cV 2) (cM (cM (cN 2) (cH 1)) (cV 2))) (cA (cN 3) (cM (cN 2) (cH 1)))))) (cM (cM (cA (cN 1) (cH 1)) (cW (cA (cN 1) (cV 2)) 3)) (cA (cN 3) (cM (cN 2) (cV 2)))))) (cD (cM (cM (cA (cR (cD (cA (cN 1) (cM (cN 2) (cH 1))) (cA (cN 1) (cH 1)))) (cM (cN 2) (cR (cA (cA (cN 1) (cM (cN 3) (cH 1))) (cM (cN 2) (cW (cH 1) 4)))))) (cV 2)) (cA (cA (cN (-1)) (cM (cN 5) (cV 2))) (cM (cN 2) (cW (cV 2) 4)))) (cM (cM (cA (cN 1) (cH 1)) (cR (cD (cM (cM (cA (cN 3) (cM (cN 2) (cH 1))) (cV 2)) (cA (cN 1) (cV 2))) (cA (cN 1) (cM (cN 2) (cH 1)))))) (cA (cA (cN 3) (cM (cN 5) (cV 2))) (cM (cN 2) (cW (cV 2) 4)))))) (cD (cM (cM (cA (cN 3) (cM (cN 2) (cH 1))) (cV 2)) (cA (cA (cN (-1)) (cM (cN 5) (cV 2))) (cM (cN 2) (cW (cV 2) 4)))) (cM (cM (cA (cN 1) (cH 1)) (cR (cM (cM (cA (cA (cN 3) (cM (cN 5) (cH 1))) (cM (cN 2) (cW (cH 1) 4))) (cV 2)) (cA (cN 1) (cV 2))))) (cA (cA (cN 3) (cM (cN 5) (cV 2))) (cM (cN 2) (cW (cV 2) 4)))))) (cD (cM (cA (cR (cD (cA (cN 1) (cM (cN 2) (cH 1))) (cA (cN 1) (cH 1)))) (cM (cN 2) (cR (cA (cA (cN 1) (cM (cN 3) (cH 1))) (cM (cN 2) (cW (cH 1) 4)))))) (cB (cB (cO (cM (cR (cD (cM (cV 2) (cA (cN 1) (cV 2))) (cA (cN 2) (cV 2)))) (cA (cN 1) (cM (cN 2) (cV 2))))) (cM (cN 6) (cR (cD (cV 2) (cA (cA (cN 2) (cM (cN 3) (cV 2))) (cW (cV 2) 4)))))) (cM (cM (cN 3) (cA (cN 1) (cM (cN 2) (cV 2)))) (cR (cD (cV 2) (cA (cA (cN 2) (cM (cN 3) (cV 2))) (cW (cV 2) 4))))))) (cM (cM (cA (cN 1) (cH 1)) (cR (cD (cM (cA (cN 3) (cM (cN 2) (cH 1))) (cA (cN 2) (cV 2))) (cA (cN 1) (cM (cN 2) (cH 1)))))) (cA (cA (cN 3) (cM (cN 5) (cV 2))) (cM (cN 2) (cW (cV 2) 4)))))) (cD (cM (cR (cD (cA (cN 3) (cM (cN 2) (cH 1))) (cA (cN 2) (cV 2)))) (cA (cA (cR (cD (cM (cV 2) (cA (cN 1) (cV 2))) (cA (cN 2) (cV 2)))) (cM (cN 9) (cR (cD (cV 2) (cA (cA (cN 2) (cM (cN 3) (cV 2))) (cW (cV 2) 4)))))) (cM (cM (cN 2) (cV 2)) (cA (cR (cD (cM (cV 2) (cA (cN 1) (cV 2))) (cA (cN 2) (cV 2)))) (cM (cN 3) (cR (cD (cV 2) (cA (cA (cN 2) (cM (cN 3) (cV 2))) (cW (cV 2) 4))))))))) (cM (cW (cA (cN 1) (cH 1)) 3) (cA (cA (cN 3) (cM (cN 5) (cV 2))) (cM (cN 2) (cW (cV 2) 4)))))) (cN 4)).
Definition QST_e1012 := (cD (cA (cB (cA (cA (cB (cO (cR (cD (cM (cH 1) (cA (cN 1) (cM (cN 2) (cV 2)))) (cM (cW (cA (cN 1) (cH 1)) 6) (cA (cN 3) (cM (cN 2) (cV 2))))))) (cD (cR (cD (cM (cH 1) (cA (cN 1) (cM (cN 2) (cV 2)))) (cM (cW (cA (cN 1) (cH 1)) 6) (cA (cN 3) (cM (cN 2) (cV 2)))))) (cA (cN 1) (cV 2)))) (cD (cM (cH 1) (cA (cN 2) (cH 1))) (cM (cA (cN 1) (cH 1)) (cR (cD (cM (cM (cH 1) (cA (cN 1) (cH 1))) (cA (cN 3) (cM (cN 2) (cV 2)))) (cA (cN 1) (cM (cN 2) (cV 2)))))))) (cD (cM (cH 1) (cA (cN 2) (cH 1))) (cM (cM (cA (cN 1) (cH 1)) (cA (cN 1) (cV 2))) (cR (cD (cM (cM (cH 1) (cA (cN 1) (cH 1))) (cA (cN 3) (cM (cN 2) (cV 2)))) (cA (cN 1) (cM (cN 2) (cV 2)))))))) (cD (cR (cD (cH 1) (cM (cW (cA (cN 1) (cH 1)) 6) (cA (cA (cN 3) (cM (cN 8) (cV 2))) (cM (cN 4) (cW (cV 2) 4)))))) (cA (cN 1) (cV 2)))) (cD (cM (cH 1) (cA (cN 2) (cH 1))) (cM (cM (cA (cN 1) (cH 1)) (cA (cN 1) (cV 2))) (cR (cM (cM (cH 1) (cA (cN 1) (cH 1))) (cA (cA (cN 3) (cM (cN 8) (cV 2))) (cM (cN 4) (cW (cV 2) 4)))))))) (cR (cN 3))).
Definition QST_e1013 := (cD (cM (cH 1) (cB (cN 2) (cM (cN 4) (cV 2)))) (cM (cR (cN 3)) (cR (cM (cM (cH 1) (cA (cN 1) (cM (cN 2) (cH 1)))) (cA (cN (-1)) (cM (cN 4) (cW (cV 2) 4))))))).
Definition QST_e1014 := (cO (cD (cH 1) (cR (cM (cH 1) (cA (cN 1) (cM (cN 2) (cH 1))))))).
Definition QST_e1015 := (cO (cD (cR (cD (cM (cM (cH 1) (cV 2)) (cA (cN 1) (cV 2))) (cA (cN 2) (cM (cN 4) (cH 1))))) (cV 2))).
Definition QST_e1016 := (cD (cB (cB (cD (cB (cH 1) (cM (cM (cN 2) (cH 1)) (cV 2))) (cR (cD (cM (cM (cH 1) (cA (cN 1) (cM (cN 2) (cH 1)))) (cA (cA (cA (cN 3) (cM (cN 11) (cV 2))) (cM (cN 12) (cW (cV 2) 4))) (cM (cN 4) (cW (cV 2) 6)))) (cV 2)))) (cD (cN 6) (cR (cD (cM (cM (cA (cN 1) (cM (cN 2) (cH 1))) (cV 2)) (cA (cA (cA (cN 3) (cM (cN 11) (cV 2))) (cM (cN 12) (cW (cV 2) 4))) (cM (cN 4) (cW (cV 2) 6)))) (cH 1))))) (cD (cM (cM (cN 3) (cH 1)) (cW (cA (cN (-1)) (cM (cN 2) (cV 2))) 3)) (cR (cM (cM (cM (cH 1) (cA (cN 1) (cM (cN 2) (cH 1)))) (cV 2)) (cA (cA (cA (cB (cN (-3)) (cM (cN 5) (cV 2))) (cM (cN 10) (cW (cV 2) 4))) (cM (cN 20) (cW (cV 2) 6))) (cM (cN 8) (cW (cV 2) 8))))))) (cR (cN 6))).
Definition QST_e1017 := (cA (cD (cM (cV 2) (cA (cN (-1)) (cM (cN 2) (cV 2)))) (cM (cR (cN 2)) (cR (cM (cM (cV 2) (cA (cN (-1)) (cM (cN 2) (cV 2)))) (cA (cA (cN 1) (cM (cN 3) (cV 2))) (cM (cN 2) (cW (cV 2) 4))))))) (cD (cA (cN (-1)) (cM (cN 2) (cV 2))) (cM (cV 2) (cR (cA (cA (cB (cN (-2)) (cD (cN 2) (cV 2))) (cM (cN 8) (cV 2))) (cM (cN 8) (cW (cV 2) 4))))))).
Definition QST_e1018 := (cD (cA (cN 1) (cH 1)) (cM (cR (cN 2)) (cR (cD (cM (cA (cA (cN 1) (cM (cN 3) (cH 1))) (cM (cN 2) (cW (cH 1) 4))) (cV 2)) (cA (cN (-1)) (cV 2)))))).
Definition QST_e1019 := (cD (cM (cA (cN (-1)) (cM (cN 2) (cV 2))) (cA (cA (cD (cN 1) (cM (cA (cN (-1)) (cM (cN 4) (cW (cV 2) 4))) (cR (cD (cM (cA (cA (cN 1) (cM (cN 3) (cH 1))) (cM (cN 2) (cW (cH 1) 4))) (cV 2)) (cA (cA (cB (cN (-1)) (cV 2)) (cM (cN 4) (cW (cV 2) 4))) (cM (cN 4) (cW (cV 2) 6))))))) (cD (cH 1) (cR (cM (cM (cA (cA (cN 1) (cM (cN 3) (cH 1))) (cM (cN 2) (cW (cH 1) 4))) (cV 2)) (cA (cA (cB (cN (-1)) (cV 2)) (cM (cN 4) (cW (cV 2) 4))) (cM (cN 4) (cW (cV 2) 6))))))) (cD (cM (cH 1) (cV 2)) (cR (cM (cM (cA (cA (cN 1) (cM (cN 3) (cH 1))) (cM (cN 2) (cW (cH 1) 4))) (cV 2)) (cA (cA (cB (cN (-1)) (cV 2)) (cM (cN 4) (cW (cV 2) 4))) (cM (cN 4) (cW (cV 2) 6)))))))) (cR (cN 2))).
Definition QST_e1020 := (cD (cM (cN 2) (cH 1)) (cM (cR (cN 3)) (cR (cM (cH 1) (cA (cN 1) (cM (cN 2) (cH 1))))))).
Definition QST_e1021 := (cO (cD (cM (cH 1) (cA (cN (-1)) (cW (cV 2) 4))) (cM (cR (cN 2)) (cR (cM (cM (cM (cM (cH 1) (cA (cN 1) (cM (cN 2) (cH 1)))) (cA (cN (-1)) (cV 2))) (cV 2)) (cW (cA (cN 1) (cV 2)) 4)))))).
Definition QST_e1022 := (cD (cM (cH 1) (cA (cB (cB (cM (cM (cN (-4)) (cV 2)) (cR (cM (cM (cA (cN 1) (cM (cN 2) (cH 1))) (cV 2)) (cA (cN 1) (cV 2))))) (cM (cM (cN 2) (cW (cV 2) 4)) (cR (cM (cM (cA (cN 1) (cM (cN 2) (cH 1))) (cV 2)) (cA (cN 1) (cV 2)))))) (cM (cM (cN 4) (cW (cV 2) 6)) (cR (cM (cM (cA (cN 1) (cM (cN 2) (cH 1))) (cV 2)) (cA (cN 1) (cV 2)))))) (cM (cN 3) (cB (cA (cR (cM (cM (cA (cN 1) (cM (cN 2) (cH 1))) (cV 2)) (cA (cN 1) (cV 2)))) (cR (cM (cM (cA (cN 1) (cM (cN 2) (cH 1))) (cW (cV 2) 6)) (cA (cN 1) (cV 2))))) (cM (cN 2) (cR (cM (cM (cA (cN 1) (cM (cN 2) (cH 1))) (cW (cV 2) 10)) (cA (cN 1) (cV 2))))))))) (cM (cM (cM (cR (cN 6)) (cW (cA (cN 1) (cV 2)) 4)) (cA (cV 2) (cM (cM (cN 2) (cH 1)) (cV 2)))) (cR (cM (cH 1) (cA (cA (cN (-3)) (cM (cN 4) (cV 2))) (cM (cN 4) (cW (cV 2) 4))))))).
Definition QST_e1023 := (cO (cD (cH 1) (cM (cR (cN 2)) (cR (cD (cM (cM (cH 1) (cA (cN 1) (cM (cN 2) (cH 1)))) (cA (cN 1) (cV 2))) (cA (cN 2) (cV 2))))))).
Definition QST_e1024 := (cO (cD (cM (cA (cN 1) (cH 1)) (cA (cN 1) (cV 2))) (cM (cR (cN 2)) (cR (cM (cM (cA (cA (cN 1) (cM (cN 3) (cH 1))) (cM (cN 2) (cW (cH 1) 4))) (cV 2)) (cA (cN 1) (cV 2))))))).
Definition QST_e1025 := (cD (cA (cB (cA (cM (cM (cN (-2)) (cH 1)) (cR (cD (cV 2) (cM (cA (cA (cN 1) (cM (cN 3) (cH 1))) (cM (cN 2) (cW (cH 1) 4))) (cW (cA (cN 1) (cV 2)) 6))))) (cD (cA (cN (-1)) (cV 2)) (cR (cM (cM (cA (cA (cN 1) (cM (cN 3) (cH 1))) (cM (cN 2) (cW (cH 1) 4))) (cV 2)) (cW (cA (cN 1) (cV 2)) 6))))) (cD (cM (cN 2) (cV 2)) (cR (cM (cM (cA (cA (cN 1) (cM (cN 3) (cH 1))) (cM (cN 2) (cW (cH 1) 4))) (cV 2)) (cW (cA (cN 1) (cV 2)) 6))))) (cD (cM (cW (cH 1) 3) (cA (cN (-1)) (cV 2))) (cR (cM (cM (cM (cH 1) (cA (cA (cN 1) (cM (cN 3) (cH 1))) (cM (cN 2) (cW (cH 1) 4)))) (cV 2)) (cW (cA (cN 1) (cV 2)) 6))))) (cR (cN 2))).
Definition QST_e1026 := (cD (cA (cB (cA (cA (cB (cD (cM (cN 2) (cR (cD (cV 2) (cM (cA (cA (cN 1) (cM (cN 3) (cH 1))) (cM (cN 2) (cW (cH 1) 4))) (cW (cA (cN 1) (cV 2)) 6))))) (cA (cN 3) (cM (cN 2) (cV 2)))) (cD (cM (cH 1) (cR (cD (cV 2) (cM (cA (cA (cN 1) (cM (cN 3) (cH 1))) (cM (cN 2) (cW (cH 1) 4))) (cW (cA (cN 1) (cV 2)) 6))))) (cA (cN 3) (cM (cN 2) (cV 2))))) (cD (cM (cM (cV 2) (cA (cN 2) (cV 2))) (cA (cN 1) (cM (cN 2) (cV 2)))) (cM (cM (cA (cN 1) (cV 2)) (cR (cM (cM (cA (cA (cN 1) (cM (cN 3) (cH 1))) (cM (cN 2) (cW (cH 1) 4))) (cV 2)) (cA (cN 1) (cV 2))))) (cA (cN 3) (cM (cN 2) (cV 2)))))) (cD (cM (cM (cM (cH 1) (cV 2)) (cA (cN 2) (cV 2))) (cA (cN 1) (cM (cN 2) (cV 2)))) (cM (cM (cA (cN 1) (cV 2)) (cR (cM (cM (cA (cA (cN 1) (cM (cN 3) (cH 1))) (cM (cN 2) (cW (cH 1) 4))) (cV 2)) (cA (cN 1) (cV 2))))) (cA (cN 3) (cM (cN 2) (cV 2)))))) (cD (cV 2) (cR (cM (cM (cM (cA (cA (cN 1) (cM (cN 3) (cH 1))) (cM (cN 2) (cW (cH 1) 4))) (cV 2)) (cW (cA (cN 1) (cV 2)) 6)) (cW (cA (cN 3) (cM (cN 2) (cV 2))) 4))))) (cD (cM (cM (cN 2) (cW (cH 1) 3)) (cV 2)) (cM (cR (cM (cM (cM (cH 1) (cA (cA (cN 1) (cM (cN 3) (cH 1))) (cM (cN 2) (cW (cH 1) 4)))) (cV 2)) (cA (cN 1) (cV 2)))) (cA (cA (cN 3) (cM (cN 5) (cV 2))) (cM (cN 2) (cW (cV 2) 4)))))) (cR (cN 2))).
Definition QST_e1027 := (cD (cM (cN 2) (cB (cB (cO (cD (cH 1) (cR (cD (cM (cM (cH 1) (cA (cN 1) (cM (cN 2) (cH 1)))) (cA (cN 3) (cM (cN 2) (cV 2)))) (cA (cN 1) (cM (cN 2) (cV 2))))))) (cD (cN 1) (cR (cD (cM (cM (cA (cN 1) (cM (cN 2) (cH 1))) (cW (cA (cN 1) (cV 2)) 4)) (cA (cN 3) (cM (cN 2) (cV 2)))) (cA (cH 1) (cM (cM (cN 2) (cH 1)) (cV 2))))))) (cD (cH 1) (cM (cA (cN 1) (cV 2)) (cR (cM (cM (cH 1) (cA (cN 1) (cM (cN 2) (cH 1)))) (cA (cA (cN 3) (cM (cN 8) (cV 2))) (cM (cN 4) (cW (cV 2) 4))))))))) (cR (cN 3))).
Definition QST_e1028 := (cO (cD (cR (cD (cM (cM (cH 1) (cV 2)) (cA (cN (-1)) (cM (cN 2) (cV 2)))) (cM (cA (cN 1) (cM (cN 2) (cH 1))) (cA (cA (cN 1) (cM (cN 3) (cV 2))) (cM (cN 2) (cW (cV 2) 4)))))) (cR (cN 6)))).
Definition QST_e1029 := (cD (cB (cB (cD (cM (cV 2) (cA (cN 1) (cM (cN 2) (cV 2)))) (cM (cM (cA (cN 1) (cV 2)) (cR (cD (cM (cM (cA (cN 1) (cM (cN 2) (cH 1))) (cV 2)) (cA (cN 1) (cV 2))) (cH 1)))) (cA (cN 3) (cM (cN 2) (cV 2))))) (cD (cM (cH 1) (cA (cN 5) (cM (cN 2) (cV 2)))) (cM (cA (cN 1) (cV 2)) (cR (cD (cM (cM (cM (cH 1) (cA (cN 1) (cM (cN 2) (cH 1)))) (cA (cN 1) (cV 2))) (cW (cA (cN 3) (cM (cN 2) (cV 2))) 4)) (cV 2)))))) (cD (cM (cV 2) (cA (cA (cD (cM (cA (cN 1) (cV 2)) (cA (cN 1) (cM (cN 2) (cV 2)))) (cM (cA (cN 2) (cV 2)) (cR (cD (cM (cV 2) (cA (cN 3) (cM (cN 2) (cV 2)))) (cH 1))))) (cD (cA (cN 2) (cM (cN 4) (cV 2))) (cR (cD (cM (cA (cN 3) (cM (cN 2) (cV 2))) (cW (cA (cA (cN 2) (cM (cN 3) (cV 2))) (cW (cV 2) 4)) 4)) (cM (cH 1) (cV 2)))))) (cD (cM (cN 3) (cA (cN (-1)) (cV 2))) (cR (cD (cM (cM (cV 2) (cA (cN 3) (cM (cN 2) (cV 2)))) (cW (cA (cA (cN 2) (cM (cN 3) (cV 2))) (cW (cV 2) 4)) 4)) (cH 1)))))) (cR (cM (cA (cN 1) (cM (cN 2) (cH 1))) (cA (cA (cN 3) (cM (cN 5) (cV 2))) (cM (cN 2) (cW (cV 2) 4))))))) (cR (cN 2))).
Definition QST_e1030 := (cD (cB (cB (cM (cM (cN (-2)) (cW (cV 2) 4)) (cR (cM (cH 1) (cA (cA (cN 3) (cM (cN 5) (cV 2))) (cM (cN 2) (cW (cV 2) 4)))))) (cM (cN 2) (cA (cA (cM (cN 3) (cR (cD (cM (cH 1) (cA (cN 1) (cV 2))) (cA (cN 3) (cM (cN 2) (cV 2)))))) (cM (cN 6) (cR (cD (cH 1) (cA (cA (cN 3) (cM (cN 5) (cV 2))) (cM (cN 2) (cW (cV 2) 4))))))) (cM (cN 2) (cR (cM (cH 1) (cA (cA (cN 3) (cM (cN 5) (cV 2))) (cM (cN 2) (cW (cV 2) 4))))))))) (cM (cM (cN 3) (cV 2)) (cA (cA (cM (cN 4) (cR (cD (cM (cH 1) (cA (cN 1) (cV 2))) (cA (cN 3) (cM (cN 2) (cV 2)))))) (cM (cN 4) (cR (cD (cH 1) (cA (cA (cN 3) (cM (cN 5) (cV 2))) (cM (cN 2) (cW (cV 2) 4))))))) (cM (cN 3) (cR (cM (cH 1) (cA (cA (cN 3) (cM (cN 5) (cV 2))) (cM (cN 2) (cW (cV 2) 4))))))))) (cM (cM (cA (cN 2) (cV 2)) (cA (cN 5) (cM (cN 2) (cV 2)))) (cR (cM (cA (cN 1) (cM (cN 2) (cH 1))) (cA (cA (cN 3) (cM (cN 5) (cV 2))) (cM (cN 2) (cW (cV 2) 4))))))).
Definition QST_e1031 := (cO (cD (cA (cA (cR (cD (cM (cV 2) (cA (cA (cN 1) (cM (cN 3) (cV 2))) (cM (cN 2) (cW (cV 2) 4)))) (cA (cN 3) (cM (cN 2) (cV 2))))) (cR (cD (cM (cV 2) (cA (cN 1) (cM (cN 2) (cV 2)))) (cA (cA (cN 3) (cM (cN 5) (cV 2))) (cM (cN 2) (cW (cV 2) 4)))))) (cR (cD (cV 2) (cA (cA (cA (cN 3) (cM (cN 11) (cV 2))) (cM (cN 12) (cW (cV 2) 4))) (cM (cN 4) (cW (cV 2) 6)))))) (cM (cR (cN 2)) (cA (cN 1) (cV 2))))).
Definition QST_e1032 := (cD (cB (cO (cD (cM (cM (cH 1) (cV 2)) (cA (cN 3) (cM (cN 2) (cV 2)))) (cR (cM (cM (cA (cA (cN 1) (cM (cN 3) (cH 1))) (cM (cN 2) (cW (cH 1) 4))) (cV 2)) (cA (cA (cA (cN 3) (cM (cN 11) (cV 2))) (cM (cN 12) (cW (cV 2) 4))) (cM (cN 4) (cW (cV 2) 6))))))) (cD (cA (cB (cA (cD (cM (cW (cA (cN 1) (cV 2)) 4) (cR (cD (cM (cM (cM (cA (cA (cN 1) (cM (cN 3) (cH 1))) (cM (cN 2) (cW (cH 1) 4))) (cV 2)) (cA (cN 1) (cM (cN 2) (cV 2)))) (cA (cN 3) (cM (cN 2) (cV 2)))) (cA (cN 1) (cV 2))))) (cA (cN 3) (cM (cN 2) (cV 2)))) (cD (cM (cW (cA (cN 1) (cV 2)) 4) (cR (cM (cM (cM (cA (cA (cN 1) (cM (cN 3) (cH 1))) (cM (cN 2) (cW (cH 1) 4))) (cV 2)) (cA (cN 3) (cM (cN 2) (cV 2)))) (cA (cA (cN 1) (cM (cN 3) (cV 2))) (cM (cN 2) (cW (cV 2) 4)))))) (cA (cN 3) (cM (cN 2) (cV 2))))) (cM (cW (cA (cN 1) (cV 2)) 3) (cR (cD (cM (cA (cA (cN 1) (cM (cN 3) (cH 1))) (cM (cN 2) (cW (cH 1) 4))) (cV 2)) (cA (cA (cN 3) (cM (cN 8) (cV 2))) (cM (cN 4) (cW (cV 2) 4))))))) (cD (cM (cM (cN 2) (cA (cN 1) (cV 2))) (cR (cM (cM (cA (cA (cN 1) (cM (cN 3) (cH 1))) (cM (cN 2) (cW (cH 1) 4))) (cV 2)) (cA (cA (cA (cN 3) (cM (cN 11) (cV 2))) (cM (cN 12) (cW (cV 2) 4))) (cM (cN 4) (cW (cV 2) 6)))))) (cA (cA (cN 3) (cM (cN 8) (cV 2))) (cM (cN 4) (cW (cV 2) 4))))) (cM (cA (cA (cN 1) (cM (cN 3) (cH 1))) (cM (cN 2) (cW (cH 1) 4))) (cW (cA (cN 1) (cV 2)) 6)))) (cR (cN 2))).
Definition QST_e1033 := (cD (cA (cB (cB (cB (cO (cD (cM (cA (cN 1) (cM (cN 2) (cV 2))) (cR (cD (cA (cA (cN 2) (cM (cN 3) (cV 2))) (cW (cV 2) 4)) (cA (cA (cN 1) (cM (cN 3) (cH 1))) (cM (cN 2) (cW (cH 1) 4)))))) (cM (cW (cA (cN 1) (cV 2)) 4) (cA (cN 3) (cM (cN 2) (cV 2)))))) (cD (cM (cM (cM (cN 2) (cH 1)) (cA (cN 2) (cV 2))) (cA (cN 1) (cM (cN 2) (cV 2)))) (cM (cA (cN 1) (cV 2)) (cR (cM (cM (cA (cA (cN 1) (cM (cN 3) (cH 1))) (cM (cN 2) (cW (cH 1) 4))) (cW (cA (cN 3) (cM (cN 2) (cV 2))) 4)) (cA (cA (cN 2) (cM (cN 3) (cV 2))) (cW (cV 2) 4))))))) (cD (cA (cA (cA (cN 2) (cM (cN 3) (cV 2))) (cM (cN 5) (cW (cV 2) 4))) (cM (cN 2) (cW (cV 2) 6))) (cM (cR (cM (cA (cA (cN 1) (cM (cN 3) (cH 1))) (cM (cN 2) (cW (cH 1) 4))) (cA (cA (cN 2) (cM (cN 3) (cV 2))) (cW (cV 2) 4)))) (cA (cA (cN 3) (cM (cN 5) (cV 2))) (cM (cN 2) (cW (cV 2) 4)))))) (cD (cM (cR (cD (cA (cN 1) (cM (cN 2) (cV 2))) (cA (cA (cN 1) (cM (cN 3) (cH 1))) (cM (cN 2) (cW (cH 1) 4))))) (cA (cR (cD (cA (cN 1) (cM (cN 2) (cV 2))) (cA (cA (cN 2) (cM (cN 3) (cV 2))) (cW (cV 2) 4)))) (cR (cD (cA (cA (cN 1) (cM (cN 3) (cV 2))) (cM (cN 2) (cW (cV 2) 4))) (cA (cN 2) (cV 2)))))) (cA (cA (cN 3) (cM (cN 5) (cV 2))) (cM (cN 2) (cW (cV 2) 4))))) (cD (cM (cW (cH 1) 4) (cB (cD (cA (cN (-1)) (cV 2)) (cR (cM (cM (cM (cH 1) (cA (cN 1) (cH 1))) (cW (cA (cN 1) (cV 2)) 4)) (cA (cA (cN 6) (cM (cN 7) (cV 2))) (cM (cN 2) (cW (cV 2) 4)))))) (cD (cM (cW (cA (cN 1) (cV 2)) 3) (cA (cN 1) (cM (cN 2) (cV 2)))) (cR (cM (cM (cH 1) (cA (cN 1) (cH 1))) (cA (cA (cA (cN 6) (cM (cN 13) (cV 2))) (cM (cN 9) (cW (cV 2) 4))) (cM (cN 2) (cW (cV 2) 6)))))))) (cR (cM (cM (cH 1) (cA (cN 1) (cM (cN 2) (cH 1)))) (cA (cA (cN 3) (cM (cN 5) (cV 2))) (cM (cN 2) (cW (cV 2) 4))))))) (cR (cN 2))).
Definition QST_e1034 := (cD (cM (cM (cN 2) (cA (cN 1) (cH 1))) (cA (cN (-1)) (cM (cN 2) (cV 2)))) (cM (cR (cN 3)) (cR (cM (cA (cA (cN 1) (cM (cN 3) (cH 1))) (cM (cN 2) (cW (cH 1) 4))) (cA (cN (-1)) (cM (cN 4) (cW (cV 2) 4))))))).
Definition QST_e1035 := (cD (cA (cN 1) (cH 1)) (cR (cA (cA (cN 1) (cM (cN 3) (cH 1))) (cM (cN 2) (cW (cH 1) 4))))).
Definition QST_e1036 := (cD (cA (cR (cD (cM (cM (cA (cN 1) (cH 1)) (cV 2)) (cA (cN 1) (cV 2))) (cA (cN 1) (cM (cN 2) (cH 1))))) (cR (cM (cM (cA (cA (cN 1) (cM (cN 3) (cH 1))) (cM (cN 2) (cW (cH 1) 4))) (cV 2)) (cA (cN 1) (cV 2))))) (cM (cM (cM (cN 2) (cR (cN 2))) (cA (cN 1) (cH 1))) (cV 2))).
Definition QST_e1037 := (cD (cA (cA (cA (cA (cA (cM (cN 6) (cR (cD (cA (cN 1) (cM (cN 2) (cH 1))) (cM (cM (cA (cN 1) (cH 1)) (cV 2)) (cA (cA (cA (cN 3) (cM (cN 11) (cV 2))) (cM (cN 12) (cW (cV 2) 4))) (cM (cN 4) (cW (cV 2) 6))))))) (cD (cA (cN (-1)) (cM (cN 2) (cV 2))) (cR (cD (cM (cA (cA (cN 1) (cM (cN 3) (cH 1))) (cM (cN 2) (cW (cH 1) 4))) (cA (cA (cA (cN 3) (cM (cN 11) (cV 2))) (cM (cN 12) (cW (cV 2) 4))) (cM (cN 4) (cW (cV 2) 6)))) (cV 2))))) (cD (cN 6) (cR (cM (cM (cA (cA (cN 1) (cM (cN 3) (cH 1))) (cM (cN 2) (cW (cH 1) 4))) (cV 2)) (cA (cA (cA (cN 3) (cM (cN 11) (cV 2))) (cM (cN 12) (cW (cV 2) 4))) (cM (cN 4) (cW (cV 2) 6))))))) (cD (cA (cN (-1)) (cM (cN 2) (cV 2))) (cR (cD (cM (cA (cN 1) (cH 1)) (cA (cA (cA (cN 3) (cM (cN 11) (cV 2))) (cM (cN 12) (cW (cV 2) 4))) (cM (cN 4) (cW (cV 2) 6)))) (cA (cV 2) (cM (cM (cN 2) (cH 1)) (cV 2))))))) (cD (cM (cN 3) (cW (cA (cN (-1)) (cM (cN 2) (cV 2))) 3)) (cR (cD (cM (cM (cA (cN 1) (cH 1)) (cV 2)) (cA (cA (cA (cB (cN (-3)) (cM (cN 5) (cV 2))) (cM (cN 10) (cW (cV 2) 4))) (cM (cN 20) (cW (cV 2) 6))) (cM (cN 8) (cW (cV 2) 8)))) (cA (cN 1) (cM (cN 2) (cH 1))))))) (cD (cM (cN 3) (cW (cA (cN (-1)) (cM (cN 2) (cV 2))) 3)) (cR (cM (cM (cA (cA (cN 1) (cM (cN 3) (cH 1))) (cM (cN 2) (cW (cH 1) 4))) (cV 2)) (cA (cA (cA (cB (cN (-3)) (cM (cN 5) (cV 2))) (cM (cN 10) (cW (cV 2) 4))) (cM (cN 20) (cW (cV 2) 6))) (cM (cN 8) (cW (cV 2) 8))))))) (cM (cN 2) (cR (cN 6)))).
Definition QST_e1038 := (cD (cA (cR (cD (cM (cM (cH 1) (cA (cN 1) (cM (cN 2) (cH 1)))) (cA (cN (-1)) (cV 2))) (cV 2))) (cR (cD (cM (cH 1) (cA (cN (-1)) (cV 2))) (cA (cV 2) (cM (cM (cN 2) (cH 1)) (cV 2)))))) (cM (cM (cN 2) (cR (cN 2))) (cA (cN 1) (cH 1)))).
Definition QST_e1039 := (cD (cA (cA (cA (cD (cM (cH 1) (cA (cN 3) (cM (cN 2) (cH 1)))) (cR (cD (cM (cM (cH 1) (cA (cN 1) (cM (cN 2) (cH 1)))) (cA (cA (cN 1) (cM (cN 3) (cV 2))) (cM (cN 2) (cW (cV 2) 4)))) (cM (cV 2) (cA (cN (-1)) (cM (cN 2) (cV 2))))))) (cD (cB (cH 1) (cM (cM (cN 2) (cH 1)) (cV 2))) (cR (cD (cM (cM (cH 1) (cA (cN 1) (cM (cN 2) (cH 1)))) (cA (cA (cB (cN (-1)) (cV 2)) (cM (cN 4) (cW (cV 2) 4))) (cM (cN 4) (cW (cV 2) 6)))) (cV 2))))) (cD (cB (cH 1) (cM (cM (cN 2) (cH 1)) (cV 2))) (cR (cM (cM (cM (cH 1) (cA (cN 1) (cM (cN 2) (cH 1)))) (cV 2)) (cA (cA (cB (cN (-1)) (cV 2)) (cM (cN 4) (cW (cV 2) 4))) (cM (cN 4) (cW (cV 2) 6))))))) (cD (cM (cM (cH 1) (cA (cN (-1)) (cM (cN 2) (cV 2)))) (cA (cM (cN 2) (cR (cD (cV 2) (cA (cN 1) (cM (cN 2) (cH 1)))))) (cR (cA (cV 2) (cM (cM (cN 2) (cH 1)) (cV 2)))))) (cM (cV 2) (cR (cM (cH 1) (cA (cA (cB (cN (-1)) (cV 2)) (cM (cN 4) (cW (cV 2) 4))) (cM (cN 4) (cW (cV 2) 6)))))))) (cM (cM (cN 2) (cR (cN 2))) (cA (cN 1) (cH 1)))).
Definition QST_e1040 := (cD (cM (cA (cN 1) (cV 2)) (cA (cN (-1)) (cM (cN 2) (cV 2)))) (cM (cR (cN 2)) (cR (cM (cV 2) (cA (cA (cB (cN (-1)) (cV 2)) (cM (cN 4) (cW (cV 2) 4))) (cM (cN 4) (cW (cV 2) 6))))))).
Definition QST_e1041 := (cD (cM (cN (-2)) (cA (cN 1) (cH 1))) (cR (cA (cA (cN 3) (cM (cN 9) (cH 1))) (cM (cN 6) (cW (cH 1) 4))))).
Definition QST_e1042 := (cD (cA (cA (cA (cD (cB (cN 1) (cV 2)) (cR (cD (cM (cM (cM (cA (cN 1) (cH 1)) (cA (cN (-1)) (cV 2))) (cV 2)) (cW (cA (cN 1) (cV 2)) 4)) (cA (cN 1) (cM (cN 2) (cH 1)))))) (cD (cB (cN 1) (cV 2)) (cR (cM (cM (cM (cA (cA (cN 1) (cM (cN 3) (cH 1))) (cM (cN 2) (cW (cH 1) 4))) (cA (cN (-1)) (cV 2))) (cV 2)) (cW (cA (cN 1) (cV 2)) 4))))) (cD (cA (cB (cM (cN 2) (cR (cD (cA (cN (-1)) (cV 2)) (cM (cV 2) (cA (cN 1) (cV 2)))))) (cR (cD (cV 2) (cA (cN (-1)) (cW (cV 2) 4))))) (cR (cD (cW (cV 2) 6) (cA (cN (-1)) (cW (cV 2) 4))))) (cR (cM (cA (cA (cN 1) (cM (cN 3) (cH 1))) (cM (cN 2) (cW (cH 1) 4))) (cA (cN 1) (cV 2)))))) (cD (cA (cB (cM (cN 2) (cR (cD (cM (cA (cN 1) (cM (cN 2) (cH 1))) (cA (cN (-1)) (cV 2))) (cA (cN 1) (cV 2))))) (cM (cV 2) (cR (cD (cA (cN 1) (cM (cN 2) (cH 1))) (cA (cN (-1)) (cW (cV 2) 4)))))) (cR (cD (cM (cA (cN 1) (cM (cN 2) (cH 1))) (cW (cV 2) 8)) (cA (cN (-1)) (cW (cV 2) 4))))) (cR (cM (cM (cA (cN 1) (cH 1)) (cV 2)) (cA (cN 1) (cV 2)))))) (cM (cN 2) (cR (cN 2)))).
Definition QST_e1043 := (cD (cA (cA (cA (cA (cA (cD (cB (cN 1) (cM (cN 2) (cV 2))) (cM (cA (cN 1) (cV 2)) (cR (cD (cM (cA (cA (cN 1) (cM (cN 3) (cH 1))) (cM (cN 2) (cW (cH 1) 4))) (cA (cA (cA (cN (-3)) (cV 2)) (cM (cN 8) (cW (cV 2) 4))) (cM (cN 4) (cW (cV 2) 6)))) (cV 2))))) (cD (cA (cA (cB (cN 3) (cM (cN 9) (cV 2))) (cM (cN 4) (cW (cV 2) 4))) (cM (cN 4) (cW (cV 2) 6))) (cM (cM (cV 2) (cA (cN 1) (cV 2))) (cR (cD (cM (cA (cA (cN 1) (cM (cN 3) (cH 1))) (cM (cN 2) (cW (cH 1) 4))) (cA (cA (cA (cN (-3)) (cV 2)) (cM (cN 8) (cW (cV 2) 4))) (cM (cN 4) (cW (cV 2) 6)))) (cV 2)))))) (cD (cA (cA (cN (-6)) (cM (cN 9) (cV 2))) (cM (cN 6) (cW (cV 2) 4))) (cM (cA (cN 1) (cV 2)) (cR (cM (cM (cA (cA (cN 1) (cM (cN 3) (cH 1))) (cM (cN 2) (cW (cH 1) 4))) (cV 2)) (cA (cA (cA (cN (-3)) (cV 2)) (cM (cN 8) (cW (cV 2) 4))) (cM (cN 4) (cW (cV 2) 6)))))))) (cD (cB (cN 1) (cM (cN 2) (cV 2))) (cM (cA (cN 1) (cV 2)) (cR (cD (cM (cA (cN 1) (cH 1)) (cA (cA (cA (cN (-3)) (cV 2)) (cM (cN 8) (cW (cV 2) 4))) (cM (cN 4) (cW (cV 2) 6)))) (cA (cV 2) (cM (cM (cN 2) (cH 1)) (cV 2)))))))) (cD (cA (cA (cB (cN 3) (cM (cN 9) (cV 2))) (cM (cN 4) (cW (cV 2) 4))) (cM (cN 4) (cW (cV 2) 6))) (cM (cM (cV 2) (cA (cN 1) (cV 2))) (cR (cD (cM (cA (cN 1) (cH 1)) (cA (cA (cA (cN (-3)) (cV 2)) (cM (cN 8) (cW (cV 2) 4))) (cM (cN 4) (cW (cV 2) 6)))) (cA (cV 2) (cM (cM (cN 2) (cH 1)) (cV 2)))))))) (cD (cM (cM (cM (cN 3) (cA (cN 1) (cH 1))) (cV 2)) (cA (cB (cM (cN 2) (cR (cD (cM (cA (cN 1) (cM (cN 2) (cH 1))) (cA (cN (-1)) (cM (cN 2) (cV 2)))) (cA (cN 3) (cM (cN 2) (cV 2)))))) (cM (cV 2) (cR (cD (cA (cN 1) (cM (cN 2) (cH 1))) (cA (cA (cN (-3)) (cM (cN 4) (cV 2))) (cM (cN 4) (cW (cV 2) 4))))))) (cM (cM (cN 2) (cW (cV 2) 4)) (cR (cD (cA (cN 1) (cM (cN 2) (cH 1))) (cA (cA (cN (-3)) (cM (cN 4) (cV 2))) (cM (cN 4) (cW (cV 2) 4)))))))) (cW (cM (cM (cA (cN 1) (cH 1)) (cV 2)) (cA (cN 1) (cV 2))) 3))) (cM (cN 2) (cR (cN 6)))).
Definition QST_e1044 := (cD (cA (cN 1) (cH 1)) (cM (cR (cN 2)) (cR (cD (cM (cA (cA (cN 1) (cM (cN 3) (cH 1))) (cM (cN 2) (cW (cH 1) 4))) (cA (cN 1) (cV 2))) (cA (cN 2) (cV 2)))))).
Definition QST_e1045 := (cO (cR (cD (cA (cH 1) (cM (cH 1) (cV 2))) (cA (cM (cN 2) (cV 2)) (cM (cM (cN 4) (cH 1)) (cV 2)))))).
Definition QST_e1046 := (cD (cA (cA (cB (cB (cD (cM (cN 2) (cR (cD (cM (cH 1) (cV 2)) (cM (cA (cN 1) (cM (cN 2) (cH 1))) (cW (cA (cN 1) (cV 2)) 6))))) (cA (cN 1) (cH 1))) (cD (cM (cM (cA (cN 1) (cM (cN 2) (cH 1))) (cA (cN 3) (cM (cN 2) (cH 1)))) (cR (cM (cH 1) (cV 2)))) (cM (cA (cN 1) (cH 1)) (cW (cM (cA (cN 1) (cM (cN 2) (cH 1))) (cA (cN 1) (cV 2))) 3)))) (cD (cM (cM (cH 1) (cA (cN 3) (cM (cN 2) (cH 1)))) (cV 2)) (cM (cM (cA (cN 1) (cH 1)) (cA (cN 1) (cV 2))) (cR (cM (cM (cM (cH 1) (cA (cN 1) (cM (cN 2) (cH 1)))) (cV 2)) (cA (cN 1) (cV 2))))))) (cD (cB (cH 1) (cM (cH 1) (cV 2))) (cR (cM (cM (cM (cM (cH 1) (cW (cA (cN 1) (cH 1)) 4)) (cA (cN 1) (cM (cN 2) (cH 1)))) (cV 2)) (cW (cA (cN 1) (cV 2)) 6))))) (cD (cM (cA (cN (-1)) (cV 2)) (cA (cM (cN 2) (cR (cD (cM (cH 1) (cV 2)) (cA (cN 1) (cM (cN 2) (cH 1)))))) (cR (cM (cM (cH 1) (cA (cN 1) (cM (cN 2) (cH 1)))) (cV 2))))) (cM (cM (cA (cN 1) (cH 1)) (cV 2)) (cW (cA (cN 1) (cV 2)) 3)))) (cM (cN 2) (cR (cN 2)))).
Definition QST_e1047 := (cD (cM (cH 1) (cB (cA (cA (cB (cD (cM (cA (cN 3) (cM (cN 2) (cH 1))) (cV 2)) (cM (cM (cA (cN 1) (cV 2)) (cR (cM (cM (cM (cH 1) (cA (cN 1) (cM (cN 2) (cH 1)))) (cV 2)) (cA (cN 1) (cV 2))))) (cA (cN 3) (cM (cN 2) (cV 2))))) (cD (cM (cA (cN 2) (cV 2)) (cA (cN 1) (cM (cN 2) (cV 2)))) (cM (cM (cA (cN 1) (cV 2)) (cR (cD (cM (cM (cH 1) (cA (cN 1) (cM (cN 2) (cH 1)))) (cA (cN 1) (cV 2))) (cV 2)))) (cA (cN 3) (cM (cN 2) (cV 2)))))) (cD (cV 2) (cM (cA (cN 1) (cV 2)) (cR (cM (cM (cM (cM (cH 1) (cA (cN 1) (cM (cN 2) (cH 1)))) (cV 2)) (cA (cN 1) (cV 2))) (cW (cA (cN 3) (cM (cN 2) (cV 2))) 4)))))) (cD (cM (cM (cA (cN 3) (cM (cN 2) (cH 1))) (cV 2)) (cA (cA (cN 2) (cM (cN 5) (cV 2))) (cM (cN 2) (cW (cV 2) 4)))) (cM (cM (cA (cN 1) (cV 2)) (cR (cM (cM (cM (cH 1) (cA (cN 1) (cM (cN 2) (cH 1)))) (cV 2)) (cA (cN 1) (cV 2))))) (cA (cN 3) (cM (cN 2) (cV 2)))))) (cD (cM (cN 2) (cV 2)) (cM (cR (cM (cM (cM (cH 1) (cA (cN 1) (cM (cN 2) (cH 1)))) (cV 2)) (cA (cN 1) (cV 2)))) (cA (cA (cN 3) (cM (cN 5) (cV 2))) (cM (cN 2) (cW (cV 2) 4))))))) (cM (cM (cN 2) (cR (cN 2))) (cA (cN 1) (cH 1)))).
Definition QST_e1048 := (cO (cD (cA (cA (cA (cR (cD (cW (cV 2) 6) (cA (cN 1) (cV 2)))) (cR (cD (cW (cV 2) 10) (cA (cN 1) (cV 2))))) (cR (cM (cV 2) (cA (cN 1) (cV 2))))) (cM (cH 1) (cA (cR (cM (cV 2) (cA (cN 1) (cV 2)))) (cR (cM (cW (cV 2) 6) (cA (cN 1) (cV 2))))))) (cM (cM (cM (cR (cN 2)) (cA (cN 1) (cH 1))) (cV 2)) (cW (cA (cN 1) (cV 2)) 4)))).
Definition QST_e1049 := (cD (cA (cA (cA (cA (cA (cR (cD (cM (cA (cN 1) (cM (cN 2) (cH 1))) (cA (cN 1) (cM (cN 2) (cV 2)))) (cM (cA (cN 1) (cH 1)) (cA (cN 3) (cM (cN 2) (cV 2)))))) (cD (cR (cD (cM (cA (cN 1) (cM (cN 2) (cH 1))) (cA (cN 1) (cM (cN 2) (cV 2)))) (cM (cA (cN 1) (cH 1)) (cA (cN 3) (cM (cN 2) (cV 2)))))) (cA (cN 1) (cV 2)))) (cD (cN 1) (cR (cD (cM (cA (cA (cN 1) (cM (cN 3) (cH 1))) (cM (cN 2) (cW (cH 1) 4))) (cA (cN 3) (cM (cN 2) (cV 2)))) (cA (cN 1) (cM (cN 2) (cV 2))))))) (cD (cN 1) (cR (cD (cM (cM (cA (cA (cN 1) (cM (cN 3) (cH 1))) (cM (cN 2) (cW (cH 1) 4))) (cW (cA (cN 1) (cV 2)) 4)) (cA (cN 3) (cM (cN 2) (cV 2)))) (cA (cN 1) (cM (cN 2) (cV 2))))))) (cD (cN 1) (cM (cA (cN 1) (cV 2)) (cR (cM (cA (cA (cN 1) (cM (cN 3) (cH 1))) (cM (cN 2) (cW (cH 1) 4))) (cA (cA (cN 3) (cM (cN 8) (cV 2))) (cM (cN 4) (cW (cV 2) 4)))))))) (cD (cN 1) (cR (cD (cM (cM (cA (cN 1) (cH 1)) (cW (cA (cN 1) (cV 2)) 4)) (cA (cA (cN 3) (cM (cN 8) (cV 2))) (cM (cN 4) (cW (cV 2) 4)))) (cA (cN 1) (cM (cN 2) (cH 1))))))) (cR (cN 3))).
Definition QST_e1050 := (cD (cA (cR (cD (cM (cM (cA (cN 1) (cH 1)) (cV 2)) (cA (cA (cB (cN (-1)) (cV 2)) (cM (cN 4) (cW (cV 2) 4))) (cM (cN 4) (cW (cV 2) 6)))) (cA (cN 1) (cM (cN 2) (cH 1))))) (cR (cM (cM (cA (cA (cN 1) (cM (cN 3) (cH 1))) (cM (cN 2) (cW (cH 1) 4))) (cV 2)) (cA (cA (cB (cN (-1)) (cV 2)) (cM (cN 4) (cW (cV 2) 4))) (cM (cN 4) (cW (cV 2) 6)))))) (cM (cM (cM (cN 2) (cR (cN 6))) (cA (cN 1) (cH 1))) (cA (cA (cN 1) (cM (cN 3) (cV 2))) (cM (cN 2) (cW (cV 2) 4))))).
Definition QST_e1051 := (cD (cA (cA (cA (cA (cB (cO (cD (cM (cV 2) (cA (cN 1) (cM (cN 2) (cV 2)))) (cM (cM (cA (cN 1) (cV 2)) (cR (cD (cM (cM (cA (cN 1) (cH 1)) (cV 2)) (cA (cN 1) (cV 2))) (cA (cN 1) (cM (cN 2) (cH 1)))))) (cA (cN 3) (cM (cN 2) (cV 2)))))) (cD (cM (cV 2) (cA (cN 1) (cM (cN 2) (cV 2)))) (cM (cM (cA (cN 1) (cV 2)) (cR (cM (cM (cA (cA (cN 1) (cM (cN 3) (cH 1))) (cM (cN 2) (cW (cH 1) 4))) (cV 2)) (cA (cN 1) (cV 2))))) (cA (cN 3) (cM (cN 2) (cV 2)))))) (cD (cM (cV 2) (cA (cN 5) (cM (cN 2) (cV 2)))) (cM (cM (cA (cN 1) (cV 2)) (cR (cM (cM (cA (cA (cN 1) (cM (cN 3) (cH 1))) (cM (cN 2) (cW (cH 1) 4))) (cV 2)) (cA (cN 1) (cV 2))))) (cA (cN 3) (cM (cN 2) (cV 2)))))) (cD (cM (cA (cN 5) (cM (cN 2) (cV 2))) (cR (cD (cA (cV 2) (cM (cM (cN 2) (cH 1)) (cV 2))) (cA (cN 1) (cH 1))))) (cM (cW (cA (cN 1) (cV 2)) 3) (cA (cN 3) (cM (cN 2) (cV 2)))))) (cD (cA (cA (cA (cM (cN (-2)) (cR (cM (cV 2) (cA (cA (cN 3) (cM (cN 5) (cV 2))) (cM (cN 2) (cW (cV 2) 4)))))) (cM (cM (cN 9) (cV 2)) (cR (cM (cV 2) (cA (cA (cN 3) (cM (cN 5) (cV 2))) (cM (cN 2) (cW (cV 2) 4))))))) (cM (cN 9) (cR (cM (cW (cV 2) 10) (cA (cA (cN 3) (cM (cN 5) (cV 2))) (cM (cN 2) (cW (cV 2) 4))))))) (cM (cN 2) (cR (cM (cW (cV 2) 14) (cA (cA (cN 3) (cM (cN 5) (cV 2))) (cM (cN 2) (cW (cV 2) 4))))))) (cM (cM (cM (cR (cD (cA (cN 1) (cH 1)) (cA (cN 1) (cM (cN 2) (cH 1))))) (cW (cA (cN 1) (cV 2)) 4)) (cA (cN 2) (cV 2))) (cW (cA (cN 3) (cM (cN 2) (cV 2))) 3)))) (cD (cA (cA (cA (cM (cN (-2)) (cR (cM (cV 2) (cA (cA (cN 3) (cM (cN 5) (cV 2))) (cM (cN 2) (cW (cV 2) 4)))))) (cM (cM (cN 9) (cV 2)) (cR (cM (cV 2) (cA (cA (cN 3) (cM (cN 5) (cV 2))) (cM (cN 2) (cW (cV 2) 4))))))) (cM (cN 9) (cR (cM (cW (cV 2) 10) (cA (cA (cN 3) (cM (cN 5) (cV 2))) (cM (cN 2) (cW (cV 2) 4))))))) (cM (cN 2) (cR (cM (cW (cV 2) 14) (cA (cA (cN 3) (cM (cN 5) (cV 2))) (cM (cN 2) (cW (cV 2) 4))))))) (cM (cM (cM (cR (cA (cA (cN 1) (cM (cN 3) (cH 1))) (cM (cN 2) (cW (cH 1) 4)))) (cW (cA (cN 1) (cV 2)) 4)) (cA (cN 2) (cV 2))) (cW (cA (cN 3) (cM (cN 2) (cV 2))) 3)))) (cM (cN 2) (cR (cN 2)))).
Definition QST_e1052 := (cD (cA (cA (cA (cA (cA (cM (cA (cN 1) (cM (cN 2) (cV 2))) (cR (cD (cA (cN 1) (cM (cN 2) (cH 1))) (cM (cA (cN 1) (cH 1)) (cW (cA (cA (cN 3) (cM (cN 5) (cV 2))) (cM (cN 2) (cW (cV 2) 4))) 4))))) (cD (cR (cD (cA (cN 1) (cM (cN 2) (cH 1))) (cA (cN 1) (cH 1)))) (cA (cA (cN 3) (cM (cN 5) (cV 2))) (cM (cN 2) (cW (cV 2) 4))))) (cD (cN 1) (cM (cR (cA (cA (cN 1) (cM (cN 3) (cH 1))) (cM (cN 2) (cW (cH 1) 4)))) (cA (cA (cN 3) (cM (cN 5) (cV 2))) (cM (cN 2) (cW (cV 2) 4)))))) (cD (cA (cN 1) (cM (cN 2) (cV 2))) (cM (cR (cA (cA (cN 1) (cM (cN 3) (cH 1))) (cM (cN 2) (cW (cH 1) 4)))) (cA (cA (cN 3) (cM (cN 5) (cV 2))) (cM (cN 2) (cW (cV 2) 4)))))) (cD (cM (cA (cN 1) (cM (cN 2) (cV 2))) (cA (cA (cR (cD (cA (cN 1) (cV 2)) (cA (cN 3) (cM (cN 2) (cV 2))))) (cM (cN 3) (cR (cA (cA (cN 3) (cM (cN 5) (cV 2))) (cM (cN 2) (cW (cV 2) 4)))))) (cM (cV 2) (cR (cA (cA (cN 3) (cM (cN 5) (cV 2))) (cM (cN 2) (cW (cV 2) 4))))))) (cM (cR (cD (cM (cA (cN 1) (cH 1)) (cA (cA (cN 3) (cM (cN 5) (cV 2))) (cM (cN 2) (cW (cV 2) 4)))) (cA (cN 1) (cM (cN 2) (cH 1))))) (cA (cA (cN 10) (cM (cN 9) (cV 2))) (cM (cN 2) (cW (cV 2) 4)))))) (cD (cM (cA (cN 1) (cM (cN 2) (cV 2))) (cA (cA (cR (cD (cA (cN 1) (cV 2)) (cA (cN 3) (cM (cN 2) (cV 2))))) (cM (cN 3) (cR (cA (cA (cN 3) (cM (cN 5) (cV 2))) (cM (cN 2) (cW (cV 2) 4)))))) (cM (cV 2) (cR (cA (cA (cN 3) (cM (cN 5) (cV 2))) (cM (cN 2) (cW (cV 2) 4))))))) (cM (cR (cM (cA (cA (cN 1) (cM (cN 3) (cH 1))) (cM (cN 2) (cW (cH 1) 4))) (cA (cA (cN 3) (cM (cN 5) (cV 2))) (cM (cN 2) (cW (cV 2) 4))))) (cA (cA (cN 10) (cM (cN 9) (cV 2))) (cM (cN 2) (cW (cV 2) 4)))))) (cN 2)).
Definition QST_e1053 := (cD (cM (cH 1) (cB (cA (cB (cA (cB (cD (cN 2) (cR (cD (cM (cM (cM (cM (cH 1) (cW (cA (cN 1) (cH 1)) 4)) (cA (cN 1) (cM (cN 2) (cH 1)))) (cW (cA (cN 1) (cV 2)) 6)) (cA (cA (cN 3) (cM (cN 8) (cV 2))) (cM (cN 4) (cW (cV 2) 4)))) (cV 2)))) (cD (cV 2) (cM (cM (cA (cN 1) (cH 1)) (cA (cN 1) (cV 2))) (cR (cM (cM (cM (cH 1) (cA (cN 1) (cM (cN 2) (cH 1)))) (cV 2)) (cA (cA (cA (cN 3) (cM (cN 11) (cV 2))) (cM (cN 12) (cW (cV 2) 4))) (cM (cN 4) (cW (cV 2) 6)))))))) (cD (cM (cA (cN 3) (cM (cN 2) (cH 1))) (cV 2)) (cM (cM (cA (cN 1) (cH 1)) (cA (cN 1) (cV 2))) (cR (cM (cM (cM (cH 1) (cA (cN 1) (cM (cN 2) (cH 1)))) (cV 2)) (cA (cA (cA (cN 3) (cM (cN 11) (cV 2))) (cM (cN 12) (cW (cV 2) 4))) (cM (cN 4) (cW (cV 2) 6)))))))) (cD (cM (cN 2) (cA (cM (cN 2) (cR (cD (cV 2) (cA (cN 1) (cM (cN 2) (cH 1)))))) (cR (cA (cV 2) (cM (cM (cN 2) (cH 1)) (cV 2)))))) (cM (cM (cA (cN 1) (cH 1)) (cA (cN 1) (cV 2))) (cR (cM (cH 1) (cA (cA (cA (cN 3) (cM (cN 11) (cV 2))) (cM (cN 12) (cW (cV 2) 4))) (cM (cN 4) (cW (cV 2) 6)))))))) (cD (cM (cV 2) (cA (cR (cD (cA (cN 1) (cM (cN 2) (cV 2))) (cA (cN 1) (cV 2)))) (cR (cA (cA (cN 1) (cM (cN 3) (cV 2))) (cM (cN 2) (cW (cV 2) 4)))))) (cM (cM (cA (cN 1) (cH 1)) (cA (cN 1) (cV 2))) (cR (cM (cM (cM (cH 1) (cA (cN 1) (cM (cN 2) (cH 1)))) (cV 2)) (cA (cN 3) (cM (cN 2) (cV 2)))))))) (cD (cM (cV 2) (cA (cA (cA (cR (cD (cM (cA (cN 1) (cM (cN 2) (cH 1))) (cA (cN 1) (cM (cN 2) (cV 2)))) (cA (cN 1) (cV 2)))) (cM (cN 2) (cR (cD (cA (cN 1) (cM (cN 2) (cV 2))) (cA (cA (cA (cN 1) (cM (cN 2) (cH 1))) (cV 2)) (cM (cM (cN 2) (cH 1)) (cV 2))))))) (cM (cN 2) (cR (cD (cA (cA (cN 1) (cM (cN 3) (cV 2))) (cM (cN 2) (cW (cV 2) 4))) (cA (cN 1) (cM (cN 2) (cH 1))))))) (cR (cM (cA (cN 1) (cM (cN 2) (cH 1))) (cA (cA (cN 1) (cM (cN 3) (cV 2))) (cM (cN 2) (cW (cV 2) 4))))))) (cM (cM (cA (cN 1) (cH 1)) (cA (cN 1) (cV 2))) (cR (cM (cM (cH 1) (cV 2)) (cA (cN 3) (cM (cN 2) (cV 2))))))))) (cM (cN 2) (cR (cN 2)))).
Definition QST_e1054 := (cD (cA (cB (cB (cB (cD (cM (cM (cM (cN 2) (cH 1)) (cA (cN 2) (cV 2))) (cA (cN 1) (cM (cN 2) (cV 2)))) (cM (cM (cM (cA (cN 1) (cH 1)) (cA (cN 1) (cV 2))) (cA (cN 3) (cM (cN 2) (cV 2)))) (cR (cM (cM (cH 1) (cA (cN 1) (cM (cN 2) (cH 1)))) (cA (cA (cN 2) (cM (cN 3) (cV 2))) (cW (cV 2) 4)))))) (cD (cM (cM (cA (cN 3) (cM (cN 2) (cH 1))) (cA (cN 2) (cV 2))) (cA (cN 1) (cM (cN 2) (cV 2)))) (cM (cM (cA (cN 1) (cH 1)) (cR (cD (cM (cA (cN 1) (cM (cN 2) (cH 1))) (cA (cA (cN 2) (cM (cN 3) (cV 2))) (cW (cV 2) 4))) (cH 1)))) (cA (cA (cN 3) (cM (cN 5) (cV 2))) (cM (cN 2) (cW (cV 2) 4)))))) (cD (cM (cA (cA (cA (cN 2) (cM (cN 3) (cV 2))) (cM (cN 5) (cW (cV 2) 4))) (cM (cN 2) (cW (cV 2) 6))) (cA (cM (cN 2) (cR (cD (cH 1) (cM (cA (cN 1) (cM (cN 2) (cH 1))) (cA (cA (cN 2) (cM (cN 3) (cV 2))) (cW (cV 2) 4)))))) (cR (cD (cM (cH 1) (cA (cN 1) (cM (cN 2) (cH 1)))) (cA (cA (cN 2) (cM (cN 3) (cV 2))) (cW (cV 2) 4)))))) (cM (cA (cN 1) (cH 1)) (cA (cA (cN 3) (cM (cN 5) (cV 2))) (cM (cN 2) (cW (cV 2) 4)))))) (cD (cM (cA (cN 1) (cM (cN 2) (cV 2))) (cA (cA (cA (cM (cN 2) (cR (cD (cM (cH 1) (cA (cN 1) (cV 2))) (cM (cA (cN 1) (cM (cN 2) (cH 1))) (cA (cN 2) (cV 2)))))) (cR (cD (cM (cM (cH 1) (cA (cN 1) (cM (cN 2) (cH 1)))) (cA (cN 1) (cV 2))) (cA (cN 2) (cV 2))))) (cM (cN 2) (cR (cD (cH 1) (cM (cA (cN 1) (cM (cN 2) (cH 1))) (cA (cA (cN 2) (cM (cN 3) (cV 2))) (cW (cV 2) 4))))))) (cR (cD (cM (cH 1) (cA (cN 1) (cM (cN 2) (cH 1)))) (cA (cA (cN 2) (cM (cN 3) (cV 2))) (cW (cV 2) 4)))))) (cM (cA (cN 1) (cH 1)) (cA (cA (cN 3) (cM (cN 5) (cV 2))) (cM (cN 2) (cW (cV 2) 4)))))) (cD (cM (cH 1) (cA (cD (cB (cN 1) (cV 2)) (cR (cM (cM (cM (cH 1) (cA (cN 1) (cH 1))) (cW (cA (cN 1) (cV 2)) 4)) (cA (cA (cN 6) (cM (cN 7) (cV 2))) (cM (cN 2) (cW (cV 2) 4)))))) (cD (cM (cW (cA (cN 1) (cV 2)) 3) (cA (cN 1) (cM (cN 2) (cV 2)))) (cR (cM (cM (cH 1) (cA (cN 1) (cH 1))) (cA (cA (cA (cN 6) (cM (cN 13) (cV 2))) (cM (cN 9) (cW (cV 2) 4))) (cM (cN 2) (cW (cV 2) 6)))))))) (cR (cM (cA (cA (cN 1) (cM (cN 3) (cH 1))) (cM (cN 2) (cW (cH 1) 4))) (cA (cA (cN 3) (cM (cN 5) (cV 2))) (cM (cN 2) (cW (cV 2) 4))))))) (cM (cN 2) (cR (cN 2)))).
Definition QST_e1055 := (cD (cB (cA (cB (cB (cO (cD (cM (cV 2) (cA (cN 2) (cV 2))) (cR (cD (cM (cV 2) (cA (cA (cN 3) (cM (cN 5) (cV 2))) (cM (cN 2) (cW (cV 2) 4)))) (cA (cN 1) (cM (cN 2) (cV 2))))))) (cD (cV 2) (cR (cM (cV 2) (cA (cA (cA (cN 3) (cM (cN 11) (cV 2))) (cM (cN 12) (cW (cV 2) 4))) (cM (cN 4) (cW (cV 2) 6))))))) (cD (cM (cM (cN 2) (cA (cN 1) (cM (cN 2) (cH 1)))) (cV 2)) (cR (cM (cV 2) (cA (cA (cA (cN 3) (cM (cN 11) (cV 2))) (cM (cN 12) (cW (cV 2) 4))) (cM (cN 4) (cW (cV 2) 6))))))) (cD (cA (cV 2) (cM (cM (cN 2) (cH 1)) (cV 2))) (cR (cM (cV 2) (cA (cA (cA (cN 3) (cM (cN 11) (cV 2))) (cM (cN 12) (cW (cV 2) 4))) (cM (cN 4) (cW (cV 2) 6))))))) (cD (cM (cA (cA (cN 3) (cM (cN 8) (cH 1))) (cM (cN 4) (cW (cH 1) 4))) (cA (cR (cD (cM (cV 2) (cA (cN 1) (cM (cN 2) (cV 2)))) (cM (cA (cN 3) (cM (cN 2) (cH 1))) (cA (cN 1) (cV 2))))) (cR (cD (cM (cV 2) (cA (cA (cN 1) (cM (cN 3) (cV 2))) (cM (cN 2) (cW (cV 2) 4)))) (cA (cN 3) (cM (cN 2) (cH 1))))))) (cR (cM (cA (cN 3) (cM (cN 2) (cH 1))) (cA (cN 3) (cM (cN 2) (cV 2))))))) (cM (cM (cM (cN 2) (cR (cN 2))) (cA (cN 1) (cH 1))) (cA (cN 1) (cV 2)))).
Definition QST_e1056 := (cM (cM (cR (cN 2)) (cH 1)) (cR (cD (cA (cN (-2)) (cV 2)) (cM (cA (cH 1) (cM (cN 2) (cW (cH 1) 4))) (cA (cN (-1)) (cV 2)))))).
Definition QST_e1057 := (cD (cA (cB (cN (-3)) (cV 2)) (cM (cN 2) (cW (cV 2) 4))) (cR (cD (cM (cA (cN 1) (cM (cN 2) (cH 1))) (cA (cB (cB (cA (cN (-3)) (cM (cN 8) (cV 2))) (cW (cV 2) 4)) (cM (cN 8) (cW (cV 2) 6))) (cM (cN 4) (cW (cV 2) 8)))) (cH 1)))).
Definition QST_e1058 := (cD (cA (cN (-3)) (cM (cN 2) (cV 2))) (cR (cA (cB (cN 3) (cM (cN 8) (cV 2))) (cM (cN 4) (cW (cV 2) 4))))).
Definition QST_e1059 := (cD (cM (cA (cN 1) (cH 1)) (cA (cN (-3)) (cM (cN 2) (cV 2)))) (cR (cM (cA (cA (cN 1) (cM (cN 3) (cH 1))) (cM (cN 2) (cW (cH 1) 4))) (cA (cB (cN 3) (cM (cN 8) (cV 2))) (cM (cN 4) (cW (cV 2) 4)))))).
Definition QST_e1060 := (cO (cD (cM (cH 1) (cA (cN 1) (cV 2))) (cR (cM (cM (cH 1) (cA (cN 1) (cM (cN 2) (cH 1)))) (cA (cN (-1)) (cW (cV 2) 4)))))).
Definition QST_e1061 := (cD (cA (cN (-3)) (cV 2)) (cM (cR (cN 2)) (cR (cD (cM (cM (cA (cN 1) (cM (cN 2) (cH 1))) (cA (cN (-1)) (cV 2))) (cV 2)) (cH 1))))).
Definition QST_e1062 := (cM (cM (cR (cQ 3 2)) (cA (cA (cN (-3)) (cV 2)) (cM (cN 2) (cW (cV 2) 4)))) (cR (cD (cH 1) (cM (cM (cA (cN 1) (cM (cN 2) (cH 1))) (cV 2)) (cA (cA (cB (cN (-3)) (cM (cN 5) (cV 2))) (cM (cN 4) (cW (cV 2) 4))) (cM (cN 4) (cW (cV 2) 6))))))).
Definition QST_e1063 := (cA (cO (cD (cM (cA (cN (-1)) (cV 2)) (cA (cN (-1)) (cM (cN 2) (cV 2)))) (cM (cM (cV 2) (cA (cN 1) (cV 2))) (cR (cA (cB (cA (cN (-2)) (cD (cN 2) (cV 2))) (cM (cN 8) (cV 2))) (cM (cN 8) (cW (cV 2) 4))))))) (cD (cA (cA (cB (cN 2) (cM (cN 5) (cV 2))) (cW (cV 2) 4)) (cM (cN 2) (cW (cV 2) 6))) (cM (cA (cN 1) (cV 2)) (cR (cM (cV 2) (cA (cB (cB (cN 2) (cM (cN 2) (cV 2))) (cM (cN 8) (cW (cV 2) 4))) (cM (cN 8) (cW (cV 2) 6)))))))).
Definition QST_e1064 := (cO (cD (cA (cN 1) (cH 1)) (cM (cR (cN 2)) (cR (cD (cM (cA (cA (cN 1) (cM (cN 3) (cH 1))) (cM (cN 2) (cW (cH 1) 4))) (cV 2)) (cA (cN 1) (cV 2))))))).
Definition QST_e1065 := (cD (cB (cA (cA (cD (cB (cA (cN (-1)) (cM (cN 3) (cV 2))) (cM (cN 2) (cW (cV 2) 4))) (cR (cM (cM (cA (cA (cN 1) (cM (cN 3) (cH 1))) (cM (cN 2) (cW (cH 1) 4))) (cV 2)) (cA (cB (cB (cN 1) (cV 2)) (cM (cN 4) (cW (cV 2) 4))) (cM (cN 4) (cW (cV 2) 6)))))) (cD (cM (cA (cN (-1)) (cM (cN 2) (cV 2))) (cA (cA (cN (-2)) (cV 2)) (cW (cV 2) 4))) (cR (cM (cM (cA (cA (cN 1) (cM (cN 3) (cH 1))) (cM (cN 2) (cW (cH 1) 4))) (cV 2)) (cA (cB (cB (cN 1) (cV 2)) (cM (cN 4) (cW (cV 2) 4))) (cM (cN 4) (cW (cV 2) 6))))))) (cD (cM (cM (cH 1) (cA (cN (-1)) (cM (cN 2) (cV 2)))) (cA (cA (cN (-2)) (cV 2)) (cW (cV 2) 4))) (cR (cM (cM (cA (cA (cN 1) (cM (cN 3) (cH 1))) (cM (cN 2) (cW (cH 1) 4))) (cV 2)) (cA (cB (cB (cN 1) (cV 2)) (cM (cN 4) (cW (cV 2) 4))) (cM (cN 4) (cW (cV 2) 6))))))) (cD (cM (cM (cW (cH 1) 3) (cA (cN (-1)) (cV 2))) (cA (cN (-1)) (cM (cN 2) (cV 2)))) (cR (cM (cM (cM (cH 1) (cA (cA (cN 1) (cM (cN 3) (cH 1))) (cM (cN 2) (cW (cH 1) 4)))) (cV 2)) (cA (cB (cB (cN 1) (cV 2)) (cM (cN 4) (cW (cV 2) 4))) (cM (cN 4) (cW (cV 2) 6))))))) (cM (cR (cN 2)) (cA (cN 1) (cV 2)))).
Definition QST_e1066 := (cM (cR (cQ 3 2)) (cB (cB (cD (cM (cM (cN 2) (cH 1)) (cA (cN (-1)) (cV 2))) (cM (cA (cN 1) (cV 2)) (cR (cM (cM (cM (cH 1) (cA (cN 1) (cM (cN 2) (cH 1)))) (cV 2)) (cA (cB (cN 3) (cM (cN 7) (cV 2))) (cM (cN 4) (cW (cV 2) 6))))))) (cD (cM (cH 1) (cA (cA (cN (-7)) (cM (cN 5) (cV 2))) (cM (cN 2) (cW (cV 2) 4)))) (cM (cA (cN 1) (cV 2)) (cR (cM (cM (cM (cH 1) (cA (cN 1) (cM (cN 2) (cH 1)))) (cV 2)) (cA (cB (cN 3) (cM (cN 7) (cV 2))) (cM (cN 4) (cW (cV 2) 6)))))))) (cD (cM (cA (cN (-1)) (cM (cN 2) (cV 2))) (cA (cB (cM (cN 2) (cR (cD (cM (cH 1) (cA (cN (-1)) (cV 2))) (cM (cV 2) (cA (cN 1) (cV 2)))))) (cR (cD (cM (cH 1) (cV 2)) (cA (cN (-1)) (cW (cV 2) 4))))) (cR (cD (cM (cH 1) (cW (cV 2) 6)) (cA (cN (-1)) (cW (cV 2) 4)))))) (cR (cM (cA (cN 1) (cM (cN 2) (cH 1))) (cA (cA (cA (cN (-3)) (cV 2)) (cM (cN 8) (cW (cV 2) 4))) (cM (cN 4) (cW (cV 2) 6)))))))).
Definition QST_e1067 := (cD (cM (cN 3) (cB (cB (cD (cM (cH 1) (cA (cA (cN (-7)) (cV 2)) (cM (cN 2) (cW (cV 2) 4)))) (cM (cM (cA (cN 1) (cV 2)) (cR (cM (cM (cM (cH 1) (cA (cN 1) (cM (cN 2) (cH 1)))) (cV 2)) (cA (cN 1) (cV 2))))) (cA (cN 3) (cM (cN 2) (cV 2))))) (cD (cM (cM (cA (cN 2) (cV 2)) (cA (cN (-1)) (cM (cN 2) (cV 2)))) (cR (cD (cM (cH 1) (cV 2)) (cA (cA (cA (cN 1) (cM (cN 2) (cH 1))) (cV 2)) (cM (cM (cN 2) (cH 1)) (cV 2)))))) (cM (cV 2) (cA (cA (cN 3) (cM (cN 5) (cV 2))) (cM (cN 2) (cW (cV 2) 4)))))) (cD (cM (cA (cN (-1)) (cM (cN 2) (cV 2))) (cA (cB (cM (cN 2) (cR (cD (cM (cH 1) (cA (cN (-1)) (cM (cN 2) (cV 2)))) (cA (cN 3) (cM (cN 2) (cV 2)))))) (cM (cV 2) (cR (cD (cH 1) (cA (cA (cN (-3)) (cM (cN 4) (cV 2))) (cM (cN 4) (cW (cV 2) 4))))))) (cM (cM (cN 2) (cW (cV 2) 4)) (cR (cD (cH 1) (cA (cA (cN (-3)) (cM (cN 4) (cV 2))) (cM (cN 4) (cW (cV 2) 4)))))))) (cM (cA (cN 1) (cV 2)) (cR (cM (cM (cA (cN 1) (cM (cN 2) (cH 1))) (cV 2)) (cA (cA (cA (cN (-3)) (cV 2)) (cM (cN 8) (cW (cV 2) 4))) (cM (cN 4) (cW (cV 2) 6))))))))) (cR (cN 2))).
Definition QST_e1068 := (cD (cM (cR (cQ 3 2)) (cA (cB (cA (cA (cA (cM (cM (cN (-10)) (cV 2)) (cR (cD (cM (cH 1) (cV 2)) (cA (cN 2) (cV 2))))) (cM (cN 11) (cR (cD (cM (cH 1) (cW (cV 2) 10)) (cA (cN 2) (cV 2)))))) (cM (cN 16) (cR (cD (cM (cH 1) (cW (cV 2) 14)) (cA (cN 2) (cV 2)))))) (cM (cN 4) (cR (cD (cM (cH 1) (cW (cV 2) 18)) (cA (cN 2) (cV 2)))))) (cM (cN 3) (cR (cM (cM (cH 1) (cV 2)) (cA (cN 2) (cV 2)))))) (cM (cM (cN 6) (cV 2)) (cR (cM (cM (cH 1) (cV 2)) (cA (cN 2) (cV 2))))))) (cM (cM (cA (cN 1) (cV 2)) (cA (cN 3) (cM (cN 2) (cV 2)))) (cR (cM (cM (cA (cN 1) (cM (cN 2) (cH 1))) (cV 2)) (cA (cA (cA (cN (-3)) (cV 2)) (cM (cN 8) (cW (cV 2) 4))) (cM (cN 4) (cW (cV 2) 6))))))).
Definition QST_e1069 := (cD (cB (cB (cN 3) (cM (cN 4) (cV 2))) (cM (cN 4) (cW (cV 2) 4))) (cM (cR (cN 6)) (cR (cM (cV 2) (cA (cA (cA (cN (-3)) (cV 2)) (cM (cN 8) (cW (cV 2) 4))) (cM (cN 4) (cW (cV 2) 6))))))).
Definition QST_e1070 := (cD (cA (cA (cA (cA (cA (cA (cM (cN 3) (cR (cD (cM (cV 2) (cA (cN (-1)) (cM (cN 2) (cV 2)))) (cA (cN 3) (cM (cN 2) (cV 2)))))) (cM (cN 5) (cR (cD (cM (cW (cV 2) 6) (cA (cN (-1)) (cM (cN 2) (cV 2)))) (cA (cN 3) (cM (cN 2) (cV 2))))))) (cM (cN 2) (cR (cD (cM (cW (cV 2) 10) (cA (cN (-1)) (cM (cN 2) (cV 2)))) (cA (cN 3) (cM (cN 2) (cV 2))))))) (cM (cN 2) (cR (cM (cV 2) (cA (cA (cN (-3)) (cM (cN 4) (cV 2))) (cM (cN 4) (cW (cV 2) 4))))))) (cM (cN 7) (cR (cM (cW (cV 2) 6) (cA (cA (cN (-3)) (cM (cN 4) (cV 2))) (cM (cN 4) (cW (cV 2) 4))))))) (cM (cN 7) (cR (cM (cW (cV 2) 10) (cA (cA (cN (-3)) (cM (cN 4) (cV 2))) (cM (cN 4) (cW (cV 2) 4))))))) (cM (cN 2) (cR (cM (cW (cV 2) 14) (cA (cA (cN (-3)) (cM (cN 4) (cV 2))) (cM (cN 4) (cW (cV 2) 4))))))) (cM (cM (cR (cN 6)) (cW (cA (cN 1) (cV 2)) 5)) (cW (cA (cN 3) (cM (cN 2) (cV 2))) 4))).
Definition QST_e1071 := (cD (cA (cA (cA (cA (cA (cM (cM (cN 3) (cV 2)) (cR (cM (cM (cM (cH 1) (cA (cA (cN 1) (cM (cN 3) (cH 1))) (cM (cN 2) (cW (cH 1) 4)))) (cV 2)) (cA (cA (cA (cN (-3)) (cV 2)) (cM (cN 8) (cW (cV 2) 4))) (cM (cN 4) (cW (cV 2) 6)))))) (cM (cM (cN 5) (cW (cV 2) 4)) (cR (cM (cM (cM (cH 1) (cA (cA (cN 1) (cM (cN 3) (cH 1))) (cM (cN 2) (cW (cH 1) 4)))) (cV 2)) (cA (cA (cA (cN (-3)) (cV 2)) (cM (cN 8) (cW (cV 2) 4))) (cM (cN 4) (cW (cV 2) 6))))))) (cM (cM (cN 2) (cW (cV 2) 6)) (cR (cM (cM (cM (cH 1) (cA (cA (cN 1) (cM (cN 3) (cH 1))) (cM (cN 2) (cW (cH 1) 4)))) (cV 2)) (cA (cA (cA (cN (-3)) (cV 2)) (cM (cN 8) (cW (cV 2) 4))) (cM (cN 4) (cW (cV 2) 6))))))) (cM (cN 3) (cR (cM (cM (cM (cW (cH 1) 6) (cA (cA (cN 1) (cM (cN 3) (cH 1))) (cM (cN 2) (cW (cH 1) 4)))) (cW (cV 2) 6)) (cA (cA (cA (cN (-3)) (cV 2)) (cM (cN 8) (cW (cV 2) 4))) (cM (cN 4) (cW (cV 2) 6))))))) (cM (cN 5) (cR (cM (cM (cM (cW (cH 1) 6) (cA (cA (cN 1) (cM (cN 3) (cH 1))) (cM (cN 2) (cW (cH 1) 4)))) (cW (cV 2) 10)) (cA (cA (cA (cN (-3)) (cV 2)) (cM (cN 8) (cW (cV 2) 4))) (cM (cN 4) (cW (cV 2) 6))))))) (cM (cN 2) (cR (cM (cM (cM (cW (cH 1) 6) (cA (cA (cN 1) (cM (cN 3) (cH 1))) (cM (cN 2) (cW (cH 1) 4)))) (cW (cV 2) 14)) (cA (cA (cA (cN (-3)) (cV 2)) (cM (cN 8) (cW (cV 2) 4))) (cM (cN 4) (cW (cV 2) 6))))))) (cM (cM (cM (cM (cR (cN 6)) (cR (cH 1))) (cA (cA (cN 1) (cM (cN 3) (cH 1))) (cM (cN 2) (cW (cH 1) 4)))) (cW (cV 2) 4)) (cA (cA (cA (cN (-3)) (cV 2)) (cM (cN 8) (cW (cV 2) 4))) (cM (cN 4) (cW (cV 2) 6))))).
Definition QST_e1072 := (cD (cA (cB (cB (cB (cA (cD (cM (cM (cH 1) (cV 2)) (cA (cN (-1)) (cM (cN 2) (cV 2)))) (cM (cW (cA (cN 1) (cV 2)) 3) (cR (cM (cM (cA (cA (cN 1) (cM (cN 3) (cH 1))) (cM (cN 2) (cW (cH 1) 4))) (cV 2)) (cA (cA (cN (-3)) (cM (cN 4) (cV 2))) (cM (cN 4) (cW (cV 2) 4))))))) (cD (cM (cW (cV 2) 3) (cA (cN (-1)) (cM (cN 2) (cV 2)))) (cR (cM (cM (cM (cA (cA (cN 1) (cM (cN 3) (cH 1))) (cM (cN 2) (cW (cH 1) 4))) (cW (cV 2) 4)) (cW (cA (cN 1) (cV 2)) 6)) (cA (cA (cN (-3)) (cM (cN 4) (cV 2))) (cM (cN 4) (cW (cV 2) 4))))))) (cD (cM (cM (cM (cM (cN 3) (cH 1)) (cA (cN 2) (cV 2))) (cA (cN (-1)) (cM (cN 2) (cV 2)))) (cR (cD (cV 2) (cM (cA (cA (cN 1) (cM (cN 3) (cH 1))) (cM (cN 2) (cW (cH 1) 4))) (cA (cA (cA (cN (-3)) (cV 2)) (cM (cN 8) (cW (cV 2) 4))) (cM (cN 4) (cW (cV 2) 6))))))) (cM (cV 2) (cA (cN 1) (cV 2))))) (cD (cM (cM (cN 3) (cA (cA (cN (-2)) (cM (cN 3) (cV 2))) (cM (cN 2) (cW (cV 2) 4)))) (cR (cD (cV 2) (cM (cA (cA (cN 1) (cM (cN 3) (cH 1))) (cM (cN 2) (cW (cH 1) 4))) (cA (cA (cA (cN (-3)) (cV 2)) (cM (cN 8) (cW (cV 2) 4))) (cM (cN 4) (cW (cV 2) 6))))))) (cM (cV 2) (cA (cN 1) (cV 2))))) (cD (cM (cM (cH 1) (cA (cN (-1)) (cM (cN 2) (cV 2)))) (cA (cA (cN (-3)) (cM (cN 3) (cV 2))) (cM (cN 2) (cW (cV 2) 4)))) (cM (cM (cV 2) (cA (cN 1) (cV 2))) (cR (cD (cM (cA (cA (cN 1) (cM (cN 3) (cH 1))) (cM (cN 2) (cW (cH 1) 4))) (cA (cA (cA (cN (-3)) (cV 2)) (cM (cN 8) (cW (cV 2) 4))) (cM (cN 4) (cW (cV 2) 6)))) (cV 2)))))) (cD (cB (cB (cA (cN (-3)) (cM (cN 9) (cV 2))) (cM (cN 4) (cW (cV 2) 4))) (cM (cN 4) (cW (cV 2) 6))) (cM (cA (cN 1) (cV 2)) (cR (cM (cM (cA (cA (cN 1) (cM (cN 3) (cH 1))) (cM (cN 2) (cW (cH 1) 4))) (cV 2)) (cA (cA (cA (cN (-3)) (cV 2)) (cM (cN 8) (cW (cV 2) 4))) (cM (cN 4) (cW (cV 2) 6)))))))) (cR (cN 6))).
Definition QST_e1073 := (cD (cB (cA (cA (cB (cA (cM (cH 1) (cR (cD (cM (cV 2) (cA (cN (-1)) (cM (cN 2) (cV 2)))) (cM (cA (cA (cN 1) (cM (cN 3) (cH 1))) (cM (cN 2) (cW (cH 1) 4))) (cW (cA (cA (cN 3) (cM (cN 5) (cV 2))) (cM (cN 2) (cW (cV 2) 4))) 6))))) (cD (cM (cV 2) (cA (cN (-1)) (cM (cN 2) (cV 2)))) (cR (cM (cM (cM (cA (cA (cN 1) (cM (cN 3) (cH 1))) (cM (cN 2) (cW (cH 1) 4))) (cV 2)) (cA (cN (-1)) (cM (cN 2) (cV 2)))) (cW (cA (cA (cN 3) (cM (cN 5) (cV 2))) (cM (cN 2) (cW (cV 2) 4))) 6))))) (cD (cM (cM (cM (cM (cN 4) (cH 1)) (cV 2)) (cA (cN 2) (cV 2))) (cA (cN (-1)) (cM (cN 2) (cV 2)))) (cM (cA (cA (cN 3) (cM (cN 5) (cV 2))) (cM (cN 2) (cW (cV 2) 4))) (cR (cM (cM (cA (cA (cN 1) (cM (cN 3) (cH 1))) (cM (cN 2) (cW (cH 1) 4))) (cV 2)) (cA (cA (cA (cN (-3)) (cV 2)) (cM (cN 8) (cW (cV 2) 4))) (cM (cN 4) (cW (cV 2) 6)))))))) (cD (cM (cM (cV 2) (cA (cN (-1)) (cM (cN 2) (cV 2)))) (cA (cA (cN 10) (cM (cN 9) (cV 2))) (cM (cN 2) (cW (cV 2) 4)))) (cM (cA (cA (cN 3) (cM (cN 5) (cV 2))) (cM (cN 2) (cW (cV 2) 4))) (cR (cM (cM (cA (cA (cN 1) (cM (cN 3) (cH 1))) (cM (cN 2) (cW (cH 1) 4))) (cV 2)) (cA (cA (cA (cN (-3)) (cV 2)) (cM (cN 8) (cW (cV 2) 4))) (cM (cN 4) (cW (cV 2) 6)))))))) (cD (cM (cM (cH 1) (cV 2)) (cA (cA (cA (cN (-10)) (cM (cN 11) (cV 2))) (cM (cN 16) (cW (cV 2) 4))) (cM (cN 4) (cW (cV 2) 6)))) (cM (cM (cA (cN 1) (cV 2)) (cA (cN 3) (cM (cN 2) (cV 2)))) (cR (cM (cM (cA (cA (cN 1) (cM (cN 3) (cH 1))) (cM (cN 2) (cW (cH 1) 4))) (cV 2)) (cA (cA (cA (cN (-3)) (cV 2)) (cM (cN 8) (cW (cV 2) 4))) (cM (cN 4) (cW (cV 2) 6)))))))) (cD (cM (cM (cN 4) (cR (cD (cM (cH 1) (cA (cN (-1)) (cM (cN 2) (cV 2)))) (cA (cA (cN 1) (cM (cN 3) (cH 1))) (cM (cN 2) (cW (cH 1) 4)))))) (cA (cM (cN 2) (cR (cD (cM (cH 1) (cV 2)) (cA (cA (cN 3) (cM (cN 5) (cV 2))) (cM (cN 2) (cW (cV 2) 4)))))) (cR (cD (cM (cH 1) (cW (cV 2) 6)) (cA (cA (cN 3) (cM (cN 5) (cV 2))) (cM (cN 2) (cW (cV 2) 4))))))) (cM (cH 1) (cA (cA (cN 3) (cM (cN 5) (cV 2))) (cM (cN 2) (cW (cV 2) 4)))))) (cR (cN 6))).
Definition QST_e1074 := (cM (cM (cR (cQ 3 2)) (cB (cB (cN 2) (cM (cN 3) (cV 2))) (cM (cN 2) (cW (cV 2) 4)))) (cR (cD (cH 1) (cM (cA (cN 1) (cM (cN 2) (cH 1))) (cA (cA (cA (cB (cN (-2)) (cM (cN 3) (cV 2))) (cM (cN 7) (cW (cV 2) 4))) (cM (cN 12) (cW (cV 2) 6))) (cM (cN 4) (cW (cV 2) 8))))))).
Definition QST_e1075 := (cD (cB (cB (cD (cM (cM (cM (cN (-3)) (cH 1)) (cV 2)) (cA (cN 5) (cM (cN 2) (cV 2)))) (cM (cA (cN 1) (cV 2)) (cR (cM (cM (cH 1) (cA (cN 1) (cM (cN 2) (cH 1)))) (cA (cA (cN 2) (cM (cN 3) (cV 2))) (cW (cV 2) 4)))))) (cD (cM (cM (cM (cN 3) (cH 1)) (cW (cV 2) 3)) (cA (cN 5) (cM (cN 2) (cV 2)))) (cM (cA (cN 1) (cV 2)) (cR (cM (cM (cM (cH 1) (cA (cN 1) (cM (cN 2) (cH 1)))) (cV 2)) (cA (cA (cN 2) (cM (cN 3) (cV 2))) (cW (cV 2) 4))))))) (cD (cA (cA (cB (cN 12) (cM (cN 7) (cV 2))) (cW (cV 2) 4)) (cM (cN 2) (cW (cV 2) 6))) (cM (cW (cA (cN 1) (cV 2)) 3) (cR (cD (cM (cA (cN 1) (cM (cN 2) (cH 1))) (cA (cN 2) (cV 2))) (cH 1)))))) (cM (cR (cN 2)) (cA (cN 3) (cM (cN 2) (cV 2))))).
Definition QST_e1076 := (cA (cB (cD (cM (cM (cN (-3)) (cH 1)) (cV 2)) (cM (cR (cM (cM (cM (cH 1) (cA (cN 1) (cM (cN 2) (cH 1)))) (cV 2)) (cA (cN 2) (cV 2)))) (cA (cA (cN 3) (cM (cN 5) (cV 2))) (cM (cN 2) (cW (cV 2) 4))))) (cD (cM (cM (cH 1) (cV 2)) (cA (cN (-3)) (cM (cN 2) (cV 2)))) (cM (cR (cM (cM (cM (cH 1) (cA (cN 1) (cM (cN 2) (cH 1)))) (cV 2)) (cA (cN 2) (cV 2)))) (cA (cA (cN 3) (cM (cN 5) (cV 2))) (cM (cN 2) (cW (cV 2) 4)))))) (cD (cM (cM (cA (cN 1) (cM (cN 2) (cV 2))) (cR (cD (cH 1) (cM (cA (cN 1) (cM (cN 2) (cH 1))) (cA (cA (cA (cN 6) (cM (cN 13) (cV 2))) (cM (cN 9) (cW (cV 2) 4))) (cM (cN 2) (cW (cV 2) 6))))))) (cA (cA (cA (cM (cN 9) (cR (cD (cM (cV 2) (cA (cN 1) (cV 2))) (cA (cN 3) (cM (cN 2) (cV 2)))))) (cM (cN 6) (cR (cD (cV 2) (cA (cA (cN 3) (cM (cN 5) (cV 2))) (cM (cN 2) (cW (cV 2) 4))))))) (cM (cN 5) (cR (cM (cV 2) (cA (cA (cN 3) (cM (cN 5) (cV 2))) (cM (cN 2) (cW (cV 2) 4))))))) (cR (cM (cW (cV 2) 6) (cA (cA (cN 3) (cM (cN 5) (cV 2))) (cM (cN 2) (cW (cV 2) 4))))))) (cM (cA (cN 2) (cV 2)) (cA (cN 5) (cM (cN 2) (cV 2)))))).
Definition QST_e1077 := (cD (cA (cA (cN 6) (cM (cN 7) (cV 2))) (cM (cN 2) (cW (cV 2) 4))) (cR (cA (cA (cA (cA (cN 12) (cM (cN 50) (cV 2))) (cM (cN 70) (cW (cV 2) 4))) (cM (cN 40) (cW (cV 2) 6))) (cM (cN 8) (cW (cV 2) 8))))).
Definition QST_e1078 := (cO (cD (cN 1) (cR (cA (cN 2) (cD (cN 2) (cV 2)))))).
Definition QST_e1079 := (cD (cR (cD (cM (cA (cA (cN 1) (cM (cN 3) (cH 1))) (cM (cN 2) (cW (cH 1) 4))) (cA (cA (cN 6) (cM (cN 7) (cV 2))) (cM (cN 2) (cW (cV 2) 4)))) (cA (cA (cN 2) (cM (cN 6) (cV 2))) (cM (cN 4) (cW (cV 2) 4))))) (cA (cN 1) (cM (cN 2) (cH 1)))).
Definition QST_e1080 := (cD (cB (cA (cB (cB (cB (cD (cM (cM (cH 1) (cR (cD (cV 2) (cA (cA (cN 1) (cM (cN 3) (cH 1))) (cM (cN 2) (cW (cH 1) 4)))))) (cA (cN 1) (cM (cN 2) (cV 2)))) (cM (cW (cA (cN 1) (cV 2)) 3) (cA (cN 3) (cM (cN 2) (cV 2))))) (cD (cM (cM (cH 1) (cR (cD (cV 2) (cA (cA (cN 1) (cM (cN 3) (cH 1))) (cM (cN 2) (cW (cH 1) 4)))))) (cA (cN 5) (cM (cN 2) (cV 2)))) (cM (cW (cA (cN 1) (cV 2)) 3) (cA (cN 3) (cM (cN 2) (cV 2)))))) (cD (cM (cV 2) (cA (cA (cN (-1)) (cM (cN 5) (cV 2))) (cM (cN 2) (cW (cV 2) 4)))) (cM (cR (cM (cM (cA (cA (cN 1) (cM (cN 3) (cH 1))) (cM (cN 2) (cW (cH 1) 4))) (cV 2)) (cA (cN 1) (cV 2)))) (cA (cA (cN 3) (cM (cN 5) (cV 2))) (cM (cN 2) (cW (cV 2) 4)))))) (cD (cA (cA (cM (cR (cD (cM (cV 2) (cA (cN 1) (cV 2))) (cA (cN 2) (cV 2)))) (cA (cN 1) (cM (cN 2) (cV 2)))) (cM (cN 6) (cR (cD (cV 2) (cA (cA (cN 2) (cM (cN 3) (cV 2))) (cW (cV 2) 4)))))) (cM (cM (cN 3) (cA (cN 1) (cM (cN 2) (cV 2)))) (cR (cD (cV 2) (cA (cA (cN 2) (cM (cN 3) (cV 2))) (cW (cV 2) 4)))))) (cM (cR (cM (cA (cA (cN 1) (cM (cN 3) (cH 1))) (cM (cN 2) (cW (cH 1) 4))) (cA (cN 2) (cV 2)))) (cA (cA (cN 3) (cM (cN 5) (cV 2))) (cM (cN 2) (cW (cV 2) 4)))))) (cD (cM (cV 2) (cA (cR (cD (cA (cN 1) (cM (cN 2) (cV 2))) (cA (cA (cN 2) (cM (cN 3) (cV 2))) (cW (cV 2) 4)))) (cR (cD (cA (cA (cN 1) (cM (cN 3) (cV 2))) (cM (cN 2) (cW (cV 2) 4))) (cA (cN 2) (cV 2)))))) (cM (cR (cD (cM (cM (cA (cA (cN 1) (cM (cN 3) (cH 1))) (cM (cN 2) (cW (cH 1) 4))) (cV 2)) (cA (cN 2) (cV 2))) (cA (cN 1) (cM (cN 2) (cV 2))))) (cA (cA (cN 3) (cM (cN 5) (cV 2))) (cM (cN 2) (cW (cV 2) 4)))))) (cD (cM (cM (cW (cH 1) 4) (cV 2)) (cA (cA (cD (cM (cM (cN 2) (cV 2)) (cA (cN 1) (cM (cN 2) (cV 2)))) (cM (cA (cN 1) (cV 2)) (cR (cM (cM (cH 1) (cA (cN 1) (cH 1))) (cA (cA (cN 6) (cM (cN 7) (cV 2))) (cM (cN 2) (cW (cV 2) 4))))))) (cD (cM (cN 3) (cA (cN (-1)) (cV 2))) (cR (cM (cM (cM (cH 1) (cA (cN 1) (cH 1))) (cW (cA (cN 1) (cV 2)) 4)) (cA (cA (cN 6) (cM (cN 7) (cV 2))) (cM (cN 2) (cW (cV 2) 4))))))) (cD (cM (cW (cA (cN 1) (cV 2)) 3) (cA (cN 1) (cM (cN 2) (cV 2)))) (cR (cM (cM (cH 1) (cA (cN 1) (cH 1))) (cA (cA (cA (cN 6) (cM (cN 13) (cV 2))) (cM (cN 9) (cW (cV 2) 4))) (cM (cN 2) (cW (cV 2) 6)))))))) (cR (cM (cM (cM (cH 1) (cA (cN 1) (cM (cN 2) (cH 1)))) (cV 2)) (cA (cA (cA (cN 6) (cM (cN 13) (cV 2))) (cM (cN 9) (cW (cV 2) 4))) (cM (cN 2) (cW (cV 2) 6))))))) (cR (cN 2))).
Definition QST_e1081 := (cD (cM (cH 1) (cB (cA (cD (cM (cM (cN 3) (cV 2)) (cA (cN 5) (cM (cN 2) (cV 2)))) (cM (cA (cN 1) (cV 2)) (cR (cM (cM (cM (cH 1) (cA (cN 1) (cM (cN 2) (cH 1)))) (cV 2)) (cA (cA (cA (cN 30) (cM (cN 47) (cV 2))) (cM (cN 24) (cW (cV 2) 4))) (cM (cN 4) (cW (cV 2) 6))))))) (cD (cM (cV 2) (cA (cA (cN (-15)) (cM (cN 4) (cV 2))) (cM (cN 4) (cW (cV 2) 4)))) (cM (cA (cN 1) (cV 2)) (cR (cM (cM (cM (cH 1) (cA (cN 1) (cM (cN 2) (cH 1)))) (cV 2)) (cA (cA (cA (cN 30) (cM (cN 47) (cV 2))) (cM (cN 24) (cW (cV 2) 4))) (cM (cN 4) (cW (cV 2) 6)))))))) (cD (cM (cA (cN 1) (cM (cN 2) (cV 2))) (cA (cA (cA (cM (cN 6) (cR (cD (cV 2) (cA (cN 1) (cV 2))))) (cM (cN 24) (cR (cM (cV 2) (cA (cN 1) (cV 2)))))) (cM (cM (cN 13) (cV 2)) (cR (cM (cV 2) (cA (cN 1) (cV 2)))))) (cM (cN 2) (cR (cM (cW (cV 2) 10) (cA (cN 1) (cV 2))))))) (cM (cA (cN 2) (cV 2)) (cR (cM (cM (cH 1) (cA (cN 1) (cM (cN 2) (cH 1)))) (cA (cA (cA (cA (cN 30) (cM (cN 77) (cV 2))) (cM (cN 71) (cW (cV 2) 4))) (cM (cN 28) (cW (cV 2) 6))) (cM (cN 4) (cW (cV 2) 8))))))))) (cA (cN 3) (cM (cN 2) (cV 2)))).
Definition QST_e1082 := (cA (cD (cM (cM (cM (cM (cN (-2)) (cR (cN 2))) (cH 1)) (cA (cN 3) (cV 2))) (cA (cN 1) (cM (cN 2) (cV 2)))) (cM (cR (cM (cM (cH 1) (cA (cN 1) (cM (cN 2) (cH 1)))) (cA (cA (cN 6) (cM (cN 5) (cV 2))) (cW (cV 2) 4)))) (cA (cA (cN 3) (cM (cN 5) (cV 2))) (cM (cN 2) (cW (cV 2) 4))))) (cD (cM (cM (cR (cN 2)) (cH 1)) (cA (cA (cB (cO (cD (cM (cA (cN 2) (cV 2)) (cA (cN 1) (cM (cN 2) (cV 2)))) (cR (cD (cM (cA (cN 3) (cV 2)) (cA (cN 5) (cM (cN 2) (cV 2)))) (cA (cA (cN 3) (cM (cN 5) (cV 2))) (cM (cN 2) (cW (cV 2) 4))))))) (cD (cM (cA (cN 1) (cV 2)) (cA (cN 1) (cM (cN 2) (cV 2)))) (cR (cD (cM (cM (cW (cA (cN 2) (cV 2)) 4) (cA (cN 3) (cV 2))) (cA (cN 5) (cM (cN 2) (cV 2)))) (cA (cA (cN 3) (cM (cN 5) (cV 2))) (cM (cN 2) (cW (cV 2) 4))))))) (cD (cM (cN 6) (cA (cN (-2)) (cV 2))) (cM (cA (cN 2) (cV 2)) (cR (cA (cA (cA (cA (cN 45) (cM (cN 108) (cV 2))) (cM (cN 91) (cW (cV 2) 4))) (cM (cN 32) (cW (cV 2) 6))) (cM (cN 4) (cW (cV 2) 8))))))) (cD (cM (cM (cN 3) (cA (cN (-1)) (cV 2))) (cA (cN 1) (cM (cN 2) (cV 2)))) (cM (cA (cN 2) (cV 2)) (cR (cA (cA (cA (cA (cN 45) (cM (cN 108) (cV 2))) (cM (cN 91) (cW (cV 2) 4))) (cM (cN 32) (cW (cV 2) 6))) (cM (cN 4) (cW (cV 2) 8)))))))) (cM (cR (cA (cN 1) (cM (cN 2) (cH 1)))) (cR (cM (cH 1) (cA (cA (cA (cA (cN 30) (cM (cN 77) (cV 2))) (cM (cN 71) (cW (cV 2) 4))) (cM (cN 28) (cW (cV 2) 6))) (cM (cN 4) (cW (cV 2) 8)))))))).
Definition QST_e1083 := (cR (cD (cA (cN 5) (cM (cN 2) (cV 2))) (cA (cN 3) (cM (cN 2) (cV 2))))).
Definition QST_e1084 := (cA (cA (cA (cA (cA (cD (cM (cH 1) (cA (cN 5) (cM (cN 2) (cV 2)))) (cM (cM (cA (cN 1) (cV 2)) (cA (cN 3) (cM (cN 2) (cV 2)))) (cR (cM (cA (cA (cN 1) (cM (cN 3) (cH 1))) (cM (cN 2) (cW (cH 1) 4))) (cA (cA (cN 15) (cM (cN 16) (cV 2))) (cM (cN 4) (cW (cV 2) 4))))))) (cD (cA (cN 5) (cM (cN 2) (cV 2))) (cM (cA (cA (cN 3) (cM (cN 5) (cV 2))) (cM (cN 2) (cW (cV 2) 4))) (cR (cM (cA (cA (cN 1) (cM (cN 3) (cH 1))) (cM (cN 2) (cW (cH 1) 4))) (cA (cA (cN 15) (cM (cN 16) (cV 2))) (cM (cN 4) (cW (cV 2) 4)))))))) (cD (cM (cH 1) (cA (cA (cN 5) (cM (cN 12) (cV 2))) (cM (cN 4) (cW (cV 2) 4)))) (cM (cA (cN 3) (cM (cN 2) (cV 2))) (cR (cM (cA (cA (cN 1) (cM (cN 3) (cH 1))) (cM (cN 2) (cW (cH 1) 4))) (cA (cA (cN 15) (cM (cN 16) (cV 2))) (cM (cN 4) (cW (cV 2) 4)))))))) (cD (cM (cW (cH 1) 4) (cA (cA (cD (cA (cN 1) (cM (cN 2) (cV 2))) (cR (cD (cM (cM (cH 1) (cA (cN 1) (cH 1))) (cA (cN 2) (cV 2))) (cA (cN 1) (cV 2))))) (cD (cA (cN 4) (cM (cN 8) (cV 2))) (cR (cD (cM (cM (cM (cH 1) (cA (cN 1) (cH 1))) (cA (cN 2) (cV 2))) (cW (cA (cN 3) (cM (cN 2) (cV 2))) 4)) (cA (cN 1) (cV 2)))))) (cD (cA (cN 3) (cM (cN 6) (cV 2))) (cM (cA (cN 3) (cM (cN 2) (cV 2))) (cR (cM (cM (cH 1) (cA (cN 1) (cH 1))) (cA (cA (cN 2) (cM (cN 3) (cV 2))) (cW (cV 2) 4)))))))) (cR (cM (cM (cH 1) (cA (cN 1) (cM (cN 2) (cH 1)))) (cA (cA (cA (cA (cN 30) (cM (cN 77) (cV 2))) (cM (cN 71) (cW (cV 2) 4))) (cM (cN 28) (cW (cV 2) 6))) (cM (cN 4) (cW (cV 2) 8))))))) (cD (cM (cA (cN 1) (cM (cN 2) (cV 2))) (cA (cA (cA (cM (cN 7) (cR (cD (cA (cN 2) (cV 2)) (cA (cN 3) (cM (cN 2) (cV 2)))))) (cM (cM (cN 7) (cV 2)) (cR (cD (cA (cN 2) (cV 2)) (cA (cN 3) (cM (cN 2) (cV 2))))))) (cM (cM (cN 2) (cW (cV 2) 4)) (cR (cD (cA (cN 2) (cV 2)) (cA (cN 3) (cM (cN 2) (cV 2))))))) (cR (cA (cA (cN 6) (cM (cN 7) (cV 2))) (cM (cN 2) (cW (cV 2) 4)))))) (cM (cA (cN 3) (cM (cN 2) (cV 2))) (cR (cM (cM (cA (cA (cN 1) (cM (cN 3) (cH 1))) (cM (cN 2) (cW (cH 1) 4))) (cW (cA (cN 2) (cV 2)) 6)) (cA (cN 5) (cM (cN 2) (cV 2)))))))) (cD (cM (cA (cN 1) (cM (cN 2) (cV 2))) (cA (cA (cM (cN 7) (cR (cD (cA (cN 2) (cV 2)) (cA (cN 3) (cM (cN 2) (cV 2)))))) (cR (cA (cA (cN 6) (cM (cN 7) (cV 2))) (cM (cN 2) (cW (cV 2) 4))))) (cM (cV 2) (cA (cM (cN 4) (cR (cD (cA (cN 2) (cV 2)) (cA (cN 3) (cM (cN 2) (cV 2)))))) (cR (cA (cA (cN 6) (cM (cN 7) (cV 2))) (cM (cN 2) (cW (cV 2) 4)))))))) (cM (cR (cM (cM (cA (cA (cN 1) (cM (cN 3) (cH 1))) (cM (cN 2) (cW (cH 1) 4))) (cW (cA (cN 2) (cV 2)) 6)) (cA (cN 5) (cM (cN 2) (cV 2))))) (cA (cA (cN 3) (cM (cN 5) (cV 2))) (cM (cN 2) (cW (cV 2) 4)))))).
Definition QST_e1085 := (cO (cD (cM (cR (cN 2)) (cA (cN 1) (cH 1))) (cR (cD (cM (cA (cA (cN 1) (cM (cN 3) (cH 1))) (cM (cN 2) (cW (cH 1) 4))) (cA (cN (-1)) (cV 2))) (cA (cN (-2)) (cV 2)))))).
Definition QST_e1086 := (cO (cD (cM (cM (cA (cN 1) (cH 1)) (cA (cN 1) (cV 2))) (cA (cN (-3)) (cM (cN 2) (cV 2)))) (cR (cM (cA (cA (cN 1) (cM (cN 3) (cH 1))) (cM (cN 2) (cW (cH 1) 4))) (cA (cB (cB (cA (cN (-3)) (cM (cN 8) (cV 2))) (cW (cV 2) 4)) (cM (cN 8) (cW (cV 2) 6))) (cM (cN 4) (cW (cV 2) 8))))))).
Definition QST_e1087 := (cD (cA (cM (cB (cN 3) (cM (cN 2) (cV 2))) (cR (cD (cH 1) (cM (cA (cN 1) (cM (cN 2) (cH 1))) (cA (cB (cN 3) (cM (cN 8) (cV 2))) (cM (cN 4) (cW (cV 2) 4))))))) (cD (cM (cR (cM (cM (cH 1) (cV 2)) (cA (cN (-3)) (cM (cN 2) (cV 2))))) (cA (cM (cN 2) (cR (cD (cM (cV 2) (cA (cN (-1)) (cM (cN 2) (cV 2)))) (cA (cN 1) (cM (cN 2) (cH 1)))))) (cR (cM (cM (cA (cN 1) (cM (cN 2) (cH 1))) (cV 2)) (cA (cN (-1)) (cM (cN 2) (cV 2))))))) (cM (cV 2) (cA (cN (-1)) (cM (cN 2) (cV 2)))))) (cM (cN 2) (cA (cN 1) (cH 1)))).
Definition QST_e1088 := (cD (cM (cA (cN 1) (cH 1)) (cA (cN 1) (cV 2))) (cR (cM (cA (cA (cN 1) (cM (cN 3) (cH 1))) (cM (cN 2) (cW (cH 1) 4))) (cA (cN (-1)) (cW (cV 2) 4))))).
Definition QST_e1089 := (cD (cO (cM (cA (cN (-3)) (cV 2)) (cA (cA (cR (cM (cM (cA (cA (cN 1) (cM (cN 3) (cH 1))) (cM (cN 2) (cW (cH 1) 4))) (cA (cN (-1)) (cV 2))) (cV 2))) (cR (cM (cM (cA (cA (cN 1) (cM (cN 3) (cH 1))) (cM (cN 2) (cW (cH 1) 4))) (cA (cN (-1)) (cV 2))) (cW (cV 2) 6)))) (cR (cD (cM (cM (cM (cA (cN 1) (cH 1)) (cA (cN (-1)) (cV 2))) (cV 2)) (cW (cA (cN 1) (cV 2)) 4)) (cA (cN 1) (cM (cN 2) (cH 1)))))))) (cM (cM (cM (cM (cN 2) (cR (cN 2))) (cA (cN 1) (cH 1))) (cV 2)) (cA (cN (-1)) (cW (cV 2) 4)))).
Definition QST_e1090 := (cO (cD (cM (cM (cR (cQ 3 2)) (cA (cN 1) (cH 1))) (cA (cA (cN (-3)) (cV 2)) (cM (cN 2) (cW (cV 2) 4)))) (cR (cM (cM (cA (cA (cN 1) (cM (cN 3) (cH 1))) (cM (cN 2) (cW (cH 1) 4))) (cV 2)) (cA (cA (cB (cN (-3)) (cM (cN 5) (cV 2))) (cM (cN 4) (cW (cV 2) 4))) (cM (cN 4) (cW (cV 2) 6))))))).
Definition QST_e1091 := (cD (cB (cB (cA (cD (cM (cH 1) (cA (cN (-1)) (cV 2))) (cM (cA (cN 1) (cH 1)) (cR (cM (cM (cM (cH 1) (cA (cN 1) (cM (cN 2) (cH 1)))) (cV 2)) (cA (cN 1) (cV 2)))))) (cD (cN 2) (cR (cD (cM (cM (cM (cW (cA (cN 1) (cH 1)) 4) (cA (cN 1) (cM (cN 2) (cH 1)))) (cV 2)) (cA (cN 1) (cV 2))) (cH 1))))) (cD (cM (cA (cM (cN 2) (cR (cD (cH 1) (cA (cN 1) (cM (cN 2) (cH 1)))))) (cR (cM (cH 1) (cA (cN 1) (cM (cN 2) (cH 1)))))) (cW (cA (cN (-1)) (cV 2)) 3)) (cM (cM (cA (cN 1) (cH 1)) (cV 2)) (cR (cA (cO (cD (cN 1) (cV 2))) (cV 2)))))) (cD (cM (cN 2) (cA (cM (cN 2) (cR (cD (cM (cM (cH 1) (cV 2)) (cA (cN 1) (cV 2))) (cA (cN 1) (cM (cN 2) (cH 1)))))) (cR (cM (cM (cM (cH 1) (cA (cN 1) (cM (cN 2) (cH 1)))) (cV 2)) (cA (cN 1) (cV 2)))))) (cM (cM (cA (cN 1) (cH 1)) (cV 2)) (cA (cN 1) (cV 2))))) (cM (cN 2) (cR (cN 2)))).
Definition QST_e1092 := (cD (cM (cH 1) (cA (cB (cB (cD (cM (cA (cN (-1)) (cV 2)) (cA (cN (-1)) (cM (cN 2) (cV 2)))) (cR (cM (cM (cM (cH 1) (cA (cN 1) (cM (cN 2) (cH 1)))) (cV 2)) (cA (cB (cB (cN 1) (cV 2)) (cM (cN 4) (cW (cV 2) 4))) (cM (cN 4) (cW (cV 2) 6)))))) (cD (cM (cA (cN (-1)) (cM (cN 2) (cV 2))) (cA (cA (cN (-2)) (cV 2)) (cW (cV 2) 4))) (cR (cM (cM (cM (cH 1) (cA (cN 1) (cM (cN 2) (cH 1)))) (cV 2)) (cA (cB (cB (cN 1) (cV 2)) (cM (cN 4) (cW (cV 2) 4))) (cM (cN 4) (cW (cV 2) 6))))))) (cD (cM (cM (cA (cN (-1)) (cV 2)) (cA (cN (-1)) (cM (cN 2) (cV 2)))) (cA (cM (cN 2) (cR (cD (cV 2) (cA (cN 1) (cM (cN 2) (cH 1)))))) (cR (cA (cV 2) (cM (cM (cN 2) (cH 1)) (cV 2)))))) (cM (cV 2) (cR (cM (cH 1) (cA (cB (cB (cN 1) (cV 2)) (cM (cN 4) (cW (cV 2) 4))) (cM (cN 4) (cW (cV 2) 6)))))))) (cD (cA (cA (cB (cA (cA (cD (cM (cM (cN 2) (cW (cV 2) 3)) (cA (cN (-1)) (cM (cN 2) (cV 2)))) (cR (cM (cA (cN 1) (cM (cN 2) (cH 1))) (cA (cN 1) (cM (cN 2) (cV 2)))))) (cM (cB (cN 1) (cM (cN 2) (cV 2))) (cR (cD (cA (cV 2) (cM (cM (cN 2) (cH 1)) (cV 2))) (cA (cN 1) (cM (cN 2) (cV 2))))))) (cM (cM (cV 2) (cA (cN (-1)) (cM (cN 2) (cV 2)))) (cR (cD (cA (cV 2) (cM (cM (cN 2) (cH 1)) (cV 2))) (cA (cN 1) (cM (cN 2) (cV 2))))))) (cM (cM (cN 2) (cA (cN (-1)) (cM (cN 2) (cV 2)))) (cR (cD (cV 2) (cA (cA (cA (cN 1) (cM (cN 2) (cH 1))) (cM (cN 2) (cV 2))) (cM (cM (cN 4) (cH 1)) (cV 2))))))) (cD (cM (cN 4) (cA (cB (cN 1) (cM (cN 3) (cV 2))) (cM (cN 2) (cW (cV 2) 4)))) (cR (cM (cM (cA (cN 1) (cM (cN 2) (cH 1))) (cV 2)) (cA (cN 1) (cM (cN 2) (cV 2))))))) (cM (cM (cN 2) (cA (cB (cN 1) (cM (cN 3) (cV 2))) (cM (cN 2) (cW (cV 2) 4)))) (cR (cD (cA (cN 1) (cM (cN 2) (cH 1))) (cA (cV 2) (cM (cN 2) (cW (cV 2) 4))))))) (cR (cM (cH 1) (cA (cB (cN 1) (cM (cN 3) (cV 2))) (cM (cN 2) (cW (cV 2) 4)))))))) (cM (cM (cM (cN 2) (cR (cN 2))) (cA (cN 1) (cH 1))) (cA (cN 1) (cV 2)))).
Definition QST_e1093 := (cO (cD (cA (cR (cA (cO (cD (cN 1) (cV 2))) (cV 2))) (cR (cM (cV 2) (cA (cN (-1)) (cW (cV 2) 4))))) (cM (cM (cR (cN 2)) (cR (cA (cN (-1)) (cV 2)))) (cA (cN 1) (cV 2))))).
Definition QST_e1094 := (cD (cA (cO (cR (cD (cM (cV 2) (cA (cB (cN 1) (cM (cN 3) (cV 2))) (cM (cN 2) (cW (cV 2) 4)))) (cA (cN 1) (cM (cN 2) (cV 2)))))) (cR (cD (cM (cW (cV 2) 10) (cA (cB (cN 1) (cM (cN 3) (cV 2))) (cM (cN 2) (cW (cV 2) 4)))) (cA (cN 1) (cM (cN 2) (cV 2)))))) (cM (cM (cR (cN 2)) (cV 2)) (cA (cN (-1)) (cW (cV 2) 4)))).
Definition QST_e1095 := (cD (cM (cR (cQ 3 2)) (cA (cA (cA (cA (cA (cM (cM (cN (-2)) (cA (cN (-1)) (cV 2))) (cR (cD (cA (cN 1) (cM (cN 2) (cH 1))) (cM (cM (cM (cA (cN 1) (cH 1)) (cV 2)) (cW (cA (cN 1) (cV 2)) 4)) (cA (cB (cN 3) (cM (cN 7) (cV 2))) (cM (cN 4) (cW (cV 2) 6))))))) (cM (cA (cA (cN (-7)) (cM (cN 5) (cV 2))) (cM (cN 2) (cW (cV 2) 4))) (cR (cD (cA (cN 1) (cM (cN 2) (cH 1))) (cM (cM (cM (cA (cN 1) (cH 1)) (cV 2)) (cW (cA (cN 1) (cV 2)) 4)) (cA (cB (cN 3) (cM (cN 7) (cV 2))) (cM (cN 4) (cW (cV 2) 6)))))))) (cD (cB (cN 2) (cM (cN 2) (cV 2))) (cM (cA (cN 1) (cV 2)) (cR (cM (cM (cA (cA (cN 1) (cM (cN 3) (cH 1))) (cM (cN 2) (cW (cH 1) 4))) (cV 2)) (cA (cB (cN 3) (cM (cN 7) (cV 2))) (cM (cN 4) (cW (cV 2) 6)))))))) (cD (cA (cA (cN (-7)) (cM (cN 5) (cV 2))) (cM (cN 2) (cW (cV 2) 4))) (cM (cA (cN 1) (cV 2)) (cR (cM (cM (cA (cA (cN 1) (cM (cN 3) (cH 1))) (cM (cN 2) (cW (cH 1) 4))) (cV 2)) (cA (cB (cN 3) (cM (cN 7) (cV 2))) (cM (cN 4) (cW (cV 2) 6)))))))) (cD (cM (cA (cN (-1)) (cM (cN 2) (cV 2))) (cA (cB (cM (cN 2) (cR (cD (cA (cN (-1)) (cV 2)) (cM (cV 2) (cA (cN 1) (cV 2)))))) (cR (cD (cV 2) (cA (cN (-1)) (cW (cV 2) 4))))) (cR (cD (cW (cV 2) 6) (cA (cN (-1)) (cW (cV 2) 4)))))) (cR (cM (cA (cA (cN 1) (cM (cN 3) (cH 1))) (cM (cN 2) (cW (cH 1) 4))) (cA (cA (cA (cN (-3)) (cV 2)) (cM (cN 8) (cW (cV 2) 4))) (cM (cN 4) (cW (cV 2) 6))))))) (cD (cM (cA (cN (-1)) (cM (cN 2) (cV 2))) (cA (cB (cM (cN 2) (cR (cD (cM (cA (cN 1) (cM (cN 2) (cH 1))) (cA (cN (-1)) (cV 2))) (cM (cV 2) (cA (cN 1) (cV 2)))))) (cR (cD (cM (cA (cN 1) (cM (cN 2) (cH 1))) (cV 2)) (cA (cN (-1)) (cW (cV 2) 4))))) (cR (cD (cM (cA (cN 1) (cM (cN 2) (cH 1))) (cW (cV 2) 6)) (cA (cN (-1)) (cW (cV 2) 4)))))) (cR (cM (cA (cN 1) (cH 1)) (cA (cA (cA (cN (-3)) (cV 2)) (cM (cN 8) (cW (cV 2) 4))) (cM (cN 4) (cW (cV 2) 6)))))))) (cN 2)).
Definition QST_e1096 := (cD (cM (cN 3) (cA (cA (cA (cB (cB (cD (cM (cA (cN 2) (cV 2)) (cA (cN (-1)) (cM (cN 2) (cV 2)))) (cM (cM (cA (cN 1) (cV 2)) (cR (cM (cM (cA (cA (cN 1) (cM (cN 3) (cH 1))) (cM (cN 2) (cW (cH 1) 4))) (cV 2)) (cA (cN 1) (cV 2))))) (cA (cN 3) (cM (cN 2) (cV 2))))) (cD (cA (cA (cN (-7)) (cV 2)) (cM (cN 2) (cW (cV 2) 4))) (cM (cM (cA (cN 1) (cV 2)) (cR (cD (cM (cM (cA (cN 1) (cH 1)) (cV 2)) (cA (cN 1) (cV 2))) (cA (cN 1) (cM (cN 2) (cH 1)))))) (cA (cN 3) (cM (cN 2) (cV 2)))))) (cD (cA (cA (cN (-7)) (cV 2)) (cM (cN 2) (cW (cV 2) 4))) (cM (cM (cA (cN 1) (cV 2)) (cR (cM (cM (cA (cA (cN 1) (cM (cN 3) (cH 1))) (cM (cN 2) (cW (cH 1) 4))) (cV 2)) (cA (cN 1) (cV 2))))) (cA (cN 3) (cM (cN 2) (cV 2)))))) (cD (cM (cA (cN 2) (cV 2)) (cA (cN (-1)) (cM (cN 2) (cV 2)))) (cM (cM (cV 2) (cR (cD (cM (cA (cA (cN 1) (cM (cN 3) (cH 1))) (cM (cN 2) (cW (cH 1) 4))) (cA (cN 1) (cV 2))) (cV 2)))) (cA (cA (cN 3) (cM (cN 5) (cV 2))) (cM (cN 2) (cW (cV 2) 4)))))) (cD (cM (cA (cN 2) (cV 2)) (cA (cN (-1)) (cM (cN 2) (cV 2)))) (cM (cM (cV 2) (cR (cD (cM (cA (cN 1) (cH 1)) (cA (cN 1) (cV 2))) (cA (cV 2) (cM (cM (cN 2) (cH 1)) (cV 2)))))) (cA (cA (cN 3) (cM (cN 5) (cV 2))) (cM (cN 2) (cW (cV 2) 4)))))) (cD (cM (cA (cN (-1)) (cM (cN 2) (cV 2))) (cA (cB (cM (cN 2) (cR (cD (cM (cA (cN 1) (cM (cN 2) (cH 1))) (cA (cN (-1)) (cM (cN 2) (cV 2)))) (cA (cN 3) (cM (cN 2) (cV 2)))))) (cM (cV 2) (cR (cD (cA (cN 1) (cM (cN 2) (cH 1))) (cA (cA (cN (-3)) (cM (cN 4) (cV 2))) (cM (cN 4) (cW (cV 2) 4))))))) (cM (cM (cN 2) (cW (cV 2) 4)) (cR (cD (cA (cN 1) (cM (cN 2) (cH 1))) (cA (cA (cN (-3)) (cM (cN 4) (cV 2))) (cM (cN 4) (cW (cV 2) 4)))))))) (cM (cA (cN 1) (cV 2)) (cR (cM (cM (cA (cN 1) (cH 1)) (cV 2)) (cA (cA (cA (cN (-3)) (cV 2)) (cM (cN 8) (cW (cV 2) 4))) (cM (cN 4) (cW (cV 2) 6))))))))) (cM (cN 2) (cR (cN 2)))).
Definition QST_e1097 := (cD (cM (cR (cQ 3 2)) (cB (cB (cB (cD (cM (cM (cN (-3)) (cA (cN (-1)) (cM (cN 2) (cV 2)))) (cR (cD (cM (cA (cN 1) (cM (cN 2) (cH 1))) (cA (cN 2) (cV 2))) (cM (cA (cN 1) (cH 1)) (cA (cA (cA (cN (-3)) (cV 2)) (cM (cN 8) (cW (cV 2) 4))) (cM (cN 4) (cW (cV 2) 6))))))) (cA (cA (cN 3) (cM (cN 5) (cV 2))) (cM (cN 2) (cW (cV 2) 4)))) (cD (cM (cM (cN 3) (cA (cN (-1)) (cM (cN 2) (cV 2)))) (cR (cD (cA (cN 2) (cV 2)) (cM (cA (cA (cN 1) (cM (cN 3) (cH 1))) (cM (cN 2) (cW (cH 1) 4))) (cA (cA (cA (cN (-3)) (cV 2)) (cM (cN 8) (cW (cV 2) 4))) (cM (cN 4) (cW (cV 2) 6))))))) (cA (cA (cN 3) (cM (cN 5) (cV 2))) (cM (cN 2) (cW (cV 2) 4))))) (cD (cM (cV 2) (cA (cA (cA (cN (-10)) (cM (cN 11) (cV 2))) (cM (cN 16) (cW (cV 2) 4))) (cM (cN 4) (cW (cV 2) 6)))) (cM (cM (cA (cN 1) (cV 2)) (cA (cN 3) (cM (cN 2) (cV 2)))) (cR (cM (cA (cA (cN 1) (cM (cN 3) (cH 1))) (cM (cN 2) (cW (cH 1) 4))) (cA (cA (cA (cB (cN (-6)) (cV 2)) (cM (cN 17) (cW (cV 2) 4))) (cM (cN 16) (cW (cV 2) 6))) (cM (cN 4) (cW (cV 2) 8)))))))) (cD (cM (cV 2) (cB (cA (cA (cM (cN 11) (cR (cD (cM (cA (cN 1) (cM (cN 2) (cH 1))) (cW (cV 2) 6)) (cA (cN 2) (cV 2))))) (cM (cN 16) (cR (cD (cM (cA (cN 1) (cM (cN 2) (cH 1))) (cW (cV 2) 10)) (cA (cN 2) (cV 2)))))) (cM (cN 4) (cR (cD (cM (cA (cN 1) (cM (cN 2) (cH 1))) (cW (cV 2) 14)) (cA (cN 2) (cV 2)))))) (cM (cN 10) (cR (cD (cA (cV 2) (cM (cM (cN 2) (cH 1)) (cV 2))) (cA (cN 2) (cV 2))))))) (cM (cM (cA (cN 1) (cV 2)) (cA (cN 3) (cM (cN 2) (cV 2)))) (cR (cM (cM (cA (cN 1) (cH 1)) (cV 2)) (cA (cA (cA (cN (-3)) (cV 2)) (cM (cN 8) (cW (cV 2) 4))) (cM (cN 4) (cW (cV 2) 6))))))))) (cN 2)).
Definition QST_e1098 := (cD (cA (cA (cA (cA (cM (cM (cN (-3)) (cV 2)) (cR (cM (cM (cW (cH 1) 10) (cV 2)) (cA (cN (-1)) (cM (cN 2) (cV 2)))))) (cM (cN 3) (cR (cM (cM (cW (cH 1) 6) (cW (cV 2) 6)) (cA (cN (-1)) (cM (cN 2) (cV 2))))))) (cM (cN 6) (cR (cM (cM (cW (cH 1) 10) (cW (cV 2) 6)) (cA (cN (-1)) (cM (cN 2) (cV 2))))))) (cM (cM (cN 5) (cW (cV 2) 4)) (cA (cR (cM (cM (cW (cH 1) 6) (cV 2)) (cA (cN (-1)) (cM (cN 2) (cV 2))))) (cR (cM (cM (cW (cH 1) 10) (cV 2)) (cA (cN (-1)) (cM (cN 2) (cV 2)))))))) (cM (cM (cN 2) (cW (cV 2) 6)) (cA (cR (cM (cM (cW (cH 1) 6) (cV 2)) (cA (cN (-1)) (cM (cN 2) (cV 2))))) (cR (cM (cM (cW (cH 1) 10) (cV 2)) (cA (cN (-1)) (cM (cN 2) (cV 2)))))))) (cM (cM (cM (cM (cM (cR (cN 6)) (cH 1)) (cA (cN 1) (cH 1))) (cW (cV 2) 4)) (cA (cN (-1)) (cM (cN 2) (cV 2)))) (cR (cM (cA (cN 1) (cM (cN 2) (cH 1))) (cA (cA (cN 3) (cM (cN 5) (cV 2))) (cM (cN 2) (cW (cV 2) 4))))))).
Definition QST_e1099 := (cD (cM (cA (cN (-1)) (cM (cN 2) (cV 2))) (cA (cB (cB (cA (cA (cO (cD (cM (cH 1) (cV 2)) (cM (cM (cA (cN 1) (cH 1)) (cW (cA (cN 1) (cV 2)) 3)) (cR (cM (cM (cM (cH 1) (cA (cN 1) (cM (cN 2) (cH 1)))) (cV 2)) (cA (cA (cN (-3)) (cM (cN 4) (cV 2))) (cM (cN 4) (cW (cV 2) 4)))))))) (cD (cM (cM (cM (cN 3) (cH 1)) (cA (cN 2) (cV 2))) (cR (cD (cV 2) (cM (cM (cH 1) (cA (cN 1) (cM (cN 2) (cH 1)))) (cA (cA (cA (cN (-3)) (cV 2)) (cM (cN 8) (cW (cV 2) 4))) (cM (cN 4) (cW (cV 2) 6))))))) (cM (cM (cA (cN 1) (cH 1)) (cV 2)) (cA (cN 1) (cV 2))))) (cD (cM (cH 1) (cA (cA (cN (-3)) (cM (cN 3) (cV 2))) (cM (cN 2) (cW (cV 2) 4)))) (cM (cM (cM (cA (cN 1) (cH 1)) (cV 2)) (cA (cN 1) (cV 2))) (cR (cD (cM (cM (cH 1) (cA (cN 1) (cM (cN 2) (cH 1)))) (cA (cA (cA (cN (-3)) (cV 2)) (cM (cN 8) (cW (cV 2) 4))) (cM (cN 4) (cW (cV 2) 6)))) (cV 2)))))) (cD (cM (cM (cH 1) (cA (cN 3) (cM (cN 2) (cH 1)))) (cA (cA (cN (-3)) (cM (cN 3) (cV 2))) (cM (cN 2) (cW (cV 2) 4)))) (cM (cM (cM (cA (cN 1) (cH 1)) (cV 2)) (cA (cN 1) (cV 2))) (cR (cD (cM (cM (cH 1) (cA (cN 1) (cM (cN 2) (cH 1)))) (cA (cA (cA (cN (-3)) (cV 2)) (cM (cN 8) (cW (cV 2) 4))) (cM (cN 4) (cW (cV 2) 6)))) (cV 2)))))) (cD (cM (cM (cM (cN 3) (cH 1)) (cA (cN 3) (cM (cN 2) (cH 1)))) (cA (cN 2) (cV 2))) (cM (cM (cA (cN 1) (cH 1)) (cA (cN 1) (cV 2))) (cR (cM (cM (cM (cH 1) (cA (cN 1) (cM (cN 2) (cH 1)))) (cV 2)) (cA (cA (cA (cN (-3)) (cV 2)) (cM (cN 8) (cW (cV 2) 4))) (cM (cN 4) (cW (cV 2) 6)))))))) (cD (cA (cM (cN 2) (cR (cD (cM (cH 1) (cV 2)) (cM (cA (cN 1) (cM (cN 2) (cH 1))) (cA (cA (cA (cN (-3)) (cV 2)) (cM (cN 8) (cW (cV 2) 4))) (cM (cN 4) (cW (cV 2) 6))))))) (cR (cD (cM (cA (cH 1) (cM (cN 2) (cW (cH 1) 4))) (cV 2)) (cA (cA (cA (cN (-3)) (cV 2)) (cM (cN 8) (cW (cV 2) 4))) (cM (cN 4) (cW (cV 2) 6)))))) (cA (cA (cA (cN 1) (cH 1)) (cV 2)) (cM (cH 1) (cV 2)))))) (cM (cN 2) (cR (cN 6)))).
Definition QST_e1100 := (cD (cM (cM (cH 1) (cV 2)) (cA (cN (-1)) (cM (cN 2) (cV 2)))) (cM (cR (cN 6)) (cR (cM (cM (cM (cH 1) (cA (cN 1) (cM (cN 2) (cH 1)))) (cV 2)) (cA (cA (cA (cN (-3)) (cV 2)) (cM (cN 8) (cW (cV 2) 4))) (cM (cN 4) (cW (cV 2) 6))))))).
Definition QST_e1101 := (cD (cM (cM (cR (cQ 3 2)) (cA (cN 1) (cH 1))) (cA (cA (cN (-2)) (cM (cN 3) (cV 2))) (cM (cN 2) (cW (cV 2) 4)))) (cR (cM (cA (cA (cN 1) (cM (cN 3) (cH 1))) (cM (cN 2) (cW (cH 1) 4))) (cA (cA (cA (cB (cN (-2)) (cM (cN 3) (cV 2))) (cM (cN 7) (cW (cV 2) 4))) (cM (cN 12) (cW (cV 2) 6))) (cM (cN 4) (cW (cV 2) 8)))))).
Definition QST_e1102 := (cD (cA (cA (cA (cD (cM (cM (cN 6) (cV 2)) (cA (cN 5) (cM (cN 2) (cV 2)))) (cM (cA (cN 1) (cV 2)) (cR (cD (cM (cA (cN 1) (cH 1)) (cA (cA (cN 2) (cM (cN 3) (cV 2))) (cW (cV 2) 4))) (cA (cN 1) (cM (cN 2) (cH 1))))))) (cD (cM (cM (cN 6) (cV 2)) (cA (cN 5) (cM (cN 2) (cV 2)))) (cM (cA (cN 1) (cV 2)) (cR (cM (cA (cA (cN 1) (cM (cN 3) (cH 1))) (cM (cN 2) (cW (cH 1) 4))) (cA (cA (cN 2) (cM (cN 3) (cV 2))) (cW (cV 2) 4))))))) (cD (cA (cA (cB (cN 12) (cM (cN 7) (cV 2))) (cW (cV 2) 4)) (cM (cN 2) (cW (cV 2) 6))) (cM (cW (cA (cN 1) (cV 2)) 3) (cR (cD (cM (cA (cN 1) (cH 1)) (cA (cN 2) (cV 2))) (cA (cN 1) (cM (cN 2) (cH 1)))))))) (cD (cA (cA (cB (cN 12) (cM (cN 7) (cV 2))) (cW (cV 2) 4)) (cM (cN 2) (cW (cV 2) 6))) (cM (cW (cA (cN 1) (cV 2)) 3) (cR (cM (cA (cA (cN 1) (cM (cN 3) (cH 1))) (cM (cN 2) (cW (cH 1) 4))) (cA (cN 2) (cV 2))))))) (cM (cM (cN 2) (cR (cN 2))) (cA (cN 3) (cM (cN 2) (cV 2))))).
Definition QST_e1103 := (cD (cA (cA (cB (cB (cA (cD (cM (cM (cN 3) (cV 2)) (cR (cD (cA (cN 1) (cM (cN 2) (cH 1))) (cM (cM (cA (cN 1) (cH 1)) (cV 2)) (cA (cN 2) (cV 2)))))) (cA (cA (cN 3) (cM (cN 5) (cV 2))) (cM (cN 2) (cW (cV 2) 4)))) (cD (cM (cN 3) (cV 2)) (cM (cR (cM (cM (cA (cA (cN 1) (cM (cN 3) (cH 1))) (cM (cN 2) (cW (cH 1) 4))) (cV 2)) (cA (cN 2) (cV 2)))) (cA (cA (cN 3) (cM (cN 5) (cV 2))) (cM (cN 2) (cW (cV 2) 4)))))) (cD (cM (cM (cA (cN 1) (cM (cN 2) (cV 2))) (cR (cD (cA (cN 1) (cM (cN 2) (cH 1))) (cM (cA (cN 1) (cH 1)) (cA (cA (cA (cN 6) (cM (cN 13) (cV 2))) (cM (cN 9) (cW (cV 2) 4))) (cM (cN 2) (cW (cV 2) 6))))))) (cA (cA (cA (cM (cN 9) (cR (cD (cM (cV 2) (cA (cN 1) (cV 2))) (cA (cN 3) (cM (cN 2) (cV 2)))))) (cM (cN 6) (cR (cD (cV 2) (cA (cA (cN 3) (cM (cN 5) (cV 2))) (cM (cN 2) (cW (cV 2) 4))))))) (cM (cN 5) (cR (cM (cV 2) (cA (cA (cN 3) (cM (cN 5) (cV 2))) (cM (cN 2) (cW (cV 2) 4))))))) (cR (cM (cW (cV 2) 6) (cA (cA (cN 3) (cM (cN 5) (cV 2))) (cM (cN 2) (cW (cV 2) 4))))))) (cM (cA (cN 2) (cV 2)) (cA (cN 5) (cM (cN 2) (cV 2)))))) (cD (cM (cA (cN 1) (cM (cN 2) (cV 2))) (cA (cA (cA (cM (cN 9) (cR (cD (cM (cV 2) (cA (cN 1) (cV 2))) (cA (cN 3) (cM (cN 2) (cV 2)))))) (cM (cN 6) (cR (cD (cV 2) (cA (cA (cN 3) (cM (cN 5) (cV 2))) (cM (cN 2) (cW (cV 2) 4))))))) (cM (cN 5) (cR (cM (cV 2) (cA (cA (cN 3) (cM (cN 5) (cV 2))) (cM (cN 2) (cW (cV 2) 4))))))) (cR (cM (cW (cV 2) 6) (cA (cA (cN 3) (cM (cN 5) (cV 2))) (cM (cN 2) (cW (cV 2) 4))))))) (cM (cM (cA (cN 2) (cV 2)) (cA (cN 5) (cM (cN 2) (cV 2)))) (cR (cM (cA (cA (cN 1) (cM (cN 3) (cH 1))) (cM (cN 2) (cW (cH 1) 4))) (cA (cA (cA (cN 6) (cM (cN 13) (cV 2))) (cM (cN 9) (cW (cV 2) 4))) (cM (cN 2) (cW (cV 2) 6)))))))) (cD (cM (cR (cD (cA (cN 1) (cM (cN 2) (cH 1))) (cM (cA (cN 1) (cH 1)) (cA (cA (cA (cN 6) (cM (cN 13) (cV 2))) (cM (cN 9) (cW (cV 2) 4))) (cM (cN 2) (cW (cV 2) 6)))))) (cA (cA (cM (cN (-33)) (cR (cD (cV 2) (cA (cA (cN 3) (cM (cN 5) (cV 2))) (cM (cN 2) (cW (cV 2) 4)))))) (cR (cM (cV 2) (cA (cA (cN 3) (cM (cN 5) (cV 2))) (cM (cN 2) (cW (cV 2) 4)))))) (cM (cM (cN 2) (cV 2)) (cA (cM (cN (-9)) (cR (cD (cV 2) (cA (cA (cN 3) (cM (cN 5) (cV 2))) (cM (cN 2) (cW (cV 2) 4)))))) (cR (cM (cV 2) (cA (cA (cN 3) (cM (cN 5) (cV 2))) (cM (cN 2) (cW (cV 2) 4))))))))) (cA (cA (cN 10) (cM (cN 9) (cV 2))) (cM (cN 2) (cW (cV 2) 4))))) (cD (cA (cA (cM (cN (-33)) (cR (cD (cV 2) (cA (cA (cN 3) (cM (cN 5) (cV 2))) (cM (cN 2) (cW (cV 2) 4)))))) (cR (cM (cV 2) (cA (cA (cN 3) (cM (cN 5) (cV 2))) (cM (cN 2) (cW (cV 2) 4)))))) (cM (cM (cN 2) (cV 2)) (cA (cM (cN (-9)) (cR (cD (cV 2) (cA (cA (cN 3) (cM (cN 5) (cV 2))) (cM (cN 2) (cW (cV 2) 4)))))) (cR (cM (cV 2) (cA (cA (cN 3) (cM (cN 5) (cV 2))) (cM (cN 2) (cW (cV 2) 4)))))))) (cM (cA (cA (cN 10) (cM (cN 9) (cV 2))) (cM (cN 2) (cW (cV 2) 4))) (cR (cM (cA (cA (cN 1) (cM (cN 3) (cH 1))) (cM (cN 2) (cW (cH 1) 4))) (cA (cA (cA (cN 6) (cM (cN 13) (cV 2))) (cM (cN 9) (cW (cV 2) 4))) (cM (cN 2) (cW (cV 2) 6)))))))) (cN 2)).
Definition QST_e1104 := (cD (cR (cD (cM (cH 1) (cA (cA (cN 6) (cM (cN 7) (cV 2))) (cM (cN 2) (cW (cV 2) 4)))) (cM (cA (cN 1) (cM (cN 2) (cH 1))) (cA (cA (cN 1) (cM (cN 3) (cV 2))) (cM (cN 2) (cW (cV 2) 4)))))) (cR (cN 2))).
Definition QST_e1105 := (cD (cM (cV 2) (cA (cA (cB (cB (cA (cO (cD (cM (cH 1) (cA (cN 1) (cM (cN 2) (cV 2)))) (cM (cM (cM (cA (cN 1) (cH 1)) (cA (cN 1) (cV 2))) (cR (cM (cM (cM (cH 1) (cA (cN 1) (cM (cN 2) (cH 1)))) (cV 2)) (cA (cN 1) (cV 2))))) (cA (cN 3) (cM (cN 2) (cV 2)))))) (cD (cM (cH 1) (cA (cN 5) (cM (cN 2) (cV 2)))) (cM (cM (cM (cA (cN 1) (cH 1)) (cA (cN 1) (cV 2))) (cR (cM (cM (cM (cH 1) (cA (cN 1) (cM (cN 2) (cH 1)))) (cV 2)) (cA (cN 1) (cV 2))))) (cA (cN 3) (cM (cN 2) (cV 2)))))) (cD (cM (cM (cH 1) (cA (cN 3) (cM (cN 2) (cH 1)))) (cA (cN 5) (cM (cN 2) (cV 2)))) (cM (cM (cA (cN 1) (cH 1)) (cR (cM (cM (cM (cH 1) (cA (cN 1) (cM (cN 2) (cH 1)))) (cV 2)) (cA (cN 1) (cV 2))))) (cA (cA (cN 3) (cM (cN 5) (cV 2))) (cM (cN 2) (cW (cV 2) 4)))))) (cD (cM (cA (cA (cA (cN (-2)) (cM (cN 9) (cV 2))) (cM (cN 9) (cW (cV 2) 4))) (cM (cN 2) (cW (cV 2) 6))) (cA (cM (cN 2) (cR (cD (cH 1) (cM (cA (cN 1) (cM (cN 2) (cH 1))) (cA (cA (cN 2) (cM (cN 3) (cV 2))) (cW (cV 2) 4)))))) (cR (cD (cM (cH 1) (cA (cN 1) (cM (cN 2) (cH 1)))) (cA (cA (cN 2) (cM (cN 3) (cV 2))) (cW (cV 2) 4)))))) (cM (cM (cA (cN 1) (cH 1)) (cR (cM (cV 2) (cA (cN 2) (cV 2))))) (cA (cA (cN 3) (cM (cN 5) (cV 2))) (cM (cN 2) (cW (cV 2) 4)))))) (cD (cM (cA (cN 1) (cM (cN 2) (cV 2))) (cA (cA (cA (cM (cN 2) (cR (cD (cM (cH 1) (cA (cN 1) (cV 2))) (cM (cA (cN 1) (cM (cN 2) (cH 1))) (cA (cN 2) (cV 2)))))) (cR (cD (cM (cM (cH 1) (cA (cN 1) (cM (cN 2) (cH 1)))) (cA (cN 1) (cV 2))) (cA (cN 2) (cV 2))))) (cM (cN 2) (cR (cD (cH 1) (cM (cA (cN 1) (cM (cN 2) (cH 1))) (cA (cA (cN 2) (cM (cN 3) (cV 2))) (cW (cV 2) 4))))))) (cR (cD (cM (cH 1) (cA (cN 1) (cM (cN 2) (cH 1)))) (cA (cA (cN 2) (cM (cN 3) (cV 2))) (cW (cV 2) 4)))))) (cM (cM (cA (cN 1) (cH 1)) (cR (cM (cV 2) (cA (cN 2) (cV 2))))) (cA (cA (cN 3) (cM (cN 5) (cV 2))) (cM (cN 2) (cW (cV 2) 4)))))) (cD (cM (cH 1) (cA (cA (cD (cM (cM (cN 2) (cV 2)) (cA (cN 1) (cM (cN 2) (cV 2)))) (cM (cA (cN 1) (cV 2)) (cR (cM (cM (cH 1) (cA (cN 1) (cH 1))) (cA (cA (cN 6) (cM (cN 7) (cV 2))) (cM (cN 2) (cW (cV 2) 4))))))) (cD (cM (cN 3) (cA (cN (-1)) (cV 2))) (cR (cM (cM (cM (cH 1) (cA (cN 1) (cH 1))) (cW (cA (cN 1) (cV 2)) 4)) (cA (cA (cN 6) (cM (cN 7) (cV 2))) (cM (cN 2) (cW (cV 2) 4))))))) (cD (cM (cW (cA (cN 1) (cV 2)) 3) (cA (cN 1) (cM (cN 2) (cV 2)))) (cR (cM (cM (cH 1) (cA (cN 1) (cH 1))) (cA (cA (cA (cN 6) (cM (cN 13) (cV 2))) (cM (cN 9) (cW (cV 2) 4))) (cM (cN 2) (cW (cV 2) 6)))))))) (cR (cM (cM (cA (cA (cN 1) (cM (cN 3) (cH 1))) (cM (cN 2) (cW (cH 1) 4))) (cV 2)) (cA (cA (cA (cN 6) (cM (cN 13) (cV 2))) (cM (cN 9) (cW (cV 2) 4))) (cM (cN 2) (cW (cV 2) 6)))))))) (cM (cN 2) (cR (cN 2)))).
Definition QST_e1106 := (cD (cA (cA (cA (cA (cA (cD (cM (cM (cV 2) (cA (cN 2) (cV 2))) (cR (cD (cA (cN 1) (cM (cN 2) (cV 2))) (cA (cA (cN 6) (cM (cN 7) (cV 2))) (cM (cN 2) (cW (cV 2) 4)))))) (cW (cA (cN 1) (cV 2)) 3)) (cD (cM (cN 3) (cA (cN 2) (cV 2))) (cM (cA (cN 1) (cV 2)) (cR (cA (cA (cA (cA (cN 6) (cM (cN 25) (cV 2))) (cM (cN 35) (cW (cV 2) 4))) (cM (cN 20) (cW (cV 2) 6))) (cM (cN 4) (cW (cV 2) 8))))))) (cD (cM (cM (cN 3) (cA (cN 1) (cM (cN 2) (cH 1)))) (cA (cN 2) (cV 2))) (cM (cA (cN 1) (cV 2)) (cR (cA (cA (cA (cA (cN 6) (cM (cN 25) (cV 2))) (cM (cN 35) (cW (cV 2) 4))) (cM (cN 20) (cW (cV 2) 6))) (cM (cN 4) (cW (cV 2) 8))))))) (cD (cM (cM (cN 4) (cV 2)) (cA (cN 2) (cV 2))) (cM (cA (cN 1) (cV 2)) (cR (cA (cA (cA (cA (cN 6) (cM (cN 25) (cV 2))) (cM (cN 35) (cW (cV 2) 4))) (cM (cN 20) (cW (cV 2) 6))) (cM (cN 4) (cW (cV 2) 8))))))) (cD (cM (cM (cN 2) (cA (cA (cN 3) (cM (cN 8) (cH 1))) (cM (cN 4) (cW (cH 1) 4)))) (cA (cR (cD (cM (cV 2) (cA (cN 1) (cM (cN 2) (cV 2)))) (cM (cA (cN 3) (cM (cN 2) (cH 1))) (cA (cN 1) (cV 2))))) (cM (cN 3) (cR (cD (cV 2) (cM (cA (cN 3) (cM (cN 2) (cH 1))) (cA (cA (cN 1) (cM (cN 3) (cV 2))) (cM (cN 2) (cW (cV 2) 4))))))))) (cM (cA (cN 1) (cV 2)) (cR (cD (cM (cA (cN 3) (cM (cN 2) (cH 1))) (cA (cA (cN 6) (cM (cN 7) (cV 2))) (cM (cN 2) (cW (cV 2) 4)))) (cV 2)))))) (cD (cM (cA (cA (cN 3) (cM (cN 8) (cH 1))) (cM (cN 4) (cW (cH 1) 4))) (cA (cR (cD (cM (cV 2) (cA (cN 1) (cM (cN 2) (cV 2)))) (cM (cA (cN 3) (cM (cN 2) (cH 1))) (cA (cN 1) (cV 2))))) (cR (cD (cM (cV 2) (cA (cA (cN 1) (cM (cN 3) (cV 2))) (cM (cN 2) (cW (cV 2) 4)))) (cA (cN 3) (cM (cN 2) (cH 1))))))) (cM (cA (cN 1) (cV 2)) (cR (cD (cM (cA (cN 3) (cM (cN 2) (cH 1))) (cA (cA (cN 6) (cM (cN 7) (cV 2))) (cM (cN 2) (cW (cV 2) 4)))) (cV 2)))))) (cM (cM (cN 2) (cR (cN 2))) (cA (cN 1) (cH 1)))).
Definition QST_e1107 := (cD (cO (cA (cA (cB (cB (cA (cM (cM (cV 2) (cA (cA (cN (-15)) (cM (cN 4) (cV 2))) (cM (cN 4) (cW (cV 2) 4)))) (cR (cD (cA (cN 1) (cM (cN 2) (cH 1))) (cM (cM (cM (cA (cN 1) (cH 1)) (cV 2)) (cW (cA (cN 1) (cV 2)) 4)) (cA (cA (cA (cN 30) (cM (cN 47) (cV 2))) (cM (cN 24) (cW (cV 2) 4))) (cM (cN 4) (cW (cV 2) 6))))))) (cD (cM (cV 2) (cA (cA (cN (-15)) (cM (cN 4) (cV 2))) (cM (cN 4) (cW (cV 2) 4)))) (cM (cA (cN 1) (cV 2)) (cR (cM (cM (cA (cA (cN 1) (cM (cN 3) (cH 1))) (cM (cN 2) (cW (cH 1) 4))) (cV 2)) (cA (cA (cA (cN 30) (cM (cN 47) (cV 2))) (cM (cN 24) (cW (cV 2) 4))) (cM (cN 4) (cW (cV 2) 6)))))))) (cD (cM (cA (cN 1) (cM (cN 2) (cV 2))) (cA (cA (cA (cM (cN 6) (cR (cD (cV 2) (cA (cN 1) (cV 2))))) (cM (cN 24) (cR (cM (cV 2) (cA (cN 1) (cV 2)))))) (cM (cM (cN 13) (cV 2)) (cR (cM (cV 2) (cA (cN 1) (cV 2)))))) (cM (cN 2) (cR (cM (cW (cV 2) 10) (cA (cN 1) (cV 2))))))) (cM (cA (cN 2) (cV 2)) (cR (cD (cM (cA (cN 1) (cH 1)) (cA (cA (cA (cA (cN 30) (cM (cN 77) (cV 2))) (cM (cN 71) (cW (cV 2) 4))) (cM (cN 28) (cW (cV 2) 6))) (cM (cN 4) (cW (cV 2) 8)))) (cA (cN 1) (cM (cN 2) (cH 1)))))))) (cD (cM (cA (cN 1) (cM (cN 2) (cV 2))) (cA (cA (cA (cM (cN 6) (cR (cD (cV 2) (cA (cN 1) (cV 2))))) (cM (cN 24) (cR (cM (cV 2) (cA (cN 1) (cV 2)))))) (cM (cM (cN 13) (cV 2)) (cR (cM (cV 2) (cA (cN 1) (cV 2)))))) (cM (cN 2) (cR (cM (cW (cV 2) 10) (cA (cN 1) (cV 2))))))) (cM (cA (cN 2) (cV 2)) (cR (cM (cA (cA (cN 1) (cM (cN 3) (cH 1))) (cM (cN 2) (cW (cH 1) 4))) (cA (cA (cA (cA (cN 30) (cM (cN 77) (cV 2))) (cM (cN 71) (cW (cV 2) 4))) (cM (cN 28) (cW (cV 2) 6))) (cM (cN 4) (cW (cV 2) 8)))))))) (cD (cM (cN 3) (cA (cA (cM (cN 9) (cR (cD (cV 2) (cA (cN 1) (cV 2))))) (cR (cM (cV 2) (cA (cN 1) (cV 2))))) (cM (cM (cN 2) (cV 2)) (cA (cM (cN 3) (cR (cD (cV 2) (cA (cN 1) (cV 2))))) (cR (cM (cV 2) (cA (cN 1) (cV 2)))))))) (cM (cA (cN 2) (cV 2)) (cR (cD (cM (cA (cN 1) (cH 1)) (cA (cA (cA (cA (cN 30) (cM (cN 77) (cV 2))) (cM (cN 71) (cW (cV 2) 4))) (cM (cN 28) (cW (cV 2) 6))) (cM (cN 4) (cW (cV 2) 8)))) (cA (cN 1) (cM (cN 2) (cH 1)))))))) (cD (cM (cN 3) (cA (cA (cM (cN 9) (cR (cD (cV 2) (cA (cN 1) (cV 2))))) (cR (cM (cV 2) (cA (cN 1) (cV 2))))) (cM (cM (cN 2) (cV 2)) (cA (cM (cN 3) (cR (cD (cV 2) (cA (cN 1) (cV 2))))) (cR (cM (cV 2) (cA (cN 1) (cV 2)))))))) (cM (cA (cN 2) (cV 2)) (cR (cM (cA (cA (cN 1) (cM (cN 3) (cH 1))) (cM (cN 2) (cW (cH 1) 4))) (cA (cA (cA (cA (cN 30) (cM (cN 77) (cV 2))) (cM (cN 71) (cW (cV 2) 4))) (cM (cN 28) (cW (cV 2) 6))) (cM (cN 4) (cW (cV 2) 8))))))))) (cM (cN 2) (cA (cN 3) (cM (cN 2) (cV 2))))).
Definition QST_e1108 := (cA (cA (cA (cD (cM (cM (cR (cN 2)) (cA (cN 3) (cV 2))) (cA (cN 1) (cM (cN 2) (cV 2)))) (cM (cR (cM (cA (cA (cN 1) (cM (cN 3) (cH 1))) (cM (cN 2) (cW (cH 1) 4))) (cA (cA (cN 6) (cM (cN 5) (cV 2))) (cW (cV 2) 4)))) (cA (cA (cN 3) (cM (cN 5) (cV 2))) (cM (cN 2) (cW (cV 2) 4))))) (cD (cM (cA (cN 1) (cM (cN 2) (cV 2))) (cA (cA (cN 15) (cM (cN 11) (cV 2))) (cM (cN 2) (cW (cV 2) 4)))) (cR (cD (cM (cM (cM (cA (cN 1) (cH 1)) (cA (cN 2) (cV 2))) (cA (cN 3) (cV 2))) (cW (cA (cA (cA (cN 15) (cM (cN 31) (cV 2))) (cM (cN 20) (cW (cV 2) 4))) (cM (cN 4) (cW (cV 2) 6))) 4)) (cA (cN 2) (cM (cN 4) (cH 1))))))) (cD (cM (cR (cA (cN 2) (cM (cN 4) (cH 1)))) (cA (cB (cA (cD (cM (cA (cN 2) (cV 2)) (cA (cN 1) (cM (cN 2) (cV 2)))) (cR (cD (cM (cA (cN 3) (cV 2)) (cA (cN 5) (cM (cN 2) (cV 2)))) (cA (cA (cN 3) (cM (cN 5) (cV 2))) (cM (cN 2) (cW (cV 2) 4)))))) (cD (cM (cA (cN 1) (cV 2)) (cA (cN 1) (cM (cN 2) (cV 2)))) (cR (cD (cM (cM (cW (cA (cN 2) (cV 2)) 4) (cA (cN 3) (cV 2))) (cA (cN 5) (cM (cN 2) (cV 2)))) (cA (cA (cN 3) (cM (cN 5) (cV 2))) (cM (cN 2) (cW (cV 2) 4))))))) (cD (cM (cN 6) (cA (cN (-2)) (cV 2))) (cM (cA (cN 2) (cV 2)) (cR (cA (cA (cA (cA (cN 45) (cM (cN 108) (cV 2))) (cM (cN 91) (cW (cV 2) 4))) (cM (cN 32) (cW (cV 2) 6))) (cM (cN 4) (cW (cV 2) 8))))))) (cD (cB (cA (cN 3) (cM (cN 3) (cV 2))) (cM (cN 6) (cW (cV 2) 4))) (cM (cA (cN 2) (cV 2)) (cR (cA (cA (cA (cA (cN 45) (cM (cN 108) (cV 2))) (cM (cN 91) (cW (cV 2) 4))) (cM (cN 32) (cW (cV 2) 6))) (cM (cN 4) (cW (cV 2) 8)))))))) (cM (cN 2) (cR (cM (cA (cN 1) (cH 1)) (cA (cA (cA (cA (cN 30) (cM (cN 77) (cV 2))) (cM (cN 71) (cW (cV 2) 4))) (cM (cN 28) (cW (cV 2) 6))) (cM (cN 4) (cW (cV 2) 8)))))))) (cD (cA (cB (cA (cD (cM (cA (cN 2) (cV 2)) (cA (cN 1) (cM (cN 2) (cV 2)))) (cR (cD (cM (cA (cN 3) (cV 2)) (cA (cN 5) (cM (cN 2) (cV 2)))) (cA (cA (cN 3) (cM (cN 5) (cV 2))) (cM (cN 2) (cW (cV 2) 4)))))) (cD (cM (cA (cN 1) (cV 2)) (cA (cN 1) (cM (cN 2) (cV 2)))) (cR (cD (cM (cM (cW (cA (cN 2) (cV 2)) 4) (cA (cN 3) (cV 2))) (cA (cN 5) (cM (cN 2) (cV 2)))) (cA (cA (cN 3) (cM (cN 5) (cV 2))) (cM (cN 2) (cW (cV 2) 4))))))) (cD (cM (cN 6) (cA (cN (-2)) (cV 2))) (cM (cA (cN 2) (cV 2)) (cR (cA (cA (cA (cA (cN 45) (cM (cN 108) (cV 2))) (cM (cN 91) (cW (cV 2) 4))) (cM (cN 32) (cW (cV 2) 6))) (cM (cN 4) (cW (cV 2) 8))))))) (cD (cB (cA (cN 3) (cM (cN 3) (cV 2))) (cM (cN 6) (cW (cV 2) 4))) (cM (cA (cN 2) (cV 2)) (cR (cA (cA (cA (cA (cN 45) (cM (cN 108) (cV 2))) (cM (cN 91) (cW (cV 2) 4))) (cM (cN 32) (cW (cV 2) 6))) (cM (cN 4) (cW (cV 2) 8))))))) (cM (cR (cN 2)) (cR (cM (cM (cA (cN 1) (cH 1)) (cA (cN 1) (cM (cN 2) (cH 1)))) (cA (cA (cA (cA (cN 30) (cM (cN 77) (cV 2))) (cM (cN 71) (cW (cV 2) 4))) (cM (cN 28) (cW (cV 2) 6))) (cM (cN 4) (cW (cV 2) 8)))))))).
Definition QST_e1109 := (cD (cA (cA (cA (cB (cB (cO (cD (cM (cH 1) (cA (cN 5) (cM (cN 2) (cV 2)))) (cM (cM (cM (cA (cN 1) (cH 1)) (cA (cN 1) (cV 2))) (cA (cN 3) (cM (cN 2) (cV 2)))) (cR (cM (cM (cH 1) (cA (cN 1) (cM (cN 2) (cH 1)))) (cA (cA (cN 15) (cM (cN 16) (cV 2))) (cM (cN 4) (cW (cV 2) 4)))))))) (cD (cM (cH 1) (cA (cA (cN 5) (cM (cN 12) (cV 2))) (cM (cN 4) (cW (cV 2) 4)))) (cM (cM (cA (cN 1) (cH 1)) (cA (cN 3) (cM (cN 2) (cV 2)))) (cR (cM (cM (cH 1) (cA (cN 1) (cM (cN 2) (cH 1)))) (cA (cA (cN 15) (cM (cN 16) (cV 2))) (cM (cN 4) (cW (cV 2) 4)))))))) (cD (cM (cH 1) (cA (cA (cD (cA (cN 1) (cM (cN 2) (cV 2))) (cR (cD (cM (cM (cH 1) (cA (cN 1) (cH 1))) (cA (cN 2) (cV 2))) (cA (cN 1) (cV 2))))) (cD (cA (cN 4) (cM (cN 8) (cV 2))) (cR (cD (cM (cM (cM (cH 1) (cA (cN 1) (cH 1))) (cA (cN 2) (cV 2))) (cW (cA (cN 3) (cM (cN 2) (cV 2))) 4)) (cA (cN 1) (cV 2)))))) (cD (cA (cN 3) (cM (cN 6) (cV 2))) (cM (cA (cN 3) (cM (cN 2) (cV 2))) (cR (cM (cM (cH 1) (cA (cN 1) (cH 1))) (cA (cA (cN 2) (cM (cN 3) (cV 2))) (cW (cV 2) 4)))))))) (cR (cM (cA (cA (cN 1) (cM (cN 3) (cH 1))) (cM (cN 2) (cW (cH 1) 4))) (cA (cA (cA (cA (cN 30) (cM (cN 77) (cV 2))) (cM (cN 71) (cW (cV 2) 4))) (cM (cN 28) (cW (cV 2) 6))) (cM (cN 4) (cW (cV 2) 8))))))) (cD (cM (cR (cA (cA (cN 10) (cM (cN 9) (cV 2))) (cM (cN 2) (cW (cV 2) 4)))) (cA (cM (cN 2) (cR (cD (cH 1) (cM (cA (cN 1) (cM (cN 2) (cH 1))) (cA (cA (cN 6) (cM (cN 7) (cV 2))) (cM (cN 2) (cW (cV 2) 4))))))) (cR (cD (cM (cH 1) (cA (cN 1) (cM (cN 2) (cH 1)))) (cA (cA (cN 6) (cM (cN 7) (cV 2))) (cM (cN 2) (cW (cV 2) 4))))))) (cM (cA (cN 1) (cH 1)) (cA (cA (cN 3) (cM (cN 5) (cV 2))) (cM (cN 2) (cW (cV 2) 4)))))) (cD (cA (cA (cA (cA (cA (cD (cM (cM (cN 2) (cH 1)) (cA (cA (cN 1) (cM (cN 3) (cV 2))) (cM (cN 2) (cW (cV 2) 4)))) (cR (cD (cM (cA (cN 1) (cM (cN 2) (cH 1))) (cA (cN 2) (cV 2))) (cA (cN 3) (cM (cN 2) (cV 2)))))) (cM (cM (cH 1) (cR (cD (cM (cA (cN 1) (cM (cN 2) (cH 1))) (cA (cN 3) (cM (cN 2) (cV 2)))) (cA (cN 2) (cV 2))))) (cA (cA (cN 1) (cM (cN 3) (cV 2))) (cM (cN 2) (cW (cV 2) 4))))) (cM (cM (cM (cN 3) (cH 1)) (cA (cN 1) (cM (cN 2) (cV 2)))) (cR (cD (cA (cN 1) (cM (cN 2) (cH 1))) (cA (cA (cN 6) (cM (cN 7) (cV 2))) (cM (cN 2) (cW (cV 2) 4))))))) (cM (cM (cM (cM (cN 4) (cH 1)) (cA (cN 1) (cV 2))) (cA (cN 1) (cM (cN 2) (cV 2)))) (cR (cD (cA (cN 1) (cM (cN 2) (cH 1))) (cA (cA (cN 6) (cM (cN 7) (cV 2))) (cM (cN 2) (cW (cV 2) 4))))))) (cD (cM (cM (cM (cN 8) (cH 1)) (cA (cN 1) (cV 2))) (cA (cN 1) (cM (cN 2) (cV 2)))) (cR (cM (cA (cN 1) (cM (cN 2) (cH 1))) (cA (cA (cN 6) (cM (cN 7) (cV 2))) (cM (cN 2) (cW (cV 2) 4))))))) (cD (cM (cN 6) (cA (cH 1) (cM (cM (cN 2) (cH 1)) (cV 2)))) (cR (cM (cA (cN 1) (cM (cN 2) (cH 1))) (cA (cA (cN 6) (cM (cN 7) (cV 2))) (cM (cN 2) (cW (cV 2) 4))))))) (cM (cM (cA (cN 1) (cH 1)) (cA (cA (cN 3) (cM (cN 5) (cV 2))) (cM (cN 2) (cW (cV 2) 4)))) (cR (cM (cH 1) (cA (cA (cN 10) (cM (cN 9) (cV 2))) (cM (cN 2) (cW (cV 2) 4)))))))) (cD (cM (cH 1) (cA (cA (cA (cA (cA (cD (cM (cM (cN 2) (cA (cN 1) (cV 2))) (cA (cN 1) (cM (cN 2) (cV 2)))) (cR (cD (cM (cA (cN 1) (cM (cN 2) (cH 1))) (cA (cN 2) (cV 2))) (cA (cN 3) (cM (cN 2) (cV 2)))))) (cM (cA (cN 1) (cM (cN 2) (cV 2))) (cR (cD (cM (cM (cA (cN 1) (cM (cN 2) (cH 1))) (cW (cA (cN 1) (cV 2)) 4)) (cA (cN 3) (cM (cN 2) (cV 2)))) (cA (cN 2) (cV 2)))))) (cM (cA (cA (cN 1) (cM (cN 3) (cV 2))) (cM (cN 2) (cW (cV 2) 4))) (cR (cD (cA (cN 1) (cM (cN 2) (cH 1))) (cA (cA (cN 6) (cM (cN 7) (cV 2))) (cM (cN 2) (cW (cV 2) 4))))))) (cM (cM (cN 2) (cA (cA (cN 1) (cM (cN 3) (cV 2))) (cM (cN 2) (cW (cV 2) 4)))) (cR (cD (cA (cA (cN 6) (cM (cN 7) (cV 2))) (cM (cN 2) (cW (cV 2) 4))) (cA (cN 1) (cM (cN 2) (cH 1))))))) (cM (cA (cA (cN 1) (cM (cN 3) (cV 2))) (cM (cN 2) (cW (cV 2) 4))) (cR (cM (cA (cN 1) (cM (cN 2) (cH 1))) (cA (cA (cN 6) (cM (cN 7) (cV 2))) (cM (cN 2) (cW (cV 2) 4))))))) (cD (cA (cA (cN 2) (cM (cN 6) (cV 2))) (cM (cN 4) (cW (cV 2) 4))) (cR (cM (cA (cN 1) (cM (cN 2) (cH 1))) (cA (cA (cN 6) (cM (cN 7) (cV 2))) (cM (cN 2) (cW (cV 2) 4)))))))) (cM (cM (cA (cN 1) (cH 1)) (cA (cA (cN 3) (cM (cN 5) (cV 2))) (cM (cN 2) (cW (cV 2) 4)))) (cR (cM (cH 1) (cA (cA (cN 10) (cM (cN 9) (cV 2))) (cM (cN 2) (cW (cV 2) 4)))))))) (cN 2)).
Definition QST_e1110 := (cO (cM (cR (cN 2)) (cR (cD (cA (cN (-1)) (cH 1)) (cA (cN (-1)) (cM (cN 2) (cH 1))))))).
Definition QST_e1111 := (cD (cM (cR (cQ 2 3)) (cA (cN 1) (cH 1))) (cR (cA (cA (cN (-1)) (cH 1)) (cM (cN 2) (cW (cH 1) 4))))).
Definition QST_e1112 := (cD (cM (cR (cQ 2 3)) (cB (cN 1) (cM (cN 2) (cH 1)))) (cR (cA (cN (-1)) (cM (cN 4) (cW (cH 1) 4))))).
Definition QST_e1113 := (cO (cD (cA (cA (cB (cB (cA (cA (cA (cA (cM (cN (-3)) (cR (cD (cM (cH 1) (cV 2)) (cA (cN 1) (cH 1))))) (cR (cD (cM (cW (cH 1) 6) (cV 2)) (cA (cN 1) (cH 1))))) (cM (cN 8) (cR (cD (cM (cW (cH 1) 10) (cV 2)) (cA (cN 1) (cH 1)))))) (cM (cN 4) (cR (cD (cM (cW (cH 1) 14) (cV 2)) (cA (cN 1) (cH 1)))))) (cR (cM (cM (cH 1) (cA (cN 1) (cH 1))) (cV 2)))) (cM (cM (cN 2) (cH 1)) (cR (cM (cM (cH 1) (cA (cN 1) (cH 1))) (cV 2))))) (cM (cN 2) (cR (cM (cM (cH 1) (cA (cN 1) (cH 1))) (cW (cV 2) 6))))) (cM (cM (cN 2) (cH 1)) (cR (cM (cM (cH 1) (cA (cN 1) (cH 1))) (cW (cV 2) 6))))) (cM (cM (cN 4) (cW (cH 1) 4)) (cR (cM (cM (cH 1) (cA (cN 1) (cH 1))) (cW (cV 2) 6))))) (cM (cM (cM (cR (cN 6)) (cA (cN 1) (cH 1))) (cR (cM (cM (cM (cH 1) (cA (cN 1) (cH 1))) (cA (cN (-1)) (cM (cN 4) (cW (cH 1) 4)))) (cV 2)))) (cA (cN 1) (cV 2))))).
Definition QST_e1114 := (cD (cA (cA (cA (cA (cA (cD (cM (cA (cN (-1)) (cM (cN 2) (cH 1))) (cA (cN 1) (cM (cN 2) (cV 2)))) (cM (cM (cA (cN 1) (cH 1)) (cR (cA (cN (-1)) (cM (cN 4) (cW (cH 1) 4))))) (cA (cN 3) (cM (cN 2) (cV 2))))) (cD (cA (cN (-1)) (cM (cN 2) (cH 1))) (cM (cM (cA (cN 1) (cH 1)) (cR (cA (cN (-1)) (cM (cN 4) (cW (cH 1) 4))))) (cA (cA (cN 3) (cM (cN 5) (cV 2))) (cM (cN 2) (cW (cV 2) 4)))))) (cD (cB (cB (cN 3) (cM (cN 4) (cH 1))) (cM (cN 4) (cW (cH 1) 4))) (cM (cM (cA (cN 1) (cH 1)) (cR (cA (cN (-1)) (cM (cN 4) (cW (cH 1) 4))))) (cA (cA (cN 3) (cM (cN 5) (cV 2))) (cM (cN 2) (cW (cV 2) 4)))))) (cD (cM (cA (cN (-1)) (cM (cN 2) (cH 1))) (cA (cN 1) (cM (cN 2) (cV 2)))) (cM (cM (cA (cN 1) (cH 1)) (cR (cA (cN (-1)) (cM (cN 4) (cW (cH 1) 4))))) (cA (cA (cN 3) (cM (cN 5) (cV 2))) (cM (cN 2) (cW (cV 2) 4)))))) (cD (cA (cB (cM (cN (-3)) (cR (cD (cM (cM (cH 1) (cA (cN (-1)) (cM (cN 2) (cH 1)))) (cA (cN 1) (cM (cN 2) (cV 2)))) (cA (cA (cN 1) (cM (cN 3) (cH 1))) (cM (cN 2) (cW (cH 1) 4)))))) (cM (cN 4) (cR (cD (cM (cW (cH 1) 10) (cA (cN 1) (cM (cN 2) (cV 2)))) (cA (cA (cB (cN (-1)) (cH 1)) (cM (cN 4) (cW (cH 1) 4))) (cM (cN 4) (cW (cH 1) 6))))))) (cM (cM (cN 2) (cH 1)) (cR (cO (cD (cA (cH 1) (cM (cM (cN 2) (cH 1)) (cV 2))) (cB (cB (cA (cN 1) (cH 1)) (cM (cN 4) (cW (cH 1) 4))) (cM (cN 4) (cW (cH 1) 6)))))))) (cR (cD (cM (cM (cH 1) (cA (cN 1) (cH 1))) (cW (cA (cA (cN 3) (cM (cN 5) (cV 2))) (cM (cN 2) (cW (cV 2) 4))) 4)) (cA (cN 1) (cM (cN 2) (cV 2))))))) (cD (cB (cA (cM (cN (-3)) (cR (cD (cM (cM (cH 1) (cA (cN (-1)) (cM (cN 2) (cH 1)))) (cA (cA (cN 1) (cM (cN 3) (cV 2))) (cM (cN 2) (cW (cV 2) 4)))) (cA (cA (cN 1) (cM (cN 3) (cH 1))) (cM (cN 2) (cW (cH 1) 4)))))) (cM (cM (cN 2) (cH 1)) (cR (cD (cM (cH 1) (cA (cA (cN 1) (cM (cN 3) (cV 2))) (cM (cN 2) (cW (cV 2) 4)))) (cA (cA (cB (cN (-1)) (cH 1)) (cM (cN 4) (cW (cH 1) 4))) (cM (cN 4) (cW (cH 1) 6))))))) (cM (cN 4) (cR (cD (cM (cW (cH 1) 10) (cA (cA (cN 1) (cM (cN 3) (cV 2))) (cM (cN 2) (cW (cV 2) 4)))) (cA (cA (cB (cN (-1)) (cH 1)) (cM (cN 4) (cW (cH 1) 4))) (cM (cN 4) (cW (cH 1) 6))))))) (cR (cD (cM (cM (cM (cH 1) (cA (cN 1) (cH 1))) (cA (cN 1) (cV 2))) (cW (cA (cN 3) (cM (cN 2) (cV 2))) 4)) (cA (cN 1) (cM (cN 2) (cV 2))))))) (cR (cN 6))).
Definition QST_e1115 := (cD (cM (cR (cQ 2 3)) (cA (cN 3) (cM (cN 2) (cH 1)))) (cR (cA (cA (cN 3) (cM (cN 8) (cH 1))) (cM (cN 4) (cW (cH 1) 4))))).
Definition QST_e1116 := (cM (cR (cQ 2 3)) (cA (cA (cA (cA (cA (cD (cM (cA (cN 3) (cM (cN 2) (cH 1))) (cA (cN 1) (cM (cN 2) (cV 2)))) (cM (cM (cA (cN 1) (cH 1)) (cR (cA (cA (cN 3) (cM (cN 8) (cH 1))) (cM (cN 4) (cW (cH 1) 4))))) (cA (cN 3) (cM (cN 2) (cV 2))))) (cD (cA (cN 3) (cM (cN 2) (cH 1))) (cM (cM (cA (cN 1) (cH 1)) (cR (cA (cA (cN 3) (cM (cN 8) (cH 1))) (cM (cN 4) (cW (cH 1) 4))))) (cA (cA (cN 3) (cM (cN 5) (cV 2))) (cM (cN 2) (cW (cV 2) 4)))))) (cD (cM (cH 1) (cA (cN 3) (cM (cN 2) (cH 1)))) (cM (cM (cA (cN 1) (cH 1)) (cR (cA (cA (cN 3) (cM (cN 8) (cH 1))) (cM (cN 4) (cW (cH 1) 4))))) (cA (cA (cN 3) (cM (cN 5) (cV 2))) (cM (cN 2) (cW (cV 2) 4)))))) (cD (cM (cA (cN 3) (cM (cN 2) (cH 1))) (cA (cN 1) (cM (cN 2) (cV 2)))) (cM (cM (cA (cN 1) (cH 1)) (cR (cA (cA (cN 3) (cM (cN 8) (cH 1))) (cM (cN 4) (cW (cH 1) 4))))) (cA (cA (cN 3) (cM (cN 5) (cV 2))) (cM (cN 2) (cW (cV 2) 4)))))) (cD (cM (cM (cH 1) (cR (cD (cA (cN 1) (cM (cN 2) (cV 2))) (cA (cN 1) (cH 1))))) (cA (cR (cD (cM (cA (cN 1) (cM (cN 2) (cH 1))) (cA (cN 1) (cM (cN 2) (cV 2)))) (cA (cA (cN 3) (cM (cN 5) (cH 1))) (cM (cN 2) (cW (cH 1) 4))))) (cM (cN 2) (cR (cD (cA (cN 1) (cM (cN 2) (cV 2))) (cA (cA (cA (cN 3) (cM (cN 11) (cH 1))) (cM (cN 12) (cW (cH 1) 4))) (cM (cN 4) (cW (cH 1) 6)))))))) (cA (cA (cN 3) (cM (cN 5) (cV 2))) (cM (cN 2) (cW (cV 2) 4))))) (cD (cM (cW (cH 1) 3) (cA (cR (cD (cM (cA (cN 1) (cM (cN 2) (cH 1))) (cA (cA (cN 1) (cM (cN 3) (cV 2))) (cM (cN 2) (cW (cV 2) 4)))) (cA (cA (cN 3) (cM (cN 5) (cH 1))) (cM (cN 2) (cW (cH 1) 4))))) (cM (cN 2) (cR (cD (cA (cA (cN 1) (cM (cN 3) (cV 2))) (cM (cN 2) (cW (cV 2) 4))) (cA (cA (cA (cN 3) (cM (cN 11) (cH 1))) (cM (cN 12) (cW (cH 1) 4))) (cM (cN 4) (cW (cH 1) 6)))))))) (cR (cD (cM (cM (cM (cH 1) (cA (cN 1) (cH 1))) (cA (cN 1) (cV 2))) (cW (cA (cN 3) (cM (cN 2) (cV 2))) 4)) (cA (cN 1) (cM (cN 2) (cV 2)))))))).
Definition QST_e1117 := (cO (cD (cM (cR (cN 2)) (cH 1)) (cR (cA (cM (cN 9) (cH 1)) (cM (cN 6) (cW (cH 1) 4)))))).
Definition QST_e1118 := (cD (cM (cR (cN 2)) (cA (cN 2) (cH 1))) (cR (cA (cA (cN 6) (cM (cN 7) (cH 1))) (cM (cN 2) (cW (cH 1) 4))))).
Definition QST_e1119 := (cD (cA (cA (cA (cD (cM (cR (cA (cA (cN 6) (cM (cN 7) (cH 1))) (cM (cN 2) (cW (cH 1) 4)))) (cV 2)) (cM (cM (cA (cN 1) (cH 1)) (cA (cN 3) (cM (cN 2) (cH 1)))) (cA (cN 1) (cV 2)))) (cD (cA (cN 2) (cH 1)) (cR (cM (cM (cW (cA (cN 1) (cH 1)) 4) (cA (cA (cN 6) (cM (cN 7) (cH 1))) (cM (cN 2) (cW (cH 1) 4)))) (cW (cA (cN 1) (cV 2)) 4))))) (cD (cM (cA (cN 2) (cH 1)) (cA (cN 1) (cM (cN 2) (cH 1)))) (cR (cM (cM (cW (cA (cN 1) (cH 1)) 4) (cA (cA (cN 6) (cM (cN 7) (cH 1))) (cM (cN 2) (cW (cH 1) 4)))) (cW (cA (cN 1) (cV 2)) 4))))) (cD (cM (cV 2) (cA (cA (cR (cD (cW (cA (cN 1) (cM (cN 2) (cH 1))) 4) (cM (cM (cM (cM (cW (cA (cN 1) (cH 1)) 4) (cA (cN 2) (cH 1))) (cW (cA (cN 3) (cM (cN 2) (cH 1))) 6)) (cV 2)) (cA (cN 1) (cV 2))))) (cD (cM (cM (cN 2) (cA (cN 1) (cM (cN 2) (cH 1)))) (cR (cD (cN 1) (cM (cM (cA (cA (cN 6) (cM (cN 7) (cH 1))) (cM (cN 2) (cW (cH 1) 4))) (cV 2)) (cA (cN 1) (cV 2)))))) (cA (cN 3) (cM (cN 2) (cH 1))))) (cD (cA (cN 1) (cM (cN 2) (cH 1))) (cR (cM (cM (cA (cA (cN 6) (cM (cN 7) (cH 1))) (cM (cN 2) (cW (cH 1) 4))) (cV 2)) (cA (cN 1) (cV 2))))))) (cR (cA (cN 1) (cD (cN 1) (cV 2)))))) (cR (cN 2))).
Definition QST_e1120 := (cR (cD (cB (cN 3) (cM (cN 2) (cV 2))) (cB (cN 1) (cM (cN 2) (cV 2))))).
Definition QST_e1121 := (cD (cA (cO (cR (cM (cM (cH 1) (cV 2)) (cA (cN 1) (cV 2))))) (cR (cM (cM (cH 1) (cW (cV 2) 10)) (cA (cN 1) (cV 2))))) (cM (cR (cN 2)) (cR (cD (cM (cM (cM (cH 1) (cW (cV 2) 4)) (cW (cA (cN 1) (cV 2)) 6)) (cA (cB (cN (-1)) (cV 2)) (cM (cN 2) (cW (cV 2) 4)))) (cA (cN (-1)) (cM (cN 2) (cV 2))))))).
Definition QST_e1122 := (cD (cA (cA (cB (cO (cD (cM (cA (cN (-1)) (cV 2)) (cR (cD (cB (cN 1) (cM (cN 2) (cV 2))) (cB (cA (cV 2) (cW (cV 2) 4)) (cM (cN 2) (cW (cV 2) 6)))))) (cM (cA (cN 1) (cH 1)) (cA (cN 1) (cV 2))))) (cD (cM (cM (cA (cN 1) (cM (cN 2) (cH 1))) (cA (cN (-1)) (cV 2))) (cR (cD (cB (cN 1) (cM (cN 2) (cV 2))) (cB (cA (cV 2) (cW (cV 2) 4)) (cM (cN 2) (cW (cV 2) 6)))))) (cM (cA (cN 1) (cH 1)) (cA (cN 1) (cV 2))))) (cD (cA (cB (cM (cN 2) (cR (cD (cA (cB (cN 1) (cM (cN 3) (cV 2))) (cM (cN 2) (cW (cV 2) 4))) (cA (cA (cN 1) (cM (cN 3) (cV 2))) (cM (cN 2) (cW (cV 2) 4)))))) (cM (cV 2) (cR (cD (cA (cN (-1)) (cM (cN 2) (cV 2))) (cA (cA (cB (cN (-1)) (cM (cN 2) (cV 2))) (cW (cV 2) 4)) (cM (cN 2) (cW (cV 2) 6))))))) (cM (cW (cV 2) 4) (cR (cD (cA (cN (-1)) (cM (cN 2) (cV 2))) (cA (cA (cB (cN (-1)) (cM (cN 2) (cV 2))) (cW (cV 2) 4)) (cM (cN 2) (cW (cV 2) 6))))))) (cM (cA (cN 1) (cH 1)) (cR (cM (cV 2) (cA (cN 1) (cV 2))))))) (cD (cA (cB (cM (cN 2) (cR (cD (cM (cA (cN 1) (cM (cN 2) (cH 1))) (cA (cB (cN 1) (cM (cN 3) (cV 2))) (cM (cN 2) (cW (cV 2) 4)))) (cA (cA (cN 1) (cM (cN 3) (cV 2))) (cM (cN 2) (cW (cV 2) 4)))))) (cM (cV 2) (cR (cD (cM (cA (cN 1) (cM (cN 2) (cH 1))) (cA (cN (-1)) (cM (cN 2) (cV 2)))) (cA (cA (cB (cN (-1)) (cM (cN 2) (cV 2))) (cW (cV 2) 4)) (cM (cN 2) (cW (cV 2) 6))))))) (cM (cW (cV 2) 4) (cR (cD (cM (cA (cN 1) (cM (cN 2) (cH 1))) (cA (cN (-1)) (cM (cN 2) (cV 2)))) (cA (cA (cB (cN (-1)) (cM (cN 2) (cV 2))) (cW (cV 2) 4)) (cM (cN 2) (cW (cV 2) 6))))))) (cR (cD (cM (cM (cW (cA (cN 1) (cH 1)) 4) (cV 2)) (cA (cN 1) (cV 2))) (cA (cN 1) (cM (cN 2) (cH 1))))))) (cM (cN 2) (cR (cN 2)))).
Definition QST_e1123 := (cD (cA (cA (cD (cA (cN (-1)) (cM (cN 2) (cV 2))) (cM (cA (cN 1) (cV 2)) (cR (cA (cA (cB (cN 1) (cD (cN 3) (cV 2))) (cM (cN 8) (cV 2))) (cM (cN 4) (cW (cV 2) 4)))))) (cD (cB (cB (cA (cN (-3)) (cM (cN 9) (cV 2))) (cM (cN 4) (cW (cV 2) 4))) (cM (cN 4) (cW (cV 2) 6))) (cM (cA (cN 1) (cV 2)) (cR (cM (cV 2) (cA (cA (cA (cN (-3)) (cV 2)) (cM (cN 8) (cW (cV 2) 4))) (cM (cN 4) (cW (cV 2) 6)))))))) (cD (cM (cM (cM (cN 3) (cH 1)) (cV 2)) (cB (cA (cM (cN (-2)) (cR (cD (cM (cH 1) (cA (cN (-1)) (cM (cN 2) (cV 2)))) (cA (cN 3) (cM (cN 2) (cV 2)))))) (cM (cV 2) (cR (cD (cH 1) (cA (cA (cN (-3)) (cM (cN 4) (cV 2))) (cM (cN 4) (cW (cV 2) 4))))))) (cM (cM (cN 2) (cW (cV 2) 4)) (cR (cD (cH 1) (cA (cA (cN (-3)) (cM (cN 4) (cV 2))) (cM (cN 4) (cW (cV 2) 4)))))))) (cW (cM (cM (cH 1) (cV 2)) (cA (cN 1) (cV 2))) 3))) (cR (cN 6))).
Definition QST_e1124 := (cD (cA (cB (cA (cA (cA (cD (cM (cM (cN (-3)) (cA (cN 1) (cM (cN 2) (cH 1)))) (cA (cA (cN (-2)) (cM (cN 3) (cV 2))) (cM (cN 2) (cW (cV 2) 4)))) (cM (cW (cA (cN 1) (cV 2)) 3) (cR (cM (cV 2) (cA (cA (cN (-3)) (cM (cN 4) (cV 2))) (cM (cN 4) (cW (cV 2) 4))))))) (cD (cA (cN (-1)) (cM (cN 2) (cV 2))) (cM (cA (cN 1) (cV 2)) (cR (cA (cA (cB (cN 1) (cD (cN 3) (cV 2))) (cM (cN 8) (cV 2))) (cM (cN 4) (cW (cV 2) 4))))))) (cD (cM (cA (cN 1) (cM (cN 2) (cH 1))) (cA (cN (-1)) (cM (cN 2) (cV 2)))) (cM (cA (cN 1) (cV 2)) (cR (cA (cA (cB (cN 1) (cD (cN 3) (cV 2))) (cM (cN 8) (cV 2))) (cM (cN 4) (cW (cV 2) 4))))))) (cD (cB (cB (cN 6) (cM (cN 9) (cV 2))) (cM (cN 6) (cW (cV 2) 4))) (cM (cA (cN 1) (cV 2)) (cR (cM (cV 2) (cA (cA (cA (cN (-3)) (cV 2)) (cM (cN 8) (cW (cV 2) 4))) (cM (cN 4) (cW (cV 2) 6)))))))) (cD (cM (cM (cA (cN 1) (cM (cN 2) (cH 1))) (cA (cN (-1)) (cM (cN 2) (cV 2)))) (cA (cA (cN (-3)) (cM (cN 3) (cV 2))) (cM (cN 2) (cW (cV 2) 4)))) (cM (cA (cN 1) (cV 2)) (cR (cM (cV 2) (cA (cA (cA (cN (-3)) (cV 2)) (cM (cN 8) (cW (cV 2) 4))) (cM (cN 4) (cW (cV 2) 6)))))))) (cD (cB (cB (cA (cN (-3)) (cM (cN 9) (cV 2))) (cM (cN 4) (cW (cV 2) 4))) (cM (cN 4) (cW (cV 2) 6))) (cM (cA (cN 1) (cV 2)) (cR (cM (cV 2) (cA (cA (cA (cN (-3)) (cV 2)) (cM (cN 8) (cW (cV 2) 4))) (cM (cN 4) (cW (cV 2) 6)))))))) (cM (cM (cN 2) (cR (cN 6))) (cA (cN 1) (cH 1)))).
Definition QST_e1125 := (cD (cA (cA (cM (cW (cV 2) 4) (cR (cD (cA (cN 1) (cM (cN 2) (cV 2))) (cM (cW (cA (cN 1) (cV 2)) 6) (cA (cA (cN 6) (cM (cN 7) (cV 2))) (cM (cN 2) (cW (cV 2) 4))))))) (cD (cN 6) (cR (cM (cW (cA (cN 1) (cV 2)) 6) (cA (cA (cA (cN 6) (cM (cN 19) (cV 2))) (cM (cN 16) (cW (cV 2) 4))) (cM (cN 4) (cW (cV 2) 6))))))) (cM (cV 2) (cA (cM (cN 4) (cR (cD (cA (cN 1) (cM (cN 2) (cV 2))) (cM (cW (cA (cN 1) (cV 2)) 6) (cA (cA (cN 6) (cM (cN 7) (cV 2))) (cM (cN 2) (cW (cV 2) 4))))))) (cD (cN 9) (cM (cW (cA (cN 1) (cV 2)) 3) (cR (cA (cA (cA (cN 6) (cM (cN 19) (cV 2))) (cM (cN 16) (cW (cV 2) 4))) (cM (cN 4) (cW (cV 2) 6))))))))) (cR (cN 2))).
Definition QST_e1126 := (cD (cB (cB (cD (cM (cW (cV 2) 4) (cA (cN 1) (cM (cN 2) (cV 2)))) (cM (cW (cM (cV 2) (cA (cN 1) (cV 2))) 3) (cA (cN 3) (cM (cN 2) (cV 2))))) (cD (cM (cR (cV 2)) (cA (cN 5) (cM (cN 2) (cV 2)))) (cM (cW (cA (cN 1) (cV 2)) 3) (cA (cN 3) (cM (cN 2) (cV 2)))))) (cD (cM (cV 2) (cA (cA (cD (cM (cA (cN 1) (cV 2)) (cA (cN 1) (cM (cN 2) (cV 2)))) (cM (cA (cN 2) (cV 2)) (cR (cD (cM (cV 2) (cA (cN 3) (cM (cN 2) (cV 2)))) (cH 1))))) (cD (cA (cN 2) (cM (cN 4) (cV 2))) (cR (cD (cM (cA (cN 3) (cM (cN 2) (cV 2))) (cW (cA (cA (cN 2) (cM (cN 3) (cV 2))) (cW (cV 2) 4)) 4)) (cM (cH 1) (cV 2)))))) (cD (cM (cN 3) (cA (cN (-1)) (cV 2))) (cR (cD (cM (cM (cV 2) (cA (cN 3) (cM (cN 2) (cV 2)))) (cW (cA (cA (cN 2) (cM (cN 3) (cV 2))) (cW (cV 2) 4)) 4)) (cH 1)))))) (cR (cM (cH 1) (cA (cA (cN 3) (cM (cN 5) (cV 2))) (cM (cN 2) (cW (cV 2) 4))))))) (cR (cN 2))).
Definition QST_e1127 := (cD (cR (cA (cA (cA (cA (cN 6) (cM (cN 25) (cV 2))) (cM (cN 35) (cW (cV 2) 4))) (cM (cN 20) (cW (cV 2) 6))) (cM (cN 4) (cW (cV 2) 8)))) (cM (cR (cN 2)) (cA (cA (cN 1) (cM (cN 3) (cV 2))) (cM (cN 2) (cW (cV 2) 4))))).
Definition QST_e1128 := (cD (cA (cA (cA (cA (cA (cM (cN 12) (cR (cD (cM (cH 1) (cA (cN 3) (cM (cN 2) (cV 2)))) (cA (cN 1) (cV 2))))) (cM (cM (cN 12) (cV 2)) (cR (cD (cM (cH 1) (cA (cN 3) (cM (cN 2) (cV 2)))) (cA (cN 1) (cV 2)))))) (cM (cN 18) (cR (cM (cH 1) (cA (cA (cN 3) (cM (cN 5) (cV 2))) (cM (cN 2) (cW (cV 2) 4))))))) (cM (cM (cN 47) (cV 2)) (cR (cM (cH 1) (cA (cA (cN 3) (cM (cN 5) (cV 2))) (cM (cN 2) (cW (cV 2) 4))))))) (cM (cM (cN 24) (cW (cV 2) 4)) (cR (cM (cH 1) (cA (cA (cN 3) (cM (cN 5) (cV 2))) (cM (cN 2) (cW (cV 2) 4))))))) (cM (cM (cN 4) (cW (cV 2) 6)) (cR (cM (cH 1) (cA (cA (cN 3) (cM (cN 5) (cV 2))) (cM (cN 2) (cW (cV 2) 4))))))) (cM (cM (cA (cN 2) (cV 2)) (cW (cA (cN 3) (cM (cN 2) (cV 2))) 4)) (cR (cM (cH 1) (cA (cA (cN 5) (cM (cN 7) (cV 2))) (cM (cN 2) (cW (cV 2) 4))))))).
Definition QST_e1129 := (cD (cA (cA (cA (cA (cA (cD (cM (cA (cN 1) (cM (cN 2) (cV 2))) (cR (cA (cN 5) (cM (cN 2) (cV 2))))) (cM (cA (cN 1) (cH 1)) (cW (cA (cN 3) (cM (cN 2) (cV 2))) 3))) (cD (cM (cM (cA (cN 1) (cM (cN 2) (cH 1))) (cA (cN 1) (cM (cN 2) (cV 2)))) (cR (cA (cN 5) (cM (cN 2) (cV 2))))) (cM (cA (cN 1) (cH 1)) (cW (cA (cN 3) (cM (cN 2) (cV 2))) 3)))) (cD (cA (cN 5) (cM (cN 2) (cV 2))) (cM (cM (cM (cA (cN 1) (cH 1)) (cA (cN 1) (cV 2))) (cA (cN 3) (cM (cN 2) (cV 2)))) (cR (cA (cA (cN 15) (cM (cN 16) (cV 2))) (cM (cN 4) (cW (cV 2) 4))))))) (cD (cM (cA (cN 1) (cM (cN 2) (cH 1))) (cA (cN 5) (cM (cN 2) (cV 2)))) (cM (cM (cM (cA (cN 1) (cH 1)) (cA (cN 1) (cV 2))) (cA (cN 3) (cM (cN 2) (cV 2)))) (cR (cA (cA (cN 15) (cM (cN 16) (cV 2))) (cM (cN 4) (cW (cV 2) 4))))))) (cD (cA (cA (cD (cA (cN 1) (cM (cN 2) (cV 2))) (cR (cD (cM (cW (cA (cN 2) (cV 2)) 4) (cA (cN 5) (cM (cN 2) (cV 2)))) (cA (cN 1) (cV 2))))) (cM (cM (cN 4) (cA (cN 1) (cM (cN 2) (cV 2)))) (cR (cD (cA (cN 1) (cV 2)) (cM (cA (cN 5) (cM (cN 2) (cV 2))) (cW (cA (cA (cN 6) (cM (cN 7) (cV 2))) (cM (cN 2) (cW (cV 2) 4))) 4)))))) (cD (cA (cN 3) (cM (cN 6) (cV 2))) (cM (cR (cA (cA (cN 5) (cM (cN 7) (cV 2))) (cM (cN 2) (cW (cV 2) 4)))) (cA (cA (cN 6) (cM (cN 7) (cV 2))) (cM (cN 2) (cW (cV 2) 4)))))) (cR (cM (cW (cA (cN 1) (cH 1)) 4) (cA (cA (cN 3) (cM (cN 5) (cV 2))) (cM (cN 2) (cW (cV 2) 4))))))) (cD (cM (cA (cN 1) (cM (cN 2) (cH 1))) (cA (cA (cD (cA (cN 1) (cM (cN 2) (cV 2))) (cR (cD (cM (cW (cA (cN 2) (cV 2)) 4) (cA (cN 5) (cM (cN 2) (cV 2)))) (cA (cN 1) (cV 2))))) (cM (cM (cN 4) (cA (cN 1) (cM (cN 2) (cV 2)))) (cR (cD (cA (cN 1) (cV 2)) (cM (cA (cN 5) (cM (cN 2) (cV 2))) (cW (cA (cA (cN 6) (cM (cN 7) (cV 2))) (cM (cN 2) (cW (cV 2) 4))) 4)))))) (cD (cA (cN 3) (cM (cN 6) (cV 2))) (cM (cR (cA (cA (cN 5) (cM (cN 7) (cV 2))) (cM (cN 2) (cW (cV 2) 4)))) (cA (cA (cN 6) (cM (cN 7) (cV 2))) (cM (cN 2) (cW (cV 2) 4))))))) (cR (cM (cW (cA (cN 1) (cH 1)) 4) (cA (cA (cN 3) (cM (cN 5) (cV 2))) (cM (cN 2) (cW (cV 2) 4))))))) (cN 2)).
Definition QST_e1130 := (cO (cD (cR (cD (cM (cA (cN (-1)) (cM (cN 2) (cH 1))) (cA (cN (-1)) (cV 2))) (cM (cH 1) (cV 2)))) (cR (cN 2)))).
Definition QST_e1131 := (cO (cD (cA (cN 1) (cV 2)) (cM (cR (cN 2)) (cR (cD (cM (cM (cH 1) (cV 2)) (cA (cA (cN 1) (cM (cN 3) (cV 2))) (cM (cN 2) (cW (cV 2) 4)))) (cM (cA (cN (-1)) (cM (cN 2) (cH 1))) (cA (cN (-1)) (cM (cN 2) (cV 2))))))))).
Definition QST_e1132 := (cD (cA (cD (cV 2) (cR (cD (cM (cM (cH 1) (cV 2)) (cA (cN 1) (cV 2))) (cA (cN (-1)) (cM (cN 2) (cH 1)))))) (cD (cA (cN (-1)) (cM (cN 2) (cH 1))) (cR (cM (cM (cM (cH 1) (cA (cN (-1)) (cM (cN 2) (cH 1)))) (cV 2)) (cA (cN 1) (cV 2)))))) (cR (cN 2))).
Definition QST_e1133 := (cD (cA (cN (-1)) (cM (cN 2) (cH 1))) (cM (cR (cN 2)) (cR (cM (cM (cM (cH 1) (cA (cN (-1)) (cM (cN 2) (cH 1)))) (cV 2)) (cA (cN 1) (cV 2)))))).
Definition QST_e1134 := (cD (cB (cB (cD (cR (cD (cM (cA (cN (-1)) (cM (cN 2) (cH 1))) (cV 2)) (cM (cH 1) (cW (cA (cN 1) (cV 2)) 6)))) (cA (cN 3) (cM (cN 2) (cV 2)))) (cD (cM (cM (cN 2) (cH 1)) (cW (cB (cV 2) (cM (cM (cN 2) (cH 1)) (cV 2))) 4)) (cM (cW (cM (cM (cM (cH 1) (cA (cN (-1)) (cM (cN 2) (cH 1)))) (cV 2)) (cA (cN 1) (cV 2))) 3) (cA (cN 3) (cM (cN 2) (cV 2)))))) (cD (cM (cM (cV 2) (cA (cN 1) (cM (cN 2) (cV 2)))) (cA (cR (cD (cM (cA (cN (-1)) (cM (cN 2) (cH 1))) (cA (cN 1) (cV 2))) (cA (cN 3) (cM (cN 2) (cV 2))))) (cR (cD (cA (cN (-1)) (cM (cN 2) (cH 1))) (cA (cA (cN 3) (cM (cN 5) (cV 2))) (cM (cN 2) (cW (cV 2) 4))))))) (cM (cA (cN 1) (cV 2)) (cR (cM (cM (cH 1) (cV 2)) (cA (cN 3) (cM (cN 2) (cV 2)))))))) (cR (cN 2))).
Definition QST_e1135 := (cD (cA (cA (cA (cO (cM (cH 1) (cR (cD (cM (cV 2) (cA (cN 3) (cM (cN 2) (cV 2)))) (cA (cN (-1)) (cM (cN 2) (cH 1))))))) (cM (cM (cN 2) (cW (cH 1) 4)) (cR (cD (cM (cV 2) (cA (cN 3) (cM (cN 2) (cV 2)))) (cA (cN (-1)) (cM (cN 2) (cH 1))))))) (cM (cR (cM (cM (cA (cN (-1)) (cM (cN 2) (cH 1))) (cV 2)) (cA (cN 3) (cM (cN 2) (cV 2))))) (cA (cH 1) (cM (cM (cN 2) (cH 1)) (cV 2))))) (cM (cM (cH 1) (cR (cM (cM (cA (cN (-1)) (cM (cN 2) (cH 1))) (cV 2)) (cA (cN 3) (cM (cN 2) (cV 2)))))) (cA (cA (cN 1) (cM (cN 3) (cV 2))) (cM (cN 2) (cW (cV 2) 4))))) (cM (cM (cM (cM (cR (cN 2)) (cH 1)) (cA (cN 1) (cV 2))) (cA (cN 3) (cM (cN 2) (cV 2)))) (cR (cM (cH 1) (cA (cA (cN 1) (cM (cN 3) (cV 2))) (cM (cN 2) (cW (cV 2) 4))))))).
Definition QST_e1136 := (cD (cA (cA (cD (cM (cA (cN 1) (cM (cN 2) (cV 2))) (cR (cM (cM (cH 1) (cA (cN (-1)) (cM (cN 2) (cH 1)))) (cA (cA (cN 2) (cM (cN 3) (cV 2))) (cW (cV 2) 4))))) (cM (cM (cH 1) (cW (cA (cN 1) (cV 2)) 4)) (cA (cN 3) (cM (cN 2) (cV 2))))) (cD (cA (cA (cA (cN 2) (cM (cN 3) (cV 2))) (cM (cN 5) (cW (cV 2) 4))) (cM (cN 2) (cW (cV 2) 6))) (cM (cR (cD (cM (cH 1) (cA (cA (cN 2) (cM (cN 3) (cV 2))) (cW (cV 2) 4))) (cA (cN (-1)) (cM (cN 2) (cH 1))))) (cA (cA (cN 3) (cM (cN 5) (cV 2))) (cM (cN 2) (cW (cV 2) 4)))))) (cD (cM (cR (cM (cA (cN (-1)) (cM (cN 2) (cH 1))) (cA (cN 1) (cM (cN 2) (cV 2))))) (cA (cR (cD (cA (cH 1) (cM (cM (cN 2) (cH 1)) (cV 2))) (cA (cA (cN 2) (cM (cN 3) (cV 2))) (cW (cV 2) 4)))) (cR (cD (cM (cH 1) (cA (cA (cN 1) (cM (cN 3) (cV 2))) (cM (cN 2) (cW (cV 2) 4)))) (cA (cN 2) (cV 2)))))) (cM (cH 1) (cA (cA (cN 3) (cM (cN 5) (cV 2))) (cM (cN 2) (cW (cV 2) 4)))))) (cR (cN 2))).
Definition QST_e1137 := (cD (cA (cD (cH 1) (cR (cD (cM (cM (cH 1) (cA (cN 1) (cH 1))) (cV 2)) (cA (cN (-1)) (cV 2))))) (cD (cA (cN (-1)) (cV 2)) (cR (cM (cM (cM (cH 1) (cA (cN 1) (cH 1))) (cA (cN (-1)) (cV 2))) (cV 2))))) (cR (cN 2))).
Definition QST_e1138 := (cD (cA (cA (cO (cR (cD (cM (cM (cA (cN 1) (cH 1)) (cV 2)) (cA (cA (cN 1) (cM (cN 3) (cV 2))) (cM (cN 2) (cW (cV 2) 4)))) (cM (cH 1) (cA (cN (-1)) (cM (cN 2) (cV 2))))))) (cM (cM (cN 2) (cV 2)) (cR (cD (cM (cM (cA (cN 1) (cH 1)) (cV 2)) (cA (cA (cN 1) (cM (cN 3) (cV 2))) (cM (cN 2) (cW (cV 2) 4)))) (cM (cH 1) (cA (cN (-1)) (cM (cN 2) (cV 2)))))))) (cR (cM (cM (cM (cH 1) (cA (cN 1) (cH 1))) (cV 2)) (cA (cA (cB (cN (-1)) (cV 2)) (cM (cN 4) (cW (cV 2) 4))) (cM (cN 4) (cW (cV 2) 6)))))) (cM (cM (cM (cR (cN 2)) (cA (cN 1) (cH 1))) (cV 2)) (cA (cN 1) (cM (cN 2) (cV 2))))).
Definition QST_e1139 := (cO (cD (cA (cA (cR (cD (cM (cH 1) (cA (cN (-1)) (cV 2))) (cV 2))) (cM (cN 2) (cR (cD (cM (cW (cH 1) 6) (cA (cN (-1)) (cV 2))) (cV 2))))) (cR (cD (cM (cW (cH 1) 10) (cA (cN (-1)) (cV 2))) (cV 2)))) (cM (cR (cN 2)) (cW (cA (cN 1) (cH 1)) 5)))).
Definition QST_e1140 := (cD (cB (cB (cA (cR (cD (cM (cM (cH 1) (cV 2)) (cA (cN (-1)) (cM (cN 2) (cV 2)))) (cM (cW (cA (cN 1) (cH 1)) 6) (cA (cA (cN 1) (cM (cN 3) (cV 2))) (cM (cN 2) (cW (cV 2) 4)))))) (cD (cN 1) (cR (cD (cM (cM (cW (cA (cN 1) (cH 1)) 6) (cV 2)) (cA (cA (cN 1) (cM (cN 3) (cV 2))) (cM (cN 2) (cW (cV 2) 4)))) (cM (cH 1) (cA (cN (-1)) (cM (cN 2) (cV 2)))))))) (cD (cM (cM (cH 1) (cA (cN 3) (cM (cN 2) (cH 1)))) (cA (cN (-1)) (cM (cN 2) (cV 2)))) (cR (cM (cM (cM (cH 1) (cW (cA (cN 1) (cH 1)) 6)) (cV 2)) (cA (cA (cB (cN (-1)) (cV 2)) (cM (cN 4) (cW (cV 2) 4))) (cM (cN 4) (cW (cV 2) 6))))))) (cD (cM (cM (cM (cH 1) (cA (cN 3) (cM (cN 2) (cH 1)))) (cV 2)) (cA (cN (-1)) (cM (cN 2) (cV 2)))) (cR (cM (cM (cM (cH 1) (cW (cA (cN 1) (cH 1)) 6)) (cV 2)) (cA (cA (cB (cN (-1)) (cV 2)) (cM (cN 4) (cW (cV 2) 4))) (cM (cN 4) (cW (cV 2) 6))))))) (cM (cN 2) (cR (cN 2)))).
Definition QST_e1141 := (cO (cD (cM (cA (cN 1) (cH 1)) (cA (cN 1) (cV 2))) (cM (cR (cN 2)) (cR (cM (cM (cM (cH 1) (cA (cN 1) (cH 1))) (cV 2)) (cA (cN 1) (cV 2))))))).
Definition QST_e1142 := (cD (cB (cA (cA (cB (cO (cR (cD (cM (cH 1) (cV 2)) (cM (cA (cN 1) (cH 1)) (cW (cA (cN 1) (cV 2)) 6))))) (cD (cM (cH 1) (cV 2)) (cM (cR (cM (cM (cH 1) (cA (cN 1) (cH 1))) (cV 2))) (cW (cA (cN 1) (cV 2)) 3)))) (cD (cM (cM (cA (cN 1) (cH 1)) (cA (cN (-1)) (cV 2))) (cV 2)) (cM (cW (cH 1) 4) (cW (cD (cM (cM (cA (cN 1) (cH 1)) (cV 2)) (cA (cN 1) (cV 2))) (cH 1)) 3)))) (cD (cM (cH 1) (cA (cN (-1)) (cV 2))) (cM (cA (cN 1) (cV 2)) (cR (cM (cM (cM (cH 1) (cA (cN 1) (cH 1))) (cV 2)) (cA (cN 1) (cV 2))))))) (cD (cM (cN 2) (cV 2)) (cM (cA (cN 1) (cV 2)) (cR (cM (cM (cM (cH 1) (cA (cN 1) (cH 1))) (cV 2)) (cA (cN 1) (cV 2))))))) (cR (cN 2))).
Definition QST_e1143 := (cD (cA (cA (cA (cB (cB (cD (cM (cN 2) (cR (cD (cM (cH 1) (cV 2)) (cM (cA (cN 1) (cH 1)) (cW (cA (cN 1) (cV 2)) 6))))) (cA (cN 3) (cM (cN 2) (cV 2)))) (cD (cV 2) (cM (cM (cA (cN 1) (cV 2)) (cR (cD (cM (cM (cA (cN 1) (cH 1)) (cV 2)) (cA (cN 1) (cV 2))) (cH 1)))) (cA (cN 3) (cM (cN 2) (cV 2)))))) (cD (cV 2) (cR (cM (cM (cM (cM (cH 1) (cA (cN 1) (cH 1))) (cV 2)) (cW (cA (cN 1) (cV 2)) 6)) (cW (cA (cN 3) (cM (cN 2) (cV 2))) 4))))) (cD (cM (cM (cN 2) (cV 2)) (cR (cD (cN 1) (cM (cM (cH 1) (cA (cN 1) (cH 1))) (cA (cV 2) (cW (cV 2) 4)))))) (cA (cA (cN 3) (cM (cN 5) (cV 2))) (cM (cN 2) (cW (cV 2) 4))))) (cD (cM (cM (cV 2) (cA (cN 1) (cM (cN 2) (cV 2)))) (cA (cR (cD (cM (cH 1) (cA (cN 1) (cV 2))) (cA (cN 3) (cM (cN 2) (cV 2))))) (cR (cD (cH 1) (cA (cA (cN 3) (cM (cN 5) (cV 2))) (cM (cN 2) (cW (cV 2) 4))))))) (cM (cA (cN 1) (cV 2)) (cR (cM (cM (cA (cN 1) (cH 1)) (cV 2)) (cA (cN 3) (cM (cN 2) (cV 2)))))))) (cD (cM (cM (cV 2) (cA (cN 1) (cM (cN 2) (cV 2)))) (cA (cR (cD (cM (cH 1) (cA (cN 1) (cV 2))) (cA (cN 3) (cM (cN 2) (cV 2))))) (cR (cD (cH 1) (cA (cA (cN 3) (cM (cN 5) (cV 2))) (cM (cN 2) (cW (cV 2) 4))))))) (cM (cM (cH 1) (cA (cN 1) (cV 2))) (cR (cM (cM (cA (cN 1) (cH 1)) (cV 2)) (cA (cN 3) (cM (cN 2) (cV 2)))))))) (cR (cN 2))).
Definition QST_e1144 := (cD (cA (cA (cR (cM (cM (cM (cH 1) (cA (cN 1) (cH 1))) (cV 2)) (cA (cN 1) (cV 2)))) (cR (cM (cM (cM (cH 1) (cA (cN 1) (cH 1))) (cW (cV 2) 6)) (cA (cN 1) (cV 2))))) (cR (cM (cM (cM (cW (cH 1) 6) (cA (cN 1) (cH 1))) (cV 2)) (cW (cA (cN 1) (cV 2)) 6)))) (cM (cM (cM (cR (cN 2)) (cW (cA (cN 1) (cH 1)) 4)) (cV 2)) (cA (cN 1) (cV 2)))).
Definition QST_e1145 := (cD (cA (cA (cB (cA (cM (cN (-2)) (cR (cD (cM (cH 1) (cV 2)) (cM (cW (cA (cN 1) (cH 1)) 6) (cW (cA (cN 1) (cV 2)) 6))))) (cD (cM (cA (cN 3) (cM (cN 2) (cH 1))) (cR (cM (cH 1) (cV 2)))) (cW (cM (cA (cN 1) (cH 1)) (cA (cN 1) (cV 2))) 3))) (cD (cM (cM (cR (cH 1)) (cA (cN 3) (cM (cN 2) (cH 1)))) (cA (cN (-1)) (cV 2))) (cM (cW (cV 2) 4) (cW (cD (cM (cA (cN 1) (cH 1)) (cA (cN 1) (cV 2))) (cV 2)) 3)))) (cD (cM (cM (cR (cH 1)) (cA (cN (-1)) (cV 2))) (cV 2)) (cW (cM (cM (cA (cN 1) (cH 1)) (cV 2)) (cA (cN 1) (cV 2))) 3))) (cD (cM (cM (cW (cH 1) 4) (cA (cN 3) (cM (cN 2) (cH 1)))) (cW (cV 2) 4)) (cW (cM (cM (cM (cH 1) (cA (cN 1) (cH 1))) (cV 2)) (cA (cN 1) (cV 2))) 3))) (cM (cN 2) (cR (cN 2)))).
Definition QST_e1146 := (cD (cA (cA (cB (cB (cD (cM (cN 2) (cR (cD (cM (cH 1) (cV 2)) (cM (cW (cA (cN 1) (cH 1)) 6) (cW (cA (cN 1) (cV 2)) 6))))) (cA (cN 3) (cM (cN 2) (cV 2)))) (cD (cM (cW (cH 1) 4) (cW (cV 2) 4)) (cM (cW (cM (cM (cM (cH 1) (cA (cN 1) (cH 1))) (cV 2)) (cA (cN 1) (cV 2))) 3) (cA (cN 3) (cM (cN 2) (cV 2)))))) (cD (cM (cM (cW (cH 1) 4) (cA (cN 3) (cM (cN 2) (cH 1)))) (cW (cV 2) 4)) (cM (cW (cM (cM (cM (cH 1) (cA (cN 1) (cH 1))) (cV 2)) (cA (cN 1) (cV 2))) 3) (cA (cN 3) (cM (cN 2) (cV 2)))))) (cD (cM (cM (cM (cW (cH 1) 4) (cW (cV 2) 4)) (cA (cN 2) (cV 2))) (cA (cN 1) (cM (cN 2) (cV 2)))) (cM (cW (cM (cM (cM (cH 1) (cA (cN 1) (cH 1))) (cV 2)) (cA (cN 1) (cV 2))) 3) (cA (cN 3) (cM (cN 2) (cV 2)))))) (cD (cM (cV 2) (cB (cB (cB (cO (cD (cM (cM (cH 1) (cA (cN 1) (cM (cN 2) (cH 1)))) (cA (cN 1) (cM (cN 2) (cV 2)))) (cR (cD (cM (cA (cN 1) (cH 1)) (cA (cN 3) (cM (cN 2) (cV 2)))) (cA (cN 1) (cV 2)))))) (cM (cN 2) (cR (cD (cM (cA (cN 1) (cV 2)) (cW (cA (cH 1) (cM (cM (cN 2) (cH 1)) (cV 2))) 4)) (cM (cA (cN 1) (cH 1)) (cA (cN 3) (cM (cN 2) (cV 2)))))))) (cD (cM (cM (cN 2) (cH 1)) (cA (cN 1) (cM (cN 2) (cV 2)))) (cR (cM (cA (cN 1) (cH 1)) (cA (cA (cN 3) (cM (cN 5) (cV 2))) (cM (cN 2) (cW (cV 2) 4))))))) (cD (cM (cM (cH 1) (cA (cN 1) (cM (cN 2) (cH 1)))) (cA (cN 1) (cM (cN 2) (cV 2)))) (cR (cM (cA (cN 1) (cH 1)) (cA (cA (cN 3) (cM (cN 5) (cV 2))) (cM (cN 2) (cW (cV 2) 4)))))))) (cM (cM (cA (cN 1) (cH 1)) (cA (cN 1) (cV 2))) (cR (cM (cM (cH 1) (cV 2)) (cA (cN 3) (cM (cN 2) (cV 2)))))))) (cM (cN 2) (cR (cN 2)))).
Definition QST_e1147 := (cD (cB (cB (cA (cA (cB (cD (cM (cN (-2)) (cV 2)) (cM (cM (cH 1) (cA (cN 1) (cV 2))) (cR (cD (cM (cM (cM (cA (cN 1) (cH 1)) (cV 2)) (cA (cN 3) (cM (cN 2) (cV 2)))) (cA (cA (cN 1) (cM (cN 3) (cV 2))) (cM (cN 2) (cW (cV 2) 4)))) (cH 1))))) (cD (cM (cH 1) (cA (cN 2) (cV 2))) (cM (cA (cN 1) (cV 2)) (cR (cD (cM (cM (cH 1) (cA (cN 1) (cH 1))) (cA (cA (cN 3) (cM (cN 5) (cV 2))) (cM (cN 2) (cW (cV 2) 4)))) (cM (cV 2) (cA (cN 1) (cM (cN 2) (cV 2))))))))) (cD (cV 2) (cR (cD (cM (cM (cM (cA (cN 1) (cH 1)) (cV 2)) (cW (cA (cN 1) (cV 2)) 6)) (cA (cA (cN 3) (cM (cN 8) (cV 2))) (cM (cN 4) (cW (cV 2) 4)))) (cH 1))))) (cD (cV 2) (cR (cM (cM (cM (cM (cH 1) (cA (cN 1) (cH 1))) (cV 2)) (cW (cA (cN 1) (cV 2)) 6)) (cA (cA (cN 3) (cM (cN 8) (cV 2))) (cM (cN 4) (cW (cV 2) 4))))))) (cD (cM (cM (cN 2) (cH 1)) (cV 2)) (cM (cA (cN 1) (cV 2)) (cR (cM (cM (cM (cH 1) (cA (cN 1) (cH 1))) (cV 2)) (cA (cA (cA (cN 3) (cM (cN 11) (cV 2))) (cM (cN 12) (cW (cV 2) 4))) (cM (cN 4) (cW (cV 2) 6)))))))) (cD (cM (cV 2) (cA (cR (cD (cA (cN 1) (cM (cN 2) (cV 2))) (cA (cN 1) (cV 2)))) (cR (cA (cA (cN 1) (cM (cN 3) (cV 2))) (cM (cN 2) (cW (cV 2) 4)))))) (cM (cA (cN 1) (cV 2)) (cR (cM (cM (cM (cH 1) (cA (cN 1) (cH 1))) (cV 2)) (cA (cN 3) (cM (cN 2) (cV 2)))))))) (cR (cN 2))).
Definition QST_e1148 := (cD (cA (cB (cB (cD (cM (cM (cM (cN (-2)) (cW (cH 1) 4)) (cA (cN 2) (cV 2))) (cA (cN 1) (cM (cN 2) (cV 2)))) (cM (cM (cA (cN 1) (cV 2)) (cA (cN 3) (cM (cN 2) (cV 2)))) (cR (cM (cM (cH 1) (cA (cN 1) (cH 1))) (cA (cA (cN 2) (cM (cN 3) (cV 2))) (cW (cV 2) 4)))))) (cD (cA (cA (cA (cN 2) (cM (cN 3) (cV 2))) (cM (cN 5) (cW (cV 2) 4))) (cM (cN 2) (cW (cV 2) 6))) (cM (cR (cD (cM (cA (cN 1) (cH 1)) (cA (cA (cN 2) (cM (cN 3) (cV 2))) (cW (cV 2) 4))) (cH 1))) (cA (cA (cN 3) (cM (cN 5) (cV 2))) (cM (cN 2) (cW (cV 2) 4)))))) (cD (cM (cM (cN 2) (cR (cD (cA (cH 1) (cM (cM (cN 2) (cH 1)) (cV 2))) (cA (cN 1) (cH 1))))) (cA (cR (cD (cA (cN 1) (cM (cN 2) (cV 2))) (cA (cA (cN 2) (cM (cN 3) (cV 2))) (cW (cV 2) 4)))) (cR (cD (cA (cA (cN 1) (cM (cN 3) (cV 2))) (cM (cN 2) (cW (cV 2) 4))) (cA (cN 2) (cV 2)))))) (cA (cA (cN 3) (cM (cN 5) (cV 2))) (cM (cN 2) (cW (cV 2) 4))))) (cD (cM (cW (cH 1) 4) (cB (cD (cA (cN (-1)) (cV 2)) (cR (cM (cM (cM (cH 1) (cA (cN 1) (cH 1))) (cW (cA (cN 1) (cV 2)) 4)) (cA (cA (cN 6) (cM (cN 7) (cV 2))) (cM (cN 2) (cW (cV 2) 4)))))) (cD (cM (cW (cA (cN 1) (cV 2)) 3) (cA (cN 1) (cM (cN 2) (cV 2)))) (cR (cM (cM (cH 1) (cA (cN 1) (cH 1))) (cA (cA (cA (cN 6) (cM (cN 13) (cV 2))) (cM (cN 9) (cW (cV 2) 4))) (cM (cN 2) (cW (cV 2) 6)))))))) (cR (cA (cA (cN 3) (cM (cN 5) (cV 2))) (cM (cN 2) (cW (cV 2) 4)))))) (cM (cR (cN 2)) (cH 1))).
Definition QST_e1149 := (cD (cA (cA (cA (cB (cO (cD (cM (cH 1) (cA (cN 2) (cV 2))) (cM (cM (cA (cN 1) (cH 1)) (cW (cA (cN 1) (cV 2)) 3)) (cR (cD (cM (cM (cH 1) (cA (cN 1) (cH 1))) (cA (cN 3) (cM (cN 2) (cV 2)))) (cM (cV 2) (cA (cN 1) (cM (cN 2) (cV 2))))))))) (cD (cM (cM (cN 2) (cW (cV 2) 4)) (cR (cD (cH 1) (cA (cA (cN 3) (cM (cN 8) (cV 2))) (cM (cN 4) (cW (cV 2) 4)))))) (cW (cM (cM (cA (cN 1) (cH 1)) (cV 2)) (cA (cN 1) (cV 2))) 3))) (cD (cM (cH 1) (cV 2)) (cM (cM (cW (cA (cN 1) (cH 1)) 3) (cA (cN 1) (cV 2))) (cR (cM (cM (cH 1) (cV 2)) (cA (cA (cA (cN 3) (cM (cN 11) (cV 2))) (cM (cN 12) (cW (cV 2) 4))) (cM (cN 4) (cW (cV 2) 6)))))))) (cD (cM (cM (cH 1) (cA (cN 3) (cM (cN 2) (cH 1)))) (cV 2)) (cM (cM (cA (cN 1) (cH 1)) (cA (cN 1) (cV 2))) (cR (cM (cM (cM (cH 1) (cA (cN 1) (cH 1))) (cV 2)) (cA (cA (cA (cN 3) (cM (cN 11) (cV 2))) (cM (cN 12) (cW (cV 2) 4))) (cM (cN 4) (cW (cV 2) 6)))))))) (cD (cM (cM (cM (cH 1) (cA (cN 3) (cM (cN 2) (cH 1)))) (cV 2)) (cA (cR (cD (cA (cN 1) (cM (cN 2) (cV 2))) (cA (cA (cA (cN 1) (cH 1)) (cV 2)) (cM (cH 1) (cV 2))))) (cR (cD (cA (cA (cN 1) (cM (cN 3) (cV 2))) (cM (cN 2) (cW (cV 2) 4))) (cA (cN 1) (cH 1)))))) (cM (cM (cA (cN 1) (cH 1)) (cA (cN 1) (cV 2))) (cR (cM (cM (cH 1) (cV 2)) (cA (cN 3) (cM (cN 2) (cV 2)))))))) (cM (cN 2) (cR (cN 2)))).
Definition QST_e1150 := (cD (cB (cA (cA (cA (cD (cM (cM (cM (cN (-2)) (cH 1)) (cA (cN 2) (cV 2))) (cA (cN 1) (cM (cN 2) (cV 2)))) (cM (cA (cN 1) (cV 2)) (cR (cM (cM (cM (cH 1) (cW (cA (cN 1) (cH 1)) 6)) (cW (cA (cN 3) (cM (cN 2) (cV 2))) 4)) (cA (cA (cN 2) (cM (cN 3) (cV 2))) (cW (cV 2) 4)))))) (cD (cM (cM (cA (cN 3) (cM (cN 2) (cH 1))) (cR (cD (cH 1) (cA (cA (cN 2) (cM (cN 3) (cV 2))) (cW (cV 2) 4))))) (cA (cA (cN 2) (cM (cN 5) (cV 2))) (cM (cN 2) (cW (cV 2) 4)))) (cM (cW (cA (cN 1) (cH 1)) 3) (cA (cA (cN 3) (cM (cN 5) (cV 2))) (cM (cN 2) (cW (cV 2) 4)))))) (cD (cM (cM (cA (cN 3) (cM (cN 2) (cH 1))) (cR (cD (cH 1) (cA (cA (cN 2) (cM (cN 3) (cV 2))) (cW (cV 2) 4))))) (cA (cA (cA (cN 2) (cM (cN 3) (cV 2))) (cM (cN 5) (cW (cV 2) 4))) (cM (cN 2) (cW (cV 2) 6)))) (cM (cW (cA (cN 1) (cH 1)) 3) (cA (cA (cN 3) (cM (cN 5) (cV 2))) (cM (cN 2) (cW (cV 2) 4)))))) (cD (cA (cA (cA (cD (cM (cM (cH 1) (cA (cN 1) (cM (cN 2) (cH 1)))) (cA (cN 1) (cM (cN 2) (cV 2)))) (cR (cD (cM (cA (cN 1) (cH 1)) (cA (cN 2) (cV 2))) (cA (cN 1) (cV 2))))) (cM (cM (cM (cN 2) (cH 1)) (cA (cN 1) (cM (cN 2) (cV 2)))) (cR (cD (cA (cN 1) (cV 2)) (cA (cA (cA (cN 2) (cM (cN 2) (cH 1))) (cV 2)) (cM (cH 1) (cV 2))))))) (cD (cM (cM (cH 1) (cA (cN 1) (cM (cN 2) (cH 1)))) (cA (cN 1) (cM (cN 2) (cV 2)))) (cR (cM (cA (cN 1) (cH 1)) (cA (cA (cN 2) (cM (cN 3) (cV 2))) (cW (cV 2) 4)))))) (cD (cM (cN 2) (cA (cH 1) (cM (cM (cN 2) (cH 1)) (cV 2)))) (cR (cM (cA (cN 1) (cH 1)) (cA (cA (cN 2) (cM (cN 3) (cV 2))) (cW (cV 2) 4)))))) (cM (cM (cR (cH 1)) (cA (cN 1) (cH 1))) (cA (cA (cN 3) (cM (cN 5) (cV 2))) (cM (cN 2) (cW (cV 2) 4)))))) (cD (cM (cH 1) (cA (cD (cB (cN 1) (cV 2)) (cR (cM (cM (cM (cH 1) (cA (cN 1) (cH 1))) (cW (cA (cN 1) (cV 2)) 4)) (cA (cA (cN 6) (cM (cN 7) (cV 2))) (cM (cN 2) (cW (cV 2) 4)))))) (cD (cM (cW (cA (cN 1) (cV 2)) 3) (cA (cN 1) (cM (cN 2) (cV 2)))) (cR (cM (cM (cH 1) (cA (cN 1) (cH 1))) (cA (cA (cA (cN 6) (cM (cN 13) (cV 2))) (cM (cN 9) (cW (cV 2) 4))) (cM (cN 2) (cW (cV 2) 6)))))))) (cR (cM (cW (cA (cN 1) (cH 1)) 4) (cA (cA (cN 3) (cM (cN 5) (cV 2))) (cM (cN 2) (cW (cV 2) 4))))))) (cM (cN 2) (cR (cN 2)))).
Definition QST_e1151 := (cD (cR (cD (cM (cA (cN 3) (cM (cN 2) (cH 1))) (cA (cN (-1)) (cV 2))) (cM (cA (cN 1) (cH 1)) (cV 2)))) (cR (cN 2))).
Definition QST_e1152 := (cD (cA (cR (cD (cM (cA (cA (cN 3) (cM (cN 5) (cH 1))) (cM (cN 2) (cW (cH 1) 4))) (cA (cA (cB (cN (-1)) (cV 2)) (cM (cN 4) (cW (cV 2) 4))) (cM (cN 4) (cW (cV 2) 6)))) (cV 2))) (cR (cM (cM (cA (cA (cN 3) (cM (cN 5) (cH 1))) (cM (cN 2) (cW (cH 1) 4))) (cV 2)) (cA (cA (cB (cN (-1)) (cV 2)) (cM (cN 4) (cW (cV 2) 4))) (cM (cN 4) (cW (cV 2) 6)))))) (cM (cM (cR (cN 2)) (cA (cN 1) (cH 1))) (cA (cA (cN 1) (cM (cN 3) (cV 2))) (cM (cN 2) (cW (cV 2) 4))))).
Definition QST_e1153 := (cB (cA (cB (cD (cO (cM (cA (cD (cR (cD (cA (cN 1) (cM (cN 2) (cH 1))) (cA (cN 1) (cH 1)))) (cR (cN 2))) (cR (cA (cA (cN 2) (cM (cN 6) (cH 1))) (cM (cN 4) (cW (cH 1) 4))))) (cR (cD (cM (cA (cN 1) (cM (cN 2) (cH 1))) (cV 2)) (cM (cA (cN 3) (cM (cN 2) (cH 1))) (cA (cN 1) (cV 2))))))) (cM (cM (cN 2) (cA (cN 1) (cH 1))) (cV 2))) (cD (cR (cD (cM (cA (cN 3) (cM (cN 2) (cH 1))) (cV 2)) (cM (cW (cA (cN 1) (cH 1)) 6) (cA (cN 1) (cV 2))))) (cM (cN 2) (cR (cN 2))))) (cD (cB (cN (-3)) (cM (cN 2) (cH 1))) (cM (cM (cM (cM (cN 2) (cR (cN 2))) (cA (cN 1) (cH 1))) (cV 2)) (cR (cD (cM (cM (cA (cN 1) (cH 1)) (cA (cN 3) (cM (cN 2) (cH 1)))) (cA (cN 1) (cV 2))) (cV 2)))))) (cD (cM (cA (cA (cN 3) (cM (cN 8) (cH 1))) (cM (cN 4) (cW (cH 1) 4))) (cV 2)) (cM (cM (cM (cN 2) (cR (cN 2))) (cA (cN 1) (cH 1))) (cR (cM (cM (cM (cA (cN 1) (cH 1)) (cA (cN 3) (cM (cN 2) (cH 1)))) (cV 2)) (cA (cN 1) (cV 2))))))).
Definition QST_e1154 := (cD (cB (cB (cA (cB (cA (cD (cM (cM (cN (-2)) (cA (cA (cN 3) (cM (cN 8) (cH 1))) (cM (cN 4) (cW (cH 1) 4)))) (cR (cD (cV 2) (cA (cA (cN 3) (cM (cN 5) (cH 1))) (cM (cN 2) (cW (cH 1) 4)))))) (cM (cA (cN 1) (cH 1)) (cW (cA (cN 1) (cV 2)) 3))) (cD (cM (cM (cM (cN 2) (cR (cA (cN 3) (cM (cN 2) (cH 1))))) (cA (cN (-1)) (cV 2))) (cV 2)) (cW (cM (cM (cA (cN 1) (cH 1)) (cV 2)) (cA (cN 1) (cV 2))) 3))) (cD (cM (cM (cN 2) (cR (cA (cN 3) (cM (cN 2) (cH 1))))) (cW (cV 2) 4)) (cW (cM (cM (cA (cN 1) (cH 1)) (cV 2)) (cA (cN 1) (cV 2))) 3))) (cD (cM (cM (cN 2) (cA (cR (cD (cA (cN 1) (cM (cN 2) (cH 1))) (cA (cN 1) (cH 1)))) (cM (cN 2) (cR (cA (cA (cN 1) (cM (cN 3) (cH 1))) (cM (cN 2) (cW (cH 1) 4))))))) (cA (cN (-1)) (cV 2))) (cM (cM (cA (cN 1) (cH 1)) (cA (cN 1) (cV 2))) (cR (cD (cM (cM (cA (cN 3) (cM (cN 2) (cH 1))) (cV 2)) (cA (cN 1) (cV 2))) (cA (cN 1) (cM (cN 2) (cH 1)))))))) (cD (cM (cM (cA (cN 6) (cM (cN 4) (cH 1))) (cA (cA (cN 3) (cM (cN 8) (cH 1))) (cM (cN 4) (cW (cH 1) 4)))) (cW (cV 2) 4)) (cW (cM (cM (cA (cA (cN 3) (cM (cN 5) (cH 1))) (cM (cN 2) (cW (cH 1) 4))) (cV 2)) (cA (cN 1) (cV 2))) 3))) (cD (cM (cM (cN 2) (cA (cN 3) (cM (cN 2) (cH 1)))) (cV 2)) (cM (cM (cA (cN 1) (cH 1)) (cA (cN 1) (cV 2))) (cR (cM (cM (cA (cA (cN 3) (cM (cN 5) (cH 1))) (cM (cN 2) (cW (cH 1) 4))) (cV 2)) (cA (cN 1) (cV 2))))))) (cM (cN 4) (cR (cN 2)))).
Definition QST_e1155 := (cD (cA (cA (cB (cA (cA (cO (cD (cR (cD (cM (cA (cN 3) (cM (cN 2) (cH 1))) (cV 2)) (cM (cW (cA (cN 1) (cH 1)) 6) (cW (cA (cN 1) (cV 2)) 6)))) (cA (cN 3) (cM (cN 2) (cV 2))))) (cD (cM (cM (cN 2) (cA (cN 3) (cM (cN 2) (cH 1)))) (cV 2)) (cM (cM (cM (cA (cN 1) (cH 1)) (cA (cN 1) (cV 2))) (cR (cM (cM (cA (cA (cN 3) (cM (cN 5) (cH 1))) (cM (cN 2) (cW (cH 1) 4))) (cV 2)) (cA (cN 1) (cV 2))))) (cA (cN 3) (cM (cN 2) (cV 2)))))) (cD (cM (cM (cN 2) (cA (cR (cD (cA (cN 1) (cM (cN 2) (cH 1))) (cA (cN 1) (cH 1)))) (cM (cN 2) (cR (cA (cA (cN 1) (cM (cN 3) (cH 1))) (cM (cN 2) (cW (cH 1) 4))))))) (cV 2)) (cM (cM (cA (cN 1) (cH 1)) (cA (cN 1) (cV 2))) (cR (cD (cM (cM (cM (cA (cN 3) (cM (cN 2) (cH 1))) (cV 2)) (cA (cN 1) (cV 2))) (cW (cA (cN 3) (cM (cN 2) (cV 2))) 4)) (cA (cN 1) (cM (cN 2) (cH 1)))))))) (cD (cM (cA (cA (cN 3) (cM (cN 8) (cH 1))) (cM (cN 4) (cW (cH 1) 4))) (cV 2)) (cM (cA (cN 1) (cH 1)) (cR (cM (cM (cM (cA (cA (cN 3) (cM (cN 5) (cH 1))) (cM (cN 2) (cW (cH 1) 4))) (cV 2)) (cW (cA (cN 1) (cV 2)) 6)) (cW (cA (cN 3) (cM (cN 2) (cV 2))) 4)))))) (cD (cM (cM (cA (cN 1) (cM (cN 2) (cV 2))) (cR (cD (cA (cN 3) (cM (cN 2) (cH 1))) (cA (cN 3) (cM (cN 2) (cV 2)))))) (cA (cR (cD (cM (cV 2) (cA (cN 1) (cV 2))) (cM (cA (cN 1) (cH 1)) (cA (cN 3) (cM (cN 2) (cV 2)))))) (cR (cD (cV 2) (cM (cA (cN 1) (cH 1)) (cA (cA (cN 3) (cM (cN 5) (cV 2))) (cM (cN 2) (cW (cV 2) 4)))))))) (cM (cA (cN 1) (cH 1)) (cA (cN 1) (cV 2))))) (cD (cM (cM (cA (cN 1) (cM (cN 2) (cH 1))) (cV 2)) (cA (cA (cA (cM (cN 2) (cR (cD (cM (cM (cA (cN 1) (cH 1)) (cA (cN 1) (cV 2))) (cW (cA (cN 1) (cM (cN 2) (cV 2))) 4)) (cA (cN 3) (cM (cN 2) (cV 2)))))) (cD (cA (cN 1) (cM (cN 2) (cV 2))) (cR (cD (cM (cA (cN 1) (cH 1)) (cA (cN 3) (cM (cN 2) (cV 2)))) (cA (cN 1) (cV 2)))))) (cM (cM (cN 2) (cA (cN 1) (cM (cN 2) (cV 2)))) (cR (cD (cA (cN 1) (cH 1)) (cA (cA (cN 3) (cM (cN 5) (cV 2))) (cM (cN 2) (cW (cV 2) 4))))))) (cD (cA (cN 1) (cM (cN 2) (cV 2))) (cR (cM (cA (cN 1) (cH 1)) (cA (cA (cN 3) (cM (cN 5) (cV 2))) (cM (cN 2) (cW (cV 2) 4)))))))) (cM (cM (cA (cN 1) (cH 1)) (cA (cN 1) (cV 2))) (cR (cM (cM (cA (cN 3) (cM (cN 2) (cH 1))) (cV 2)) (cA (cN 3) (cM (cN 2) (cV 2)))))))) (cM (cN 2) (cR (cN 2)))).
Definition QST_e1156 := (cD (cB (cB (cB (cA (cA (cO (cD (cM (cM (cA (cN 1) (cH 1)) (cA (cN 3) (cM (cN 2) (cH 1)))) (cA (cN 2) (cV 2))) (cM (cW (cA (cN 1) (cV 2)) 4) (cR (cD (cM (cA (cA (cN 3) (cM (cN 5) (cH 1))) (cM (cN 2) (cW (cH 1) 4))) (cA (cN 3) (cM (cN 2) (cV 2)))) (cM (cV 2) (cA (cA (cN 1) (cM (cN 3) (cV 2))) (cM (cN 2) (cW (cV 2) 4))))))))) (cD (cM (cM (cA (cN 1) (cH 1)) (cA (cN 3) (cM (cN 2) (cH 1)))) (cV 2)) (cR (cM (cM (cM (cA (cA (cN 3) (cM (cN 5) (cH 1))) (cM (cN 2) (cW (cH 1) 4))) (cV 2)) (cW (cA (cN 1) (cV 2)) 6)) (cA (cA (cN 3) (cM (cN 8) (cV 2))) (cM (cN 4) (cW (cV 2) 4))))))) (cD (cM (cM (cA (cN 1) (cH 1)) (cA (cA (cN 3) (cM (cN 8) (cH 1))) (cM (cN 4) (cW (cH 1) 4)))) (cV 2)) (cR (cM (cM (cM (cA (cA (cN 3) (cM (cN 5) (cH 1))) (cM (cN 2) (cW (cH 1) 4))) (cV 2)) (cW (cA (cN 1) (cV 2)) 6)) (cA (cA (cN 3) (cM (cN 8) (cV 2))) (cM (cN 4) (cW (cV 2) 4))))))) (cD (cM (cM (cM (cN 2) (cA (cN 1) (cH 1))) (cA (cR (cD (cA (cN 1) (cM (cN 2) (cH 1))) (cA (cN 1) (cH 1)))) (cM (cN 2) (cR (cA (cA (cN 1) (cM (cN 3) (cH 1))) (cM (cN 2) (cW (cH 1) 4))))))) (cV 2)) (cM (cA (cN 1) (cV 2)) (cR (cD (cM (cM (cA (cN 3) (cM (cN 2) (cH 1))) (cV 2)) (cA (cA (cA (cN 3) (cM (cN 11) (cV 2))) (cM (cN 12) (cW (cV 2) 4))) (cM (cN 4) (cW (cV 2) 6)))) (cA (cN 1) (cM (cN 2) (cH 1)))))))) (cD (cM (cM (cM (cN 2) (cA (cN 1) (cH 1))) (cA (cN 3) (cM (cN 2) (cH 1)))) (cV 2)) (cM (cA (cN 1) (cV 2)) (cR (cM (cM (cA (cA (cN 3) (cM (cN 5) (cH 1))) (cM (cN 2) (cW (cH 1) 4))) (cV 2)) (cA (cA (cA (cN 3) (cM (cN 11) (cV 2))) (cM (cN 12) (cW (cV 2) 4))) (cM (cN 4) (cW (cV 2) 6)))))))) (cD (cM (cM (cM (cA (cN 1) (cM (cN 2) (cH 1))) (cV 2)) (cA (cN 1) (cM (cN 2) (cV 2)))) (cA (cA (cA (cM (cN 2) (cR (cD (cM (cW (cA (cN 1) (cH 1)) 6) (cA (cN 1) (cV 2))) (cM (cV 2) (cA (cN 1) (cM (cN 2) (cV 2))))))) (cR (cD (cA (cA (cA (cN 1) (cH 1)) (cV 2)) (cM (cH 1) (cV 2))) (cA (cV 2) (cM (cN 2) (cW (cV 2) 4)))))) (cM (cN 2) (cR (cD (cW (cA (cN 1) (cH 1)) 6) (cM (cV 2) (cA (cA (cN 1) (cM (cN 3) (cV 2))) (cM (cN 2) (cW (cV 2) 4)))))))) (cR (cD (cA (cN 1) (cH 1)) (cA (cA (cV 2) (cM (cN 3) (cW (cV 2) 4))) (cM (cN 2) (cW (cV 2) 6))))))) (cM (cA (cN 1) (cV 2)) (cR (cM (cA (cN 3) (cM (cN 2) (cH 1))) (cA (cN 3) (cM (cN 2) (cV 2)))))))) (cM (cM (cN 2) (cR (cN 2))) (cW (cA (cN 1) (cH 1)) 4))).
Definition QST_e1157 := (cD (cB (cB (cB (cB (cB (cO (cD (cM (cM (cA (cR (cD (cA (cN 1) (cM (cN 2) (cH 1))) (cA (cN 1) (cH 1)))) (cM (cN 2) (cR (cA (cA (cN 1) (cM (cN 3) (cH 1))) (cM (cN 2) (cW (cH 1) 4)))))) (cA (cN 1) (cM (cN 2) (cV 2)))) (cR (cD (cM (cA (cN 1) (cM (cN 2) (cH 1))) (cA (cA (cN 2) (cM (cN 3) (cV 2))) (cW (cV 2) 4))) (cA (cN 3) (cM (cN 2) (cH 1)))))) (cM (cM (cA (cN 1) (cH 1)) (cW (cA (cN 1) (cV 2)) 4)) (cA (cN 3) (cM (cN 2) (cV 2)))))) (cD (cM (cA (cN 1) (cM (cN 2) (cV 2))) (cR (cM (cA (cN 3) (cM (cN 2) (cH 1))) (cA (cA (cN 2) (cM (cN 3) (cV 2))) (cW (cV 2) 4))))) (cM (cM (cW (cA (cN 1) (cH 1)) 3) (cW (cA (cN 1) (cV 2)) 4)) (cA (cN 3) (cM (cN 2) (cV 2)))))) (cD (cM (cR (cD (cA (cN 3) (cM (cN 2) (cH 1))) (cA (cA (cN 2) (cM (cN 3) (cV 2))) (cW (cV 2) 4)))) (cA (cA (cA (cN 2) (cM (cN 3) (cV 2))) (cM (cN 5) (cW (cV 2) 4))) (cM (cN 2) (cW (cV 2) 6)))) (cM (cW (cA (cN 1) (cH 1)) 3) (cA (cA (cN 3) (cM (cN 5) (cV 2))) (cM (cN 2) (cW (cV 2) 4)))))) (cD (cM (cA (cR (cD (cA (cN 1) (cM (cN 2) (cH 1))) (cA (cN 1) (cH 1)))) (cM (cN 2) (cR (cA (cA (cN 1) (cM (cN 3) (cH 1))) (cM (cN 2) (cW (cH 1) 4)))))) (cA (cA (cA (cN 2) (cM (cN 3) (cV 2))) (cM (cN 5) (cW (cV 2) 4))) (cM (cN 2) (cW (cV 2) 6)))) (cM (cM (cA (cN 1) (cH 1)) (cR (cD (cM (cA (cN 3) (cM (cN 2) (cH 1))) (cA (cA (cN 2) (cM (cN 3) (cV 2))) (cW (cV 2) 4))) (cA (cN 1) (cM (cN 2) (cH 1)))))) (cA (cA (cN 3) (cM (cN 5) (cV 2))) (cM (cN 2) (cW (cV 2) 4)))))) (cD (cM (cM (cA (cR (cD (cA (cN 1) (cM (cN 2) (cH 1))) (cA (cN 1) (cH 1)))) (cM (cN 2) (cR (cA (cA (cN 1) (cM (cN 3) (cH 1))) (cM (cN 2) (cW (cH 1) 4)))))) (cR (cD (cM (cA (cN 1) (cM (cN 2) (cH 1))) (cA (cN 1) (cM (cN 2) (cV 2)))) (cA (cN 3) (cM (cN 2) (cH 1)))))) (cA (cR (cD (cA (cN 1) (cM (cN 2) (cV 2))) (cA (cA (cN 2) (cM (cN 3) (cV 2))) (cW (cV 2) 4)))) (cR (cD (cA (cA (cN 1) (cM (cN 3) (cV 2))) (cM (cN 2) (cW (cV 2) 4))) (cA (cN 2) (cV 2)))))) (cM (cA (cN 1) (cH 1)) (cA (cA (cN 3) (cM (cN 5) (cV 2))) (cM (cN 2) (cW (cV 2) 4)))))) (cD (cM (cR (cM (cA (cN 3) (cM (cN 2) (cH 1))) (cA (cN 1) (cM (cN 2) (cV 2))))) (cA (cR (cD (cA (cN 1) (cM (cN 2) (cV 2))) (cA (cA (cN 2) (cM (cN 3) (cV 2))) (cW (cV 2) 4)))) (cR (cD (cA (cA (cN 1) (cM (cN 3) (cV 2))) (cM (cN 2) (cW (cV 2) 4))) (cA (cN 2) (cV 2)))))) (cM (cW (cA (cN 1) (cH 1)) 3) (cA (cA (cN 3) (cM (cN 5) (cV 2))) (cM (cN 2) (cW (cV 2) 4)))))) (cM (cN 2) (cR (cN 2)))).
Definition QST_e1158 := (cO (cD (cM (cM (cR (cN 2)) (cH 1)) (cA (cN (-1)) (cM (cN 2) (cV 2)))) (cR (cM (cM (cH 1) (cA (cN 1) (cM (cN 2) (cH 1)))) (cA (cN (-1)) (cM (cN 4) (cW (cV 2) 4))))))).
Definition QST_e1159 := (cO (cD (cM (cM (cR (cN 2)) (cH 1)) (cA (cN 3) (cM (cN 2) (cV 2)))) (cR (cM (cM (cH 1) (cA (cN 1) (cM (cN 2) (cH 1)))) (cA (cA (cN 3) (cM (cN 8) (cV 2))) (cM (cN 4) (cW (cV 2) 4))))))).
Definition QST_e1160 := (cD (cM (cM (cR (cN 2)) (cA (cN 1) (cH 1))) (cA (cN (-1)) (cM (cN 2) (cV 2)))) (cR (cM (cA (cA (cN 1) (cM (cN 3) (cH 1))) (cM (cN 2) (cW (cH 1) 4))) (cA (cN (-1)) (cM (cN 4) (cW (cV 2) 4)))))).
Definition QST_e1161 := (cD (cA (cA (cA (cA (cA (cR (cD (cM (cA (cN 1) (cM (cN 2) (cH 1))) (cA (cN 1) (cM (cN 2) (cV 2)))) (cM (cA (cN 1) (cH 1)) (cA (cN 3) (cM (cN 2) (cV 2)))))) (cD (cR (cD (cM (cA (cN 1) (cM (cN 2) (cH 1))) (cA (cN 1) (cM (cN 2) (cV 2)))) (cM (cA (cN 1) (cH 1)) (cA (cN 3) (cM (cN 2) (cV 2)))))) (cA (cN 1) (cV 2)))) (cD (cN 1) (cR (cD (cM (cA (cA (cN 1) (cM (cN 3) (cH 1))) (cM (cN 2) (cW (cH 1) 4))) (cA (cN 3) (cM (cN 2) (cV 2)))) (cA (cN 1) (cM (cN 2) (cV 2))))))) (cD (cN 1) (cR (cD (cM (cM (cA (cA (cN 1) (cM (cN 3) (cH 1))) (cM (cN 2) (cW (cH 1) 4))) (cW (cA (cN 1) (cV 2)) 4)) (cA (cN 3) (cM (cN 2) (cV 2)))) (cA (cN 1) (cM (cN 2) (cV 2))))))) (cD (cN 1) (cM (cA (cN 1) (cV 2)) (cR (cM (cA (cA (cN 1) (cM (cN 3) (cH 1))) (cM (cN 2) (cW (cH 1) 4))) (cA (cA (cN 3) (cM (cN 8) (cV 2))) (cM (cN 4) (cW (cV 2) 4)))))))) (cD (cN 1) (cR (cD (cM (cM (cA (cN 1) (cH 1)) (cW (cA (cN 1) (cV 2)) 4)) (cA (cA (cN 3) (cM (cN 8) (cV 2))) (cM (cN 4) (cW (cV 2) 4)))) (cA (cN 1) (cM (cN 2) (cH 1))))))) (cR (cN 2))).

(** /repo/c++/symmetry/nrg-recalc-QST.hpp recalc_doublet, qst/qst-doubletp-1.dat *)
Definition qst_t0 : ten_table := mk_ten "doublet" [ShLin 0%nat 1 (-1); ShLin 1%nat 1 1; ShLin 2%nat 1 (-1)] [1; 2; 1] [
  (1, 1, [ShLin 0%nat 1 3; ShLin 1%nat 1 0; ShLin 2%nat 1 0], [ShLin 0%nat 1 2; ShLin 1%nat 1 1; ShLin 2%nat 1 (-1)], Some (cN 1));
  (2, 2, [ShLin 0%nat 1 2; ShLin 1%nat 1 (-1); ShLin 2%nat 1 (-1)], [ShLin 0%nat 1 1; ShLin 1%nat 1 0; ShLin 2%nat 1 (-2)], Some QST_e0);
  (2, 3, [ShLin 0%nat 1 2; ShLin 1%nat 1 (-1); ShLin 2%nat 1 (-1)], [ShLin 0%nat 1 1; ShLin 1%nat 1 0; ShLin 2%nat 1 (-1)], Some QST_e1);
  (2, 4, [ShLin 0%nat 1 2; ShLin 1%nat 1 (-1); ShLin 2%nat 1 (-1)], [ShLin 0%nat 1 1; ShLin 1%nat 1 0; ShLin 2%nat 1 0], Some QST_e2);
  (3, 3, [ShLin 0%nat 1 2; ShLin 1%nat 1 (-1); ShLin 2%nat 1 0], [ShLin 0%nat 1 1; ShLin 1%nat 1 0; ShLin 2%nat 1 (-1)], Some QST_e3);
  (3, 4, [ShLin 0%nat 1 2; ShLin 1%nat 1 (-1); ShLin 2%nat 1 0], [ShLin 0%nat 1 1; ShLin 1%nat 1 0; ShLin 2%nat 1 0], Some QST_e4);
  (4, 4, [ShLin 0%nat 1 2; ShLin 1%nat 1 (-1); ShLin 2%nat 1 1], [ShLin 0%nat 1 1; ShLin 1%nat 1 0; ShLin 2%nat 1 0], Some QST_e5);
  (5, 2, [ShLin 0%nat 1 2; ShLin 1%nat 1 1; ShLin 2%nat 1 (-1)], [ShLin 0%nat 1 1; ShLin 1%nat 1 0; ShLin 2%nat 1 (-2)], Some QST_e6);
  (5, 3, [ShLin 0%nat 1 2; ShLin 1%nat 1 1; ShLin 2%nat 1 (-1)], [ShLin 0%nat 1 1; ShLin 1%nat 1 0; ShLin 2%nat 1 (-1)], Some QST_e7);
  (5, 4, [ShLin 0%nat 1 2; ShLin 1%nat 1 1; ShLin 2%nat 1 (-1)], [ShLin 0%nat 1 1; ShLin 1%nat 1 0; ShLin 2%nat 1 0], Some QST_e8);
  (5, 5, [ShLin 0%nat 1 2; ShLin 1%nat 1 1; ShLin 2%nat 1 (-1)], [ShLin 0%nat 1 1; ShLin 1%nat 1 2; ShLin 2%nat 1 (-2)], Some (cN (-1)));
  (5, 6, [ShLin 0%nat 1 2; ShLin 1%nat 1 1; ShLin 2%nat 1 (-1)], [ShLin 0%nat 1 1; ShLin 1%nat 1 2; ShLin 2%nat 1 (-1)], Some (cO (cD (cN 1) (cV 2))));
  (5, 7, [ShLin 0%nat 1 2; ShLin 1%nat 1 1; ShLin 2%nat 1 (-1)], [ShLin 0%nat 1 1; ShLin 1%nat 1 2; ShLin 2%nat 1 0], Some QST_e9);
  (6, 3, [ShLin 0%nat 1 2; ShLin 1%nat 1 1; ShLin 2%nat 1 0], [ShLin 0%nat 1 1; ShLin 1%nat 1 0; ShLin 2%nat 1 (-1)], Some QST_e10);
  (6, 4, [ShLin 0%nat 1 2; ShLin 1%nat 1 1; ShLin 2%nat 1 0], [ShLin 0%nat 1 1; ShLin 1%nat 1 0; ShLin 2%nat 1 0], Some QST_e11);
  (6, 6, [ShLin 0%nat 1 2; ShLin 1%nat 1 1; ShLin 2%nat 1 0], [ShLin 0%nat 1 1; ShLin 1%nat 1 2; ShLin 2%nat 1 (-1)], Some QST_e12);
  (6, 7, [ShLin 0%nat 1 2; ShLin 1%nat 1 1; ShLin 2%nat 1 0], [ShLin 0%nat 1 1; ShLin 1%nat 1 2; ShLin 2%nat 1 0], Some QST_e13);
  (7, 4, [ShLin 0%nat 1 2; ShLin 1%nat 1 1; ShLin 2%nat 1 1], [ShLin 0%nat 1 1; ShLin 1%nat 1 0; ShLin 2%nat 1 0], Some QST_e14);
  (7, 7, [ShLin 0%nat 1 2; ShLin 1%nat 1 1; ShLin 2%nat 1 1], [ShLin 0%nat 1 1; ShLin 1%nat 1 2; ShLin 2%nat 1 0], Some QST_e15);
  (8, 8, [ShLin 0%nat 1 1; ShLin 1%nat 1 0; ShLin 2%nat 1 0], [ShLin 0%nat 1 0; ShLin 1%nat 1 1; ShLin 2%nat 1 (-1)], Some (cN 1));
  (9, 9, [ShLin 0%nat 1 1; ShLin 1%nat 1 0; ShLin 2%nat 1 (-2)], [ShLin 0%nat 1 0; ShLin 1%nat 1 1; ShLin 2%nat 1 (-3)], Some (cN 1));
  (9, 10, [ShLin 0%nat 1 1; ShLin 1%nat 1 0; ShLin 2%nat 1 (-2)], [ShLin 0%nat 1 0; ShLin 1%nat 1 1; ShLin 2%nat 1 (-2)], Some QST_e16);
  (9, 11, [ShLin 0%nat 1 1; ShLin 1%nat 1 0; ShLin 2%nat 1 (-2)], [ShLin 0%nat 1 0; ShLin 1%nat 1 1; ShLin 2%nat 1 (-1)], Some QST_e17);
  (10, 10, [ShLin 0%nat 1 1; ShLin 1%nat 1 0; ShLin 2%nat 1 (-1)], [ShLin 0%nat 1 0; ShLin 1%nat 1 1; ShLin 2%nat 1 (-2)], Some QST_e18);
  (10, 11, [ShLin 0%nat 1 1; ShLin 1%nat 1 0; ShLin 2%nat 1 (-1)], [ShLin 0%nat 1 0; ShLin 1%nat 1 1; ShLin 2%nat 1 (-1)], Some QST_e19);
  (10, 12, [ShLin 0%nat 1 1; ShLin 1%nat 1 0; ShLin 2%nat 1 (-1)], [ShLin 0%nat 1 0; ShLin 1%nat 1 1; ShLin 2%nat 1 0], Some QST_e20);
  (11, 11, [ShLin 0%nat 1 1; ShLin 1%nat 1 0; ShLin 2%nat 1 0], [ShLin 0%nat 1 0; ShLin 1%nat 1 1; ShLin 2%nat 1 (-1)], Some QST_e21);
  (11, 12, [ShLin 0%nat 1 1; ShLin 1%nat 1 0; ShLin 2%nat 1 0], [ShLin 0%nat 1 0; ShLin 1%nat 1 1; ShLin 2%nat 1 0], Some QST_e22);
  (11, 13, [ShLin 0%nat 1 1; ShLin 1%nat 1 0; ShLin 2%nat 1 0], [ShLin 0%nat 1 0; ShLin 1%nat 1 1; ShLin 2%nat 1 1], Some QST_e23);
  (12, 12, [ShLin 0%nat 1 1; ShLin 1%nat 1 0; ShLin 2%nat 1 1], [ShLin 0%nat 1 0; ShLin 1%nat 1 1; ShLin 2%nat 1 0], Some QST_e24);
  (12, 13, [ShLin 0%nat 1 1; ShLin 1%nat 1 0; ShLin 2%nat 1 1], [ShLin 0%nat 1 0; ShLin 1%nat 1 1; ShLin 2%nat 1 1], Some QST_e25);
  (13, 13, [ShLin 0%nat 1 1; ShLin 1%nat 1 0; ShLin 2%nat 1 2], [ShLin 0%nat 1 0; ShLin 1%nat 1 1; ShLin 2%nat 1 1], Some QST_e26);
  (14, 14, [ShLin 0%nat 1 1; ShLin 1%nat 1 (-2); ShLin 2%nat 1 (-1)], [ShLin 0%nat 1 0; ShLin 1%nat 1 (-1); ShLin 2%nat 1 (-2)], Some QST_e27);
  (14, 15, [ShLin 0%nat 1 1; ShLin 1%nat 1 (-2); ShLin 2%nat 1 (-1)], [ShLin 0%nat 1 0; ShLin 1%nat 1 (-1); ShLin 2%nat 1 (-1)], Some QST_e28);
  (14, 16, [ShLin 0%nat 1 1; ShLin 1%nat 1 (-2); ShLin 2%nat 1 (-1)], [ShLin 0%nat 1 0; ShLin 1%nat 1 (-1); ShLin 2%nat 1 0], Some QST_e29);
  (15, 15, [ShLin 0%nat 1 1; ShLin 1%nat 1 (-2); ShLin 2%nat 1 0], [ShLin 0%nat 1 0; ShLin 1%nat 1 (-1); ShLin 2%nat 1 (-1)], Some QST_e30);
  (15, 16, [ShLin 0%nat 1 1; ShLin 1%nat 1 (-2); ShLin 2%nat 1 0], [ShLin 0%nat 1 0; ShLin 1%nat 1 (-1); ShLin 2%nat 1 0], Some QST_e31);
  (16, 16, [ShLin 0%nat 1 1; ShLin 1%nat 1 (-2); ShLin 2%nat 1 1], [ShLin 0%nat 1 0; ShLin 1%nat 1 (-1); ShLin 2%nat 1 0], Some QST_e32);
  (17, 14, [ShLin 0%nat 1 1; ShLin 1%nat 1 0; ShLin 2%nat 1 (-1)], [ShLin 0%nat 1 0; ShLin 1%nat 1 (-1); ShLin 2%nat 1 (-2)], Some QST_e33);
  (17, 15, [ShLin 0%nat 1 1; ShLin 1%nat 1 0; ShLin 2%nat 1 (-1)], [ShLin 0%nat 1 0; ShLin 1%nat 1 (-1); ShLin 2%nat 1 (-1)], Some QST_e34);
  (17, 16, [ShLin 0%nat 1 1; ShLin 1%nat 1 0; ShLin 2%nat 1 (-1)], [ShLin 0%nat 1 0; ShLin 1%nat 1 (-1); ShLin 2%nat 1 0], Some QST_e35);
  (17, 17, [ShLin 0%nat 1 1; ShLin 1%nat 1 0; ShLin 2%nat 1 (-1)], [ShLin 0%nat 1 0; ShLin 1%nat 1 1; ShLin 2%nat 1 (-2)], Some QST_e36);
  (17, 18, [ShLin 0%nat 1 1; ShLin 1%nat 1 0; ShLin 2%nat 1 (-1)], [ShLin 0%nat 1 0; ShLin 1%nat 1 1; ShLin 2%nat 1 (-1)], Some QST_e37);
  (17, 19, [ShLin 0%nat 1 1; ShLin 1%nat 1 0; ShLin 2%nat 1 (-1)], [ShLin 0%nat 1 0; ShLin 1%nat 1 1; ShLin 2%nat 1 0], Some QST_e38);
  (18, 15, [ShLin 0%nat 1 1; ShLin 1%nat 1 0; ShLin 2%nat 1 0], [ShLin 0%nat 1 0; ShLin 1%nat 1 (-1); ShLin 2%nat 1 (-1)], Some QST_e39);
  (18, 16, [ShLin 0%nat 1 1; ShLin 1%nat 1 0; ShLin 2%nat 1 0], [ShLin 0%nat 1 0; ShLin 1%nat 1 (-1); ShLin 2%nat 1 0], Some QST_e40);
  (18, 18, [ShLin 0%nat 1 1; ShLin 1%nat 1 0; ShLin 2%nat 1 0], [ShLin 0%nat 1 0; ShLin 1%nat 1 1; ShLin 2%nat 1 (-1)], Some QST_e41);
  (18, 19, [ShLin 0%nat 1 1; ShLin 1%nat 1 0; ShLin 2%nat 1 0], [ShLin 0%nat 1 0; ShLin 1%nat 1 1; ShLin 2%nat 1 0], Some QST_e42);
  (19, 16, [ShLin 0%nat 1 1; ShLin 1%nat 1 0; ShLin 2%nat 1 1], [ShLin 0%nat 1 0; ShLin 1%nat 1 (-1); ShLin 2%nat 1 0], Some QST_e43);
  (19, 19, [ShLin 0%nat 1 1; ShLin 1%nat 1 0; ShLin 2%nat 1 1], [ShLin 0%nat 1 0; ShLin 1%nat 1 1; ShLin 2%nat 1 0], Some QST_e44);
  (20, 17, [ShLin 0%nat 1 1; ShLin 1%nat 1 2; ShLin 2%nat 1 (-1)], [ShLin 0%nat 1 0; ShLin 1%nat 1 1; ShLin 2%nat 1 (-2)], Some QST_e45);
  (20, 18, [ShLin 0%nat 1 1; ShLin 1%nat 1 2; ShLin 2%nat 1 (-1)], [ShLin 0%nat 1 0; ShLin 1%nat 1 1; ShLin 2%nat 1 (-1)], Some QST_e46);
  (20, 19, [ShLin 0%nat 1 1; ShLin 1%nat 1 2; ShLin 2%nat 1 (-1)], [ShLin 0%nat 1 0; ShLin 1%nat 1 1; ShLin 2%nat 1 0], Some QST_e47);
  (20, 20, [ShLin 0%nat 1 1; ShLin 1%nat 1 2; ShLin 2%nat 1 (-1)], [ShLin 0%nat 1 0; ShLin 1%nat 1 3; ShLin 2%nat 1 (-2)], Some (cN 1));
  (20, 21, [ShLin 0%nat 1 1; ShLin 1%nat 1 2; ShLin 2%nat 1 (-1)], [ShLin 0%nat 1 0; ShLin 1%nat 1 3; ShLin 2%nat 1 (-1)], Some (cD (cN 1) (cV 2)));
  (20, 22, [ShLin 0%nat 1 1; ShLin 1%nat 1 2; ShLin 2%nat 1 (-1)], [ShLin 0%nat 1 0; ShLin 1%nat 1 3; ShLin 2%nat 1 0], Some QST_e48);
  (21, 18, [ShLin 0%nat 1 1; ShLin 1%nat 1 2; ShLin 2%nat 1 0], [ShLin 0%nat 1 0; ShLin 1%nat 1 1; ShLin 2%nat 1 (-1)], Some QST_e49);
  (21, 19, [ShLin 0%nat 1 1; ShLin 1%nat 1 2; ShLin 2%nat 1 0], [ShLin 0%nat 1 0; ShLin 1%nat 1 1; ShLin 2%nat 1 0], Some QST_e50);
  (21, 21, [ShLin 0%nat 1 1; ShLin 1%nat 1 2; ShLin 2%nat 1 0], [ShLin 0%nat 1 0; ShLin 1%nat 1 3; ShLin 2%nat 1 (-1)], Some QST_e51);
  (21, 22, [ShLin 0%nat 1 1; ShLin 1%nat 1 2; ShLin 2%nat 1 0], [ShLin 0%nat 1 0; ShLin 1%nat 1 3; ShLin 2%nat 1 0], Some QST_e52);
  (22, 19, [ShLin 0%nat 1 1; ShLin 1%nat 1 2; ShLin 2%nat 1 1], [ShLin 0%nat 1 0; ShLin 1%nat 1 1; ShLin 2%nat 1 0], Some QST_e53);
  (22, 22, [ShLin 0%nat 1 1; ShLin 1%nat 1 2; ShLin 2%nat 1 1], [ShLin 0%nat 1 0; ShLin 1%nat 1 3; ShLin 2%nat 1 0], Some QST_e54);
  (23, 23, [ShLin 0%nat 1 0; ShLin 1%nat 1 (-1); ShLin 2%nat 1 (-1)], [ShLin 0%nat 1 (-1); ShLin 1%nat 1 0; ShLin 2%nat 1 (-2)], Some QST_e0);
  (23, 24, [ShLin 0%nat 1 0; ShLin 1%nat 1 (-1); ShLin 2%nat 1 (-1)], [ShLin 0%nat 1 (-1); ShLin 1%nat 1 0; ShLin 2%nat 1 (-1)], Some QST_e1);
  (23, 25, [ShLin 0%nat 1 0; ShLin 1%nat 1 (-1); ShLin 2%nat 1 (-1)], [ShLin 0%nat 1 (-1); ShLin 1%nat 1 0; ShLin 2%nat 1 0], Some QST_e2);
  (24, 24, [ShLin 0%nat 1 0; ShLin 1%nat 1 (-1); ShLin 2%nat 1 0], [ShLin 0%nat 1 (-1); ShLin 1%nat 1 0; ShLin 2%nat 1 (-1)], Some QST_e3);
  (24, 25, [ShLin 0%nat 1 0; ShLin 1%nat 1 (-1); ShLin 2%nat 1 0], [ShLin 0%nat 1 (-1); ShLin 1%nat 1 0; ShLin 2%nat 1 0], Some QST_e4);
  (25, 25, [ShLin 0%nat 1 0; ShLin 1%nat 1 (-1); ShLin 2%nat 1 1], [ShLin 0%nat 1 (-1); ShLin 1%nat 1 0; ShLin 2%nat 1 0], Some QST_e5);
  (26, 23, [ShLin 0%nat 1 0; ShLin 1%nat 1 1; ShLin 2%nat 1 (-1)], [ShLin 0%nat 1 (-1); ShLin 1%nat 1 0; ShLin 2%nat 1 (-2)], Some QST_e6);
  (26, 24, [ShLin 0%nat 1 0; ShLin 1%nat 1 1; ShLin 2%nat 1 (-1)], [ShLin 0%nat 1 (-1); ShLin 1%nat 1 0; ShLin 2%nat 1 (-1)], Some QST_e7);
  (26, 25, [ShLin 0%nat 1 0; ShLin 1%nat 1 1; ShLin 2%nat 1 (-1)], [ShLin 0%nat 1 (-1); ShLin 1%nat 1 0; ShLin 2%nat 1 0], Some QST_e8);
  (26, 26, [ShLin 0%nat 1 0; ShLin 1%nat 1 1; ShLin 2%nat 1 (-1)], [ShLin 0%nat 1 (-1); ShLin 1%nat 1 2; ShLin 2%nat 1 (-2)], Some (cN (-1)));
  (26, 27, [ShLin 0%nat 1 0; ShLin 1%nat 1 1; ShLin 2%nat 1 (-1)], [ShLin 0%nat 1 (-1); ShLin 1%nat 1 2; ShLin 2%nat 1 (-1)], Some (cO (cD (cN 1) (cV 2))));
  (26, 28, [ShLin 0%nat 1 0; ShLin 1%nat 1 1; ShLin 2%nat 1 (-1)], [ShLin 0%nat 1 (-1); ShLin 1%nat 1 2; ShLin 2%nat 1 0], Some QST_e9);
  (27, 24, [ShLin 0%nat 1 0; ShLin 1%nat 1 1; ShLin 2%nat 1 0], [ShLin 0%nat 1 (-1); ShLin 1%nat 1 0; ShLin 2%nat 1 (-1)], Some QST_e10);
  (27, 25, [ShLin 0%nat 1 0; ShLin 1%nat 1 1; ShLin 2%nat 1 0], [ShLin 0%nat 1 (-1); ShLin 1%nat 1 0; ShLin 2%nat 1 0], Some QST_e11);
  (27, 27, [ShLin 0%nat 1 0; ShLin 1%nat 1 1; ShLin 2%nat 1 0], [ShLin 0%nat 1 (-1); ShLin 1%nat 1 2; ShLin 2%nat 1 (-1)], Some QST_e12);
  (27, 28, [ShLin 0%nat 1 0; ShLin 1%nat 1 1; ShLin 2%nat 1 0], [ShLin 0%nat 1 (-1); ShLin 1%nat 1 2; ShLin 2%nat 1 0], Some QST_e13);
  (28, 25, [ShLin 0%nat 1 0; ShLin 1%nat 1 1; ShLin 2%nat 1 1], [ShLin 0%nat 1 (-1); ShLin 1%nat 1 0; ShLin 2%nat 1 0], Some QST_e14);
  (28, 28, [ShLin 0%nat 1 0; ShLin 1%nat 1 1; ShLin 2%nat 1 1], [ShLin 0%nat 1 (-1); ShLin 1%nat 1 2; ShLin 2%nat 1 0], Some QST_e15);
  (29, 29, [ShLin 0%nat 1 0; ShLin 1%nat 1 (-1); ShLin 2%nat 1 (-2)], [ShLin 0%nat 1 (-1); ShLin 1%nat 1 0; ShLin 2%nat 1 (-3)], Some QST_e0);
  (29, 30, [ShLin 0%nat 1 0; ShLin 1%nat 1 (-1); ShLin 2%nat 1 (-2)], [ShLin 0%nat 1 (-1); ShLin 1%nat 1 0; ShLin 2%nat 1 (-2)], Some QST_e55);
  (29, 31, [ShLin 0%nat 1 0; ShLin 1%nat 1 (-1); ShLin 2%nat 1 (-2)], [ShLin 0%nat 1 (-1); ShLin 1%nat 1 0; ShLin 2%nat 1 (-1)], Some QST_e56);
  (30, 30, [ShLin 0%nat 1 0; ShLin 1%nat 1 (-1); ShLin 2%nat 1 (-1)], [ShLin 0%nat 1 (-1); ShLin 1%nat 1 0; ShLin 2%nat 1 (-2)], Some QST_e57);
  (30, 31, [ShLin 0%nat 1 0; ShLin 1%nat 1 (-1); ShLin 2%nat 1 (-1)], [ShLin 0%nat 1 (-1); ShLin 1%nat 1 0; ShLin 2%nat 1 (-1)], Some QST_e58);
  (30, 32, [ShLin 0%nat 1 0; ShLin 1%nat 1 (-1); ShLin 2%nat 1 (-1)], [ShLin 0%nat 1 (-1); ShLin 1%nat 1 0; ShLin 2%nat 1 0], Some QST_e59);
  (31, 31, [ShLin 0%nat 1 0; ShLin 1%nat 1 (-1); ShLin 2%nat 1 0], [ShLin 0%nat 1 (-1); ShLin 1%nat 1 0; ShLin 2%nat 1 (-1)], Some QST_e60);
  (31, 32, [ShLin 0%nat 1 0; ShLin 1%nat 1 (-1); ShLin 2%nat 1 0], [ShLin 0%nat 1 (-1); ShLin 1%nat 1 0; ShLin 2%nat 1 0], Some QST_e61);
  (31, 33, [ShLin 0%nat 1 0; ShLin 1%nat 1 (-1); ShLin 2%nat 1 0], [ShLin 0%nat 1 (-1); ShLin 1%nat 1 0; ShLin 2%nat 1 1], Some QST_e62);
  (32, 32, [ShLin 0%nat 1 0; ShLin 1%nat 1 (-1); ShLin 2%nat 1 1], [ShLin 0%nat 1 (-1); ShLin 1%nat 1 0; ShLin 2%nat 1 0], Some QST_e63);
  (32, 33, [ShLin 0%nat 1 0; ShLin 1%nat 1 (-1); ShLin 2%nat 1 1], [ShLin 0%nat 1 (-1); ShLin 1%nat 1 0; ShLin 2%nat 1 1], Some QST_e64);
  (33, 33, [ShLin 0%nat 1 0; ShLin 1%nat 1 (-1); ShLin 2%nat 1 2], [ShLin 0%nat 1 (-1); ShLin 1%nat 1 0; ShLin 2%nat 1 1], Some QST_e65);
  (34, 29, [ShLin 0%nat 1 0; ShLin 1%nat 1 1; ShLin 2%nat 1 (-2)], [ShLin 0%nat 1 (-1); ShLin 1%nat 1 0; ShLin 2%nat 1 (-3)], Some QST_e6);
  (34, 30, [ShLin 0%nat 1 0; ShLin 1%nat 1 1; ShLin 2%nat 1 (-2)], [ShLin 0%nat 1 (-1); ShLin 1%nat 1 0; ShLin 2%nat 1 (-2)], Some QST_e66);
  (34, 31, [ShLin 0%nat 1 0; ShLin 1%nat 1 1; ShLin 2%nat 1 (-2)], [ShLin 0%nat 1 (-1); ShLin 1%nat 1 0; ShLin 2%nat 1 (-1)], Some QST_e67);
  (34, 34, [ShLin 0%nat 1 0; ShLin 1%nat 1 1; ShLin 2%nat 1 (-2)], [ShLin 0%nat 1 (-1); ShLin 1%nat 1 2; ShLin 2%nat 1 (-3)], Some (cN (-1)));
  (34, 35, [ShLin 0%nat 1 0; ShLin 1%nat 1 1; ShLin 2%nat 1 (-2)], [ShLin 0%nat 1 (-1); ShLin 1%nat 1 2; ShLin 2%nat 1 (-2)], Some QST_e68);
  (34, 36, [ShLin 0%nat 1 0; ShLin 1%nat 1 1; ShLin 2%nat 1 (-2)], [ShLin 0%nat 1 (-1); ShLin 1%nat 1 2; ShLin 2%nat 1 (-1)], Some QST_e69);
  (35, 30, [ShLin 0%nat 1 0; ShLin 1%nat 1 1; ShLin 2%nat 1 (-1)], [ShLin 0%nat 1 (-1); ShLin 1%nat 1 0; ShLin 2%nat 1 (-2)], Some QST_e70);
  (35, 31, [ShLin 0%nat 1 0; ShLin 1%nat 1 1; ShLin 2%nat 1 (-1)], [ShLin 0%nat 1 (-1); ShLin 1%nat 1 0; ShLin 2%nat 1 (-1)], Some QST_e71);
  (35, 32, [ShLin 0%nat 1 0; ShLin 1%nat 1 1; ShLin 2%nat 1 (-1)], [ShLin 0%nat 1 (-1); ShLin 1%nat 1 0; ShLin 2%nat 1 0], Some QST_e72);
  (35, 35, [ShLin 0%nat 1 0; ShLin 1%nat 1 1; ShLin 2%nat 1 (-1)], [ShLin 0%nat 1 (-1); ShLin 1%nat 1 2; ShLin 2%nat 1 (-2)], Some QST_e73);
  (35, 36, [ShLin 0%nat 1 0; ShLin 1%nat 1 1; ShLin 2%nat 1 (-1)], [ShLin 0%nat 1 (-1); ShLin 1%nat 1 2; ShLin 2%nat 1 (-1)], Some QST_e74);
  (35, 37, [ShLin 0%nat 1 0; ShLin 1%nat 1 1; ShLin 2%nat 1 (-1)], [ShLin 0%nat 1 (-1); ShLin 1%nat 1 2; ShLin 2%nat 1 0], Some QST_e75);
  (36, 31, [ShLin 0%nat 1 0; ShLin 1%nat 1 1; ShLin 2%nat 1 0], [ShLin 0%nat 1 (-1); ShLin 1%nat 1 0; ShLin 2%nat 1 (-1)], Some QST_e76);
  (36, 32, [ShLin 0%nat 1 0; ShLin 1%nat 1 1; ShLin 2%nat 1 0], [ShLin 0%nat 1 (-1); ShLin 1%nat 1 0; ShLin 2%nat 1 0], Some QST_e77);
  (36, 33, [ShLin 0%nat 1 0; ShLin 1%nat 1 1; ShLin 2%nat 1 0], [ShLin 0%nat 1 (-1); ShLin 1%nat 1 0; ShLin 2%nat 1 1], Some QST_e78);
  (36, 36, [ShLin 0%nat 1 0; ShLin 1%nat 1 1; ShLin 2%nat 1 0], [ShLin 0%nat 1 (-1); ShLin 1%nat 1 2; ShLin 2%nat 1 (-1)], Some QST_e79);
  (36, 37, [ShLin 0%nat 1 0; ShLin 1%nat 1 1; ShLin 2%nat 1 0], [ShLin 0%nat 1 (-1); ShLin 1%nat 1 2; ShLin 2%nat 1 0], Some QST_e80);
  (36, 38, [ShLin 0%nat 1 0; ShLin 1%nat 1 1; ShLin 2%nat 1 0], [ShLin 0%nat 1 (-1); ShLin 1%nat 1 2; ShLin 2%nat 1 1], Some QST_e81);
  (37, 32, [ShLin 0%nat 1 0; ShLin 1%nat 1 1; ShLin 2%nat 1 1], [ShLin 0%nat 1 (-1); ShLin 1%nat 1 0; ShLin 2%nat 1 0], Some QST_e82);
  (37, 33, [ShLin 0%nat 1 0; ShLin 1%nat 1 1; ShLin 2%nat 1 1], [ShLin 0%nat 1 (-1); ShLin 1%nat 1 0; ShLin 2%nat 1 1], Some QST_e83);
  (37, 37, [ShLin 0%nat 1 0; ShLin 1%nat 1 1; ShLin 2%nat 1 1], [ShLin 0%nat 1 (-1); ShLin 1%nat 1 2; ShLin 2%nat 1 0], Some QST_e84);
  (37, 38, [ShLin 0%nat 1 0; ShLin 1%nat 1 1; ShLin 2%nat 1 1], [ShLin 0%nat 1 (-1); ShLin 1%nat 1 2; ShLin 2%nat 1 1], Some QST_e85);
  (38, 33, [ShLin 0%nat 1 0; ShLin 1%nat 1 1; ShLin 2%nat 1 2], [ShLin 0%nat 1 (-1); ShLin 1%nat 1 0; ShLin 2%nat 1 1], Some QST_e86);
  (38, 38, [ShLin 0%nat 1 0; ShLin 1%nat 1 1; ShLin 2%nat 1 2], [ShLin 0%nat 1 (-1); ShLin 1%nat 1 2; ShLin 2%nat 1 1], Some QST_e87);
  (39, 39, [ShLin 0%nat 1 0; ShLin 1%nat 1 (-3); ShLin 2%nat 1 0], [ShLin 0%nat 1 (-1); ShLin 1%nat 1 (-2); ShLin 2%nat 1 (-1)], Some QST_e88);
  (40, 39, [ShLin 0%nat 1 0; ShLin 1%nat 1 (-1); ShLin 2%nat 1 0], [ShLin 0%nat 1 (-1); ShLin 1%nat 1 (-2); ShLin 2%nat 1 (-1)], Some QST_e89);
  (40, 40, [ShLin 0%nat 1 0; ShLin 1%nat 1 (-1); ShLin 2%nat 1 0], [ShLin 0%nat 1 (-1); ShLin 1%nat 1 0; ShLin 2%nat 1 (-1)], Some QST_e90);
  (41, 40, [ShLin 0%nat 1 0; ShLin 1%nat 1 1; ShLin 2%nat 1 0], [ShLin 0%nat 1 (-1); ShLin 1%nat 1 0; ShLin 2%nat 1 (-1)], Some QST_e91);
  (41, 41, [ShLin 0%nat 1 0; ShLin 1%nat 1 1; ShLin 2%nat 1 0], [ShLin 0%nat 1 (-1); ShLin 1%nat 1 2; ShLin 2%nat 1 (-1)], Some QST_e92);
  (42, 41, [ShLin 0%nat 1 0; ShLin 1%nat 1 3; ShLin 2%nat 1 0], [ShLin 0%nat 1 (-1); ShLin 1%nat 1 2; ShLin 2%nat 1 (-1)], Some QST_e93);
  (42, 42, [ShLin 0%nat 1 0; ShLin 1%nat 1 3; ShLin 2%nat 1 0], [ShLin 0%nat 1 (-1); ShLin 1%nat 1 4; ShLin 2%nat 1 (-1)], Some (cN (-1)));
  (43, 43, [ShLin 0%nat 1 (-1); ShLin 1%nat 1 0; ShLin 2%nat 1 0], [ShLin 0%nat 1 (-2); ShLin 1%nat 1 1; ShLin 2%nat 1 (-1)], Some (cN 1));
  (44, 44, [ShLin 0%nat 1 (-1); ShLin 1%nat 1 0; ShLin 2%nat 1 (-2)], [ShLin 0%nat 1 (-2); ShLin 1%nat 1 1; ShLin 2%nat 1 (-3)], Some (cN 1));
  (44, 45, [ShLin 0%nat 1 (-1); ShLin 1%nat 1 0; ShLin 2%nat 1 (-2)], [ShLin 0%nat 1 (-2); ShLin 1%nat 1 1; ShLin 2%nat 1 (-2)], Some QST_e16);
  (44, 46, [ShLin 0%nat 1 (-1); ShLin 1%nat 1 0; ShLin 2%nat 1 (-2)], [ShLin 0%nat 1 (-2); ShLin 1%nat 1 1; ShLin 2%nat 1 (-1)], Some QST_e17);
  (45, 45, [ShLin 0%nat 1 (-1); ShLin 1%nat 1 0; ShLin 2%nat 1 (-1)], [ShLin 0%nat 1 (-2); ShLin 1%nat 1 1; ShLin 2%nat 1 (-2)], Some QST_e18);
  (45, 46, [ShLin 0%nat 1 (-1); ShLin 1%nat 1 0; ShLin 2%nat 1 (-1)], [ShLin 0%nat 1 (-2); ShLin 1%nat 1 1; ShLin 2%nat 1 (-1)], Some QST_e19);
  (45, 47, [ShLin 0%nat 1 (-1); ShLin 1%nat 1 0; ShLin 2%nat 1 (-1)], [ShLin 0%nat 1 (-2); ShLin 1%nat 1 1; ShLin 2%nat 1 0], Some QST_e20);
  (46, 46, [ShLin 0%nat 1 (-1); ShLin 1%nat 1 0; ShLin 2%nat 1 0], [ShLin 0%nat 1 (-2); ShLin 1%nat 1 1; ShLin 2%nat 1 (-1)], Some QST_e21);
  (46, 47, [ShLin 0%nat 1 (-1); ShLin 1%nat 1 0; ShLin 2%nat 1 0], [ShLin 0%nat 1 (-2); ShLin 1%nat 1 1; ShLin 2%nat 1 0], Some QST_e22);
  (46, 48, [ShLin 0%nat 1 (-1); ShLin 1%nat 1 0; ShLin 2%nat 1 0], [ShLin 0%nat 1 (-2); ShLin 1%nat 1 1; ShLin 2%nat 1 1], Some QST_e23);
  (47, 47, [ShLin 0%nat 1 (-1); ShLin 1%nat 1 0; ShLin 2%nat 1 1], [ShLin 0%nat 1 (-2); ShLin 1%nat 1 1; ShLin 2%nat 1 0], Some QST_e24);
  (47, 48, [ShLin 0%nat 1 (-1); ShLin 1%nat 1 0; ShLin 2%nat 1 1], [ShLin 0%nat 1 (-2); ShLin 1%nat 1 1; ShLin 2%nat 1 1], Some QST_e25);
  (48, 48, [ShLin 0%nat 1 (-1); ShLin 1%nat 1 0; ShLin 2%nat 1 2], [ShLin 0%nat 1 (-2); ShLin 1%nat 1 1; ShLin 2%nat 1 1], Some QST_e26);
  (49, 49, [ShLin 0%nat 1 (-1); ShLin 1%nat 1 (-2); ShLin 2%nat 1 (-1)], [ShLin 0%nat 1 (-2); ShLin 1%nat 1 (-1); ShLin 2%nat 1 (-2)], Some QST_e27);
  (49, 50, [ShLin 0%nat 1 (-1); ShLin 1%nat 1 (-2); ShLin 2%nat 1 (-1)], [ShLin 0%nat 1 (-2); ShLin 1%nat 1 (-1); ShLin 2%nat 1 (-1)], Some QST_e28);
  (49, 51, [ShLin 0%nat 1 (-1); ShLin 1%nat 1 (-2); ShLin 2%nat 1 (-1)], [ShLin 0%nat 1 (-2); ShLin 1%nat 1 (-1); ShLin 2%nat 1 0], Some QST_e29);
  (50, 50, [ShLin 0%nat 1 (-1); ShLin 1%nat 1 (-2); ShLin 2%nat 1 0], [ShLin 0%nat 1 (-2); ShLin 1%nat 1 (-1); ShLin 2%nat 1 (-1)], Some QST_e30);
  (50, 51, [ShLin 0%nat 1 (-1); ShLin 1%nat 1 (-2); ShLin 2%nat 1 0], [ShLin 0%nat 1 (-2); ShLin 1%nat 1 (-1); ShLin 2%nat 1 0], Some QST_e31);
  (51, 51, [ShLin 0%nat 1 (-1); ShLin 1%nat 1 (-2); ShLin 2%nat 1 1], [ShLin 0%nat 1 (-2); ShLin 1%nat 1 (-1); ShLin 2%nat 1 0], Some QST_e32);
  (52, 49, [ShLin 0%nat 1 (-1); ShLin 1%nat 1 0; ShLin 2%nat 1 (-1)], [ShLin 0%nat 1 (-2); ShLin 1%nat 1 (-1); ShLin 2%nat 1 (-2)], Some QST_e33);
  (52, 50, [ShLin 0%nat 1 (-1); ShLin 1%nat 1 0; ShLin 2%nat 1 (-1)], [ShLin 0%nat 1 (-2); ShLin 1%nat 1 (-1); ShLin 2%nat 1 (-1)], Some QST_e34);
  (52, 51, [ShLin 0%nat 1 (-1); ShLin 1%nat 1 0; ShLin 2%nat 1 (-1)], [ShLin 0%nat 1 (-2); ShLin 1%nat 1 (-1); ShLin 2%nat 1 0], Some QST_e35);
  (52, 52, [ShLin 0%nat 1 (-1); ShLin 1%nat 1 0; ShLin 2%nat 1 (-1)], [ShLin 0%nat 1 (-2); ShLin 1%nat 1 1; ShLin 2%nat 1 (-2)], Some QST_e36);
  (52, 53, [ShLin 0%nat 1 (-1); ShLin 1%nat 1 0; ShLin 2%nat 1 (-1)], [ShLin 0%nat 1 (-2); ShLin 1%nat 1 1; ShLin 2%nat 1 (-1)], Some QST_e37);
  (52, 54, [ShLin 0%nat 1 (-1); ShLin 1%nat 1 0; ShLin 2%nat 1 (-1)], [ShLin 0%nat 1 (-2); ShLin 1%nat 1 1; ShLin 2%nat 1 0], Some QST_e38);
  (53, 50, [ShLin 0%nat 1 (-1); ShLin 1%nat 1 0; ShLin 2%nat 1 0], [ShLin 0%nat 1 (-2); ShLin 1%nat 1 (-1); ShLin 2%nat 1 (-1)], Some QST_e39);
  (53, 51, [ShLin 0%nat 1 (-1); ShLin 1%nat 1 0; ShLin 2%nat 1 0], [ShLin 0%nat 1 (-2); ShLin 1%nat 1 (-1); ShLin 2%nat 1 0], Some QST_e40);
  (53, 53, [ShLin 0%nat 1 (-1); ShLin 1%nat 1 0; ShLin 2%nat 1 0], [ShLin 0%nat 1 (-2); ShLin 1%nat 1 1; ShLin 2%nat 1 (-1)], Some QST_e41);
  (53, 54, [ShLin 0%nat 1 (-1); ShLin 1%nat 1 0; ShLin 2%nat 1 0], [ShLin 0%nat 1 (-2); ShLin 1%nat 1 1; ShLin 2%nat 1 0], Some QST_e42);
  (54, 51, [ShLin 0%nat 1 (-1); ShLin 1%nat 1 0; ShLin 2%nat 1 1], [ShLin 0%nat 1 (-2); ShLin 1%nat 1 (-1); ShLin 2%nat 1 0], Some QST_e43);
  (54, 54, [ShLin 0%nat 1 (-1); ShLin 1%nat 1 0; ShLin 2%nat 1 1], [ShLin 0%nat 1 (-2); ShLin 1%nat 1 1; ShLin 2%nat 1 0], Some QST_e44);
  (55, 52, [ShLin 0%nat 1 (-1); ShLin 1%nat 1 2; ShLin 2%nat 1 (-1)], [ShLin 0%nat 1 (-2); ShLin 1%nat 1 1; ShLin 2%nat 1 (-2)], Some QST_e45);
  (55, 53, [ShLin 0%nat 1 (-1); ShLin 1%nat 1 2; ShLin 2%nat 1 (-1)], [ShLin 0%nat 1 (-2); ShLin 1%nat 1 1; ShLin 2%nat 1 (-1)], Some QST_e46);
  (55, 54, [ShLin 0%nat 1 (-1); ShLin 1%nat 1 2; ShLin 2%nat 1 (-1)], [ShLin 0%nat 1 (-2); ShLin 1%nat 1 1; ShLin 2%nat 1 0], Some QST_e47);
  (55, 55, [ShLin 0%nat 1 (-1); ShLin 1%nat 1 2; ShLin 2%nat 1 (-1)], [ShLin 0%nat 1 (-2); ShLin 1%nat 1 3; ShLin 2%nat 1 (-2)], Some (cN 1));
  (55, 56, [ShLin 0%nat 1 (-1); ShLin 1%nat 1 2; ShLin 2%nat 1 (-1)], [ShLin 0%nat 1 (-2); ShLin 1%nat 1 3; ShLin 2%nat 1 (-1)], Some (cD (cN 1) (cV 2)));
  (55, 57, [ShLin 0%nat 1 (-1); ShLin 1%nat 1 2; ShLin 2%nat 1 (-1)], [ShLin 0%nat 1 (-2); ShLin 1%nat 1 3; ShLin 2%nat 1 0], Some QST_e48);
  (56, 53, [ShLin 0%nat 1 (-1); ShLin 1%nat 1 2; ShLin 2%nat 1 0], [ShLin 0%nat 1 (-2); ShLin 1%nat 1 1; ShLin 2%nat 1 (-1)], Some QST_e49);
  (56, 54, [ShLin 0%nat 1 (-1); ShLin 1%nat 1 2; ShLin 2%nat 1 0], [ShLin 0%nat 1 (-2); ShLin 1%nat 1 1; ShLin 2%nat 1 0], Some QST_e50);
  (56, 56, [ShLin 0%nat 1 (-1); ShLin 1%nat 1 2; ShLin 2%nat 1 0], [ShLin 0%nat 1 (-2); ShLin 1%nat 1 3; ShLin 2%nat 1 (-1)], Some QST_e51);
  (56, 57, [ShLin 0%nat 1 (-1); ShLin 1%nat 1 2; ShLin 2%nat 1 0], [ShLin 0%nat 1 (-2); ShLin 1%nat 1 3; ShLin 2%nat 1 0], Some QST_e52);
  (57, 54, [ShLin 0%nat 1 (-1); ShLin 1%nat 1 2; ShLin 2%nat 1 1], [ShLin 0%nat 1 (-2); ShLin 1%nat 1 1; ShLin 2%nat 1 0], Some QST_e53);
  (57, 57, [ShLin 0%nat 1 (-1); ShLin 1%nat 1 2; ShLin 2%nat 1 1], [ShLin 0%nat 1 (-2); ShLin 1%nat 1 3; ShLin 2%nat 1 0], Some QST_e54);
  (58, 58, [ShLin 0%nat 1 (-2); ShLin 1%nat 1 (-1); ShLin 2%nat 1 (-1)], [ShLin 0%nat 1 (-3); ShLin 1%nat 1 0; ShLin 2%nat 1 (-2)], Some QST_e0);
  (58, 59, [ShLin 0%nat 1 (-2); ShLin 1%nat 1 (-1); ShLin 2%nat 1 (-1)], [ShLin 0%nat 1 (-3); ShLin 1%nat 1 0; ShLin 2%nat 1 (-1)], Some QST_e1);
  (58, 60, [ShLin 0%nat 1 (-2); ShLin 1%nat 1 (-1); ShLin 2%nat 1 (-1)], [ShLin 0%nat 1 (-3); ShLin 1%nat 1 0; ShLin 2%nat 1 0], Some QST_e2);
  (59, 59, [ShLin 0%nat 1 (-2); ShLin 1%nat 1 (-1); ShLin 2%nat 1 0], [ShLin 0%nat 1 (-3); ShLin 1%nat 1 0; ShLin 2%nat 1 (-1)], Some QST_e3);
  (59, 60, [ShLin 0%nat 1 (-2); ShLin 1%nat 1 (-1); ShLin 2%nat 1 0], [ShLin 0%nat 1 (-3); ShLin 1%nat 1 0; ShLin 2%nat 1 0], Some QST_e4);
  (60, 60, [ShLin 0%nat 1 (-2); ShLin 1%nat 1 (-1); ShLin 2%nat 1 1], [ShLin 0%nat 1 (-3); ShLin 1%nat 1 0; ShLin 2%nat 1 0], Some QST_e5);
  (61, 58, [ShLin 0%nat 1 (-2); ShLin 1%nat 1 1; ShLin 2%nat 1 (-1)], [ShLin 0%nat 1 (-3); ShLin 1%nat 1 0; ShLin 2%nat 1 (-2)], Some QST_e6);
  (61, 59, [ShLin 0%nat 1 (-2); ShLin 1%nat 1 1; ShLin 2%nat 1 (-1)], [ShLin 0%nat 1 (-3); ShLin 1%nat 1 0; ShLin 2%nat 1 (-1)], Some QST_e7);
  (61, 60, [ShLin 0%nat 1 (-2); ShLin 1%nat 1 1; ShLin 2%nat 1 (-1)], [ShLin 0%nat 1 (-3); ShLin 1%nat 1 0; ShLin 2%nat 1 0], Some QST_e8);
  (61, 61, [ShLin 0%nat 1 (-2); ShLin 1%nat 1 1; ShLin 2%nat 1 (-1)], [ShLin 0%nat 1 (-3); ShLin 1%nat 1 2; ShLin 2%nat 1 (-2)], Some (cN (-1)));
  (61, 62, [ShLin 0%nat 1 (-2); ShLin 1%nat 1 1; ShLin 2%nat 1 (-1)], [ShLin 0%nat 1 (-3); ShLin 1%nat 1 2; ShLin 2%nat 1 (-1)], Some (cO (cD (cN 1) (cV 2))));
  (61, 63, [ShLin 0%nat 1 (-2); ShLin 1%nat 1 1; ShLin 2%nat 1 (-1)], [ShLin 0%nat 1 (-3); ShLin 1%nat 1 2; ShLin 2%nat 1 0], Some QST_e9);
  (62, 59, [ShLin 0%nat 1 (-2); ShLin 1%nat 1 1; ShLin 2%nat 1 0], [ShLin 0%nat 1 (-3); ShLin 1%nat 1 0; ShLin 2%nat 1 (-1)], Some QST_e10);
  (62, 60, [ShLin 0%nat 1 (-2); ShLin 1%nat 1 1; ShLin 2%nat 1 0], [ShLin 0%nat 1 (-3); ShLin 1%nat 1 0; ShLin 2%nat 1 0], Some QST_e11);
  (62, 62, [ShLin 0%nat 1 (-2); ShLin 1%nat 1 1; ShLin 2%nat 1 0], [ShLin 0%nat 1 (-3); ShLin 1%nat 1 2; ShLin 2%nat 1 (-1)], Some QST_e12);
  (62, 63, [ShLin 0%nat 1 (-2); ShLin 1%nat 1 1; ShLin 2%nat 1 0], [ShLin 0%nat 1 (-3); ShLin 1%nat 1 2; ShLin 2%nat 1 0], Some QST_e13);
  (63, 60, [ShLin 0%nat 1 (-2); ShLin 1%nat 1 1; ShLin 2%nat 1 1], [ShLin 0%nat 1 (-3); ShLin 1%nat 1 0; ShLin 2%nat 1 0], Some QST_e14);
  (63, 63, [ShLin 0%nat 1 (-2); ShLin 1%nat 1 1; ShLin 2%nat 1 1], [ShLin 0%nat 1 (-3); ShLin 1%nat 1 2; ShLin 2%nat 1 0], Some QST_e15);
  (64, 64, [ShLin 0%nat 1 (-3); ShLin 1%nat 1 0; ShLin 2%nat 1 0], [ShLin 0%nat 1 (-4); ShLin 1%nat 1 1; ShLin 2%nat 1 (-1)], Some (cN 1))].
(** /repo/c++/symmetry/nrg-recalc-QST.hpp recalc_doublet, qst/qst-doubletm-1.dat *)
Definition qst_t1 : ten_table := mk_ten "doublet" [ShLin 0%nat 1 (-1); ShLin 1%nat 1 (-1); ShLin 2%nat 1 (-1)] [1; 2; 1] [
  (1, 1, [ShLin 0%nat 1 3; ShLin 1%nat 1 0; ShLin 2%nat 1 0], [ShLin 0%nat 1 2; ShLin 1%nat 1 (-1); ShLin 2%nat 1 (-1)], Some (cN 1));
  (2, 2, [ShLin 0%nat 1 2; ShLin 1%nat 1 (-1); ShLin 2%nat 1 (-1)], [ShLin 0%nat 1 1; ShLin 1%nat 1 (-2); ShLin 2%nat 1 (-2)], Some (cN (-1)));
  (2, 3, [ShLin 0%nat 1 2; ShLin 1%nat 1 (-1); ShLin 2%nat 1 (-1)], [ShLin 0%nat 1 1; ShLin 1%nat 1 (-2); ShLin 2%nat 1 (-1)], Some (cO (cD (cN 1) (cV 2))));
  (2, 4, [ShLin 0%nat 1 2; ShLin 1%nat 1 (-1); ShLin 2%nat 1 (-1)], [ShLin 0%nat 1 1; ShLin 1%nat 1 (-2); ShLin 2%nat 1 0], Some QST_e9);
  (2, 5, [ShLin 0%nat 1 2; ShLin 1%nat 1 (-1); ShLin 2%nat 1 (-1)], [ShLin 0%nat 1 1; ShLin 1%nat 1 0; ShLin 2%nat 1 (-2)], Some QST_e94);
  (2, 6, [ShLin 0%nat 1 2; ShLin 1%nat 1 (-1); ShLin 2%nat 1 (-1)], [ShLin 0%nat 1 1; ShLin 1%nat 1 0; ShLin 2%nat 1 (-1)], Some QST_e95);
  (2, 7, [ShLin 0%nat 1 2; ShLin 1%nat 1 (-1); ShLin 2%nat 1 (-1)], [ShLin 0%nat 1 1; ShLin 1%nat 1 0; ShLin 2%nat 1 0], Some QST_e96);
  (3, 3, [ShLin 0%nat 1 2; ShLin 1%nat 1 (-1); ShLin 2%nat 1 0], [ShLin 0%nat 1 1; ShLin 1%nat 1 (-2); ShLin 2%nat 1 (-1)], Some QST_e12);
  (3, 4, [ShLin 0%nat 1 2; ShLin 1%nat 1 (-1); ShLin 2%nat 1 0], [ShLin 0%nat 1 1; ShLin 1%nat 1 (-2); ShLin 2%nat 1 0], Some QST_e13);
  (3, 6, [ShLin 0%nat 1 2; ShLin 1%nat 1 (-1); ShLin 2%nat 1 0], [ShLin 0%nat 1 1; ShLin 1%nat 1 0; ShLin 2%nat 1 (-1)], Some QST_e97);
  (3, 7, [ShLin 0%nat 1 2; ShLin 1%nat 1 (-1); ShLin 2%nat 1 0], [ShLin 0%nat 1 1; ShLin 1%nat 1 0; ShLin 2%nat 1 0], Some QST_e98);
  (4, 4, [ShLin 0%nat 1 2; ShLin 1%nat 1 (-1); ShLin 2%nat 1 1], [ShLin 0%nat 1 1; ShLin 1%nat 1 (-2); ShLin 2%nat 1 0], Some QST_e99);
  (4, 7, [ShLin 0%nat 1 2; ShLin 1%nat 1 (-1); ShLin 2%nat 1 1], [ShLin 0%nat 1 1; ShLin 1%nat 1 0; ShLin 2%nat 1 0], Some QST_e100);
  (5, 5, [ShLin 0%nat 1 2; ShLin 1%nat 1 1; ShLin 2%nat 1 (-1)], [ShLin 0%nat 1 1; ShLin 1%nat 1 0; ShLin 2%nat 1 (-2)], Some QST_e0);
  (5, 6, [ShLin 0%nat 1 2; ShLin 1%nat 1 1; ShLin 2%nat 1 (-1)], [ShLin 0%nat 1 1; ShLin 1%nat 1 0; ShLin 2%nat 1 (-1)], Some QST_e1);
  (5, 7, [ShLin 0%nat 1 2; ShLin 1%nat 1 1; ShLin 2%nat 1 (-1)], [ShLin 0%nat 1 1; ShLin 1%nat 1 0; ShLin 2%nat 1 0], Some QST_e101);
  (6, 6, [ShLin 0%nat 1 2; ShLin 1%nat 1 1; ShLin 2%nat 1 0], [ShLin 0%nat 1 1; ShLin 1%nat 1 0; ShLin 2%nat 1 (-1)], Some QST_e102);
  (6, 7, [ShLin 0%nat 1 2; ShLin 1%nat 1 1; ShLin 2%nat 1 0], [ShLin 0%nat 1 1; ShLin 1%nat 1 0; ShLin 2%nat 1 0], Some QST_e103);
  (7, 7, [ShLin 0%nat 1 2; ShLin 1%nat 1 1; ShLin 2%nat 1 1], [ShLin 0%nat 1 1; ShLin 1%nat 1 0; ShLin 2%nat 1 0], Some QST_e104);
  (8, 8, [ShLin 0%nat 1 1; ShLin 1%nat 1 0; ShLin 2%nat 1 0], [ShLin 0%nat 1 0; ShLin 1%nat 1 (-1); ShLin 2%nat 1 (-1)], Some (cN 1));
  (9, 9, [ShLin 0%nat 1 1; ShLin 1%nat 1 0; ShLin 2%nat 1 (-2)], [ShLin 0%nat 1 0; ShLin 1%nat 1 (-1); ShLin 2%nat 1 (-3)], Some (cN 1));
  (9, 10, [ShLin 0%nat 1 1; ShLin 1%nat 1 0; ShLin 2%nat 1 (-2)], [ShLin 0%nat 1 0; ShLin 1%nat 1 (-1); ShLin 2%nat 1 (-2)], Some QST_e16);
  (9, 11, [ShLin 0%nat 1 1; ShLin 1%nat 1 0; ShLin 2%nat 1 (-2)], [ShLin 0%nat 1 0; ShLin 1%nat 1 (-1); ShLin 2%nat 1 (-1)], Some QST_e17);
  (10, 10, [ShLin 0%nat 1 1; ShLin 1%nat 1 0; ShLin 2%nat 1 (-1)], [ShLin 0%nat 1 0; ShLin 1%nat 1 (-1); ShLin 2%nat 1 (-2)], Some QST_e18);
  (10, 11, [ShLin 0%nat 1 1; ShLin 1%nat 1 0; ShLin 2%nat 1 (-1)], [ShLin 0%nat 1 0; ShLin 1%nat 1 (-1); ShLin 2%nat 1 (-1)], Some QST_e19);
  (10, 12, [ShLin 0%nat 1 1; ShLin 1%nat 1 0; ShLin 2%nat 1 (-1)], [ShLin 0%nat 1 0; ShLin 1%nat 1 (-1); ShLin 2%nat 1 0], Some QST_e20);
  (11, 11, [ShLin 0%nat 1 1; ShLin 1%nat 1 0; ShLin 2%nat 1 0], [ShLin 0%nat 1 0; ShLin 1%nat 1 (-1); ShLin 2%nat 1 (-1)], Some QST_e21);
  (11, 12, [ShLin 0%nat 1 1; ShLin 1%nat 1 0; ShLin 2%nat 1 0], [ShLin 0%nat 1 0; ShLin 1%nat 1 (-1); ShLin 2%nat 1 0], Some QST_e22);
  (11, 13, [ShLin 0%nat 1 1; ShLin 1%nat 1 0; ShLin 2%nat 1 0], [ShLin 0%nat 1 0; ShLin 1%nat 1 (-1); ShLin 2%nat 1 1], Some QST_e23);
  (12, 12, [ShLin 0%nat 1 1; ShLin 1%nat 1 0; ShLin 2%nat 1 1], [ShLin 0%nat 1 0; ShLin 1%nat 1 (-1); ShLin 2%nat 1 0], Some QST_e24);
  (12, 13, [ShLin 0%nat 1 1; ShLin 1%nat 1 0; ShLin 2%nat 1 1], [ShLin 0%nat 1 0; ShLin 1%nat 1 (-1); ShLin 2%nat 1 1], Some QST_e25);
  (13, 13, [ShLin 0%nat 1 1; ShLin 1%nat 1 0; ShLin 2%nat 1 2], [ShLin 0%nat 1 0; ShLin 1%nat 1 (-1); ShLin 2%nat 1 1], Some QST_e26);
  (14, 14, [ShLin 0%nat 1 1; ShLin 1%nat 1 (-2); ShLin 2%nat 1 (-1)], [ShLin 0%nat 1 0; ShLin 1%nat 1 (-3); ShLin 2%nat 1 (-2)], Some (cN 1));
  (14, 15, [ShLin 0%nat 1 1; ShLin 1%nat 1 (-2); ShLin 2%nat 1 (-1)], [ShLin 0%nat 1 0; ShLin 1%nat 1 (-3); ShLin 2%nat 1 (-1)], Some (cD (cN 1) (cV 2)));
  (14, 16, [ShLin 0%nat 1 1; ShLin 1%nat 1 (-2); ShLin 2%nat 1 (-1)], [ShLin 0%nat 1 0; ShLin 1%nat 1 (-3); ShLin 2%nat 1 0], Some QST_e48);
  (14, 17, [ShLin 0%nat 1 1; ShLin 1%nat 1 (-2); ShLin 2%nat 1 (-1)], [ShLin 0%nat 1 0; ShLin 1%nat 1 (-1); ShLin 2%nat 1 (-2)], Some QST_e105);
  (14, 18, [ShLin 0%nat 1 1; ShLin 1%nat 1 (-2); ShLin 2%nat 1 (-1)], [ShLin 0%nat 1 0; ShLin 1%nat 1 (-1); ShLin 2%nat 1 (-1)], Some QST_e106);
  (14, 19, [ShLin 0%nat 1 1; ShLin 1%nat 1 (-2); ShLin 2%nat 1 (-1)], [ShLin 0%nat 1 0; ShLin 1%nat 1 (-1); ShLin 2%nat 1 0], Some QST_e107);
  (15, 15, [ShLin 0%nat 1 1; ShLin 1%nat 1 (-2); ShLin 2%nat 1 0], [ShLin 0%nat 1 0; ShLin 1%nat 1 (-3); ShLin 2%nat 1 (-1)], Some QST_e51);
  (15, 16, [ShLin 0%nat 1 1; ShLin 1%nat 1 (-2); ShLin 2%nat 1 0], [ShLin 0%nat 1 0; ShLin 1%nat 1 (-3); ShLin 2%nat 1 0], Some QST_e108);
  (15, 18, [ShLin 0%nat 1 1; ShLin 1%nat 1 (-2); ShLin 2%nat 1 0], [ShLin 0%nat 1 0; ShLin 1%nat 1 (-1); ShLin 2%nat 1 (-1)], Some QST_e109);
  (15, 19, [ShLin 0%nat 1 1; ShLin 1%nat 1 (-2); ShLin 2%nat 1 0], [ShLin 0%nat 1 0; ShLin 1%nat 1 (-1); ShLin 2%nat 1 0], Some QST_e110);
  (16, 16, [ShLin 0%nat 1 1; ShLin 1%nat 1 (-2); ShLin 2%nat 1 1], [ShLin 0%nat 1 0; ShLin 1%nat 1 (-3); ShLin 2%nat 1 0], Some QST_e111);
  (16, 19, [ShLin 0%nat 1 1; ShLin 1%nat 1 (-2); ShLin 2%nat 1 1], [ShLin 0%nat 1 0; ShLin 1%nat 1 (-1); ShLin 2%nat 1 0], Some QST_e112);
  (17, 17, [ShLin 0%nat 1 1; ShLin 1%nat 1 0; ShLin 2%nat 1 (-1)], [ShLin 0%nat 1 0; ShLin 1%nat 1 (-1); ShLin 2%nat 1 (-2)], Some QST_e113);
  (17, 18, [ShLin 0%nat 1 1; ShLin 1%nat 1 0; ShLin 2%nat 1 (-1)], [ShLin 0%nat 1 0; ShLin 1%nat 1 (-1); ShLin 2%nat 1 (-1)], Some QST_e114);
  (17, 19, [ShLin 0%nat 1 1; ShLin 1%nat 1 0; ShLin 2%nat 1 (-1)], [ShLin 0%nat 1 0; ShLin 1%nat 1 (-1); ShLin 2%nat 1 0], Some QST_e115);
  (17, 20, [ShLin 0%nat 1 1; ShLin 1%nat 1 0; ShLin 2%nat 1 (-1)], [ShLin 0%nat 1 0; ShLin 1%nat 1 1; ShLin 2%nat 1 (-2)], Some QST_e116);
  (17, 21, [ShLin 0%nat 1 1; ShLin 1%nat 1 0; ShLin 2%nat 1 (-1)], [ShLin 0%nat 1 0; ShLin 1%nat 1 1; ShLin 2%nat 1 (-1)], Some QST_e117);
  (17, 22, [ShLin 0%nat 1 1; ShLin 1%nat 1 0; ShLin 2%nat 1 (-1)], [ShLin 0%nat 1 0; ShLin 1%nat 1 1; ShLin 2%nat 1 0], Some QST_e118);
  (18, 18, [ShLin 0%nat 1 1; ShLin 1%nat 1 0; ShLin 2%nat 1 0], [ShLin 0%nat 1 0; ShLin 1%nat 1 (-1); ShLin 2%nat 1 (-1)], Some QST_e119);
  (18, 19, [ShLin 0%nat 1 1; ShLin 1%nat 1 0; ShLin 2%nat 1 0], [ShLin 0%nat 1 0; ShLin 1%nat 1 (-1); ShLin 2%nat 1 0], Some QST_e120);
  (18, 21, [ShLin 0%nat 1 1; ShLin 1%nat 1 0; ShLin 2%nat 1 0], [ShLin 0%nat 1 0; ShLin 1%nat 1 1; ShLin 2%nat 1 (-1)], Some QST_e121);
  (18, 22, [ShLin 0%nat 1 1; ShLin 1%nat 1 0; ShLin 2%nat 1 0], [ShLin 0%nat 1 0; ShLin 1%nat 1 1; ShLin 2%nat 1 0], Some QST_e122);
  (19, 19, [ShLin 0%nat 1 1; ShLin 1%nat 1 0; ShLin 2%nat 1 1], [ShLin 0%nat 1 0; ShLin 1%nat 1 (-1); ShLin 2%nat 1 0], Some QST_e123);
  (19, 22, [ShLin 0%nat 1 1; ShLin 1%nat 1 0; ShLin 2%nat 1 1], [ShLin 0%nat 1 0; ShLin 1%nat 1 1; ShLin 2%nat 1 0], Some QST_e124);
  (20, 20, [ShLin 0%nat 1 1; ShLin 1%nat 1 2; ShLin 2%nat 1 (-1)], [ShLin 0%nat 1 0; ShLin 1%nat 1 1; ShLin 2%nat 1 (-2)], Some QST_e125);
  (20, 21, [ShLin 0%nat 1 1; ShLin 1%nat 1 2; ShLin 2%nat 1 (-1)], [ShLin 0%nat 1 0; ShLin 1%nat 1 1; ShLin 2%nat 1 (-1)], Some QST_e126);
  (20, 22, [ShLin 0%nat 1 1; ShLin 1%nat 1 2; ShLin 2%nat 1 (-1)], [ShLin 0%nat 1 0; ShLin 1%nat 1 1; ShLin 2%nat 1 0], Some QST_e127);
  (21, 21, [ShLin 0%nat 1 1; ShLin 1%nat 1 2; ShLin 2%nat 1 0], [ShLin 0%nat 1 0; ShLin 1%nat 1 1; ShLin 2%nat 1 (-1)], Some QST_e128);
  (21, 22, [ShLin 0%nat 1 1; ShLin 1%nat 1 2; ShLin 2%nat 1 0], [ShLin 0%nat 1 0; ShLin 1%nat 1 1; ShLin 2%nat 1 0], Some QST_e129);
  (22, 22, [ShLin 0%nat 1 1; ShLin 1%nat 1 2; ShLin 2%nat 1 1], [ShLin 0%nat 1 0; ShLin 1%nat 1 1; ShLin 2%nat 1 0], Some QST_e130);
  (23, 23, [ShLin 0%nat 1 0; ShLin 1%nat 1 (-1); ShLin 2%nat 1 (-1)], [ShLin 0%nat 1 (-1); ShLin 1%nat 1 (-2); ShLin 2%nat 1 (-2)], Some (cN (-1)));
  (23, 24, [ShLin 0%nat 1 0; ShLin 1%nat 1 (-1); ShLin 2%nat 1 (-1)], [ShLin 0%nat 1 (-1); ShLin 1%nat 1 (-2); ShLin 2%nat 1 (-1)], Some (cO (cD (cN 1) (cV 2))));
  (23, 25, [ShLin 0%nat 1 0; ShLin 1%nat 1 (-1); ShLin 2%nat 1 (-1)], [ShLin 0%nat 1 (-1); ShLin 1%nat 1 (-2); ShLin 2%nat 1 0], Some QST_e9);
  (23, 26, [ShLin 0%nat 1 0; ShLin 1%nat 1 (-1); ShLin 2%nat 1 (-1)], [ShLin 0%nat 1 (-1); ShLin 1%nat 1 0; ShLin 2%nat 1 (-2)], Some QST_e94);
  (23, 27, [ShLin 0%nat 1 0; ShLin 1%nat 1 (-1); ShLin 2%nat 1 (-1)], [ShLin 0%nat 1 (-1); ShLin 1%nat 1 0; ShLin 2%nat 1 (-1)], Some QST_e95);
  (23, 28, [ShLin 0%nat 1 0; ShLin 1%nat 1 (-1); ShLin 2%nat 1 (-1)], [ShLin 0%nat 1 (-1); ShLin 1%nat 1 0; ShLin 2%nat 1 0], Some QST_e96);
  (24, 24, [ShLin 0%nat 1 0; ShLin 1%nat 1 (-1); ShLin 2%nat 1 0], [ShLin 0%nat 1 (-1); ShLin 1%nat 1 (-2); ShLin 2%nat 1 (-1)], Some QST_e12);
  (24, 25, [ShLin 0%nat 1 0; ShLin 1%nat 1 (-1); ShLin 2%nat 1 0], [ShLin 0%nat 1 (-1); ShLin 1%nat 1 (-2); ShLin 2%nat 1 0], Some QST_e13);
  (24, 27, [ShLin 0%nat 1 0; ShLin 1%nat 1 (-1); ShLin 2%nat 1 0], [ShLin 0%nat 1 (-1); ShLin 1%nat 1 0; ShLin 2%nat 1 (-1)], Some QST_e97);
  (24, 28, [ShLin 0%nat 1 0; ShLin 1%nat 1 (-1); ShLin 2%nat 1 0], [ShLin 0%nat 1 (-1); ShLin 1%nat 1 0; ShLin 2%nat 1 0], Some QST_e98);
  (25, 25, [ShLin 0%nat 1 0; ShLin 1%nat 1 (-1); ShLin 2%nat 1 1], [ShLin 0%nat 1 (-1); ShLin 1%nat 1 (-2); ShLin 2%nat 1 0], Some QST_e99);
  (25, 28, [ShLin 0%nat 1 0; ShLin 1%nat 1 (-1); ShLin 2%nat 1 1], [ShLin 0%nat 1 (-1); ShLin 1%nat 1 0; ShLin 2%nat 1 0], Some QST_e100);
  (26, 26, [ShLin 0%nat 1 0; ShLin 1%nat 1 1; ShLin 2%nat 1 (-1)], [ShLin 0%nat 1 (-1); ShLin 1%nat 1 0; ShLin 2%nat 1 (-2)], Some QST_e0);
  (26, 27, [ShLin 0%nat 1 0; ShLin 1%nat 1 1; ShLin 2%nat 1 (-1)], [ShLin 0%nat 1 (-1); ShLin 1%nat 1 0; ShLin 2%nat 1 (-1)], Some QST_e1);
  (26, 28, [ShLin 0%nat 1 0; ShLin 1%nat 1 1; ShLin 2%nat 1 (-1)], [ShLin 0%nat 1 (-1); ShLin 1%nat 1 0; ShLin 2%nat 1 0], Some QST_e101);
  (27, 27, [ShLin 0%nat 1 0; ShLin 1%nat 1 1; ShLin 2%nat 1 0], [ShLin 0%nat 1 (-1); ShLin 1%nat 1 0; ShLin 2%nat 1 (-1)], Some QST_e102);
  (27, 28, [ShLin 0%nat 1 0; ShLin 1%nat 1 1; ShLin 2%nat 1 0], [ShLin 0%nat 1 (-1); ShLin 1%nat 1 0; ShLin 2%nat 1 0], Some QST_e103);
  (28, 28, [ShLin 0%nat 1 0; ShLin 1%nat 1 1; ShLin 2%nat 1 1], [ShLin 0%nat 1 (-1); ShLin 1%nat 1 0; ShLin 2%nat 1 0], Some QST_e104);
  (29, 29, [ShLin 0%nat 1 0; ShLin 1%nat 1 (-1); ShLin 2%nat 1 (-2)], [ShLin 0%nat 1 (-1); ShLin 1%nat 1 (-2); ShLin 2%nat 1 (-3)], Some (cN (-1)));
  (29, 30, [ShLin 0%nat 1 0; ShLin 1%nat 1 (-1); ShLin 2%nat 1 (-2)], [ShLin 0%nat 1 (-1); ShLin 1%nat 1 (-2); ShLin 2%nat 1 (-2)], Some QST_e68);
  (29, 31, [ShLin 0%nat 1 0; ShLin 1%nat 1 (-1); ShLin 2%nat 1 (-2)], [ShLin 0%nat 1 (-1); ShLin 1%nat 1 (-2); ShLin 2%nat 1 (-1)], Some QST_e131);
  (29, 34, [ShLin 0%nat 1 0; ShLin 1%nat 1 (-1); ShLin 2%nat 1 (-2)], [ShLin 0%nat 1 (-1); ShLin 1%nat 1 0; ShLin 2%nat 1 (-3)], Some QST_e94);
  (29, 35, [ShLin 0%nat 1 0; ShLin 1%nat 1 (-1); ShLin 2%nat 1 (-2)], [ShLin 0%nat 1 (-1); ShLin 1%nat 1 0; ShLin 2%nat 1 (-2)], Some QST_e132);
  (29, 36, [ShLin 0%nat 1 0; ShLin 1%nat 1 (-1); ShLin 2%nat 1 (-2)], [ShLin 0%nat 1 (-1); ShLin 1%nat 1 0; ShLin 2%nat 1 (-1)], Some QST_e133);
  (30, 30, [ShLin 0%nat 1 0; ShLin 1%nat 1 (-1); ShLin 2%nat 1 (-1)], [ShLin 0%nat 1 (-1); ShLin 1%nat 1 (-2); ShLin 2%nat 1 (-2)], Some QST_e134);
  (30, 31, [ShLin 0%nat 1 0; ShLin 1%nat 1 (-1); ShLin 2%nat 1 (-1)], [ShLin 0%nat 1 (-1); ShLin 1%nat 1 (-2); ShLin 2%nat 1 (-1)], Some QST_e135);
  (30, 32, [ShLin 0%nat 1 0; ShLin 1%nat 1 (-1); ShLin 2%nat 1 (-1)], [ShLin 0%nat 1 (-1); ShLin 1%nat 1 (-2); ShLin 2%nat 1 0], Some QST_e75);
  (30, 35, [ShLin 0%nat 1 0; ShLin 1%nat 1 (-1); ShLin 2%nat 1 (-1)], [ShLin 0%nat 1 (-1); ShLin 1%nat 1 0; ShLin 2%nat 1 (-2)], Some QST_e136);
  (30, 36, [ShLin 0%nat 1 0; ShLin 1%nat 1 (-1); ShLin 2%nat 1 (-1)], [ShLin 0%nat 1 (-1); ShLin 1%nat 1 0; ShLin 2%nat 1 (-1)], Some QST_e137);
  (30, 37, [ShLin 0%nat 1 0; ShLin 1%nat 1 (-1); ShLin 2%nat 1 (-1)], [ShLin 0%nat 1 (-1); ShLin 1%nat 1 0; ShLin 2%nat 1 0], Some QST_e138);
  (31, 31, [ShLin 0%nat 1 0; ShLin 1%nat 1 (-1); ShLin 2%nat 1 0], [ShLin 0%nat 1 (-1); ShLin 1%nat 1 (-2); ShLin 2%nat 1 (-1)], Some QST_e139);
  (31, 32, [ShLin 0%nat 1 0; ShLin 1%nat 1 (-1); ShLin 2%nat 1 0], [ShLin 0%nat 1 (-1); ShLin 1%nat 1 (-2); ShLin 2%nat 1 0], Some QST_e140);
  (31, 33, [ShLin 0%nat 1 0; ShLin 1%nat 1 (-1); ShLin 2%nat 1 0], [ShLin 0%nat 1 (-1); ShLin 1%nat 1 (-2); ShLin 2%nat 1 1], Some QST_e141);
  (31, 36, [ShLin 0%nat 1 0; ShLin 1%nat 1 (-1); ShLin 2%nat 1 0], [ShLin 0%nat 1 (-1); ShLin 1%nat 1 0; ShLin 2%nat 1 (-1)], Some QST_e142);
  (31, 37, [ShLin 0%nat 1 0; ShLin 1%nat 1 (-1); ShLin 2%nat 1 0], [ShLin 0%nat 1 (-1); ShLin 1%nat 1 0; ShLin 2%nat 1 0], Some QST_e143);
  (31, 38, [ShLin 0%nat 1 0; ShLin 1%nat 1 (-1); ShLin 2%nat 1 0], [ShLin 0%nat 1 (-1); ShLin 1%nat 1 0; ShLin 2%nat 1 1], Some QST_e144);
  (32, 32, [ShLin 0%nat 1 0; ShLin 1%nat 1 (-1); ShLin 2%nat 1 1], [ShLin 0%nat 1 (-1); ShLin 1%nat 1 (-2); ShLin 2%nat 1 0], Some QST_e145);
  (32, 33, [ShLin 0%nat 1 0; ShLin 1%nat 1 (-1); ShLin 2%nat 1 1], [ShLin 0%nat 1 (-1); ShLin 1%nat 1 (-2); ShLin 2%nat 1 1], Some QST_e85);
  (32, 37, [ShLin 0%nat 1 0; ShLin 1%nat 1 (-1); ShLin 2%nat 1 1], [ShLin 0%nat 1 (-1); ShLin 1%nat 1 0; ShLin 2%nat 1 0], Some QST_e146);
  (32, 38, [ShLin 0%nat 1 0; ShLin 1%nat 1 (-1); ShLin 2%nat 1 1], [ShLin 0%nat 1 (-1); ShLin 1%nat 1 0; ShLin 2%nat 1 1], Some QST_e147);
  (33, 33, [ShLin 0%nat 1 0; ShLin 1%nat 1 (-1); ShLin 2%nat 1 2], [ShLin 0%nat 1 (-1); ShLin 1%nat 1 (-2); ShLin 2%nat 1 1], Some QST_e148);
  (33, 38, [ShLin 0%nat 1 0; ShLin 1%nat 1 (-1); ShLin 2%nat 1 2], [ShLin 0%nat 1 (-1); ShLin 1%nat 1 0; ShLin 2%nat 1 1], Some QST_e149);
  (34, 34, [ShLin 0%nat 1 0; ShLin 1%nat 1 1; ShLin 2%nat 1 (-2)], [ShLin 0%nat 1 (-1); ShLin 1%nat 1 0; ShLin 2%nat 1 (-3)], Some QST_e0);
  (34, 35, [ShLin 0%nat 1 0; ShLin 1%nat 1 1; ShLin 2%nat 1 (-2)], [ShLin 0%nat 1 (-1); ShLin 1%nat 1 0; ShLin 2%nat 1 (-2)], Some QST_e150);
  (34, 36, [ShLin 0%nat 1 0; ShLin 1%nat 1 1; ShLin 2%nat 1 (-2)], [ShLin 0%nat 1 (-1); ShLin 1%nat 1 0; ShLin 2%nat 1 (-1)], Some QST_e151);
  (35, 35, [ShLin 0%nat 1 0; ShLin 1%nat 1 1; ShLin 2%nat 1 (-1)], [ShLin 0%nat 1 (-1); ShLin 1%nat 1 0; ShLin 2%nat 1 (-2)], Some QST_e152);
  (35, 36, [ShLin 0%nat 1 0; ShLin 1%nat 1 1; ShLin 2%nat 1 (-1)], [ShLin 0%nat 1 (-1); ShLin 1%nat 1 0; ShLin 2%nat 1 (-1)], Some QST_e153);
  (35, 37, [ShLin 0%nat 1 0; ShLin 1%nat 1 1; ShLin 2%nat 1 (-1)], [ShLin 0%nat 1 (-1); ShLin 1%nat 1 0; ShLin 2%nat 1 0], Some QST_e59);
  (36, 36, [ShLin 0%nat 1 0; ShLin 1%nat 1 1; ShLin 2%nat 1 0], [ShLin 0%nat 1 (-1); ShLin 1%nat 1 0; ShLin 2%nat 1 (-1)], Some QST_e154);
  (36, 37, [ShLin 0%nat 1 0; ShLin 1%nat 1 1; ShLin 2%nat 1 0], [ShLin 0%nat 1 (-1); ShLin 1%nat 1 0; ShLin 2%nat 1 0], Some QST_e155);
  (36, 38, [ShLin 0%nat 1 0; ShLin 1%nat 1 1; ShLin 2%nat 1 0], [ShLin 0%nat 1 (-1); ShLin 1%nat 1 0; ShLin 2%nat 1 1], Some QST_e156);
  (37, 37, [ShLin 0%nat 1 0; ShLin 1%nat 1 1; ShLin 2%nat 1 1], [ShLin 0%nat 1 (-1); ShLin 1%nat 1 0; ShLin 2%nat 1 0], Some QST_e157);
  (37, 38, [ShLin 0%nat 1 0; ShLin 1%nat 1 1; ShLin 2%nat 1 1], [ShLin 0%nat 1 (-1); ShLin 1%nat 1 0; ShLin 2%nat 1 1], Some QST_e158);
  (38, 38, [ShLin 0%nat 1 0; ShLin 1%nat 1 1; ShLin 2%nat 1 2], [ShLin 0%nat 1 (-1); ShLin 1%nat 1 0; ShLin 2%nat 1 1], Some QST_e159);
  (39, 39, [ShLin 0%nat 1 0; ShLin 1%nat 1 (-3); ShLin 2%nat 1 0], [ShLin 0%nat 1 (-1); ShLin 1%nat 1 (-4); ShLin 2%nat 1 (-1)], Some (cN (-1)));
  (39, 40, [ShLin 0%nat 1 0; ShLin 1%nat 1 (-3); ShLin 2%nat 1 0], [ShLin 0%nat 1 (-1); ShLin 1%nat 1 (-2); ShLin 2%nat 1 (-1)], Some QST_e160);
  (40, 40, [ShLin 0%nat 1 0; ShLin 1%nat 1 (-1); ShLin 2%nat 1 0], [ShLin 0%nat 1 (-1); ShLin 1%nat 1 (-2); ShLin 2%nat 1 (-1)], Some QST_e161);
  (40, 41, [ShLin 0%nat 1 0; ShLin 1%nat 1 (-1); ShLin 2%nat 1 0], [ShLin 0%nat 1 (-1); ShLin 1%nat 1 0; ShLin 2%nat 1 (-1)], Some QST_e162);
  (41, 41, [ShLin 0%nat 1 0; ShLin 1%nat 1 1; ShLin 2%nat 1 0], [ShLin 0%nat 1 (-1); ShLin 1%nat 1 0; ShLin 2%nat 1 (-1)], Some QST_e163);
  (41, 42, [ShLin 0%nat 1 0; ShLin 1%nat 1 1; ShLin 2%nat 1 0], [ShLin 0%nat 1 (-1); ShLin 1%nat 1 2; ShLin 2%nat 1 (-1)], Some QST_e164);
  (42, 42, [ShLin 0%nat 1 0; ShLin 1%nat 1 3; ShLin 2%nat 1 0], [ShLin 0%nat 1 (-1); ShLin 1%nat 1 2; ShLin 2%nat 1 (-1)], Some QST_e165);
  (43, 43, [ShLin 0%nat 1 (-1); ShLin 1%nat 1 0; ShLin 2%nat 1 0], [ShLin 0%nat 1 (-2); ShLin 1%nat 1 (-1); ShLin 2%nat 1 (-1)], Some (cN 1));
  (44, 44, [ShLin 0%nat 1 (-1); ShLin 1%nat 1 0; ShLin 2%nat 1 (-2)], [ShLin 0%nat 1 (-2); ShLin 1%nat 1 (-1); ShLin 2%nat 1 (-3)], Some (cN 1));
  (44, 45, [ShLin 0%nat 1 (-1); ShLin 1%nat 1 0; ShLin 2%nat 1 (-2)], [ShLin 0%nat 1 (-2); ShLin 1%nat 1 (-1); ShLin 2%nat 1 (-2)], Some QST_e16);
  (44, 46, [ShLin 0%nat 1 (-1); ShLin 1%nat 1 0; ShLin 2%nat 1 (-2)], [ShLin 0%nat 1 (-2); ShLin 1%nat 1 (-1); ShLin 2%nat 1 (-1)], Some QST_e17);
  (45, 45, [ShLin 0%nat 1 (-1); ShLin 1%nat 1 0; ShLin 2%nat 1 (-1)], [ShLin 0%nat 1 (-2); ShLin 1%nat 1 (-1); ShLin 2%nat 1 (-2)], Some QST_e18);
  (45, 46, [ShLin 0%nat 1 (-1); ShLin 1%nat 1 0; ShLin 2%nat 1 (-1)], [ShLin 0%nat 1 (-2); ShLin 1%nat 1 (-1); ShLin 2%nat 1 (-1)], Some QST_e19);
  (45, 47, [ShLin 0%nat 1 (-1); ShLin 1%nat 1 0; ShLin 2%nat 1 (-1)], [ShLin 0%nat 1 (-2); ShLin 1%nat 1 (-1); ShLin 2%nat 1 0], Some QST_e20);
  (46, 46, [ShLin 0%nat 1 (-1); ShLin 1%nat 1 0; ShLin 2%nat 1 0], [ShLin 0%nat 1 (-2); ShLin 1%nat 1 (-1); ShLin 2%nat 1 (-1)], Some QST_e21);
  (46, 47, [ShLin 0%nat 1 (-1); ShLin 1%nat 1 0; ShLin 2%nat 1 0], [ShLin 0%nat 1 (-2); ShLin 1%nat 1 (-1); ShLin 2%nat 1 0], Some QST_e22);
  (46, 48, [ShLin 0%nat 1 (-1); ShLin 1%nat 1 0; ShLin 2%nat 1 0], [ShLin 0%nat 1 (-2); ShLin 1%nat 1 (-1); ShLin 2%nat 1 1], Some QST_e23);
  (47, 47, [ShLin 0%nat 1 (-1); ShLin 1%nat 1 0; ShLin 2%nat 1 1], [ShLin 0%nat 1 (-2); ShLin 1%nat 1 (-1); ShLin 2%nat 1 0], Some QST_e24);
  (47, 48, [ShLin 0%nat 1 (-1); ShLin 1%nat 1 0; ShLin 2%nat 1 1], [ShLin 0%nat 1 (-2); ShLin 1%nat 1 (-1); ShLin 2%nat 1 1], Some QST_e25);
  (48, 48, [ShLin 0%nat 1 (-1); ShLin 1%nat 1 0; ShLin 2%nat 1 2], [ShLin 0%nat 1 (-2); ShLin 1%nat 1 (-1); ShLin 2%nat 1 1], Some QST_e26);
  (49, 49, [ShLin 0%nat 1 (-1); ShLin 1%nat 1 (-2); ShLin 2%nat 1 (-1)], [ShLin 0%nat 1 (-2); ShLin 1%nat 1 (-3); ShLin 2%nat 1 (-2)], Some (cN 1));
  (49, 50, [ShLin 0%nat 1 (-1); ShLin 1%nat 1 (-2); ShLin 2%nat 1 (-1)], [ShLin 0%nat 1 (-2); ShLin 1%nat 1 (-3); ShLin 2%nat 1 (-1)], Some (cD (cN 1) (cV 2)));
  (49, 51, [ShLin 0%nat 1 (-1); ShLin 1%nat 1 (-2); ShLin 2%nat 1 (-1)], [ShLin 0%nat 1 (-2); ShLin 1%nat 1 (-3); ShLin 2%nat 1 0], Some QST_e48);
  (49, 52, [ShLin 0%nat 1 (-1); ShLin 1%nat 1 (-2); ShLin 2%nat 1 (-1)], [ShLin 0%nat 1 (-2); ShLin 1%nat 1 (-1); ShLin 2%nat 1 (-2)], Some QST_e105);
  (49, 53, [ShLin 0%nat 1 (-1); ShLin 1%nat 1 (-2); ShLin 2%nat 1 (-1)], [ShLin 0%nat 1 (-2); ShLin 1%nat 1 (-1); ShLin 2%nat 1 (-1)], Some QST_e106);
  (49, 54, [ShLin 0%nat 1 (-1); ShLin 1%nat 1 (-2); ShLin 2%nat 1 (-1)], [ShLin 0%nat 1 (-2); ShLin 1%nat 1 (-1); ShLin 2%nat 1 0], Some QST_e107);
  (50, 50, [ShLin 0%nat 1 (-1); ShLin 1%nat 1 (-2); ShLin 2%nat 1 0], [ShLin 0%nat 1 (-2); ShLin 1%nat 1 (-3); ShLin 2%nat 1 (-1)], Some QST_e51);
  (50, 51, [ShLin 0%nat 1 (-1); ShLin 1%nat 1 (-2); ShLin 2%nat 1 0], [ShLin 0%nat 1 (-2); ShLin 1%nat 1 (-3); ShLin 2%nat 1 0], Some QST_e108);
  (50, 53, [ShLin 0%nat 1 (-1); ShLin 1%nat 1 (-2); ShLin 2%nat 1 0], [ShLin 0%nat 1 (-2); ShLin 1%nat 1 (-1); ShLin 2%nat 1 (-1)], Some QST_e109);
  (50, 54, [ShLin 0%nat 1 (-1); ShLin 1%nat 1 (-2); ShLin 2%nat 1 0], [ShLin 0%nat 1 (-2); ShLin 1%nat 1 (-1); ShLin 2%nat 1 0], Some QST_e110);
  (51, 51, [ShLin 0%nat 1 (-1); ShLin 1%nat 1 (-2); ShLin 2%nat 1 1], [ShLin 0%nat 1 (-2); ShLin 1%nat 1 (-3); ShLin 2%nat 1 0], Some QST_e111);
  (51, 54, [ShLin 0%nat 1 (-1); ShLin 1%nat 1 (-2); ShLin 2%nat 1 1], [ShLin 0%nat 1 (-2); ShLin 1%nat 1 (-1); ShLin 2%nat 1 0], Some QST_e112);
  (52, 52, [ShLin 0%nat 1 (-1); ShLin 1%nat 1 0; ShLin 2%nat 1 (-1)], [ShLin 0%nat 1 (-2); ShLin 1%nat 1 (-1); ShLin 2%nat 1 (-2)], Some QST_e113);
  (52, 53, [ShLin 0%nat 1 (-1); ShLin 1%nat 1 0; ShLin 2%nat 1 (-1)], [ShLin 0%nat 1 (-2); ShLin 1%nat 1 (-1); ShLin 2%nat 1 (-1)], Some QST_e114);
  (52, 54, [ShLin 0%nat 1 (-1); ShLin 1%nat 1 0; ShLin 2%nat 1 (-1)], [ShLin 0%nat 1 (-2); ShLin 1%nat 1 (-1); ShLin 2%nat 1 0], Some QST_e115);
  (52, 55, [ShLin 0%nat 1 (-1); ShLin 1%nat 1 0; ShLin 2%nat 1 (-1)], [ShLin 0%nat 1 (-2); ShLin 1%nat 1 1; ShLin 2%nat 1 (-2)], Some QST_e116);
  (52, 56, [ShLin 0%nat 1 (-1); ShLin 1%nat 1 0; ShLin 2%nat 1 (-1)], [ShLin 0%nat 1 (-2); ShLin 1%nat 1 1; ShLin 2%nat 1 (-1)], Some QST_e117);
  (52, 57, [ShLin 0%nat 1 (-1); ShLin 1%nat 1 0; ShLin 2%nat 1 (-1)], [ShLin 0%nat 1 (-2); ShLin 1%nat 1 1; ShLin 2%nat 1 0], Some QST_e118);
  (53, 53, [ShLin 0%nat 1 (-1); ShLin 1%nat 1 0; ShLin 2%nat 1 0], [ShLin 0%nat 1 (-2); ShLin 1%nat 1 (-1); ShLin 2%nat 1 (-1)], Some QST_e119);
  (53, 54, [ShLin 0%nat 1 (-1); ShLin 1%nat 1 0; ShLin 2%nat 1 0], [ShLin 0%nat 1 (-2); ShLin 1%nat 1 (-1); ShLin 2%nat 1 0], Some QST_e120);
  (53, 56, [ShLin 0%nat 1 (-1); ShLin 1%nat 1 0; ShLin 2%nat 1 0], [ShLin 0%nat 1 (-2); ShLin 1%nat 1 1; ShLin 2%nat 1 (-1)], Some QST_e121);
  (53, 57, [ShLin 0%nat 1 (-1); ShLin 1%nat 1 0; ShLin 2%nat 1 0], [ShLin 0%nat 1 (-2); ShLin 1%nat 1 1; ShLin 2%nat 1 0], Some QST_e122);
  (54, 54, [ShLin 0%nat 1 (-1); ShLin 1%nat 1 0; ShLin 2%nat 1 1], [ShLin 0%nat 1 (-2); ShLin 1%nat 1 (-1); ShLin 2%nat 1 0], Some QST_e123);
  (54, 57, [ShLin 0%nat 1 (-1); ShLin 1%nat 1 0; ShLin 2%nat 1 1], [ShLin 0%nat 1 (-2); ShLin 1%nat 1 1; ShLin 2%nat 1 0], Some QST_e124);
  (55, 55, [ShLin 0%nat 1 (-1); ShLin 1%nat 1 2; ShLin 2%nat 1 (-1)], [ShLin 0%nat 1 (-2); ShLin 1%nat 1 1; ShLin 2%nat 1 (-2)], Some QST_e125);
  (55, 56, [ShLin 0%nat 1 (-1); ShLin 1%nat 1 2; ShLin 2%nat 1 (-1)], [ShLin 0%nat 1 (-2); ShLin 1%nat 1 1; ShLin 2%nat 1 (-1)], Some QST_e126);
  (55, 57, [ShLin 0%nat 1 (-1); ShLin 1%nat 1 2; ShLin 2%nat 1 (-1)], [ShLin 0%nat 1 (-2); ShLin 1%nat 1 1; ShLin 2%nat 1 0], Some QST_e127);
  (56, 56, [ShLin 0%nat 1 (-1); ShLin 1%nat 1 2; ShLin 2%nat 1 0], [ShLin 0%nat 1 (-2); ShLin 1%nat 1 1; ShLin 2%nat 1 (-1)], Some QST_e128);
  (56, 57, [ShLin 0%nat 1 (-1); ShLin 1%nat 1 2; ShLin 2%nat 1 0], [ShLin 0%nat 1 (-2); ShLin 1%nat 1 1; ShLin 2%nat 1 0], Some QST_e129);
  (57, 57, [ShLin 0%nat 1 (-1); ShLin 1%nat 1 2; ShLin 2%nat 1 1], [ShLin 0%nat 1 (-2); ShLin 1%nat 1 1; ShLin 2%nat 1 0], Some QST_e130);
  (58, 58, [ShLin 0%nat 1 (-2); ShLin 1%nat 1 (-1); ShLin 2%nat 1 (-1)], [ShLin 0%nat 1 (-3); ShLin 1%nat 1 (-2); ShLin 2%nat 1 (-2)], Some (cN (-1)));
  (58, 59, [ShLin 0%nat 1 (-2); ShLin 1%nat 1 (-1); ShLin 2%nat 1 (-1)], [ShLin 0%nat 1 (-3); ShLin 1%nat 1 (-2); ShLin 2%nat 1 (-1)], Some (cO (cD (cN 1) (cV 2))));
  (58, 60, [ShLin 0%nat 1 (-2); ShLin 1%nat 1 (-1); ShLin 2%nat 1 (-1)], [ShLin 0%nat 1 (-3); ShLin 1%nat 1 (-2); ShLin 2%nat 1 0], Some QST_e9);
  (58, 61, [ShLin 0%nat 1 (-2); ShLin 1%nat 1 (-1); ShLin 2%nat 1 (-1)], [ShLin 0%nat 1 (-3); ShLin 1%nat 1 0; ShLin 2%nat 1 (-2)], Some QST_e94);
  (58, 62, [ShLin 0%nat 1 (-2); ShLin 1%nat 1 (-1); ShLin 2%nat 1 (-1)], [ShLin 0%nat 1 (-3); ShLin 1%nat 1 0; ShLin 2%nat 1 (-1)], Some QST_e95);
  (58, 63, [ShLin 0%nat 1 (-2); ShLin 1%nat 1 (-1); ShLin 2%nat 1 (-1)], [ShLin 0%nat 1 (-3); ShLin 1%nat 1 0; ShLin 2%nat 1 0], Some QST_e96);
  (59, 59, [ShLin 0%nat 1 (-2); ShLin 1%nat 1 (-1); ShLin 2%nat 1 0], [ShLin 0%nat 1 (-3); ShLin 1%nat 1 (-2); ShLin 2%nat 1 (-1)], Some QST_e12);
  (59, 60, [ShLin 0%nat 1 (-2); ShLin 1%nat 1 (-1); ShLin 2%nat 1 0], [ShLin 0%nat 1 (-3); ShLin 1%nat 1 (-2); ShLin 2%nat 1 0], Some QST_e13);
  (59, 62, [ShLin 0%nat 1 (-2); ShLin 1%nat 1 (-1); ShLin 2%nat 1 0], [ShLin 0%nat 1 (-3); ShLin 1%nat 1 0; ShLin 2%nat 1 (-1)], Some QST_e97);
  (59, 63, [ShLin 0%nat 1 (-2); ShLin 1%nat 1 (-1); ShLin 2%nat 1 0], [ShLin 0%nat 1 (-3); ShLin 1%nat 1 0; ShLin 2%nat 1 0], Some QST_e98);
  (60, 60, [ShLin 0%nat 1 (-2); ShLin 1%nat 1 (-1); ShLin 2%nat 1 1], [ShLin 0%nat 1 (-3); ShLin 1%nat 1 (-2); ShLin 2%nat 1 0], Some QST_e99);
  (60, 63, [ShLin 0%nat 1 (-2); ShLin 1%nat 1 (-1); ShLin 2%nat 1 1], [ShLin 0%nat 1 (-3); ShLin 1%nat 1 0; ShLin 2%nat 1 0], Some QST_e100);
  (61, 61, [ShLin 0%nat 1 (-2); ShLin 1%nat 1 1; ShLin 2%nat 1 (-1)], [ShLin 0%nat 1 (-3); ShLin 1%nat 1 0; ShLin 2%nat 1 (-2)], Some QST_e0);
  (61, 62, [ShLin 0%nat 1 (-2); ShLin 1%nat 1 1; ShLin 2%nat 1 (-1)], [ShLin 0%nat 1 (-3); ShLin 1%nat 1 0; ShLin 2%nat 1 (-1)], Some QST_e1);
  (61, 63, [ShLin 0%nat 1 (-2); ShLin 1%nat 1 1; ShLin 2%nat 1 (-1)], [ShLin 0%nat 1 (-3); ShLin 1%nat 1 0; ShLin 2%nat 1 0], Some QST_e101);
  (62, 62, [ShLin 0%nat 1 (-2); ShLin 1%nat 1 1; ShLin 2%nat 1 0], [ShLin 0%nat 1 (-3); ShLin 1%nat 1 0; ShLin 2%nat 1 (-1)], Some QST_e102);
  (62, 63, [ShLin 0%nat 1 (-2); ShLin 1%nat 1 1; ShLin 2%nat 1 0], [ShLin 0%nat 1 (-3); ShLin 1%nat 1 0; ShLin 2%nat 1 0], Some QST_e103);
  (63, 63, [ShLin 0%nat 1 (-2); ShLin 1%nat 1 1; ShLin 2%nat 1 1], [ShLin 0%nat 1 (-3); ShLin 1%nat 1 0; ShLin 2%nat 1 0], Some QST_e104);
  (64, 64, [ShLin 0%nat 1 (-3); ShLin 1%nat 1 0; ShLin 2%nat 1 0], [ShLin 0%nat 1 (-4); ShLin 1%nat 1 (-1); ShLin 2%nat 1 (-1)], Some (cN 1))].
(** /repo/c++/symmetry/nrg-recalc-QST.hpp recalc_doublet, qst/qst-doubletp0.dat *)
Definition qst_t2 : ten_table := mk_ten "doublet" [ShLin 0%nat 1 (-1); ShLin 1%nat 1 1; ShLin 2%nat 1 0] [1; 2; 1] [
  (1, 1, [ShLin 0%nat 1 3; ShLin 1%nat 1 0; ShLin 2%nat 1 0], [ShLin 0%nat 1 2; ShLin 1%nat 1 1; ShLin 2%nat 1 0], Some (cN 1));
  (2, 2, [ShLin 0%nat 1 2; ShLin 1%nat 1 (-1); ShLin 2%nat 1 (-1)], [ShLin 0%nat 1 1; ShLin 1%nat 1 0; ShLin 2%nat 1 (-1)], Some QST_e166);
  (2, 3, [ShLin 0%nat 1 2; ShLin 1%nat 1 (-1); ShLin 2%nat 1 (-1)], [ShLin 0%nat 1 1; ShLin 1%nat 1 0; ShLin 2%nat 1 0], Some QST_e4);
  (3, 2, [ShLin 0%nat 1 2; ShLin 1%nat 1 (-1); ShLin 2%nat 1 0], [ShLin 0%nat 1 1; ShLin 1%nat 1 0; ShLin 2%nat 1 (-1)], Some QST_e167);
  (3, 3, [ShLin 0%nat 1 2; ShLin 1%nat 1 (-1); ShLin 2%nat 1 0], [ShLin 0%nat 1 1; ShLin 1%nat 1 0; ShLin 2%nat 1 0], Some QST_e168);
  (3, 4, [ShLin 0%nat 1 2; ShLin 1%nat 1 (-1); ShLin 2%nat 1 0], [ShLin 0%nat 1 1; ShLin 1%nat 1 0; ShLin 2%nat 1 1], Some QST_e169);
  (4, 3, [ShLin 0%nat 1 2; ShLin 1%nat 1 (-1); ShLin 2%nat 1 1], [ShLin 0%nat 1 1; ShLin 1%nat 1 0; ShLin 2%nat 1 0], Some QST_e170);
  (4, 4, [ShLin 0%nat 1 2; ShLin 1%nat 1 (-1); ShLin 2%nat 1 1], [ShLin 0%nat 1 1; ShLin 1%nat 1 0; ShLin 2%nat 1 1], Some QST_e171);
  (5, 2, [ShLin 0%nat 1 2; ShLin 1%nat 1 1; ShLin 2%nat 1 (-1)], [ShLin 0%nat 1 1; ShLin 1%nat 1 0; ShLin 2%nat 1 (-1)], Some QST_e10);
  (5, 3, [ShLin 0%nat 1 2; ShLin 1%nat 1 1; ShLin 2%nat 1 (-1)], [ShLin 0%nat 1 1; ShLin 1%nat 1 0; ShLin 2%nat 1 0], Some QST_e11);
  (5, 5, [ShLin 0%nat 1 2; ShLin 1%nat 1 1; ShLin 2%nat 1 (-1)], [ShLin 0%nat 1 1; ShLin 1%nat 1 2; ShLin 2%nat 1 (-1)], Some QST_e172);
  (5, 6, [ShLin 0%nat 1 2; ShLin 1%nat 1 1; ShLin 2%nat 1 (-1)], [ShLin 0%nat 1 1; ShLin 1%nat 1 2; ShLin 2%nat 1 0], Some QST_e13);
  (6, 2, [ShLin 0%nat 1 2; ShLin 1%nat 1 1; ShLin 2%nat 1 0], [ShLin 0%nat 1 1; ShLin 1%nat 1 0; ShLin 2%nat 1 (-1)], Some QST_e95);
  (6, 3, [ShLin 0%nat 1 2; ShLin 1%nat 1 1; ShLin 2%nat 1 0], [ShLin 0%nat 1 1; ShLin 1%nat 1 0; ShLin 2%nat 1 0], Some QST_e173);
  (6, 4, [ShLin 0%nat 1 2; ShLin 1%nat 1 1; ShLin 2%nat 1 0], [ShLin 0%nat 1 1; ShLin 1%nat 1 0; ShLin 2%nat 1 1], Some QST_e174);
  (6, 5, [ShLin 0%nat 1 2; ShLin 1%nat 1 1; ShLin 2%nat 1 0], [ShLin 0%nat 1 1; ShLin 1%nat 1 2; ShLin 2%nat 1 (-1)], Some (cD (cN 1) (cV 2)));
  (6, 6, [ShLin 0%nat 1 2; ShLin 1%nat 1 1; ShLin 2%nat 1 0], [ShLin 0%nat 1 1; ShLin 1%nat 1 2; ShLin 2%nat 1 0], Some QST_e175);
  (6, 7, [ShLin 0%nat 1 2; ShLin 1%nat 1 1; ShLin 2%nat 1 0], [ShLin 0%nat 1 1; ShLin 1%nat 1 2; ShLin 2%nat 1 1], Some QST_e176);
  (7, 3, [ShLin 0%nat 1 2; ShLin 1%nat 1 1; ShLin 2%nat 1 1], [ShLin 0%nat 1 1; ShLin 1%nat 1 0; ShLin 2%nat 1 0], Some QST_e177);
  (7, 4, [ShLin 0%nat 1 2; ShLin 1%nat 1 1; ShLin 2%nat 1 1], [ShLin 0%nat 1 1; ShLin 1%nat 1 0; ShLin 2%nat 1 1], Some QST_e178);
  (7, 6, [ShLin 0%nat 1 2; ShLin 1%nat 1 1; ShLin 2%nat 1 1], [ShLin 0%nat 1 1; ShLin 1%nat 1 2; ShLin 2%nat 1 0], Some QST_e179);
  (7, 7, [ShLin 0%nat 1 2; ShLin 1%nat 1 1; ShLin 2%nat 1 1], [ShLin 0%nat 1 1; ShLin 1%nat 1 2; ShLin 2%nat 1 1], Some QST_e180);
  (8, 8, [ShLin 0%nat 1 1; ShLin 1%nat 1 0; ShLin 2%nat 1 0], [ShLin 0%nat 1 0; ShLin 1%nat 1 1; ShLin 2%nat 1 0], Some (cN 1));
  (9, 9, [ShLin 0%nat 1 1; ShLin 1%nat 1 0; ShLin 2%nat 1 (-2)], [ShLin 0%nat 1 0; ShLin 1%nat 1 1; ShLin 2%nat 1 (-2)], Some QST_e181);
  (9, 10, [ShLin 0%nat 1 1; ShLin 1%nat 1 0; ShLin 2%nat 1 (-2)], [ShLin 0%nat 1 0; ShLin 1%nat 1 1; ShLin 2%nat 1 (-1)], Some QST_e182);
  (10, 9, [ShLin 0%nat 1 1; ShLin 1%nat 1 0; ShLin 2%nat 1 (-1)], [ShLin 0%nat 1 0; ShLin 1%nat 1 1; ShLin 2%nat 1 (-2)], Some QST_e68);
  (10, 10, [ShLin 0%nat 1 1; ShLin 1%nat 1 0; ShLin 2%nat 1 (-1)], [ShLin 0%nat 1 0; ShLin 1%nat 1 1; ShLin 2%nat 1 (-1)], Some QST_e183);
  (10, 11, [ShLin 0%nat 1 1; ShLin 1%nat 1 0; ShLin 2%nat 1 (-1)], [ShLin 0%nat 1 0; ShLin 1%nat 1 1; ShLin 2%nat 1 0], Some QST_e22);
  (11, 10, [ShLin 0%nat 1 1; ShLin 1%nat 1 0; ShLin 2%nat 1 0], [ShLin 0%nat 1 0; ShLin 1%nat 1 1; ShLin 2%nat 1 (-1)], Some QST_e184);
  (11, 11, [ShLin 0%nat 1 1; ShLin 1%nat 1 0; ShLin 2%nat 1 0], [ShLin 0%nat 1 0; ShLin 1%nat 1 1; ShLin 2%nat 1 0], Some QST_e185);
  (11, 12, [ShLin 0%nat 1 1; ShLin 1%nat 1 0; ShLin 2%nat 1 0], [ShLin 0%nat 1 0; ShLin 1%nat 1 1; ShLin 2%nat 1 1], Some QST_e186);
  (12, 11, [ShLin 0%nat 1 1; ShLin 1%nat 1 0; ShLin 2%nat 1 1], [ShLin 0%nat 1 0; ShLin 1%nat 1 1; ShLin 2%nat 1 0], Some QST_e187);
  (12, 12, [ShLin 0%nat 1 1; ShLin 1%nat 1 0; ShLin 2%nat 1 1], [ShLin 0%nat 1 0; ShLin 1%nat 1 1; ShLin 2%nat 1 1], Some QST_e188);
  (12, 13, [ShLin 0%nat 1 1; ShLin 1%nat 1 0; ShLin 2%nat 1 1], [ShLin 0%nat 1 0; ShLin 1%nat 1 1; ShLin 2%nat 1 2], Some QST_e189);
  (13, 12, [ShLin 0%nat 1 1; ShLin 1%nat 1 0; ShLin 2%nat 1 2], [ShLin 0%nat 1 0; ShLin 1%nat 1 1; ShLin 2%nat 1 1], Some QST_e190);
  (13, 13, [ShLin 0%nat 1 1; ShLin 1%nat 1 0; ShLin 2%nat 1 2], [ShLin 0%nat 1 0; ShLin 1%nat 1 1; ShLin 2%nat 1 2], Some QST_e191);
  (14, 14, [ShLin 0%nat 1 1; ShLin 1%nat 1 (-2); ShLin 2%nat 1 (-1)], [ShLin 0%nat 1 0; ShLin 1%nat 1 (-1); ShLin 2%nat 1 (-1)], Some QST_e192);
  (14, 15, [ShLin 0%nat 1 1; ShLin 1%nat 1 (-2); ShLin 2%nat 1 (-1)], [ShLin 0%nat 1 0; ShLin 1%nat 1 (-1); ShLin 2%nat 1 0], Some QST_e193);
  (15, 14, [ShLin 0%nat 1 1; ShLin 1%nat 1 (-2); ShLin 2%nat 1 0], [ShLin 0%nat 1 0; ShLin 1%nat 1 (-1); ShLin 2%nat 1 (-1)], Some QST_e194);
  (15, 15, [ShLin 0%nat 1 1; ShLin 1%nat 1 (-2); ShLin 2%nat 1 0], [ShLin 0%nat 1 0; ShLin 1%nat 1 (-1); ShLin 2%nat 1 0], Some QST_e195);
  (15, 16, [ShLin 0%nat 1 1; ShLin 1%nat 1 (-2); ShLin 2%nat 1 0], [ShLin 0%nat 1 0; ShLin 1%nat 1 (-1); ShLin 2%nat 1 1], Some QST_e196);
  (16, 15, [ShLin 0%nat 1 1; ShLin 1%nat 1 (-2); ShLin 2%nat 1 1], [ShLin 0%nat 1 0; ShLin 1%nat 1 (-1); ShLin 2%nat 1 0], Some QST_e197);
  (16, 16, [ShLin 0%nat 1 1; ShLin 1%nat 1 (-2); ShLin 2%nat 1 1], [ShLin 0%nat 1 0; ShLin 1%nat 1 (-1); ShLin 2%nat 1 1], Some QST_e198);
  (17, 14, [ShLin 0%nat 1 1; ShLin 1%nat 1 0; ShLin 2%nat 1 (-1)], [ShLin 0%nat 1 0; ShLin 1%nat 1 (-1); ShLin 2%nat 1 (-1)], Some QST_e199);
  (17, 15, [ShLin 0%nat 1 1; ShLin 1%nat 1 0; ShLin 2%nat 1 (-1)], [ShLin 0%nat 1 0; ShLin 1%nat 1 (-1); ShLin 2%nat 1 0], Some QST_e200);
  (17, 17, [ShLin 0%nat 1 1; ShLin 1%nat 1 0; ShLin 2%nat 1 (-1)], [ShLin 0%nat 1 0; ShLin 1%nat 1 1; ShLin 2%nat 1 (-1)], Some QST_e201);
  (17, 18, [ShLin 0%nat 1 1; ShLin 1%nat 1 0; ShLin 2%nat 1 (-1)], [ShLin 0%nat 1 0; ShLin 1%nat 1 1; ShLin 2%nat 1 0], Some QST_e202);
  (18, 14, [ShLin 0%nat 1 1; ShLin 1%nat 1 0; ShLin 2%nat 1 0], [ShLin 0%nat 1 0; ShLin 1%nat 1 (-1); ShLin 2%nat 1 (-1)], Some QST_e203);
  (18, 15, [ShLin 0%nat 1 1; ShLin 1%nat 1 0; ShLin 2%nat 1 0], [ShLin 0%nat 1 0; ShLin 1%nat 1 (-1); ShLin 2%nat 1 0], Some QST_e204);
  (18, 16, [ShLin 0%nat 1 1; ShLin 1%nat 1 0; ShLin 2%nat 1 0], [ShLin 0%nat 1 0; ShLin 1%nat 1 (-1); ShLin 2%nat 1 1], Some QST_e205);
  (18, 17, [ShLin 0%nat 1 1; ShLin 1%nat 1 0; ShLin 2%nat 1 0], [ShLin 0%nat 1 0; ShLin 1%nat 1 1; ShLin 2%nat 1 (-1)], Some QST_e206);
  (18, 18, [ShLin 0%nat 1 1; ShLin 1%nat 1 0; ShLin 2%nat 1 0], [ShLin 0%nat 1 0; ShLin 1%nat 1 1; ShLin 2%nat 1 0], Some QST_e207);
  (18, 19, [ShLin 0%nat 1 1; ShLin 1%nat 1 0; ShLin 2%nat 1 0], [ShLin 0%nat 1 0; ShLin 1%nat 1 1; ShLin 2%nat 1 1], Some QST_e208);
  (19, 15, [ShLin 0%nat 1 1; ShLin 1%nat 1 0; ShLin 2%nat 1 1], [ShLin 0%nat 1 0; ShLin 1%nat 1 (-1); ShLin 2%nat 1 0], Some QST_e209);
  (19, 16, [ShLin 0%nat 1 1; ShLin 1%nat 1 0; ShLin 2%nat 1 1], [ShLin 0%nat 1 0; ShLin 1%nat 1 (-1); ShLin 2%nat 1 1], Some QST_e210);
  (19, 18, [ShLin 0%nat 1 1; ShLin 1%nat 1 0; ShLin 2%nat 1 1], [ShLin 0%nat 1 0; ShLin 1%nat 1 1; ShLin 2%nat 1 0], Some QST_e211);
  (19, 19, [ShLin 0%nat 1 1; ShLin 1%nat 1 0; ShLin 2%nat 1 1], [ShLin 0%nat 1 0; ShLin 1%nat 1 1; ShLin 2%nat 1 1], Some QST_e212);
  (20, 17, [ShLin 0%nat 1 1; ShLin 1%nat 1 2; ShLin 2%nat 1 (-1)], [ShLin 0%nat 1 0; ShLin 1%nat 1 1; ShLin 2%nat 1 (-1)], Some QST_e213);
  (20, 18, [ShLin 0%nat 1 1; ShLin 1%nat 1 2; ShLin 2%nat 1 (-1)], [ShLin 0%nat 1 0; ShLin 1%nat 1 1; ShLin 2%nat 1 0], Some QST_e214);
  (20, 20, [ShLin 0%nat 1 1; ShLin 1%nat 1 2; ShLin 2%nat 1 (-1)], [ShLin 0%nat 1 0; ShLin 1%nat 1 3; ShLin 2%nat 1 (-1)], Some QST_e51);
  (20, 21, [ShLin 0%nat 1 1; ShLin 1%nat 1 2; ShLin 2%nat 1 (-1)], [ShLin 0%nat 1 0; ShLin 1%nat 1 3; ShLin 2%nat 1 0], Some QST_e108);
  (21, 17, [ShLin 0%nat 1 1; ShLin 1%nat 1 2; ShLin 2%nat 1 0], [ShLin 0%nat 1 0; ShLin 1%nat 1 1; ShLin 2%nat 1 (-1)], Some QST_e117);
  (21, 18, [ShLin 0%nat 1 1; ShLin 1%nat 1 2; ShLin 2%nat 1 0], [ShLin 0%nat 1 0; ShLin 1%nat 1 1; ShLin 2%nat 1 0], Some QST_e215);
  (21, 19, [ShLin 0%nat 1 1; ShLin 1%nat 1 2; ShLin 2%nat 1 0], [ShLin 0%nat 1 0; ShLin 1%nat 1 1; ShLin 2%nat 1 1], Some QST_e216);
  (21, 20, [ShLin 0%nat 1 1; ShLin 1%nat 1 2; ShLin 2%nat 1 0], [ShLin 0%nat 1 0; ShLin 1%nat 1 3; ShLin 2%nat 1 (-1)], Some (cO (cD (cN 1) (cV 2))));
  (21, 21, [ShLin 0%nat 1 1; ShLin 1%nat 1 2; ShLin 2%nat 1 0], [ShLin 0%nat 1 0; ShLin 1%nat 1 3; ShLin 2%nat 1 0], Some QST_e217);
  (21, 22, [ShLin 0%nat 1 1; ShLin 1%nat 1 2; ShLin 2%nat 1 0], [ShLin 0%nat 1 0; ShLin 1%nat 1 3; ShLin 2%nat 1 1], Some QST_e218);
  (22, 18, [ShLin 0%nat 1 1; ShLin 1%nat 1 2; ShLin 2%nat 1 1], [ShLin 0%nat 1 0; ShLin 1%nat 1 1; ShLin 2%nat 1 0], Some QST_e219);
  (22, 19, [ShLin 0%nat 1 1; ShLin 1%nat 1 2; ShLin 2%nat 1 1], [ShLin 0%nat 1 0; ShLin 1%nat 1 1; ShLin 2%nat 1 1], Some QST_e220);
  (22, 21, [ShLin 0%nat 1 1; ShLin 1%nat 1 2; ShLin 2%nat 1 1], [ShLin 0%nat 1 0; ShLin 1%nat 1 3; ShLin 2%nat 1 0], Some QST_e221);
  (22, 22, [ShLin 0%nat 1 1; ShLin 1%nat 1 2; ShLin 2%nat 1 1], [ShLin 0%nat 1 0; ShLin 1%nat 1 3; ShLin 2%nat 1 1], Some QST_e222);
  (23, 23, [ShLin 0%nat 1 0; ShLin 1%nat 1 (-1); ShLin 2%nat 1 (-1)], [ShLin 0%nat 1 (-1); ShLin 1%nat 1 0; ShLin 2%nat 1 (-1)], Some QST_e166);
  (23, 24, [ShLin 0%nat 1 0; ShLin 1%nat 1 (-1); ShLin 2%nat 1 (-1)], [ShLin 0%nat 1 (-1); ShLin 1%nat 1 0; ShLin 2%nat 1 0], Some QST_e4);
  (24, 23, [ShLin 0%nat 1 0; ShLin 1%nat 1 (-1); ShLin 2%nat 1 0], [ShLin 0%nat 1 (-1); ShLin 1%nat 1 0; ShLin 2%nat 1 (-1)], Some QST_e167);
  (24, 24, [ShLin 0%nat 1 0; ShLin 1%nat 1 (-1); ShLin 2%nat 1 0], [ShLin 0%nat 1 (-1); ShLin 1%nat 1 0; ShLin 2%nat 1 0], Some QST_e168);
  (24, 25, [ShLin 0%nat 1 0; ShLin 1%nat 1 (-1); ShLin 2%nat 1 0], [ShLin 0%nat 1 (-1); ShLin 1%nat 1 0; ShLin 2%nat 1 1], Some QST_e169);
  (25, 24, [ShLin 0%nat 1 0; ShLin 1%nat 1 (-1); ShLin 2%nat 1 1], [ShLin 0%nat 1 (-1); ShLin 1%nat 1 0; ShLin 2%nat 1 0], Some QST_e170);
  (25, 25, [ShLin 0%nat 1 0; ShLin 1%nat 1 (-1); ShLin 2%nat 1 1], [ShLin 0%nat 1 (-1); ShLin 1%nat 1 0; ShLin 2%nat 1 1], Some QST_e171);
  (26, 23, [ShLin 0%nat 1 0; ShLin 1%nat 1 1; ShLin 2%nat 1 (-1)], [ShLin 0%nat 1 (-1); ShLin 1%nat 1 0; ShLin 2%nat 1 (-1)], Some QST_e10);
  (26, 24, [ShLin 0%nat 1 0; ShLin 1%nat 1 1; ShLin 2%nat 1 (-1)], [ShLin 0%nat 1 (-1); ShLin 1%nat 1 0; ShLin 2%nat 1 0], Some QST_e11);
  (26, 26, [ShLin 0%nat 1 0; ShLin 1%nat 1 1; ShLin 2%nat 1 (-1)], [ShLin 0%nat 1 (-1); ShLin 1%nat 1 2; ShLin 2%nat 1 (-1)], Some QST_e172);
  (26, 27, [ShLin 0%nat 1 0; ShLin 1%nat 1 1; ShLin 2%nat 1 (-1)], [ShLin 0%nat 1 (-1); ShLin 1%nat 1 2; ShLin 2%nat 1 0], Some QST_e13);
  (27, 23, [ShLin 0%nat 1 0; ShLin 1%nat 1 1; ShLin 2%nat 1 0], [ShLin 0%nat 1 (-1); ShLin 1%nat 1 0; ShLin 2%nat 1 (-1)], Some QST_e95);
  (27, 24, [ShLin 0%nat 1 0; ShLin 1%nat 1 1; ShLin 2%nat 1 0], [ShLin 0%nat 1 (-1); ShLin 1%nat 1 0; ShLin 2%nat 1 0], Some QST_e173);
  (27, 25, [ShLin 0%nat 1 0; ShLin 1%nat 1 1; ShLin 2%nat 1 0], [ShLin 0%nat 1 (-1); ShLin 1%nat 1 0; ShLin 2%nat 1 1], Some QST_e174);
  (27, 26, [ShLin 0%nat 1 0; ShLin 1%nat 1 1; ShLin 2%nat 1 0], [ShLin 0%nat 1 (-1); ShLin 1%nat 1 2; ShLin 2%nat 1 (-1)], Some (cD (cN 1) (cV 2)));
  (27, 27, [ShLin 0%nat 1 0; ShLin 1%nat 1 1; ShLin 2%nat 1 0], [ShLin 0%nat 1 (-1); ShLin 1%nat 1 2; ShLin 2%nat 1 0], Some QST_e175);
  (27, 28, [ShLin 0%nat 1 0; ShLin 1%nat 1 1; ShLin 2%nat 1 0], [ShLin 0%nat 1 (-1); ShLin 1%nat 1 2; ShLin 2%nat 1 1], Some QST_e176);
  (28, 24, [ShLin 0%nat 1 0; ShLin 1%nat 1 1; ShLin 2%nat 1 1], [ShLin 0%nat 1 (-1); ShLin 1%nat 1 0; ShLin 2%nat 1 0], Some QST_e177);
  (28, 25, [ShLin 0%nat 1 0; ShLin 1%nat 1 1; ShLin 2%nat 1 1], [ShLin 0%nat 1 (-1); ShLin 1%nat 1 0; ShLin 2%nat 1 1], Some QST_e178);
  (28, 27, [ShLin 0%nat 1 0; ShLin 1%nat 1 1; ShLin 2%nat 1 1], [ShLin 0%nat 1 (-1); ShLin 1%nat 1 2; ShLin 2%nat 1 0], Some QST_e179);
  (28, 28, [ShLin 0%nat 1 0; ShLin 1%nat 1 1; ShLin 2%nat 1 1], [ShLin 0%nat 1 (-1); ShLin 1%nat 1 2; ShLin 2%nat 1 1], Some QST_e180);
  (29, 29, [ShLin 0%nat 1 0; ShLin 1%nat 1 (-1); ShLin 2%nat 1 (-2)], [ShLin 0%nat 1 (-1); ShLin 1%nat 1 0; ShLin 2%nat 1 (-2)], Some QST_e223);
  (29, 30, [ShLin 0%nat 1 0; ShLin 1%nat 1 (-1); ShLin 2%nat 1 (-2)], [ShLin 0%nat 1 (-1); ShLin 1%nat 1 0; ShLin 2%nat 1 (-1)], Some QST_e224);
  (30, 29, [ShLin 0%nat 1 0; ShLin 1%nat 1 (-1); ShLin 2%nat 1 (-1)], [ShLin 0%nat 1 (-1); ShLin 1%nat 1 0; ShLin 2%nat 1 (-2)], Some QST_e225);
  (30, 30, [ShLin 0%nat 1 0; ShLin 1%nat 1 (-1); ShLin 2%nat 1 (-1)], [ShLin 0%nat 1 (-1); ShLin 1%nat 1 0; ShLin 2%nat 1 (-1)], Some QST_e226);
  (30, 31, [ShLin 0%nat 1 0; ShLin 1%nat 1 (-1); ShLin 2%nat 1 (-1)], [ShLin 0%nat 1 (-1); ShLin 1%nat 1 0; ShLin 2%nat 1 0], Some QST_e227);
  (31, 30, [ShLin 0%nat 1 0; ShLin 1%nat 1 (-1); ShLin 2%nat 1 0], [ShLin 0%nat 1 (-1); ShLin 1%nat 1 0; ShLin 2%nat 1 (-1)], Some QST_e228);
  (31, 31, [ShLin 0%nat 1 0; ShLin 1%nat 1 (-1); ShLin 2%nat 1 0], [ShLin 0%nat 1 (-1); ShLin 1%nat 1 0; ShLin 2%nat 1 0], Some QST_e229);
  (31, 32, [ShLin 0%nat 1 0; ShLin 1%nat 1 (-1); ShLin 2%nat 1 0], [ShLin 0%nat 1 (-1); ShLin 1%nat 1 0; ShLin 2%nat 1 1], Some QST_e230);
  (32, 31, [ShLin 0%nat 1 0; ShLin 1%nat 1 (-1); ShLin 2%nat 1 1], [ShLin 0%nat 1 (-1); ShLin 1%nat 1 0; ShLin 2%nat 1 0], Some QST_e231);
  (32, 32, [ShLin 0%nat 1 0; ShLin 1%nat 1 (-1); ShLin 2%nat 1 1], [ShLin 0%nat 1 (-1); ShLin 1%nat 1 0; ShLin 2%nat 1 1], Some QST_e232);
  (32, 33, [ShLin 0%nat 1 0; ShLin 1%nat 1 (-1); ShLin 2%nat 1 1], [ShLin 0%nat 1 (-1); ShLin 1%nat 1 0; ShLin 2%nat 1 2], Some QST_e233);
  (33, 32, [ShLin 0%nat 1 0; ShLin 1%nat 1 (-1); ShLin 2%nat 1 2], [ShLin 0%nat 1 (-1); ShLin 1%nat 1 0; ShLin 2%nat 1 1], Some QST_e234);
  (33, 33, [ShLin 0%nat 1 0; ShLin 1%nat 1 (-1); ShLin 2%nat 1 2], [ShLin 0%nat 1 (-1); ShLin 1%nat 1 0; ShLin 2%nat 1 2], Some QST_e235);
  (34, 29, [ShLin 0%nat 1 0; ShLin 1%nat 1 1; ShLin 2%nat 1 (-2)], [ShLin 0%nat 1 (-1); ShLin 1%nat 1 0; ShLin 2%nat 1 (-2)], Some QST_e236);
  (34, 30, [ShLin 0%nat 1 0; ShLin 1%nat 1 1; ShLin 2%nat 1 (-2)], [ShLin 0%nat 1 (-1); ShLin 1%nat 1 0; ShLin 2%nat 1 (-1)], Some QST_e237);
  (34, 34, [ShLin 0%nat 1 0; ShLin 1%nat 1 1; ShLin 2%nat 1 (-2)], [ShLin 0%nat 1 (-1); ShLin 1%nat 1 2; ShLin 2%nat 1 (-2)], Some QST_e238);
  (34, 35, [ShLin 0%nat 1 0; ShLin 1%nat 1 1; ShLin 2%nat 1 (-2)], [ShLin 0%nat 1 (-1); ShLin 1%nat 1 2; ShLin 2%nat 1 (-1)], Some QST_e239);
  (35, 29, [ShLin 0%nat 1 0; ShLin 1%nat 1 1; ShLin 2%nat 1 (-1)], [ShLin 0%nat 1 (-1); ShLin 1%nat 1 0; ShLin 2%nat 1 (-2)], Some QST_e132);
  (35, 30, [ShLin 0%nat 1 0; ShLin 1%nat 1 1; ShLin 2%nat 1 (-1)], [ShLin 0%nat 1 (-1); ShLin 1%nat 1 0; ShLin 2%nat 1 (-1)], Some QST_e240);
  (35, 31, [ShLin 0%nat 1 0; ShLin 1%nat 1 1; ShLin 2%nat 1 (-1)], [ShLin 0%nat 1 (-1); ShLin 1%nat 1 0; ShLin 2%nat 1 0], Some QST_e241);
  (35, 34, [ShLin 0%nat 1 0; ShLin 1%nat 1 1; ShLin 2%nat 1 (-1)], [ShLin 0%nat 1 (-1); ShLin 1%nat 1 2; ShLin 2%nat 1 (-2)], Some QST_e242);
  (35, 35, [ShLin 0%nat 1 0; ShLin 1%nat 1 1; ShLin 2%nat 1 (-1)], [ShLin 0%nat 1 (-1); ShLin 1%nat 1 2; ShLin 2%nat 1 (-1)], Some QST_e243);
  (35, 36, [ShLin 0%nat 1 0; ShLin 1%nat 1 1; ShLin 2%nat 1 (-1)], [ShLin 0%nat 1 (-1); ShLin 1%nat 1 2; ShLin 2%nat 1 0], Some QST_e244);
  (36, 30, [ShLin 0%nat 1 0; ShLin 1%nat 1 1; ShLin 2%nat 1 0], [ShLin 0%nat 1 (-1); ShLin 1%nat 1 0; ShLin 2%nat 1 (-1)], Some QST_e245);
  (36, 31, [ShLin 0%nat 1 0; ShLin 1%nat 1 1; ShLin 2%nat 1 0], [ShLin 0%nat 1 (-1); ShLin 1%nat 1 0; ShLin 2%nat 1 0], Some QST_e246);
  (36, 32, [ShLin 0%nat 1 0; ShLin 1%nat 1 1; ShLin 2%nat 1 0], [ShLin 0%nat 1 (-1); ShLin 1%nat 1 0; ShLin 2%nat 1 1], Some QST_e247);
  (36, 35, [ShLin 0%nat 1 0; ShLin 1%nat 1 1; ShLin 2%nat 1 0], [ShLin 0%nat 1 (-1); ShLin 1%nat 1 2; ShLin 2%nat 1 (-1)], Some QST_e248);
  (36, 36, [ShLin 0%nat 1 0; ShLin 1%nat 1 1; ShLin 2%nat 1 0], [ShLin 0%nat 1 (-1); ShLin 1%nat 1 2; ShLin 2%nat 1 0], Some QST_e249);
  (36, 37, [ShLin 0%nat 1 0; ShLin 1%nat 1 1; ShLin 2%nat 1 0], [ShLin 0%nat 1 (-1); ShLin 1%nat 1 2; ShLin 2%nat 1 1], Some QST_e250);
  (37, 31, [ShLin 0%nat 1 0; ShLin 1%nat 1 1; ShLin 2%nat 1 1], [ShLin 0%nat 1 (-1); ShLin 1%nat 1 0; ShLin 2%nat 1 0], Some QST_e251);
  (37, 32, [ShLin 0%nat 1 0; ShLin 1%nat 1 1; ShLin 2%nat 1 1], [ShLin 0%nat 1 (-1); ShLin 1%nat 1 0; ShLin 2%nat 1 1], Some QST_e252);
  (37, 33, [ShLin 0%nat 1 0; ShLin 1%nat 1 1; ShLin 2%nat 1 1], [ShLin 0%nat 1 (-1); ShLin 1%nat 1 0; ShLin 2%nat 1 2], Some QST_e253);
  (37, 36, [ShLin 0%nat 1 0; ShLin 1%nat 1 1; ShLin 2%nat 1 1], [ShLin 0%nat 1 (-1); ShLin 1%nat 1 2; ShLin 2%nat 1 0], Some QST_e254);
  (37, 37, [ShLin 0%nat 1 0; ShLin 1%nat 1 1; ShLin 2%nat 1 1], [ShLin 0%nat 1 (-1); ShLin 1%nat 1 2; ShLin 2%nat 1 1], Some QST_e255);
  (37, 38, [ShLin 0%nat 1 0; ShLin 1%nat 1 1; ShLin 2%nat 1 1], [ShLin 0%nat 1 (-1); ShLin 1%nat 1 2; ShLin 2%nat 1 2], Some QST_e256);
  (38, 32, [ShLin 0%nat 1 0; ShLin 1%nat 1 1; ShLin 2%nat 1 2], [ShLin 0%nat 1 (-1); ShLin 1%nat 1 0; ShLin 2%nat 1 1], Some QST_e257);
  (38, 33, [ShLin 0%nat 1 0; ShLin 1%nat 1 1; ShLin 2%nat 1 2], [ShLin 0%nat 1 (-1); ShLin 1%nat 1 0; ShLin 2%nat 1 2], Some QST_e258);
  (38, 37, [ShLin 0%nat 1 0; ShLin 1%nat 1 1; ShLin 2%nat 1 2], [ShLin 0%nat 1 (-1); ShLin 1%nat 1 2; ShLin 2%nat 1 1], Some QST_e259);
  (38, 38, [ShLin 0%nat 1 0; ShLin 1%nat 1 1; ShLin 2%nat 1 2], [ShLin 0%nat 1 (-1); ShLin 1%nat 1 2; ShLin 2%nat 1 2], Some QST_e260);
  (39, 39, [ShLin 0%nat 1 0; ShLin 1%nat 1 (-3); ShLin 2%nat 1 0], [ShLin 0%nat 1 (-1); ShLin 1%nat 1 (-2); ShLin 2%nat 1 0], Some QST_e88);
  (40, 39, [ShLin 0%nat 1 0; ShLin 1%nat 1 (-1); ShLin 2%nat 1 0], [ShLin 0%nat 1 (-1); ShLin 1%nat 1 (-2); ShLin 2%nat 1 0], Some QST_e89);
  (40, 40, [ShLin 0%nat 1 0; ShLin 1%nat 1 (-1); ShLin 2%nat 1 0], [ShLin 0%nat 1 (-1); ShLin 1%nat 1 0; ShLin 2%nat 1 0], Some QST_e90);
  (41, 40, [ShLin 0%nat 1 0; ShLin 1%nat 1 1; ShLin 2%nat 1 0], [ShLin 0%nat 1 (-1); ShLin 1%nat 1 0; ShLin 2%nat 1 0], Some QST_e91);
  (41, 41, [ShLin 0%nat 1 0; ShLin 1%nat 1 1; ShLin 2%nat 1 0], [ShLin 0%nat 1 (-1); ShLin 1%nat 1 2; ShLin 2%nat 1 0], Some QST_e92);
  (42, 41, [ShLin 0%nat 1 0; ShLin 1%nat 1 3; ShLin 2%nat 1 0], [ShLin 0%nat 1 (-1); ShLin 1%nat 1 2; ShLin 2%nat 1 0], Some QST_e93);
  (42, 42, [ShLin 0%nat 1 0; ShLin 1%nat 1 3; ShLin 2%nat 1 0], [ShLin 0%nat 1 (-1); ShLin 1%nat 1 4; ShLin 2%nat 1 0], Some (cN (-1)));
  (43, 43, [ShLin 0%nat 1 (-1); ShLin 1%nat 1 0; ShLin 2%nat 1 0], [ShLin 0%nat 1 (-2); ShLin 1%nat 1 1; ShLin 2%nat 1 0], Some (cN 1));
  (44, 44, [ShLin 0%nat 1 (-1); ShLin 1%nat 1 0; ShLin 2%nat 1 (-2)], [ShLin 0%nat 1 (-2); ShLin 1%nat 1 1; ShLin 2%nat 1 (-2)], Some QST_e181);
  (44, 45, [ShLin 0%nat 1 (-1); ShLin 1%nat 1 0; ShLin 2%nat 1 (-2)], [ShLin 0%nat 1 (-2); ShLin 1%nat 1 1; ShLin 2%nat 1 (-1)], Some QST_e182);
  (45, 44, [ShLin 0%nat 1 (-1); ShLin 1%nat 1 0; ShLin 2%nat 1 (-1)], [ShLin 0%nat 1 (-2); ShLin 1%nat 1 1; ShLin 2%nat 1 (-2)], Some QST_e68);
  (45, 45, [ShLin 0%nat 1 (-1); ShLin 1%nat 1 0; ShLin 2%nat 1 (-1)], [ShLin 0%nat 1 (-2); ShLin 1%nat 1 1; ShLin 2%nat 1 (-1)], Some QST_e183);
  (45, 46, [ShLin 0%nat 1 (-1); ShLin 1%nat 1 0; ShLin 2%nat 1 (-1)], [ShLin 0%nat 1 (-2); ShLin 1%nat 1 1; ShLin 2%nat 1 0], Some QST_e22);
  (46, 45, [ShLin 0%nat 1 (-1); ShLin 1%nat 1 0; ShLin 2%nat 1 0], [ShLin 0%nat 1 (-2); ShLin 1%nat 1 1; ShLin 2%nat 1 (-1)], Some QST_e184);
  (46, 46, [ShLin 0%nat 1 (-1); ShLin 1%nat 1 0; ShLin 2%nat 1 0], [ShLin 0%nat 1 (-2); ShLin 1%nat 1 1; ShLin 2%nat 1 0], Some QST_e185);
  (46, 47, [ShLin 0%nat 1 (-1); ShLin 1%nat 1 0; ShLin 2%nat 1 0], [ShLin 0%nat 1 (-2); ShLin 1%nat 1 1; ShLin 2%nat 1 1], Some QST_e186);
  (47, 46, [ShLin 0%nat 1 (-1); ShLin 1%nat 1 0; ShLin 2%nat 1 1], [ShLin 0%nat 1 (-2); ShLin 1%nat 1 1; ShLin 2%nat 1 0], Some QST_e187);
  (47, 47, [ShLin 0%nat 1 (-1); ShLin 1%nat 1 0; ShLin 2%nat 1 1], [ShLin 0%nat 1 (-2); ShLin 1%nat 1 1; ShLin 2%nat 1 1], Some QST_e188);
  (47, 48, [ShLin 0%nat 1 (-1); ShLin 1%nat 1 0; ShLin 2%nat 1 1], [ShLin 0%nat 1 (-2); ShLin 1%nat 1 1; ShLin 2%nat 1 2], Some QST_e189);
  (48, 47, [ShLin 0%nat 1 (-1); ShLin 1%nat 1 0; ShLin 2%nat 1 2], [ShLin 0%nat 1 (-2); ShLin 1%nat 1 1; ShLin 2%nat 1 1], Some QST_e190);
  (48, 48, [ShLin 0%nat 1 (-1); ShLin 1%nat 1 0; ShLin 2%nat 1 2], [ShLin 0%nat 1 (-2); ShLin 1%nat 1 1; ShLin 2%nat 1 2], Some QST_e191);
  (49, 49, [ShLin 0%nat 1 (-1); ShLin 1%nat 1 (-2); ShLin 2%nat 1 (-1)], [ShLin 0%nat 1 (-2); ShLin 1%nat 1 (-1); ShLin 2%nat 1 (-1)], Some QST_e192);
  (49, 50, [ShLin 0%nat 1 (-1); ShLin 1%nat 1 (-2); ShLin 2%nat 1 (-1)], [ShLin 0%nat 1 (-2); ShLin 1%nat 1 (-1); ShLin 2%nat 1 0], Some QST_e193);
  (50, 49, [ShLin 0%nat 1 (-1); ShLin 1%nat 1 (-2); ShLin 2%nat 1 0], [ShLin 0%nat 1 (-2); ShLin 1%nat 1 (-1); ShLin 2%nat 1 (-1)], Some QST_e194);
  (50, 50, [ShLin 0%nat 1 (-1); ShLin 1%nat 1 (-2); ShLin 2%nat 1 0], [ShLin 0%nat 1 (-2); ShLin 1%nat 1 (-1); ShLin 2%nat 1 0], Some QST_e195);
  (50, 51, [ShLin 0%nat 1 (-1); ShLin 1%nat 1 (-2); ShLin 2%nat 1 0], [ShLin 0%nat 1 (-2); ShLin 1%nat 1 (-1); ShLin 2%nat 1 1], Some QST_e196);
  (51, 50, [ShLin 0%nat 1 (-1); ShLin 1%nat 1 (-2); ShLin 2%nat 1 1], [ShLin 0%nat 1 (-2); ShLin 1%nat 1 (-1); ShLin 2%nat 1 0], Some QST_e197);
  (51, 51, [ShLin 0%nat 1 (-1); ShLin 1%nat 1 (-2); ShLin 2%nat 1 1], [ShLin 0%nat 1 (-2); ShLin 1%nat 1 (-1); ShLin 2%nat 1 1], Some QST_e198);
  (52, 49, [ShLin 0%nat 1 (-1); ShLin 1%nat 1 0; ShLin 2%nat 1 (-1)], [ShLin 0%nat 1 (-2); ShLin 1%nat 1 (-1); ShLin 2%nat 1 (-1)], Some QST_e199);
  (52, 50, [ShLin 0%nat 1 (-1); ShLin 1%nat 1 0; ShLin 2%nat 1 (-1)], [ShLin 0%nat 1 (-2); ShLin 1%nat 1 (-1); ShLin 2%nat 1 0], Some QST_e200);
  (52, 52, [ShLin 0%nat 1 (-1); ShLin 1%nat 1 0; ShLin 2%nat 1 (-1)], [ShLin 0%nat 1 (-2); ShLin 1%nat 1 1; ShLin 2%nat 1 (-1)], Some QST_e201);
  (52, 53, [ShLin 0%nat 1 (-1); ShLin 1%nat 1 0; ShLin 2%nat 1 (-1)], [ShLin 0%nat 1 (-2); ShLin 1%nat 1 1; ShLin 2%nat 1 0], Some QST_e202);
  (53, 49, [ShLin 0%nat 1 (-1); ShLin 1%nat 1 0; ShLin 2%nat 1 0], [ShLin 0%nat 1 (-2); ShLin 1%nat 1 (-1); ShLin 2%nat 1 (-1)], Some QST_e203);
  (53, 50, [ShLin 0%nat 1 (-1); ShLin 1%nat 1 0; ShLin 2%nat 1 0], [ShLin 0%nat 1 (-2); ShLin 1%nat 1 (-1); ShLin 2%nat 1 0], Some QST_e204);
  (53, 51, [ShLin 0%nat 1 (-1); ShLin 1%nat 1 0; ShLin 2%nat 1 0], [ShLin 0%nat 1 (-2); ShLin 1%nat 1 (-1); ShLin 2%nat 1 1], Some QST_e205);
  (53, 52, [ShLin 0%nat 1 (-1); ShLin 1%nat 1 0; ShLin 2%nat 1 0], [ShLin 0%nat 1 (-2); ShLin 1%nat 1 1; ShLin 2%nat 1 (-1)], Some QST_e206);
  (53, 53, [ShLin 0%nat 1 (-1); ShLin 1%nat 1 0; ShLin 2%nat 1 0], [ShLin 0%nat 1 (-2); ShLin 1%nat 1 1; ShLin 2%nat 1 0], Some QST_e207);
  (53, 54, [ShLin 0%nat 1 (-1); ShLin 1%nat 1 0; ShLin 2%nat 1 0], [ShLin 0%nat 1 (-2); ShLin 1%nat 1 1; ShLin 2%nat 1 1], Some QST_e208);
  (54, 50, [ShLin 0%nat 1 (-1); ShLin 1%nat 1 0; ShLin 2%nat 1 1], [ShLin 0%nat 1 (-2); ShLin 1%nat 1 (-1); ShLin 2%nat 1 0], Some QST_e209);
  (54, 51, [ShLin 0%nat 1 (-1); ShLin 1%nat 1 0; ShLin 2%nat 1 1], [ShLin 0%nat 1 (-2); ShLin 1%nat 1 (-1); ShLin 2%nat 1 1], Some QST_e210);
  (54, 53, [ShLin 0%nat 1 (-1); ShLin 1%nat 1 0; ShLin 2%nat 1 1], [ShLin 0%nat 1 (-2); ShLin 1%nat 1 1; ShLin 2%nat 1 0], Some QST_e211);
  (54, 54, [ShLin 0%nat 1 (-1); ShLin 1%nat 1 0; ShLin 2%nat 1 1], [ShLin 0%nat 1 (-2); ShLin 1%nat 1 1; ShLin 2%nat 1 1], Some QST_e212);
  (55, 52, [ShLin 0%nat 1 (-1); ShLin 1%nat 1 2; ShLin 2%nat 1 (-1)], [ShLin 0%nat 1 (-2); ShLin 1%nat 1 1; ShLin 2%nat 1 (-1)], Some QST_e213);
  (55, 53, [ShLin 0%nat 1 (-1); ShLin 1%nat 1 2; ShLin 2%nat 1 (-1)], [ShLin 0%nat 1 (-2); ShLin 1%nat 1 1; ShLin 2%nat 1 0], Some QST_e214);
  (55, 55, [ShLin 0%nat 1 (-1); ShLin 1%nat 1 2; ShLin 2%nat 1 (-1)], [ShLin 0%nat 1 (-2); ShLin 1%nat 1 3; ShLin 2%nat 1 (-1)], Some QST_e51);
  (55, 56, [ShLin 0%nat 1 (-1); ShLin 1%nat 1 2; ShLin 2%nat 1 (-1)], [ShLin 0%nat 1 (-2); ShLin 1%nat 1 3; ShLin 2%nat 1 0], Some QST_e108);
  (56, 52, [ShLin 0%nat 1 (-1); ShLin 1%nat 1 2; ShLin 2%nat 1 0], [ShLin 0%nat 1 (-2); ShLin 1%nat 1 1; ShLin 2%nat 1 (-1)], Some QST_e117);
  (56, 53, [ShLin 0%nat 1 (-1); ShLin 1%nat 1 2; ShLin 2%nat 1 0], [ShLin 0%nat 1 (-2); ShLin 1%nat 1 1; ShLin 2%nat 1 0], Some QST_e215);
  (56, 54, [ShLin 0%nat 1 (-1); ShLin 1%nat 1 2; ShLin 2%nat 1 0], [ShLin 0%nat 1 (-2); ShLin 1%nat 1 1; ShLin 2%nat 1 1], Some QST_e216);
  (56, 55, [ShLin 0%nat 1 (-1); ShLin 1%nat 1 2; ShLin 2%nat 1 0], [ShLin 0%nat 1 (-2); ShLin 1%nat 1 3; ShLin 2%nat 1 (-1)], Some (cO (cD (cN 1) (cV 2))));
  (56, 56, [ShLin 0%nat 1 (-1); ShLin 1%nat 1 2; ShLin 2%nat 1 0], [ShLin 0%nat 1 (-2); ShLin 1%nat 1 3; ShLin 2%nat 1 0], Some QST_e217);
  (56, 57, [ShLin 0%nat 1 (-1); ShLin 1%nat 1 2; ShLin 2%nat 1 0], [ShLin 0%nat 1 (-2); ShLin 1%nat 1 3; ShLin 2%nat 1 1], Some QST_e218);
  (57, 53, [ShLin 0%nat 1 (-1); ShLin 1%nat 1 2; ShLin 2%nat 1 1], [ShLin 0%nat 1 (-2); ShLin 1%nat 1 1; ShLin 2%nat 1 0], Some QST_e219);
  (57, 54, [ShLin 0%nat 1 (-1); ShLin 1%nat 1 2; ShLin 2%nat 1 1], [ShLin 0%nat 1 (-2); ShLin 1%nat 1 1; ShLin 2%nat 1 1], Some QST_e220);
  (57, 56, [ShLin 0%nat 1 (-1); ShLin 1%nat 1 2; ShLin 2%nat 1 1], [ShLin 0%nat 1 (-2); ShLin 1%nat 1 3; ShLin 2%nat 1 0], Some QST_e221);
  (57, 57, [ShLin 0%nat 1 (-1); ShLin 1%nat 1 2; ShLin 2%nat 1 1], [ShLin 0%nat 1 (-2); ShLin 1%nat 1 3; ShLin 2%nat 1 1], Some QST_e222);
  (58, 58, [ShLin 0%nat 1 (-2); ShLin 1%nat 1 (-1); ShLin 2%nat 1 (-1)], [ShLin 0%nat 1 (-3); ShLin 1%nat 1 0; ShLin 2%nat 1 (-1)], Some QST_e166);
  (58, 59, [ShLin 0%nat 1 (-2); ShLin 1%nat 1 (-1); ShLin 2%nat 1 (-1)], [ShLin 0%nat 1 (-3); ShLin 1%nat 1 0; ShLin 2%nat 1 0], Some QST_e4);
  (59, 58, [ShLin 0%nat 1 (-2); ShLin 1%nat 1 (-1); ShLin 2%nat 1 0], [ShLin 0%nat 1 (-3); ShLin 1%nat 1 0; ShLin 2%nat 1 (-1)], Some QST_e167);
  (59, 59, [ShLin 0%nat 1 (-2); ShLin 1%nat 1 (-1); ShLin 2%nat 1 0], [ShLin 0%nat 1 (-3); ShLin 1%nat 1 0; ShLin 2%nat 1 0], Some QST_e168);
  (59, 60, [ShLin 0%nat 1 (-2); ShLin 1%nat 1 (-1); ShLin 2%nat 1 0], [ShLin 0%nat 1 (-3); ShLin 1%nat 1 0; ShLin 2%nat 1 1], Some QST_e169);
  (60, 59, [ShLin 0%nat 1 (-2); ShLin 1%nat 1 (-1); ShLin 2%nat 1 1], [ShLin 0%nat 1 (-3); ShLin 1%nat 1 0; ShLin 2%nat 1 0], Some QST_e170);
  (60, 60, [ShLin 0%nat 1 (-2); ShLin 1%nat 1 (-1); ShLin 2%nat 1 1], [ShLin 0%nat 1 (-3); ShLin 1%nat 1 0; ShLin 2%nat 1 1], Some QST_e171);
  (61, 58, [ShLin 0%nat 1 (-2); ShLin 1%nat 1 1; ShLin 2%nat 1 (-1)], [ShLin 0%nat 1 (-3); ShLin 1%nat 1 0; ShLin 2%nat 1 (-1)], Some QST_e10);
  (61, 59, [ShLin 0%nat 1 (-2); ShLin 1%nat 1 1; ShLin 2%nat 1 (-1)], [ShLin 0%nat 1 (-3); ShLin 1%nat 1 0; ShLin 2%nat 1 0], Some QST_e11);
  (61, 61, [ShLin 0%nat 1 (-2); ShLin 1%nat 1 1; ShLin 2%nat 1 (-1)], [ShLin 0%nat 1 (-3); ShLin 1%nat 1 2; ShLin 2%nat 1 (-1)], Some QST_e172);
  (61, 62, [ShLin 0%nat 1 (-2); ShLin 1%nat 1 1; ShLin 2%nat 1 (-1)], [ShLin 0%nat 1 (-3); ShLin 1%nat 1 2; ShLin 2%nat 1 0], Some QST_e13);
  (62, 58, [ShLin 0%nat 1 (-2); ShLin 1%nat 1 1; ShLin 2%nat 1 0], [ShLin 0%nat 1 (-3); ShLin 1%nat 1 0; ShLin 2%nat 1 (-1)], Some QST_e95);
  (62, 59, [ShLin 0%nat 1 (-2); ShLin 1%nat 1 1; ShLin 2%nat 1 0], [ShLin 0%nat 1 (-3); ShLin 1%nat 1 0; ShLin 2%nat 1 0], Some QST_e173);
  (62, 60, [ShLin 0%nat 1 (-2); ShLin 1%nat 1 1; ShLin 2%nat 1 0], [ShLin 0%nat 1 (-3); ShLin 1%nat 1 0; ShLin 2%nat 1 1], Some QST_e174);
  (62, 61, [ShLin 0%nat 1 (-2); ShLin 1%nat 1 1; ShLin 2%nat 1 0], [ShLin 0%nat 1 (-3); ShLin 1%nat 1 2; ShLin 2%nat 1 (-1)], Some (cD (cN 1) (cV 2)));
  (62, 62, [ShLin 0%nat 1 (-2); ShLin 1%nat 1 1; ShLin 2%nat 1 0], [ShLin 0%nat 1 (-3); ShLin 1%nat 1 2; ShLin 2%nat 1 0], Some QST_e175);
  (62, 63, [ShLin 0%nat 1 (-2); ShLin 1%nat 1 1; ShLin 2%nat 1 0], [ShLin 0%nat 1 (-3); ShLin 1%nat 1 2; ShLin 2%nat 1 1], Some QST_e176);
  (63, 59, [ShLin 0%nat 1 (-2); ShLin 1%nat 1 1; ShLin 2%nat 1 1], [ShLin 0%nat 1 (-3); ShLin 1%nat 1 0; ShLin 2%nat 1 0], Some QST_e177);
  (63, 60, [ShLin 0%nat 1 (-2); ShLin 1%nat 1 1; ShLin 2%nat 1 1], [ShLin 0%nat 1 (-3); ShLin 1%nat 1 0; ShLin 2%nat 1 1], Some QST_e178);
  (63, 62, [ShLin 0%nat 1 (-2); ShLin 1%nat 1 1; ShLin 2%nat 1 1], [ShLin 0%nat 1 (-3); ShLin 1%nat 1 2; ShLin 2%nat 1 0], Some QST_e179);
  (63, 63, [ShLin 0%nat 1 (-2); ShLin 1%nat 1 1; ShLin 2%nat 1 1], [ShLin 0%nat 1 (-3); ShLin 1%nat 1 2; ShLin 2%nat 1 1], Some QST_e180);
  (64, 64, [ShLin 0%nat 1 (-3); ShLin 1%nat 1 0; ShLin 2%nat 1 0], [ShLin 0%nat 1 (-4); ShLin 1%nat 1 1; ShLin 2%nat 1 0], Some (cN 1))].
(** /repo/c++/symmetry/nrg-recalc-QST.hpp recalc_doublet, qst/qst-doubletm0.dat *)
Definition qst_t3 : ten_table := mk_ten "doublet" [ShLin 0%nat 1 (-1); ShLin 1%nat 1 (-1); ShLin 2%nat 1 0] [1; 2; 1] [
  (1, 1, [ShLin 0%nat 1 3; ShLin 1%nat 1 0; ShLin 2%nat 1 0], [ShLin 0%nat 1 2; ShLin 1%nat 1 (-1); ShLin 2%nat 1 0], Some (cN 1));
  (2, 2, [ShLin 0%nat 1 2; ShLin 1%nat 1 (-1); ShLin 2%nat 1 (-1)], [ShLin 0%nat 1 1; ShLin 1%nat 1 (-2); ShLin 2%nat 1 (-1)], Some QST_e12);
  (2, 3, [ShLin 0%nat 1 2; ShLin 1%nat 1 (-1); ShLin 2%nat 1 (-1)], [ShLin 0%nat 1 1; ShLin 1%nat 1 (-2); ShLin 2%nat 1 0], Some QST_e261);
  (2, 5, [ShLin 0%nat 1 2; ShLin 1%nat 1 (-1); ShLin 2%nat 1 (-1)], [ShLin 0%nat 1 1; ShLin 1%nat 1 0; ShLin 2%nat 1 (-1)], Some QST_e97);
  (2, 6, [ShLin 0%nat 1 2; ShLin 1%nat 1 (-1); ShLin 2%nat 1 (-1)], [ShLin 0%nat 1 1; ShLin 1%nat 1 0; ShLin 2%nat 1 0], Some QST_e98);
  (3, 2, [ShLin 0%nat 1 2; ShLin 1%nat 1 (-1); ShLin 2%nat 1 0], [ShLin 0%nat 1 1; ShLin 1%nat 1 (-2); ShLin 2%nat 1 (-1)], Some (cD (cN 1) (cV 2)));
  (3, 3, [ShLin 0%nat 1 2; ShLin 1%nat 1 (-1); ShLin 2%nat 1 0], [ShLin 0%nat 1 1; ShLin 1%nat 1 (-2); ShLin 2%nat 1 0], Some QST_e175);
  (3, 4, [ShLin 0%nat 1 2; ShLin 1%nat 1 (-1); ShLin 2%nat 1 0], [ShLin 0%nat 1 1; ShLin 1%nat 1 (-2); ShLin 2%nat 1 1], Some QST_e262);
  (3, 5, [ShLin 0%nat 1 2; ShLin 1%nat 1 (-1); ShLin 2%nat 1 0], [ShLin 0%nat 1 1; ShLin 1%nat 1 0; ShLin 2%nat 1 (-1)], Some QST_e7);
  (3, 6, [ShLin 0%nat 1 2; ShLin 1%nat 1 (-1); ShLin 2%nat 1 0], [ShLin 0%nat 1 1; ShLin 1%nat 1 0; ShLin 2%nat 1 0], Some QST_e263);
  (3, 7, [ShLin 0%nat 1 2; ShLin 1%nat 1 (-1); ShLin 2%nat 1 0], [ShLin 0%nat 1 1; ShLin 1%nat 1 0; ShLin 2%nat 1 1], Some QST_e264);
  (4, 3, [ShLin 0%nat 1 2; ShLin 1%nat 1 (-1); ShLin 2%nat 1 1], [ShLin 0%nat 1 1; ShLin 1%nat 1 (-2); ShLin 2%nat 1 0], Some QST_e265);
  (4, 4, [ShLin 0%nat 1 2; ShLin 1%nat 1 (-1); ShLin 2%nat 1 1], [ShLin 0%nat 1 1; ShLin 1%nat 1 (-2); ShLin 2%nat 1 1], Some QST_e180);
  (4, 6, [ShLin 0%nat 1 2; ShLin 1%nat 1 (-1); ShLin 2%nat 1 1], [ShLin 0%nat 1 1; ShLin 1%nat 1 0; ShLin 2%nat 1 0], Some QST_e266);
  (4, 7, [ShLin 0%nat 1 2; ShLin 1%nat 1 (-1); ShLin 2%nat 1 1], [ShLin 0%nat 1 1; ShLin 1%nat 1 0; ShLin 2%nat 1 1], Some QST_e267);
  (5, 5, [ShLin 0%nat 1 2; ShLin 1%nat 1 1; ShLin 2%nat 1 (-1)], [ShLin 0%nat 1 1; ShLin 1%nat 1 0; ShLin 2%nat 1 (-1)], Some QST_e166);
  (5, 6, [ShLin 0%nat 1 2; ShLin 1%nat 1 1; ShLin 2%nat 1 (-1)], [ShLin 0%nat 1 1; ShLin 1%nat 1 0; ShLin 2%nat 1 0], Some QST_e4);
  (6, 5, [ShLin 0%nat 1 2; ShLin 1%nat 1 1; ShLin 2%nat 1 0], [ShLin 0%nat 1 1; ShLin 1%nat 1 0; ShLin 2%nat 1 (-1)], Some QST_e268);
  (6, 6, [ShLin 0%nat 1 2; ShLin 1%nat 1 1; ShLin 2%nat 1 0], [ShLin 0%nat 1 1; ShLin 1%nat 1 0; ShLin 2%nat 1 0], Some QST_e168);
  (6, 7, [ShLin 0%nat 1 2; ShLin 1%nat 1 1; ShLin 2%nat 1 0], [ShLin 0%nat 1 1; ShLin 1%nat 1 0; ShLin 2%nat 1 1], Some QST_e169);
  (7, 6, [ShLin 0%nat 1 2; ShLin 1%nat 1 1; ShLin 2%nat 1 1], [ShLin 0%nat 1 1; ShLin 1%nat 1 0; ShLin 2%nat 1 0], Some QST_e269);
  (7, 7, [ShLin 0%nat 1 2; ShLin 1%nat 1 1; ShLin 2%nat 1 1], [ShLin 0%nat 1 1; ShLin 1%nat 1 0; ShLin 2%nat 1 1], Some QST_e270);
  (8, 8, [ShLin 0%nat 1 1; ShLin 1%nat 1 0; ShLin 2%nat 1 0], [ShLin 0%nat 1 0; ShLin 1%nat 1 (-1); ShLin 2%nat 1 0], Some (cN 1));
  (9, 9, [ShLin 0%nat 1 1; ShLin 1%nat 1 0; ShLin 2%nat 1 (-2)], [ShLin 0%nat 1 0; ShLin 1%nat 1 (-1); ShLin 2%nat 1 (-2)], Some QST_e181);
  (9, 10, [ShLin 0%nat 1 1; ShLin 1%nat 1 0; ShLin 2%nat 1 (-2)], [ShLin 0%nat 1 0; ShLin 1%nat 1 (-1); ShLin 2%nat 1 (-1)], Some QST_e182);
  (10, 9, [ShLin 0%nat 1 1; ShLin 1%nat 1 0; ShLin 2%nat 1 (-1)], [ShLin 0%nat 1 0; ShLin 1%nat 1 (-1); ShLin 2%nat 1 (-2)], Some QST_e68);
  (10, 10, [ShLin 0%nat 1 1; ShLin 1%nat 1 0; ShLin 2%nat 1 (-1)], [ShLin 0%nat 1 0; ShLin 1%nat 1 (-1); ShLin 2%nat 1 (-1)], Some QST_e183);
  (10, 11, [ShLin 0%nat 1 1; ShLin 1%nat 1 0; ShLin 2%nat 1 (-1)], [ShLin 0%nat 1 0; ShLin 1%nat 1 (-1); ShLin 2%nat 1 0], Some QST_e22);
  (11, 10, [ShLin 0%nat 1 1; ShLin 1%nat 1 0; ShLin 2%nat 1 0], [ShLin 0%nat 1 0; ShLin 1%nat 1 (-1); ShLin 2%nat 1 (-1)], Some QST_e184);
  (11, 11, [ShLin 0%nat 1 1; ShLin 1%nat 1 0; ShLin 2%nat 1 0], [ShLin 0%nat 1 0; ShLin 1%nat 1 (-1); ShLin 2%nat 1 0], Some QST_e185);
  (11, 12, [ShLin 0%nat 1 1; ShLin 1%nat 1 0; ShLin 2%nat 1 0], [ShLin 0%nat 1 0; ShLin 1%nat 1 (-1); ShLin 2%nat 1 1], Some QST_e186);
  (12, 11, [ShLin 0%nat 1 1; ShLin 1%nat 1 0; ShLin 2%nat 1 1], [ShLin 0%nat 1 0; ShLin 1%nat 1 (-1); ShLin 2%nat 1 0], Some QST_e187);
  (12, 12, [ShLin 0%nat 1 1; ShLin 1%nat 1 0; ShLin 2%nat 1 1], [ShLin 0%nat 1 0; ShLin 1%nat 1 (-1); ShLin 2%nat 1 1], Some QST_e188);
  (12, 13, [ShLin 0%nat 1 1; ShLin 1%nat 1 0; ShLin 2%nat 1 1], [ShLin 0%nat 1 0; ShLin 1%nat 1 (-1); ShLin 2%nat 1 2], Some QST_e189);
  (13, 12, [ShLin 0%nat 1 1; ShLin 1%nat 1 0; ShLin 2%nat 1 2], [ShLin 0%nat 1 0; ShLin 1%nat 1 (-1); ShLin 2%nat 1 1], Some QST_e190);
  (13, 13, [ShLin 0%nat 1 1; ShLin 1%nat 1 0; ShLin 2%nat 1 2], [ShLin 0%nat 1 0; ShLin 1%nat 1 (-1); ShLin 2%nat 1 2], Some QST_e191);
  (14, 14, [ShLin 0%nat 1 1; ShLin 1%nat 1 (-2); ShLin 2%nat 1 (-1)], [ShLin 0%nat 1 0; ShLin 1%nat 1 (-3); ShLin 2%nat 1 (-1)], Some QST_e51);
  (14, 15, [ShLin 0%nat 1 1; ShLin 1%nat 1 (-2); ShLin 2%nat 1 (-1)], [ShLin 0%nat 1 0; ShLin 1%nat 1 (-3); ShLin 2%nat 1 0], Some QST_e271);
  (14, 17, [ShLin 0%nat 1 1; ShLin 1%nat 1 (-2); ShLin 2%nat 1 (-1)], [ShLin 0%nat 1 0; ShLin 1%nat 1 (-1); ShLin 2%nat 1 (-1)], Some QST_e272);
  (14, 18, [ShLin 0%nat 1 1; ShLin 1%nat 1 (-2); ShLin 2%nat 1 (-1)], [ShLin 0%nat 1 0; ShLin 1%nat 1 (-1); ShLin 2%nat 1 0], Some QST_e273);
  (15, 14, [ShLin 0%nat 1 1; ShLin 1%nat 1 (-2); ShLin 2%nat 1 0], [ShLin 0%nat 1 0; ShLin 1%nat 1 (-3); ShLin 2%nat 1 (-1)], Some (cO (cD (cN 1) (cV 2))));
  (15, 15, [ShLin 0%nat 1 1; ShLin 1%nat 1 (-2); ShLin 2%nat 1 0], [ShLin 0%nat 1 0; ShLin 1%nat 1 (-3); ShLin 2%nat 1 0], Some QST_e217);
  (15, 16, [ShLin 0%nat 1 1; ShLin 1%nat 1 (-2); ShLin 2%nat 1 0], [ShLin 0%nat 1 0; ShLin 1%nat 1 (-3); ShLin 2%nat 1 1], Some QST_e218);
  (15, 17, [ShLin 0%nat 1 1; ShLin 1%nat 1 (-2); ShLin 2%nat 1 0], [ShLin 0%nat 1 0; ShLin 1%nat 1 (-1); ShLin 2%nat 1 (-1)], Some QST_e34);
  (15, 18, [ShLin 0%nat 1 1; ShLin 1%nat 1 (-2); ShLin 2%nat 1 0], [ShLin 0%nat 1 0; ShLin 1%nat 1 (-1); ShLin 2%nat 1 0], Some QST_e274);
  (15, 19, [ShLin 0%nat 1 1; ShLin 1%nat 1 (-2); ShLin 2%nat 1 0], [ShLin 0%nat 1 0; ShLin 1%nat 1 (-1); ShLin 2%nat 1 1], Some QST_e275);
  (16, 15, [ShLin 0%nat 1 1; ShLin 1%nat 1 (-2); ShLin 2%nat 1 1], [ShLin 0%nat 1 0; ShLin 1%nat 1 (-3); ShLin 2%nat 1 0], Some QST_e276);
  (16, 16, [ShLin 0%nat 1 1; ShLin 1%nat 1 (-2); ShLin 2%nat 1 1], [ShLin 0%nat 1 0; ShLin 1%nat 1 (-3); ShLin 2%nat 1 1], Some QST_e277);
  (16, 18, [ShLin 0%nat 1 1; ShLin 1%nat 1 (-2); ShLin 2%nat 1 1], [ShLin 0%nat 1 0; ShLin 1%nat 1 (-1); ShLin 2%nat 1 0], Some QST_e278);
  (16, 19, [ShLin 0%nat 1 1; ShLin 1%nat 1 (-2); ShLin 2%nat 1 1], [ShLin 0%nat 1 0; ShLin 1%nat 1 (-1); ShLin 2%nat 1 1], Some QST_e279);
  (17, 17, [ShLin 0%nat 1 1; ShLin 1%nat 1 0; ShLin 2%nat 1 (-1)], [ShLin 0%nat 1 0; ShLin 1%nat 1 (-1); ShLin 2%nat 1 (-1)], Some QST_e280);
  (17, 18, [ShLin 0%nat 1 1; ShLin 1%nat 1 0; ShLin 2%nat 1 (-1)], [ShLin 0%nat 1 0; ShLin 1%nat 1 (-1); ShLin 2%nat 1 0], Some QST_e281);
  (17, 20, [ShLin 0%nat 1 1; ShLin 1%nat 1 0; ShLin 2%nat 1 (-1)], [ShLin 0%nat 1 0; ShLin 1%nat 1 1; ShLin 2%nat 1 (-1)], Some QST_e282);
  (17, 21, [ShLin 0%nat 1 1; ShLin 1%nat 1 0; ShLin 2%nat 1 (-1)], [ShLin 0%nat 1 0; ShLin 1%nat 1 1; ShLin 2%nat 1 0], Some QST_e283);
  (18, 17, [ShLin 0%nat 1 1; ShLin 1%nat 1 0; ShLin 2%nat 1 0], [ShLin 0%nat 1 0; ShLin 1%nat 1 (-1); ShLin 2%nat 1 (-1)], Some QST_e284);
  (18, 18, [ShLin 0%nat 1 1; ShLin 1%nat 1 0; ShLin 2%nat 1 0], [ShLin 0%nat 1 0; ShLin 1%nat 1 (-1); ShLin 2%nat 1 0], Some QST_e285);
  (18, 19, [ShLin 0%nat 1 1; ShLin 1%nat 1 0; ShLin 2%nat 1 0], [ShLin 0%nat 1 0; ShLin 1%nat 1 (-1); ShLin 2%nat 1 1], Some QST_e286);
  (18, 20, [ShLin 0%nat 1 1; ShLin 1%nat 1 0; ShLin 2%nat 1 0], [ShLin 0%nat 1 0; ShLin 1%nat 1 1; ShLin 2%nat 1 (-1)], Some QST_e287);
  (18, 21, [ShLin 0%nat 1 1; ShLin 1%nat 1 0; ShLin 2%nat 1 0], [ShLin 0%nat 1 0; ShLin 1%nat 1 1; ShLin 2%nat 1 0], Some QST_e288);
  (18, 22, [ShLin 0%nat 1 1; ShLin 1%nat 1 0; ShLin 2%nat 1 0], [ShLin 0%nat 1 0; ShLin 1%nat 1 1; ShLin 2%nat 1 1], Some QST_e289);
  (19, 18, [ShLin 0%nat 1 1; ShLin 1%nat 1 0; ShLin 2%nat 1 1], [ShLin 0%nat 1 0; ShLin 1%nat 1 (-1); ShLin 2%nat 1 0], Some QST_e290);
  (19, 19, [ShLin 0%nat 1 1; ShLin 1%nat 1 0; ShLin 2%nat 1 1], [ShLin 0%nat 1 0; ShLin 1%nat 1 (-1); ShLin 2%nat 1 1], Some QST_e291);
  (19, 21, [ShLin 0%nat 1 1; ShLin 1%nat 1 0; ShLin 2%nat 1 1], [ShLin 0%nat 1 0; ShLin 1%nat 1 1; ShLin 2%nat 1 0], Some QST_e292);
  (19, 22, [ShLin 0%nat 1 1; ShLin 1%nat 1 0; ShLin 2%nat 1 1], [ShLin 0%nat 1 0; ShLin 1%nat 1 1; ShLin 2%nat 1 1], Some QST_e293);
  (20, 20, [ShLin 0%nat 1 1; ShLin 1%nat 1 2; ShLin 2%nat 1 (-1)], [ShLin 0%nat 1 0; ShLin 1%nat 1 1; ShLin 2%nat 1 (-1)], Some QST_e294);
  (20, 21, [ShLin 0%nat 1 1; ShLin 1%nat 1 2; ShLin 2%nat 1 (-1)], [ShLin 0%nat 1 0; ShLin 1%nat 1 1; ShLin 2%nat 1 0], Some QST_e295);
  (21, 20, [ShLin 0%nat 1 1; ShLin 1%nat 1 2; ShLin 2%nat 1 0], [ShLin 0%nat 1 0; ShLin 1%nat 1 1; ShLin 2%nat 1 (-1)], Some QST_e296);
  (21, 21, [ShLin 0%nat 1 1; ShLin 1%nat 1 2; ShLin 2%nat 1 0], [ShLin 0%nat 1 0; ShLin 1%nat 1 1; ShLin 2%nat 1 0], Some QST_e297);
  (21, 22, [ShLin 0%nat 1 1; ShLin 1%nat 1 2; ShLin 2%nat 1 0], [ShLin 0%nat 1 0; ShLin 1%nat 1 1; ShLin 2%nat 1 1], Some QST_e298);
  (22, 21, [ShLin 0%nat 1 1; ShLin 1%nat 1 2; ShLin 2%nat 1 1], [ShLin 0%nat 1 0; ShLin 1%nat 1 1; ShLin 2%nat 1 0], Some QST_e299);
  (22, 22, [ShLin 0%nat 1 1; ShLin 1%nat 1 2; ShLin 2%nat 1 1], [ShLin 0%nat 1 0; ShLin 1%nat 1 1; ShLin 2%nat 1 1], Some QST_e300);
  (23, 23, [ShLin 0%nat 1 0; ShLin 1%nat 1 (-1); ShLin 2%nat 1 (-1)], [ShLin 0%nat 1 (-1); ShLin 1%nat 1 (-2); ShLin 2%nat 1 (-1)], Some QST_e12);
  (23, 24, [ShLin 0%nat 1 0; ShLin 1%nat 1 (-1); ShLin 2%nat 1 (-1)], [ShLin 0%nat 1 (-1); ShLin 1%nat 1 (-2); ShLin 2%nat 1 0], Some QST_e261);
  (23, 26, [ShLin 0%nat 1 0; ShLin 1%nat 1 (-1); ShLin 2%nat 1 (-1)], [ShLin 0%nat 1 (-1); ShLin 1%nat 1 0; ShLin 2%nat 1 (-1)], Some QST_e97);
  (23, 27, [ShLin 0%nat 1 0; ShLin 1%nat 1 (-1); ShLin 2%nat 1 (-1)], [ShLin 0%nat 1 (-1); ShLin 1%nat 1 0; ShLin 2%nat 1 0], Some QST_e98);
  (24, 23, [ShLin 0%nat 1 0; ShLin 1%nat 1 (-1); ShLin 2%nat 1 0], [ShLin 0%nat 1 (-1); ShLin 1%nat 1 (-2); ShLin 2%nat 1 (-1)], Some (cD (cN 1) (cV 2)));
  (24, 24, [ShLin 0%nat 1 0; ShLin 1%nat 1 (-1); ShLin 2%nat 1 0], [ShLin 0%nat 1 (-1); ShLin 1%nat 1 (-2); ShLin 2%nat 1 0], Some QST_e175);
  (24, 25, [ShLin 0%nat 1 0; ShLin 1%nat 1 (-1); ShLin 2%nat 1 0], [ShLin 0%nat 1 (-1); ShLin 1%nat 1 (-2); ShLin 2%nat 1 1], Some QST_e262);
  (24, 26, [ShLin 0%nat 1 0; ShLin 1%nat 1 (-1); ShLin 2%nat 1 0], [ShLin 0%nat 1 (-1); ShLin 1%nat 1 0; ShLin 2%nat 1 (-1)], Some QST_e7);
  (24, 27, [ShLin 0%nat 1 0; ShLin 1%nat 1 (-1); ShLin 2%nat 1 0], [ShLin 0%nat 1 (-1); ShLin 1%nat 1 0; ShLin 2%nat 1 0], Some QST_e263);
  (24, 28, [ShLin 0%nat 1 0; ShLin 1%nat 1 (-1); ShLin 2%nat 1 0], [ShLin 0%nat 1 (-1); ShLin 1%nat 1 0; ShLin 2%nat 1 1], Some QST_e264);
  (25, 24, [ShLin 0%nat 1 0; ShLin 1%nat 1 (-1); ShLin 2%nat 1 1], [ShLin 0%nat 1 (-1); ShLin 1%nat 1 (-2); ShLin 2%nat 1 0], Some QST_e265);
  (25, 25, [ShLin 0%nat 1 0; ShLin 1%nat 1 (-1); ShLin 2%nat 1 1], [ShLin 0%nat 1 (-1); ShLin 1%nat 1 (-2); ShLin 2%nat 1 1], Some QST_e180);
  (25, 27, [ShLin 0%nat 1 0; ShLin 1%nat 1 (-1); ShLin 2%nat 1 1], [ShLin 0%nat 1 (-1); ShLin 1%nat 1 0; ShLin 2%nat 1 0], Some QST_e266);
  (25, 28, [ShLin 0%nat 1 0; ShLin 1%nat 1 (-1); ShLin 2%nat 1 1], [ShLin 0%nat 1 (-1); ShLin 1%nat 1 0; ShLin 2%nat 1 1], Some QST_e267);
  (26, 26, [ShLin 0%nat 1 0; ShLin 1%nat 1 1; ShLin 2%nat 1 (-1)], [ShLin 0%nat 1 (-1); ShLin 1%nat 1 0; ShLin 2%nat 1 (-1)], Some QST_e166);
  (26, 27, [ShLin 0%nat 1 0; ShLin 1%nat 1 1; ShLin 2%nat 1 (-1)], [ShLin 0%nat 1 (-1); ShLin 1%nat 1 0; ShLin 2%nat 1 0], Some QST_e4);
  (27, 26, [ShLin 0%nat 1 0; ShLin 1%nat 1 1; ShLin 2%nat 1 0], [ShLin 0%nat 1 (-1); ShLin 1%nat 1 0; ShLin 2%nat 1 (-1)], Some QST_e268);
  (27, 27, [ShLin 0%nat 1 0; ShLin 1%nat 1 1; ShLin 2%nat 1 0], [ShLin 0%nat 1 (-1); ShLin 1%nat 1 0; ShLin 2%nat 1 0], Some QST_e168);
  (27, 28, [ShLin 0%nat 1 0; ShLin 1%nat 1 1; ShLin 2%nat 1 0], [ShLin 0%nat 1 (-1); ShLin 1%nat 1 0; ShLin 2%nat 1 1], Some QST_e169);
  (28, 27, [ShLin 0%nat 1 0; ShLin 1%nat 1 1; ShLin 2%nat 1 1], [ShLin 0%nat 1 (-1); ShLin 1%nat 1 0; ShLin 2%nat 1 0], Some QST_e269);
  (28, 28, [ShLin 0%nat 1 0; ShLin 1%nat 1 1; ShLin 2%nat 1 1], [ShLin 0%nat 1 (-1); ShLin 1%nat 1 0; ShLin 2%nat 1 1], Some QST_e270);
  (29, 29, [ShLin 0%nat 1 0; ShLin 1%nat 1 (-1); ShLin 2%nat 1 (-2)], [ShLin 0%nat 1 (-1); ShLin 1%nat 1 (-2); ShLin 2%nat 1 (-2)], Some QST_e238);
  (29, 30, [ShLin 0%nat 1 0; ShLin 1%nat 1 (-1); ShLin 2%nat 1 (-2)], [ShLin 0%nat 1 (-1); ShLin 1%nat 1 (-2); ShLin 2%nat 1 (-1)], Some QST_e239);
  (29, 34, [ShLin 0%nat 1 0; ShLin 1%nat 1 (-1); ShLin 2%nat 1 (-2)], [ShLin 0%nat 1 (-1); ShLin 1%nat 1 0; ShLin 2%nat 1 (-2)], Some QST_e301);
  (29, 35, [ShLin 0%nat 1 0; ShLin 1%nat 1 (-1); ShLin 2%nat 1 (-2)], [ShLin 0%nat 1 (-1); ShLin 1%nat 1 0; ShLin 2%nat 1 (-1)], Some QST_e302);
  (30, 29, [ShLin 0%nat 1 0; ShLin 1%nat 1 (-1); ShLin 2%nat 1 (-1)], [ShLin 0%nat 1 (-1); ShLin 1%nat 1 (-2); ShLin 2%nat 1 (-2)], Some QST_e16);
  (30, 30, [ShLin 0%nat 1 0; ShLin 1%nat 1 (-1); ShLin 2%nat 1 (-1)], [ShLin 0%nat 1 (-1); ShLin 1%nat 1 (-2); ShLin 2%nat 1 (-1)], Some QST_e303);
  (30, 31, [ShLin 0%nat 1 0; ShLin 1%nat 1 (-1); ShLin 2%nat 1 (-1)], [ShLin 0%nat 1 (-1); ShLin 1%nat 1 (-2); ShLin 2%nat 1 0], Some QST_e140);
  (30, 34, [ShLin 0%nat 1 0; ShLin 1%nat 1 (-1); ShLin 2%nat 1 (-1)], [ShLin 0%nat 1 (-1); ShLin 1%nat 1 0; ShLin 2%nat 1 (-2)], Some QST_e66);
  (30, 35, [ShLin 0%nat 1 0; ShLin 1%nat 1 (-1); ShLin 2%nat 1 (-1)], [ShLin 0%nat 1 (-1); ShLin 1%nat 1 0; ShLin 2%nat 1 (-1)], Some QST_e304);
  (30, 36, [ShLin 0%nat 1 0; ShLin 1%nat 1 (-1); ShLin 2%nat 1 (-1)], [ShLin 0%nat 1 (-1); ShLin 1%nat 1 0; ShLin 2%nat 1 0], Some QST_e305);
  (31, 30, [ShLin 0%nat 1 0; ShLin 1%nat 1 (-1); ShLin 2%nat 1 0], [ShLin 0%nat 1 (-1); ShLin 1%nat 1 (-2); ShLin 2%nat 1 (-1)], Some QST_e306);
  (31, 31, [ShLin 0%nat 1 0; ShLin 1%nat 1 (-1); ShLin 2%nat 1 0], [ShLin 0%nat 1 (-1); ShLin 1%nat 1 (-2); ShLin 2%nat 1 0], Some QST_e249);
  (31, 32, [ShLin 0%nat 1 0; ShLin 1%nat 1 (-1); ShLin 2%nat 1 0], [ShLin 0%nat 1 (-1); ShLin 1%nat 1 (-2); ShLin 2%nat 1 1], Some QST_e250);
  (31, 35, [ShLin 0%nat 1 0; ShLin 1%nat 1 (-1); ShLin 2%nat 1 0], [ShLin 0%nat 1 (-1); ShLin 1%nat 1 0; ShLin 2%nat 1 (-1)], Some QST_e307);
  (31, 36, [ShLin 0%nat 1 0; ShLin 1%nat 1 (-1); ShLin 2%nat 1 0], [ShLin 0%nat 1 (-1); ShLin 1%nat 1 0; ShLin 2%nat 1 0], Some QST_e308);
  (31, 37, [ShLin 0%nat 1 0; ShLin 1%nat 1 (-1); ShLin 2%nat 1 0], [ShLin 0%nat 1 (-1); ShLin 1%nat 1 0; ShLin 2%nat 1 1], Some QST_e309);
  (32, 31, [ShLin 0%nat 1 0; ShLin 1%nat 1 (-1); ShLin 2%nat 1 1], [ShLin 0%nat 1 (-1); ShLin 1%nat 1 (-2); ShLin 2%nat 1 0], Some QST_e310);
  (32, 32, [ShLin 0%nat 1 0; ShLin 1%nat 1 (-1); ShLin 2%nat 1 1], [ShLin 0%nat 1 (-1); ShLin 1%nat 1 (-2); ShLin 2%nat 1 1], Some QST_e255);
  (32, 33, [ShLin 0%nat 1 0; ShLin 1%nat 1 (-1); ShLin 2%nat 1 1], [ShLin 0%nat 1 (-1); ShLin 1%nat 1 (-2); ShLin 2%nat 1 2], Some QST_e311);
  (32, 36, [ShLin 0%nat 1 0; ShLin 1%nat 1 (-1); ShLin 2%nat 1 1], [ShLin 0%nat 1 (-1); ShLin 1%nat 1 0; ShLin 2%nat 1 0], Some QST_e312);
  (32, 37, [ShLin 0%nat 1 0; ShLin 1%nat 1 (-1); ShLin 2%nat 1 1], [ShLin 0%nat 1 (-1); ShLin 1%nat 1 0; ShLin 2%nat 1 1], Some QST_e313);
  (32, 38, [ShLin 0%nat 1 0; ShLin 1%nat 1 (-1); ShLin 2%nat 1 1], [ShLin 0%nat 1 (-1); ShLin 1%nat 1 0; ShLin 2%nat 1 2], Some QST_e314);
  (33, 32, [ShLin 0%nat 1 0; ShLin 1%nat 1 (-1); ShLin 2%nat 1 2], [ShLin 0%nat 1 (-1); ShLin 1%nat 1 (-2); ShLin 2%nat 1 1], Some QST_e315);
  (33, 33, [ShLin 0%nat 1 0; ShLin 1%nat 1 (-1); ShLin 2%nat 1 2], [ShLin 0%nat 1 (-1); ShLin 1%nat 1 (-2); ShLin 2%nat 1 2], Some QST_e316);
  (33, 37, [ShLin 0%nat 1 0; ShLin 1%nat 1 (-1); ShLin 2%nat 1 2], [ShLin 0%nat 1 (-1); ShLin 1%nat 1 0; ShLin 2%nat 1 1], Some QST_e317);
  (33, 38, [ShLin 0%nat 1 0; ShLin 1%nat 1 (-1); ShLin 2%nat 1 2], [ShLin 0%nat 1 (-1); ShLin 1%nat 1 0; ShLin 2%nat 1 2], Some QST_e318);
  (34, 34, [ShLin 0%nat 1 0; ShLin 1%nat 1 1; ShLin 2%nat 1 (-2)], [ShLin 0%nat 1 (-1); ShLin 1%nat 1 0; ShLin 2%nat 1 (-2)], Some QST_e223);
  (34, 35, [ShLin 0%nat 1 0; ShLin 1%nat 1 1; ShLin 2%nat 1 (-2)], [ShLin 0%nat 1 (-1); ShLin 1%nat 1 0; ShLin 2%nat 1 (-1)], Some QST_e319);
  (35, 34, [ShLin 0%nat 1 0; ShLin 1%nat 1 1; ShLin 2%nat 1 (-1)], [ShLin 0%nat 1 (-1); ShLin 1%nat 1 0; ShLin 2%nat 1 (-2)], Some QST_e225);
  (35, 35, [ShLin 0%nat 1 0; ShLin 1%nat 1 1; ShLin 2%nat 1 (-1)], [ShLin 0%nat 1 (-1); ShLin 1%nat 1 0; ShLin 2%nat 1 (-1)], Some QST_e320);
  (35, 36, [ShLin 0%nat 1 0; ShLin 1%nat 1 1; ShLin 2%nat 1 (-1)], [ShLin 0%nat 1 (-1); ShLin 1%nat 1 0; ShLin 2%nat 1 0], Some QST_e321);
  (36, 35, [ShLin 0%nat 1 0; ShLin 1%nat 1 1; ShLin 2%nat 1 0], [ShLin 0%nat 1 (-1); ShLin 1%nat 1 0; ShLin 2%nat 1 (-1)], Some QST_e322);
  (36, 36, [ShLin 0%nat 1 0; ShLin 1%nat 1 1; ShLin 2%nat 1 0], [ShLin 0%nat 1 (-1); ShLin 1%nat 1 0; ShLin 2%nat 1 0], Some QST_e323);
  (36, 37, [ShLin 0%nat 1 0; ShLin 1%nat 1 1; ShLin 2%nat 1 0], [ShLin 0%nat 1 (-1); ShLin 1%nat 1 0; ShLin 2%nat 1 1], Some QST_e324);
  (37, 36, [ShLin 0%nat 1 0; ShLin 1%nat 1 1; ShLin 2%nat 1 1], [ShLin 0%nat 1 (-1); ShLin 1%nat 1 0; ShLin 2%nat 1 0], Some QST_e325);
  (37, 37, [ShLin 0%nat 1 0; ShLin 1%nat 1 1; ShLin 2%nat 1 1], [ShLin 0%nat 1 (-1); ShLin 1%nat 1 0; ShLin 2%nat 1 1], Some QST_e326);
  (37, 38, [ShLin 0%nat 1 0; ShLin 1%nat 1 1; ShLin 2%nat 1 1], [ShLin 0%nat 1 (-1); ShLin 1%nat 1 0; ShLin 2%nat 1 2], Some QST_e327);
  (38, 37, [ShLin 0%nat 1 0; ShLin 1%nat 1 1; ShLin 2%nat 1 2], [ShLin 0%nat 1 (-1); ShLin 1%nat 1 0; ShLin 2%nat 1 1], Some QST_e328);
  (38, 38, [ShLin 0%nat 1 0; ShLin 1%nat 1 1; ShLin 2%nat 1 2], [ShLin 0%nat 1 (-1); ShLin 1%nat 1 0; ShLin 2%nat 1 2], Some QST_e329);
  (39, 39, [ShLin 0%nat 1 0; ShLin 1%nat 1 (-3); ShLin 2%nat 1 0], [ShLin 0%nat 1 (-1); ShLin 1%nat 1 (-4); ShLin 2%nat 1 0], Some (cN (-1)));
  (39, 40, [ShLin 0%nat 1 0; ShLin 1%nat 1 (-3); ShLin 2%nat 1 0], [ShLin 0%nat 1 (-1); ShLin 1%nat 1 (-2); ShLin 2%nat 1 0], Some QST_e160);
  (40, 40, [ShLin 0%nat 1 0; ShLin 1%nat 1 (-1); ShLin 2%nat 1 0], [ShLin 0%nat 1 (-1); ShLin 1%nat 1 (-2); ShLin 2%nat 1 0], Some QST_e161);
  (40, 41, [ShLin 0%nat 1 0; ShLin 1%nat 1 (-1); ShLin 2%nat 1 0], [ShLin 0%nat 1 (-1); ShLin 1%nat 1 0; ShLin 2%nat 1 0], Some QST_e162);
  (41, 41, [ShLin 0%nat 1 0; ShLin 1%nat 1 1; ShLin 2%nat 1 0], [ShLin 0%nat 1 (-1); ShLin 1%nat 1 0; ShLin 2%nat 1 0], Some QST_e163);
  (41, 42, [ShLin 0%nat 1 0; ShLin 1%nat 1 1; ShLin 2%nat 1 0], [ShLin 0%nat 1 (-1); ShLin 1%nat 1 2; ShLin 2%nat 1 0], Some QST_e164);
  (42, 42, [ShLin 0%nat 1 0; ShLin 1%nat 1 3; ShLin 2%nat 1 0], [ShLin 0%nat 1 (-1); ShLin 1%nat 1 2; ShLin 2%nat 1 0], Some QST_e165);
  (43, 43, [ShLin 0%nat 1 (-1); ShLin 1%nat 1 0; ShLin 2%nat 1 0], [ShLin 0%nat 1 (-2); ShLin 1%nat 1 (-1); ShLin 2%nat 1 0], Some (cN 1));
  (44, 44, [ShLin 0%nat 1 (-1); ShLin 1%nat 1 0; ShLin 2%nat 1 (-2)], [ShLin 0%nat 1 (-2); ShLin 1%nat 1 (-1); ShLin 2%nat 1 (-2)], Some QST_e181);
  (44, 45, [ShLin 0%nat 1 (-1); ShLin 1%nat 1 0; ShLin 2%nat 1 (-2)], [ShLin 0%nat 1 (-2); ShLin 1%nat 1 (-1); ShLin 2%nat 1 (-1)], Some QST_e182);
  (45, 44, [ShLin 0%nat 1 (-1); ShLin 1%nat 1 0; ShLin 2%nat 1 (-1)], [ShLin 0%nat 1 (-2); ShLin 1%nat 1 (-1); ShLin 2%nat 1 (-2)], Some QST_e68);
  (45, 45, [ShLin 0%nat 1 (-1); ShLin 1%nat 1 0; ShLin 2%nat 1 (-1)], [ShLin 0%nat 1 (-2); ShLin 1%nat 1 (-1); ShLin 2%nat 1 (-1)], Some QST_e183);
  (45, 46, [ShLin 0%nat 1 (-1); ShLin 1%nat 1 0; ShLin 2%nat 1 (-1)], [ShLin 0%nat 1 (-2); ShLin 1%nat 1 (-1); ShLin 2%nat 1 0], Some QST_e22);
  (46, 45, [ShLin 0%nat 1 (-1); ShLin 1%nat 1 0; ShLin 2%nat 1 0], [ShLin 0%nat 1 (-2); ShLin 1%nat 1 (-1); ShLin 2%nat 1 (-1)], Some QST_e184);
  (46, 46, [ShLin 0%nat 1 (-1); ShLin 1%nat 1 0; ShLin 2%nat 1 0], [ShLin 0%nat 1 (-2); ShLin 1%nat 1 (-1); ShLin 2%nat 1 0], Some QST_e185);
  (46, 47, [ShLin 0%nat 1 (-1); ShLin 1%nat 1 0; ShLin 2%nat 1 0], [ShLin 0%nat 1 (-2); ShLin 1%nat 1 (-1); ShLin 2%nat 1 1], Some QST_e186);
  (47, 46, [ShLin 0%nat 1 (-1); ShLin 1%nat 1 0; ShLin 2%nat 1 1], [ShLin 0%nat 1 (-2); ShLin 1%nat 1 (-1); ShLin 2%nat 1 0], Some QST_e187);
  (47, 47, [ShLin 0%nat 1 (-1); ShLin 1%nat 1 0; ShLin 2%nat 1 1], [ShLin 0%nat 1 (-2); ShLin 1%nat 1 (-1); ShLin 2%nat 1 1], Some QST_e188);
  (47, 48, [ShLin 0%nat 1 (-1); ShLin 1%nat 1 0; ShLin 2%nat 1 1], [ShLin 0%nat 1 (-2); ShLin 1%nat 1 (-1); ShLin 2%nat 1 2], Some QST_e189);
  (48, 47, [ShLin 0%nat 1 (-1); ShLin 1%nat 1 0; ShLin 2%nat 1 2], [ShLin 0%nat 1 (-2); ShLin 1%nat 1 (-1); ShLin 2%nat 1 1], Some QST_e190);
  (48, 48, [ShLin 0%nat 1 (-1); ShLin 1%nat 1 0; ShLin 2%nat 1 2], [ShLin 0%nat 1 (-2); ShLin 1%nat 1 (-1); ShLin 2%nat 1 2], Some QST_e191);
  (49, 49, [ShLin 0%nat 1 (-1); ShLin 1%nat 1 (-2); ShLin 2%nat 1 (-1)], [ShLin 0%nat 1 (-2); ShLin 1%nat 1 (-3); ShLin 2%nat 1 (-1)], Some QST_e51);
  (49, 50, [ShLin 0%nat 1 (-1); ShLin 1%nat 1 (-2); ShLin 2%nat 1 (-1)], [ShLin 0%nat 1 (-2); ShLin 1%nat 1 (-3); ShLin 2%nat 1 0], Some QST_e271);
  (49, 52, [ShLin 0%nat 1 (-1); ShLin 1%nat 1 (-2); ShLin 2%nat 1 (-1)], [ShLin 0%nat 1 (-2); ShLin 1%nat 1 (-1); ShLin 2%nat 1 (-1)], Some QST_e272);
  (49, 53, [ShLin 0%nat 1 (-1); ShLin 1%nat 1 (-2); ShLin 2%nat 1 (-1)], [ShLin 0%nat 1 (-2); ShLin 1%nat 1 (-1); ShLin 2%nat 1 0], Some QST_e273);
  (50, 49, [ShLin 0%nat 1 (-1); ShLin 1%nat 1 (-2); ShLin 2%nat 1 0], [ShLin 0%nat 1 (-2); ShLin 1%nat 1 (-3); ShLin 2%nat 1 (-1)], Some (cO (cD (cN 1) (cV 2))));
  (50, 50, [ShLin 0%nat 1 (-1); ShLin 1%nat 1 (-2); ShLin 2%nat 1 0], [ShLin 0%nat 1 (-2); ShLin 1%nat 1 (-3); ShLin 2%nat 1 0], Some QST_e217);
  (50, 51, [ShLin 0%nat 1 (-1); ShLin 1%nat 1 (-2); ShLin 2%nat 1 0], [ShLin 0%nat 1 (-2); ShLin 1%nat 1 (-3); ShLin 2%nat 1 1], Some QST_e218);
  (50, 52, [ShLin 0%nat 1 (-1); ShLin 1%nat 1 (-2); ShLin 2%nat 1 0], [ShLin 0%nat 1 (-2); ShLin 1%nat 1 (-1); ShLin 2%nat 1 (-1)], Some QST_e34);
  (50, 53, [ShLin 0%nat 1 (-1); ShLin 1%nat 1 (-2); ShLin 2%nat 1 0], [ShLin 0%nat 1 (-2); ShLin 1%nat 1 (-1); ShLin 2%nat 1 0], Some QST_e274);
  (50, 54, [ShLin 0%nat 1 (-1); ShLin 1%nat 1 (-2); ShLin 2%nat 1 0], [ShLin 0%nat 1 (-2); ShLin 1%nat 1 (-1); ShLin 2%nat 1 1], Some QST_e275);
  (51, 50, [ShLin 0%nat 1 (-1); ShLin 1%nat 1 (-2); ShLin 2%nat 1 1], [ShLin 0%nat 1 (-2); ShLin 1%nat 1 (-3); ShLin 2%nat 1 0], Some QST_e276);
  (51, 51, [ShLin 0%nat 1 (-1); ShLin 1%nat 1 (-2); ShLin 2%nat 1 1], [ShLin 0%nat 1 (-2); ShLin 1%nat 1 (-3); ShLin 2%nat 1 1], Some QST_e277);
  (51, 53, [ShLin 0%nat 1 (-1); ShLin 1%nat 1 (-2); ShLin 2%nat 1 1], [ShLin 0%nat 1 (-2); ShLin 1%nat 1 (-1); ShLin 2%nat 1 0], Some QST_e278);
  (51, 54, [ShLin 0%nat 1 (-1); ShLin 1%nat 1 (-2); ShLin 2%nat 1 1], [ShLin 0%nat 1 (-2); ShLin 1%nat 1 (-1); ShLin 2%nat 1 1], Some QST_e279);
  (52, 52, [ShLin 0%nat 1 (-1); ShLin 1%nat 1 0; ShLin 2%nat 1 (-1)], [ShLin 0%nat 1 (-2); ShLin 1%nat 1 (-1); ShLin 2%nat 1 (-1)], Some QST_e280);
  (52, 53, [ShLin 0%nat 1 (-1); ShLin 1%nat 1 0; ShLin 2%nat 1 (-1)], [ShLin 0%nat 1 (-2); ShLin 1%nat 1 (-1); ShLin 2%nat 1 0], Some QST_e281);
  (52, 55, [ShLin 0%nat 1 (-1); ShLin 1%nat 1 0; ShLin 2%nat 1 (-1)], [ShLin 0%nat 1 (-2); ShLin 1%nat 1 1; ShLin 2%nat 1 (-1)], Some QST_e282);
  (52, 56, [ShLin 0%nat 1 (-1); ShLin 1%nat 1 0; ShLin 2%nat 1 (-1)], [ShLin 0%nat 1 (-2); ShLin 1%nat 1 1; ShLin 2%nat 1 0], Some QST_e283);
  (53, 52, [ShLin 0%nat 1 (-1); ShLin 1%nat 1 0; ShLin 2%nat 1 0], [ShLin 0%nat 1 (-2); ShLin 1%nat 1 (-1); ShLin 2%nat 1 (-1)], Some QST_e330);
  (53, 53, [ShLin 0%nat 1 (-1); ShLin 1%nat 1 0; ShLin 2%nat 1 0], [ShLin 0%nat 1 (-2); ShLin 1%nat 1 (-1); ShLin 2%nat 1 0], Some QST_e285);
  (53, 54, [ShLin 0%nat 1 (-1); ShLin 1%nat 1 0; ShLin 2%nat 1 0], [ShLin 0%nat 1 (-2); ShLin 1%nat 1 (-1); ShLin 2%nat 1 1], Some QST_e286);
  (53, 55, [ShLin 0%nat 1 (-1); ShLin 1%nat 1 0; ShLin 2%nat 1 0], [ShLin 0%nat 1 (-2); ShLin 1%nat 1 1; ShLin 2%nat 1 (-1)], Some QST_e287);
  (53, 56, [ShLin 0%nat 1 (-1); ShLin 1%nat 1 0; ShLin 2%nat 1 0], [ShLin 0%nat 1 (-2); ShLin 1%nat 1 1; ShLin 2%nat 1 0], Some QST_e288);
  (53, 57, [ShLin 0%nat 1 (-1); ShLin 1%nat 1 0; ShLin 2%nat 1 0], [ShLin 0%nat 1 (-2); ShLin 1%nat 1 1; ShLin 2%nat 1 1], Some QST_e289);
  (54, 53, [ShLin 0%nat 1 (-1); ShLin 1%nat 1 0; ShLin 2%nat 1 1], [ShLin 0%nat 1 (-2); ShLin 1%nat 1 (-1); ShLin 2%nat 1 0], Some QST_e290);
  (54, 54, [ShLin 0%nat 1 (-1); ShLin 1%nat 1 0; ShLin 2%nat 1 1], [ShLin 0%nat 1 (-2); ShLin 1%nat 1 (-1); ShLin 2%nat 1 1], Some QST_e291);
  (54, 56, [ShLin 0%nat 1 (-1); ShLin 1%nat 1 0; ShLin 2%nat 1 1], [ShLin 0%nat 1 (-2); ShLin 1%nat 1 1; ShLin 2%nat 1 0], Some QST_e292);
  (54, 57, [ShLin 0%nat 1 (-1); ShLin 1%nat 1 0; ShLin 2%nat 1 1], [ShLin 0%nat 1 (-2); ShLin 1%nat 1 1; ShLin 2%nat 1 1], Some QST_e293);
  (55, 55, [ShLin 0%nat 1 (-1); ShLin 1%nat 1 2; ShLin 2%nat 1 (-1)], [ShLin 0%nat 1 (-2); ShLin 1%nat 1 1; ShLin 2%nat 1 (-1)], Some QST_e294);
  (55, 56, [ShLin 0%nat 1 (-1); ShLin 1%nat 1 2; ShLin 2%nat 1 (-1)], [ShLin 0%nat 1 (-2); ShLin 1%nat 1 1; ShLin 2%nat 1 0], Some QST_e295);
  (56, 55, [ShLin 0%nat 1 (-1); ShLin 1%nat 1 2; ShLin 2%nat 1 0], [ShLin 0%nat 1 (-2); ShLin 1%nat 1 1; ShLin 2%nat 1 (-1)], Some QST_e296);
  (56, 56, [ShLin 0%nat 1 (-1); ShLin 1%nat 1 2; ShLin 2%nat 1 0], [ShLin 0%nat 1 (-2); ShLin 1%nat 1 1; ShLin 2%nat 1 0], Some QST_e297);
  (56, 57, [ShLin 0%nat 1 (-1); ShLin 1%nat 1 2; ShLin 2%nat 1 0], [ShLin 0%nat 1 (-2); ShLin 1%nat 1 1; ShLin 2%nat 1 1], Some QST_e298);
  (57, 56, [ShLin 0%nat 1 (-1); ShLin 1%nat 1 2; ShLin 2%nat 1 1], [ShLin 0%nat 1 (-2); ShLin 1%nat 1 1; ShLin 2%nat 1 0], Some QST_e299);
  (57, 57, [ShLin 0%nat 1 (-1); ShLin 1%nat 1 2; ShLin 2%nat 1 1], [ShLin 0%nat 1 (-2); ShLin 1%nat 1 1; ShLin 2%nat 1 1], Some QST_e300);
  (58, 58, [ShLin 0%nat 1 (-2); ShLin 1%nat 1 (-1); ShLin 2%nat 1 (-1)], [ShLin 0%nat 1 (-3); ShLin 1%nat 1 (-2); ShLin 2%nat 1 (-1)], Some QST_e12);
  (58, 59, [ShLin 0%nat 1 (-2); ShLin 1%nat 1 (-1); ShLin 2%nat 1 (-1)], [ShLin 0%nat 1 (-3); ShLin 1%nat 1 (-2); ShLin 2%nat 1 0], Some QST_e261);
  (58, 61, [ShLin 0%nat 1 (-2); ShLin 1%nat 1 (-1); ShLin 2%nat 1 (-1)], [ShLin 0%nat 1 (-3); ShLin 1%nat 1 0; ShLin 2%nat 1 (-1)], Some QST_e97);
  (58, 62, [ShLin 0%nat 1 (-2); ShLin 1%nat 1 (-1); ShLin 2%nat 1 (-1)], [ShLin 0%nat 1 (-3); ShLin 1%nat 1 0; ShLin 2%nat 1 0], Some QST_e98);
  (59, 58, [ShLin 0%nat 1 (-2); ShLin 1%nat 1 (-1); ShLin 2%nat 1 0], [ShLin 0%nat 1 (-3); ShLin 1%nat 1 (-2); ShLin 2%nat 1 (-1)], Some (cD (cN 1) (cV 2)));
  (59, 59, [ShLin 0%nat 1 (-2); ShLin 1%nat 1 (-1); ShLin 2%nat 1 0], [ShLin 0%nat 1 (-3); ShLin 1%nat 1 (-2); ShLin 2%nat 1 0], Some QST_e175);
  (59, 60, [ShLin 0%nat 1 (-2); ShLin 1%nat 1 (-1); ShLin 2%nat 1 0], [ShLin 0%nat 1 (-3); ShLin 1%nat 1 (-2); ShLin 2%nat 1 1], Some QST_e262);
  (59, 61, [ShLin 0%nat 1 (-2); ShLin 1%nat 1 (-1); ShLin 2%nat 1 0], [ShLin 0%nat 1 (-3); ShLin 1%nat 1 0; ShLin 2%nat 1 (-1)], Some QST_e7);
  (59, 62, [ShLin 0%nat 1 (-2); ShLin 1%nat 1 (-1); ShLin 2%nat 1 0], [ShLin 0%nat 1 (-3); ShLin 1%nat 1 0; ShLin 2%nat 1 0], Some QST_e263);
  (59, 63, [ShLin 0%nat 1 (-2); ShLin 1%nat 1 (-1); ShLin 2%nat 1 0], [ShLin 0%nat 1 (-3); ShLin 1%nat 1 0; ShLin 2%nat 1 1], Some QST_e264);
  (60, 59, [ShLin 0%nat 1 (-2); ShLin 1%nat 1 (-1); ShLin 2%nat 1 1], [ShLin 0%nat 1 (-3); ShLin 1%nat 1 (-2); ShLin 2%nat 1 0], Some QST_e265);
  (60, 60, [ShLin 0%nat 1 (-2); ShLin 1%nat 1 (-1); ShLin 2%nat 1 1], [ShLin 0%nat 1 (-3); ShLin 1%nat 1 (-2); ShLin 2%nat 1 1], Some QST_e180);
  (60, 62, [ShLin 0%nat 1 (-2); ShLin 1%nat 1 (-1); ShLin 2%nat 1 1], [ShLin 0%nat 1 (-3); ShLin 1%nat 1 0; ShLin 2%nat 1 0], Some QST_e266);
  (60, 63, [ShLin 0%nat 1 (-2); ShLin 1%nat 1 (-1); ShLin 2%nat 1 1], [ShLin 0%nat 1 (-3); ShLin 1%nat 1 0; ShLin 2%nat 1 1], Some QST_e267);
  (61, 61, [ShLin 0%nat 1 (-2); ShLin 1%nat 1 1; ShLin 2%nat 1 (-1)], [ShLin 0%nat 1 (-3); ShLin 1%nat 1 0; ShLin 2%nat 1 (-1)], Some QST_e166);
  (61, 62, [ShLin 0%nat 1 (-2); ShLin 1%nat 1 1; ShLin 2%nat 1 (-1)], [ShLin 0%nat 1 (-3); ShLin 1%nat 1 0; ShLin 2%nat 1 0], Some QST_e4);
  (62, 61, [ShLin 0%nat 1 (-2); ShLin 1%nat 1 1; ShLin 2%nat 1 0], [ShLin 0%nat 1 (-3); ShLin 1%nat 1 0; ShLin 2%nat 1 (-1)], Some QST_e268);
  (62, 62, [ShLin 0%nat 1 (-2); ShLin 1%nat 1 1; ShLin 2%nat 1 0], [ShLin 0%nat 1 (-3); ShLin 1%nat 1 0; ShLin 2%nat 1 0], Some QST_e168);
  (62, 63, [ShLin 0%nat 1 (-2); ShLin 1%nat 1 1; ShLin 2%nat 1 0], [ShLin 0%nat 1 (-3); ShLin 1%nat 1 0; ShLin 2%nat 1 1], Some QST_e169);
  (63, 62, [ShLin 0%nat 1 (-2); ShLin 1%nat 1 1; ShLin 2%nat 1 1], [ShLin 0%nat 1 (-3); ShLin 1%nat 1 0; ShLin 2%nat 1 0], Some QST_e269);
  (63, 63, [ShLin 0%nat 1 (-2); ShLin 1%nat 1 1; ShLin 2%nat 1 1], [ShLin 0%nat 1 (-3); ShLin 1%nat 1 0; ShLin 2%nat 1 1], Some QST_e270);
  (64, 64, [ShLin 0%nat 1 (-3); ShLin 1%nat 1 0; ShLin 2%nat 1 0], [ShLin 0%nat 1 (-4); ShLin 1%nat 1 (-1); ShLin 2%nat 1 0], Some (cN 1))].
(** /repo/c++/symmetry/nrg-recalc-QST.hpp recalc_doublet, qst/qst-doubletp+1.dat *)
Definition qst_t4 : ten_table := mk_ten "doublet" [ShLin 0%nat 1 (-1); ShLin 1%nat 1 1; ShLin 2%nat 1 1] [1; 2; 1] [
  (1, 1, [ShLin 0%nat 1 3; ShLin 1%nat 1 0; ShLin 2%nat 1 0], [ShLin 0%nat 1 2; ShLin 1%nat 1 1; ShLin 2%nat 1 1], Some (cN 1));
  (2, 2, [ShLin 0%nat 1 2; ShLin 1%nat 1 (-1); ShLin 2%nat 1 (-1)], [ShLin 0%nat 1 1; ShLin 1%nat 1 0; ShLin 2%nat 1 0], Some QST_e331);
  (3, 2, [ShLin 0%nat 1 2; ShLin 1%nat 1 (-1); ShLin 2%nat 1 0], [ShLin 0%nat 1 1; ShLin 1%nat 1 0; ShLin 2%nat 1 0], Some QST_e332);
  (3, 3, [ShLin 0%nat 1 2; ShLin 1%nat 1 (-1); ShLin 2%nat 1 0], [ShLin 0%nat 1 1; ShLin 1%nat 1 0; ShLin 2%nat 1 1], Some QST_e333);
  (4, 2, [ShLin 0%nat 1 2; ShLin 1%nat 1 (-1); ShLin 2%nat 1 1], [ShLin 0%nat 1 1; ShLin 1%nat 1 0; ShLin 2%nat 1 0], Some QST_e334);
  (4, 3, [ShLin 0%nat 1 2; ShLin 1%nat 1 (-1); ShLin 2%nat 1 1], [ShLin 0%nat 1 1; ShLin 1%nat 1 0; ShLin 2%nat 1 1], Some QST_e335);
  (4, 4, [ShLin 0%nat 1 2; ShLin 1%nat 1 (-1); ShLin 2%nat 1 1], [ShLin 0%nat 1 1; ShLin 1%nat 1 0; ShLin 2%nat 1 2], Some QST_e0);
  (5, 2, [ShLin 0%nat 1 2; ShLin 1%nat 1 1; ShLin 2%nat 1 (-1)], [ShLin 0%nat 1 1; ShLin 1%nat 1 0; ShLin 2%nat 1 0], Some QST_e14);
  (5, 5, [ShLin 0%nat 1 2; ShLin 1%nat 1 1; ShLin 2%nat 1 (-1)], [ShLin 0%nat 1 1; ShLin 1%nat 1 2; ShLin 2%nat 1 0], Some QST_e15);
  (6, 2, [ShLin 0%nat 1 2; ShLin 1%nat 1 1; ShLin 2%nat 1 0], [ShLin 0%nat 1 1; ShLin 1%nat 1 0; ShLin 2%nat 1 0], Some QST_e336);
  (6, 3, [ShLin 0%nat 1 2; ShLin 1%nat 1 1; ShLin 2%nat 1 0], [ShLin 0%nat 1 1; ShLin 1%nat 1 0; ShLin 2%nat 1 1], Some QST_e337);
  (6, 5, [ShLin 0%nat 1 2; ShLin 1%nat 1 1; ShLin 2%nat 1 0], [ShLin 0%nat 1 1; ShLin 1%nat 1 2; ShLin 2%nat 1 0], Some QST_e338);
  (6, 6, [ShLin 0%nat 1 2; ShLin 1%nat 1 1; ShLin 2%nat 1 0], [ShLin 0%nat 1 1; ShLin 1%nat 1 2; ShLin 2%nat 1 1], Some QST_e339);
  (7, 2, [ShLin 0%nat 1 2; ShLin 1%nat 1 1; ShLin 2%nat 1 1], [ShLin 0%nat 1 1; ShLin 1%nat 1 0; ShLin 2%nat 1 0], Some QST_e340);
  (7, 3, [ShLin 0%nat 1 2; ShLin 1%nat 1 1; ShLin 2%nat 1 1], [ShLin 0%nat 1 1; ShLin 1%nat 1 0; ShLin 2%nat 1 1], Some QST_e264);
  (7, 4, [ShLin 0%nat 1 2; ShLin 1%nat 1 1; ShLin 2%nat 1 1], [ShLin 0%nat 1 1; ShLin 1%nat 1 0; ShLin 2%nat 1 2], Some QST_e6);
  (7, 5, [ShLin 0%nat 1 2; ShLin 1%nat 1 1; ShLin 2%nat 1 1], [ShLin 0%nat 1 1; ShLin 1%nat 1 2; ShLin 2%nat 1 0], Some QST_e341);
  (7, 6, [ShLin 0%nat 1 2; ShLin 1%nat 1 1; ShLin 2%nat 1 1], [ShLin 0%nat 1 1; ShLin 1%nat 1 2; ShLin 2%nat 1 1], Some QST_e218);
  (7, 7, [ShLin 0%nat 1 2; ShLin 1%nat 1 1; ShLin 2%nat 1 1], [ShLin 0%nat 1 1; ShLin 1%nat 1 2; ShLin 2%nat 1 2], Some (cN (-1)));
  (8, 8, [ShLin 0%nat 1 1; ShLin 1%nat 1 0; ShLin 2%nat 1 0], [ShLin 0%nat 1 0; ShLin 1%nat 1 1; ShLin 2%nat 1 1], Some (cN 1));
  (9, 9, [ShLin 0%nat 1 1; ShLin 1%nat 1 0; ShLin 2%nat 1 (-2)], [ShLin 0%nat 1 0; ShLin 1%nat 1 1; ShLin 2%nat 1 (-1)], Some QST_e342);
  (10, 9, [ShLin 0%nat 1 1; ShLin 1%nat 1 0; ShLin 2%nat 1 (-1)], [ShLin 0%nat 1 0; ShLin 1%nat 1 1; ShLin 2%nat 1 (-1)], Some QST_e343);
  (10, 10, [ShLin 0%nat 1 1; ShLin 1%nat 1 0; ShLin 2%nat 1 (-1)], [ShLin 0%nat 1 0; ShLin 1%nat 1 1; ShLin 2%nat 1 0], Some QST_e344);
  (11, 9, [ShLin 0%nat 1 1; ShLin 1%nat 1 0; ShLin 2%nat 1 0], [ShLin 0%nat 1 0; ShLin 1%nat 1 1; ShLin 2%nat 1 (-1)], Some QST_e345);
  (11, 10, [ShLin 0%nat 1 1; ShLin 1%nat 1 0; ShLin 2%nat 1 0], [ShLin 0%nat 1 0; ShLin 1%nat 1 1; ShLin 2%nat 1 0], Some QST_e346);
  (11, 11, [ShLin 0%nat 1 1; ShLin 1%nat 1 0; ShLin 2%nat 1 0], [ShLin 0%nat 1 0; ShLin 1%nat 1 1; ShLin 2%nat 1 1], Some QST_e347);
  (12, 10, [ShLin 0%nat 1 1; ShLin 1%nat 1 0; ShLin 2%nat 1 1], [ShLin 0%nat 1 0; ShLin 1%nat 1 1; ShLin 2%nat 1 0], Some QST_e348);
  (12, 11, [ShLin 0%nat 1 1; ShLin 1%nat 1 0; ShLin 2%nat 1 1], [ShLin 0%nat 1 0; ShLin 1%nat 1 1; ShLin 2%nat 1 1], Some QST_e349);
  (12, 12, [ShLin 0%nat 1 1; ShLin 1%nat 1 0; ShLin 2%nat 1 1], [ShLin 0%nat 1 0; ShLin 1%nat 1 1; ShLin 2%nat 1 2], Some QST_e350);
  (13, 11, [ShLin 0%nat 1 1; ShLin 1%nat 1 0; ShLin 2%nat 1 2], [ShLin 0%nat 1 0; ShLin 1%nat 1 1; ShLin 2%nat 1 1], Some QST_e351);
  (13, 12, [ShLin 0%nat 1 1; ShLin 1%nat 1 0; ShLin 2%nat 1 2], [ShLin 0%nat 1 0; ShLin 1%nat 1 1; ShLin 2%nat 1 2], Some QST_e352);
  (13, 13, [ShLin 0%nat 1 1; ShLin 1%nat 1 0; ShLin 2%nat 1 2], [ShLin 0%nat 1 0; ShLin 1%nat 1 1; ShLin 2%nat 1 3], Some (cN 1));
  (14, 14, [ShLin 0%nat 1 1; ShLin 1%nat 1 (-2); ShLin 2%nat 1 (-1)], [ShLin 0%nat 1 0; ShLin 1%nat 1 (-1); ShLin 2%nat 1 0], Some QST_e353);
  (15, 14, [ShLin 0%nat 1 1; ShLin 1%nat 1 (-2); ShLin 2%nat 1 0], [ShLin 0%nat 1 0; ShLin 1%nat 1 (-1); ShLin 2%nat 1 0], Some QST_e354);
  (15, 15, [ShLin 0%nat 1 1; ShLin 1%nat 1 (-2); ShLin 2%nat 1 0], [ShLin 0%nat 1 0; ShLin 1%nat 1 (-1); ShLin 2%nat 1 1], Some QST_e198);
  (16, 14, [ShLin 0%nat 1 1; ShLin 1%nat 1 (-2); ShLin 2%nat 1 1], [ShLin 0%nat 1 0; ShLin 1%nat 1 (-1); ShLin 2%nat 1 0], Some QST_e355);
  (16, 15, [ShLin 0%nat 1 1; ShLin 1%nat 1 (-2); ShLin 2%nat 1 1], [ShLin 0%nat 1 0; ShLin 1%nat 1 (-1); ShLin 2%nat 1 1], Some QST_e356);
  (16, 16, [ShLin 0%nat 1 1; ShLin 1%nat 1 (-2); ShLin 2%nat 1 1], [ShLin 0%nat 1 0; ShLin 1%nat 1 (-1); ShLin 2%nat 1 2], Some QST_e357);
  (17, 14, [ShLin 0%nat 1 1; ShLin 1%nat 1 0; ShLin 2%nat 1 (-1)], [ShLin 0%nat 1 0; ShLin 1%nat 1 (-1); ShLin 2%nat 1 0], Some QST_e43);
  (17, 17, [ShLin 0%nat 1 1; ShLin 1%nat 1 0; ShLin 2%nat 1 (-1)], [ShLin 0%nat 1 0; ShLin 1%nat 1 1; ShLin 2%nat 1 0], Some QST_e358);
  (18, 14, [ShLin 0%nat 1 1; ShLin 1%nat 1 0; ShLin 2%nat 1 0], [ShLin 0%nat 1 0; ShLin 1%nat 1 (-1); ShLin 2%nat 1 0], Some QST_e359);
  (18, 15, [ShLin 0%nat 1 1; ShLin 1%nat 1 0; ShLin 2%nat 1 0], [ShLin 0%nat 1 0; ShLin 1%nat 1 (-1); ShLin 2%nat 1 1], Some QST_e360);
  (18, 17, [ShLin 0%nat 1 1; ShLin 1%nat 1 0; ShLin 2%nat 1 0], [ShLin 0%nat 1 0; ShLin 1%nat 1 1; ShLin 2%nat 1 0], Some QST_e361);
  (18, 18, [ShLin 0%nat 1 1; ShLin 1%nat 1 0; ShLin 2%nat 1 0], [ShLin 0%nat 1 0; ShLin 1%nat 1 1; ShLin 2%nat 1 1], Some QST_e362);
  (19, 14, [ShLin 0%nat 1 1; ShLin 1%nat 1 0; ShLin 2%nat 1 1], [ShLin 0%nat 1 0; ShLin 1%nat 1 (-1); ShLin 2%nat 1 0], Some QST_e363);
  (19, 15, [ShLin 0%nat 1 1; ShLin 1%nat 1 0; ShLin 2%nat 1 1], [ShLin 0%nat 1 0; ShLin 1%nat 1 (-1); ShLin 2%nat 1 1], Some QST_e275);
  (19, 16, [ShLin 0%nat 1 1; ShLin 1%nat 1 0; ShLin 2%nat 1 1], [ShLin 0%nat 1 0; ShLin 1%nat 1 (-1); ShLin 2%nat 1 2], Some QST_e33);
  (19, 17, [ShLin 0%nat 1 1; ShLin 1%nat 1 0; ShLin 2%nat 1 1], [ShLin 0%nat 1 0; ShLin 1%nat 1 1; ShLin 2%nat 1 0], Some QST_e364);
  (19, 18, [ShLin 0%nat 1 1; ShLin 1%nat 1 0; ShLin 2%nat 1 1], [ShLin 0%nat 1 0; ShLin 1%nat 1 1; ShLin 2%nat 1 1], Some QST_e365);
  (19, 19, [ShLin 0%nat 1 1; ShLin 1%nat 1 0; ShLin 2%nat 1 1], [ShLin 0%nat 1 0; ShLin 1%nat 1 1; ShLin 2%nat 1 2], Some QST_e366);
  (20, 17, [ShLin 0%nat 1 1; ShLin 1%nat 1 2; ShLin 2%nat 1 (-1)], [ShLin 0%nat 1 0; ShLin 1%nat 1 1; ShLin 2%nat 1 0], Some QST_e367);
  (20, 20, [ShLin 0%nat 1 1; ShLin 1%nat 1 2; ShLin 2%nat 1 (-1)], [ShLin 0%nat 1 0; ShLin 1%nat 1 3; ShLin 2%nat 1 0], Some QST_e368);
  (21, 17, [ShLin 0%nat 1 1; ShLin 1%nat 1 2; ShLin 2%nat 1 0], [ShLin 0%nat 1 0; ShLin 1%nat 1 1; ShLin 2%nat 1 0], Some QST_e369);
  (21, 18, [ShLin 0%nat 1 1; ShLin 1%nat 1 2; ShLin 2%nat 1 0], [ShLin 0%nat 1 0; ShLin 1%nat 1 1; ShLin 2%nat 1 1], Some QST_e370);
  (21, 20, [ShLin 0%nat 1 1; ShLin 1%nat 1 2; ShLin 2%nat 1 0], [ShLin 0%nat 1 0; ShLin 1%nat 1 3; ShLin 2%nat 1 0], Some QST_e371);
  (21, 21, [ShLin 0%nat 1 1; ShLin 1%nat 1 2; ShLin 2%nat 1 0], [ShLin 0%nat 1 0; ShLin 1%nat 1 3; ShLin 2%nat 1 1], Some QST_e277);
  (22, 17, [ShLin 0%nat 1 1; ShLin 1%nat 1 2; ShLin 2%nat 1 1], [ShLin 0%nat 1 0; ShLin 1%nat 1 1; ShLin 2%nat 1 0], Some QST_e372);
  (22, 18, [ShLin 0%nat 1 1; ShLin 1%nat 1 2; ShLin 2%nat 1 1], [ShLin 0%nat 1 0; ShLin 1%nat 1 1; ShLin 2%nat 1 1], Some QST_e289);
  (22, 19, [ShLin 0%nat 1 1; ShLin 1%nat 1 2; ShLin 2%nat 1 1], [ShLin 0%nat 1 0; ShLin 1%nat 1 1; ShLin 2%nat 1 2], Some QST_e45);
  (22, 20, [ShLin 0%nat 1 1; ShLin 1%nat 1 2; ShLin 2%nat 1 1], [ShLin 0%nat 1 0; ShLin 1%nat 1 3; ShLin 2%nat 1 0], Some QST_e373);
  (22, 21, [ShLin 0%nat 1 1; ShLin 1%nat 1 2; ShLin 2%nat 1 1], [ShLin 0%nat 1 0; ShLin 1%nat 1 3; ShLin 2%nat 1 1], Some QST_e262);
  (22, 22, [ShLin 0%nat 1 1; ShLin 1%nat 1 2; ShLin 2%nat 1 1], [ShLin 0%nat 1 0; ShLin 1%nat 1 3; ShLin 2%nat 1 2], Some (cN 1));
  (23, 23, [ShLin 0%nat 1 0; ShLin 1%nat 1 (-1); ShLin 2%nat 1 (-1)], [ShLin 0%nat 1 (-1); ShLin 1%nat 1 0; ShLin 2%nat 1 0], Some QST_e331);
  (24, 23, [ShLin 0%nat 1 0; ShLin 1%nat 1 (-1); ShLin 2%nat 1 0], [ShLin 0%nat 1 (-1); ShLin 1%nat 1 0; ShLin 2%nat 1 0], Some QST_e332);
  (24, 24, [ShLin 0%nat 1 0; ShLin 1%nat 1 (-1); ShLin 2%nat 1 0], [ShLin 0%nat 1 (-1); ShLin 1%nat 1 0; ShLin 2%nat 1 1], Some QST_e333);
  (25, 23, [ShLin 0%nat 1 0; ShLin 1%nat 1 (-1); ShLin 2%nat 1 1], [ShLin 0%nat 1 (-1); ShLin 1%nat 1 0; ShLin 2%nat 1 0], Some QST_e334);
  (25, 24, [ShLin 0%nat 1 0; ShLin 1%nat 1 (-1); ShLin 2%nat 1 1], [ShLin 0%nat 1 (-1); ShLin 1%nat 1 0; ShLin 2%nat 1 1], Some QST_e335);
  (25, 25, [ShLin 0%nat 1 0; ShLin 1%nat 1 (-1); ShLin 2%nat 1 1], [ShLin 0%nat 1 (-1); ShLin 1%nat 1 0; ShLin 2%nat 1 2], Some QST_e0);
  (26, 23, [ShLin 0%nat 1 0; ShLin 1%nat 1 1; ShLin 2%nat 1 (-1)], [ShLin 0%nat 1 (-1); ShLin 1%nat 1 0; ShLin 2%nat 1 0], Some QST_e14);
  (26, 26, [ShLin 0%nat 1 0; ShLin 1%nat 1 1; ShLin 2%nat 1 (-1)], [ShLin 0%nat 1 (-1); ShLin 1%nat 1 2; ShLin 2%nat 1 0], Some QST_e15);
  (27, 23, [ShLin 0%nat 1 0; ShLin 1%nat 1 1; ShLin 2%nat 1 0], [ShLin 0%nat 1 (-1); ShLin 1%nat 1 0; ShLin 2%nat 1 0], Some QST_e336);
  (27, 24, [ShLin 0%nat 1 0; ShLin 1%nat 1 1; ShLin 2%nat 1 0], [ShLin 0%nat 1 (-1); ShLin 1%nat 1 0; ShLin 2%nat 1 1], Some QST_e337);
  (27, 26, [ShLin 0%nat 1 0; ShLin 1%nat 1 1; ShLin 2%nat 1 0], [ShLin 0%nat 1 (-1); ShLin 1%nat 1 2; ShLin 2%nat 1 0], Some QST_e338);
  (27, 27, [ShLin 0%nat 1 0; ShLin 1%nat 1 1; ShLin 2%nat 1 0], [ShLin 0%nat 1 (-1); ShLin 1%nat 1 2; ShLin 2%nat 1 1], Some QST_e339);
  (28, 23, [ShLin 0%nat 1 0; ShLin 1%nat 1 1; ShLin 2%nat 1 1], [ShLin 0%nat 1 (-1); ShLin 1%nat 1 0; ShLin 2%nat 1 0], Some QST_e340);
  (28, 24, [ShLin 0%nat 1 0; ShLin 1%nat 1 1; ShLin 2%nat 1 1], [ShLin 0%nat 1 (-1); ShLin 1%nat 1 0; ShLin 2%nat 1 1], Some QST_e264);
  (28, 25, [ShLin 0%nat 1 0; ShLin 1%nat 1 1; ShLin 2%nat 1 1], [ShLin 0%nat 1 (-1); ShLin 1%nat 1 0; ShLin 2%nat 1 2], Some QST_e6);
  (28, 26, [ShLin 0%nat 1 0; ShLin 1%nat 1 1; ShLin 2%nat 1 1], [ShLin 0%nat 1 (-1); ShLin 1%nat 1 2; ShLin 2%nat 1 0], Some QST_e341);
  (28, 27, [ShLin 0%nat 1 0; ShLin 1%nat 1 1; ShLin 2%nat 1 1], [ShLin 0%nat 1 (-1); ShLin 1%nat 1 2; ShLin 2%nat 1 1], Some QST_e218);
  (28, 28, [ShLin 0%nat 1 0; ShLin 1%nat 1 1; ShLin 2%nat 1 1], [ShLin 0%nat 1 (-1); ShLin 1%nat 1 2; ShLin 2%nat 1 2], Some (cN (-1)));
  (29, 29, [ShLin 0%nat 1 0; ShLin 1%nat 1 (-1); ShLin 2%nat 1 (-2)], [ShLin 0%nat 1 (-1); ShLin 1%nat 1 0; ShLin 2%nat 1 (-1)], Some QST_e374);
  (30, 29, [ShLin 0%nat 1 0; ShLin 1%nat 1 (-1); ShLin 2%nat 1 (-1)], [ShLin 0%nat 1 (-1); ShLin 1%nat 1 0; ShLin 2%nat 1 (-1)], Some QST_e375);
  (30, 30, [ShLin 0%nat 1 0; ShLin 1%nat 1 (-1); ShLin 2%nat 1 (-1)], [ShLin 0%nat 1 (-1); ShLin 1%nat 1 0; ShLin 2%nat 1 0], Some QST_e376);
  (31, 29, [ShLin 0%nat 1 0; ShLin 1%nat 1 (-1); ShLin 2%nat 1 0], [ShLin 0%nat 1 (-1); ShLin 1%nat 1 0; ShLin 2%nat 1 (-1)], Some QST_e377);
  (31, 30, [ShLin 0%nat 1 0; ShLin 1%nat 1 (-1); ShLin 2%nat 1 0], [ShLin 0%nat 1 (-1); ShLin 1%nat 1 0; ShLin 2%nat 1 0], Some QST_e378);
  (31, 31, [ShLin 0%nat 1 0; ShLin 1%nat 1 (-1); ShLin 2%nat 1 0], [ShLin 0%nat 1 (-1); ShLin 1%nat 1 0; ShLin 2%nat 1 1], Some QST_e379);
  (32, 30, [ShLin 0%nat 1 0; ShLin 1%nat 1 (-1); ShLin 2%nat 1 1], [ShLin 0%nat 1 (-1); ShLin 1%nat 1 0; ShLin 2%nat 1 0], Some QST_e380);
  (32, 31, [ShLin 0%nat 1 0; ShLin 1%nat 1 (-1); ShLin 2%nat 1 1], [ShLin 0%nat 1 (-1); ShLin 1%nat 1 0; ShLin 2%nat 1 1], Some QST_e381);
  (32, 32, [ShLin 0%nat 1 0; ShLin 1%nat 1 (-1); ShLin 2%nat 1 1], [ShLin 0%nat 1 (-1); ShLin 1%nat 1 0; ShLin 2%nat 1 2], Some QST_e382);
  (33, 31, [ShLin 0%nat 1 0; ShLin 1%nat 1 (-1); ShLin 2%nat 1 2], [ShLin 0%nat 1 (-1); ShLin 1%nat 1 0; ShLin 2%nat 1 1], Some QST_e383);
  (33, 32, [ShLin 0%nat 1 0; ShLin 1%nat 1 (-1); ShLin 2%nat 1 2], [ShLin 0%nat 1 (-1); ShLin 1%nat 1 0; ShLin 2%nat 1 2], Some QST_e384);
  (33, 33, [ShLin 0%nat 1 0; ShLin 1%nat 1 (-1); ShLin 2%nat 1 2], [ShLin 0%nat 1 (-1); ShLin 1%nat 1 0; ShLin 2%nat 1 3], Some QST_e385);
  (34, 29, [ShLin 0%nat 1 0; ShLin 1%nat 1 1; ShLin 2%nat 1 (-2)], [ShLin 0%nat 1 (-1); ShLin 1%nat 1 0; ShLin 2%nat 1 (-1)], Some QST_e386);
  (34, 34, [ShLin 0%nat 1 0; ShLin 1%nat 1 1; ShLin 2%nat 1 (-2)], [ShLin 0%nat 1 (-1); ShLin 1%nat 1 2; ShLin 2%nat 1 (-1)], Some QST_e387);
  (35, 29, [ShLin 0%nat 1 0; ShLin 1%nat 1 1; ShLin 2%nat 1 (-1)], [ShLin 0%nat 1 (-1); ShLin 1%nat 1 0; ShLin 2%nat 1 (-1)], Some QST_e388);
  (35, 30, [ShLin 0%nat 1 0; ShLin 1%nat 1 1; ShLin 2%nat 1 (-1)], [ShLin 0%nat 1 (-1); ShLin 1%nat 1 0; ShLin 2%nat 1 0], Some QST_e389);
  (35, 34, [ShLin 0%nat 1 0; ShLin 1%nat 1 1; ShLin 2%nat 1 (-1)], [ShLin 0%nat 1 (-1); ShLin 1%nat 1 2; ShLin 2%nat 1 (-1)], Some QST_e390);
  (35, 35, [ShLin 0%nat 1 0; ShLin 1%nat 1 1; ShLin 2%nat 1 (-1)], [ShLin 0%nat 1 (-1); ShLin 1%nat 1 2; ShLin 2%nat 1 0], Some QST_e391);
  (36, 29, [ShLin 0%nat 1 0; ShLin 1%nat 1 1; ShLin 2%nat 1 0], [ShLin 0%nat 1 (-1); ShLin 1%nat 1 0; ShLin 2%nat 1 (-1)], Some QST_e392);
  (36, 30, [ShLin 0%nat 1 0; ShLin 1%nat 1 1; ShLin 2%nat 1 0], [ShLin 0%nat 1 (-1); ShLin 1%nat 1 0; ShLin 2%nat 1 0], Some QST_e393);
  (36, 31, [ShLin 0%nat 1 0; ShLin 1%nat 1 1; ShLin 2%nat 1 0], [ShLin 0%nat 1 (-1); ShLin 1%nat 1 0; ShLin 2%nat 1 1], Some QST_e394);
  (36, 34, [ShLin 0%nat 1 0; ShLin 1%nat 1 1; ShLin 2%nat 1 0], [ShLin 0%nat 1 (-1); ShLin 1%nat 1 2; ShLin 2%nat 1 (-1)], Some QST_e395);
  (36, 35, [ShLin 0%nat 1 0; ShLin 1%nat 1 1; ShLin 2%nat 1 0], [ShLin 0%nat 1 (-1); ShLin 1%nat 1 2; ShLin 2%nat 1 0], Some QST_e396);
  (36, 36, [ShLin 0%nat 1 0; ShLin 1%nat 1 1; ShLin 2%nat 1 0], [ShLin 0%nat 1 (-1); ShLin 1%nat 1 2; ShLin 2%nat 1 1], Some QST_e397);
  (37, 30, [ShLin 0%nat 1 0; ShLin 1%nat 1 1; ShLin 2%nat 1 1], [ShLin 0%nat 1 (-1); ShLin 1%nat 1 0; ShLin 2%nat 1 0], Some QST_e398);
  (37, 31, [ShLin 0%nat 1 0; ShLin 1%nat 1 1; ShLin 2%nat 1 1], [ShLin 0%nat 1 (-1); ShLin 1%nat 1 0; ShLin 2%nat 1 1], Some QST_e399);
  (37, 32, [ShLin 0%nat 1 0; ShLin 1%nat 1 1; ShLin 2%nat 1 1], [ShLin 0%nat 1 (-1); ShLin 1%nat 1 0; ShLin 2%nat 1 2], Some QST_e400);
  (37, 35, [ShLin 0%nat 1 0; ShLin 1%nat 1 1; ShLin 2%nat 1 1], [ShLin 0%nat 1 (-1); ShLin 1%nat 1 2; ShLin 2%nat 1 0], Some QST_e401);
  (37, 36, [ShLin 0%nat 1 0; ShLin 1%nat 1 1; ShLin 2%nat 1 1], [ShLin 0%nat 1 (-1); ShLin 1%nat 1 2; ShLin 2%nat 1 1], Some QST_e402);
  (37, 37, [ShLin 0%nat 1 0; ShLin 1%nat 1 1; ShLin 2%nat 1 1], [ShLin 0%nat 1 (-1); ShLin 1%nat 1 2; ShLin 2%nat 1 2], Some QST_e403);
  (38, 31, [ShLin 0%nat 1 0; ShLin 1%nat 1 1; ShLin 2%nat 1 2], [ShLin 0%nat 1 (-1); ShLin 1%nat 1 0; ShLin 2%nat 1 1], Some QST_e404);
  (38, 32, [ShLin 0%nat 1 0; ShLin 1%nat 1 1; ShLin 2%nat 1 2], [ShLin 0%nat 1 (-1); ShLin 1%nat 1 0; ShLin 2%nat 1 2], Some QST_e405);
  (38, 33, [ShLin 0%nat 1 0; ShLin 1%nat 1 1; ShLin 2%nat 1 2], [ShLin 0%nat 1 (-1); ShLin 1%nat 1 0; ShLin 2%nat 1 3], Some QST_e406);
  (38, 36, [ShLin 0%nat 1 0; ShLin 1%nat 1 1; ShLin 2%nat 1 2], [ShLin 0%nat 1 (-1); ShLin 1%nat 1 2; ShLin 2%nat 1 1], Some QST_e407);
  (38, 37, [ShLin 0%nat 1 0; ShLin 1%nat 1 1; ShLin 2%nat 1 2], [ShLin 0%nat 1 (-1); ShLin 1%nat 1 2; ShLin 2%nat 1 2], Some QST_e408);
  (38, 38, [ShLin 0%nat 1 0; ShLin 1%nat 1 1; ShLin 2%nat 1 2], [ShLin 0%nat 1 (-1); ShLin 1%nat 1 2; ShLin 2%nat 1 3], Some (cN (-1)));
  (39, 39, [ShLin 0%nat 1 0; ShLin 1%nat 1 (-3); ShLin 2%nat 1 0], [ShLin 0%nat 1 (-1); ShLin 1%nat 1 (-2); ShLin 2%nat 1 1], Some QST_e88);
  (40, 39, [ShLin 0%nat 1 0; ShLin 1%nat 1 (-1); ShLin 2%nat 1 0], [ShLin 0%nat 1 (-1); ShLin 1%nat 1 (-2); ShLin 2%nat 1 1], Some QST_e89);
  (40, 40, [ShLin 0%nat 1 0; ShLin 1%nat 1 (-1); ShLin 2%nat 1 0], [ShLin 0%nat 1 (-1); ShLin 1%nat 1 0; ShLin 2%nat 1 1], Some QST_e90);
  (41, 40, [ShLin 0%nat 1 0; ShLin 1%nat 1 1; ShLin 2%nat 1 0], [ShLin 0%nat 1 (-1); ShLin 1%nat 1 0; ShLin 2%nat 1 1], Some QST_e91);
  (41, 41, [ShLin 0%nat 1 0; ShLin 1%nat 1 1; ShLin 2%nat 1 0], [ShLin 0%nat 1 (-1); ShLin 1%nat 1 2; ShLin 2%nat 1 1], Some QST_e409);
  (42, 41, [ShLin 0%nat 1 0; ShLin 1%nat 1 3; ShLin 2%nat 1 0], [ShLin 0%nat 1 (-1); ShLin 1%nat 1 2; ShLin 2%nat 1 1], Some QST_e410);
  (42, 42, [ShLin 0%nat 1 0; ShLin 1%nat 1 3; ShLin 2%nat 1 0], [ShLin 0%nat 1 (-1); ShLin 1%nat 1 4; ShLin 2%nat 1 1], Some (cN (-1)));
  (43, 43, [ShLin 0%nat 1 (-1); ShLin 1%nat 1 0; ShLin 2%nat 1 0], [ShLin 0%nat 1 (-2); ShLin 1%nat 1 1; ShLin 2%nat 1 1], Some (cN 1));
  (44, 44, [ShLin 0%nat 1 (-1); ShLin 1%nat 1 0; ShLin 2%nat 1 (-2)], [ShLin 0%nat 1 (-2); ShLin 1%nat 1 1; ShLin 2%nat 1 (-1)], Some QST_e342);
  (45, 44, [ShLin 0%nat 1 (-1); ShLin 1%nat 1 0; ShLin 2%nat 1 (-1)], [ShLin 0%nat 1 (-2); ShLin 1%nat 1 1; ShLin 2%nat 1 (-1)], Some QST_e343);
  (45, 45, [ShLin 0%nat 1 (-1); ShLin 1%nat 1 0; ShLin 2%nat 1 (-1)], [ShLin 0%nat 1 (-2); ShLin 1%nat 1 1; ShLin 2%nat 1 0], Some QST_e344);
  (46, 44, [ShLin 0%nat 1 (-1); ShLin 1%nat 1 0; ShLin 2%nat 1 0], [ShLin 0%nat 1 (-2); ShLin 1%nat 1 1; ShLin 2%nat 1 (-1)], Some QST_e345);
  (46, 45, [ShLin 0%nat 1 (-1); ShLin 1%nat 1 0; ShLin 2%nat 1 0], [ShLin 0%nat 1 (-2); ShLin 1%nat 1 1; ShLin 2%nat 1 0], Some QST_e346);
  (46, 46, [ShLin 0%nat 1 (-1); ShLin 1%nat 1 0; ShLin 2%nat 1 0], [ShLin 0%nat 1 (-2); ShLin 1%nat 1 1; ShLin 2%nat 1 1], Some QST_e347);
  (47, 45, [ShLin 0%nat 1 (-1); ShLin 1%nat 1 0; ShLin 2%nat 1 1], [ShLin 0%nat 1 (-2); ShLin 1%nat 1 1; ShLin 2%nat 1 0], Some QST_e348);
  (47, 46, [ShLin 0%nat 1 (-1); ShLin 1%nat 1 0; ShLin 2%nat 1 1], [ShLin 0%nat 1 (-2); ShLin 1%nat 1 1; ShLin 2%nat 1 1], Some QST_e349);
  (47, 47, [ShLin 0%nat 1 (-1); ShLin 1%nat 1 0; ShLin 2%nat 1 1], [ShLin 0%nat 1 (-2); ShLin 1%nat 1 1; ShLin 2%nat 1 2], Some QST_e350);
  (48, 46, [ShLin 0%nat 1 (-1); ShLin 1%nat 1 0; ShLin 2%nat 1 2], [ShLin 0%nat 1 (-2); ShLin 1%nat 1 1; ShLin 2%nat 1 1], Some QST_e351);
  (48, 47, [ShLin 0%nat 1 (-1); ShLin 1%nat 1 0; ShLin 2%nat 1 2], [ShLin 0%nat 1 (-2); ShLin 1%nat 1 1; ShLin 2%nat 1 2], Some QST_e352);
  (48, 48, [ShLin 0%nat 1 (-1); ShLin 1%nat 1 0; ShLin 2%nat 1 2], [ShLin 0%nat 1 (-2); ShLin 1%nat 1 1; ShLin 2%nat 1 3], Some (cN 1));
  (49, 49, [ShLin 0%nat 1 (-1); ShLin 1%nat 1 (-2); ShLin 2%nat 1 (-1)], [ShLin 0%nat 1 (-2); ShLin 1%nat 1 (-1); ShLin 2%nat 1 0], Some QST_e353);
  (50, 49, [ShLin 0%nat 1 (-1); ShLin 1%nat 1 (-2); ShLin 2%nat 1 0], [ShLin 0%nat 1 (-2); ShLin 1%nat 1 (-1); ShLin 2%nat 1 0], Some QST_e354);
  (50, 50, [ShLin 0%nat 1 (-1); ShLin 1%nat 1 (-2); ShLin 2%nat 1 0], [ShLin 0%nat 1 (-2); ShLin 1%nat 1 (-1); ShLin 2%nat 1 1], Some QST_e198);
  (51, 49, [ShLin 0%nat 1 (-1); ShLin 1%nat 1 (-2); ShLin 2%nat 1 1], [ShLin 0%nat 1 (-2); ShLin 1%nat 1 (-1); ShLin 2%nat 1 0], Some QST_e355);
  (51, 50, [ShLin 0%nat 1 (-1); ShLin 1%nat 1 (-2); ShLin 2%nat 1 1], [ShLin 0%nat 1 (-2); ShLin 1%nat 1 (-1); ShLin 2%nat 1 1], Some QST_e356);
  (51, 51, [ShLin 0%nat 1 (-1); ShLin 1%nat 1 (-2); ShLin 2%nat 1 1], [ShLin 0%nat 1 (-2); ShLin 1%nat 1 (-1); ShLin 2%nat 1 2], Some QST_e357);
  (52, 49, [ShLin 0%nat 1 (-1); ShLin 1%nat 1 0; ShLin 2%nat 1 (-1)], [ShLin 0%nat 1 (-2); ShLin 1%nat 1 (-1); ShLin 2%nat 1 0], Some QST_e43);
  (52, 52, [ShLin 0%nat 1 (-1); ShLin 1%nat 1 0; ShLin 2%nat 1 (-1)], [ShLin 0%nat 1 (-2); ShLin 1%nat 1 1; ShLin 2%nat 1 0], Some QST_e358);
  (53, 49, [ShLin 0%nat 1 (-1); ShLin 1%nat 1 0; ShLin 2%nat 1 0], [ShLin 0%nat 1 (-2); ShLin 1%nat 1 (-1); ShLin 2%nat 1 0], Some QST_e359);
  (53, 50, [ShLin 0%nat 1 (-1); ShLin 1%nat 1 0; ShLin 2%nat 1 0], [ShLin 0%nat 1 (-2); ShLin 1%nat 1 (-1); ShLin 2%nat 1 1], Some QST_e360);
  (53, 52, [ShLin 0%nat 1 (-1); ShLin 1%nat 1 0; ShLin 2%nat 1 0], [ShLin 0%nat 1 (-2); ShLin 1%nat 1 1; ShLin 2%nat 1 0], Some QST_e361);
  (53, 53, [ShLin 0%nat 1 (-1); ShLin 1%nat 1 0; ShLin 2%nat 1 0], [ShLin 0%nat 1 (-2); ShLin 1%nat 1 1; ShLin 2%nat 1 1], Some QST_e362);
  (54, 49, [ShLin 0%nat 1 (-1); ShLin 1%nat 1 0; ShLin 2%nat 1 1], [ShLin 0%nat 1 (-2); ShLin 1%nat 1 (-1); ShLin 2%nat 1 0], Some QST_e363);
  (54, 50, [ShLin 0%nat 1 (-1); ShLin 1%nat 1 0; ShLin 2%nat 1 1], [ShLin 0%nat 1 (-2); ShLin 1%nat 1 (-1); ShLin 2%nat 1 1], Some QST_e275);
  (54, 51, [ShLin 0%nat 1 (-1); ShLin 1%nat 1 0; ShLin 2%nat 1 1], [ShLin 0%nat 1 (-2); ShLin 1%nat 1 (-1); ShLin 2%nat 1 2], Some QST_e33);
  (54, 52, [ShLin 0%nat 1 (-1); ShLin 1%nat 1 0; ShLin 2%nat 1 1], [ShLin 0%nat 1 (-2); ShLin 1%nat 1 1; ShLin 2%nat 1 0], Some QST_e364);
  (54, 53, [ShLin 0%nat 1 (-1); ShLin 1%nat 1 0; ShLin 2%nat 1 1], [ShLin 0%nat 1 (-2); ShLin 1%nat 1 1; ShLin 2%nat 1 1], Some QST_e365);
  (54, 54, [ShLin 0%nat 1 (-1); ShLin 1%nat 1 0; ShLin 2%nat 1 1], [ShLin 0%nat 1 (-2); ShLin 1%nat 1 1; ShLin 2%nat 1 2], Some QST_e366);
  (55, 52, [ShLin 0%nat 1 (-1); ShLin 1%nat 1 2; ShLin 2%nat 1 (-1)], [ShLin 0%nat 1 (-2); ShLin 1%nat 1 1; ShLin 2%nat 1 0], Some QST_e367);
  (55, 55, [ShLin 0%nat 1 (-1); ShLin 1%nat 1 2; ShLin 2%nat 1 (-1)], [ShLin 0%nat 1 (-2); ShLin 1%nat 1 3; ShLin 2%nat 1 0], Some QST_e368);
  (56, 52, [ShLin 0%nat 1 (-1); ShLin 1%nat 1 2; ShLin 2%nat 1 0], [ShLin 0%nat 1 (-2); ShLin 1%nat 1 1; ShLin 2%nat 1 0], Some QST_e369);
  (56, 53, [ShLin 0%nat 1 (-1); ShLin 1%nat 1 2; ShLin 2%nat 1 0], [ShLin 0%nat 1 (-2); ShLin 1%nat 1 1; ShLin 2%nat 1 1], Some QST_e370);
  (56, 55, [ShLin 0%nat 1 (-1); ShLin 1%nat 1 2; ShLin 2%nat 1 0], [ShLin 0%nat 1 (-2); ShLin 1%nat 1 3; ShLin 2%nat 1 0], Some QST_e371);
  (56, 56, [ShLin 0%nat 1 (-1); ShLin 1%nat 1 2; ShLin 2%nat 1 0], [ShLin 0%nat 1 (-2); ShLin 1%nat 1 3; ShLin 2%nat 1 1], Some QST_e277);
  (57, 52, [ShLin 0%nat 1 (-1); ShLin 1%nat 1 2; ShLin 2%nat 1 1], [ShLin 0%nat 1 (-2); ShLin 1%nat 1 1; ShLin 2%nat 1 0], Some QST_e372);
  (57, 53, [ShLin 0%nat 1 (-1); ShLin 1%nat 1 2; ShLin 2%nat 1 1], [ShLin 0%nat 1 (-2); ShLin 1%nat 1 1; ShLin 2%nat 1 1], Some QST_e289);
  (57, 54, [ShLin 0%nat 1 (-1); ShLin 1%nat 1 2; ShLin 2%nat 1 1], [ShLin 0%nat 1 (-2); ShLin 1%nat 1 1; ShLin 2%nat 1 2], Some QST_e45);
  (57, 55, [ShLin 0%nat 1 (-1); ShLin 1%nat 1 2; ShLin 2%nat 1 1], [ShLin 0%nat 1 (-2); ShLin 1%nat 1 3; ShLin 2%nat 1 0], Some QST_e373);
  (57, 56, [ShLin 0%nat 1 (-1); ShLin 1%nat 1 2; ShLin 2%nat 1 1], [ShLin 0%nat 1 (-2); ShLin 1%nat 1 3; ShLin 2%nat 1 1], Some QST_e262);
  (57, 57, [ShLin 0%nat 1 (-1); ShLin 1%nat 1 2; ShLin 2%nat 1 1], [ShLin 0%nat 1 (-2); ShLin 1%nat 1 3; ShLin 2%nat 1 2], Some (cN 1));
  (58, 58, [ShLin 0%nat 1 (-2); ShLin 1%nat 1 (-1); ShLin 2%nat 1 (-1)], [ShLin 0%nat 1 (-3); ShLin 1%nat 1 0; ShLin 2%nat 1 0], Some QST_e331);
  (59, 58, [ShLin 0%nat 1 (-2); ShLin 1%nat 1 (-1); ShLin 2%nat 1 0], [ShLin 0%nat 1 (-3); ShLin 1%nat 1 0; ShLin 2%nat 1 0], Some QST_e332);
  (59, 59, [ShLin 0%nat 1 (-2); ShLin 1%nat 1 (-1); ShLin 2%nat 1 0], [ShLin 0%nat 1 (-3); ShLin 1%nat 1 0; ShLin 2%nat 1 1], Some QST_e333);
  (60, 58, [ShLin 0%nat 1 (-2); ShLin 1%nat 1 (-1); ShLin 2%nat 1 1], [ShLin 0%nat 1 (-3); ShLin 1%nat 1 0; ShLin 2%nat 1 0], Some QST_e334);
  (60, 59, [ShLin 0%nat 1 (-2); ShLin 1%nat 1 (-1); ShLin 2%nat 1 1], [ShLin 0%nat 1 (-3); ShLin 1%nat 1 0; ShLin 2%nat 1 1], Some QST_e335);
  (60, 60, [ShLin 0%nat 1 (-2); ShLin 1%nat 1 (-1); ShLin 2%nat 1 1], [ShLin 0%nat 1 (-3); ShLin 1%nat 1 0; ShLin 2%nat 1 2], Some QST_e0);
  (61, 58, [ShLin 0%nat 1 (-2); ShLin 1%nat 1 1; ShLin 2%nat 1 (-1)], [ShLin 0%nat 1 (-3); ShLin 1%nat 1 0; ShLin 2%nat 1 0], Some QST_e14);
  (61, 61, [ShLin 0%nat 1 (-2); ShLin 1%nat 1 1; ShLin 2%nat 1 (-1)], [ShLin 0%nat 1 (-3); ShLin 1%nat 1 2; ShLin 2%nat 1 0], Some QST_e15);
  (62, 58, [ShLin 0%nat 1 (-2); ShLin 1%nat 1 1; ShLin 2%nat 1 0], [ShLin 0%nat 1 (-3); ShLin 1%nat 1 0; ShLin 2%nat 1 0], Some QST_e336);
  (62, 59, [ShLin 0%nat 1 (-2); ShLin 1%nat 1 1; ShLin 2%nat 1 0], [ShLin 0%nat 1 (-3); ShLin 1%nat 1 0; ShLin 2%nat 1 1], Some QST_e337);
  (62, 61, [ShLin 0%nat 1 (-2); ShLin 1%nat 1 1; ShLin 2%nat 1 0], [ShLin 0%nat 1 (-3); ShLin 1%nat 1 2; ShLin 2%nat 1 0], Some QST_e338);
  (62, 62, [ShLin 0%nat 1 (-2); ShLin 1%nat 1 1; ShLin 2%nat 1 0], [ShLin 0%nat 1 (-3); ShLin 1%nat 1 2; ShLin 2%nat 1 1], Some QST_e339);
  (63, 58, [ShLin 0%nat 1 (-2); ShLin 1%nat 1 1; ShLin 2%nat 1 1], [ShLin 0%nat 1 (-3); ShLin 1%nat 1 0; ShLin 2%nat 1 0], Some QST_e340);
  (63, 59, [ShLin 0%nat 1 (-2); ShLin 1%nat 1 1; ShLin 2%nat 1 1], [ShLin 0%nat 1 (-3); ShLin 1%nat 1 0; ShLin 2%nat 1 1], Some QST_e264);
  (63, 60, [ShLin 0%nat 1 (-2); ShLin 1%nat 1 1; ShLin 2%nat 1 1], [ShLin 0%nat 1 (-3); ShLin 1%nat 1 0; ShLin 2%nat 1 2], Some QST_e6);
  (63, 61, [ShLin 0%nat 1 (-2); ShLin 1%nat 1 1; ShLin 2%nat 1 1], [ShLin 0%nat 1 (-3); ShLin 1%nat 1 2; ShLin 2%nat 1 0], Some QST_e341);
  (63, 62, [ShLin 0%nat 1 (-2); ShLin 1%nat 1 1; ShLin 2%nat 1 1], [ShLin 0%nat 1 (-3); ShLin 1%nat 1 2; ShLin 2%nat 1 1], Some QST_e218);
  (63, 63, [ShLin 0%nat 1 (-2); ShLin 1%nat 1 1; ShLin 2%nat 1 1], [ShLin 0%nat 1 (-3); ShLin 1%nat 1 2; ShLin 2%nat 1 2], Some (cN (-1)));
  (64, 64, [ShLin 0%nat 1 (-3); ShLin 1%nat 1 0; ShLin 2%nat 1 0], [ShLin 0%nat 1 (-4); ShLin 1%nat 1 1; ShLin 2%nat 1 1], Some (cN 1))].
(** /repo/c++/symmetry/nrg-recalc-QST.hpp recalc_doublet, qst/qst-doubletm+1.dat *)
Definition qst_t5 : ten_table := mk_ten "doublet" [ShLin 0%nat 1 (-1); ShLin 1%nat 1 (-1); ShLin 2%nat 1 1] [1; 2; 1] [
  (1, 1, [ShLin 0%nat 1 3; ShLin 1%nat 1 0; ShLin 2%nat 1 0], [ShLin 0%nat 1 2; ShLin 1%nat 1 (-1); ShLin 2%nat 1 1], Some (cN 1));
  (2, 2, [ShLin 0%nat 1 2; ShLin 1%nat 1 (-1); ShLin 2%nat 1 (-1)], [ShLin 0%nat 1 1; ShLin 1%nat 1 (-2); ShLin 2%nat 1 0], Some QST_e15);
  (2, 5, [ShLin 0%nat 1 2; ShLin 1%nat 1 (-1); ShLin 2%nat 1 (-1)], [ShLin 0%nat 1 1; ShLin 1%nat 1 0; ShLin 2%nat 1 0], Some QST_e411);
  (3, 2, [ShLin 0%nat 1 2; ShLin 1%nat 1 (-1); ShLin 2%nat 1 0], [ShLin 0%nat 1 1; ShLin 1%nat 1 (-2); ShLin 2%nat 1 0], Some QST_e265);
  (3, 3, [ShLin 0%nat 1 2; ShLin 1%nat 1 (-1); ShLin 2%nat 1 0], [ShLin 0%nat 1 1; ShLin 1%nat 1 (-2); ShLin 2%nat 1 1], Some QST_e180);
  (3, 5, [ShLin 0%nat 1 2; ShLin 1%nat 1 (-1); ShLin 2%nat 1 0], [ShLin 0%nat 1 1; ShLin 1%nat 1 0; ShLin 2%nat 1 0], Some QST_e412);
  (3, 6, [ShLin 0%nat 1 2; ShLin 1%nat 1 (-1); ShLin 2%nat 1 0], [ShLin 0%nat 1 1; ShLin 1%nat 1 0; ShLin 2%nat 1 1], Some QST_e267);
  (4, 2, [ShLin 0%nat 1 2; ShLin 1%nat 1 (-1); ShLin 2%nat 1 1], [ShLin 0%nat 1 1; ShLin 1%nat 1 (-2); ShLin 2%nat 1 0], Some QST_e413);
  (4, 3, [ShLin 0%nat 1 2; ShLin 1%nat 1 (-1); ShLin 2%nat 1 1], [ShLin 0%nat 1 1; ShLin 1%nat 1 (-2); ShLin 2%nat 1 1], Some QST_e218);
  (4, 4, [ShLin 0%nat 1 2; ShLin 1%nat 1 (-1); ShLin 2%nat 1 1], [ShLin 0%nat 1 1; ShLin 1%nat 1 (-2); ShLin 2%nat 1 2], Some (cN (-1)));
  (4, 5, [ShLin 0%nat 1 2; ShLin 1%nat 1 (-1); ShLin 2%nat 1 1], [ShLin 0%nat 1 1; ShLin 1%nat 1 0; ShLin 2%nat 1 0], Some QST_e414);
  (4, 6, [ShLin 0%nat 1 2; ShLin 1%nat 1 (-1); ShLin 2%nat 1 1], [ShLin 0%nat 1 1; ShLin 1%nat 1 0; ShLin 2%nat 1 1], Some QST_e174);
  (4, 7, [ShLin 0%nat 1 2; ShLin 1%nat 1 (-1); ShLin 2%nat 1 1], [ShLin 0%nat 1 1; ShLin 1%nat 1 0; ShLin 2%nat 1 2], Some QST_e94);
  (5, 5, [ShLin 0%nat 1 2; ShLin 1%nat 1 1; ShLin 2%nat 1 (-1)], [ShLin 0%nat 1 1; ShLin 1%nat 1 0; ShLin 2%nat 1 0], Some QST_e331);
  (6, 5, [ShLin 0%nat 1 2; ShLin 1%nat 1 1; ShLin 2%nat 1 0], [ShLin 0%nat 1 1; ShLin 1%nat 1 0; ShLin 2%nat 1 0], Some QST_e415);
  (6, 6, [ShLin 0%nat 1 2; ShLin 1%nat 1 1; ShLin 2%nat 1 0], [ShLin 0%nat 1 1; ShLin 1%nat 1 0; ShLin 2%nat 1 1], Some QST_e270);
  (7, 5, [ShLin 0%nat 1 2; ShLin 1%nat 1 1; ShLin 2%nat 1 1], [ShLin 0%nat 1 1; ShLin 1%nat 1 0; ShLin 2%nat 1 0], Some QST_e416);
  (7, 6, [ShLin 0%nat 1 2; ShLin 1%nat 1 1; ShLin 2%nat 1 1], [ShLin 0%nat 1 1; ShLin 1%nat 1 0; ShLin 2%nat 1 1], Some QST_e335);
  (7, 7, [ShLin 0%nat 1 2; ShLin 1%nat 1 1; ShLin 2%nat 1 1], [ShLin 0%nat 1 1; ShLin 1%nat 1 0; ShLin 2%nat 1 2], Some QST_e0);
  (8, 8, [ShLin 0%nat 1 1; ShLin 1%nat 1 0; ShLin 2%nat 1 0], [ShLin 0%nat 1 0; ShLin 1%nat 1 (-1); ShLin 2%nat 1 1], Some (cN 1));
  (9, 9, [ShLin 0%nat 1 1; ShLin 1%nat 1 0; ShLin 2%nat 1 (-2)], [ShLin 0%nat 1 0; ShLin 1%nat 1 (-1); ShLin 2%nat 1 (-1)], Some QST_e342);
  (10, 9, [ShLin 0%nat 1 1; ShLin 1%nat 1 0; ShLin 2%nat 1 (-1)], [ShLin 0%nat 1 0; ShLin 1%nat 1 (-1); ShLin 2%nat 1 (-1)], Some QST_e343);
  (10, 10, [ShLin 0%nat 1 1; ShLin 1%nat 1 0; ShLin 2%nat 1 (-1)], [ShLin 0%nat 1 0; ShLin 1%nat 1 (-1); ShLin 2%nat 1 0], Some QST_e344);
  (11, 9, [ShLin 0%nat 1 1; ShLin 1%nat 1 0; ShLin 2%nat 1 0], [ShLin 0%nat 1 0; ShLin 1%nat 1 (-1); ShLin 2%nat 1 (-1)], Some QST_e345);
  (11, 10, [ShLin 0%nat 1 1; ShLin 1%nat 1 0; ShLin 2%nat 1 0], [ShLin 0%nat 1 0; ShLin 1%nat 1 (-1); ShLin 2%nat 1 0], Some QST_e346);
  (11, 11, [ShLin 0%nat 1 1; ShLin 1%nat 1 0; ShLin 2%nat 1 0], [ShLin 0%nat 1 0; ShLin 1%nat 1 (-1); ShLin 2%nat 1 1], Some QST_e417);
  (12, 10, [ShLin 0%nat 1 1; ShLin 1%nat 1 0; ShLin 2%nat 1 1], [ShLin 0%nat 1 0; ShLin 1%nat 1 (-1); ShLin 2%nat 1 0], Some QST_e348);
  (12, 11, [ShLin 0%nat 1 1; ShLin 1%nat 1 0; ShLin 2%nat 1 1], [ShLin 0%nat 1 0; ShLin 1%nat 1 (-1); ShLin 2%nat 1 1], Some QST_e418);
  (12, 12, [ShLin 0%nat 1 1; ShLin 1%nat 1 0; ShLin 2%nat 1 1], [ShLin 0%nat 1 0; ShLin 1%nat 1 (-1); ShLin 2%nat 1 2], Some QST_e419);
  (13, 11, [ShLin 0%nat 1 1; ShLin 1%nat 1 0; ShLin 2%nat 1 2], [ShLin 0%nat 1 0; ShLin 1%nat 1 (-1); ShLin 2%nat 1 1], Some QST_e351);
  (13, 12, [ShLin 0%nat 1 1; ShLin 1%nat 1 0; ShLin 2%nat 1 2], [ShLin 0%nat 1 0; ShLin 1%nat 1 (-1); ShLin 2%nat 1 2], Some QST_e352);
  (13, 13, [ShLin 0%nat 1 1; ShLin 1%nat 1 0; ShLin 2%nat 1 2], [ShLin 0%nat 1 0; ShLin 1%nat 1 (-1); ShLin 2%nat 1 3], Some (cN 1));
  (14, 14, [ShLin 0%nat 1 1; ShLin 1%nat 1 (-2); ShLin 2%nat 1 (-1)], [ShLin 0%nat 1 0; ShLin 1%nat 1 (-3); ShLin 2%nat 1 0], Some QST_e368);
  (14, 17, [ShLin 0%nat 1 1; ShLin 1%nat 1 (-2); ShLin 2%nat 1 (-1)], [ShLin 0%nat 1 0; ShLin 1%nat 1 (-1); ShLin 2%nat 1 0], Some QST_e420);
  (15, 14, [ShLin 0%nat 1 1; ShLin 1%nat 1 (-2); ShLin 2%nat 1 0], [ShLin 0%nat 1 0; ShLin 1%nat 1 (-3); ShLin 2%nat 1 0], Some QST_e276);
  (15, 15, [ShLin 0%nat 1 1; ShLin 1%nat 1 (-2); ShLin 2%nat 1 0], [ShLin 0%nat 1 0; ShLin 1%nat 1 (-3); ShLin 2%nat 1 1], Some QST_e277);
  (15, 17, [ShLin 0%nat 1 1; ShLin 1%nat 1 (-2); ShLin 2%nat 1 0], [ShLin 0%nat 1 0; ShLin 1%nat 1 (-1); ShLin 2%nat 1 0], Some QST_e421);
  (15, 18, [ShLin 0%nat 1 1; ShLin 1%nat 1 (-2); ShLin 2%nat 1 0], [ShLin 0%nat 1 0; ShLin 1%nat 1 (-1); ShLin 2%nat 1 1], Some QST_e422);
  (16, 14, [ShLin 0%nat 1 1; ShLin 1%nat 1 (-2); ShLin 2%nat 1 1], [ShLin 0%nat 1 0; ShLin 1%nat 1 (-3); ShLin 2%nat 1 0], Some QST_e373);
  (16, 15, [ShLin 0%nat 1 1; ShLin 1%nat 1 (-2); ShLin 2%nat 1 1], [ShLin 0%nat 1 0; ShLin 1%nat 1 (-3); ShLin 2%nat 1 1], Some QST_e262);
  (16, 16, [ShLin 0%nat 1 1; ShLin 1%nat 1 (-2); ShLin 2%nat 1 1], [ShLin 0%nat 1 0; ShLin 1%nat 1 (-3); ShLin 2%nat 1 2], Some (cN 1));
  (16, 17, [ShLin 0%nat 1 1; ShLin 1%nat 1 (-2); ShLin 2%nat 1 1], [ShLin 0%nat 1 0; ShLin 1%nat 1 (-1); ShLin 2%nat 1 0], Some QST_e423);
  (16, 18, [ShLin 0%nat 1 1; ShLin 1%nat 1 (-2); ShLin 2%nat 1 1], [ShLin 0%nat 1 0; ShLin 1%nat 1 (-1); ShLin 2%nat 1 1], Some QST_e205);
  (16, 19, [ShLin 0%nat 1 1; ShLin 1%nat 1 (-2); ShLin 2%nat 1 1], [ShLin 0%nat 1 0; ShLin 1%nat 1 (-1); ShLin 2%nat 1 2], Some QST_e105);
  (17, 17, [ShLin 0%nat 1 1; ShLin 1%nat 1 0; ShLin 2%nat 1 (-1)], [ShLin 0%nat 1 0; ShLin 1%nat 1 (-1); ShLin 2%nat 1 0], Some QST_e424);
  (17, 20, [ShLin 0%nat 1 1; ShLin 1%nat 1 0; ShLin 2%nat 1 (-1)], [ShLin 0%nat 1 0; ShLin 1%nat 1 1; ShLin 2%nat 1 0], Some QST_e425);
  (18, 17, [ShLin 0%nat 1 1; ShLin 1%nat 1 0; ShLin 2%nat 1 0], [ShLin 0%nat 1 0; ShLin 1%nat 1 (-1); ShLin 2%nat 1 0], Some QST_e426);
  (18, 18, [ShLin 0%nat 1 1; ShLin 1%nat 1 0; ShLin 2%nat 1 0], [ShLin 0%nat 1 0; ShLin 1%nat 1 (-1); ShLin 2%nat 1 1], Some QST_e427);
  (18, 20, [ShLin 0%nat 1 1; ShLin 1%nat 1 0; ShLin 2%nat 1 0], [ShLin 0%nat 1 0; ShLin 1%nat 1 1; ShLin 2%nat 1 0], Some QST_e428);
  (18, 21, [ShLin 0%nat 1 1; ShLin 1%nat 1 0; ShLin 2%nat 1 0], [ShLin 0%nat 1 0; ShLin 1%nat 1 1; ShLin 2%nat 1 1], Some QST_e429);
  (19, 17, [ShLin 0%nat 1 1; ShLin 1%nat 1 0; ShLin 2%nat 1 1], [ShLin 0%nat 1 0; ShLin 1%nat 1 (-1); ShLin 2%nat 1 0], Some QST_e430);
  (19, 18, [ShLin 0%nat 1 1; ShLin 1%nat 1 0; ShLin 2%nat 1 1], [ShLin 0%nat 1 0; ShLin 1%nat 1 (-1); ShLin 2%nat 1 1], Some QST_e431);
  (19, 19, [ShLin 0%nat 1 1; ShLin 1%nat 1 0; ShLin 2%nat 1 1], [ShLin 0%nat 1 0; ShLin 1%nat 1 (-1); ShLin 2%nat 1 2], Some QST_e432);
  (19, 20, [ShLin 0%nat 1 1; ShLin 1%nat 1 0; ShLin 2%nat 1 1], [ShLin 0%nat 1 0; ShLin 1%nat 1 1; ShLin 2%nat 1 0], Some QST_e433);
  (19, 21, [ShLin 0%nat 1 1; ShLin 1%nat 1 0; ShLin 2%nat 1 1], [ShLin 0%nat 1 0; ShLin 1%nat 1 1; ShLin 2%nat 1 1], Some QST_e216);
  (19, 22, [ShLin 0%nat 1 1; ShLin 1%nat 1 0; ShLin 2%nat 1 1], [ShLin 0%nat 1 0; ShLin 1%nat 1 1; ShLin 2%nat 1 2], Some QST_e116);
  (20, 20, [ShLin 0%nat 1 1; ShLin 1%nat 1 2; ShLin 2%nat 1 (-1)], [ShLin 0%nat 1 0; ShLin 1%nat 1 1; ShLin 2%nat 1 0], Some QST_e434);
  (21, 20, [ShLin 0%nat 1 1; ShLin 1%nat 1 2; ShLin 2%nat 1 0], [ShLin 0%nat 1 0; ShLin 1%nat 1 1; ShLin 2%nat 1 0], Some QST_e435);
  (21, 21, [ShLin 0%nat 1 1; ShLin 1%nat 1 2; ShLin 2%nat 1 0], [ShLin 0%nat 1 0; ShLin 1%nat 1 1; ShLin 2%nat 1 1], Some QST_e436);
  (22, 20, [ShLin 0%nat 1 1; ShLin 1%nat 1 2; ShLin 2%nat 1 1], [ShLin 0%nat 1 0; ShLin 1%nat 1 1; ShLin 2%nat 1 0], Some QST_e437);
  (22, 21, [ShLin 0%nat 1 1; ShLin 1%nat 1 2; ShLin 2%nat 1 1], [ShLin 0%nat 1 0; ShLin 1%nat 1 1; ShLin 2%nat 1 1], Some QST_e438);
  (22, 22, [ShLin 0%nat 1 1; ShLin 1%nat 1 2; ShLin 2%nat 1 1], [ShLin 0%nat 1 0; ShLin 1%nat 1 1; ShLin 2%nat 1 2], Some QST_e439);
  (23, 23, [ShLin 0%nat 1 0; ShLin 1%nat 1 (-1); ShLin 2%nat 1 (-1)], [ShLin 0%nat 1 (-1); ShLin 1%nat 1 (-2); ShLin 2%nat 1 0], Some QST_e15);
  (23, 26, [ShLin 0%nat 1 0; ShLin 1%nat 1 (-1); ShLin 2%nat 1 (-1)], [ShLin 0%nat 1 (-1); ShLin 1%nat 1 0; ShLin 2%nat 1 0], Some QST_e411);
  (24, 23, [ShLin 0%nat 1 0; ShLin 1%nat 1 (-1); ShLin 2%nat 1 0], [ShLin 0%nat 1 (-1); ShLin 1%nat 1 (-2); ShLin 2%nat 1 0], Some QST_e265);
  (24, 24, [ShLin 0%nat 1 0; ShLin 1%nat 1 (-1); ShLin 2%nat 1 0], [ShLin 0%nat 1 (-1); ShLin 1%nat 1 (-2); ShLin 2%nat 1 1], Some QST_e180);
  (24, 26, [ShLin 0%nat 1 0; ShLin 1%nat 1 (-1); ShLin 2%nat 1 0], [ShLin 0%nat 1 (-1); ShLin 1%nat 1 0; ShLin 2%nat 1 0], Some QST_e412);
  (24, 27, [ShLin 0%nat 1 0; ShLin 1%nat 1 (-1); ShLin 2%nat 1 0], [ShLin 0%nat 1 (-1); ShLin 1%nat 1 0; ShLin 2%nat 1 1], Some QST_e267);
  (25, 23, [ShLin 0%nat 1 0; ShLin 1%nat 1 (-1); ShLin 2%nat 1 1], [ShLin 0%nat 1 (-1); ShLin 1%nat 1 (-2); ShLin 2%nat 1 0], Some QST_e413);
  (25, 24, [ShLin 0%nat 1 0; ShLin 1%nat 1 (-1); ShLin 2%nat 1 1], [ShLin 0%nat 1 (-1); ShLin 1%nat 1 (-2); ShLin 2%nat 1 1], Some QST_e218);
  (25, 25, [ShLin 0%nat 1 0; ShLin 1%nat 1 (-1); ShLin 2%nat 1 1], [ShLin 0%nat 1 (-1); ShLin 1%nat 1 (-2); ShLin 2%nat 1 2], Some (cN (-1)));
  (25, 26, [ShLin 0%nat 1 0; ShLin 1%nat 1 (-1); ShLin 2%nat 1 1], [ShLin 0%nat 1 (-1); ShLin 1%nat 1 0; ShLin 2%nat 1 0], Some QST_e414);
  (25, 27, [ShLin 0%nat 1 0; ShLin 1%nat 1 (-1); ShLin 2%nat 1 1], [ShLin 0%nat 1 (-1); ShLin 1%nat 1 0; ShLin 2%nat 1 1], Some QST_e174);
  (25, 28, [ShLin 0%nat 1 0; ShLin 1%nat 1 (-1); ShLin 2%nat 1 1], [ShLin 0%nat 1 (-1); ShLin 1%nat 1 0; ShLin 2%nat 1 2], Some QST_e94);
  (26, 26, [ShLin 0%nat 1 0; ShLin 1%nat 1 1; ShLin 2%nat 1 (-1)], [ShLin 0%nat 1 (-1); ShLin 1%nat 1 0; ShLin 2%nat 1 0], Some QST_e331);
  (27, 26, [ShLin 0%nat 1 0; ShLin 1%nat 1 1; ShLin 2%nat 1 0], [ShLin 0%nat 1 (-1); ShLin 1%nat 1 0; ShLin 2%nat 1 0], Some QST_e415);
  (27, 27, [ShLin 0%nat 1 0; ShLin 1%nat 1 1; ShLin 2%nat 1 0], [ShLin 0%nat 1 (-1); ShLin 1%nat 1 0; ShLin 2%nat 1 1], Some QST_e270);
  (28, 26, [ShLin 0%nat 1 0; ShLin 1%nat 1 1; ShLin 2%nat 1 1], [ShLin 0%nat 1 (-1); ShLin 1%nat 1 0; ShLin 2%nat 1 0], Some QST_e416);
  (28, 27, [ShLin 0%nat 1 0; ShLin 1%nat 1 1; ShLin 2%nat 1 1], [ShLin 0%nat 1 (-1); ShLin 1%nat 1 0; ShLin 2%nat 1 1], Some QST_e335);
  (28, 28, [ShLin 0%nat 1 0; ShLin 1%nat 1 1; ShLin 2%nat 1 1], [ShLin 0%nat 1 (-1); ShLin 1%nat 1 0; ShLin 2%nat 1 2], Some QST_e0);
  (29, 29, [ShLin 0%nat 1 0; ShLin 1%nat 1 (-1); ShLin 2%nat 1 (-2)], [ShLin 0%nat 1 (-1); ShLin 1%nat 1 (-2); ShLin 2%nat 1 (-1)], Some QST_e387);
  (29, 34, [ShLin 0%nat 1 0; ShLin 1%nat 1 (-1); ShLin 2%nat 1 (-2)], [ShLin 0%nat 1 (-1); ShLin 1%nat 1 0; ShLin 2%nat 1 (-1)], Some QST_e440);
  (30, 29, [ShLin 0%nat 1 0; ShLin 1%nat 1 (-1); ShLin 2%nat 1 (-1)], [ShLin 0%nat 1 (-1); ShLin 1%nat 1 (-2); ShLin 2%nat 1 (-1)], Some QST_e441);
  (30, 30, [ShLin 0%nat 1 0; ShLin 1%nat 1 (-1); ShLin 2%nat 1 (-1)], [ShLin 0%nat 1 (-1); ShLin 1%nat 1 (-2); ShLin 2%nat 1 0], Some QST_e442);
  (30, 34, [ShLin 0%nat 1 0; ShLin 1%nat 1 (-1); ShLin 2%nat 1 (-1)], [ShLin 0%nat 1 (-1); ShLin 1%nat 1 0; ShLin 2%nat 1 (-1)], Some QST_e443);
  (30, 35, [ShLin 0%nat 1 0; ShLin 1%nat 1 (-1); ShLin 2%nat 1 (-1)], [ShLin 0%nat 1 (-1); ShLin 1%nat 1 0; ShLin 2%nat 1 0], Some QST_e444);
  (31, 29, [ShLin 0%nat 1 0; ShLin 1%nat 1 (-1); ShLin 2%nat 1 0], [ShLin 0%nat 1 (-1); ShLin 1%nat 1 (-2); ShLin 2%nat 1 (-1)], Some QST_e445);
  (31, 30, [ShLin 0%nat 1 0; ShLin 1%nat 1 (-1); ShLin 2%nat 1 0], [ShLin 0%nat 1 (-1); ShLin 1%nat 1 (-2); ShLin 2%nat 1 0], Some QST_e446);
  (31, 31, [ShLin 0%nat 1 0; ShLin 1%nat 1 (-1); ShLin 2%nat 1 0], [ShLin 0%nat 1 (-1); ShLin 1%nat 1 (-2); ShLin 2%nat 1 1], Some QST_e447);
  (31, 34, [ShLin 0%nat 1 0; ShLin 1%nat 1 (-1); ShLin 2%nat 1 0], [ShLin 0%nat 1 (-1); ShLin 1%nat 1 0; ShLin 2%nat 1 (-1)], Some QST_e448);
  (31, 35, [ShLin 0%nat 1 0; ShLin 1%nat 1 (-1); ShLin 2%nat 1 0], [ShLin 0%nat 1 (-1); ShLin 1%nat 1 0; ShLin 2%nat 1 0], Some QST_e312);
  (31, 36, [ShLin 0%nat 1 0; ShLin 1%nat 1 (-1); ShLin 2%nat 1 0], [ShLin 0%nat 1 (-1); ShLin 1%nat 1 0; ShLin 2%nat 1 1], Some QST_e449);
  (32, 30, [ShLin 0%nat 1 0; ShLin 1%nat 1 (-1); ShLin 2%nat 1 1], [ShLin 0%nat 1 (-1); ShLin 1%nat 1 (-2); ShLin 2%nat 1 0], Some QST_e401);
  (32, 31, [ShLin 0%nat 1 0; ShLin 1%nat 1 (-1); ShLin 2%nat 1 1], [ShLin 0%nat 1 (-1); ShLin 1%nat 1 (-2); ShLin 2%nat 1 1], Some QST_e450);
  (32, 32, [ShLin 0%nat 1 0; ShLin 1%nat 1 (-1); ShLin 2%nat 1 1], [ShLin 0%nat 1 (-1); ShLin 1%nat 1 (-2); ShLin 2%nat 1 2], Some QST_e403);
  (32, 35, [ShLin 0%nat 1 0; ShLin 1%nat 1 (-1); ShLin 2%nat 1 1], [ShLin 0%nat 1 (-1); ShLin 1%nat 1 0; ShLin 2%nat 1 0], Some QST_e451);
  (32, 36, [ShLin 0%nat 1 0; ShLin 1%nat 1 (-1); ShLin 2%nat 1 1], [ShLin 0%nat 1 (-1); ShLin 1%nat 1 0; ShLin 2%nat 1 1], Some QST_e452);
  (32, 37, [ShLin 0%nat 1 0; ShLin 1%nat 1 (-1); ShLin 2%nat 1 1], [ShLin 0%nat 1 (-1); ShLin 1%nat 1 0; ShLin 2%nat 1 2], Some QST_e453);
  (33, 31, [ShLin 0%nat 1 0; ShLin 1%nat 1 (-1); ShLin 2%nat 1 2], [ShLin 0%nat 1 (-1); ShLin 1%nat 1 (-2); ShLin 2%nat 1 1], Some QST_e407);
  (33, 32, [ShLin 0%nat 1 0; ShLin 1%nat 1 (-1); ShLin 2%nat 1 2], [ShLin 0%nat 1 (-1); ShLin 1%nat 1 (-2); ShLin 2%nat 1 2], Some QST_e454);
  (33, 33, [ShLin 0%nat 1 0; ShLin 1%nat 1 (-1); ShLin 2%nat 1 2], [ShLin 0%nat 1 (-1); ShLin 1%nat 1 (-2); ShLin 2%nat 1 3], Some (cN (-1)));
  (33, 36, [ShLin 0%nat 1 0; ShLin 1%nat 1 (-1); ShLin 2%nat 1 2], [ShLin 0%nat 1 (-1); ShLin 1%nat 1 0; ShLin 2%nat 1 1], Some QST_e455);
  (33, 37, [ShLin 0%nat 1 0; ShLin 1%nat 1 (-1); ShLin 2%nat 1 2], [ShLin 0%nat 1 (-1); ShLin 1%nat 1 0; ShLin 2%nat 1 2], Some QST_e253);
  (33, 38, [ShLin 0%nat 1 0; ShLin 1%nat 1 (-1); ShLin 2%nat 1 2], [ShLin 0%nat 1 (-1); ShLin 1%nat 1 0; ShLin 2%nat 1 3], Some QST_e94);
  (34, 34, [ShLin 0%nat 1 0; ShLin 1%nat 1 1; ShLin 2%nat 1 (-2)], [ShLin 0%nat 1 (-1); ShLin 1%nat 1 0; ShLin 2%nat 1 (-1)], Some QST_e374);
  (35, 34, [ShLin 0%nat 1 0; ShLin 1%nat 1 1; ShLin 2%nat 1 (-1)], [ShLin 0%nat 1 (-1); ShLin 1%nat 1 0; ShLin 2%nat 1 (-1)], Some QST_e456);
  (35, 35, [ShLin 0%nat 1 0; ShLin 1%nat 1 1; ShLin 2%nat 1 (-1)], [ShLin 0%nat 1 (-1); ShLin 1%nat 1 0; ShLin 2%nat 1 0], Some QST_e457);
  (36, 34, [ShLin 0%nat 1 0; ShLin 1%nat 1 1; ShLin 2%nat 1 0], [ShLin 0%nat 1 (-1); ShLin 1%nat 1 0; ShLin 2%nat 1 (-1)], Some QST_e458);
  (36, 35, [ShLin 0%nat 1 0; ShLin 1%nat 1 1; ShLin 2%nat 1 0], [ShLin 0%nat 1 (-1); ShLin 1%nat 1 0; ShLin 2%nat 1 0], Some QST_e459);
  (36, 36, [ShLin 0%nat 1 0; ShLin 1%nat 1 1; ShLin 2%nat 1 0], [ShLin 0%nat 1 (-1); ShLin 1%nat 1 0; ShLin 2%nat 1 1], Some QST_e460);
  (37, 35, [ShLin 0%nat 1 0; ShLin 1%nat 1 1; ShLin 2%nat 1 1], [ShLin 0%nat 1 (-1); ShLin 1%nat 1 0; ShLin 2%nat 1 0], Some QST_e380);
  (37, 36, [ShLin 0%nat 1 0; ShLin 1%nat 1 1; ShLin 2%nat 1 1], [ShLin 0%nat 1 (-1); ShLin 1%nat 1 0; ShLin 2%nat 1 1], Some QST_e461);
  (37, 37, [ShLin 0%nat 1 0; ShLin 1%nat 1 1; ShLin 2%nat 1 1], [ShLin 0%nat 1 (-1); ShLin 1%nat 1 0; ShLin 2%nat 1 2], Some QST_e382);
  (38, 36, [ShLin 0%nat 1 0; ShLin 1%nat 1 1; ShLin 2%nat 1 2], [ShLin 0%nat 1 (-1); ShLin 1%nat 1 0; ShLin 2%nat 1 1], Some QST_e462);
  (38, 37, [ShLin 0%nat 1 0; ShLin 1%nat 1 1; ShLin 2%nat 1 2], [ShLin 0%nat 1 (-1); ShLin 1%nat 1 0; ShLin 2%nat 1 2], Some QST_e463);
  (38, 38, [ShLin 0%nat 1 0; ShLin 1%nat 1 1; ShLin 2%nat 1 2], [ShLin 0%nat 1 (-1); ShLin 1%nat 1 0; ShLin 2%nat 1 3], Some QST_e0);
  (39, 39, [ShLin 0%nat 1 0; ShLin 1%nat 1 (-3); ShLin 2%nat 1 0], [ShLin 0%nat 1 (-1); ShLin 1%nat 1 (-4); ShLin 2%nat 1 1], Some (cN (-1)));
  (39, 40, [ShLin 0%nat 1 0; ShLin 1%nat 1 (-3); ShLin 2%nat 1 0], [ShLin 0%nat 1 (-1); ShLin 1%nat 1 (-2); ShLin 2%nat 1 1], Some QST_e160);
  (40, 40, [ShLin 0%nat 1 0; ShLin 1%nat 1 (-1); ShLin 2%nat 1 0], [ShLin 0%nat 1 (-1); ShLin 1%nat 1 (-2); ShLin 2%nat 1 1], Some QST_e161);
  (40, 41, [ShLin 0%nat 1 0; ShLin 1%nat 1 (-1); ShLin 2%nat 1 0], [ShLin 0%nat 1 (-1); ShLin 1%nat 1 0; ShLin 2%nat 1 1], Some QST_e162);
  (41, 41, [ShLin 0%nat 1 0; ShLin 1%nat 1 1; ShLin 2%nat 1 0], [ShLin 0%nat 1 (-1); ShLin 1%nat 1 0; ShLin 2%nat 1 1], Some QST_e163);
  (41, 42, [ShLin 0%nat 1 0; ShLin 1%nat 1 1; ShLin 2%nat 1 0], [ShLin 0%nat 1 (-1); ShLin 1%nat 1 2; ShLin 2%nat 1 1], Some QST_e164);
  (42, 42, [ShLin 0%nat 1 0; ShLin 1%nat 1 3; ShLin 2%nat 1 0], [ShLin 0%nat 1 (-1); ShLin 1%nat 1 2; ShLin 2%nat 1 1], Some QST_e165);
  (43, 43, [ShLin 0%nat 1 (-1); ShLin 1%nat 1 0; ShLin 2%nat 1 0], [ShLin 0%nat 1 (-2); ShLin 1%nat 1 (-1); ShLin 2%nat 1 1], Some (cN 1));
  (44, 44, [ShLin 0%nat 1 (-1); ShLin 1%nat 1 0; ShLin 2%nat 1 (-2)], [ShLin 0%nat 1 (-2); ShLin 1%nat 1 (-1); ShLin 2%nat 1 (-1)], Some QST_e342);
  (45, 44, [ShLin 0%nat 1 (-1); ShLin 1%nat 1 0; ShLin 2%nat 1 (-1)], [ShLin 0%nat 1 (-2); ShLin 1%nat 1 (-1); ShLin 2%nat 1 (-1)], Some QST_e343);
  (45, 45, [ShLin 0%nat 1 (-1); ShLin 1%nat 1 0; ShLin 2%nat 1 (-1)], [ShLin 0%nat 1 (-2); ShLin 1%nat 1 (-1); ShLin 2%nat 1 0], Some QST_e344);
  (46, 44, [ShLin 0%nat 1 (-1); ShLin 1%nat 1 0; ShLin 2%nat 1 0], [ShLin 0%nat 1 (-2); ShLin 1%nat 1 (-1); ShLin 2%nat 1 (-1)], Some QST_e345);
  (46, 45, [ShLin 0%nat 1 (-1); ShLin 1%nat 1 0; ShLin 2%nat 1 0], [ShLin 0%nat 1 (-2); ShLin 1%nat 1 (-1); ShLin 2%nat 1 0], Some QST_e346);
  (46, 46, [ShLin 0%nat 1 (-1); ShLin 1%nat 1 0; ShLin 2%nat 1 0], [ShLin 0%nat 1 (-2); ShLin 1%nat 1 (-1); ShLin 2%nat 1 1], Some QST_e417);
  (47, 45, [ShLin 0%nat 1 (-1); ShLin 1%nat 1 0; ShLin 2%nat 1 1], [ShLin 0%nat 1 (-2); ShLin 1%nat 1 (-1); ShLin 2%nat 1 0], Some QST_e348);
  (47, 46, [ShLin 0%nat 1 (-1); ShLin 1%nat 1 0; ShLin 2%nat 1 1], [ShLin 0%nat 1 (-2); ShLin 1%nat 1 (-1); ShLin 2%nat 1 1], Some QST_e418);
  (47, 47, [ShLin 0%nat 1 (-1); ShLin 1%nat 1 0; ShLin 2%nat 1 1], [ShLin 0%nat 1 (-2); ShLin 1%nat 1 (-1); ShLin 2%nat 1 2], Some QST_e419);
  (48, 46, [ShLin 0%nat 1 (-1); ShLin 1%nat 1 0; ShLin 2%nat 1 2], [ShLin 0%nat 1 (-2); ShLin 1%nat 1 (-1); ShLin 2%nat 1 1], Some QST_e351);
  (48, 47, [ShLin 0%nat 1 (-1); ShLin 1%nat 1 0; ShLin 2%nat 1 2], [ShLin 0%nat 1 (-2); ShLin 1%nat 1 (-1); ShLin 2%nat 1 2], Some QST_e352);
  (48, 48, [ShLin 0%nat 1 (-1); ShLin 1%nat 1 0; ShLin 2%nat 1 2], [ShLin 0%nat 1 (-2); ShLin 1%nat 1 (-1); ShLin 2%nat 1 3], Some (cN 1));
  (49, 49, [ShLin 0%nat 1 (-1); ShLin 1%nat 1 (-2); ShLin 2%nat 1 (-1)], [ShLin 0%nat 1 (-2); ShLin 1%nat 1 (-3); ShLin 2%nat 1 0], Some QST_e368);
  (49, 52, [ShLin 0%nat 1 (-1); ShLin 1%nat 1 (-2); ShLin 2%nat 1 (-1)], [ShLin 0%nat 1 (-2); ShLin 1%nat 1 (-1); ShLin 2%nat 1 0], Some QST_e420);
  (50, 49, [ShLin 0%nat 1 (-1); ShLin 1%nat 1 (-2); ShLin 2%nat 1 0], [ShLin 0%nat 1 (-2); ShLin 1%nat 1 (-3); ShLin 2%nat 1 0], Some QST_e276);
  (50, 50, [ShLin 0%nat 1 (-1); ShLin 1%nat 1 (-2); ShLin 2%nat 1 0], [ShLin 0%nat 1 (-2); ShLin 1%nat 1 (-3); ShLin 2%nat 1 1], Some QST_e277);
  (50, 52, [ShLin 0%nat 1 (-1); ShLin 1%nat 1 (-2); ShLin 2%nat 1 0], [ShLin 0%nat 1 (-2); ShLin 1%nat 1 (-1); ShLin 2%nat 1 0], Some QST_e421);
  (50, 53, [ShLin 0%nat 1 (-1); ShLin 1%nat 1 (-2); ShLin 2%nat 1 0], [ShLin 0%nat 1 (-2); ShLin 1%nat 1 (-1); ShLin 2%nat 1 1], Some QST_e422);
  (51, 49, [ShLin 0%nat 1 (-1); ShLin 1%nat 1 (-2); ShLin 2%nat 1 1], [ShLin 0%nat 1 (-2); ShLin 1%nat 1 (-3); ShLin 2%nat 1 0], Some QST_e373);
  (51, 50, [ShLin 0%nat 1 (-1); ShLin 1%nat 1 (-2); ShLin 2%nat 1 1], [ShLin 0%nat 1 (-2); ShLin 1%nat 1 (-3); ShLin 2%nat 1 1], Some QST_e262);
  (51, 51, [ShLin 0%nat 1 (-1); ShLin 1%nat 1 (-2); ShLin 2%nat 1 1], [ShLin 0%nat 1 (-2); ShLin 1%nat 1 (-3); ShLin 2%nat 1 2], Some (cN 1));
  (51, 52, [ShLin 0%nat 1 (-1); ShLin 1%nat 1 (-2); ShLin 2%nat 1 1], [ShLin 0%nat 1 (-2); ShLin 1%nat 1 (-1); ShLin 2%nat 1 0], Some QST_e423);
  (51, 53, [ShLin 0%nat 1 (-1); ShLin 1%nat 1 (-2); ShLin 2%nat 1 1], [ShLin 0%nat 1 (-2); ShLin 1%nat 1 (-1); ShLin 2%nat 1 1], Some QST_e205);
  (51, 54, [ShLin 0%nat 1 (-1); ShLin 1%nat 1 (-2); ShLin 2%nat 1 1], [ShLin 0%nat 1 (-2); ShLin 1%nat 1 (-1); ShLin 2%nat 1 2], Some QST_e105);
  (52, 52, [ShLin 0%nat 1 (-1); ShLin 1%nat 1 0; ShLin 2%nat 1 (-1)], [ShLin 0%nat 1 (-2); ShLin 1%nat 1 (-1); ShLin 2%nat 1 0], Some QST_e424);
  (52, 55, [ShLin 0%nat 1 (-1); ShLin 1%nat 1 0; ShLin 2%nat 1 (-1)], [ShLin 0%nat 1 (-2); ShLin 1%nat 1 1; ShLin 2%nat 1 0], Some QST_e425);
  (53, 52, [ShLin 0%nat 1 (-1); ShLin 1%nat 1 0; ShLin 2%nat 1 0], [ShLin 0%nat 1 (-2); ShLin 1%nat 1 (-1); ShLin 2%nat 1 0], Some QST_e426);
  (53, 53, [ShLin 0%nat 1 (-1); ShLin 1%nat 1 0; ShLin 2%nat 1 0], [ShLin 0%nat 1 (-2); ShLin 1%nat 1 (-1); ShLin 2%nat 1 1], Some QST_e427);
  (53, 55, [ShLin 0%nat 1 (-1); ShLin 1%nat 1 0; ShLin 2%nat 1 0], [ShLin 0%nat 1 (-2); ShLin 1%nat 1 1; ShLin 2%nat 1 0], Some QST_e428);
  (53, 56, [ShLin 0%nat 1 (-1); ShLin 1%nat 1 0; ShLin 2%nat 1 0], [ShLin 0%nat 1 (-2); ShLin 1%nat 1 1; ShLin 2%nat 1 1], Some QST_e429);
  (54, 52, [ShLin 0%nat 1 (-1); ShLin 1%nat 1 0; ShLin 2%nat 1 1], [ShLin 0%nat 1 (-2); ShLin 1%nat 1 (-1); ShLin 2%nat 1 0], Some QST_e430);
  (54, 53, [ShLin 0%nat 1 (-1); ShLin 1%nat 1 0; ShLin 2%nat 1 1], [ShLin 0%nat 1 (-2); ShLin 1%nat 1 (-1); ShLin 2%nat 1 1], Some QST_e431);
  (54, 54, [ShLin 0%nat 1 (-1); ShLin 1%nat 1 0; ShLin 2%nat 1 1], [ShLin 0%nat 1 (-2); ShLin 1%nat 1 (-1); ShLin 2%nat 1 2], Some QST_e432);
  (54, 55, [ShLin 0%nat 1 (-1); ShLin 1%nat 1 0; ShLin 2%nat 1 1], [ShLin 0%nat 1 (-2); ShLin 1%nat 1 1; ShLin 2%nat 1 0], Some QST_e433);
  (54, 56, [ShLin 0%nat 1 (-1); ShLin 1%nat 1 0; ShLin 2%nat 1 1], [ShLin 0%nat 1 (-2); ShLin 1%nat 1 1; ShLin 2%nat 1 1], Some QST_e216);
  (54, 57, [ShLin 0%nat 1 (-1); ShLin 1%nat 1 0; ShLin 2%nat 1 1], [ShLin 0%nat 1 (-2); ShLin 1%nat 1 1; ShLin 2%nat 1 2], Some QST_e116);
  (55, 55, [ShLin 0%nat 1 (-1); ShLin 1%nat 1 2; ShLin 2%nat 1 (-1)], [ShLin 0%nat 1 (-2); ShLin 1%nat 1 1; ShLin 2%nat 1 0], Some QST_e434);
  (56, 55, [ShLin 0%nat 1 (-1); ShLin 1%nat 1 2; ShLin 2%nat 1 0], [ShLin 0%nat 1 (-2); ShLin 1%nat 1 1; ShLin 2%nat 1 0], Some QST_e435);
  (56, 56, [ShLin 0%nat 1 (-1); ShLin 1%nat 1 2; ShLin 2%nat 1 0], [ShLin 0%nat 1 (-2); ShLin 1%nat 1 1; ShLin 2%nat 1 1], Some QST_e436);
  (57, 55, [ShLin 0%nat 1 (-1); ShLin 1%nat 1 2; ShLin 2%nat 1 1], [ShLin 0%nat 1 (-2); ShLin 1%nat 1 1; ShLin 2%nat 1 0], Some QST_e437);
  (57, 56, [ShLin 0%nat 1 (-1); ShLin 1%nat 1 2; ShLin 2%nat 1 1], [ShLin 0%nat 1 (-2); ShLin 1%nat 1 1; ShLin 2%nat 1 1], Some QST_e438);
  (57, 57, [ShLin 0%nat 1 (-1); ShLin 1%nat 1 2; ShLin 2%nat 1 1], [ShLin 0%nat 1 (-2); ShLin 1%nat 1 1; ShLin 2%nat 1 2], Some QST_e439);
  (58, 58, [ShLin 0%nat 1 (-2); ShLin 1%nat 1 (-1); ShLin 2%nat 1 (-1)], [ShLin 0%nat 1 (-3); ShLin 1%nat 1 (-2); ShLin 2%nat 1 0], Some QST_e15);
  (58, 61, [ShLin 0%nat 1 (-2); ShLin 1%nat 1 (-1); ShLin 2%nat 1 (-1)], [ShLin 0%nat 1 (-3); ShLin 1%nat 1 0; ShLin 2%nat 1 0], Some QST_e411);
  (59, 58, [ShLin 0%nat 1 (-2); ShLin 1%nat 1 (-1); ShLin 2%nat 1 0], [ShLin 0%nat 1 (-3); ShLin 1%nat 1 (-2); ShLin 2%nat 1 0], Some QST_e265);
  (59, 59, [ShLin 0%nat 1 (-2); ShLin 1%nat 1 (-1); ShLin 2%nat 1 0], [ShLin 0%nat 1 (-3); ShLin 1%nat 1 (-2); ShLin 2%nat 1 1], Some QST_e180);
  (59, 61, [ShLin 0%nat 1 (-2); ShLin 1%nat 1 (-1); ShLin 2%nat 1 0], [ShLin 0%nat 1 (-3); ShLin 1%nat 1 0; ShLin 2%nat 1 0], Some QST_e412);
  (59, 62, [ShLin 0%nat 1 (-2); ShLin 1%nat 1 (-1); ShLin 2%nat 1 0], [ShLin 0%nat 1 (-3); ShLin 1%nat 1 0; ShLin 2%nat 1 1], Some QST_e267);
  (60, 58, [ShLin 0%nat 1 (-2); ShLin 1%nat 1 (-1); ShLin 2%nat 1 1], [ShLin 0%nat 1 (-3); ShLin 1%nat 1 (-2); ShLin 2%nat 1 0], Some QST_e413);
  (60, 59, [ShLin 0%nat 1 (-2); ShLin 1%nat 1 (-1); ShLin 2%nat 1 1], [ShLin 0%nat 1 (-3); ShLin 1%nat 1 (-2); ShLin 2%nat 1 1], Some QST_e218);
  (60, 60, [ShLin 0%nat 1 (-2); ShLin 1%nat 1 (-1); ShLin 2%nat 1 1], [ShLin 0%nat 1 (-3); ShLin 1%nat 1 (-2); ShLin 2%nat 1 2], Some (cN (-1)));
  (60, 61, [ShLin 0%nat 1 (-2); ShLin 1%nat 1 (-1); ShLin 2%nat 1 1], [ShLin 0%nat 1 (-3); ShLin 1%nat 1 0; ShLin 2%nat 1 0], Some QST_e414);
  (60, 62, [ShLin 0%nat 1 (-2); ShLin 1%nat 1 (-1); ShLin 2%nat 1 1], [ShLin 0%nat 1 (-3); ShLin 1%nat 1 0; ShLin 2%nat 1 1], Some QST_e174);
  (60, 63, [ShLin 0%nat 1 (-2); ShLin 1%nat 1 (-1); ShLin 2%nat 1 1], [ShLin 0%nat 1 (-3); ShLin 1%nat 1 0; ShLin 2%nat 1 2], Some QST_e94);
  (61, 61, [ShLin 0%nat 1 (-2); ShLin 1%nat 1 1; ShLin 2%nat 1 (-1)], [ShLin 0%nat 1 (-3); ShLin 1%nat 1 0; ShLin 2%nat 1 0], Some QST_e331);
  (62, 61, [ShLin 0%nat 1 (-2); ShLin 1%nat 1 1; ShLin 2%nat 1 0], [ShLin 0%nat 1 (-3); ShLin 1%nat 1 0; ShLin 2%nat 1 0], Some QST_e415);
  (62, 62, [ShLin 0%nat 1 (-2); ShLin 1%nat 1 1; ShLin 2%nat 1 0], [ShLin 0%nat 1 (-3); ShLin 1%nat 1 0; ShLin 2%nat 1 1], Some QST_e270);
  (63, 61, [ShLin 0%nat 1 (-2); ShLin 1%nat 1 1; ShLin 2%nat 1 1], [ShLin 0%nat 1 (-3); ShLin 1%nat 1 0; ShLin 2%nat 1 0], Some QST_e416);
  (63, 62, [ShLin 0%nat 1 (-2); ShLin 1%nat 1 1; ShLin 2%nat 1 1], [ShLin 0%nat 1 (-3); ShLin 1%nat 1 0; ShLin 2%nat 1 1], Some QST_e335);
  (63, 63, [ShLin 0%nat 1 (-2); ShLin 1%nat 1 1; ShLin 2%nat 1 1], [ShLin 0%nat 1 (-3); ShLin 1%nat 1 0; ShLin 2%nat 1 2], Some QST_e0);
  (64, 64, [ShLin 0%nat 1 (-3); ShLin 1%nat 1 0; ShLin 2%nat 1 0], [ShLin 0%nat 1 (-4); ShLin 1%nat 1 (-1); ShLin 2%nat 1 1], Some (cN 1))].
(** /repo/c++/symmetry/nrg-recalc-QST.hpp recalc_irreduc, qst/qst-spinup+1.dat *)
Definition qst_t6 : irr_table := mk_irr 0 0 [ShLin 0%nat 1 1; ShLin 1%nat 1 1; ShLin 2%nat 1 1]  [
  (2, 1, Some (cN 1));
  (8, 7, Some QST_e464);
  (9, 5, Some QST_e465);
  (10, 6, Some QST_e466);
  (11, 7, Some QST_e467);
  (14, 3, Some QST_e468);
  (15, 4, Some QST_e469);
  (17, 6, Some QST_e470);
  (18, 7, Some QST_e471);
  (23, 8, Some (cO (cR (cQ 2 3))));
  (23, 11, Some QST_e472);
  (23, 18, Some QST_e473);
  (24, 12, Some QST_e474);
  (24, 19, Some QST_e475);
  (25, 13, Some QST_e476);
  (26, 21, Some QST_e477);
  (27, 22, Some QST_e478);
  (29, 10, Some QST_e479);
  (29, 17, Some QST_e480);
  (30, 11, Some QST_e481);
  (30, 18, Some QST_e482);
  (31, 12, Some QST_e483);
  (31, 19, Some QST_e484);
  (32, 13, Some QST_e485);
  (34, 20, Some QST_e486);
  (35, 21, Some QST_e487);
  (36, 22, Some QST_e488);
  (39, 16, Some QST_e489);
  (40, 19, Some QST_e490);
  (41, 22, Some QST_e491);
  (43, 28, Some QST_e492);
  (44, 26, Some QST_e493);
  (44, 35, Some QST_e494);
  (45, 27, Some QST_e495);
  (45, 36, Some QST_e496);
  (46, 28, Some QST_e497);
  (46, 37, Some QST_e498);
  (47, 38, Some QST_e499);
  (49, 24, Some QST_e500);
  (49, 31, Some QST_e501);
  (49, 40, Some QST_e502);
  (50, 25, Some QST_e503);
  (50, 32, Some QST_e504);
  (51, 33, Some QST_e505);
  (52, 27, Some QST_e506);
  (52, 36, Some QST_e507);
  (52, 41, Some QST_e508);
  (53, 28, Some QST_e509);
  (53, 37, Some QST_e510);
  (54, 38, Some QST_e511);
  (55, 42, Some QST_e512);
  (58, 43, Some QST_e513);
  (58, 46, Some QST_e514);
  (58, 53, Some QST_e515);
  (59, 47, Some QST_e516);
  (59, 54, Some QST_e517);
  (60, 48, Some QST_e518);
  (61, 56, Some QST_e519);
  (62, 57, Some QST_e520);
  (64, 63, Some QST_e521)].
(** /repo/c++/symmetry/nrg-recalc-QST.hpp recalc_irreduc, qst/qst-spinup0.dat *)
Definition qst_t7 : irr_table := mk_irr 0 0 [ShLin 0%nat 1 1; ShLin 1%nat 1 1; ShLin 2%nat 1 0]  [
  (3, 1, Some (cN 1));
  (8, 6, Some QST_e522);
  (10, 5, Some QST_e523);
  (11, 6, Some QST_e524);
  (12, 7, Some QST_e525);
  (14, 2, Some QST_e526);
  (15, 3, Some QST_e527);
  (16, 4, Some QST_e468);
  (17, 5, Some QST_e528);
  (18, 6, Some QST_e529);
  (19, 7, Some QST_e470);
  (23, 10, Some QST_e530);
  (23, 17, Some QST_e531);
  (24, 8, Some (cO (cR (cQ 2 3))));
  (24, 11, Some QST_e532);
  (24, 18, Some QST_e533);
  (25, 12, Some QST_e534);
  (25, 19, Some QST_e535);
  (26, 20, Some QST_e536);
  (27, 21, Some QST_e537);
  (28, 22, Some QST_e538);
  (29, 9, Some QST_e526);
  (30, 10, Some QST_e539);
  (30, 17, Some QST_e540);
  (31, 11, Some QST_e541);
  (31, 18, Some QST_e542);
  (32, 12, Some QST_e543);
  (32, 19, Some QST_e544);
  (33, 13, Some QST_e468);
  (35, 20, Some QST_e545);
  (36, 21, Some QST_e546);
  (37, 22, Some QST_e547);
  (39, 15, Some (cN (-1)));
  (40, 18, Some QST_e548);
  (41, 21, Some QST_e549);
  (43, 27, Some QST_e550);
  (44, 34, Some QST_e551);
  (45, 26, Some QST_e552);
  (45, 35, Some QST_e553);
  (46, 27, Some QST_e554);
  (46, 36, Some QST_e555);
  (47, 28, Some QST_e556);
  (47, 37, Some QST_e557);
  (48, 38, Some QST_e558);
  (49, 23, Some QST_e559);
  (49, 30, Some QST_e560);
  (50, 24, Some QST_e561);
  (50, 31, Some QST_e562);
  (50, 40, Some QST_e502);
  (51, 25, Some QST_e563);
  (51, 32, Some QST_e564);
  (52, 26, Some QST_e565);
  (52, 35, Some QST_e566);
  (53, 27, Some QST_e567);
  (53, 36, Some QST_e568);
  (53, 41, Some QST_e569);
  (54, 28, Some QST_e570);
  (54, 37, Some QST_e571);
  (56, 42, Some QST_e572);
  (58, 45, Some QST_e573);
  (58, 52, Some QST_e574);
  (59, 43, Some QST_e513);
  (59, 46, Some QST_e575);
  (59, 53, Some QST_e576);
  (60, 47, Some QST_e577);
  (60, 54, Some QST_e578);
  (61, 55, Some QST_e579);
  (62, 56, Some QST_e580);
  (63, 57, Some QST_e581);
  (64, 62, Some QST_e465)].
(** /repo/c++/symmetry/nrg-recalc-QST.hpp recalc_irreduc, qst/qst-spinup-1.dat *)
Definition qst_t8 : irr_table := mk_irr 0 0 [ShLin 0%nat 1 1; ShLin 1%nat 1 1; ShLin 2%nat 1 (-1)]  [
  (4, 1, Some (cN 1));
  (8, 5, Some QST_e582);
  (11, 5, Some QST_e583);
  (12, 6, Some QST_e523);
  (13, 7, Some QST_e584);
  (15, 2, Some QST_e585);
  (16, 3, Some QST_e526);
  (18, 5, Some QST_e586);
  (19, 6, Some QST_e587);
  (23, 9, Some QST_e588);
  (24, 10, Some QST_e589);
  (24, 17, Some QST_e590);
  (25, 8, Some (cO (cR (cQ 2 3))));
  (25, 11, Some QST_e591);
  (25, 18, Some QST_e531);
  (27, 20, Some QST_e592);
  (28, 21, Some QST_e593);
  (30, 9, Some QST_e594);
  (31, 10, Some QST_e595);
  (31, 17, Some QST_e596);
  (32, 11, Some QST_e597);
  (32, 18, Some QST_e598);
  (33, 12, Some QST_e599);
  (33, 19, Some QST_e600);
  (36, 20, Some QST_e601);
  (37, 21, Some QST_e602);
  (38, 22, Some QST_e603);
  (39, 14, Some QST_e604);
  (40, 17, Some QST_e605);
  (41, 20, Some QST_e606);
  (43, 26, Some QST_e607);
  (45, 34, Some QST_e608);
  (46, 26, Some QST_e609);
  (46, 35, Some QST_e610);
  (47, 27, Some QST_e611);
  (47, 36, Some QST_e612);
  (48, 28, Some QST_e613);
  (48, 37, Some QST_e614);
  (49, 29, Some QST_e615);
  (50, 23, Some QST_e616);
  (50, 30, Some QST_e617);
  (51, 24, Some QST_e618);
  (51, 31, Some QST_e619);
  (51, 40, Some QST_e502);
  (52, 34, Some QST_e620);
  (53, 26, Some QST_e621);
  (53, 35, Some QST_e622);
  (54, 27, Some QST_e623);
  (54, 36, Some QST_e624);
  (54, 41, Some QST_e508);
  (57, 42, Some QST_e625);
  (58, 44, Some QST_e604);
  (59, 45, Some QST_e626);
  (59, 52, Some QST_e627);
  (60, 43, Some QST_e513);
  (60, 46, Some QST_e628);
  (60, 53, Some QST_e629);
  (62, 55, Some QST_e630);
  (63, 56, Some QST_e631);
  (64, 61, Some QST_e632)].
(** /repo/c++/symmetry/nrg-recalc-QST.hpp recalc_irreduc, qst/qst-spindo+1.dat *)
Definition qst_t9 : irr_table := mk_irr 0 0 [ShLin 0%nat 1 1; ShLin 1%nat 1 (-1); ShLin 2%nat 1 1]  [
  (5, 1, Some (cN 1));
  (8, 4, Some QST_e633);
  (9, 2, Some QST_e634);
  (10, 3, Some QST_e635);
  (11, 4, Some QST_e636);
  (17, 3, Some QST_e637);
  (18, 4, Some QST_e638);
  (20, 6, Some QST_e468);
  (21, 7, Some QST_e469);
  (23, 15, Some QST_e639);
  (24, 16, Some QST_e640);
  (26, 8, Some (cO (cR (cQ 2 3))));
  (26, 11, Some QST_e472);
  (26, 18, Some QST_e641);
  (27, 12, Some QST_e642);
  (27, 19, Some QST_e643);
  (28, 13, Some QST_e644);
  (29, 14, Some QST_e645);
  (30, 15, Some QST_e646);
  (31, 16, Some QST_e647);
  (34, 10, Some QST_e479);
  (34, 17, Some QST_e648);
  (35, 11, Some QST_e481);
  (35, 18, Some QST_e649);
  (36, 12, Some QST_e650);
  (36, 19, Some QST_e651);
  (37, 13, Some QST_e485);
  (40, 16, Some QST_e652);
  (41, 19, Some QST_e653);
  (42, 22, Some QST_e654);
  (43, 25, Some QST_e655);
  (44, 23, Some QST_e656);
  (44, 30, Some QST_e657);
  (45, 24, Some QST_e658);
  (45, 31, Some QST_e659);
  (46, 25, Some QST_e660);
  (46, 32, Some QST_e661);
  (47, 33, Some QST_e662);
  (49, 39, Some QST_e645);
  (52, 24, Some QST_e663);
  (52, 31, Some QST_e664);
  (52, 40, Some QST_e665);
  (53, 25, Some QST_e666);
  (53, 32, Some QST_e667);
  (54, 33, Some QST_e668);
  (55, 27, Some QST_e500);
  (55, 36, Some QST_e501);
  (55, 41, Some QST_e669);
  (56, 28, Some QST_e503);
  (56, 37, Some QST_e504);
  (57, 38, Some QST_e505);
  (58, 50, Some QST_e670);
  (59, 51, Some QST_e671);
  (61, 43, Some QST_e513);
  (61, 46, Some QST_e514);
  (61, 53, Some QST_e672);
  (62, 47, Some QST_e673);
  (62, 54, Some QST_e674);
  (63, 48, Some QST_e675);
  (64, 60, Some QST_e676)].
(** /repo/c++/symmetry/nrg-recalc-QST.hpp recalc_irreduc, qst/qst-spindo0.dat *)
Definition qst_t10 : irr_table := mk_irr 0 0 [ShLin 0%nat 1 1; ShLin 1%nat 1 (-1); ShLin 2%nat 1 0]  [
  (6, 1, Some (cN 1));
  (8, 3, Some QST_e677);
  (10, 2, Some QST_e678);
  (11, 3, Some QST_e679);
  (12, 4, Some QST_e680);
  (17, 2, Some QST_e681);
  (18, 3, Some QST_e682);
  (19, 4, Some QST_e683);
  (20, 5, Some QST_e526);
  (21, 6, Some QST_e527);
  (22, 7, Some QST_e468);
  (23, 14, Some QST_e684);
  (24, 15, Some QST_e685);
  (25, 16, Some QST_e686);
  (26, 10, Some QST_e530);
  (26, 17, Some QST_e687);
  (27, 8, Some (cO (cR (cQ 2 3))));
  (27, 11, Some QST_e688);
  (27, 18, Some QST_e689);
  (28, 12, Some QST_e690);
  (28, 19, Some QST_e641);
  (30, 14, Some QST_e691);
  (31, 15, Some QST_e692);
  (32, 16, Some QST_e693);
  (34, 9, Some QST_e526);
  (35, 10, Some QST_e539);
  (35, 17, Some QST_e694);
  (36, 11, Some QST_e541);
  (36, 18, Some QST_e695);
  (37, 12, Some QST_e543);
  (37, 19, Some QST_e696);
  (38, 13, Some QST_e468);
  (40, 15, Some QST_e697);
  (41, 18, Some QST_e698);
  (42, 21, Some (cN (-1)));
  (43, 24, Some QST_e699);
  (44, 29, Some QST_e700);
  (45, 23, Some QST_e701);
  (45, 30, Some QST_e702);
  (46, 24, Some QST_e703);
  (46, 31, Some QST_e704);
  (47, 25, Some QST_e705);
  (47, 32, Some QST_e706);
  (48, 33, Some QST_e707);
  (50, 39, Some QST_e645);
  (52, 23, Some QST_e708);
  (52, 30, Some QST_e709);
  (53, 24, Some QST_e710);
  (53, 31, Some QST_e711);
  (53, 40, Some QST_e712);
  (54, 25, Some QST_e713);
  (54, 32, Some QST_e714);
  (55, 26, Some QST_e559);
  (55, 35, Some QST_e715);
  (56, 27, Some QST_e561);
  (56, 36, Some QST_e562);
  (56, 41, Some QST_e669);
  (57, 28, Some QST_e563);
  (57, 37, Some QST_e564);
  (58, 49, Some QST_e700);
  (59, 50, Some QST_e716);
  (60, 51, Some QST_e717);
  (61, 45, Some QST_e573);
  (61, 52, Some QST_e718);
  (62, 43, Some QST_e513);
  (62, 46, Some QST_e719);
  (62, 53, Some QST_e720);
  (63, 47, Some QST_e721);
  (63, 54, Some QST_e672);
  (64, 59, Some QST_e634)].
(** /repo/c++/symmetry/nrg-recalc-QST.hpp recalc_irreduc, qst/qst-spindo-1.dat *)
Definition qst_t11 : irr_table := mk_irr 0 0 [ShLin 0%nat 1 1; ShLin 1%nat 1 (-1); ShLin 2%nat 1 (-1)]  [
  (7, 1, Some (cN 1));
  (8, 2, Some QST_e722);
  (11, 2, Some QST_e723);
  (12, 3, Some QST_e724);
  (13, 4, Some QST_e725);
  (18, 2, Some QST_e726);
  (19, 3, Some QST_e727);
  (21, 5, Some QST_e728);
  (22, 6, Some QST_e526);
  (24, 14, Some QST_e729);
  (25, 15, Some QST_e684);
  (26, 9, Some QST_e588);
  (27, 10, Some QST_e730);
  (27, 17, Some QST_e731);
  (28, 8, Some (cO (cR (cQ 2 3))));
  (28, 11, Some QST_e732);
  (28, 18, Some QST_e733);
  (31, 14, Some QST_e734);
  (32, 15, Some QST_e735);
  (33, 16, Some QST_e645);
  (35, 9, Some QST_e594);
  (36, 10, Some QST_e736);
  (36, 17, Some QST_e737);
  (37, 11, Some QST_e597);
  (37, 18, Some QST_e738);
  (38, 12, Some QST_e599);
  (38, 19, Some QST_e648);
  (40, 14, Some QST_e739);
  (41, 17, Some QST_e740);
  (42, 20, Some QST_e741);
  (43, 23, Some QST_e742);
  (45, 29, Some QST_e743);
  (46, 23, Some QST_e744);
  (46, 30, Some QST_e745);
  (47, 24, Some QST_e746);
  (47, 31, Some QST_e747);
  (48, 25, Some QST_e748);
  (48, 32, Some QST_e749);
  (51, 39, Some QST_e645);
  (52, 29, Some QST_e750);
  (53, 23, Some QST_e751);
  (53, 30, Some QST_e752);
  (54, 24, Some QST_e708);
  (54, 31, Some QST_e753);
  (54, 40, Some QST_e754);
  (55, 34, Some QST_e615);
  (56, 26, Some QST_e755);
  (56, 35, Some QST_e617);
  (57, 27, Some QST_e618);
  (57, 36, Some QST_e619);
  (57, 41, Some QST_e669);
  (59, 49, Some QST_e756);
  (60, 50, Some QST_e700);
  (61, 44, Some QST_e604);
  (62, 45, Some QST_e757);
  (62, 52, Some QST_e758);
  (63, 43, Some QST_e513);
  (63, 46, Some QST_e759);
  (63, 53, Some QST_e760);
  (64, 58, Some QST_e761)].
(** /repo/c++/symmetry/nrg-recalc-QST.hpp recalc_triplet, qst/qst-triplets.dat *)
Definition qst_t12 : ten_table := mk_ten "triplet" [ShLin 0%nat 1 0; ShLin 1%nat 1 0; ShLin 2%nat 1 0] [0; 3; 0] [
  (1, 1, [ShLin 0%nat 1 3; ShLin 1%nat 1 0; ShLin 2%nat 1 0], [ShLin 0%nat 1 3; ShLin 1%nat 1 0; ShLin 2%nat 1 0], Some (cN 1));
  (2, 2, [ShLin 0%nat 1 2; ShLin 1%nat 1 (-1); ShLin 2%nat 1 (-1)], [ShLin 0%nat 1 2; ShLin 1%nat 1 (-1); ShLin 2%nat 1 (-1)], Some QST_e357);
  (2, 5, [ShLin 0%nat 1 2; ShLin 1%nat 1 (-1); ShLin 2%nat 1 (-1)], [ShLin 0%nat 1 2; ShLin 1%nat 1 1; ShLin 2%nat 1 (-1)], Some QST_e116);
  (3, 3, [ShLin 0%nat 1 2; ShLin 1%nat 1 (-1); ShLin 2%nat 1 0], [ShLin 0%nat 1 2; ShLin 1%nat 1 (-1); ShLin 2%nat 1 0], Some QST_e357);
  (3, 6, [ShLin 0%nat 1 2; ShLin 1%nat 1 (-1); ShLin 2%nat 1 0], [ShLin 0%nat 1 2; ShLin 1%nat 1 1; ShLin 2%nat 1 0], Some QST_e116);
  (4, 4, [ShLin 0%nat 1 2; ShLin 1%nat 1 (-1); ShLin 2%nat 1 1], [ShLin 0%nat 1 2; ShLin 1%nat 1 (-1); ShLin 2%nat 1 1], Some QST_e762);
  (4, 7, [ShLin 0%nat 1 2; ShLin 1%nat 1 (-1); ShLin 2%nat 1 1], [ShLin 0%nat 1 2; ShLin 1%nat 1 1; ShLin 2%nat 1 1], Some QST_e116);
  (5, 2, [ShLin 0%nat 1 2; ShLin 1%nat 1 1; ShLin 2%nat 1 (-1)], [ShLin 0%nat 1 2; ShLin 1%nat 1 (-1); ShLin 2%nat 1 (-1)], Some QST_e33);
  (5, 5, [ShLin 0%nat 1 2; ShLin 1%nat 1 1; ShLin 2%nat 1 (-1)], [ShLin 0%nat 1 2; ShLin 1%nat 1 1; ShLin 2%nat 1 (-1)], Some QST_e36);
  (6, 3, [ShLin 0%nat 1 2; ShLin 1%nat 1 1; ShLin 2%nat 1 0], [ShLin 0%nat 1 2; ShLin 1%nat 1 (-1); ShLin 2%nat 1 0], Some QST_e763);
  (6, 6, [ShLin 0%nat 1 2; ShLin 1%nat 1 1; ShLin 2%nat 1 0], [ShLin 0%nat 1 2; ShLin 1%nat 1 1; ShLin 2%nat 1 0], Some QST_e764);
  (7, 4, [ShLin 0%nat 1 2; ShLin 1%nat 1 1; ShLin 2%nat 1 1], [ShLin 0%nat 1 2; ShLin 1%nat 1 (-1); ShLin 2%nat 1 1], Some QST_e33);
  (7, 7, [ShLin 0%nat 1 2; ShLin 1%nat 1 1; ShLin 2%nat 1 1], [ShLin 0%nat 1 2; ShLin 1%nat 1 1; ShLin 2%nat 1 1], Some QST_e439);
  (8, 8, [ShLin 0%nat 1 1; ShLin 1%nat 1 0; ShLin 2%nat 1 0], [ShLin 0%nat 1 1; ShLin 1%nat 1 0; ShLin 2%nat 1 0], Some (cN 1));
  (9, 9, [ShLin 0%nat 1 1; ShLin 1%nat 1 0; ShLin 2%nat 1 (-2)], [ShLin 0%nat 1 1; ShLin 1%nat 1 0; ShLin 2%nat 1 (-2)], Some (cN 1));
  (10, 10, [ShLin 0%nat 1 1; ShLin 1%nat 1 0; ShLin 2%nat 1 (-1)], [ShLin 0%nat 1 1; ShLin 1%nat 1 0; ShLin 2%nat 1 (-1)], Some (cN 1));
  (11, 11, [ShLin 0%nat 1 1; ShLin 1%nat 1 0; ShLin 2%nat 1 0], [ShLin 0%nat 1 1; ShLin 1%nat 1 0; ShLin 2%nat 1 0], Some (cN 1));
  (12, 12, [ShLin 0%nat 1 1; ShLin 1%nat 1 0; ShLin 2%nat 1 1], [ShLin 0%nat 1 1; ShLin 1%nat 1 0; ShLin 2%nat 1 1], Some (cN 1));
  (13, 13, [ShLin 0%nat 1 1; ShLin 1%nat 1 0; ShLin 2%nat 1 2], [ShLin 0%nat 1 1; ShLin 1%nat 1 0; ShLin 2%nat 1 2], Some (cN 1));
  (14, 14, [ShLin 0%nat 1 1; ShLin 1%nat 1 (-2); ShLin 2%nat 1 (-1)], [ShLin 0%nat 1 1; ShLin 1%nat 1 (-2); ShLin 2%nat 1 (-1)], Some QST_e765);
  (14, 17, [ShLin 0%nat 1 1; ShLin 1%nat 1 (-2); ShLin 2%nat 1 (-1)], [ShLin 0%nat 1 1; ShLin 1%nat 1 0; ShLin 2%nat 1 (-1)], Some QST_e766);
  (15, 15, [ShLin 0%nat 1 1; ShLin 1%nat 1 (-2); ShLin 2%nat 1 0], [ShLin 0%nat 1 1; ShLin 1%nat 1 (-2); ShLin 2%nat 1 0], Some QST_e765);
  (15, 18, [ShLin 0%nat 1 1; ShLin 1%nat 1 (-2); ShLin 2%nat 1 0], [ShLin 0%nat 1 1; ShLin 1%nat 1 0; ShLin 2%nat 1 0], Some QST_e767);
  (16, 16, [ShLin 0%nat 1 1; ShLin 1%nat 1 (-2); ShLin 2%nat 1 1], [ShLin 0%nat 1 1; ShLin 1%nat 1 (-2); ShLin 2%nat 1 1], Some QST_e768);
  (16, 19, [ShLin 0%nat 1 1; ShLin 1%nat 1 (-2); ShLin 2%nat 1 1], [ShLin 0%nat 1 1; ShLin 1%nat 1 0; ShLin 2%nat 1 1], Some QST_e769);
  (17, 14, [ShLin 0%nat 1 1; ShLin 1%nat 1 0; ShLin 2%nat 1 (-1)], [ShLin 0%nat 1 1; ShLin 1%nat 1 (-2); ShLin 2%nat 1 (-1)], Some QST_e770);
  (17, 17, [ShLin 0%nat 1 1; ShLin 1%nat 1 0; ShLin 2%nat 1 (-1)], [ShLin 0%nat 1 1; ShLin 1%nat 1 0; ShLin 2%nat 1 (-1)], Some QST_e771);
  (17, 20, [ShLin 0%nat 1 1; ShLin 1%nat 1 0; ShLin 2%nat 1 (-1)], [ShLin 0%nat 1 1; ShLin 1%nat 1 2; ShLin 2%nat 1 (-1)], Some QST_e772);
  (18, 15, [ShLin 0%nat 1 1; ShLin 1%nat 1 0; ShLin 2%nat 1 0], [ShLin 0%nat 1 1; ShLin 1%nat 1 (-2); ShLin 2%nat 1 0], Some QST_e770);
  (18, 18, [ShLin 0%nat 1 1; ShLin 1%nat 1 0; ShLin 2%nat 1 0], [ShLin 0%nat 1 1; ShLin 1%nat 1 0; ShLin 2%nat 1 0], Some QST_e771);
  (18, 21, [ShLin 0%nat 1 1; ShLin 1%nat 1 0; ShLin 2%nat 1 0], [ShLin 0%nat 1 1; ShLin 1%nat 1 2; ShLin 2%nat 1 0], Some QST_e772);
  (19, 16, [ShLin 0%nat 1 1; ShLin 1%nat 1 0; ShLin 2%nat 1 1], [ShLin 0%nat 1 1; ShLin 1%nat 1 (-2); ShLin 2%nat 1 1], Some QST_e770);
  (19, 19, [ShLin 0%nat 1 1; ShLin 1%nat 1 0; ShLin 2%nat 1 1], [ShLin 0%nat 1 1; ShLin 1%nat 1 0; ShLin 2%nat 1 1], Some QST_e771);
  (19, 22, [ShLin 0%nat 1 1; ShLin 1%nat 1 0; ShLin 2%nat 1 1], [ShLin 0%nat 1 1; ShLin 1%nat 1 2; ShLin 2%nat 1 1], Some QST_e772);
  (20, 17, [ShLin 0%nat 1 1; ShLin 1%nat 1 2; ShLin 2%nat 1 (-1)], [ShLin 0%nat 1 1; ShLin 1%nat 1 0; ShLin 2%nat 1 (-1)], Some QST_e773);
  (20, 20, [ShLin 0%nat 1 1; ShLin 1%nat 1 2; ShLin 2%nat 1 (-1)], [ShLin 0%nat 1 1; ShLin 1%nat 1 2; ShLin 2%nat 1 (-1)], Some QST_e774);
  (21, 18, [ShLin 0%nat 1 1; ShLin 1%nat 1 2; ShLin 2%nat 1 0], [ShLin 0%nat 1 1; ShLin 1%nat 1 0; ShLin 2%nat 1 0], Some QST_e773);
  (21, 21, [ShLin 0%nat 1 1; ShLin 1%nat 1 2; ShLin 2%nat 1 0], [ShLin 0%nat 1 1; ShLin 1%nat 1 2; ShLin 2%nat 1 0], Some QST_e774);
  (22, 19, [ShLin 0%nat 1 1; ShLin 1%nat 1 2; ShLin 2%nat 1 1], [ShLin 0%nat 1 1; ShLin 1%nat 1 0; ShLin 2%nat 1 1], Some QST_e773);
  (22, 22, [ShLin 0%nat 1 1; ShLin 1%nat 1 2; ShLin 2%nat 1 1], [ShLin 0%nat 1 1; ShLin 1%nat 1 2; ShLin 2%nat 1 1], Some QST_e774);
  (23, 23, [ShLin 0%nat 1 0; ShLin 1%nat 1 (-1); ShLin 2%nat 1 (-1)], [ShLin 0%nat 1 0; ShLin 1%nat 1 (-1); ShLin 2%nat 1 (-1)], Some QST_e357);
  (23, 26, [ShLin 0%nat 1 0; ShLin 1%nat 1 (-1); ShLin 2%nat 1 (-1)], [ShLin 0%nat 1 0; ShLin 1%nat 1 1; ShLin 2%nat 1 (-1)], Some QST_e116);
  (24, 24, [ShLin 0%nat 1 0; ShLin 1%nat 1 (-1); ShLin 2%nat 1 0], [ShLin 0%nat 1 0; ShLin 1%nat 1 (-1); ShLin 2%nat 1 0], Some QST_e357);
  (24, 27, [ShLin 0%nat 1 0; ShLin 1%nat 1 (-1); ShLin 2%nat 1 0], [ShLin 0%nat 1 0; ShLin 1%nat 1 1; ShLin 2%nat 1 0], Some QST_e116);
  (25, 25, [ShLin 0%nat 1 0; ShLin 1%nat 1 (-1); ShLin 2%nat 1 1], [ShLin 0%nat 1 0; ShLin 1%nat 1 (-1); ShLin 2%nat 1 1], Some QST_e762);
  (25, 28, [ShLin 0%nat 1 0; ShLin 1%nat 1 (-1); ShLin 2%nat 1 1], [ShLin 0%nat 1 0; ShLin 1%nat 1 1; ShLin 2%nat 1 1], Some QST_e116);
  (26, 23, [ShLin 0%nat 1 0; ShLin 1%nat 1 1; ShLin 2%nat 1 (-1)], [ShLin 0%nat 1 0; ShLin 1%nat 1 (-1); ShLin 2%nat 1 (-1)], Some QST_e33);
  (26, 26, [ShLin 0%nat 1 0; ShLin 1%nat 1 1; ShLin 2%nat 1 (-1)], [ShLin 0%nat 1 0; ShLin 1%nat 1 1; ShLin 2%nat 1 (-1)], Some QST_e36);
  (27, 24, [ShLin 0%nat 1 0; ShLin 1%nat 1 1; ShLin 2%nat 1 0], [ShLin 0%nat 1 0; ShLin 1%nat 1 (-1); ShLin 2%nat 1 0], Some QST_e763);
  (27, 27, [ShLin 0%nat 1 0; ShLin 1%nat 1 1; ShLin 2%nat 1 0], [ShLin 0%nat 1 0; ShLin 1%nat 1 1; ShLin 2%nat 1 0], Some QST_e764);
  (28, 25, [ShLin 0%nat 1 0; ShLin 1%nat 1 1; ShLin 2%nat 1 1], [ShLin 0%nat 1 0; ShLin 1%nat 1 (-1); ShLin 2%nat 1 1], Some QST_e33);
  (28, 28, [ShLin 0%nat 1 0; ShLin 1%nat 1 1; ShLin 2%nat 1 1], [ShLin 0%nat 1 0; ShLin 1%nat 1 1; ShLin 2%nat 1 1], Some QST_e439);
  (29, 29, [ShLin 0%nat 1 0; ShLin 1%nat 1 (-1); ShLin 2%nat 1 (-2)], [ShLin 0%nat 1 0; ShLin 1%nat 1 (-1); ShLin 2%nat 1 (-2)], Some QST_e357);
  (29, 34, [ShLin 0%nat 1 0; ShLin 1%nat 1 (-1); ShLin 2%nat 1 (-2)], [ShLin 0%nat 1 0; ShLin 1%nat 1 1; ShLin 2%nat 1 (-2)], Some QST_e116);
  (30, 30, [ShLin 0%nat 1 0; ShLin 1%nat 1 (-1); ShLin 2%nat 1 (-1)], [ShLin 0%nat 1 0; ShLin 1%nat 1 (-1); ShLin 2%nat 1 (-1)], Some QST_e357);
  (30, 35, [ShLin 0%nat 1 0; ShLin 1%nat 1 (-1); ShLin 2%nat 1 (-1)], [ShLin 0%nat 1 0; ShLin 1%nat 1 1; ShLin 2%nat 1 (-1)], Some QST_e116);
  (31, 31, [ShLin 0%nat 1 0; ShLin 1%nat 1 (-1); ShLin 2%nat 1 0], [ShLin 0%nat 1 0; ShLin 1%nat 1 (-1); ShLin 2%nat 1 0], Some QST_e775);
  (31, 36, [ShLin 0%nat 1 0; ShLin 1%nat 1 (-1); ShLin 2%nat 1 0], [ShLin 0%nat 1 0; ShLin 1%nat 1 1; ShLin 2%nat 1 0], Some QST_e116);
  (32, 32, [ShLin 0%nat 1 0; ShLin 1%nat 1 (-1); ShLin 2%nat 1 1], [ShLin 0%nat 1 0; ShLin 1%nat 1 (-1); ShLin 2%nat 1 1], Some QST_e776);
  (32, 37, [ShLin 0%nat 1 0; ShLin 1%nat 1 (-1); ShLin 2%nat 1 1], [ShLin 0%nat 1 0; ShLin 1%nat 1 1; ShLin 2%nat 1 1], Some QST_e116);
  (33, 33, [ShLin 0%nat 1 0; ShLin 1%nat 1 (-1); ShLin 2%nat 1 2], [ShLin 0%nat 1 0; ShLin 1%nat 1 (-1); ShLin 2%nat 1 2], Some QST_e777);
  (33, 38, [ShLin 0%nat 1 0; ShLin 1%nat 1 (-1); ShLin 2%nat 1 2], [ShLin 0%nat 1 0; ShLin 1%nat 1 1; ShLin 2%nat 1 2], Some QST_e116);
  (34, 29, [ShLin 0%nat 1 0; ShLin 1%nat 1 1; ShLin 2%nat 1 (-2)], [ShLin 0%nat 1 0; ShLin 1%nat 1 (-1); ShLin 2%nat 1 (-2)], Some QST_e33);
  (34, 34, [ShLin 0%nat 1 0; ShLin 1%nat 1 1; ShLin 2%nat 1 (-2)], [ShLin 0%nat 1 0; ShLin 1%nat 1 1; ShLin 2%nat 1 (-2)], Some QST_e36);
  (35, 30, [ShLin 0%nat 1 0; ShLin 1%nat 1 1; ShLin 2%nat 1 (-1)], [ShLin 0%nat 1 0; ShLin 1%nat 1 (-1); ShLin 2%nat 1 (-1)], Some QST_e33);
  (35, 35, [ShLin 0%nat 1 0; ShLin 1%nat 1 1; ShLin 2%nat 1 (-1)], [ShLin 0%nat 1 0; ShLin 1%nat 1 1; ShLin 2%nat 1 (-1)], Some QST_e778);
  (36, 31, [ShLin 0%nat 1 0; ShLin 1%nat 1 1; ShLin 2%nat 1 0], [ShLin 0%nat 1 0; ShLin 1%nat 1 (-1); ShLin 2%nat 1 0], Some QST_e33);
  (36, 36, [ShLin 0%nat 1 0; ShLin 1%nat 1 1; ShLin 2%nat 1 0], [ShLin 0%nat 1 0; ShLin 1%nat 1 1; ShLin 2%nat 1 0], Some QST_e36);
  (37, 32, [ShLin 0%nat 1 0; ShLin 1%nat 1 1; ShLin 2%nat 1 1], [ShLin 0%nat 1 0; ShLin 1%nat 1 (-1); ShLin 2%nat 1 1], Some QST_e33);
  (37, 37, [ShLin 0%nat 1 0; ShLin 1%nat 1 1; ShLin 2%nat 1 1], [ShLin 0%nat 1 0; ShLin 1%nat 1 1; ShLin 2%nat 1 1], Some QST_e36);
  (38, 33, [ShLin 0%nat 1 0; ShLin 1%nat 1 1; ShLin 2%nat 1 2], [ShLin 0%nat 1 0; ShLin 1%nat 1 (-1); ShLin 2%nat 1 2], Some QST_e33);
  (38, 38, [ShLin 0%nat 1 0; ShLin 1%nat 1 1; ShLin 2%nat 1 2], [ShLin 0%nat 1 0; ShLin 1%nat 1 1; ShLin 2%nat 1 2], Some QST_e779);
  (39, 39, [ShLin 0%nat 1 0; ShLin 1%nat 1 (-3); ShLin 2%nat 1 0], [ShLin 0%nat 1 0; ShLin 1%nat 1 (-3); ShLin 2%nat 1 0], Some QST_e780);
  (39, 40, [ShLin 0%nat 1 0; ShLin 1%nat 1 (-3); ShLin 2%nat 1 0], [ShLin 0%nat 1 0; ShLin 1%nat 1 (-1); ShLin 2%nat 1 0], Some QST_e781);
  (40, 39, [ShLin 0%nat 1 0; ShLin 1%nat 1 (-1); ShLin 2%nat 1 0], [ShLin 0%nat 1 0; ShLin 1%nat 1 (-3); ShLin 2%nat 1 0], Some QST_e782);
  (40, 40, [ShLin 0%nat 1 0; ShLin 1%nat 1 (-1); ShLin 2%nat 1 0], [ShLin 0%nat 1 0; ShLin 1%nat 1 (-1); ShLin 2%nat 1 0], Some QST_e783);
  (40, 41, [ShLin 0%nat 1 0; ShLin 1%nat 1 (-1); ShLin 2%nat 1 0], [ShLin 0%nat 1 0; ShLin 1%nat 1 1; ShLin 2%nat 1 0], Some QST_e784);
  (41, 40, [ShLin 0%nat 1 0; ShLin 1%nat 1 1; ShLin 2%nat 1 0], [ShLin 0%nat 1 0; ShLin 1%nat 1 (-1); ShLin 2%nat 1 0], Some QST_e785);
  (41, 41, [ShLin 0%nat 1 0; ShLin 1%nat 1 1; ShLin 2%nat 1 0], [ShLin 0%nat 1 0; ShLin 1%nat 1 1; ShLin 2%nat 1 0], Some QST_e786);
  (41, 42, [ShLin 0%nat 1 0; ShLin 1%nat 1 1; ShLin 2%nat 1 0], [ShLin 0%nat 1 0; ShLin 1%nat 1 3; ShLin 2%nat 1 0], Some QST_e787);
  (42, 41, [ShLin 0%nat 1 0; ShLin 1%nat 1 3; ShLin 2%nat 1 0], [ShLin 0%nat 1 0; ShLin 1%nat 1 1; ShLin 2%nat 1 0], Some QST_e788);
  (42, 42, [ShLin 0%nat 1 0; ShLin 1%nat 1 3; ShLin 2%nat 1 0], [ShLin 0%nat 1 0; ShLin 1%nat 1 3; ShLin 2%nat 1 0], Some QST_e789);
  (43, 43, [ShLin 0%nat 1 (-1); ShLin 1%nat 1 0; ShLin 2%nat 1 0], [ShLin 0%nat 1 (-1); ShLin 1%nat 1 0; ShLin 2%nat 1 0], Some (cN 1));
  (44, 44, [ShLin 0%nat 1 (-1); ShLin 1%nat 1 0; ShLin 2%nat 1 (-2)], [ShLin 0%nat 1 (-1); ShLin 1%nat 1 0; ShLin 2%nat 1 (-2)], Some (cN 1));
  (45, 45, [ShLin 0%nat 1 (-1); ShLin 1%nat 1 0; ShLin 2%nat 1 (-1)], [ShLin 0%nat 1 (-1); ShLin 1%nat 1 0; ShLin 2%nat 1 (-1)], Some (cN 1));
  (46, 46, [ShLin 0%nat 1 (-1); ShLin 1%nat 1 0; ShLin 2%nat 1 0], [ShLin 0%nat 1 (-1); ShLin 1%nat 1 0; ShLin 2%nat 1 0], Some (cN 1));
  (47, 47, [ShLin 0%nat 1 (-1); ShLin 1%nat 1 0; ShLin 2%nat 1 1], [ShLin 0%nat 1 (-1); ShLin 1%nat 1 0; ShLin 2%nat 1 1], Some (cN 1));
  (48, 48, [ShLin 0%nat 1 (-1); ShLin 1%nat 1 0; ShLin 2%nat 1 2], [ShLin 0%nat 1 (-1); ShLin 1%nat 1 0; ShLin 2%nat 1 2], Some (cN 1));
  (49, 49, [ShLin 0%nat 1 (-1); ShLin 1%nat 1 (-2); ShLin 2%nat 1 (-1)], [ShLin 0%nat 1 (-1); ShLin 1%nat 1 (-2); ShLin 2%nat 1 (-1)], Some QST_e765);
  (49, 52, [ShLin 0%nat 1 (-1); ShLin 1%nat 1 (-2); ShLin 2%nat 1 (-1)], [ShLin 0%nat 1 (-1); ShLin 1%nat 1 0; ShLin 2%nat 1 (-1)], Some QST_e766);
  (50, 50, [ShLin 0%nat 1 (-1); ShLin 1%nat 1 (-2); ShLin 2%nat 1 0], [ShLin 0%nat 1 (-1); ShLin 1%nat 1 (-2); ShLin 2%nat 1 0], Some QST_e765);
  (50, 53, [ShLin 0%nat 1 (-1); ShLin 1%nat 1 (-2); ShLin 2%nat 1 0], [ShLin 0%nat 1 (-1); ShLin 1%nat 1 0; ShLin 2%nat 1 0], Some QST_e767);
  (51, 51, [ShLin 0%nat 1 (-1); ShLin 1%nat 1 (-2); ShLin 2%nat 1 1], [ShLin 0%nat 1 (-1); ShLin 1%nat 1 (-2); ShLin 2%nat 1 1], Some QST_e768);
  (51, 54, [ShLin 0%nat 1 (-1); ShLin 1%nat 1 (-2); ShLin 2%nat 1 1], [ShLin 0%nat 1 (-1); ShLin 1%nat 1 0; ShLin 2%nat 1 1], Some QST_e769);
  (52, 49, [ShLin 0%nat 1 (-1); ShLin 1%nat 1 0; ShLin 2%nat 1 (-1)], [ShLin 0%nat 1 (-1); ShLin 1%nat 1 (-2); ShLin 2%nat 1 (-1)], Some QST_e770);
  (52, 52, [ShLin 0%nat 1 (-1); ShLin 1%nat 1 0; ShLin 2%nat 1 (-1)], [ShLin 0%nat 1 (-1); ShLin 1%nat 1 0; ShLin 2%nat 1 (-1)], Some QST_e771);
  (52, 55, [ShLin 0%nat 1 (-1); ShLin 1%nat 1 0; ShLin 2%nat 1 (-1)], [ShLin 0%nat 1 (-1); ShLin 1%nat 1 2; ShLin 2%nat 1 (-1)], Some QST_e772);
  (53, 50, [ShLin 0%nat 1 (-1); ShLin 1%nat 1 0; ShLin 2%nat 1 0], [ShLin 0%nat 1 (-1); ShLin 1%nat 1 (-2); ShLin 2%nat 1 0], Some QST_e770);
  (53, 53, [ShLin 0%nat 1 (-1); ShLin 1%nat 1 0; ShLin 2%nat 1 0], [ShLin 0%nat 1 (-1); ShLin 1%nat 1 0; ShLin 2%nat 1 0], Some QST_e771);
  (53, 56, [ShLin 0%nat 1 (-1); ShLin 1%nat 1 0; ShLin 2%nat 1 0], [ShLin 0%nat 1 (-1); ShLin 1%nat 1 2; ShLin 2%nat 1 0], Some QST_e772);
  (54, 51, [ShLin 0%nat 1 (-1); ShLin 1%nat 1 0; ShLin 2%nat 1 1], [ShLin 0%nat 1 (-1); ShLin 1%nat 1 (-2); ShLin 2%nat 1 1], Some QST_e770);
  (54, 54, [ShLin 0%nat 1 (-1); ShLin 1%nat 1 0; ShLin 2%nat 1 1], [ShLin 0%nat 1 (-1); ShLin 1%nat 1 0; ShLin 2%nat 1 1], Some QST_e771);
  (54, 57, [ShLin 0%nat 1 (-1); ShLin 1%nat 1 0; ShLin 2%nat 1 1], [ShLin 0%nat 1 (-1); ShLin 1%nat 1 2; ShLin 2%nat 1 1], Some QST_e772);
  (55, 52, [ShLin 0%nat 1 (-1); ShLin 1%nat 1 2; ShLin 2%nat 1 (-1)], [ShLin 0%nat 1 (-1); ShLin 1%nat 1 0; ShLin 2%nat 1 (-1)], Some QST_e773);
  (55, 55, [ShLin 0%nat 1 (-1); ShLin 1%nat 1 2; ShLin 2%nat 1 (-1)], [ShLin 0%nat 1 (-1); ShLin 1%nat 1 2; ShLin 2%nat 1 (-1)], Some QST_e774);
  (56, 53, [ShLin 0%nat 1 (-1); ShLin 1%nat 1 2; ShLin 2%nat 1 0], [ShLin 0%nat 1 (-1); ShLin 1%nat 1 0; ShLin 2%nat 1 0], Some QST_e773);
  (56, 56, [ShLin 0%nat 1 (-1); ShLin 1%nat 1 2; ShLin 2%nat 1 0], [ShLin 0%nat 1 (-1); ShLin 1%nat 1 2; ShLin 2%nat 1 0], Some QST_e774);
  (57, 54, [ShLin 0%nat 1 (-1); ShLin 1%nat 1 2; ShLin 2%nat 1 1], [ShLin 0%nat 1 (-1); ShLin 1%nat 1 0; ShLin 2%nat 1 1], Some QST_e773);
  (57, 57, [ShLin 0%nat 1 (-1); ShLin 1%nat 1 2; ShLin 2%nat 1 1], [ShLin 0%nat 1 (-1); ShLin 1%nat 1 2; ShLin 2%nat 1 1], Some QST_e774);
  (58, 58, [ShLin 0%nat 1 (-2); ShLin 1%nat 1 (-1); ShLin 2%nat 1 (-1)], [ShLin 0%nat 1 (-2); ShLin 1%nat 1 (-1); ShLin 2%nat 1 (-1)], Some QST_e357);
  (58, 61, [ShLin 0%nat 1 (-2); ShLin 1%nat 1 (-1); ShLin 2%nat 1 (-1)], [ShLin 0%nat 1 (-2); ShLin 1%nat 1 1; ShLin 2%nat 1 (-1)], Some QST_e116);
  (59, 59, [ShLin 0%nat 1 (-2); ShLin 1%nat 1 (-1); ShLin 2%nat 1 0], [ShLin 0%nat 1 (-2); ShLin 1%nat 1 (-1); ShLin 2%nat 1 0], Some QST_e357);
  (59, 62, [ShLin 0%nat 1 (-2); ShLin 1%nat 1 (-1); ShLin 2%nat 1 0], [ShLin 0%nat 1 (-2); ShLin 1%nat 1 1; ShLin 2%nat 1 0], Some QST_e116);
  (60, 60, [ShLin 0%nat 1 (-2); ShLin 1%nat 1 (-1); ShLin 2%nat 1 1], [ShLin 0%nat 1 (-2); ShLin 1%nat 1 (-1); ShLin 2%nat 1 1], Some QST_e762);
  (60, 63, [ShLin 0%nat 1 (-2); ShLin 1%nat 1 (-1); ShLin 2%nat 1 1], [ShLin 0%nat 1 (-2); ShLin 1%nat 1 1; ShLin 2%nat 1 1], Some QST_e116);
  (61, 58, [ShLin 0%nat 1 (-2); ShLin 1%nat 1 1; ShLin 2%nat 1 (-1)], [ShLin 0%nat 1 (-2); ShLin 1%nat 1 (-1); ShLin 2%nat 1 (-1)], Some QST_e33);
  (61, 61, [ShLin 0%nat 1 (-2); ShLin 1%nat 1 1; ShLin 2%nat 1 (-1)], [ShLin 0%nat 1 (-2); ShLin 1%nat 1 1; ShLin 2%nat 1 (-1)], Some QST_e36);
  (62, 59, [ShLin 0%nat 1 (-2); ShLin 1%nat 1 1; ShLin 2%nat 1 0], [ShLin 0%nat 1 (-2); ShLin 1%nat 1 (-1); ShLin 2%nat 1 0], Some QST_e763);
  (62, 62, [ShLin 0%nat 1 (-2); ShLin 1%nat 1 1; ShLin 2%nat 1 0], [ShLin 0%nat 1 (-2); ShLin 1%nat 1 1; ShLin 2%nat 1 0], Some QST_e764);
  (63, 60, [ShLin 0%nat 1 (-2); ShLin 1%nat 1 1; ShLin 2%nat 1 1], [ShLin 0%nat 1 (-2); ShLin 1%nat 1 (-1); ShLin 2%nat 1 1], Some QST_e33);
  (63, 63, [ShLin 0%nat 1 (-2); ShLin 1%nat 1 1; ShLin 2%nat 1 1], [ShLin 0%nat 1 (-2); ShLin 1%nat 1 1; ShLin 2%nat 1 1], Some QST_e439);
  (64, 64, [ShLin 0%nat 1 (-3); ShLin 1%nat 1 0; ShLin 2%nat 1 0], [ShLin 0%nat 1 (-3); ShLin 1%nat 1 0; ShLin 2%nat 1 0], Some (cN 1))].
(** /repo/c++/symmetry/nrg-recalc-QST.hpp recalc_triplet, qst/qst-tripletp.dat *)
Definition qst_t13 : ten_table := mk_ten "triplet" [ShLin 0%nat 1 0; ShLin 1%nat 1 2; ShLin 2%nat 1 0] [0; 3; 0] [
  (1, 1, [ShLin 0%nat 1 3; ShLin 1%nat 1 0; ShLin 2%nat 1 0], [ShLin 0%nat 1 3; ShLin 1%nat 1 2; ShLin 2%nat 1 0], Some (cN 1));
  (2, 2, [ShLin 0%nat 1 2; ShLin 1%nat 1 (-1); ShLin 2%nat 1 (-1)], [ShLin 0%nat 1 2; ShLin 1%nat 1 1; ShLin 2%nat 1 (-1)], Some QST_e439);
  (3, 3, [ShLin 0%nat 1 2; ShLin 1%nat 1 (-1); ShLin 2%nat 1 0], [ShLin 0%nat 1 2; ShLin 1%nat 1 1; ShLin 2%nat 1 0], Some QST_e439);
  (4, 4, [ShLin 0%nat 1 2; ShLin 1%nat 1 (-1); ShLin 2%nat 1 1], [ShLin 0%nat 1 2; ShLin 1%nat 1 1; ShLin 2%nat 1 1], Some QST_e790);
  (5, 2, [ShLin 0%nat 1 2; ShLin 1%nat 1 1; ShLin 2%nat 1 (-1)], [ShLin 0%nat 1 2; ShLin 1%nat 1 1; ShLin 2%nat 1 (-1)], Some QST_e45);
  (5, 5, [ShLin 0%nat 1 2; ShLin 1%nat 1 1; ShLin 2%nat 1 (-1)], [ShLin 0%nat 1 2; ShLin 1%nat 1 3; ShLin 2%nat 1 (-1)], Some (cN 1));
  (6, 3, [ShLin 0%nat 1 2; ShLin 1%nat 1 1; ShLin 2%nat 1 0], [ShLin 0%nat 1 2; ShLin 1%nat 1 1; ShLin 2%nat 1 0], Some QST_e45);
  (6, 6, [ShLin 0%nat 1 2; ShLin 1%nat 1 1; ShLin 2%nat 1 0], [ShLin 0%nat 1 2; ShLin 1%nat 1 3; ShLin 2%nat 1 0], Some (cN 1));
  (7, 4, [ShLin 0%nat 1 2; ShLin 1%nat 1 1; ShLin 2%nat 1 1], [ShLin 0%nat 1 2; ShLin 1%nat 1 1; ShLin 2%nat 1 1], Some QST_e45);
  (7, 7, [ShLin 0%nat 1 2; ShLin 1%nat 1 1; ShLin 2%nat 1 1], [ShLin 0%nat 1 2; ShLin 1%nat 1 3; ShLin 2%nat 1 1], Some (cN 1));
  (8, 8, [ShLin 0%nat 1 1; ShLin 1%nat 1 0; ShLin 2%nat 1 0], [ShLin 0%nat 1 1; ShLin 1%nat 1 2; ShLin 2%nat 1 0], Some (cN 1));
  (9, 9, [ShLin 0%nat 1 1; ShLin 1%nat 1 0; ShLin 2%nat 1 (-2)], [ShLin 0%nat 1 1; ShLin 1%nat 1 2; ShLin 2%nat 1 (-2)], Some (cN 1));
  (10, 10, [ShLin 0%nat 1 1; ShLin 1%nat 1 0; ShLin 2%nat 1 (-1)], [ShLin 0%nat 1 1; ShLin 1%nat 1 2; ShLin 2%nat 1 (-1)], Some (cN 1));
  (11, 11, [ShLin 0%nat 1 1; ShLin 1%nat 1 0; ShLin 2%nat 1 0], [ShLin 0%nat 1 1; ShLin 1%nat 1 2; ShLin 2%nat 1 0], Some (cN 1));
  (12, 12, [ShLin 0%nat 1 1; ShLin 1%nat 1 0; ShLin 2%nat 1 1], [ShLin 0%nat 1 1; ShLin 1%nat 1 2; ShLin 2%nat 1 1], Some (cN 1));
  (13, 13, [ShLin 0%nat 1 1; ShLin 1%nat 1 0; ShLin 2%nat 1 2], [ShLin 0%nat 1 1; ShLin 1%nat 1 2; ShLin 2%nat 1 2], Some (cN 1));
  (14, 14, [ShLin 0%nat 1 1; ShLin 1%nat 1 (-2); ShLin 2%nat 1 (-1)], [ShLin 0%nat 1 1; ShLin 1%nat 1 0; ShLin 2%nat 1 (-1)], Some QST_e791);
  (15, 15, [ShLin 0%nat 1 1; ShLin 1%nat 1 (-2); ShLin 2%nat 1 0], [ShLin 0%nat 1 1; ShLin 1%nat 1 0; ShLin 2%nat 1 0], Some QST_e791);
  (16, 16, [ShLin 0%nat 1 1; ShLin 1%nat 1 (-2); ShLin 2%nat 1 1], [ShLin 0%nat 1 1; ShLin 1%nat 1 0; ShLin 2%nat 1 1], Some QST_e792);
  (17, 14, [ShLin 0%nat 1 1; ShLin 1%nat 1 0; ShLin 2%nat 1 (-1)], [ShLin 0%nat 1 1; ShLin 1%nat 1 0; ShLin 2%nat 1 (-1)], Some QST_e773);
  (17, 17, [ShLin 0%nat 1 1; ShLin 1%nat 1 0; ShLin 2%nat 1 (-1)], [ShLin 0%nat 1 1; ShLin 1%nat 1 2; ShLin 2%nat 1 (-1)], Some QST_e774);
  (18, 15, [ShLin 0%nat 1 1; ShLin 1%nat 1 0; ShLin 2%nat 1 0], [ShLin 0%nat 1 1; ShLin 1%nat 1 0; ShLin 2%nat 1 0], Some QST_e773);
  (18, 18, [ShLin 0%nat 1 1; ShLin 1%nat 1 0; ShLin 2%nat 1 0], [ShLin 0%nat 1 1; ShLin 1%nat 1 2; ShLin 2%nat 1 0], Some QST_e793);
  (19, 16, [ShLin 0%nat 1 1; ShLin 1%nat 1 0; ShLin 2%nat 1 1], [ShLin 0%nat 1 1; ShLin 1%nat 1 0; ShLin 2%nat 1 1], Some QST_e794);
  (19, 19, [ShLin 0%nat 1 1; ShLin 1%nat 1 0; ShLin 2%nat 1 1], [ShLin 0%nat 1 1; ShLin 1%nat 1 2; ShLin 2%nat 1 1], Some QST_e795);
  (20, 14, [ShLin 0%nat 1 1; ShLin 1%nat 1 2; ShLin 2%nat 1 (-1)], [ShLin 0%nat 1 1; ShLin 1%nat 1 0; ShLin 2%nat 1 (-1)], Some QST_e796);
  (20, 17, [ShLin 0%nat 1 1; ShLin 1%nat 1 2; ShLin 2%nat 1 (-1)], [ShLin 0%nat 1 1; ShLin 1%nat 1 2; ShLin 2%nat 1 (-1)], Some QST_e797);
  (20, 20, [ShLin 0%nat 1 1; ShLin 1%nat 1 2; ShLin 2%nat 1 (-1)], [ShLin 0%nat 1 1; ShLin 1%nat 1 4; ShLin 2%nat 1 (-1)], Some (cN 1));
  (21, 15, [ShLin 0%nat 1 1; ShLin 1%nat 1 2; ShLin 2%nat 1 0], [ShLin 0%nat 1 1; ShLin 1%nat 1 0; ShLin 2%nat 1 0], Some QST_e796);
  (21, 18, [ShLin 0%nat 1 1; ShLin 1%nat 1 2; ShLin 2%nat 1 0], [ShLin 0%nat 1 1; ShLin 1%nat 1 2; ShLin 2%nat 1 0], Some QST_e797);
  (21, 21, [ShLin 0%nat 1 1; ShLin 1%nat 1 2; ShLin 2%nat 1 0], [ShLin 0%nat 1 1; ShLin 1%nat 1 4; ShLin 2%nat 1 0], Some (cN 1));
  (22, 16, [ShLin 0%nat 1 1; ShLin 1%nat 1 2; ShLin 2%nat 1 1], [ShLin 0%nat 1 1; ShLin 1%nat 1 0; ShLin 2%nat 1 1], Some QST_e796);
  (22, 19, [ShLin 0%nat 1 1; ShLin 1%nat 1 2; ShLin 2%nat 1 1], [ShLin 0%nat 1 1; ShLin 1%nat 1 2; ShLin 2%nat 1 1], Some QST_e797);
  (22, 22, [ShLin 0%nat 1 1; ShLin 1%nat 1 2; ShLin 2%nat 1 1], [ShLin 0%nat 1 1; ShLin 1%nat 1 4; ShLin 2%nat 1 1], Some (cN 1));
  (23, 23, [ShLin 0%nat 1 0; ShLin 1%nat 1 (-1); ShLin 2%nat 1 (-1)], [ShLin 0%nat 1 0; ShLin 1%nat 1 1; ShLin 2%nat 1 (-1)], Some QST_e439);
  (24, 24, [ShLin 0%nat 1 0; ShLin 1%nat 1 (-1); ShLin 2%nat 1 0], [ShLin 0%nat 1 0; ShLin 1%nat 1 1; ShLin 2%nat 1 0], Some QST_e439);
  (25, 25, [ShLin 0%nat 1 0; ShLin 1%nat 1 (-1); ShLin 2%nat 1 1], [ShLin 0%nat 1 0; ShLin 1%nat 1 1; ShLin 2%nat 1 1], Some QST_e790);
  (26, 23, [ShLin 0%nat 1 0; ShLin 1%nat 1 1; ShLin 2%nat 1 (-1)], [ShLin 0%nat 1 0; ShLin 1%nat 1 1; ShLin 2%nat 1 (-1)], Some QST_e45);
  (26, 26, [ShLin 0%nat 1 0; ShLin 1%nat 1 1; ShLin 2%nat 1 (-1)], [ShLin 0%nat 1 0; ShLin 1%nat 1 3; ShLin 2%nat 1 (-1)], Some (cN 1));
  (27, 24, [ShLin 0%nat 1 0; ShLin 1%nat 1 1; ShLin 2%nat 1 0], [ShLin 0%nat 1 0; ShLin 1%nat 1 1; ShLin 2%nat 1 0], Some QST_e45);
  (27, 27, [ShLin 0%nat 1 0; ShLin 1%nat 1 1; ShLin 2%nat 1 0], [ShLin 0%nat 1 0; ShLin 1%nat 1 3; ShLin 2%nat 1 0], Some (cN 1));
  (28, 25, [ShLin 0%nat 1 0; ShLin 1%nat 1 1; ShLin 2%nat 1 1], [ShLin 0%nat 1 0; ShLin 1%nat 1 1; ShLin 2%nat 1 1], Some QST_e45);
  (28, 28, [ShLin 0%nat 1 0; ShLin 1%nat 1 1; ShLin 2%nat 1 1], [ShLin 0%nat 1 0; ShLin 1%nat 1 3; ShLin 2%nat 1 1], Some (cN 1));
  (29, 29, [ShLin 0%nat 1 0; ShLin 1%nat 1 (-1); ShLin 2%nat 1 (-2)], [ShLin 0%nat 1 0; ShLin 1%nat 1 1; ShLin 2%nat 1 (-2)], Some QST_e439);
  (30, 30, [ShLin 0%nat 1 0; ShLin 1%nat 1 (-1); ShLin 2%nat 1 (-1)], [ShLin 0%nat 1 0; ShLin 1%nat 1 1; ShLin 2%nat 1 (-1)], Some QST_e439);
  (31, 31, [ShLin 0%nat 1 0; ShLin 1%nat 1 (-1); ShLin 2%nat 1 0], [ShLin 0%nat 1 0; ShLin 1%nat 1 1; ShLin 2%nat 1 0], Some QST_e439);
  (32, 32, [ShLin 0%nat 1 0; ShLin 1%nat 1 (-1); ShLin 2%nat 1 1], [ShLin 0%nat 1 0; ShLin 1%nat 1 1; ShLin 2%nat 1 1], Some QST_e798);
  (33, 33, [ShLin 0%nat 1 0; ShLin 1%nat 1 (-1); ShLin 2%nat 1 2], [ShLin 0%nat 1 0; ShLin 1%nat 1 1; ShLin 2%nat 1 2], Some QST_e799);
  (34, 29, [ShLin 0%nat 1 0; ShLin 1%nat 1 1; ShLin 2%nat 1 (-2)], [ShLin 0%nat 1 0; ShLin 1%nat 1 1; ShLin 2%nat 1 (-2)], Some QST_e45);
  (34, 34, [ShLin 0%nat 1 0; ShLin 1%nat 1 1; ShLin 2%nat 1 (-2)], [ShLin 0%nat 1 0; ShLin 1%nat 1 3; ShLin 2%nat 1 (-2)], Some (cN 1));
  (35, 30, [ShLin 0%nat 1 0; ShLin 1%nat 1 1; ShLin 2%nat 1 (-1)], [ShLin 0%nat 1 0; ShLin 1%nat 1 1; ShLin 2%nat 1 (-1)], Some QST_e45);
  (35, 35, [ShLin 0%nat 1 0; ShLin 1%nat 1 1; ShLin 2%nat 1 (-1)], [ShLin 0%nat 1 0; ShLin 1%nat 1 3; ShLin 2%nat 1 (-1)], Some (cN 1));
  (36, 31, [ShLin 0%nat 1 0; ShLin 1%nat 1 1; ShLin 2%nat 1 0], [ShLin 0%nat 1 0; ShLin 1%nat 1 1; ShLin 2%nat 1 0], Some QST_e45);
  (36, 36, [ShLin 0%nat 1 0; ShLin 1%nat 1 1; ShLin 2%nat 1 0], [ShLin 0%nat 1 0; ShLin 1%nat 1 3; ShLin 2%nat 1 0], Some (cN 1));
  (37, 32, [ShLin 0%nat 1 0; ShLin 1%nat 1 1; ShLin 2%nat 1 1], [ShLin 0%nat 1 0; ShLin 1%nat 1 1; ShLin 2%nat 1 1], Some QST_e45);
  (37, 37, [ShLin 0%nat 1 0; ShLin 1%nat 1 1; ShLin 2%nat 1 1], [ShLin 0%nat 1 0; ShLin 1%nat 1 3; ShLin 2%nat 1 1], Some (cN 1));
  (38, 33, [ShLin 0%nat 1 0; ShLin 1%nat 1 1; ShLin 2%nat 1 2], [ShLin 0%nat 1 0; ShLin 1%nat 1 1; ShLin 2%nat 1 2], Some QST_e45);
  (38, 38, [ShLin 0%nat 1 0; ShLin 1%nat 1 1; ShLin 2%nat 1 2], [ShLin 0%nat 1 0; ShLin 1%nat 1 3; ShLin 2%nat 1 2], Some (cN 1));
  (39, 39, [ShLin 0%nat 1 0; ShLin 1%nat 1 (-3); ShLin 2%nat 1 0], [ShLin 0%nat 1 0; ShLin 1%nat 1 (-1); ShLin 2%nat 1 0], Some QST_e800);
  (40, 39, [ShLin 0%nat 1 0; ShLin 1%nat 1 (-1); ShLin 2%nat 1 0], [ShLin 0%nat 1 0; ShLin 1%nat 1 (-1); ShLin 2%nat 1 0], Some QST_e801);
  (40, 40, [ShLin 0%nat 1 0; ShLin 1%nat 1 (-1); ShLin 2%nat 1 0], [ShLin 0%nat 1 0; ShLin 1%nat 1 1; ShLin 2%nat 1 0], Some QST_e802);
  (41, 39, [ShLin 0%nat 1 0; ShLin 1%nat 1 1; ShLin 2%nat 1 0], [ShLin 0%nat 1 0; ShLin 1%nat 1 (-1); ShLin 2%nat 1 0], Some QST_e803);
  (41, 40, [ShLin 0%nat 1 0; ShLin 1%nat 1 1; ShLin 2%nat 1 0], [ShLin 0%nat 1 0; ShLin 1%nat 1 1; ShLin 2%nat 1 0], Some QST_e804);
  (41, 41, [ShLin 0%nat 1 0; ShLin 1%nat 1 1; ShLin 2%nat 1 0], [ShLin 0%nat 1 0; ShLin 1%nat 1 3; ShLin 2%nat 1 0], Some QST_e805);
  (42, 40, [ShLin 0%nat 1 0; ShLin 1%nat 1 3; ShLin 2%nat 1 0], [ShLin 0%nat 1 0; ShLin 1%nat 1 1; ShLin 2%nat 1 0], Some QST_e806);
  (42, 41, [ShLin 0%nat 1 0; ShLin 1%nat 1 3; ShLin 2%nat 1 0], [ShLin 0%nat 1 0; ShLin 1%nat 1 3; ShLin 2%nat 1 0], Some QST_e807);
  (42, 42, [ShLin 0%nat 1 0; ShLin 1%nat 1 3; ShLin 2%nat 1 0], [ShLin 0%nat 1 0; ShLin 1%nat 1 5; ShLin 2%nat 1 0], Some (cN 1));
  (43, 43, [ShLin 0%nat 1 (-1); ShLin 1%nat 1 0; ShLin 2%nat 1 0], [ShLin 0%nat 1 (-1); ShLin 1%nat 1 2; ShLin 2%nat 1 0], Some (cN 1));
  (44, 44, [ShLin 0%nat 1 (-1); ShLin 1%nat 1 0; ShLin 2%nat 1 (-2)], [ShLin 0%nat 1 (-1); ShLin 1%nat 1 2; ShLin 2%nat 1 (-2)], Some (cN 1));
  (45, 45, [ShLin 0%nat 1 (-1); ShLin 1%nat 1 0; ShLin 2%nat 1 (-1)], [ShLin 0%nat 1 (-1); ShLin 1%nat 1 2; ShLin 2%nat 1 (-1)], Some (cN 1));
  (46, 46, [ShLin 0%nat 1 (-1); ShLin 1%nat 1 0; ShLin 2%nat 1 0], [ShLin 0%nat 1 (-1); ShLin 1%nat 1 2; ShLin 2%nat 1 0], Some (cN 1));
  (47, 47, [ShLin 0%nat 1 (-1); ShLin 1%nat 1 0; ShLin 2%nat 1 1], [ShLin 0%nat 1 (-1); ShLin 1%nat 1 2; ShLin 2%nat 1 1], Some (cN 1));
  (48, 48, [ShLin 0%nat 1 (-1); ShLin 1%nat 1 0; ShLin 2%nat 1 2], [ShLin 0%nat 1 (-1); ShLin 1%nat 1 2; ShLin 2%nat 1 2], Some (cN 1));
  (49, 49, [ShLin 0%nat 1 (-1); ShLin 1%nat 1 (-2); ShLin 2%nat 1 (-1)], [ShLin 0%nat 1 (-1); ShLin 1%nat 1 0; ShLin 2%nat 1 (-1)], Some QST_e791);
  (50, 50, [ShLin 0%nat 1 (-1); ShLin 1%nat 1 (-2); ShLin 2%nat 1 0], [ShLin 0%nat 1 (-1); ShLin 1%nat 1 0; ShLin 2%nat 1 0], Some QST_e791);
  (51, 51, [ShLin 0%nat 1 (-1); ShLin 1%nat 1 (-2); ShLin 2%nat 1 1], [ShLin 0%nat 1 (-1); ShLin 1%nat 1 0; ShLin 2%nat 1 1], Some QST_e792);
  (52, 49, [ShLin 0%nat 1 (-1); ShLin 1%nat 1 0; ShLin 2%nat 1 (-1)], [ShLin 0%nat 1 (-1); ShLin 1%nat 1 0; ShLin 2%nat 1 (-1)], Some QST_e773);
  (52, 52, [ShLin 0%nat 1 (-1); ShLin 1%nat 1 0; ShLin 2%nat 1 (-1)], [ShLin 0%nat 1 (-1); ShLin 1%nat 1 2; ShLin 2%nat 1 (-1)], Some QST_e774);
  (53, 50, [ShLin 0%nat 1 (-1); ShLin 1%nat 1 0; ShLin 2%nat 1 0], [ShLin 0%nat 1 (-1); ShLin 1%nat 1 0; ShLin 2%nat 1 0], Some QST_e773);
  (53, 53, [ShLin 0%nat 1 (-1); ShLin 1%nat 1 0; ShLin 2%nat 1 0], [ShLin 0%nat 1 (-1); ShLin 1%nat 1 2; ShLin 2%nat 1 0], Some QST_e793);
  (54, 51, [ShLin 0%nat 1 (-1); ShLin 1%nat 1 0; ShLin 2%nat 1 1], [ShLin 0%nat 1 (-1); ShLin 1%nat 1 0; ShLin 2%nat 1 1], Some QST_e794);
  (54, 54, [ShLin 0%nat 1 (-1); ShLin 1%nat 1 0; ShLin 2%nat 1 1], [ShLin 0%nat 1 (-1); ShLin 1%nat 1 2; ShLin 2%nat 1 1], Some QST_e795);
  (55, 49, [ShLin 0%nat 1 (-1); ShLin 1%nat 1 2; ShLin 2%nat 1 (-1)], [ShLin 0%nat 1 (-1); ShLin 1%nat 1 0; ShLin 2%nat 1 (-1)], Some QST_e796);
  (55, 52, [ShLin 0%nat 1 (-1); ShLin 1%nat 1 2; ShLin 2%nat 1 (-1)], [ShLin 0%nat 1 (-1); ShLin 1%nat 1 2; ShLin 2%nat 1 (-1)], Some QST_e797);
  (55, 55, [ShLin 0%nat 1 (-1); ShLin 1%nat 1 2; ShLin 2%nat 1 (-1)], [ShLin 0%nat 1 (-1); ShLin 1%nat 1 4; ShLin 2%nat 1 (-1)], Some (cN 1));
  (56, 50, [ShLin 0%nat 1 (-1); ShLin 1%nat 1 2; ShLin 2%nat 1 0], [ShLin 0%nat 1 (-1); ShLin 1%nat 1 0; ShLin 2%nat 1 0], Some QST_e796);
  (56, 53, [ShLin 0%nat 1 (-1); ShLin 1%nat 1 2; ShLin 2%nat 1 0], [ShLin 0%nat 1 (-1); ShLin 1%nat 1 2; ShLin 2%nat 1 0], Some QST_e797);
  (56, 56, [ShLin 0%nat 1 (-1); ShLin 1%nat 1 2; ShLin 2%nat 1 0], [ShLin 0%nat 1 (-1); ShLin 1%nat 1 4; ShLin 2%nat 1 0], Some (cN 1));
  (57, 51, [ShLin 0%nat 1 (-1); ShLin 1%nat 1 2; ShLin 2%nat 1 1], [ShLin 0%nat 1 (-1); ShLin 1%nat 1 0; ShLin 2%nat 1 1], Some QST_e796);
  (57, 54, [ShLin 0%nat 1 (-1); ShLin 1%nat 1 2; ShLin 2%nat 1 1], [ShLin 0%nat 1 (-1); ShLin 1%nat 1 2; ShLin 2%nat 1 1], Some QST_e797);
  (57, 57, [ShLin 0%nat 1 (-1); ShLin 1%nat 1 2; ShLin 2%nat 1 1], [ShLin 0%nat 1 (-1); ShLin 1%nat 1 4; ShLin 2%nat 1 1], Some (cN 1));
  (58, 58, [ShLin 0%nat 1 (-2); ShLin 1%nat 1 (-1); ShLin 2%nat 1 (-1)], [ShLin 0%nat 1 (-2); ShLin 1%nat 1 1; ShLin 2%nat 1 (-1)], Some QST_e439);
  (59, 59, [ShLin 0%nat 1 (-2); ShLin 1%nat 1 (-1); ShLin 2%nat 1 0], [ShLin 0%nat 1 (-2); ShLin 1%nat 1 1; ShLin 2%nat 1 0], Some QST_e439);
  (60, 60, [ShLin 0%nat 1 (-2); ShLin 1%nat 1 (-1); ShLin 2%nat 1 1], [ShLin 0%nat 1 (-2); ShLin 1%nat 1 1; ShLin 2%nat 1 1], Some QST_e790);
  (61, 58, [ShLin 0%nat 1 (-2); ShLin 1%nat 1 1; ShLin 2%nat 1 (-1)], [ShLin 0%nat 1 (-2); ShLin 1%nat 1 1; ShLin 2%nat 1 (-1)], Some QST_e45);
  (61, 61, [ShLin 0%nat 1 (-2); ShLin 1%nat 1 1; ShLin 2%nat 1 (-1)], [ShLin 0%nat 1 (-2); ShLin 1%nat 1 3; ShLin 2%nat 1 (-1)], Some (cN 1));
  (62, 59, [ShLin 0%nat 1 (-2); ShLin 1%nat 1 1; ShLin 2%nat 1 0], [ShLin 0%nat 1 (-2); ShLin 1%nat 1 1; ShLin 2%nat 1 0], Some QST_e45);
  (62, 62, [ShLin 0%nat 1 (-2); ShLin 1%nat 1 1; ShLin 2%nat 1 0], [ShLin 0%nat 1 (-2); ShLin 1%nat 1 3; ShLin 2%nat 1 0], Some (cN 1));
  (63, 60, [ShLin 0%nat 1 (-2); ShLin 1%nat 1 1; ShLin 2%nat 1 1], [ShLin 0%nat 1 (-2); ShLin 1%nat 1 1; ShLin 2%nat 1 1], Some QST_e45);
  (63, 63, [ShLin 0%nat 1 (-2); ShLin 1%nat 1 1; ShLin 2%nat 1 1], [ShLin 0%nat 1 (-2); ShLin 1%nat 1 3; ShLin 2%nat 1 1], Some (cN 1));
  (64, 64, [ShLin 0%nat 1 (-3); ShLin 1%nat 1 0; ShLin 2%nat 1 0], [ShLin 0%nat 1 (-3); ShLin 1%nat 1 2; ShLin 2%nat 1 0], Some (cN 1))].
(** /repo/c++/symmetry/nrg-recalc-QST.hpp recalc_triplet, qst/qst-tripletm.dat *)
Definition qst_t14 : ten_table := mk_ten "triplet" [ShLin 0%nat 1 0; ShLin 1%nat 1 (-2); ShLin 2%nat 1 0] [0; 3; 0] [
  (1, 1, [ShLin 0%nat 1 3; ShLin 1%nat 1 0; ShLin 2%nat 1 0], [ShLin 0%nat 1 3; ShLin 1%nat 1 (-2); ShLin 2%nat 1 0], Some (cN 1));
  (2, 2, [ShLin 0%nat 1 2; ShLin 1%nat 1 (-1); ShLin 2%nat 1 (-1)], [ShLin 0%nat 1 2; ShLin 1%nat 1 (-3); ShLin 2%nat 1 (-1)], Some (cN 1));
  (2, 5, [ShLin 0%nat 1 2; ShLin 1%nat 1 (-1); ShLin 2%nat 1 (-1)], [ShLin 0%nat 1 2; ShLin 1%nat 1 (-1); ShLin 2%nat 1 (-1)], Some QST_e105);
  (3, 3, [ShLin 0%nat 1 2; ShLin 1%nat 1 (-1); ShLin 2%nat 1 0], [ShLin 0%nat 1 2; ShLin 1%nat 1 (-3); ShLin 2%nat 1 0], Some (cN 1));
  (3, 6, [ShLin 0%nat 1 2; ShLin 1%nat 1 (-1); ShLin 2%nat 1 0], [ShLin 0%nat 1 2; ShLin 1%nat 1 (-1); ShLin 2%nat 1 0], Some QST_e105);
  (4, 4, [ShLin 0%nat 1 2; ShLin 1%nat 1 (-1); ShLin 2%nat 1 1], [ShLin 0%nat 1 2; ShLin 1%nat 1 (-3); ShLin 2%nat 1 1], Some (cN 1));
  (4, 7, [ShLin 0%nat 1 2; ShLin 1%nat 1 (-1); ShLin 2%nat 1 1], [ShLin 0%nat 1 2; ShLin 1%nat 1 (-1); ShLin 2%nat 1 1], Some QST_e105);
  (5, 5, [ShLin 0%nat 1 2; ShLin 1%nat 1 1; ShLin 2%nat 1 (-1)], [ShLin 0%nat 1 2; ShLin 1%nat 1 (-1); ShLin 2%nat 1 (-1)], Some QST_e357);
  (6, 6, [ShLin 0%nat 1 2; ShLin 1%nat 1 1; ShLin 2%nat 1 0], [ShLin 0%nat 1 2; ShLin 1%nat 1 (-1); ShLin 2%nat 1 0], Some QST_e808);
  (7, 7, [ShLin 0%nat 1 2; ShLin 1%nat 1 1; ShLin 2%nat 1 1], [ShLin 0%nat 1 2; ShLin 1%nat 1 (-1); ShLin 2%nat 1 1], Some QST_e357);
  (8, 8, [ShLin 0%nat 1 1; ShLin 1%nat 1 0; ShLin 2%nat 1 0], [ShLin 0%nat 1 1; ShLin 1%nat 1 (-2); ShLin 2%nat 1 0], Some (cN 1));
  (9, 9, [ShLin 0%nat 1 1; ShLin 1%nat 1 0; ShLin 2%nat 1 (-2)], [ShLin 0%nat 1 1; ShLin 1%nat 1 (-2); ShLin 2%nat 1 (-2)], Some (cN 1));
  (10, 10, [ShLin 0%nat 1 1; ShLin 1%nat 1 0; ShLin 2%nat 1 (-1)], [ShLin 0%nat 1 1; ShLin 1%nat 1 (-2); ShLin 2%nat 1 (-1)], Some (cN 1));
  (11, 11, [ShLin 0%nat 1 1; ShLin 1%nat 1 0; ShLin 2%nat 1 0], [ShLin 0%nat 1 1; ShLin 1%nat 1 (-2); ShLin 2%nat 1 0], Some (cN 1));
  (12, 12, [ShLin 0%nat 1 1; ShLin 1%nat 1 0; ShLin 2%nat 1 1], [ShLin 0%nat 1 1; ShLin 1%nat 1 (-2); ShLin 2%nat 1 1], Some (cN 1));
  (13, 13, [ShLin 0%nat 1 1; ShLin 1%nat 1 0; ShLin 2%nat 1 2], [ShLin 0%nat 1 1; ShLin 1%nat 1 (-2); ShLin 2%nat 1 2], Some (cN 1));
  (14, 14, [ShLin 0%nat 1 1; ShLin 1%nat 1 (-2); ShLin 2%nat 1 (-1)], [ShLin 0%nat 1 1; ShLin 1%nat 1 (-4); ShLin 2%nat 1 (-1)], Some (cN 1));
  (14, 17, [ShLin 0%nat 1 1; ShLin 1%nat 1 (-2); ShLin 2%nat 1 (-1)], [ShLin 0%nat 1 1; ShLin 1%nat 1 (-2); ShLin 2%nat 1 (-1)], Some QST_e809);
  (14, 20, [ShLin 0%nat 1 1; ShLin 1%nat 1 (-2); ShLin 2%nat 1 (-1)], [ShLin 0%nat 1 1; ShLin 1%nat 1 0; ShLin 2%nat 1 (-1)], Some QST_e810);
  (15, 15, [ShLin 0%nat 1 1; ShLin 1%nat 1 (-2); ShLin 2%nat 1 0], [ShLin 0%nat 1 1; ShLin 1%nat 1 (-4); ShLin 2%nat 1 0], Some (cN 1));
  (15, 18, [ShLin 0%nat 1 1; ShLin 1%nat 1 (-2); ShLin 2%nat 1 0], [ShLin 0%nat 1 1; ShLin 1%nat 1 (-2); ShLin 2%nat 1 0], Some QST_e809);
  (15, 21, [ShLin 0%nat 1 1; ShLin 1%nat 1 (-2); ShLin 2%nat 1 0], [ShLin 0%nat 1 1; ShLin 1%nat 1 0; ShLin 2%nat 1 0], Some QST_e810);
  (16, 16, [ShLin 0%nat 1 1; ShLin 1%nat 1 (-2); ShLin 2%nat 1 1], [ShLin 0%nat 1 1; ShLin 1%nat 1 (-4); ShLin 2%nat 1 1], Some (cN 1));
  (16, 19, [ShLin 0%nat 1 1; ShLin 1%nat 1 (-2); ShLin 2%nat 1 1], [ShLin 0%nat 1 1; ShLin 1%nat 1 (-2); ShLin 2%nat 1 1], Some QST_e809);
  (16, 22, [ShLin 0%nat 1 1; ShLin 1%nat 1 (-2); ShLin 2%nat 1 1], [ShLin 0%nat 1 1; ShLin 1%nat 1 0; ShLin 2%nat 1 1], Some QST_e810);
  (17, 17, [ShLin 0%nat 1 1; ShLin 1%nat 1 0; ShLin 2%nat 1 (-1)], [ShLin 0%nat 1 1; ShLin 1%nat 1 (-2); ShLin 2%nat 1 (-1)], Some QST_e765);
  (17, 20, [ShLin 0%nat 1 1; ShLin 1%nat 1 0; ShLin 2%nat 1 (-1)], [ShLin 0%nat 1 1; ShLin 1%nat 1 0; ShLin 2%nat 1 (-1)], Some QST_e767);
  (18, 18, [ShLin 0%nat 1 1; ShLin 1%nat 1 0; ShLin 2%nat 1 0], [ShLin 0%nat 1 1; ShLin 1%nat 1 (-2); ShLin 2%nat 1 0], Some QST_e765);
  (18, 21, [ShLin 0%nat 1 1; ShLin 1%nat 1 0; ShLin 2%nat 1 0], [ShLin 0%nat 1 1; ShLin 1%nat 1 0; ShLin 2%nat 1 0], Some QST_e767);
  (19, 19, [ShLin 0%nat 1 1; ShLin 1%nat 1 0; ShLin 2%nat 1 1], [ShLin 0%nat 1 1; ShLin 1%nat 1 (-2); ShLin 2%nat 1 1], Some QST_e765);
  (19, 22, [ShLin 0%nat 1 1; ShLin 1%nat 1 0; ShLin 2%nat 1 1], [ShLin 0%nat 1 1; ShLin 1%nat 1 0; ShLin 2%nat 1 1], Some QST_e811);
  (20, 20, [ShLin 0%nat 1 1; ShLin 1%nat 1 2; ShLin 2%nat 1 (-1)], [ShLin 0%nat 1 1; ShLin 1%nat 1 0; ShLin 2%nat 1 (-1)], Some QST_e812);
  (21, 21, [ShLin 0%nat 1 1; ShLin 1%nat 1 2; ShLin 2%nat 1 0], [ShLin 0%nat 1 1; ShLin 1%nat 1 0; ShLin 2%nat 1 0], Some QST_e812);
  (22, 22, [ShLin 0%nat 1 1; ShLin 1%nat 1 2; ShLin 2%nat 1 1], [ShLin 0%nat 1 1; ShLin 1%nat 1 0; ShLin 2%nat 1 1], Some QST_e791);
  (23, 23, [ShLin 0%nat 1 0; ShLin 1%nat 1 (-1); ShLin 2%nat 1 (-1)], [ShLin 0%nat 1 0; ShLin 1%nat 1 (-3); ShLin 2%nat 1 (-1)], Some (cN 1));
  (23, 26, [ShLin 0%nat 1 0; ShLin 1%nat 1 (-1); ShLin 2%nat 1 (-1)], [ShLin 0%nat 1 0; ShLin 1%nat 1 (-1); ShLin 2%nat 1 (-1)], Some QST_e105);
  (24, 24, [ShLin 0%nat 1 0; ShLin 1%nat 1 (-1); ShLin 2%nat 1 0], [ShLin 0%nat 1 0; ShLin 1%nat 1 (-3); ShLin 2%nat 1 0], Some (cN 1));
  (24, 27, [ShLin 0%nat 1 0; ShLin 1%nat 1 (-1); ShLin 2%nat 1 0], [ShLin 0%nat 1 0; ShLin 1%nat 1 (-1); ShLin 2%nat 1 0], Some QST_e105);
  (25, 25, [ShLin 0%nat 1 0; ShLin 1%nat 1 (-1); ShLin 2%nat 1 1], [ShLin 0%nat 1 0; ShLin 1%nat 1 (-3); ShLin 2%nat 1 1], Some (cN 1));
  (25, 28, [ShLin 0%nat 1 0; ShLin 1%nat 1 (-1); ShLin 2%nat 1 1], [ShLin 0%nat 1 0; ShLin 1%nat 1 (-1); ShLin 2%nat 1 1], Some QST_e105);
  (26, 26, [ShLin 0%nat 1 0; ShLin 1%nat 1 1; ShLin 2%nat 1 (-1)], [ShLin 0%nat 1 0; ShLin 1%nat 1 (-1); ShLin 2%nat 1 (-1)], Some QST_e357);
  (27, 27, [ShLin 0%nat 1 0; ShLin 1%nat 1 1; ShLin 2%nat 1 0], [ShLin 0%nat 1 0; ShLin 1%nat 1 (-1); ShLin 2%nat 1 0], Some QST_e808);
  (28, 28, [ShLin 0%nat 1 0; ShLin 1%nat 1 1; ShLin 2%nat 1 1], [ShLin 0%nat 1 0; ShLin 1%nat 1 (-1); ShLin 2%nat 1 1], Some QST_e357);
  (29, 29, [ShLin 0%nat 1 0; ShLin 1%nat 1 (-1); ShLin 2%nat 1 (-2)], [ShLin 0%nat 1 0; ShLin 1%nat 1 (-3); ShLin 2%nat 1 (-2)], Some (cN 1));
  (29, 34, [ShLin 0%nat 1 0; ShLin 1%nat 1 (-1); ShLin 2%nat 1 (-2)], [ShLin 0%nat 1 0; ShLin 1%nat 1 (-1); ShLin 2%nat 1 (-2)], Some QST_e105);
  (30, 30, [ShLin 0%nat 1 0; ShLin 1%nat 1 (-1); ShLin 2%nat 1 (-1)], [ShLin 0%nat 1 0; ShLin 1%nat 1 (-3); ShLin 2%nat 1 (-1)], Some (cN 1));
  (30, 35, [ShLin 0%nat 1 0; ShLin 1%nat 1 (-1); ShLin 2%nat 1 (-1)], [ShLin 0%nat 1 0; ShLin 1%nat 1 (-1); ShLin 2%nat 1 (-1)], Some QST_e105);
  (31, 31, [ShLin 0%nat 1 0; ShLin 1%nat 1 (-1); ShLin 2%nat 1 0], [ShLin 0%nat 1 0; ShLin 1%nat 1 (-3); ShLin 2%nat 1 0], Some (cN 1));
  (31, 36, [ShLin 0%nat 1 0; ShLin 1%nat 1 (-1); ShLin 2%nat 1 0], [ShLin 0%nat 1 0; ShLin 1%nat 1 (-1); ShLin 2%nat 1 0], Some QST_e105);
  (32, 32, [ShLin 0%nat 1 0; ShLin 1%nat 1 (-1); ShLin 2%nat 1 1], [ShLin 0%nat 1 0; ShLin 1%nat 1 (-3); ShLin 2%nat 1 1], Some (cN 1));
  (32, 37, [ShLin 0%nat 1 0; ShLin 1%nat 1 (-1); ShLin 2%nat 1 1], [ShLin 0%nat 1 0; ShLin 1%nat 1 (-1); ShLin 2%nat 1 1], Some QST_e813);
  (33, 33, [ShLin 0%nat 1 0; ShLin 1%nat 1 (-1); ShLin 2%nat 1 2], [ShLin 0%nat 1 0; ShLin 1%nat 1 (-3); ShLin 2%nat 1 2], Some (cN 1));
  (33, 38, [ShLin 0%nat 1 0; ShLin 1%nat 1 (-1); ShLin 2%nat 1 2], [ShLin 0%nat 1 0; ShLin 1%nat 1 (-1); ShLin 2%nat 1 2], Some QST_e814);
  (34, 34, [ShLin 0%nat 1 0; ShLin 1%nat 1 1; ShLin 2%nat 1 (-2)], [ShLin 0%nat 1 0; ShLin 1%nat 1 (-1); ShLin 2%nat 1 (-2)], Some QST_e357);
  (35, 35, [ShLin 0%nat 1 0; ShLin 1%nat 1 1; ShLin 2%nat 1 (-1)], [ShLin 0%nat 1 0; ShLin 1%nat 1 (-1); ShLin 2%nat 1 (-1)], Some QST_e357);
  (36, 36, [ShLin 0%nat 1 0; ShLin 1%nat 1 1; ShLin 2%nat 1 0], [ShLin 0%nat 1 0; ShLin 1%nat 1 (-1); ShLin 2%nat 1 0], Some QST_e357);
  (37, 37, [ShLin 0%nat 1 0; ShLin 1%nat 1 1; ShLin 2%nat 1 1], [ShLin 0%nat 1 0; ShLin 1%nat 1 (-1); ShLin 2%nat 1 1], Some QST_e815);
  (38, 38, [ShLin 0%nat 1 0; ShLin 1%nat 1 1; ShLin 2%nat 1 2], [ShLin 0%nat 1 0; ShLin 1%nat 1 (-1); ShLin 2%nat 1 2], Some QST_e357);
  (39, 39, [ShLin 0%nat 1 0; ShLin 1%nat 1 (-3); ShLin 2%nat 1 0], [ShLin 0%nat 1 0; ShLin 1%nat 1 (-5); ShLin 2%nat 1 0], Some (cN 1));
  (39, 40, [ShLin 0%nat 1 0; ShLin 1%nat 1 (-3); ShLin 2%nat 1 0], [ShLin 0%nat 1 0; ShLin 1%nat 1 (-3); ShLin 2%nat 1 0], Some QST_e816);
  (39, 41, [ShLin 0%nat 1 0; ShLin 1%nat 1 (-3); ShLin 2%nat 1 0], [ShLin 0%nat 1 0; ShLin 1%nat 1 (-1); ShLin 2%nat 1 0], Some QST_e817);
  (40, 40, [ShLin 0%nat 1 0; ShLin 1%nat 1 (-1); ShLin 2%nat 1 0], [ShLin 0%nat 1 0; ShLin 1%nat 1 (-3); ShLin 2%nat 1 0], Some QST_e818);
  (40, 41, [ShLin 0%nat 1 0; ShLin 1%nat 1 (-1); ShLin 2%nat 1 0], [ShLin 0%nat 1 0; ShLin 1%nat 1 (-1); ShLin 2%nat 1 0], Some QST_e819);
  (40, 42, [ShLin 0%nat 1 0; ShLin 1%nat 1 (-1); ShLin 2%nat 1 0], [ShLin 0%nat 1 0; ShLin 1%nat 1 1; ShLin 2%nat 1 0], Some QST_e803);
  (41, 41, [ShLin 0%nat 1 0; ShLin 1%nat 1 1; ShLin 2%nat 1 0], [ShLin 0%nat 1 0; ShLin 1%nat 1 (-1); ShLin 2%nat 1 0], Some QST_e820);
  (41, 42, [ShLin 0%nat 1 0; ShLin 1%nat 1 1; ShLin 2%nat 1 0], [ShLin 0%nat 1 0; ShLin 1%nat 1 1; ShLin 2%nat 1 0], Some QST_e821);
  (42, 42, [ShLin 0%nat 1 0; ShLin 1%nat 1 3; ShLin 2%nat 1 0], [ShLin 0%nat 1 0; ShLin 1%nat 1 1; ShLin 2%nat 1 0], Some QST_e822);
  (43, 43, [ShLin 0%nat 1 (-1); ShLin 1%nat 1 0; ShLin 2%nat 1 0], [ShLin 0%nat 1 (-1); ShLin 1%nat 1 (-2); ShLin 2%nat 1 0], Some (cN 1));
  (44, 44, [ShLin 0%nat 1 (-1); ShLin 1%nat 1 0; ShLin 2%nat 1 (-2)], [ShLin 0%nat 1 (-1); ShLin 1%nat 1 (-2); ShLin 2%nat 1 (-2)], Some (cN 1));
  (45, 45, [ShLin 0%nat 1 (-1); ShLin 1%nat 1 0; ShLin 2%nat 1 (-1)], [ShLin 0%nat 1 (-1); ShLin 1%nat 1 (-2); ShLin 2%nat 1 (-1)], Some (cN 1));
  (46, 46, [ShLin 0%nat 1 (-1); ShLin 1%nat 1 0; ShLin 2%nat 1 0], [ShLin 0%nat 1 (-1); ShLin 1%nat 1 (-2); ShLin 2%nat 1 0], Some (cN 1));
  (47, 47, [ShLin 0%nat 1 (-1); ShLin 1%nat 1 0; ShLin 2%nat 1 1], [ShLin 0%nat 1 (-1); ShLin 1%nat 1 (-2); ShLin 2%nat 1 1], Some (cN 1));
  (48, 48, [ShLin 0%nat 1 (-1); ShLin 1%nat 1 0; ShLin 2%nat 1 2], [ShLin 0%nat 1 (-1); ShLin 1%nat 1 (-2); ShLin 2%nat 1 2], Some (cN 1));
  (49, 49, [ShLin 0%nat 1 (-1); ShLin 1%nat 1 (-2); ShLin 2%nat 1 (-1)], [ShLin 0%nat 1 (-1); ShLin 1%nat 1 (-4); ShLin 2%nat 1 (-1)], Some (cN 1));
  (49, 52, [ShLin 0%nat 1 (-1); ShLin 1%nat 1 (-2); ShLin 2%nat 1 (-1)], [ShLin 0%nat 1 (-1); ShLin 1%nat 1 (-2); ShLin 2%nat 1 (-1)], Some QST_e809);
  (49, 55, [ShLin 0%nat 1 (-1); ShLin 1%nat 1 (-2); ShLin 2%nat 1 (-1)], [ShLin 0%nat 1 (-1); ShLin 1%nat 1 0; ShLin 2%nat 1 (-1)], Some QST_e810);
  (50, 50, [ShLin 0%nat 1 (-1); ShLin 1%nat 1 (-2); ShLin 2%nat 1 0], [ShLin 0%nat 1 (-1); ShLin 1%nat 1 (-4); ShLin 2%nat 1 0], Some (cN 1));
  (50, 53, [ShLin 0%nat 1 (-1); ShLin 1%nat 1 (-2); ShLin 2%nat 1 0], [ShLin 0%nat 1 (-1); ShLin 1%nat 1 (-2); ShLin 2%nat 1 0], Some QST_e809);
  (50, 56, [ShLin 0%nat 1 (-1); ShLin 1%nat 1 (-2); ShLin 2%nat 1 0], [ShLin 0%nat 1 (-1); ShLin 1%nat 1 0; ShLin 2%nat 1 0], Some QST_e810);
  (51, 51, [ShLin 0%nat 1 (-1); ShLin 1%nat 1 (-2); ShLin 2%nat 1 1], [ShLin 0%nat 1 (-1); ShLin 1%nat 1 (-4); ShLin 2%nat 1 1], Some (cN 1));
  (51, 54, [ShLin 0%nat 1 (-1); ShLin 1%nat 1 (-2); ShLin 2%nat 1 1], [ShLin 0%nat 1 (-1); ShLin 1%nat 1 (-2); ShLin 2%nat 1 1], Some QST_e809);
  (51, 57, [ShLin 0%nat 1 (-1); ShLin 1%nat 1 (-2); ShLin 2%nat 1 1], [ShLin 0%nat 1 (-1); ShLin 1%nat 1 0; ShLin 2%nat 1 1], Some QST_e810);
  (52, 52, [ShLin 0%nat 1 (-1); ShLin 1%nat 1 0; ShLin 2%nat 1 (-1)], [ShLin 0%nat 1 (-1); ShLin 1%nat 1 (-2); ShLin 2%nat 1 (-1)], Some QST_e765);
  (52, 55, [ShLin 0%nat 1 (-1); ShLin 1%nat 1 0; ShLin 2%nat 1 (-1)], [ShLin 0%nat 1 (-1); ShLin 1%nat 1 0; ShLin 2%nat 1 (-1)], Some QST_e767);
  (53, 53, [ShLin 0%nat 1 (-1); ShLin 1%nat 1 0; ShLin 2%nat 1 0], [ShLin 0%nat 1 (-1); ShLin 1%nat 1 (-2); ShLin 2%nat 1 0], Some QST_e765);
  (53, 56, [ShLin 0%nat 1 (-1); ShLin 1%nat 1 0; ShLin 2%nat 1 0], [ShLin 0%nat 1 (-1); ShLin 1%nat 1 0; ShLin 2%nat 1 0], Some QST_e767);
  (54, 54, [ShLin 0%nat 1 (-1); ShLin 1%nat 1 0; ShLin 2%nat 1 1], [ShLin 0%nat 1 (-1); ShLin 1%nat 1 (-2); ShLin 2%nat 1 1], Some QST_e765);
  (54, 57, [ShLin 0%nat 1 (-1); ShLin 1%nat 1 0; ShLin 2%nat 1 1], [ShLin 0%nat 1 (-1); ShLin 1%nat 1 0; ShLin 2%nat 1 1], Some QST_e811);
  (55, 55, [ShLin 0%nat 1 (-1); ShLin 1%nat 1 2; ShLin 2%nat 1 (-1)], [ShLin 0%nat 1 (-1); ShLin 1%nat 1 0; ShLin 2%nat 1 (-1)], Some QST_e812);
  (56, 56, [ShLin 0%nat 1 (-1); ShLin 1%nat 1 2; ShLin 2%nat 1 0], [ShLin 0%nat 1 (-1); ShLin 1%nat 1 0; ShLin 2%nat 1 0], Some QST_e812);
  (57, 57, [ShLin 0%nat 1 (-1); ShLin 1%nat 1 2; ShLin 2%nat 1 1], [ShLin 0%nat 1 (-1); ShLin 1%nat 1 0; ShLin 2%nat 1 1], Some QST_e791);
  (58, 58, [ShLin 0%nat 1 (-2); ShLin 1%nat 1 (-1); ShLin 2%nat 1 (-1)], [ShLin 0%nat 1 (-2); ShLin 1%nat 1 (-3); ShLin 2%nat 1 (-1)], Some (cN 1));
  (58, 61, [ShLin 0%nat 1 (-2); ShLin 1%nat 1 (-1); ShLin 2%nat 1 (-1)], [ShLin 0%nat 1 (-2); ShLin 1%nat 1 (-1); ShLin 2%nat 1 (-1)], Some QST_e105);
  (59, 59, [ShLin 0%nat 1 (-2); ShLin 1%nat 1 (-1); ShLin 2%nat 1 0], [ShLin 0%nat 1 (-2); ShLin 1%nat 1 (-3); ShLin 2%nat 1 0], Some (cN 1));
  (59, 62, [ShLin 0%nat 1 (-2); ShLin 1%nat 1 (-1); ShLin 2%nat 1 0], [ShLin 0%nat 1 (-2); ShLin 1%nat 1 (-1); ShLin 2%nat 1 0], Some QST_e105);
  (60, 60, [ShLin 0%nat 1 (-2); ShLin 1%nat 1 (-1); ShLin 2%nat 1 1], [ShLin 0%nat 1 (-2); ShLin 1%nat 1 (-3); ShLin 2%nat 1 1], Some (cN 1));
  (60, 63, [ShLin 0%nat 1 (-2); ShLin 1%nat 1 (-1); ShLin 2%nat 1 1], [ShLin 0%nat 1 (-2); ShLin 1%nat 1 (-1); ShLin 2%nat 1 1], Some QST_e105);
  (61, 61, [ShLin 0%nat 1 (-2); ShLin 1%nat 1 1; ShLin 2%nat 1 (-1)], [ShLin 0%nat 1 (-2); ShLin 1%nat 1 (-1); ShLin 2%nat 1 (-1)], Some QST_e357);
  (62, 62, [ShLin 0%nat 1 (-2); ShLin 1%nat 1 1; ShLin 2%nat 1 0], [ShLin 0%nat 1 (-2); ShLin 1%nat 1 (-1); ShLin 2%nat 1 0], Some QST_e808);
  (63, 63, [ShLin 0%nat 1 (-2); ShLin 1%nat 1 1; ShLin 2%nat 1 1], [ShLin 0%nat 1 (-2); ShLin 1%nat 1 (-1); ShLin 2%nat 1 1], Some QST_e357);
  (64, 64, [ShLin 0%nat 1 (-3); ShLin 1%nat 1 0; ShLin 2%nat 1 0], [ShLin 0%nat 1 (-3); ShLin 1%nat 1 (-2); ShLin 2%nat 1 0], Some (cN 1))].
(** /repo/c++/symmetry/nrg-recalc-QST.hpp recalc_orb_triplet, qst/qst-orb-triplets.dat *)
Definition qst_t15 : ten_table := mk_ten "orb_triplet" [ShLin 0%nat 1 0; ShLin 1%nat 1 0; ShLin 2%nat 1 0] [0; 1; 1] [
  (1, 1, [ShLin 0%nat 1 3; ShLin 1%nat 1 0; ShLin 2%nat 1 0], [ShLin 0%nat 1 3; ShLin 1%nat 1 0; ShLin 2%nat 1 0], Some (cN 1));
  (2, 2, [ShLin 0%nat 1 2; ShLin 1%nat 1 (-1); ShLin 2%nat 1 (-1)], [ShLin 0%nat 1 2; ShLin 1%nat 1 (-1); ShLin 2%nat 1 (-1)], Some QST_e51);
  (2, 3, [ShLin 0%nat 1 2; ShLin 1%nat 1 (-1); ShLin 2%nat 1 (-1)], [ShLin 0%nat 1 2; ShLin 1%nat 1 (-1); ShLin 2%nat 1 0], Some QST_e271);
  (3, 2, [ShLin 0%nat 1 2; ShLin 1%nat 1 (-1); ShLin 2%nat 1 0], [ShLin 0%nat 1 2; ShLin 1%nat 1 (-1); ShLin 2%nat 1 (-1)], Some (cO (cD (cN 1) (cV 2))));
  (3, 3, [ShLin 0%nat 1 2; ShLin 1%nat 1 (-1); ShLin 2%nat 1 0], [ShLin 0%nat 1 2; ShLin 1%nat 1 (-1); ShLin 2%nat 1 0], Some QST_e217);
  (3, 4, [ShLin 0%nat 1 2; ShLin 1%nat 1 (-1); ShLin 2%nat 1 0], [ShLin 0%nat 1 2; ShLin 1%nat 1 (-1); ShLin 2%nat 1 1], Some QST_e218);
  (4, 3, [ShLin 0%nat 1 2; ShLin 1%nat 1 (-1); ShLin 2%nat 1 1], [ShLin 0%nat 1 2; ShLin 1%nat 1 (-1); ShLin 2%nat 1 0], Some QST_e276);
  (4, 4, [ShLin 0%nat 1 2; ShLin 1%nat 1 (-1); ShLin 2%nat 1 1], [ShLin 0%nat 1 2; ShLin 1%nat 1 (-1); ShLin 2%nat 1 1], Some QST_e277);
  (5, 5, [ShLin 0%nat 1 2; ShLin 1%nat 1 1; ShLin 2%nat 1 (-1)], [ShLin 0%nat 1 2; ShLin 1%nat 1 1; ShLin 2%nat 1 (-1)], Some QST_e51);
  (5, 6, [ShLin 0%nat 1 2; ShLin 1%nat 1 1; ShLin 2%nat 1 (-1)], [ShLin 0%nat 1 2; ShLin 1%nat 1 1; ShLin 2%nat 1 0], Some QST_e108);
  (6, 5, [ShLin 0%nat 1 2; ShLin 1%nat 1 1; ShLin 2%nat 1 0], [ShLin 0%nat 1 2; ShLin 1%nat 1 1; ShLin 2%nat 1 (-1)], Some (cO (cD (cN 1) (cV 2))));
  (6, 6, [ShLin 0%nat 1 2; ShLin 1%nat 1 1; ShLin 2%nat 1 0], [ShLin 0%nat 1 2; ShLin 1%nat 1 1; ShLin 2%nat 1 0], Some QST_e217);
  (6, 7, [ShLin 0%nat 1 2; ShLin 1%nat 1 1; ShLin 2%nat 1 0], [ShLin 0%nat 1 2; ShLin 1%nat 1 1; ShLin 2%nat 1 1], Some QST_e218);
  (7, 6, [ShLin 0%nat 1 2; ShLin 1%nat 1 1; ShLin 2%nat 1 1], [ShLin 0%nat 1 2; ShLin 1%nat 1 1; ShLin 2%nat 1 0], Some QST_e276);
  (7, 7, [ShLin 0%nat 1 2; ShLin 1%nat 1 1; ShLin 2%nat 1 1], [ShLin 0%nat 1 2; ShLin 1%nat 1 1; ShLin 2%nat 1 1], Some QST_e277);
  (8, 8, [ShLin 0%nat 1 1; ShLin 1%nat 1 0; ShLin 2%nat 1 0], [ShLin 0%nat 1 1; ShLin 1%nat 1 0; ShLin 2%nat 1 0], Some (cN 1));
  (9, 9, [ShLin 0%nat 1 1; ShLin 1%nat 1 0; ShLin 2%nat 1 (-2)], [ShLin 0%nat 1 1; ShLin 1%nat 1 0; ShLin 2%nat 1 (-2)], Some QST_e181);
  (9, 10, [ShLin 0%nat 1 1; ShLin 1%nat 1 0; ShLin 2%nat 1 (-2)], [ShLin 0%nat 1 1; ShLin 1%nat 1 0; ShLin 2%nat 1 (-1)], Some QST_e182);
  (10, 9, [ShLin 0%nat 1 1; ShLin 1%nat 1 0; ShLin 2%nat 1 (-1)], [ShLin 0%nat 1 1; ShLin 1%nat 1 0; ShLin 2%nat 1 (-2)], Some QST_e68);
  (10, 10, [ShLin 0%nat 1 1; ShLin 1%nat 1 0; ShLin 2%nat 1 (-1)], [ShLin 0%nat 1 1; ShLin 1%nat 1 0; ShLin 2%nat 1 (-1)], Some QST_e183);
  (10, 11, [ShLin 0%nat 1 1; ShLin 1%nat 1 0; ShLin 2%nat 1 (-1)], [ShLin 0%nat 1 1; ShLin 1%nat 1 0; ShLin 2%nat 1 0], Some QST_e22);
  (11, 10, [ShLin 0%nat 1 1; ShLin 1%nat 1 0; ShLin 2%nat 1 0], [ShLin 0%nat 1 1; ShLin 1%nat 1 0; ShLin 2%nat 1 (-1)], Some QST_e184);
  (11, 11, [ShLin 0%nat 1 1; ShLin 1%nat 1 0; ShLin 2%nat 1 0], [ShLin 0%nat 1 1; ShLin 1%nat 1 0; ShLin 2%nat 1 0], Some QST_e185);
  (11, 12, [ShLin 0%nat 1 1; ShLin 1%nat 1 0; ShLin 2%nat 1 0], [ShLin 0%nat 1 1; ShLin 1%nat 1 0; ShLin 2%nat 1 1], Some QST_e186);
  (12, 11, [ShLin 0%nat 1 1; ShLin 1%nat 1 0; ShLin 2%nat 1 1], [ShLin 0%nat 1 1; ShLin 1%nat 1 0; ShLin 2%nat 1 0], Some QST_e187);
  (12, 12, [ShLin 0%nat 1 1; ShLin 1%nat 1 0; ShLin 2%nat 1 1], [ShLin 0%nat 1 1; ShLin 1%nat 1 0; ShLin 2%nat 1 1], Some QST_e188);
  (12, 13, [ShLin 0%nat 1 1; ShLin 1%nat 1 0; ShLin 2%nat 1 1], [ShLin 0%nat 1 1; ShLin 1%nat 1 0; ShLin 2%nat 1 2], Some QST_e189);
  (13, 12, [ShLin 0%nat 1 1; ShLin 1%nat 1 0; ShLin 2%nat 1 2], [ShLin 0%nat 1 1; ShLin 1%nat 1 0; ShLin 2%nat 1 1], Some QST_e190);
  (13, 13, [ShLin 0%nat 1 1; ShLin 1%nat 1 0; ShLin 2%nat 1 2], [ShLin 0%nat 1 1; ShLin 1%nat 1 0; ShLin 2%nat 1 2], Some QST_e191);
  (14, 14, [ShLin 0%nat 1 1; ShLin 1%nat 1 (-2); ShLin 2%nat 1 (-1)], [ShLin 0%nat 1 1; ShLin 1%nat 1 (-2); ShLin 2%nat 1 (-1)], Some QST_e51);
  (14, 15, [ShLin 0%nat 1 1; ShLin 1%nat 1 (-2); ShLin 2%nat 1 (-1)], [ShLin 0%nat 1 1; ShLin 1%nat 1 (-2); ShLin 2%nat 1 0], Some QST_e271);
  (15, 14, [ShLin 0%nat 1 1; ShLin 1%nat 1 (-2); ShLin 2%nat 1 0], [ShLin 0%nat 1 1; ShLin 1%nat 1 (-2); ShLin 2%nat 1 (-1)], Some (cO (cD (cN 1) (cV 2))));
  (15, 15, [ShLin 0%nat 1 1; ShLin 1%nat 1 (-2); ShLin 2%nat 1 0], [ShLin 0%nat 1 1; ShLin 1%nat 1 (-2); ShLin 2%nat 1 0], Some QST_e217);
  (15, 16, [ShLin 0%nat 1 1; ShLin 1%nat 1 (-2); ShLin 2%nat 1 0], [ShLin 0%nat 1 1; ShLin 1%nat 1 (-2); ShLin 2%nat 1 1], Some QST_e218);
  (16, 15, [ShLin 0%nat 1 1; ShLin 1%nat 1 (-2); ShLin 2%nat 1 1], [ShLin 0%nat 1 1; ShLin 1%nat 1 (-2); ShLin 2%nat 1 0], Some QST_e276);
  (16, 16, [ShLin 0%nat 1 1; ShLin 1%nat 1 (-2); ShLin 2%nat 1 1], [ShLin 0%nat 1 1; ShLin 1%nat 1 (-2); ShLin 2%nat 1 1], Some QST_e277);
  (17, 17, [ShLin 0%nat 1 1; ShLin 1%nat 1 0; ShLin 2%nat 1 (-1)], [ShLin 0%nat 1 1; ShLin 1%nat 1 0; ShLin 2%nat 1 (-1)], Some QST_e51);
  (17, 18, [ShLin 0%nat 1 1; ShLin 1%nat 1 0; ShLin 2%nat 1 (-1)], [ShLin 0%nat 1 1; ShLin 1%nat 1 0; ShLin 2%nat 1 0], Some QST_e108);
  (18, 17, [ShLin 0%nat 1 1; ShLin 1%nat 1 0; ShLin 2%nat 1 0], [ShLin 0%nat 1 1; ShLin 1%nat 1 0; ShLin 2%nat 1 (-1)], Some (cO (cD (cN 1) (cV 2))));
  (18, 18, [ShLin 0%nat 1 1; ShLin 1%nat 1 0; ShLin 2%nat 1 0], [ShLin 0%nat 1 1; ShLin 1%nat 1 0; ShLin 2%nat 1 0], Some QST_e217);
  (18, 19, [ShLin 0%nat 1 1; ShLin 1%nat 1 0; ShLin 2%nat 1 0], [ShLin 0%nat 1 1; ShLin 1%nat 1 0; ShLin 2%nat 1 1], Some QST_e218);
  (19, 18, [ShLin 0%nat 1 1; ShLin 1%nat 1 0; ShLin 2%nat 1 1], [ShLin 0%nat 1 1; ShLin 1%nat 1 0; ShLin 2%nat 1 0], Some QST_e276);
  (19, 19, [ShLin 0%nat 1 1; ShLin 1%nat 1 0; ShLin 2%nat 1 1], [ShLin 0%nat 1 1; ShLin 1%nat 1 0; ShLin 2%nat 1 1], Some QST_e823);
  (20, 20, [ShLin 0%nat 1 1; ShLin 1%nat 1 2; ShLin 2%nat 1 (-1)], [ShLin 0%nat 1 1; ShLin 1%nat 1 2; ShLin 2%nat 1 (-1)], Some QST_e824);
  (20, 21, [ShLin 0%nat 1 1; ShLin 1%nat 1 2; ShLin 2%nat 1 (-1)], [ShLin 0%nat 1 1; ShLin 1%nat 1 2; ShLin 2%nat 1 0], Some QST_e825);
  (21, 20, [ShLin 0%nat 1 1; ShLin 1%nat 1 2; ShLin 2%nat 1 0], [ShLin 0%nat 1 1; ShLin 1%nat 1 2; ShLin 2%nat 1 (-1)], Some (cO (cD (cN 1) (cV 2))));
  (21, 21, [ShLin 0%nat 1 1; ShLin 1%nat 1 2; ShLin 2%nat 1 0], [ShLin 0%nat 1 1; ShLin 1%nat 1 2; ShLin 2%nat 1 0], Some QST_e217);
  (21, 22, [ShLin 0%nat 1 1; ShLin 1%nat 1 2; ShLin 2%nat 1 0], [ShLin 0%nat 1 1; ShLin 1%nat 1 2; ShLin 2%nat 1 1], Some QST_e218);
  (22, 21, [ShLin 0%nat 1 1; ShLin 1%nat 1 2; ShLin 2%nat 1 1], [ShLin 0%nat 1 1; ShLin 1%nat 1 2; ShLin 2%nat 1 0], Some QST_e276);
  (22, 22, [ShLin 0%nat 1 1; ShLin 1%nat 1 2; ShLin 2%nat 1 1], [ShLin 0%nat 1 1; ShLin 1%nat 1 2; ShLin 2%nat 1 1], Some QST_e277);
  (23, 23, [ShLin 0%nat 1 0; ShLin 1%nat 1 (-1); ShLin 2%nat 1 (-1)], [ShLin 0%nat 1 0; ShLin 1%nat 1 (-1); ShLin 2%nat 1 (-1)], Some QST_e51);
  (23, 24, [ShLin 0%nat 1 0; ShLin 1%nat 1 (-1); ShLin 2%nat 1 (-1)], [ShLin 0%nat 1 0; ShLin 1%nat 1 (-1); ShLin 2%nat 1 0], Some QST_e271);
  (24, 23, [ShLin 0%nat 1 0; ShLin 1%nat 1 (-1); ShLin 2%nat 1 0], [ShLin 0%nat 1 0; ShLin 1%nat 1 (-1); ShLin 2%nat 1 (-1)], Some (cO (cD (cN 1) (cV 2))));
  (24, 24, [ShLin 0%nat 1 0; ShLin 1%nat 1 (-1); ShLin 2%nat 1 0], [ShLin 0%nat 1 0; ShLin 1%nat 1 (-1); ShLin 2%nat 1 0], Some QST_e217);
  (24, 25, [ShLin 0%nat 1 0; ShLin 1%nat 1 (-1); ShLin 2%nat 1 0], [ShLin 0%nat 1 0; ShLin 1%nat 1 (-1); ShLin 2%nat 1 1], Some QST_e218);
  (25, 24, [ShLin 0%nat 1 0; ShLin 1%nat 1 (-1); ShLin 2%nat 1 1], [ShLin 0%nat 1 0; ShLin 1%nat 1 (-1); ShLin 2%nat 1 0], Some QST_e276);
  (25, 25, [ShLin 0%nat 1 0; ShLin 1%nat 1 (-1); ShLin 2%nat 1 1], [ShLin 0%nat 1 0; ShLin 1%nat 1 (-1); ShLin 2%nat 1 1], Some QST_e277);
  (26, 26, [ShLin 0%nat 1 0; ShLin 1%nat 1 1; ShLin 2%nat 1 (-1)], [ShLin 0%nat 1 0; ShLin 1%nat 1 1; ShLin 2%nat 1 (-1)], Some QST_e51);
  (26, 27, [ShLin 0%nat 1 0; ShLin 1%nat 1 1; ShLin 2%nat 1 (-1)], [ShLin 0%nat 1 0; ShLin 1%nat 1 1; ShLin 2%nat 1 0], Some QST_e108);
  (27, 26, [ShLin 0%nat 1 0; ShLin 1%nat 1 1; ShLin 2%nat 1 0], [ShLin 0%nat 1 0; ShLin 1%nat 1 1; ShLin 2%nat 1 (-1)], Some (cO (cD (cN 1) (cV 2))));
  (27, 27, [ShLin 0%nat 1 0; ShLin 1%nat 1 1; ShLin 2%nat 1 0], [ShLin 0%nat 1 0; ShLin 1%nat 1 1; ShLin 2%nat 1 0], Some QST_e217);
  (27, 28, [ShLin 0%nat 1 0; ShLin 1%nat 1 1; ShLin 2%nat 1 0], [ShLin 0%nat 1 0; ShLin 1%nat 1 1; ShLin 2%nat 1 1], Some QST_e218);
  (28, 27, [ShLin 0%nat 1 0; ShLin 1%nat 1 1; ShLin 2%nat 1 1], [ShLin 0%nat 1 0; ShLin 1%nat 1 1; ShLin 2%nat 1 0], Some QST_e276);
  (28, 28, [ShLin 0%nat 1 0; ShLin 1%nat 1 1; ShLin 2%nat 1 1], [ShLin 0%nat 1 0; ShLin 1%nat 1 1; ShLin 2%nat 1 1], Some QST_e277);
  (29, 29, [ShLin 0%nat 1 0; ShLin 1%nat 1 (-1); ShLin 2%nat 1 (-2)], [ShLin 0%nat 1 0; ShLin 1%nat 1 (-1); ShLin 2%nat 1 (-2)], Some QST_e181);
  (29, 30, [ShLin 0%nat 1 0; ShLin 1%nat 1 (-1); ShLin 2%nat 1 (-2)], [ShLin 0%nat 1 0; ShLin 1%nat 1 (-1); ShLin 2%nat 1 (-1)], Some QST_e182);
  (30, 29, [ShLin 0%nat 1 0; ShLin 1%nat 1 (-1); ShLin 2%nat 1 (-1)], [ShLin 0%nat 1 0; ShLin 1%nat 1 (-1); ShLin 2%nat 1 (-2)], Some QST_e68);
  (30, 30, [ShLin 0%nat 1 0; ShLin 1%nat 1 (-1); ShLin 2%nat 1 (-1)], [ShLin 0%nat 1 0; ShLin 1%nat 1 (-1); ShLin 2%nat 1 (-1)], Some QST_e183);
  (30, 31, [ShLin 0%nat 1 0; ShLin 1%nat 1 (-1); ShLin 2%nat 1 (-1)], [ShLin 0%nat 1 0; ShLin 1%nat 1 (-1); ShLin 2%nat 1 0], Some QST_e22);
  (31, 30, [ShLin 0%nat 1 0; ShLin 1%nat 1 (-1); ShLin 2%nat 1 0], [ShLin 0%nat 1 0; ShLin 1%nat 1 (-1); ShLin 2%nat 1 (-1)], Some QST_e184);
  (31, 31, [ShLin 0%nat 1 0; ShLin 1%nat 1 (-1); ShLin 2%nat 1 0], [ShLin 0%nat 1 0; ShLin 1%nat 1 (-1); ShLin 2%nat 1 0], Some QST_e185);
  (31, 32, [ShLin 0%nat 1 0; ShLin 1%nat 1 (-1); ShLin 2%nat 1 0], [ShLin 0%nat 1 0; ShLin 1%nat 1 (-1); ShLin 2%nat 1 1], Some QST_e186);
  (32, 31, [ShLin 0%nat 1 0; ShLin 1%nat 1 (-1); ShLin 2%nat 1 1], [ShLin 0%nat 1 0; ShLin 1%nat 1 (-1); ShLin 2%nat 1 0], Some QST_e187);
  (32, 32, [ShLin 0%nat 1 0; ShLin 1%nat 1 (-1); ShLin 2%nat 1 1], [ShLin 0%nat 1 0; ShLin 1%nat 1 (-1); ShLin 2%nat 1 1], Some QST_e188);
  (32, 33, [ShLin 0%nat 1 0; ShLin 1%nat 1 (-1); ShLin 2%nat 1 1], [ShLin 0%nat 1 0; ShLin 1%nat 1 (-1); ShLin 2%nat 1 2], Some QST_e189);
  (33, 32, [ShLin 0%nat 1 0; ShLin 1%nat 1 (-1); ShLin 2%nat 1 2], [ShLin 0%nat 1 0; ShLin 1%nat 1 (-1); ShLin 2%nat 1 1], Some QST_e826);
  (33, 33, [ShLin 0%nat 1 0; ShLin 1%nat 1 (-1); ShLin 2%nat 1 2], [ShLin 0%nat 1 0; ShLin 1%nat 1 (-1); ShLin 2%nat 1 2], Some QST_e350);
  (34, 34, [ShLin 0%nat 1 0; ShLin 1%nat 1 1; ShLin 2%nat 1 (-2)], [ShLin 0%nat 1 0; ShLin 1%nat 1 1; ShLin 2%nat 1 (-2)], Some QST_e181);
  (34, 35, [ShLin 0%nat 1 0; ShLin 1%nat 1 1; ShLin 2%nat 1 (-2)], [ShLin 0%nat 1 0; ShLin 1%nat 1 1; ShLin 2%nat 1 (-1)], Some QST_e827);
  (35, 34, [ShLin 0%nat 1 0; ShLin 1%nat 1 1; ShLin 2%nat 1 (-1)], [ShLin 0%nat 1 0; ShLin 1%nat 1 1; ShLin 2%nat 1 (-2)], Some QST_e68);
  (35, 35, [ShLin 0%nat 1 0; ShLin 1%nat 1 1; ShLin 2%nat 1 (-1)], [ShLin 0%nat 1 0; ShLin 1%nat 1 1; ShLin 2%nat 1 (-1)], Some QST_e828);
  (35, 36, [ShLin 0%nat 1 0; ShLin 1%nat 1 1; ShLin 2%nat 1 (-1)], [ShLin 0%nat 1 0; ShLin 1%nat 1 1; ShLin 2%nat 1 0], Some QST_e829);
  (36, 35, [ShLin 0%nat 1 0; ShLin 1%nat 1 1; ShLin 2%nat 1 0], [ShLin 0%nat 1 0; ShLin 1%nat 1 1; ShLin 2%nat 1 (-1)], Some QST_e184);
  (36, 36, [ShLin 0%nat 1 0; ShLin 1%nat 1 1; ShLin 2%nat 1 0], [ShLin 0%nat 1 0; ShLin 1%nat 1 1; ShLin 2%nat 1 0], Some QST_e185);
  (36, 37, [ShLin 0%nat 1 0; ShLin 1%nat 1 1; ShLin 2%nat 1 0], [ShLin 0%nat 1 0; ShLin 1%nat 1 1; ShLin 2%nat 1 1], Some QST_e830);
  (37, 36, [ShLin 0%nat 1 0; ShLin 1%nat 1 1; ShLin 2%nat 1 1], [ShLin 0%nat 1 0; ShLin 1%nat 1 1; ShLin 2%nat 1 0], Some QST_e831);
  (37, 37, [ShLin 0%nat 1 0; ShLin 1%nat 1 1; ShLin 2%nat 1 1], [ShLin 0%nat 1 0; ShLin 1%nat 1 1; ShLin 2%nat 1 1], Some QST_e188);
  (37, 38, [ShLin 0%nat 1 0; ShLin 1%nat 1 1; ShLin 2%nat 1 1], [ShLin 0%nat 1 0; ShLin 1%nat 1 1; ShLin 2%nat 1 2], Some QST_e832);
  (38, 37, [ShLin 0%nat 1 0; ShLin 1%nat 1 1; ShLin 2%nat 1 2], [ShLin 0%nat 1 0; ShLin 1%nat 1 1; ShLin 2%nat 1 1], Some QST_e833);
  (38, 38, [ShLin 0%nat 1 0; ShLin 1%nat 1 1; ShLin 2%nat 1 2], [ShLin 0%nat 1 0; ShLin 1%nat 1 1; ShLin 2%nat 1 2], Some QST_e834);
  (39, 39, [ShLin 0%nat 1 0; ShLin 1%nat 1 (-3); ShLin 2%nat 1 0], [ShLin 0%nat 1 0; ShLin 1%nat 1 (-3); ShLin 2%nat 1 0], Some (cN 1));
  (40, 40, [ShLin 0%nat 1 0; ShLin 1%nat 1 (-1); ShLin 2%nat 1 0], [ShLin 0%nat 1 0; ShLin 1%nat 1 (-1); ShLin 2%nat 1 0], Some (cN 1));
  (41, 41, [ShLin 0%nat 1 0; ShLin 1%nat 1 1; ShLin 2%nat 1 0], [ShLin 0%nat 1 0; ShLin 1%nat 1 1; ShLin 2%nat 1 0], Some (cN 1));
  (42, 42, [ShLin 0%nat 1 0; ShLin 1%nat 1 3; ShLin 2%nat 1 0], [ShLin 0%nat 1 0; ShLin 1%nat 1 3; ShLin 2%nat 1 0], Some (cN 1));
  (43, 43, [ShLin 0%nat 1 (-1); ShLin 1%nat 1 0; ShLin 2%nat 1 0], [ShLin 0%nat 1 (-1); ShLin 1%nat 1 0; ShLin 2%nat 1 0], Some (cN 1));
  (44, 44, [ShLin 0%nat 1 (-1); ShLin 1%nat 1 0; ShLin 2%nat 1 (-2)], [ShLin 0%nat 1 (-1); ShLin 1%nat 1 0; ShLin 2%nat 1 (-2)], Some QST_e181);
  (44, 45, [ShLin 0%nat 1 (-1); ShLin 1%nat 1 0; ShLin 2%nat 1 (-2)], [ShLin 0%nat 1 (-1); ShLin 1%nat 1 0; ShLin 2%nat 1 (-1)], Some QST_e182);
  (45, 44, [ShLin 0%nat 1 (-1); ShLin 1%nat 1 0; ShLin 2%nat 1 (-1)], [ShLin 0%nat 1 (-1); ShLin 1%nat 1 0; ShLin 2%nat 1 (-2)], Some QST_e68);
  (45, 45, [ShLin 0%nat 1 (-1); ShLin 1%nat 1 0; ShLin 2%nat 1 (-1)], [ShLin 0%nat 1 (-1); ShLin 1%nat 1 0; ShLin 2%nat 1 (-1)], Some QST_e183);
  (45, 46, [ShLin 0%nat 1 (-1); ShLin 1%nat 1 0; ShLin 2%nat 1 (-1)], [ShLin 0%nat 1 (-1); ShLin 1%nat 1 0; ShLin 2%nat 1 0], Some QST_e22);
  (46, 45, [ShLin 0%nat 1 (-1); ShLin 1%nat 1 0; ShLin 2%nat 1 0], [ShLin 0%nat 1 (-1); ShLin 1%nat 1 0; ShLin 2%nat 1 (-1)], Some QST_e184);
  (46, 46, [ShLin 0%nat 1 (-1); ShLin 1%nat 1 0; ShLin 2%nat 1 0], [ShLin 0%nat 1 (-1); ShLin 1%nat 1 0; ShLin 2%nat 1 0], Some QST_e185);
  (46, 47, [ShLin 0%nat 1 (-1); ShLin 1%nat 1 0; ShLin 2%nat 1 0], [ShLin 0%nat 1 (-1); ShLin 1%nat 1 0; ShLin 2%nat 1 1], Some QST_e186);
  (47, 46, [ShLin 0%nat 1 (-1); ShLin 1%nat 1 0; ShLin 2%nat 1 1], [ShLin 0%nat 1 (-1); ShLin 1%nat 1 0; ShLin 2%nat 1 0], Some QST_e187);
  (47, 47, [ShLin 0%nat 1 (-1); ShLin 1%nat 1 0; ShLin 2%nat 1 1], [ShLin 0%nat 1 (-1); ShLin 1%nat 1 0; ShLin 2%nat 1 1], Some QST_e188);
  (47, 48, [ShLin 0%nat 1 (-1); ShLin 1%nat 1 0; ShLin 2%nat 1 1], [ShLin 0%nat 1 (-1); ShLin 1%nat 1 0; ShLin 2%nat 1 2], Some QST_e189);
  (48, 47, [ShLin 0%nat 1 (-1); ShLin 1%nat 1 0; ShLin 2%nat 1 2], [ShLin 0%nat 1 (-1); ShLin 1%nat 1 0; ShLin 2%nat 1 1], Some QST_e190);
  (48, 48, [ShLin 0%nat 1 (-1); ShLin 1%nat 1 0; ShLin 2%nat 1 2], [ShLin 0%nat 1 (-1); ShLin 1%nat 1 0; ShLin 2%nat 1 2], Some QST_e191);
  (49, 49, [ShLin 0%nat 1 (-1); ShLin 1%nat 1 (-2); ShLin 2%nat 1 (-1)], [ShLin 0%nat 1 (-1); ShLin 1%nat 1 (-2); ShLin 2%nat 1 (-1)], Some QST_e51);
  (49, 50, [ShLin 0%nat 1 (-1); ShLin 1%nat 1 (-2); ShLin 2%nat 1 (-1)], [ShLin 0%nat 1 (-1); ShLin 1%nat 1 (-2); ShLin 2%nat 1 0], Some QST_e271);
  (50, 49, [ShLin 0%nat 1 (-1); ShLin 1%nat 1 (-2); ShLin 2%nat 1 0], [ShLin 0%nat 1 (-1); ShLin 1%nat 1 (-2); ShLin 2%nat 1 (-1)], Some (cO (cD (cN 1) (cV 2))));
  (50, 50, [ShLin 0%nat 1 (-1); ShLin 1%nat 1 (-2); ShLin 2%nat 1 0], [ShLin 0%nat 1 (-1); ShLin 1%nat 1 (-2); ShLin 2%nat 1 0], Some QST_e217);
  (50, 51, [ShLin 0%nat 1 (-1); ShLin 1%nat 1 (-2); ShLin 2%nat 1 0], [ShLin 0%nat 1 (-1); ShLin 1%nat 1 (-2); ShLin 2%nat 1 1], Some QST_e218);
  (51, 50, [ShLin 0%nat 1 (-1); ShLin 1%nat 1 (-2); ShLin 2%nat 1 1], [ShLin 0%nat 1 (-1); ShLin 1%nat 1 (-2); ShLin 2%nat 1 0], Some QST_e276);
  (51, 51, [ShLin 0%nat 1 (-1); ShLin 1%nat 1 (-2); ShLin 2%nat 1 1], [ShLin 0%nat 1 (-1); ShLin 1%nat 1 (-2); ShLin 2%nat 1 1], Some QST_e277);
  (52, 52, [ShLin 0%nat 1 (-1); ShLin 1%nat 1 0; ShLin 2%nat 1 (-1)], [ShLin 0%nat 1 (-1); ShLin 1%nat 1 0; ShLin 2%nat 1 (-1)], Some QST_e51);
  (52, 53, [ShLin 0%nat 1 (-1); ShLin 1%nat 1 0; ShLin 2%nat 1 (-1)], [ShLin 0%nat 1 (-1); ShLin 1%nat 1 0; ShLin 2%nat 1 0], Some QST_e108);
  (53, 52, [ShLin 0%nat 1 (-1); ShLin 1%nat 1 0; ShLin 2%nat 1 0], [ShLin 0%nat 1 (-1); ShLin 1%nat 1 0; ShLin 2%nat 1 (-1)], Some (cO (cD (cN 1) (cV 2))));
  (53, 53, [ShLin 0%nat 1 (-1); ShLin 1%nat 1 0; ShLin 2%nat 1 0], [ShLin 0%nat 1 (-1); ShLin 1%nat 1 0; ShLin 2%nat 1 0], Some QST_e217);
  (53, 54, [ShLin 0%nat 1 (-1); ShLin 1%nat 1 0; ShLin 2%nat 1 0], [ShLin 0%nat 1 (-1); ShLin 1%nat 1 0; ShLin 2%nat 1 1], Some QST_e218);
  (54, 53, [ShLin 0%nat 1 (-1); ShLin 1%nat 1 0; ShLin 2%nat 1 1], [ShLin 0%nat 1 (-1); ShLin 1%nat 1 0; ShLin 2%nat 1 0], Some QST_e276);
  (54, 54, [ShLin 0%nat 1 (-1); ShLin 1%nat 1 0; ShLin 2%nat 1 1], [ShLin 0%nat 1 (-1); ShLin 1%nat 1 0; ShLin 2%nat 1 1], Some QST_e823);
  (55, 55, [ShLin 0%nat 1 (-1); ShLin 1%nat 1 2; ShLin 2%nat 1 (-1)], [ShLin 0%nat 1 (-1); ShLin 1%nat 1 2; ShLin 2%nat 1 (-1)], Some QST_e824);
  (55, 56, [ShLin 0%nat 1 (-1); ShLin 1%nat 1 2; ShLin 2%nat 1 (-1)], [ShLin 0%nat 1 (-1); ShLin 1%nat 1 2; ShLin 2%nat 1 0], Some QST_e825);
  (56, 55, [ShLin 0%nat 1 (-1); ShLin 1%nat 1 2; ShLin 2%nat 1 0], [ShLin 0%nat 1 (-1); ShLin 1%nat 1 2; ShLin 2%nat 1 (-1)], Some (cO (cD (cN 1) (cV 2))));
  (56, 56, [ShLin 0%nat 1 (-1); ShLin 1%nat 1 2; ShLin 2%nat 1 0], [ShLin 0%nat 1 (-1); ShLin 1%nat 1 2; ShLin 2%nat 1 0], Some QST_e217);
  (56, 57, [ShLin 0%nat 1 (-1); ShLin 1%nat 1 2; ShLin 2%nat 1 0], [ShLin 0%nat 1 (-1); ShLin 1%nat 1 2; ShLin 2%nat 1 1], Some QST_e218);
  (57, 56, [ShLin 0%nat 1 (-1); ShLin 1%nat 1 2; ShLin 2%nat 1 1], [ShLin 0%nat 1 (-1); ShLin 1%nat 1 2; ShLin 2%nat 1 0], Some QST_e276);
  (57, 57, [ShLin 0%nat 1 (-1); ShLin 1%nat 1 2; ShLin 2%nat 1 1], [ShLin 0%nat 1 (-1); ShLin 1%nat 1 2; ShLin 2%nat 1 1], Some QST_e277);
  (58, 58, [ShLin 0%nat 1 (-2); ShLin 1%nat 1 (-1); ShLin 2%nat 1 (-1)], [ShLin 0%nat 1 (-2); ShLin 1%nat 1 (-1); ShLin 2%nat 1 (-1)], Some QST_e51);
  (58, 59, [ShLin 0%nat 1 (-2); ShLin 1%nat 1 (-1); ShLin 2%nat 1 (-1)], [ShLin 0%nat 1 (-2); ShLin 1%nat 1 (-1); ShLin 2%nat 1 0], Some QST_e271);
  (59, 58, [ShLin 0%nat 1 (-2); ShLin 1%nat 1 (-1); ShLin 2%nat 1 0], [ShLin 0%nat 1 (-2); ShLin 1%nat 1 (-1); ShLin 2%nat 1 (-1)], Some (cO (cD (cN 1) (cV 2))));
  (59, 59, [ShLin 0%nat 1 (-2); ShLin 1%nat 1 (-1); ShLin 2%nat 1 0], [ShLin 0%nat 1 (-2); ShLin 1%nat 1 (-1); ShLin 2%nat 1 0], Some QST_e217);
  (59, 60, [ShLin 0%nat 1 (-2); ShLin 1%nat 1 (-1); ShLin 2%nat 1 0], [ShLin 0%nat 1 (-2); ShLin 1%nat 1 (-1); ShLin 2%nat 1 1], Some QST_e218);
  (60, 59, [ShLin 0%nat 1 (-2); ShLin 1%nat 1 (-1); ShLin 2%nat 1 1], [ShLin 0%nat 1 (-2); ShLin 1%nat 1 (-1); ShLin 2%nat 1 0], Some QST_e276);
  (60, 60, [ShLin 0%nat 1 (-2); ShLin 1%nat 1 (-1); ShLin 2%nat 1 1], [ShLin 0%nat 1 (-2); ShLin 1%nat 1 (-1); ShLin 2%nat 1 1], Some QST_e277);
  (61, 61, [ShLin 0%nat 1 (-2); ShLin 1%nat 1 1; ShLin 2%nat 1 (-1)], [ShLin 0%nat 1 (-2); ShLin 1%nat 1 1; ShLin 2%nat 1 (-1)], Some QST_e51);
  (61, 62, [ShLin 0%nat 1 (-2); ShLin 1%nat 1 1; ShLin 2%nat 1 (-1)], [ShLin 0%nat 1 (-2); ShLin 1%nat 1 1; ShLin 2%nat 1 0], Some QST_e108);
  (62, 61, [ShLin 0%nat 1 (-2); ShLin 1%nat 1 1; ShLin 2%nat 1 0], [ShLin 0%nat 1 (-2); ShLin 1%nat 1 1; ShLin 2%nat 1 (-1)], Some (cO (cD (cN 1) (cV 2))));
  (62, 62, [ShLin 0%nat 1 (-2); ShLin 1%nat 1 1; ShLin 2%nat 1 0], [ShLin 0%nat 1 (-2); ShLin 1%nat 1 1; ShLin 2%nat 1 0], Some QST_e217);
  (62, 63, [ShLin 0%nat 1 (-2); ShLin 1%nat 1 1; ShLin 2%nat 1 0], [ShLin 0%nat 1 (-2); ShLin 1%nat 1 1; ShLin 2%nat 1 1], Some QST_e218);
  (63, 62, [ShLin 0%nat 1 (-2); ShLin 1%nat 1 1; ShLin 2%nat 1 1], [ShLin 0%nat 1 (-2); ShLin 1%nat 1 1; ShLin 2%nat 1 0], Some QST_e276);
  (63, 63, [ShLin 0%nat 1 (-2); ShLin 1%nat 1 1; ShLin 2%nat 1 1], [ShLin 0%nat 1 (-2); ShLin 1%nat 1 1; ShLin 2%nat 1 1], Some QST_e277);
  (64, 64, [ShLin 0%nat 1 (-3); ShLin 1%nat 1 0; ShLin 2%nat 1 0], [ShLin 0%nat 1 (-3); ShLin 1%nat 1 0; ShLin 2%nat 1 0], Some (cN 1))].
(** /repo/c++/symmetry/nrg-recalc-QST.hpp recalc_orb_triplet, qst/qst-orb-tripletp.dat *)
Definition qst_t16 : ten_table := mk_ten "orb_triplet" [ShLin 0%nat 1 0; ShLin 1%nat 1 0; ShLin 2%nat 1 1] [0; 1; 1] [
  (1, 1, [ShLin 0%nat 1 3; ShLin 1%nat 1 0; ShLin 2%nat 1 0], [ShLin 0%nat 1 3; ShLin 1%nat 1 0; ShLin 2%nat 1 1], Some (cN 1));
  (2, 2, [ShLin 0%nat 1 2; ShLin 1%nat 1 (-1); ShLin 2%nat 1 (-1)], [ShLin 0%nat 1 2; ShLin 1%nat 1 (-1); ShLin 2%nat 1 0], Some QST_e368);
  (3, 2, [ShLin 0%nat 1 2; ShLin 1%nat 1 (-1); ShLin 2%nat 1 0], [ShLin 0%nat 1 2; ShLin 1%nat 1 (-1); ShLin 2%nat 1 0], Some QST_e276);
  (3, 3, [ShLin 0%nat 1 2; ShLin 1%nat 1 (-1); ShLin 2%nat 1 0], [ShLin 0%nat 1 2; ShLin 1%nat 1 (-1); ShLin 2%nat 1 1], Some QST_e277);
  (4, 2, [ShLin 0%nat 1 2; ShLin 1%nat 1 (-1); ShLin 2%nat 1 1], [ShLin 0%nat 1 2; ShLin 1%nat 1 (-1); ShLin 2%nat 1 0], Some QST_e373);
  (4, 3, [ShLin 0%nat 1 2; ShLin 1%nat 1 (-1); ShLin 2%nat 1 1], [ShLin 0%nat 1 2; ShLin 1%nat 1 (-1); ShLin 2%nat 1 1], Some QST_e262);
  (4, 4, [ShLin 0%nat 1 2; ShLin 1%nat 1 (-1); ShLin 2%nat 1 1], [ShLin 0%nat 1 2; ShLin 1%nat 1 (-1); ShLin 2%nat 1 2], Some (cN 1));
  (5, 5, [ShLin 0%nat 1 2; ShLin 1%nat 1 1; ShLin 2%nat 1 (-1)], [ShLin 0%nat 1 2; ShLin 1%nat 1 1; ShLin 2%nat 1 0], Some QST_e368);
  (6, 5, [ShLin 0%nat 1 2; ShLin 1%nat 1 1; ShLin 2%nat 1 0], [ShLin 0%nat 1 2; ShLin 1%nat 1 1; ShLin 2%nat 1 0], Some QST_e276);
  (6, 6, [ShLin 0%nat 1 2; ShLin 1%nat 1 1; ShLin 2%nat 1 0], [ShLin 0%nat 1 2; ShLin 1%nat 1 1; ShLin 2%nat 1 1], Some QST_e277);
  (7, 5, [ShLin 0%nat 1 2; ShLin 1%nat 1 1; ShLin 2%nat 1 1], [ShLin 0%nat 1 2; ShLin 1%nat 1 1; ShLin 2%nat 1 0], Some QST_e373);
  (7, 6, [ShLin 0%nat 1 2; ShLin 1%nat 1 1; ShLin 2%nat 1 1], [ShLin 0%nat 1 2; ShLin 1%nat 1 1; ShLin 2%nat 1 1], Some QST_e262);
  (7, 7, [ShLin 0%nat 1 2; ShLin 1%nat 1 1; ShLin 2%nat 1 1], [ShLin 0%nat 1 2; ShLin 1%nat 1 1; ShLin 2%nat 1 2], Some (cN 1));
  (8, 8, [ShLin 0%nat 1 1; ShLin 1%nat 1 0; ShLin 2%nat 1 0], [ShLin 0%nat 1 1; ShLin 1%nat 1 0; ShLin 2%nat 1 1], Some (cN 1));
  (9, 9, [ShLin 0%nat 1 1; ShLin 1%nat 1 0; ShLin 2%nat 1 (-2)], [ShLin 0%nat 1 1; ShLin 1%nat 1 0; ShLin 2%nat 1 (-1)], Some QST_e342);
  (10, 9, [ShLin 0%nat 1 1; ShLin 1%nat 1 0; ShLin 2%nat 1 (-1)], [ShLin 0%nat 1 1; ShLin 1%nat 1 0; ShLin 2%nat 1 (-1)], Some QST_e343);
  (10, 10, [ShLin 0%nat 1 1; ShLin 1%nat 1 0; ShLin 2%nat 1 (-1)], [ShLin 0%nat 1 1; ShLin 1%nat 1 0; ShLin 2%nat 1 0], Some QST_e344);
  (11, 9, [ShLin 0%nat 1 1; ShLin 1%nat 1 0; ShLin 2%nat 1 0], [ShLin 0%nat 1 1; ShLin 1%nat 1 0; ShLin 2%nat 1 (-1)], Some QST_e345);
  (11, 10, [ShLin 0%nat 1 1; ShLin 1%nat 1 0; ShLin 2%nat 1 0], [ShLin 0%nat 1 1; ShLin 1%nat 1 0; ShLin 2%nat 1 0], Some QST_e346);
  (11, 11, [ShLin 0%nat 1 1; ShLin 1%nat 1 0; ShLin 2%nat 1 0], [ShLin 0%nat 1 1; ShLin 1%nat 1 0; ShLin 2%nat 1 1], Some QST_e347);
  (12, 10, [ShLin 0%nat 1 1; ShLin 1%nat 1 0; ShLin 2%nat 1 1], [ShLin 0%nat 1 1; ShLin 1%nat 1 0; ShLin 2%nat 1 0], Some QST_e348);
  (12, 11, [ShLin 0%nat 1 1; ShLin 1%nat 1 0; ShLin 2%nat 1 1], [ShLin 0%nat 1 1; ShLin 1%nat 1 0; ShLin 2%nat 1 1], Some QST_e349);
  (12, 12, [ShLin 0%nat 1 1; ShLin 1%nat 1 0; ShLin 2%nat 1 1], [ShLin 0%nat 1 1; ShLin 1%nat 1 0; ShLin 2%nat 1 2], Some QST_e350);
  (13, 11, [ShLin 0%nat 1 1; ShLin 1%nat 1 0; ShLin 2%nat 1 2], [ShLin 0%nat 1 1; ShLin 1%nat 1 0; ShLin 2%nat 1 1], Some QST_e351);
  (13, 12, [ShLin 0%nat 1 1; ShLin 1%nat 1 0; ShLin 2%nat 1 2], [ShLin 0%nat 1 1; ShLin 1%nat 1 0; ShLin 2%nat 1 2], Some QST_e352);
  (13, 13, [ShLin 0%nat 1 1; ShLin 1%nat 1 0; ShLin 2%nat 1 2], [ShLin 0%nat 1 1; ShLin 1%nat 1 0; ShLin 2%nat 1 3], Some (cN 1));
  (14, 14, [ShLin 0%nat 1 1; ShLin 1%nat 1 (-2); ShLin 2%nat 1 (-1)], [ShLin 0%nat 1 1; ShLin 1%nat 1 (-2); ShLin 2%nat 1 0], Some QST_e368);
  (15, 14, [ShLin 0%nat 1 1; ShLin 1%nat 1 (-2); ShLin 2%nat 1 0], [ShLin 0%nat 1 1; ShLin 1%nat 1 (-2); ShLin 2%nat 1 0], Some QST_e276);
  (15, 15, [ShLin 0%nat 1 1; ShLin 1%nat 1 (-2); ShLin 2%nat 1 0], [ShLin 0%nat 1 1; ShLin 1%nat 1 (-2); ShLin 2%nat 1 1], Some QST_e277);
  (16, 14, [ShLin 0%nat 1 1; ShLin 1%nat 1 (-2); ShLin 2%nat 1 1], [ShLin 0%nat 1 1; ShLin 1%nat 1 (-2); ShLin 2%nat 1 0], Some QST_e373);
  (16, 15, [ShLin 0%nat 1 1; ShLin 1%nat 1 (-2); ShLin 2%nat 1 1], [ShLin 0%nat 1 1; ShLin 1%nat 1 (-2); ShLin 2%nat 1 1], Some QST_e262);
  (16, 16, [ShLin 0%nat 1 1; ShLin 1%nat 1 (-2); ShLin 2%nat 1 1], [ShLin 0%nat 1 1; ShLin 1%nat 1 (-2); ShLin 2%nat 1 2], Some (cN 1));
  (17, 17, [ShLin 0%nat 1 1; ShLin 1%nat 1 0; ShLin 2%nat 1 (-1)], [ShLin 0%nat 1 1; ShLin 1%nat 1 0; ShLin 2%nat 1 0], Some QST_e368);
  (18, 17, [ShLin 0%nat 1 1; ShLin 1%nat 1 0; ShLin 2%nat 1 0], [ShLin 0%nat 1 1; ShLin 1%nat 1 0; ShLin 2%nat 1 0], Some QST_e276);
  (18, 18, [ShLin 0%nat 1 1; ShLin 1%nat 1 0; ShLin 2%nat 1 0], [ShLin 0%nat 1 1; ShLin 1%nat 1 0; ShLin 2%nat 1 1], Some QST_e835);
  (19, 17, [ShLin 0%nat 1 1; ShLin 1%nat 1 0; ShLin 2%nat 1 1], [ShLin 0%nat 1 1; ShLin 1%nat 1 0; ShLin 2%nat 1 0], Some QST_e373);
  (19, 18, [ShLin 0%nat 1 1; ShLin 1%nat 1 0; ShLin 2%nat 1 1], [ShLin 0%nat 1 1; ShLin 1%nat 1 0; ShLin 2%nat 1 1], Some QST_e836);
  (19, 19, [ShLin 0%nat 1 1; ShLin 1%nat 1 0; ShLin 2%nat 1 1], [ShLin 0%nat 1 1; ShLin 1%nat 1 0; ShLin 2%nat 1 2], Some (cN 1));
  (20, 20, [ShLin 0%nat 1 1; ShLin 1%nat 1 2; ShLin 2%nat 1 (-1)], [ShLin 0%nat 1 1; ShLin 1%nat 1 2; ShLin 2%nat 1 0], Some QST_e837);
  (21, 20, [ShLin 0%nat 1 1; ShLin 1%nat 1 2; ShLin 2%nat 1 0], [ShLin 0%nat 1 1; ShLin 1%nat 1 2; ShLin 2%nat 1 0], Some QST_e371);
  (21, 21, [ShLin 0%nat 1 1; ShLin 1%nat 1 2; ShLin 2%nat 1 0], [ShLin 0%nat 1 1; ShLin 1%nat 1 2; ShLin 2%nat 1 1], Some QST_e838);
  (22, 20, [ShLin 0%nat 1 1; ShLin 1%nat 1 2; ShLin 2%nat 1 1], [ShLin 0%nat 1 1; ShLin 1%nat 1 2; ShLin 2%nat 1 0], Some QST_e373);
  (22, 21, [ShLin 0%nat 1 1; ShLin 1%nat 1 2; ShLin 2%nat 1 1], [ShLin 0%nat 1 1; ShLin 1%nat 1 2; ShLin 2%nat 1 1], Some QST_e262);
  (22, 22, [ShLin 0%nat 1 1; ShLin 1%nat 1 2; ShLin 2%nat 1 1], [ShLin 0%nat 1 1; ShLin 1%nat 1 2; ShLin 2%nat 1 2], Some (cN 1));
  (23, 23, [ShLin 0%nat 1 0; ShLin 1%nat 1 (-1); ShLin 2%nat 1 (-1)], [ShLin 0%nat 1 0; ShLin 1%nat 1 (-1); ShLin 2%nat 1 0], Some QST_e368);
  (24, 23, [ShLin 0%nat 1 0; ShLin 1%nat 1 (-1); ShLin 2%nat 1 0], [ShLin 0%nat 1 0; ShLin 1%nat 1 (-1); ShLin 2%nat 1 0], Some QST_e276);
  (24, 24, [ShLin 0%nat 1 0; ShLin 1%nat 1 (-1); ShLin 2%nat 1 0], [ShLin 0%nat 1 0; ShLin 1%nat 1 (-1); ShLin 2%nat 1 1], Some QST_e277);
  (25, 23, [ShLin 0%nat 1 0; ShLin 1%nat 1 (-1); ShLin 2%nat 1 1], [ShLin 0%nat 1 0; ShLin 1%nat 1 (-1); ShLin 2%nat 1 0], Some QST_e373);
  (25, 24, [ShLin 0%nat 1 0; ShLin 1%nat 1 (-1); ShLin 2%nat 1 1], [ShLin 0%nat 1 0; ShLin 1%nat 1 (-1); ShLin 2%nat 1 1], Some QST_e262);
  (25, 25, [ShLin 0%nat 1 0; ShLin 1%nat 1 (-1); ShLin 2%nat 1 1], [ShLin 0%nat 1 0; ShLin 1%nat 1 (-1); ShLin 2%nat 1 2], Some (cN 1));
  (26, 26, [ShLin 0%nat 1 0; ShLin 1%nat 1 1; ShLin 2%nat 1 (-1)], [ShLin 0%nat 1 0; ShLin 1%nat 1 1; ShLin 2%nat 1 0], Some QST_e368);
  (27, 26, [ShLin 0%nat 1 0; ShLin 1%nat 1 1; ShLin 2%nat 1 0], [ShLin 0%nat 1 0; ShLin 1%nat 1 1; ShLin 2%nat 1 0], Some QST_e276);
  (27, 27, [ShLin 0%nat 1 0; ShLin 1%nat 1 1; ShLin 2%nat 1 0], [ShLin 0%nat 1 0; ShLin 1%nat 1 1; ShLin 2%nat 1 1], Some QST_e277);
  (28, 26, [ShLin 0%nat 1 0; ShLin 1%nat 1 1; ShLin 2%nat 1 1], [ShLin 0%nat 1 0; ShLin 1%nat 1 1; ShLin 2%nat 1 0], Some QST_e373);
  (28, 27, [ShLin 0%nat 1 0; ShLin 1%nat 1 1; ShLin 2%nat 1 1], [ShLin 0%nat 1 0; ShLin 1%nat 1 1; ShLin 2%nat 1 1], Some QST_e262);
  (28, 28, [ShLin 0%nat 1 0; ShLin 1%nat 1 1; ShLin 2%nat 1 1], [ShLin 0%nat 1 0; ShLin 1%nat 1 1; ShLin 2%nat 1 2], Some (cN 1));
  (29, 29, [ShLin 0%nat 1 0; ShLin 1%nat 1 (-1); ShLin 2%nat 1 (-2)], [ShLin 0%nat 1 0; ShLin 1%nat 1 (-1); ShLin 2%nat 1 (-1)], Some QST_e342);
  (30, 29, [ShLin 0%nat 1 0; ShLin 1%nat 1 (-1); ShLin 2%nat 1 (-1)], [ShLin 0%nat 1 0; ShLin 1%nat 1 (-1); ShLin 2%nat 1 (-1)], Some QST_e343);
  (30, 30, [ShLin 0%nat 1 0; ShLin 1%nat 1 (-1); ShLin 2%nat 1 (-1)], [ShLin 0%nat 1 0; ShLin 1%nat 1 (-1); ShLin 2%nat 1 0], Some QST_e344);
  (31, 29, [ShLin 0%nat 1 0; ShLin 1%nat 1 (-1); ShLin 2%nat 1 0], [ShLin 0%nat 1 0; ShLin 1%nat 1 (-1); ShLin 2%nat 1 (-1)], Some QST_e345);
  (31, 30, [ShLin 0%nat 1 0; ShLin 1%nat 1 (-1); ShLin 2%nat 1 0], [ShLin 0%nat 1 0; ShLin 1%nat 1 (-1); ShLin 2%nat 1 0], Some QST_e346);
  (31, 31, [ShLin 0%nat 1 0; ShLin 1%nat 1 (-1); ShLin 2%nat 1 0], [ShLin 0%nat 1 0; ShLin 1%nat 1 (-1); ShLin 2%nat 1 1], Some QST_e417);
  (32, 30, [ShLin 0%nat 1 0; ShLin 1%nat 1 (-1); ShLin 2%nat 1 1], [ShLin 0%nat 1 0; ShLin 1%nat 1 (-1); ShLin 2%nat 1 0], Some QST_e348);
  (32, 31, [ShLin 0%nat 1 0; ShLin 1%nat 1 (-1); ShLin 2%nat 1 1], [ShLin 0%nat 1 0; ShLin 1%nat 1 (-1); ShLin 2%nat 1 1], Some QST_e418);
  (32, 32, [ShLin 0%nat 1 0; ShLin 1%nat 1 (-1); ShLin 2%nat 1 1], [ShLin 0%nat 1 0; ShLin 1%nat 1 (-1); ShLin 2%nat 1 2], Some QST_e419);
  (33, 31, [ShLin 0%nat 1 0; ShLin 1%nat 1 (-1); ShLin 2%nat 1 2], [ShLin 0%nat 1 0; ShLin 1%nat 1 (-1); ShLin 2%nat 1 1], Some QST_e351);
  (33, 32, [ShLin 0%nat 1 0; ShLin 1%nat 1 (-1); ShLin 2%nat 1 2], [ShLin 0%nat 1 0; ShLin 1%nat 1 (-1); ShLin 2%nat 1 2], Some QST_e352);
  (33, 33, [ShLin 0%nat 1 0; ShLin 1%nat 1 (-1); ShLin 2%nat 1 2], [ShLin 0%nat 1 0; ShLin 1%nat 1 (-1); ShLin 2%nat 1 3], Some (cN 1));
  (34, 34, [ShLin 0%nat 1 0; ShLin 1%nat 1 1; ShLin 2%nat 1 (-2)], [ShLin 0%nat 1 0; ShLin 1%nat 1 1; ShLin 2%nat 1 (-1)], Some QST_e342);
  (35, 34, [ShLin 0%nat 1 0; ShLin 1%nat 1 1; ShLin 2%nat 1 (-1)], [ShLin 0%nat 1 0; ShLin 1%nat 1 1; ShLin 2%nat 1 (-1)], Some QST_e839);
  (35, 35, [ShLin 0%nat 1 0; ShLin 1%nat 1 1; ShLin 2%nat 1 (-1)], [ShLin 0%nat 1 0; ShLin 1%nat 1 1; ShLin 2%nat 1 0], Some QST_e840);
  (36, 34, [ShLin 0%nat 1 0; ShLin 1%nat 1 1; ShLin 2%nat 1 0], [ShLin 0%nat 1 0; ShLin 1%nat 1 1; ShLin 2%nat 1 (-1)], Some QST_e841);
  (36, 35, [ShLin 0%nat 1 0; ShLin 1%nat 1 1; ShLin 2%nat 1 0], [ShLin 0%nat 1 0; ShLin 1%nat 1 1; ShLin 2%nat 1 0], Some QST_e842);
  (36, 36, [ShLin 0%nat 1 0; ShLin 1%nat 1 1; ShLin 2%nat 1 0], [ShLin 0%nat 1 0; ShLin 1%nat 1 1; ShLin 2%nat 1 1], Some QST_e843);
  (37, 35, [ShLin 0%nat 1 0; ShLin 1%nat 1 1; ShLin 2%nat 1 1], [ShLin 0%nat 1 0; ShLin 1%nat 1 1; ShLin 2%nat 1 0], Some QST_e348);
  (37, 36, [ShLin 0%nat 1 0; ShLin 1%nat 1 1; ShLin 2%nat 1 1], [ShLin 0%nat 1 0; ShLin 1%nat 1 1; ShLin 2%nat 1 1], Some QST_e844);
  (37, 37, [ShLin 0%nat 1 0; ShLin 1%nat 1 1; ShLin 2%nat 1 1], [ShLin 0%nat 1 0; ShLin 1%nat 1 1; ShLin 2%nat 1 2], Some QST_e845);
  (38, 36, [ShLin 0%nat 1 0; ShLin 1%nat 1 1; ShLin 2%nat 1 2], [ShLin 0%nat 1 0; ShLin 1%nat 1 1; ShLin 2%nat 1 1], Some QST_e351);
  (38, 37, [ShLin 0%nat 1 0; ShLin 1%nat 1 1; ShLin 2%nat 1 2], [ShLin 0%nat 1 0; ShLin 1%nat 1 1; ShLin 2%nat 1 2], Some QST_e352);
  (38, 38, [ShLin 0%nat 1 0; ShLin 1%nat 1 1; ShLin 2%nat 1 2], [ShLin 0%nat 1 0; ShLin 1%nat 1 1; ShLin 2%nat 1 3], Some (cN 1));
  (39, 39, [ShLin 0%nat 1 0; ShLin 1%nat 1 (-3); ShLin 2%nat 1 0], [ShLin 0%nat 1 0; ShLin 1%nat 1 (-3); ShLin 2%nat 1 1], Some (cN 1));
  (40, 40, [ShLin 0%nat 1 0; ShLin 1%nat 1 (-1); ShLin 2%nat 1 0], [ShLin 0%nat 1 0; ShLin 1%nat 1 (-1); ShLin 2%nat 1 1], Some (cN 1));
  (41, 41, [ShLin 0%nat 1 0; ShLin 1%nat 1 1; ShLin 2%nat 1 0], [ShLin 0%nat 1 0; ShLin 1%nat 1 1; ShLin 2%nat 1 1], Some (cN 1));
  (42, 42, [ShLin 0%nat 1 0; ShLin 1%nat 1 3; ShLin 2%nat 1 0], [ShLin 0%nat 1 0; ShLin 1%nat 1 3; ShLin 2%nat 1 1], Some (cN 1));
  (43, 43, [ShLin 0%nat 1 (-1); ShLin 1%nat 1 0; ShLin 2%nat 1 0], [ShLin 0%nat 1 (-1); ShLin 1%nat 1 0; ShLin 2%nat 1 1], Some (cN 1));
  (44, 44, [ShLin 0%nat 1 (-1); ShLin 1%nat 1 0; ShLin 2%nat 1 (-2)], [ShLin 0%nat 1 (-1); ShLin 1%nat 1 0; ShLin 2%nat 1 (-1)], Some QST_e342);
  (45, 44, [ShLin 0%nat 1 (-1); ShLin 1%nat 1 0; ShLin 2%nat 1 (-1)], [ShLin 0%nat 1 (-1); ShLin 1%nat 1 0; ShLin 2%nat 1 (-1)], Some QST_e343);
  (45, 45, [ShLin 0%nat 1 (-1); ShLin 1%nat 1 0; ShLin 2%nat 1 (-1)], [ShLin 0%nat 1 (-1); ShLin 1%nat 1 0; ShLin 2%nat 1 0], Some QST_e344);
  (46, 44, [ShLin 0%nat 1 (-1); ShLin 1%nat 1 0; ShLin 2%nat 1 0], [ShLin 0%nat 1 (-1); ShLin 1%nat 1 0; ShLin 2%nat 1 (-1)], Some QST_e345);
  (46, 45, [ShLin 0%nat 1 (-1); ShLin 1%nat 1 0; ShLin 2%nat 1 0], [ShLin 0%nat 1 (-1); ShLin 1%nat 1 0; ShLin 2%nat 1 0], Some QST_e346);
  (46, 46, [ShLin 0%nat 1 (-1); ShLin 1%nat 1 0; ShLin 2%nat 1 0], [ShLin 0%nat 1 (-1); ShLin 1%nat 1 0; ShLin 2%nat 1 1], Some QST_e347);
  (47, 45, [ShLin 0%nat 1 (-1); ShLin 1%nat 1 0; ShLin 2%nat 1 1], [ShLin 0%nat 1 (-1); ShLin 1%nat 1 0; ShLin 2%nat 1 0], Some QST_e348);
  (47, 46, [ShLin 0%nat 1 (-1); ShLin 1%nat 1 0; ShLin 2%nat 1 1], [ShLin 0%nat 1 (-1); ShLin 1%nat 1 0; ShLin 2%nat 1 1], Some QST_e349);
  (47, 47, [ShLin 0%nat 1 (-1); ShLin 1%nat 1 0; ShLin 2%nat 1 1], [ShLin 0%nat 1 (-1); ShLin 1%nat 1 0; ShLin 2%nat 1 2], Some QST_e350);
  (48, 46, [ShLin 0%nat 1 (-1); ShLin 1%nat 1 0; ShLin 2%nat 1 2], [ShLin 0%nat 1 (-1); ShLin 1%nat 1 0; ShLin 2%nat 1 1], Some QST_e351);
  (48, 47, [ShLin 0%nat 1 (-1); ShLin 1%nat 1 0; ShLin 2%nat 1 2], [ShLin 0%nat 1 (-1); ShLin 1%nat 1 0; ShLin 2%nat 1 2], Some QST_e352);
  (48, 48, [ShLin 0%nat 1 (-1); ShLin 1%nat 1 0; ShLin 2%nat 1 2], [ShLin 0%nat 1 (-1); ShLin 1%nat 1 0; ShLin 2%nat 1 3], Some (cN 1));
  (49, 49, [ShLin 0%nat 1 (-1); ShLin 1%nat 1 (-2); ShLin 2%nat 1 (-1)], [ShLin 0%nat 1 (-1); ShLin 1%nat 1 (-2); ShLin 2%nat 1 0], Some QST_e368);
  (50, 49, [ShLin 0%nat 1 (-1); ShLin 1%nat 1 (-2); ShLin 2%nat 1 0], [ShLin 0%nat 1 (-1); ShLin 1%nat 1 (-2); ShLin 2%nat 1 0], Some QST_e276);
  (50, 50, [ShLin 0%nat 1 (-1); ShLin 1%nat 1 (-2); ShLin 2%nat 1 0], [ShLin 0%nat 1 (-1); ShLin 1%nat 1 (-2); ShLin 2%nat 1 1], Some QST_e277);
  (51, 49, [ShLin 0%nat 1 (-1); ShLin 1%nat 1 (-2); ShLin 2%nat 1 1], [ShLin 0%nat 1 (-1); ShLin 1%nat 1 (-2); ShLin 2%nat 1 0], Some QST_e373);
  (51, 50, [ShLin 0%nat 1 (-1); ShLin 1%nat 1 (-2); ShLin 2%nat 1 1], [ShLin 0%nat 1 (-1); ShLin 1%nat 1 (-2); ShLin 2%nat 1 1], Some QST_e262);
  (51, 51, [ShLin 0%nat 1 (-1); ShLin 1%nat 1 (-2); ShLin 2%nat 1 1], [ShLin 0%nat 1 (-1); ShLin 1%nat 1 (-2); ShLin 2%nat 1 2], Some (cN 1));
  (52, 52, [ShLin 0%nat 1 (-1); ShLin 1%nat 1 0; ShLin 2%nat 1 (-1)], [ShLin 0%nat 1 (-1); ShLin 1%nat 1 0; ShLin 2%nat 1 0], Some QST_e368);
  (53, 52, [ShLin 0%nat 1 (-1); ShLin 1%nat 1 0; ShLin 2%nat 1 0], [ShLin 0%nat 1 (-1); ShLin 1%nat 1 0; ShLin 2%nat 1 0], Some QST_e276);
  (53, 53, [ShLin 0%nat 1 (-1); ShLin 1%nat 1 0; ShLin 2%nat 1 0], [ShLin 0%nat 1 (-1); ShLin 1%nat 1 0; ShLin 2%nat 1 1], Some QST_e835);
  (54, 52, [ShLin 0%nat 1 (-1); ShLin 1%nat 1 0; ShLin 2%nat 1 1], [ShLin 0%nat 1 (-1); ShLin 1%nat 1 0; ShLin 2%nat 1 0], Some QST_e373);
  (54, 53, [ShLin 0%nat 1 (-1); ShLin 1%nat 1 0; ShLin 2%nat 1 1], [ShLin 0%nat 1 (-1); ShLin 1%nat 1 0; ShLin 2%nat 1 1], Some QST_e836);
  (54, 54, [ShLin 0%nat 1 (-1); ShLin 1%nat 1 0; ShLin 2%nat 1 1], [ShLin 0%nat 1 (-1); ShLin 1%nat 1 0; ShLin 2%nat 1 2], Some (cN 1));
  (55, 55, [ShLin 0%nat 1 (-1); ShLin 1%nat 1 2; ShLin 2%nat 1 (-1)], [ShLin 0%nat 1 (-1); ShLin 1%nat 1 2; ShLin 2%nat 1 0], Some QST_e837);
  (56, 55, [ShLin 0%nat 1 (-1); ShLin 1%nat 1 2; ShLin 2%nat 1 0], [ShLin 0%nat 1 (-1); ShLin 1%nat 1 2; ShLin 2%nat 1 0], Some QST_e371);
  (56, 56, [ShLin 0%nat 1 (-1); ShLin 1%nat 1 2; ShLin 2%nat 1 0], [ShLin 0%nat 1 (-1); ShLin 1%nat 1 2; ShLin 2%nat 1 1], Some QST_e838);
  (57, 55, [ShLin 0%nat 1 (-1); ShLin 1%nat 1 2; ShLin 2%nat 1 1], [ShLin 0%nat 1 (-1); ShLin 1%nat 1 2; ShLin 2%nat 1 0], Some QST_e373);
  (57, 56, [ShLin 0%nat 1 (-1); ShLin 1%nat 1 2; ShLin 2%nat 1 1], [ShLin 0%nat 1 (-1); ShLin 1%nat 1 2; ShLin 2%nat 1 1], Some QST_e262);
  (57, 57, [ShLin 0%nat 1 (-1); ShLin 1%nat 1 2; ShLin 2%nat 1 1], [ShLin 0%nat 1 (-1); ShLin 1%nat 1 2; ShLin 2%nat 1 2], Some (cN 1));
  (58, 58, [ShLin 0%nat 1 (-2); ShLin 1%nat 1 (-1); ShLin 2%nat 1 (-1)], [ShLin 0%nat 1 (-2); ShLin 1%nat 1 (-1); ShLin 2%nat 1 0], Some QST_e368);
  (59, 58, [ShLin 0%nat 1 (-2); ShLin 1%nat 1 (-1); ShLin 2%nat 1 0], [ShLin 0%nat 1 (-2); ShLin 1%nat 1 (-1); ShLin 2%nat 1 0], Some QST_e276);
  (59, 59, [ShLin 0%nat 1 (-2); ShLin 1%nat 1 (-1); ShLin 2%nat 1 0], [ShLin 0%nat 1 (-2); ShLin 1%nat 1 (-1); ShLin 2%nat 1 1], Some QST_e277);
  (60, 58, [ShLin 0%nat 1 (-2); ShLin 1%nat 1 (-1); ShLin 2%nat 1 1], [ShLin 0%nat 1 (-2); ShLin 1%nat 1 (-1); ShLin 2%nat 1 0], Some QST_e373);
  (60, 59, [ShLin 0%nat 1 (-2); ShLin 1%nat 1 (-1); ShLin 2%nat 1 1], [ShLin 0%nat 1 (-2); ShLin 1%nat 1 (-1); ShLin 2%nat 1 1], Some QST_e262);
  (60, 60, [ShLin 0%nat 1 (-2); ShLin 1%nat 1 (-1); ShLin 2%nat 1 1], [ShLin 0%nat 1 (-2); ShLin 1%nat 1 (-1); ShLin 2%nat 1 2], Some (cN 1));
  (61, 61, [ShLin 0%nat 1 (-2); ShLin 1%nat 1 1; ShLin 2%nat 1 (-1)], [ShLin 0%nat 1 (-2); ShLin 1%nat 1 1; ShLin 2%nat 1 0], Some QST_e368);
  (62, 61, [ShLin 0%nat 1 (-2); ShLin 1%nat 1 1; ShLin 2%nat 1 0], [ShLin 0%nat 1 (-2); ShLin 1%nat 1 1; ShLin 2%nat 1 0], Some QST_e276);
  (62, 62, [ShLin 0%nat 1 (-2); ShLin 1%nat 1 1; ShLin 2%nat 1 0], [ShLin 0%nat 1 (-2); ShLin 1%nat 1 1; ShLin 2%nat 1 1], Some QST_e277);
  (63, 61, [ShLin 0%nat 1 (-2); ShLin 1%nat 1 1; ShLin 2%nat 1 1], [ShLin 0%nat 1 (-2); ShLin 1%nat 1 1; ShLin 2%nat 1 0], Some QST_e373);
  (63, 62, [ShLin 0%nat 1 (-2); ShLin 1%nat 1 1; ShLin 2%nat 1 1], [ShLin 0%nat 1 (-2); ShLin 1%nat 1 1; ShLin 2%nat 1 1], Some QST_e262);
  (63, 63, [ShLin 0%nat 1 (-2); ShLin 1%nat 1 1; ShLin 2%nat 1 1], [ShLin 0%nat 1 (-2); ShLin 1%nat 1 1; ShLin 2%nat 1 2], Some (cN 1));
  (64, 64, [ShLin 0%nat 1 (-3); ShLin 1%nat 1 0; ShLin 2%nat 1 0], [ShLin 0%nat 1 (-3); ShLin 1%nat 1 0; ShLin 2%nat 1 1], Some (cN 1))].
(** /repo/c++/symmetry/nrg-recalc-QST.hpp recalc_orb_triplet, qst/qst-orb-tripletm.dat *)
Definition qst_t17 : ten_table := mk_ten "orb_triplet" [ShLin 0%nat 1 0; ShLin 1%nat 1 0; ShLin 2%nat 1 (-1)] [0; 1; 1] [
  (1, 1, [ShLin 0%nat 1 3; ShLin 1%nat 1 0; ShLin 2%nat 1 0], [ShLin 0%nat 1 3; ShLin 1%nat 1 0; ShLin 2%nat 1 (-1)], Some (cN 1));
  (2, 2, [ShLin 0%nat 1 2; ShLin 1%nat 1 (-1); ShLin 2%nat 1 (-1)], [ShLin 0%nat 1 2; ShLin 1%nat 1 (-1); ShLin 2%nat 1 (-2)], Some (cN 1));
  (2, 3, [ShLin 0%nat 1 2; ShLin 1%nat 1 (-1); ShLin 2%nat 1 (-1)], [ShLin 0%nat 1 2; ShLin 1%nat 1 (-1); ShLin 2%nat 1 (-1)], Some (cD (cN 1) (cV 2)));
  (2, 4, [ShLin 0%nat 1 2; ShLin 1%nat 1 (-1); ShLin 2%nat 1 (-1)], [ShLin 0%nat 1 2; ShLin 1%nat 1 (-1); ShLin 2%nat 1 0], Some QST_e48);
  (3, 3, [ShLin 0%nat 1 2; ShLin 1%nat 1 (-1); ShLin 2%nat 1 0], [ShLin 0%nat 1 2; ShLin 1%nat 1 (-1); ShLin 2%nat 1 (-1)], Some QST_e51);
  (3, 4, [ShLin 0%nat 1 2; ShLin 1%nat 1 (-1); ShLin 2%nat 1 0], [ShLin 0%nat 1 2; ShLin 1%nat 1 (-1); ShLin 2%nat 1 0], Some QST_e108);
  (4, 4, [ShLin 0%nat 1 2; ShLin 1%nat 1 (-1); ShLin 2%nat 1 1], [ShLin 0%nat 1 2; ShLin 1%nat 1 (-1); ShLin 2%nat 1 0], Some QST_e111);
  (5, 5, [ShLin 0%nat 1 2; ShLin 1%nat 1 1; ShLin 2%nat 1 (-1)], [ShLin 0%nat 1 2; ShLin 1%nat 1 1; ShLin 2%nat 1 (-2)], Some (cN 1));
  (5, 6, [ShLin 0%nat 1 2; ShLin 1%nat 1 1; ShLin 2%nat 1 (-1)], [ShLin 0%nat 1 2; ShLin 1%nat 1 1; ShLin 2%nat 1 (-1)], Some (cD (cN 1) (cV 2)));
  (5, 7, [ShLin 0%nat 1 2; ShLin 1%nat 1 1; ShLin 2%nat 1 (-1)], [ShLin 0%nat 1 2; ShLin 1%nat 1 1; ShLin 2%nat 1 0], Some QST_e48);
  (6, 6, [ShLin 0%nat 1 2; ShLin 1%nat 1 1; ShLin 2%nat 1 0], [ShLin 0%nat 1 2; ShLin 1%nat 1 1; ShLin 2%nat 1 (-1)], Some QST_e51);
  (6, 7, [ShLin 0%nat 1 2; ShLin 1%nat 1 1; ShLin 2%nat 1 0], [ShLin 0%nat 1 2; ShLin 1%nat 1 1; ShLin 2%nat 1 0], Some QST_e52);
  (7, 7, [ShLin 0%nat 1 2; ShLin 1%nat 1 1; ShLin 2%nat 1 1], [ShLin 0%nat 1 2; ShLin 1%nat 1 1; ShLin 2%nat 1 0], Some QST_e368);
  (8, 8, [ShLin 0%nat 1 1; ShLin 1%nat 1 0; ShLin 2%nat 1 0], [ShLin 0%nat 1 1; ShLin 1%nat 1 0; ShLin 2%nat 1 (-1)], Some (cN 1));
  (9, 9, [ShLin 0%nat 1 1; ShLin 1%nat 1 0; ShLin 2%nat 1 (-2)], [ShLin 0%nat 1 1; ShLin 1%nat 1 0; ShLin 2%nat 1 (-3)], Some (cN 1));
  (9, 10, [ShLin 0%nat 1 1; ShLin 1%nat 1 0; ShLin 2%nat 1 (-2)], [ShLin 0%nat 1 1; ShLin 1%nat 1 0; ShLin 2%nat 1 (-2)], Some QST_e16);
  (9, 11, [ShLin 0%nat 1 1; ShLin 1%nat 1 0; ShLin 2%nat 1 (-2)], [ShLin 0%nat 1 1; ShLin 1%nat 1 0; ShLin 2%nat 1 (-1)], Some QST_e17);
  (10, 10, [ShLin 0%nat 1 1; ShLin 1%nat 1 0; ShLin 2%nat 1 (-1)], [ShLin 0%nat 1 1; ShLin 1%nat 1 0; ShLin 2%nat 1 (-2)], Some QST_e18);
  (10, 11, [ShLin 0%nat 1 1; ShLin 1%nat 1 0; ShLin 2%nat 1 (-1)], [ShLin 0%nat 1 1; ShLin 1%nat 1 0; ShLin 2%nat 1 (-1)], Some QST_e19);
  (10, 12, [ShLin 0%nat 1 1; ShLin 1%nat 1 0; ShLin 2%nat 1 (-1)], [ShLin 0%nat 1 1; ShLin 1%nat 1 0; ShLin 2%nat 1 0], Some QST_e20);
  (11, 11, [ShLin 0%nat 1 1; ShLin 1%nat 1 0; ShLin 2%nat 1 0], [ShLin 0%nat 1 1; ShLin 1%nat 1 0; ShLin 2%nat 1 (-1)], Some QST_e21);
  (11, 12, [ShLin 0%nat 1 1; ShLin 1%nat 1 0; ShLin 2%nat 1 0], [ShLin 0%nat 1 1; ShLin 1%nat 1 0; ShLin 2%nat 1 0], Some QST_e22);
  (11, 13, [ShLin 0%nat 1 1; ShLin 1%nat 1 0; ShLin 2%nat 1 0], [ShLin 0%nat 1 1; ShLin 1%nat 1 0; ShLin 2%nat 1 1], Some QST_e23);
  (12, 12, [ShLin 0%nat 1 1; ShLin 1%nat 1 0; ShLin 2%nat 1 1], [ShLin 0%nat 1 1; ShLin 1%nat 1 0; ShLin 2%nat 1 0], Some QST_e24);
  (12, 13, [ShLin 0%nat 1 1; ShLin 1%nat 1 0; ShLin 2%nat 1 1], [ShLin 0%nat 1 1; ShLin 1%nat 1 0; ShLin 2%nat 1 1], Some QST_e25);
  (13, 13, [ShLin 0%nat 1 1; ShLin 1%nat 1 0; ShLin 2%nat 1 2], [ShLin 0%nat 1 1; ShLin 1%nat 1 0; ShLin 2%nat 1 1], Some QST_e26);
  (14, 14, [ShLin 0%nat 1 1; ShLin 1%nat 1 (-2); ShLin 2%nat 1 (-1)], [ShLin 0%nat 1 1; ShLin 1%nat 1 (-2); ShLin 2%nat 1 (-2)], Some (cN 1));
  (14, 15, [ShLin 0%nat 1 1; ShLin 1%nat 1 (-2); ShLin 2%nat 1 (-1)], [ShLin 0%nat 1 1; ShLin 1%nat 1 (-2); ShLin 2%nat 1 (-1)], Some (cD (cN 1) (cV 2)));
  (14, 16, [ShLin 0%nat 1 1; ShLin 1%nat 1 (-2); ShLin 2%nat 1 (-1)], [ShLin 0%nat 1 1; ShLin 1%nat 1 (-2); ShLin 2%nat 1 0], Some QST_e48);
  (15, 15, [ShLin 0%nat 1 1; ShLin 1%nat 1 (-2); ShLin 2%nat 1 0], [ShLin 0%nat 1 1; ShLin 1%nat 1 (-2); ShLin 2%nat 1 (-1)], Some QST_e51);
  (15, 16, [ShLin 0%nat 1 1; ShLin 1%nat 1 (-2); ShLin 2%nat 1 0], [ShLin 0%nat 1 1; ShLin 1%nat 1 (-2); ShLin 2%nat 1 0], Some QST_e108);
  (16, 16, [ShLin 0%nat 1 1; ShLin 1%nat 1 (-2); ShLin 2%nat 1 1], [ShLin 0%nat 1 1; ShLin 1%nat 1 (-2); ShLin 2%nat 1 0], Some QST_e111);
  (17, 17, [ShLin 0%nat 1 1; ShLin 1%nat 1 0; ShLin 2%nat 1 (-1)], [ShLin 0%nat 1 1; ShLin 1%nat 1 0; ShLin 2%nat 1 (-2)], Some (cN 1));
  (17, 18, [ShLin 0%nat 1 1; ShLin 1%nat 1 0; ShLin 2%nat 1 (-1)], [ShLin 0%nat 1 1; ShLin 1%nat 1 0; ShLin 2%nat 1 (-1)], Some (cD (cN 1) (cV 2)));
  (17, 19, [ShLin 0%nat 1 1; ShLin 1%nat 1 0; ShLin 2%nat 1 (-1)], [ShLin 0%nat 1 1; ShLin 1%nat 1 0; ShLin 2%nat 1 0], Some QST_e48);
  (18, 18, [ShLin 0%nat 1 1; ShLin 1%nat 1 0; ShLin 2%nat 1 0], [ShLin 0%nat 1 1; ShLin 1%nat 1 0; ShLin 2%nat 1 (-1)], Some QST_e846);
  (18, 19, [ShLin 0%nat 1 1; ShLin 1%nat 1 0; ShLin 2%nat 1 0], [ShLin 0%nat 1 1; ShLin 1%nat 1 0; ShLin 2%nat 1 0], Some QST_e847);
  (19, 19, [ShLin 0%nat 1 1; ShLin 1%nat 1 0; ShLin 2%nat 1 1], [ShLin 0%nat 1 1; ShLin 1%nat 1 0; ShLin 2%nat 1 0], Some QST_e848);
  (20, 20, [ShLin 0%nat 1 1; ShLin 1%nat 1 2; ShLin 2%nat 1 (-1)], [ShLin 0%nat 1 1; ShLin 1%nat 1 2; ShLin 2%nat 1 (-2)], Some (cN 1));
  (20, 21, [ShLin 0%nat 1 1; ShLin 1%nat 1 2; ShLin 2%nat 1 (-1)], [ShLin 0%nat 1 1; ShLin 1%nat 1 2; ShLin 2%nat 1 (-1)], Some (cD (cN 1) (cV 2)));
  (20, 22, [ShLin 0%nat 1 1; ShLin 1%nat 1 2; ShLin 2%nat 1 (-1)], [ShLin 0%nat 1 1; ShLin 1%nat 1 2; ShLin 2%nat 1 0], Some QST_e48);
  (21, 21, [ShLin 0%nat 1 1; ShLin 1%nat 1 2; ShLin 2%nat 1 0], [ShLin 0%nat 1 1; ShLin 1%nat 1 2; ShLin 2%nat 1 (-1)], Some QST_e51);
  (21, 22, [ShLin 0%nat 1 1; ShLin 1%nat 1 2; ShLin 2%nat 1 0], [ShLin 0%nat 1 1; ShLin 1%nat 1 2; ShLin 2%nat 1 0], Some QST_e849);
  (22, 22, [ShLin 0%nat 1 1; ShLin 1%nat 1 2; ShLin 2%nat 1 1], [ShLin 0%nat 1 1; ShLin 1%nat 1 2; ShLin 2%nat 1 0], Some QST_e368);
  (23, 23, [ShLin 0%nat 1 0; ShLin 1%nat 1 (-1); ShLin 2%nat 1 (-1)], [ShLin 0%nat 1 0; ShLin 1%nat 1 (-1); ShLin 2%nat 1 (-2)], Some (cN 1));
  (23, 24, [ShLin 0%nat 1 0; ShLin 1%nat 1 (-1); ShLin 2%nat 1 (-1)], [ShLin 0%nat 1 0; ShLin 1%nat 1 (-1); ShLin 2%nat 1 (-1)], Some (cD (cN 1) (cV 2)));
  (23, 25, [ShLin 0%nat 1 0; ShLin 1%nat 1 (-1); ShLin 2%nat 1 (-1)], [ShLin 0%nat 1 0; ShLin 1%nat 1 (-1); ShLin 2%nat 1 0], Some QST_e48);
  (24, 24, [ShLin 0%nat 1 0; ShLin 1%nat 1 (-1); ShLin 2%nat 1 0], [ShLin 0%nat 1 0; ShLin 1%nat 1 (-1); ShLin 2%nat 1 (-1)], Some QST_e51);
  (24, 25, [ShLin 0%nat 1 0; ShLin 1%nat 1 (-1); ShLin 2%nat 1 0], [ShLin 0%nat 1 0; ShLin 1%nat 1 (-1); ShLin 2%nat 1 0], Some QST_e108);
  (25, 25, [ShLin 0%nat 1 0; ShLin 1%nat 1 (-1); ShLin 2%nat 1 1], [ShLin 0%nat 1 0; ShLin 1%nat 1 (-1); ShLin 2%nat 1 0], Some QST_e111);
  (26, 26, [ShLin 0%nat 1 0; ShLin 1%nat 1 1; ShLin 2%nat 1 (-1)], [ShLin 0%nat 1 0; ShLin 1%nat 1 1; ShLin 2%nat 1 (-2)], Some (cN 1));
  (26, 27, [ShLin 0%nat 1 0; ShLin 1%nat 1 1; ShLin 2%nat 1 (-1)], [ShLin 0%nat 1 0; ShLin 1%nat 1 1; ShLin 2%nat 1 (-1)], Some (cD (cN 1) (cV 2)));
  (26, 28, [ShLin 0%nat 1 0; ShLin 1%nat 1 1; ShLin 2%nat 1 (-1)], [ShLin 0%nat 1 0; ShLin 1%nat 1 1; ShLin 2%nat 1 0], Some QST_e48);
  (27, 27, [ShLin 0%nat 1 0; ShLin 1%nat 1 1; ShLin 2%nat 1 0], [ShLin 0%nat 1 0; ShLin 1%nat 1 1; ShLin 2%nat 1 (-1)], Some QST_e51);
  (27, 28, [ShLin 0%nat 1 0; ShLin 1%nat 1 1; ShLin 2%nat 1 0], [ShLin 0%nat 1 0; ShLin 1%nat 1 1; ShLin 2%nat 1 0], Some QST_e52);
  (28, 28, [ShLin 0%nat 1 0; ShLin 1%nat 1 1; ShLin 2%nat 1 1], [ShLin 0%nat 1 0; ShLin 1%nat 1 1; ShLin 2%nat 1 0], Some QST_e368);
  (29, 29, [ShLin 0%nat 1 0; ShLin 1%nat 1 (-1); ShLin 2%nat 1 (-2)], [ShLin 0%nat 1 0; ShLin 1%nat 1 (-1); ShLin 2%nat 1 (-3)], Some (cN 1));
  (29, 30, [ShLin 0%nat 1 0; ShLin 1%nat 1 (-1); ShLin 2%nat 1 (-2)], [ShLin 0%nat 1 0; ShLin 1%nat 1 (-1); ShLin 2%nat 1 (-2)], Some QST_e16);
  (29, 31, [ShLin 0%nat 1 0; ShLin 1%nat 1 (-1); ShLin 2%nat 1 (-2)], [ShLin 0%nat 1 0; ShLin 1%nat 1 (-1); ShLin 2%nat 1 (-1)], Some QST_e17);
  (30, 30, [ShLin 0%nat 1 0; ShLin 1%nat 1 (-1); ShLin 2%nat 1 (-1)], [ShLin 0%nat 1 0; ShLin 1%nat 1 (-1); ShLin 2%nat 1 (-2)], Some QST_e18);
  (30, 31, [ShLin 0%nat 1 0; ShLin 1%nat 1 (-1); ShLin 2%nat 1 (-1)], [ShLin 0%nat 1 0; ShLin 1%nat 1 (-1); ShLin 2%nat 1 (-1)], Some QST_e19);
  (30, 32, [ShLin 0%nat 1 0; ShLin 1%nat 1 (-1); ShLin 2%nat 1 (-1)], [ShLin 0%nat 1 0; ShLin 1%nat 1 (-1); ShLin 2%nat 1 0], Some QST_e20);
  (31, 31, [ShLin 0%nat 1 0; ShLin 1%nat 1 (-1); ShLin 2%nat 1 0], [ShLin 0%nat 1 0; ShLin 1%nat 1 (-1); ShLin 2%nat 1 (-1)], Some QST_e21);
  (31, 32, [ShLin 0%nat 1 0; ShLin 1%nat 1 (-1); ShLin 2%nat 1 0], [ShLin 0%nat 1 0; ShLin 1%nat 1 (-1); ShLin 2%nat 1 0], Some QST_e22);
  (31, 33, [ShLin 0%nat 1 0; ShLin 1%nat 1 (-1); ShLin 2%nat 1 0], [ShLin 0%nat 1 0; ShLin 1%nat 1 (-1); ShLin 2%nat 1 1], Some QST_e23);
  (32, 32, [ShLin 0%nat 1 0; ShLin 1%nat 1 (-1); ShLin 2%nat 1 1], [ShLin 0%nat 1 0; ShLin 1%nat 1 (-1); ShLin 2%nat 1 0], Some QST_e24);
  (32, 33, [ShLin 0%nat 1 0; ShLin 1%nat 1 (-1); ShLin 2%nat 1 1], [ShLin 0%nat 1 0; ShLin 1%nat 1 (-1); ShLin 2%nat 1 1], Some QST_e25);
  (33, 33, [ShLin 0%nat 1 0; ShLin 1%nat 1 (-1); ShLin 2%nat 1 2], [ShLin 0%nat 1 0; ShLin 1%nat 1 (-1); ShLin 2%nat 1 1], Some QST_e850);
  (34, 34, [ShLin 0%nat 1 0; ShLin 1%nat 1 1; ShLin 2%nat 1 (-2)], [ShLin 0%nat 1 0; ShLin 1%nat 1 1; ShLin 2%nat 1 (-3)], Some (cN 1));
  (34, 35, [ShLin 0%nat 1 0; ShLin 1%nat 1 1; ShLin 2%nat 1 (-2)], [ShLin 0%nat 1 0; ShLin 1%nat 1 1; ShLin 2%nat 1 (-2)], Some QST_e16);
  (34, 36, [ShLin 0%nat 1 0; ShLin 1%nat 1 1; ShLin 2%nat 1 (-2)], [ShLin 0%nat 1 0; ShLin 1%nat 1 1; ShLin 2%nat 1 (-1)], Some QST_e17);
  (35, 35, [ShLin 0%nat 1 0; ShLin 1%nat 1 1; ShLin 2%nat 1 (-1)], [ShLin 0%nat 1 0; ShLin 1%nat 1 1; ShLin 2%nat 1 (-2)], Some QST_e851);
  (35, 36, [ShLin 0%nat 1 0; ShLin 1%nat 1 1; ShLin 2%nat 1 (-1)], [ShLin 0%nat 1 0; ShLin 1%nat 1 1; ShLin 2%nat 1 (-1)], Some QST_e852);
  (35, 37, [ShLin 0%nat 1 0; ShLin 1%nat 1 1; ShLin 2%nat 1 (-1)], [ShLin 0%nat 1 0; ShLin 1%nat 1 1; ShLin 2%nat 1 0], Some QST_e20);
  (36, 36, [ShLin 0%nat 1 0; ShLin 1%nat 1 1; ShLin 2%nat 1 0], [ShLin 0%nat 1 0; ShLin 1%nat 1 1; ShLin 2%nat 1 (-1)], Some QST_e21);
  (36, 37, [ShLin 0%nat 1 0; ShLin 1%nat 1 1; ShLin 2%nat 1 0], [ShLin 0%nat 1 0; ShLin 1%nat 1 1; ShLin 2%nat 1 0], Some QST_e853);
  (36, 38, [ShLin 0%nat 1 0; ShLin 1%nat 1 1; ShLin 2%nat 1 0], [ShLin 0%nat 1 0; ShLin 1%nat 1 1; ShLin 2%nat 1 1], Some QST_e23);
  (37, 37, [ShLin 0%nat 1 0; ShLin 1%nat 1 1; ShLin 2%nat 1 1], [ShLin 0%nat 1 0; ShLin 1%nat 1 1; ShLin 2%nat 1 0], Some QST_e854);
  (37, 38, [ShLin 0%nat 1 0; ShLin 1%nat 1 1; ShLin 2%nat 1 1], [ShLin 0%nat 1 0; ShLin 1%nat 1 1; ShLin 2%nat 1 1], Some QST_e855);
  (38, 38, [ShLin 0%nat 1 0; ShLin 1%nat 1 1; ShLin 2%nat 1 2], [ShLin 0%nat 1 0; ShLin 1%nat 1 1; ShLin 2%nat 1 1], Some QST_e856);
  (39, 39, [ShLin 0%nat 1 0; ShLin 1%nat 1 (-3); ShLin 2%nat 1 0], [ShLin 0%nat 1 0; ShLin 1%nat 1 (-3); ShLin 2%nat 1 (-1)], Some (cN 1));
  (40, 40, [ShLin 0%nat 1 0; ShLin 1%nat 1 (-1); ShLin 2%nat 1 0], [ShLin 0%nat 1 0; ShLin 1%nat 1 (-1); ShLin 2%nat 1 (-1)], Some (cN 1));
  (41, 41, [ShLin 0%nat 1 0; ShLin 1%nat 1 1; ShLin 2%nat 1 0], [ShLin 0%nat 1 0; ShLin 1%nat 1 1; ShLin 2%nat 1 (-1)], Some (cN 1));
  (42, 42, [ShLin 0%nat 1 0; ShLin 1%nat 1 3; ShLin 2%nat 1 0], [ShLin 0%nat 1 0; ShLin 1%nat 1 3; ShLin 2%nat 1 (-1)], Some (cN 1));
  (43, 43, [ShLin 0%nat 1 (-1); ShLin 1%nat 1 0; ShLin 2%nat 1 0], [ShLin 0%nat 1 (-1); ShLin 1%nat 1 0; ShLin 2%nat 1 (-1)], Some (cN 1));
  (44, 44, [ShLin 0%nat 1 (-1); ShLin 1%nat 1 0; ShLin 2%nat 1 (-2)], [ShLin 0%nat 1 (-1); ShLin 1%nat 1 0; ShLin 2%nat 1 (-3)], Some (cN 1));
  (44, 45, [ShLin 0%nat 1 (-1); ShLin 1%nat 1 0; ShLin 2%nat 1 (-2)], [ShLin 0%nat 1 (-1); ShLin 1%nat 1 0; ShLin 2%nat 1 (-2)], Some QST_e16);
  (44, 46, [ShLin 0%nat 1 (-1); ShLin 1%nat 1 0; ShLin 2%nat 1 (-2)], [ShLin 0%nat 1 (-1); ShLin 1%nat 1 0; ShLin 2%nat 1 (-1)], Some QST_e17);
  (45, 45, [ShLin 0%nat 1 (-1); ShLin 1%nat 1 0; ShLin 2%nat 1 (-1)], [ShLin 0%nat 1 (-1); ShLin 1%nat 1 0; ShLin 2%nat 1 (-2)], Some QST_e18);
  (45, 46, [ShLin 0%nat 1 (-1); ShLin 1%nat 1 0; ShLin 2%nat 1 (-1)], [ShLin 0%nat 1 (-1); ShLin 1%nat 1 0; ShLin 2%nat 1 (-1)], Some QST_e19);
  (45, 47, [ShLin 0%nat 1 (-1); ShLin 1%nat 1 0; ShLin 2%nat 1 (-1)], [ShLin 0%nat 1 (-1); ShLin 1%nat 1 0; ShLin 2%nat 1 0], Some QST_e20);
  (46, 46, [ShLin 0%nat 1 (-1); ShLin 1%nat 1 0; ShLin 2%nat 1 0], [ShLin 0%nat 1 (-1); ShLin 1%nat 1 0; ShLin 2%nat 1 (-1)], Some QST_e21);
  (46, 47, [ShLin 0%nat 1 (-1); ShLin 1%nat 1 0; ShLin 2%nat 1 0], [ShLin 0%nat 1 (-1); ShLin 1%nat 1 0; ShLin 2%nat 1 0], Some QST_e22);
  (46, 48, [ShLin 0%nat 1 (-1); ShLin 1%nat 1 0; ShLin 2%nat 1 0], [ShLin 0%nat 1 (-1); ShLin 1%nat 1 0; ShLin 2%nat 1 1], Some QST_e23);
  (47, 47, [ShLin 0%nat 1 (-1); ShLin 1%nat 1 0; ShLin 2%nat 1 1], [ShLin 0%nat 1 (-1); ShLin 1%nat 1 0; ShLin 2%nat 1 0], Some QST_e24);
  (47, 48, [ShLin 0%nat 1 (-1); ShLin 1%nat 1 0; ShLin 2%nat 1 1], [ShLin 0%nat 1 (-1); ShLin 1%nat 1 0; ShLin 2%nat 1 1], Some QST_e25);
  (48, 48, [ShLin 0%nat 1 (-1); ShLin 1%nat 1 0; ShLin 2%nat 1 2], [ShLin 0%nat 1 (-1); ShLin 1%nat 1 0; ShLin 2%nat 1 1], Some QST_e26);
  (49, 49, [ShLin 0%nat 1 (-1); ShLin 1%nat 1 (-2); ShLin 2%nat 1 (-1)], [ShLin 0%nat 1 (-1); ShLin 1%nat 1 (-2); ShLin 2%nat 1 (-2)], Some (cN 1));
  (49, 50, [ShLin 0%nat 1 (-1); ShLin 1%nat 1 (-2); ShLin 2%nat 1 (-1)], [ShLin 0%nat 1 (-1); ShLin 1%nat 1 (-2); ShLin 2%nat 1 (-1)], Some (cD (cN 1) (cV 2)));
  (49, 51, [ShLin 0%nat 1 (-1); ShLin 1%nat 1 (-2); ShLin 2%nat 1 (-1)], [ShLin 0%nat 1 (-1); ShLin 1%nat 1 (-2); ShLin 2%nat 1 0], Some QST_e48);
  (50, 50, [ShLin 0%nat 1 (-1); ShLin 1%nat 1 (-2); ShLin 2%nat 1 0], [ShLin 0%nat 1 (-1); ShLin 1%nat 1 (-2); ShLin 2%nat 1 (-1)], Some QST_e51);
  (50, 51, [ShLin 0%nat 1 (-1); ShLin 1%nat 1 (-2); ShLin 2%nat 1 0], [ShLin 0%nat 1 (-1); ShLin 1%nat 1 (-2); ShLin 2%nat 1 0], Some QST_e108);
  (51, 51, [ShLin 0%nat 1 (-1); ShLin 1%nat 1 (-2); ShLin 2%nat 1 1], [ShLin 0%nat 1 (-1); ShLin 1%nat 1 (-2); ShLin 2%nat 1 0], Some QST_e111);
  (52, 52, [ShLin 0%nat 1 (-1); ShLin 1%nat 1 0; ShLin 2%nat 1 (-1)], [ShLin 0%nat 1 (-1); ShLin 1%nat 1 0; ShLin 2%nat 1 (-2)], Some (cN 1));
  (52, 53, [ShLin 0%nat 1 (-1); ShLin 1%nat 1 0; ShLin 2%nat 1 (-1)], [ShLin 0%nat 1 (-1); ShLin 1%nat 1 0; ShLin 2%nat 1 (-1)], Some (cD (cN 1) (cV 2)));
  (52, 54, [ShLin 0%nat 1 (-1); ShLin 1%nat 1 0; ShLin 2%nat 1 (-1)], [ShLin 0%nat 1 (-1); ShLin 1%nat 1 0; ShLin 2%nat 1 0], Some QST_e48);
  (53, 53, [ShLin 0%nat 1 (-1); ShLin 1%nat 1 0; ShLin 2%nat 1 0], [ShLin 0%nat 1 (-1); ShLin 1%nat 1 0; ShLin 2%nat 1 (-1)], Some QST_e846);
  (53, 54, [ShLin 0%nat 1 (-1); ShLin 1%nat 1 0; ShLin 2%nat 1 0], [ShLin 0%nat 1 (-1); ShLin 1%nat 1 0; ShLin 2%nat 1 0], Some QST_e847);
  (54, 54, [ShLin 0%nat 1 (-1); ShLin 1%nat 1 0; ShLin 2%nat 1 1], [ShLin 0%nat 1 (-1); ShLin 1%nat 1 0; ShLin 2%nat 1 0], Some QST_e848);
  (55, 55, [ShLin 0%nat 1 (-1); ShLin 1%nat 1 2; ShLin 2%nat 1 (-1)], [ShLin 0%nat 1 (-1); ShLin 1%nat 1 2; ShLin 2%nat 1 (-2)], Some (cN 1));
  (55, 56, [ShLin 0%nat 1 (-1); ShLin 1%nat 1 2; ShLin 2%nat 1 (-1)], [ShLin 0%nat 1 (-1); ShLin 1%nat 1 2; ShLin 2%nat 1 (-1)], Some (cD (cN 1) (cV 2)));
  (55, 57, [ShLin 0%nat 1 (-1); ShLin 1%nat 1 2; ShLin 2%nat 1 (-1)], [ShLin 0%nat 1 (-1); ShLin 1%nat 1 2; ShLin 2%nat 1 0], Some QST_e48);
  (56, 56, [ShLin 0%nat 1 (-1); ShLin 1%nat 1 2; ShLin 2%nat 1 0], [ShLin 0%nat 1 (-1); ShLin 1%nat 1 2; ShLin 2%nat 1 (-1)], Some QST_e51);
  (56, 57, [ShLin 0%nat 1 (-1); ShLin 1%nat 1 2; ShLin 2%nat 1 0], [ShLin 0%nat 1 (-1); ShLin 1%nat 1 2; ShLin 2%nat 1 0], Some QST_e849);
  (57, 57, [ShLin 0%nat 1 (-1); ShLin 1%nat 1 2; ShLin 2%nat 1 1], [ShLin 0%nat 1 (-1); ShLin 1%nat 1 2; ShLin 2%nat 1 0], Some QST_e368);
  (58, 58, [ShLin 0%nat 1 (-2); ShLin 1%nat 1 (-1); ShLin 2%nat 1 (-1)], [ShLin 0%nat 1 (-2); ShLin 1%nat 1 (-1); ShLin 2%nat 1 (-2)], Some (cN 1));
  (58, 59, [ShLin 0%nat 1 (-2); ShLin 1%nat 1 (-1); ShLin 2%nat 1 (-1)], [ShLin 0%nat 1 (-2); ShLin 1%nat 1 (-1); ShLin 2%nat 1 (-1)], Some (cD (cN 1) (cV 2)));
  (58, 60, [ShLin 0%nat 1 (-2); ShLin 1%nat 1 (-1); ShLin 2%nat 1 (-1)], [ShLin 0%nat 1 (-2); ShLin 1%nat 1 (-1); ShLin 2%nat 1 0], Some QST_e48);
  (59, 59, [ShLin 0%nat 1 (-2); ShLin 1%nat 1 (-1); ShLin 2%nat 1 0], [ShLin 0%nat 1 (-2); ShLin 1%nat 1 (-1); ShLin 2%nat 1 (-1)], Some QST_e51);
  (59, 60, [ShLin 0%nat 1 (-2); ShLin 1%nat 1 (-1); ShLin 2%nat 1 0], [ShLin 0%nat 1 (-2); ShLin 1%nat 1 (-1); ShLin 2%nat 1 0], Some QST_e108);
  (60, 60, [ShLin 0%nat 1 (-2); ShLin 1%nat 1 (-1); ShLin 2%nat 1 1], [ShLin 0%nat 1 (-2); ShLin 1%nat 1 (-1); ShLin 2%nat 1 0], Some QST_e111);
  (61, 61, [ShLin 0%nat 1 (-2); ShLin 1%nat 1 1; ShLin 2%nat 1 (-1)], [ShLin 0%nat 1 (-2); ShLin 1%nat 1 1; ShLin 2%nat 1 (-2)], Some (cN 1));
  (61, 62, [ShLin 0%nat 1 (-2); ShLin 1%nat 1 1; ShLin 2%nat 1 (-1)], [ShLin 0%nat 1 (-2); ShLin 1%nat 1 1; ShLin 2%nat 1 (-1)], Some (cD (cN 1) (cV 2)));
  (61, 63, [ShLin 0%nat 1 (-2); ShLin 1%nat 1 1; ShLin 2%nat 1 (-1)], [ShLin 0%nat 1 (-2); ShLin 1%nat 1 1; ShLin 2%nat 1 0], Some QST_e48);
  (62, 62, [ShLin 0%nat 1 (-2); ShLin 1%nat 1 1; ShLin 2%nat 1 0], [ShLin 0%nat 1 (-2); ShLin 1%nat 1 1; ShLin 2%nat 1 (-1)], Some QST_e51);
  (62, 63, [ShLin 0%nat 1 (-2); ShLin 1%nat 1 1; ShLin 2%nat 1 0], [ShLin 0%nat 1 (-2); ShLin 1%nat 1 1; ShLin 2%nat 1 0], Some QST_e52);
  (63, 63, [ShLin 0%nat 1 (-2); ShLin 1%nat 1 1; ShLin 2%nat 1 1], [ShLin 0%nat 1 (-2); ShLin 1%nat 1 1; ShLin 2%nat 1 0], Some QST_e368);
  (64, 64, [ShLin 0%nat 1 (-3); ShLin 1%nat 1 0; ShLin 2%nat 1 0], [ShLin 0%nat 1 (-3); ShLin 1%nat 1 0; ShLin 2%nat 1 (-1)], Some (cN 1))].
(** /repo/c++/symmetry/sym-QST-impl.hpp, make_matrix  *)
Definition qst_m0_o : list off_line := [
  (1, 2, 0, 0, "xi", Some (cN 1));
  (1, 3, 0, 0, "xi", Some (cN 1));
  (1, 4, 0, 0, "xi", Some (cN 1));
  (1, 5, 0, 0, "xi", Some (cN 1));
  (1, 6, 0, 0, "xi", Some (cN 1));
  (1, 7, 0, 0, "xi", Some (cN 1));
  (2, 8, 0, 0, "xi", Some QST_e857);
  (2, 9, 0, 0, "xi", Some QST_e858);
  (2, 10, 0, 0, "xi", Some QST_e859);
  (2, 11, 0, 0, "xi", Some QST_e860);
  (2, 14, 0, 0, "xi", Some QST_e861);
  (2, 15, 0, 0, "xi", Some QST_e862);
  (2, 17, 0, 0, "xi", Some QST_e863);
  (2, 18, 0, 0, "xi", Some QST_e864);
  (3, 8, 0, 0, "xi", Some QST_e865);
  (3, 10, 0, 0, "xi", Some QST_e866);
  (3, 11, 0, 0, "xi", Some QST_e867);
  (3, 12, 0, 0, "xi", Some QST_e868);
  (3, 14, 0, 0, "xi", Some QST_e869);
  (3, 15, 0, 0, "xi", Some QST_e527);
  (3, 16, 0, 0, "xi", Some QST_e870);
  (3, 17, 0, 0, "xi", Some QST_e871);
  (3, 18, 0, 0, "xi", Some QST_e872);
  (3, 19, 0, 0, "xi", Some QST_e873);
  (4, 8, 0, 0, "xi", Some QST_e874);
  (4, 11, 0, 0, "xi", Some QST_e875);
  (4, 12, 0, 0, "xi", Some QST_e876);
  (4, 13, 0, 0, "xi", Some QST_e877);
  (4, 15, 0, 0, "xi", Some QST_e878);
  (4, 16, 0, 0, "xi", Some QST_e879);
  (4, 18, 0, 0, "xi", Some QST_e880);
  (4, 19, 0, 0, "xi", Some QST_e881);
  (5, 8, 0, 0, "xi", Some QST_e882);
  (5, 9, 0, 0, "xi", Some QST_e883);
  (5, 10, 0, 0, "xi", Some QST_e884);
  (5, 11, 0, 0, "xi", Some QST_e885);
  (5, 17, 0, 0, "xi", Some QST_e886);
  (5, 18, 0, 0, "xi", Some QST_e887);
  (5, 20, 0, 0, "xi", Some QST_e861);
  (5, 21, 0, 0, "xi", Some QST_e862);
  (6, 8, 0, 0, "xi", Some QST_e888);
  (6, 10, 0, 0, "xi", Some QST_e889);
  (6, 11, 0, 0, "xi", Some QST_e890);
  (6, 12, 0, 0, "xi", Some QST_e891);
  (6, 17, 0, 0, "xi", Some QST_e892);
  (6, 18, 0, 0, "xi", Some QST_e893);
  (6, 19, 0, 0, "xi", Some QST_e894);
  (6, 20, 0, 0, "xi", Some QST_e869);
  (6, 21, 0, 0, "xi", Some QST_e895);
  (6, 22, 0, 0, "xi", Some QST_e468);
  (7, 8, 0, 0, "xi", Some QST_e896);
  (7, 11, 0, 0, "xi", Some QST_e897);
  (7, 12, 0, 0, "xi", Some QST_e898);
  (7, 13, 0, 0, "xi", Some QST_e899);
  (7, 18, 0, 0, "xi", Some QST_e900);
  (7, 19, 0, 0, "xi", Some QST_e901);
  (7, 21, 0, 0, "xi", Some QST_e902);
  (7, 22, 0, 0, "xi", Some QST_e879);
  (8, 23, 0, 0, "xi", Some (cO (cR (cQ 2 3))));
  (8, 24, 0, 0, "xi", Some (cO (cR (cQ 2 3))));
  (8, 25, 0, 0, "xi", Some (cO (cR (cQ 2 3))));
  (8, 26, 0, 0, "xi", Some (cO (cR (cQ 2 3))));
  (8, 27, 0, 0, "xi", Some (cO (cR (cQ 2 3))));
  (8, 28, 0, 0, "xi", Some (cO (cR (cQ 2 3))));
  (9, 23, 0, 0, "xi", Some QST_e903);
  (9, 26, 0, 0, "xi", Some QST_e903);
  (9, 29, 0, 0, "xi", Some QST_e904);
  (9, 30, 0, 0, "xi", Some QST_e905);
  (9, 34, 0, 0, "xi", Some QST_e906);
  (9, 35, 0, 0, "xi", Some QST_e905);
  (10, 23, 0, 0, "xi", Some QST_e907);
  (10, 24, 0, 0, "xi", Some QST_e908);
  (10, 26, 0, 0, "xi", Some QST_e907);
  (10, 27, 0, 0, "xi", Some QST_e909);
  (10, 29, 0, 0, "xi", Some QST_e910);
  (10, 30, 0, 0, "xi", Some QST_e911);
  (10, 31, 0, 0, "xi", Some QST_e912);
  (10, 34, 0, 0, "xi", Some QST_e910);
  (10, 35, 0, 0, "xi", Some QST_e911);
  (10, 36, 0, 0, "xi", Some QST_e913);
  (11, 23, 0, 0, "xi", Some QST_e914);
  (11, 24, 0, 0, "xi", Some QST_e915);
  (11, 25, 0, 0, "xi", Some QST_e472);
  (11, 26, 0, 0, "xi", Some QST_e914);
  (11, 27, 0, 0, "xi", Some QST_e916);
  (11, 28, 0, 0, "xi", Some QST_e472);
  (11, 30, 0, 0, "xi", Some QST_e917);
  (11, 31, 0, 0, "xi", Some QST_e918);
  (11, 32, 0, 0, "xi", Some QST_e919);
  (11, 35, 0, 0, "xi", Some QST_e917);
  (11, 36, 0, 0, "xi", Some QST_e920);
  (11, 37, 0, 0, "xi", Some QST_e921);
  (12, 24, 0, 0, "xi", Some QST_e922);
  (12, 25, 0, 0, "xi", Some QST_e923);
  (12, 27, 0, 0, "xi", Some QST_e924);
  (12, 28, 0, 0, "xi", Some QST_e925);
  (12, 31, 0, 0, "xi", Some QST_e926);
  (12, 32, 0, 0, "xi", Some QST_e927);
  (12, 33, 0, 0, "xi", Some QST_e928);
  (12, 36, 0, 0, "xi", Some QST_e929);
  (12, 37, 0, 0, "xi", Some QST_e927);
  (12, 38, 0, 0, "xi", Some QST_e928);
  (13, 25, 0, 0, "xi", Some QST_e930);
  (13, 28, 0, 0, "xi", Some QST_e931);
  (13, 32, 0, 0, "xi", Some QST_e932);
  (13, 33, 0, 0, "xi", Some QST_e933);
  (13, 37, 0, 0, "xi", Some QST_e934);
  (13, 38, 0, 0, "xi", Some QST_e935);
  (14, 23, 0, 0, "xi", Some QST_e936);
  (14, 24, 0, 0, "xi", Some QST_e937);
  (14, 29, 0, 0, "xi", Some QST_e938);
  (14, 30, 0, 0, "xi", Some QST_e939);
  (14, 31, 0, 0, "xi", Some QST_e940);
  (14, 39, 0, 0, "xi", Some QST_e941);
  (14, 40, 0, 0, "xi", Some QST_e942);
  (15, 23, 0, 0, "xi", Some QST_e943);
  (15, 24, 0, 0, "xi", Some QST_e944);
  (15, 25, 0, 0, "xi", Some QST_e945);
  (15, 30, 0, 0, "xi", Some QST_e946);
  (15, 31, 0, 0, "xi", Some QST_e947);
  (15, 32, 0, 0, "xi", Some QST_e948);
  (15, 39, 0, 0, "xi", Some (cN (-1)));
  (15, 40, 0, 0, "xi", Some QST_e949);
  (16, 24, 0, 0, "xi", Some QST_e950);
  (16, 25, 0, 0, "xi", Some QST_e951);
  (16, 31, 0, 0, "xi", Some QST_e952);
  (16, 32, 0, 0, "xi", Some QST_e953);
  (16, 33, 0, 0, "xi", Some QST_e954);
  (16, 39, 0, 0, "xi", Some QST_e955);
  (16, 40, 0, 0, "xi", Some QST_e956);
  (17, 23, 0, 0, "xi", Some QST_e957);
  (17, 24, 0, 0, "xi", Some QST_e958);
  (17, 26, 0, 0, "xi", Some QST_e959);
  (17, 27, 0, 0, "xi", Some QST_e960);
  (17, 29, 0, 0, "xi", Some QST_e961);
  (17, 30, 0, 0, "xi", Some QST_e962);
  (17, 31, 0, 0, "xi", Some QST_e963);
  (17, 34, 0, 0, "xi", Some QST_e964);
  (17, 35, 0, 0, "xi", Some QST_e965);
  (17, 36, 0, 0, "xi", Some QST_e966);
  (17, 40, 0, 0, "xi", Some QST_e967);
  (17, 41, 0, 0, "xi", Some QST_e968);
  (18, 23, 0, 0, "xi", Some QST_e969);
  (18, 24, 0, 0, "xi", Some QST_e970);
  (18, 25, 0, 0, "xi", Some QST_e971);
  (18, 26, 0, 0, "xi", Some QST_e972);
  (18, 27, 0, 0, "xi", Some QST_e973);
  (18, 28, 0, 0, "xi", Some QST_e974);
  (18, 30, 0, 0, "xi", Some QST_e975);
  (18, 31, 0, 0, "xi", Some QST_e976);
  (18, 32, 0, 0, "xi", Some QST_e977);
  (18, 35, 0, 0, "xi", Some QST_e978);
  (18, 36, 0, 0, "xi", Some QST_e979);
  (18, 37, 0, 0, "xi", Some QST_e980);
  (18, 40, 0, 0, "xi", Some QST_e981);
  (18, 41, 0, 0, "xi", Some QST_e548);
  (19, 24, 0, 0, "xi", Some QST_e982);
  (19, 25, 0, 0, "xi", Some QST_e983);
  (19, 27, 0, 0, "xi", Some QST_e984);
  (19, 28, 0, 0, "xi", Some QST_e985);
  (19, 31, 0, 0, "xi", Some QST_e986);
  (19, 32, 0, 0, "xi", Some QST_e987);
  (19, 33, 0, 0, "xi", Some QST_e988);
  (19, 36, 0, 0, "xi", Some QST_e989);
  (19, 37, 0, 0, "xi", Some QST_e990);
  (19, 38, 0, 0, "xi", Some QST_e991);
  (19, 40, 0, 0, "xi", Some QST_e992);
  (19, 41, 0, 0, "xi", Some QST_e993);
  (20, 26, 0, 0, "xi", Some QST_e994);
  (20, 27, 0, 0, "xi", Some QST_e995);
  (20, 34, 0, 0, "xi", Some QST_e996);
  (20, 35, 0, 0, "xi", Some QST_e997);
  (20, 36, 0, 0, "xi", Some QST_e998);
  (20, 41, 0, 0, "xi", Some QST_e999);
  (20, 42, 0, 0, "xi", Some QST_e1000);
  (21, 26, 0, 0, "xi", Some QST_e1001);
  (21, 27, 0, 0, "xi", Some QST_e1002);
  (21, 28, 0, 0, "xi", Some QST_e1003);
  (21, 35, 0, 0, "xi", Some QST_e1004);
  (21, 36, 0, 0, "xi", Some QST_e1005);
  (21, 37, 0, 0, "xi", Some QST_e1006);
  (21, 41, 0, 0, "xi", Some QST_e1007);
  (21, 42, 0, 0, "xi", Some (cN (-1)));
  (22, 27, 0, 0, "xi", Some QST_e1008);
  (22, 28, 0, 0, "xi", Some QST_e1009);
  (22, 36, 0, 0, "xi", Some QST_e1010);
  (22, 37, 0, 0, "xi", Some QST_e1011);
  (22, 38, 0, 0, "xi", Some QST_e996);
  (22, 41, 0, 0, "xi", Some QST_e1012);
  (22, 42, 0, 0, "xi", Some QST_e955);
  (23, 43, 0, 0, "xi", Some QST_e1013);
  (23, 44, 0, 0, "xi", Some QST_e1014);
  (23, 45, 0, 0, "xi", Some QST_e1015);
  (23, 46, 0, 0, "xi", Some QST_e1016);
  (23, 49, 0, 0, "xi", Some QST_e715);
  (23, 50, 0, 0, "xi", Some QST_e1017);
  (23, 52, 0, 0, "xi", Some QST_e1018);
  (23, 53, 0, 0, "xi", Some QST_e1019);
  (24, 43, 0, 0, "xi", Some QST_e1020);
  (24, 45, 0, 0, "xi", Some QST_e1021);
  (24, 46, 0, 0, "xi", Some QST_e1022);
  (24, 47, 0, 0, "xi", Some QST_e1023);
  (24, 49, 0, 0, "xi", Some QST_e559);
  (24, 50, 0, 0, "xi", Some QST_e561);
  (24, 51, 0, 0, "xi", Some QST_e500);
  (24, 52, 0, 0, "xi", Some QST_e1024);
  (24, 53, 0, 0, "xi", Some QST_e1025);
  (24, 54, 0, 0, "xi", Some QST_e1026);
  (25, 43, 0, 0, "xi", Some QST_e1027);
  (25, 46, 0, 0, "xi", Some QST_e1028);
  (25, 47, 0, 0, "xi", Some QST_e1029);
  (25, 48, 0, 0, "xi", Some QST_e1030);
  (25, 50, 0, 0, "xi", Some QST_e1031);
  (25, 51, 0, 0, "xi", Some QST_e721);
  (25, 53, 0, 0, "xi", Some QST_e1032);
  (25, 54, 0, 0, "xi", Some QST_e1033);
  (26, 43, 0, 0, "xi", Some QST_e1034);
  (26, 44, 0, 0, "xi", Some QST_e1035);
  (26, 45, 0, 0, "xi", Some QST_e1036);
  (26, 46, 0, 0, "xi", Some QST_e1037);
  (26, 52, 0, 0, "xi", Some QST_e1038);
  (26, 53, 0, 0, "xi", Some QST_e1039);
  (26, 55, 0, 0, "xi", Some QST_e715);
  (26, 56, 0, 0, "xi", Some QST_e1040);
  (27, 43, 0, 0, "xi", Some QST_e1041);
  (27, 45, 0, 0, "xi", Some QST_e1042);
  (27, 46, 0, 0, "xi", Some QST_e1043);
  (27, 47, 0, 0, "xi", Some QST_e1044);
  (27, 52, 0, 0, "xi", Some QST_e1045);
  (27, 53, 0, 0, "xi", Some QST_e1046);
  (27, 54, 0, 0, "xi", Some QST_e1047);
  (27, 55, 0, 0, "xi", Some QST_e559);
  (27, 56, 0, 0, "xi", Some QST_e1048);
  (27, 57, 0, 0, "xi", Some QST_e500);
  (28, 43, 0, 0, "xi", Some QST_e1049);
  (28, 46, 0, 0, "xi", Some QST_e1050);
  (28, 47, 0, 0, "xi", Some QST_e1051);
  (28, 48, 0, 0, "xi", Some QST_e1052);
  (28, 53, 0, 0, "xi", Some QST_e1053);
  (28, 54, 0, 0, "xi", Some QST_e1054);
  (28, 56, 0, 0, "xi", Some QST_e1055);
  (28, 57, 0, 0, "xi", Some QST_e721);
  (29, 44, 0, 0, "xi", Some QST_e1056);
  (29, 45, 0, 0, "xi", Some QST_e1057);
  (29, 49, 0, 0, "xi", Some QST_e1058);
  (29, 52, 0, 0, "xi", Some QST_e1059);
  (30, 44, 0, 0, "xi", Some QST_e1060);
  (30, 45, 0, 0, "xi", Some QST_e1061);
  (30, 46, 0, 0, "xi", Some QST_e1062);
  (30, 49, 0, 0, "xi", Some QST_e559);
  (30, 50, 0, 0, "xi", Some QST_e1063);
  (30, 52, 0, 0, "xi", Some QST_e1064);
  (30, 53, 0, 0, "xi", Some QST_e1065);
  (31, 45, 0, 0, "xi", Some QST_e1066);
  (31, 46, 0, 0, "xi", Some QST_e1067);
  (31, 47, 0, 0, "xi", Some QST_e1068);
  (31, 49, 0, 0, "xi", Some QST_e628);
  (31, 50, 0, 0, "xi", Some QST_e1069);
  (31, 51, 0, 0, "xi", Some QST_e1070);
  (31, 52, 0, 0, "xi", Some QST_e1071);
  (31, 53, 0, 0, "xi", Some QST_e1072);
  (31, 54, 0, 0, "xi", Some QST_e1073);
  (32, 46, 0, 0, "xi", Some QST_e1074);
  (32, 47, 0, 0, "xi", Some QST_e1075);
  (32, 48, 0, 0, "xi", Some QST_e1076);
  (32, 50, 0, 0, "xi", Some QST_e1077);
  (32, 51, 0, 0, "xi", Some QST_e1078);
  (32, 53, 0, 0, "xi", Some QST_e1079);
  (32, 54, 0, 0, "xi", Some QST_e1080);
  (33, 47, 0, 0, "xi", Some QST_e1081);
  (33, 48, 0, 0, "xi", Some QST_e1082);
  (33, 51, 0, 0, "xi", Some QST_e1083);
  (33, 54, 0, 0, "xi", Some QST_e1084);
  (34, 44, 0, 0, "xi", Some QST_e1085);
  (34, 45, 0, 0, "xi", Some QST_e1086);
  (34, 52, 0, 0, "xi", Some QST_e1087);
  (34, 55, 0, 0, "xi", Some QST_e1058);
  (35, 44, 0, 0, "xi", Some QST_e1088);
  (35, 45, 0, 0, "xi", Some QST_e1089);
  (35, 46, 0, 0, "xi", Some QST_e1090);
  (35, 52, 0, 0, "xi", Some QST_e1091);
  (35, 53, 0, 0, "xi", Some QST_e1092);
  (35, 55, 0, 0, "xi", Some QST_e1093);
  (35, 56, 0, 0, "xi", Some QST_e1094);
  (36, 45, 0, 0, "xi", Some QST_e1095);
  (36, 46, 0, 0, "xi", Some QST_e1096);
  (36, 47, 0, 0, "xi", Some QST_e1097);
  (36, 52, 0, 0, "xi", Some QST_e1098);
  (36, 53, 0, 0, "xi", Some QST_e1099);
  (36, 54, 0, 0, "xi", Some QST_e1100);
  (36, 55, 0, 0, "xi", Some QST_e628);
  (36, 56, 0, 0, "xi", Some QST_e1069);
  (36, 57, 0, 0, "xi", Some QST_e514);
  (37, 46, 0, 0, "xi", Some QST_e1101);
  (37, 47, 0, 0, "xi", Some QST_e1102);
  (37, 48, 0, 0, "xi", Some QST_e1103);
  (37, 53, 0, 0, "xi", Some QST_e1104);
  (37, 54, 0, 0, "xi", Some QST_e1105);
  (37, 56, 0, 0, "xi", Some QST_e1106);
  (37, 57, 0, 0, "xi", Some QST_e1078);
  (38, 47, 0, 0, "xi", Some QST_e1107);
  (38, 48, 0, 0, "xi", Some QST_e1108);
  (38, 54, 0, 0, "xi", Some QST_e1109);
  (38, 57, 0, 0, "xi", Some QST_e1083);
  (39, 49, 0, 0, "xi", Some QST_e1110);
  (39, 50, 0, 0, "xi", Some QST_e1110);
  (39, 51, 0, 0, "xi", Some QST_e1110);
  (40, 49, 0, 0, "xi", Some QST_e1111);
  (40, 50, 0, 0, "xi", Some QST_e1111);
  (40, 51, 0, 0, "xi", Some QST_e1111);
  (40, 52, 0, 0, "xi", Some QST_e1112);
  (40, 53, 0, 0, "xi", Some QST_e1113);
  (40, 54, 0, 0, "xi", Some QST_e1114);
  (41, 52, 0, 0, "xi", Some QST_e1115);
  (41, 53, 0, 0, "xi", Some QST_e1115);
  (41, 54, 0, 0, "xi", Some QST_e1116);
  (41, 55, 0, 0, "xi", Some QST_e1117);
  (41, 56, 0, 0, "xi", Some QST_e1117);
  (41, 57, 0, 0, "xi", Some QST_e1117);
  (42, 55, 0, 0, "xi", Some QST_e1118);
  (42, 56, 0, 0, "xi", Some QST_e1119);
  (42, 57, 0, 0, "xi", Some QST_e1118);
  (43, 58, 0, 0, "xi", Some QST_e513);
  (43, 59, 0, 0, "xi", Some QST_e513);
  (43, 60, 0, 0, "xi", Some QST_e513);
  (43, 61, 0, 0, "xi", Some QST_e513);
  (43, 62, 0, 0, "xi", Some QST_e513);
  (43, 63, 0, 0, "xi", Some QST_e513);
  (44, 58, 0, 0, "xi", Some QST_e1120);
  (44, 61, 0, 0, "xi", Some QST_e1120);
  (45, 58, 0, 0, "xi", Some QST_e559);
  (45, 59, 0, 0, "xi", Some QST_e1121);
  (45, 61, 0, 0, "xi", Some QST_e559);
  (45, 62, 0, 0, "xi", Some QST_e1122);
  (46, 58, 0, 0, "xi", Some QST_e628);
  (46, 59, 0, 0, "xi", Some QST_e1123);
  (46, 60, 0, 0, "xi", Some QST_e514);
  (46, 61, 0, 0, "xi", Some QST_e628);
  (46, 62, 0, 0, "xi", Some QST_e1124);
  (46, 63, 0, 0, "xi", Some QST_e514);
  (47, 59, 0, 0, "xi", Some QST_e1125);
  (47, 60, 0, 0, "xi", Some QST_e1126);
  (47, 62, 0, 0, "xi", Some QST_e1127);
  (47, 63, 0, 0, "xi", Some QST_e1078);
  (48, 60, 0, 0, "xi", Some QST_e1128);
  (48, 63, 0, 0, "xi", Some QST_e1129);
  (49, 58, 0, 0, "xi", Some QST_e1130);
  (49, 59, 0, 0, "xi", Some QST_e1131);
  (50, 58, 0, 0, "xi", Some QST_e1132);
  (50, 59, 0, 0, "xi", Some QST_e1133);
  (50, 60, 0, 0, "xi", Some QST_e1134);
  (51, 59, 0, 0, "xi", Some QST_e1135);
  (51, 60, 0, 0, "xi", Some QST_e1136);
  (52, 58, 0, 0, "xi", Some QST_e1137);
  (52, 59, 0, 0, "xi", Some QST_e1138);
  (52, 61, 0, 0, "xi", Some QST_e1139);
  (52, 62, 0, 0, "xi", Some QST_e1140);
  (53, 58, 0, 0, "xi", Some QST_e1141);
  (53, 59, 0, 0, "xi", Some QST_e1142);
  (53, 60, 0, 0, "xi", Some QST_e1143);
  (53, 61, 0, 0, "xi", Some QST_e1144);
  (53, 62, 0, 0, "xi", Some QST_e1145);
  (53, 63, 0, 0, "xi", Some QST_e1146);
  (54, 59, 0, 0, "xi", Some QST_e1147);
  (54, 60, 0, 0, "xi", Some QST_e1148);
  (54, 62, 0, 0, "xi", Some QST_e1149);
  (54, 63, 0, 0, "xi", Some QST_e1150);
  (55, 61, 0, 0, "xi", Some QST_e1151);
  (55, 62, 0, 0, "xi", Some QST_e1152);
  (56, 61, 0, 0, "xi", Some QST_e1153);
  (56, 62, 0, 0, "xi", Some QST_e1154);
  (56, 63, 0, 0, "xi", Some QST_e1155);
  (57, 62, 0, 0, "xi", Some QST_e1156);
  (57, 63, 0, 0, "xi", Some QST_e1157);
  (58, 64, 0, 0, "xi", Some QST_e1158);
  (59, 64, 0, 0, "xi", Some QST_e858);
  (60, 64, 0, 0, "xi", Some QST_e1159);
  (61, 64, 0, 0, "xi", Some QST_e1160);
  (62, 64, 0, 0, "xi", Some QST_e883);
  (63, 64, 0, 0, "xi", Some QST_e1161)].
(** /repo/c++/symmetry/sym-QST-impl.hpp, make_matrix  *)
Definition qst_m0_d : list diag_line := [
  (1, 0, "zeta", Some (cN 0));
  (2, 0, "zeta", Some (cN 1));
  (3, 0, "zeta", Some (cN 1));
  (4, 0, "zeta", Some (cN 1));
  (5, 0, "zeta", Some (cN 1));
  (6, 0, "zeta", Some (cN 1));
  (7, 0, "zeta", Some (cN 1));
  (8, 0, "zeta", Some (cN 2));
  (9, 0, "zeta", Some (cN 2));
  (10, 0, "zeta", Some (cN 2));
  (11, 0, "zeta", Some (cN 2));
  (12, 0, "zeta", Some (cN 2));
  (13, 0, "zeta", Some (cN 2));
  (14, 0, "zeta", Some (cN 2));
  (15, 0, "zeta", Some (cN 2));
  (16, 0, "zeta", Some (cN 2));
  (17, 0, "zeta", Some (cN 2));
  (18, 0, "zeta", Some (cN 2));
  (19, 0, "zeta", Some (cN 2));
  (20, 0, "zeta", Some (cN 2));
  (21, 0, "zeta", Some (cN 2));
  (22, 0, "zeta", Some (cN 2));
  (23, 0, "zeta", Some (cN 3));
  (24, 0, "zeta", Some (cN 3));
  (25, 0, "zeta", Some (cN 3));
  (26, 0, "zeta", Some (cN 3));
  (27, 0, "zeta", Some (cN 3));
  (28, 0, "zeta", Some (cN 3));
  (29, 0, "zeta", Some (cN 3));
  (30, 0, "zeta", Some (cN 3));
  (31, 0, "zeta", Some (cN 3));
  (32, 0, "zeta", Some (cN 3));
  (33, 0, "zeta", Some (cN 3));
  (34, 0, "zeta", Some (cN 3));
  (35, 0, "zeta", Some (cN 3));
  (36, 0, "zeta", Some (cN 3));
  (37, 0, "zeta", Some (cN 3));
  (38, 0, "zeta", Some (cN 3));
  (39, 0, "zeta", Some (cN 3));
  (40, 0, "zeta", Some (cN 3));
  (41, 0, "zeta", Some (cN 3));
  (42, 0, "zeta", Some (cN 3));
  (43, 0, "zeta", Some (cN 4));
  (44, 0, "zeta", Some (cN 4));
  (45, 0, "zeta", Some (cN 4));
  (46, 0, "zeta", Some (cN 4));
  (47, 0, "zeta", Some (cN 4));
  (48, 0, "zeta", Some (cN 4));
  (49, 0, "zeta", Some (cN 4));
  (50, 0, "zeta", Some (cN 4));
  (51, 0, "zeta", Some (cN 4));
  (52, 0, "zeta", Some (cN 4));
  (53, 0, "zeta", Some (cN 4));
  (54, 0, "zeta", Some (cN 4));
  (55, 0, "zeta", Some (cN 4));
  (56, 0, "zeta", Some (cN 4));
  (57, 0, "zeta", Some (cN 4));
  (58, 0, "zeta", Some (cN 5));
  (59, 0, "zeta", Some (cN 5));
  (60, 0, "zeta", Some (cN 5));
  (61, 0, "zeta", Some (cN 5));
  (62, 0, "zeta", Some (cN 5));
  (63, 0, "zeta", Some (cN 5));
  (64, 0, "zeta", Some (cN 6))].
(** /repo/c++/symmetry/sym-QST-impl.hpp, make_matrix  *)
Definition qst_m0_f : list dof_line := [
  ].
Definition coef_qst : coef_set := mk_coef "QST" 3%nat sym_QST {| tb_In := qst_In; tb_QN := qst_QN |}
  [qst_t6; qst_t7; qst_t8; qst_t9; qst_t10; qst_t11]
  [qst_t0; qst_t1; qst_t2; qst_t3; qst_t4; qst_t5; qst_t12; qst_t13; qst_t14; qst_t15; qst_t16; qst_t17]
  [mk_mode "default" qst_m0_o qst_m0_d qst_m0_f].
