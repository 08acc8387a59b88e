(** Generated by gen/gen_coef.py from /repo/c++/symmetry/{sym-SPSU2T-impl.hpp, nrg-recalc-SPSU2T.hpp, coefnew}. Do not edit. *)
From Coq Require Import List ZArith String.
From Verif Require Import Base Invar_model Symmetry_model Symmetry_tables Coef_model.
Import ListNotations.
Local Open Scope string_scope.
Local Open Scope list_scope.
Local Open Scope Z_scope.

Definition SPSU2T_e0 := (cD (cR (cN 2)) (cR (cM (cA (cN (-1)) (cV 1)) (cV 1)))).
Definition SPSU2T_e1 := (cD (cR (cN 6)) (cR (cM (cM (cV 1) (cA (cN 1) (cM (cN 2) (cV 1)))) (cA (cB (cN 1) (cM (cN 3) (cV 1))) (cM (cN 2) (cW (cV 1) 4)))))).
Definition SPSU2T_e2 := (cD (cN 1) (cR (cD (cM (cA (cN (-1)) (cV 1)) (cV 1)) (cA (cB (cN (-2)) (cV 1)) (cW (cV 1) 4))))).
Definition SPSU2T_e3 := (cD (cM (cA (cN (-3)) (cM (cN 2) (cV 1))) (cR (cD (cA (cA (cN 3) (cM (cN 9) (cV 1))) (cM (cN 6) (cW (cV 1) 4))) (cA (cB (cN 3) (cM (cN 5) (cV 1))) (cM (cN 2) (cW (cV 1) 4)))))) (cM (cV 1) (cA (cN 1) (cM (cN 2) (cV 1))))).
Definition SPSU2T_e4 := (cD (cN 3) (cA (cV 1) (cM (cN 2) (cW (cV 1) 4)))).
Definition SPSU2T_e5 := (cD (cM (cR (cD (cA (cN (-1)) (cV 1)) (cA (cA (cA (cN 3) (cM (cN 11) (cV 1))) (cM (cN 12) (cW (cV 1) 4))) (cM (cN 4) (cW (cV 1) 6))))) (cA (cA (cM (cN 6) (cR (cD (cB (cN 3) (cM (cN 2) (cV 1))) (cB (cN 1) (cM (cN 2) (cV 1)))))) (cM (cN 3) (cR (cA (cB (cN 3) (cM (cN 8) (cV 1))) (cM (cN 4) (cW (cV 1) 4)))))) (cM (cV 1) (cR (cA (cB (cN 3) (cM (cN 8) (cV 1))) (cM (cN 4) (cW (cV 1) 4))))))) (cV 1)).
Definition SPSU2T_e6 := (cD (cM (cR (cN 3)) (cR (cD (cA (cA (cN (-3)) (cV 1)) (cM (cN 2) (cW (cV 1) 4))) (cA (cA (cN 1) (cM (cN 3) (cV 1))) (cM (cN 2) (cW (cV 1) 4)))))) (cV 1)).
Definition SPSU2T_e7 := (cD (cR (cN 6)) (cR (cM (cM (cV 1) (cA (cN 1) (cM (cN 2) (cV 1)))) (cA (cA (cN 3) (cM (cN 5) (cV 1))) (cM (cN 2) (cW (cV 1) 4)))))).
Definition SPSU2T_e8 := (cD (cM (cR (cD (cA (cN (-1)) (cV 1)) (cV 1))) (cA (cA (cA (cA (cM (cM (cM (cV 1) (cW (cA (cN 1) (cV 1)) 3)) (cA (cN 1) (cM (cN 2) (cV 1)))) (cR (cA (cA (cA (cN (-6)) (cM (cN 5) (cV 1))) (cM (cN 12) (cW (cV 1) 4))) (cM (cN 4) (cW (cV 1) 6))))) (cM (cM (cN 9) (cW (cV 1) 4)) (cR (cD (cA (cA (cA (cN (-6)) (cM (cN 5) (cV 1))) (cM (cN 12) (cW (cV 1) 4))) (cM (cN 4) (cW (cV 1) 6))) (cA (cN 1) (cV 1)))))) (cM (cM (cN 6) (cW (cV 1) 6)) (cR (cD (cA (cA (cA (cN (-6)) (cM (cN 5) (cV 1))) (cM (cN 12) (cW (cV 1) 4))) (cM (cN 4) (cW (cV 1) 6))) (cA (cN 1) (cV 1)))))) (cM (cN 6) (cR (cA (cA (cA (cB (cN (-6)) (cV 1)) (cM (cN 17) (cW (cV 1) 4))) (cM (cN 16) (cW (cV 1) 6))) (cM (cN 4) (cW (cV 1) 8)))))) (cM (cM (cN 3) (cV 1)) (cA (cR (cD (cA (cA (cA (cN (-6)) (cM (cN 5) (cV 1))) (cM (cN 12) (cW (cV 1) 4))) (cM (cN 4) (cW (cV 1) 6))) (cA (cN 1) (cV 1)))) (cM (cN 3) (cR (cA (cA (cA (cB (cN (-6)) (cV 1)) (cM (cN 17) (cW (cV 1) 4))) (cM (cN 16) (cW (cV 1) 6))) (cM (cN 4) (cW (cV 1) 8))))))))) (cM (cW (cA (cN 1) (cV 1)) 4) (cA (cA (cA (cN 6) (cM (cN 19) (cV 1))) (cM (cN 16) (cW (cV 1) 4))) (cM (cN 4) (cW (cV 1) 6))))).
Definition SPSU2T_e9 := (cD (cM (cR (cN 2)) (cA (cA (cM (cN 6) (cR (cM (cV 1) (cA (cA (cN (-3)) (cM (cN 4) (cV 1))) (cM (cN 4) (cW (cV 1) 4)))))) (cM (cN 7) (cR (cM (cW (cV 1) 6) (cA (cA (cN (-3)) (cM (cN 4) (cV 1))) (cM (cN 4) (cW (cV 1) 4))))))) (cM (cN 2) (cR (cM (cW (cV 1) 10) (cA (cA (cN (-3)) (cM (cN 4) (cV 1))) (cM (cN 4) (cW (cV 1) 4)))))))) (cM (cM (cM (cV 1) (cA (cN 2) (cV 1))) (cA (cN 3) (cM (cN 2) (cV 1)))) (cR (cM (cA (cN 1) (cM (cN 2) (cV 1))) (cA (cA (cN 3) (cM (cN 5) (cV 1))) (cM (cN 2) (cW (cV 1) 4))))))).
Definition SPSU2T_e10 := (cD (cA (cA (cA (cM (cN 18) (cR (cD (cM (cV 1) (cA (cN (-1)) (cM (cN 2) (cV 1)))) (cA (cA (cN 6) (cM (cN 7) (cV 1))) (cM (cN 2) (cW (cV 1) 4)))))) (cM (cN 2) (cR (cD (cM (cV 1) (cA (cA (cN (-3)) (cM (cN 4) (cV 1))) (cM (cN 4) (cW (cV 1) 4)))) (cA (cN 2) (cV 1)))))) (cR (cM (cV 1) (cA (cA (cA (cN (-6)) (cM (cN 5) (cV 1))) (cM (cN 12) (cW (cV 1) 4))) (cM (cN 4) (cW (cV 1) 6)))))) (cM (cM (cN 2) (cV 1)) (cA (cA (cM (cN 6) (cR (cD (cM (cV 1) (cA (cN (-1)) (cM (cN 2) (cV 1)))) (cA (cA (cN 6) (cM (cN 7) (cV 1))) (cM (cN 2) (cW (cV 1) 4)))))) (cM (cN 2) (cR (cD (cM (cV 1) (cA (cA (cN (-3)) (cM (cN 4) (cV 1))) (cM (cN 4) (cW (cV 1) 4)))) (cA (cN 2) (cV 1)))))) (cR (cM (cV 1) (cA (cA (cA (cN (-6)) (cM (cN 5) (cV 1))) (cM (cN 12) (cW (cV 1) 4))) (cM (cN 4) (cW (cV 1) 6)))))))) (cM (cA (cN 3) (cM (cN 2) (cV 1))) (cR (cM (cV 1) (cA (cA (cA (cN 10) (cM (cN 29) (cV 1))) (cM (cN 20) (cW (cV 1) 4))) (cM (cN 4) (cW (cV 1) 6))))))).
Definition SPSU2T_e11 := (cD (cM (cN (-2)) (cR (cM (cH 0) (cA (cN 1) (cH 0))))) (cA (cN 1) (cM (cN 2) (cH 0)))).
Definition SPSU2T_e12 := (cD (cM (cN (-2)) (cR (cM (cH 0) (cA (cN 1) (cH 0))))) (cA (cV 1) (cM (cM (cN 2) (cH 0)) (cV 1)))).
Definition SPSU2T_e13 := (cD (cM (cN (-2)) (cR (cM (cH 0) (cA (cN 1) (cH 0))))) (cM (cA (cN 1) (cM (cN 2) (cH 0))) (cA (cV 1) (cM (cN 2) (cW (cV 1) 4))))).
Definition SPSU2T_e14 := (cD (cM (cN (-2)) (cA (cA (cO (cR (cD (cH 0) (cM (cA (cN 1) (cM (cN 2) (cH 0))) (cA (cN (-1)) (cV 1)))))) (cR (cD (cM (cH 0) (cA (cN (-1)) (cV 1))) (cM (cA (cN 1) (cM (cN 2) (cH 0))) (cW (cV 1) 4))))) (cM (cR (cD (cH 0) (cM (cA (cN 1) (cM (cN 2) (cH 0))) (cA (cN (-1)) (cV 1))))) (cV 1)))) (cR (cD (cM (cA (cN 1) (cM (cN 2) (cH 0))) (cA (cN 1) (cV 1))) (cA (cN 1) (cH 0))))).
Definition SPSU2T_e15 := (cD (cM (cN (-2)) (cR (cM (cM (cH 0) (cA (cN 1) (cH 0))) (cA (cN (-1)) (cM (cN 4) (cW (cV 1) 4)))))) (cM (cA (cN 1) (cM (cN 2) (cH 0))) (cA (cV 1) (cM (cN 2) (cW (cV 1) 4))))).
Definition SPSU2T_e16 := (cD (cM (cN (-2)) (cA (cA (cR (cD (cM (cH 0) (cA (cN (-1)) (cM (cN 2) (cV 1)))) (cM (cA (cN 1) (cM (cN 2) (cH 0))) (cA (cN 1) (cV 1))))) (cR (cD (cM (cH 0) (cA (cN (-1)) (cM (cN 2) (cV 1)))) (cM (cM (cA (cN 1) (cM (cN 2) (cH 0))) (cA (cN 1) (cV 1))) (cW (cA (cN 1) (cM (cN 2) (cV 1))) 4))))) (cR (cD (cM (cH 0) (cA (cA (cN (-1)) (cV 1)) (cM (cN 2) (cW (cV 1) 4)))) (cA (cN 1) (cM (cN 2) (cH 0))))))) (cR (cD (cM (cA (cN 1) (cM (cN 2) (cH 0))) (cA (cA (cN 3) (cM (cN 5) (cV 1))) (cM (cN 2) (cW (cV 1) 4)))) (cA (cN 1) (cH 0))))).
Definition SPSU2T_e17 := (cD (cN 1) (cA (cN 1) (cM (cN 2) (cH 0)))).
Definition SPSU2T_e18 := (cD (cN 1) (cA (cV 1) (cM (cM (cN 2) (cH 0)) (cV 1)))).
Definition SPSU2T_e19 := (cD (cN 1) (cM (cA (cN 1) (cM (cN 2) (cH 0))) (cA (cV 1) (cM (cN 2) (cW (cV 1) 4))))).
Definition SPSU2T_e20 := (cO (cD (cN 1) (cA (cV 1) (cM (cN 2) (cW (cV 1) 4))))).
Definition SPSU2T_e21 := (cD (cR (cA (cN (-1)) (cW (cV 1) 4))) (cA (cV 1) (cM (cM (cN 2) (cH 0)) (cV 1)))).
Definition SPSU2T_e22 := (cD (cR (cD (cA (cN (-1)) (cM (cN 2) (cV 1))) (cA (cN 1) (cM (cN 2) (cV 1))))) (cA (cV 1) (cM (cM (cN 2) (cH 0)) (cV 1)))).
Definition SPSU2T_e23 := (cO (cD (cR (cA (cN (-1)) (cW (cV 1) 4))) (cV 1))).
Definition SPSU2T_e24 := (cO (cD (cR (cD (cA (cN (-1)) (cM (cN 2) (cV 1))) (cA (cN 1) (cM (cN 2) (cV 1))))) (cV 1))).
Definition SPSU2T_e25 := (cD (cB (cA (cA (cB (cA (cM (cN (-2)) (cR (cD (cM (cM (cM (cM (cW (cH 0) 4) (cW (cA (cN 1) (cH 0)) 6)) (cV 1)) (cW (cA (cN 3) (cM (cN 2) (cV 1))) 6)) (cA (cA (cN (-1)) (cV 1)) (cM (cN 2) (cW (cV 1) 4)))) (cM (cW (cA (cN 1) (cM (cN 2) (cH 0))) 4) (cW (cA (cN 1) (cM (cN 2) (cV 1))) 6))))) (cR (cD (cM (cM (cM (cW (cA (cN 1) (cH 0)) 6) (cV 1)) (cW (cA (cN 3) (cM (cN 2) (cV 1))) 6)) (cA (cA (cN (-1)) (cV 1)) (cM (cN 2) (cW (cV 1) 4)))) (cA (cN 1) (cM (cN 2) (cV 1)))))) (cM (cN 2) (cR (cD (cM (cM (cM (cM (cW (cH 0) 4) (cW (cA (cN 1) (cH 0)) 6)) (cV 1)) (cW (cA (cN 3) (cM (cN 2) (cV 1))) 6)) (cA (cA (cN (-1)) (cV 1)) (cM (cN 2) (cW (cV 1) 4)))) (cM (cW (cA (cN 1) (cM (cN 2) (cH 0))) 4) (cA (cN 1) (cM (cN 2) (cV 1)))))))) (cD (cM (cM (cA (cN 1) (cV 1)) (cW (cM (cA (cN 1) (cH 0)) (cA (cN 3) (cM (cN 2) (cV 1)))) 3)) (cR (cD (cM (cV 1) (cA (cN (-1)) (cM (cN 2) (cV 1)))) (cA (cA (cN 1) (cM (cN 3) (cV 1))) (cM (cN 2) (cW (cV 1) 4)))))) (cA (cN 1) (cM (cN 2) (cV 1))))) (cR (cD (cM (cM (cM (cW (cA (cN 1) (cH 0)) 6) (cV 1)) (cA (cN (-1)) (cM (cN 2) (cV 1)))) (cW (cA (cA (cN 3) (cM (cN 5) (cV 1))) (cM (cN 2) (cW (cV 1) 4))) 6)) (cA (cN 1) (cM (cN 2) (cV 1)))))) (cM (cN 2) (cR (cD (cM (cM (cM (cM (cW (cH 0) 4) (cW (cA (cN 1) (cH 0)) 6)) (cV 1)) (cA (cN (-1)) (cM (cN 2) (cV 1)))) (cW (cA (cA (cN 3) (cM (cN 5) (cV 1))) (cM (cN 2) (cW (cV 1) 4))) 6)) (cM (cW (cA (cN 1) (cM (cN 2) (cH 0))) 4) (cA (cN 1) (cM (cN 2) (cV 1)))))))) (cR (cD (cM (cM (cM (cW (cA (cN 1) (cH 0)) 6) (cV 1)) (cW (cA (cN 1) (cV 1)) 6)) (cW (cA (cN 3) (cM (cN 2) (cV 1))) 8)) (cA (cN 1) (cM (cN 2) (cV 1)))))).
Definition SPSU2T_e26 := (cD (cB (cB (cB (cB (cB (cO (cR (cD (cM (cM (cM (cM (cW (cA (cN 1) (cH 0)) 6) (cA (cN 1) (cM (cN 2) (cH 0)))) (cV 1)) (cW (cA (cN 3) (cM (cN 2) (cV 1))) 6)) (cA (cA (cN (-1)) (cV 1)) (cM (cN 2) (cW (cV 1) 4)))) (cM (cA (cN 3) (cM (cN 2) (cH 0))) (cW (cA (cN 1) (cM (cN 2) (cV 1))) 6))))) (cR (cD (cM (cM (cM (cM (cW (cA (cN 1) (cH 0)) 6) (cA (cN 1) (cM (cN 2) (cH 0)))) (cV 1)) (cW (cA (cN 3) (cM (cN 2) (cV 1))) 6)) (cA (cA (cN (-1)) (cV 1)) (cM (cN 2) (cW (cV 1) 4)))) (cM (cA (cN 3) (cM (cN 2) (cH 0))) (cA (cN 1) (cM (cN 2) (cV 1))))))) (cM (cN 2) (cR (cD (cM (cM (cM (cW (cA (cN 1) (cH 0)) 6) (cV 1)) (cW (cA (cN 3) (cM (cN 2) (cV 1))) 6)) (cA (cA (cN (-1)) (cV 1)) (cM (cN 2) (cW (cV 1) 4)))) (cM (cA (cA (cN 3) (cM (cN 8) (cH 0))) (cM (cN 4) (cW (cH 0) 4))) (cA (cN 1) (cM (cN 2) (cV 1)))))))) (cR (cD (cM (cM (cM (cM (cW (cA (cN 1) (cH 0)) 6) (cA (cN 1) (cM (cN 2) (cH 0)))) (cV 1)) (cA (cN (-1)) (cM (cN 2) (cV 1)))) (cW (cA (cA (cN 3) (cM (cN 5) (cV 1))) (cM (cN 2) (cW (cV 1) 4))) 6)) (cM (cA (cN 3) (cM (cN 2) (cH 0))) (cA (cN 1) (cM (cN 2) (cV 1))))))) (cM (cN 2) (cR (cD (cM (cM (cM (cW (cA (cN 1) (cH 0)) 6) (cV 1)) (cA (cN (-1)) (cM (cN 2) (cV 1)))) (cW (cA (cA (cN 3) (cM (cN 5) (cV 1))) (cM (cN 2) (cW (cV 1) 4))) 6)) (cM (cA (cA (cN 3) (cM (cN 8) (cH 0))) (cM (cN 4) (cW (cH 0) 4))) (cA (cN 1) (cM (cN 2) (cV 1)))))))) (cD (cM (cM (cM (cM (cN 2) (cA (cN 1) (cH 0))) (cA (cN 1) (cV 1))) (cA (cN 3) (cM (cN 2) (cV 1)))) (cR (cD (cM (cM (cA (cN 1) (cH 0)) (cV 1)) (cA (cA (cN (-3)) (cM (cN 4) (cV 1))) (cM (cN 4) (cW (cV 1) 4)))) (cM (cA (cA (cN 3) (cM (cN 8) (cH 0))) (cM (cN 4) (cW (cH 0) 4))) (cA (cA (cN 1) (cM (cN 3) (cV 1))) (cM (cN 2) (cW (cV 1) 4))))))) (cA (cN 1) (cM (cN 2) (cV 1))))) (cR (cD (cM (cM (cM (cM (cW (cA (cN 1) (cH 0)) 6) (cA (cN 3) (cM (cN 2) (cH 0)))) (cV 1)) (cW (cA (cN 1) (cV 1)) 6)) (cW (cA (cN 3) (cM (cN 2) (cV 1))) 8)) (cM (cA (cN 1) (cM (cN 2) (cH 0))) (cA (cN 1) (cM (cN 2) (cV 1))))))).
Definition SPSU2T_e27 := (cM (cR (cD (cA (cN 1) (cM (cN 2) (cH 0))) (cM (cM (cM (cW (cA (cN 1) (cH 0)) 6) (cW (cV 1) 6)) (cW (cA (cN 1) (cV 1)) 8)) (cA (cN 1) (cM (cN 2) (cV 1)))))) (cB (cA (cA (cM (cM (cM (cM (cM (cN (-2)) (cH 0)) (cW (cD (cA (cN 1) (cH 0)) (cA (cN 1) (cM (cN 2) (cH 0)))) 3)) (cV 1)) (cA (cN 1) (cV 1))) (cR (cM (cV 1) (cA (cN (-1)) (cM (cN 2) (cV 1)))))) (cM (cM (cW (cA (cN 1) (cH 0)) 3) (cA (cN 1) (cV 1))) (cR (cD (cM (cV 1) (cA (cN (-1)) (cM (cN 2) (cV 1)))) (cA (cN 1) (cM (cN 2) (cH 0))))))) (cM (cM (cM (cW (cA (cN 1) (cH 0)) 3) (cV 1)) (cA (cN 1) (cV 1))) (cR (cD (cM (cV 1) (cA (cN (-1)) (cM (cN 2) (cV 1)))) (cA (cN 1) (cM (cN 2) (cH 0))))))) (cD (cM (cM (cN 2) (cH 0)) (cV 1)) (cM (cR (cD (cM (cV 1) (cA (cN 1) (cV 1))) (cA (cN (-1)) (cM (cN 2) (cV 1))))) (cW (cD (cA (cN 1) (cM (cN 2) (cH 0))) (cA (cA (cA (cN 1) (cH 0)) (cV 1)) (cM (cH 0) (cV 1)))) 3))))).
Definition SPSU2T_e28 := (cD (cR (cA (cA (cN (-3)) (cM (cN 4) (cV 1))) (cM (cN 4) (cW (cV 1) 4)))) (cA (cA (cA (cN 1) (cM (cN 2) (cH 0))) (cM (cN 2) (cV 1))) (cM (cM (cN 4) (cH 0)) (cV 1)))).
Definition SPSU2T_e29 := (cD (cM (cR (cD (cM (cA (cN 1) (cM (cN 2) (cH 0))) (cA (cN 1) (cM (cN 2) (cV 1)))) (cM (cA (cN 3) (cM (cN 2) (cH 0))) (cV 1)))) (cB (cB (cB (cB (cB (cO (cM (cR (cD (cM (cM (cM (cA (cN 1) (cM (cN 2) (cH 0))) (cV 1)) (cA (cN 1) (cV 1))) (cA (cN (-1)) (cM (cN 2) (cV 1)))) (cM (cA (cN 3) (cM (cN 2) (cH 0))) (cA (cN 1) (cM (cN 2) (cV 1)))))) (cW (cM (cA (cN 1) (cH 0)) (cA (cN 3) (cM (cN 2) (cV 1)))) 3))) (cM (cR (cD (cM (cM (cM (cA (cN 1) (cM (cN 2) (cH 0))) (cV 1)) (cA (cN 1) (cV 1))) (cA (cN (-1)) (cM (cN 2) (cV 1)))) (cA (cN 3) (cM (cN 2) (cH 0))))) (cW (cD (cM (cA (cN 1) (cH 0)) (cA (cN 3) (cM (cN 2) (cV 1)))) (cA (cN 1) (cM (cN 2) (cV 1)))) 3))) (cM (cM (cN 2) (cW (cM (cA (cN 1) (cH 0)) (cA (cN 3) (cM (cN 2) (cV 1)))) 3)) (cR (cD (cM (cV 1) (cA (cA (cN (-1)) (cV 1)) (cM (cN 2) (cW (cV 1) 4)))) (cM (cA (cA (cN 3) (cM (cN 8) (cH 0))) (cM (cN 4) (cW (cH 0) 4))) (cA (cN 1) (cM (cN 2) (cV 1)))))))) (cD (cM (cM (cM (cM (cN 2) (cA (cN 1) (cH 0))) (cA (cN 1) (cV 1))) (cA (cN 3) (cM (cN 2) (cV 1)))) (cR (cD (cM (cM (cM (cA (cN 1) (cH 0)) (cV 1)) (cA (cN (-1)) (cM (cN 2) (cV 1)))) (cA (cN 3) (cM (cN 2) (cV 1)))) (cM (cA (cA (cN 3) (cM (cN 8) (cH 0))) (cM (cN 4) (cW (cH 0) 4))) (cA (cA (cN 1) (cM (cN 3) (cV 1))) (cM (cN 2) (cW (cV 1) 4))))))) (cA (cN 1) (cM (cN 2) (cV 1))))) (cM (cR (cD (cM (cM (cA (cN 1) (cM (cN 2) (cH 0))) (cV 1)) (cA (cN (-1)) (cM (cN 2) (cV 1)))) (cM (cA (cN 3) (cM (cN 2) (cH 0))) (cA (cN 1) (cM (cN 2) (cV 1)))))) (cW (cM (cA (cN 1) (cH 0)) (cA (cA (cN 3) (cM (cN 5) (cV 1))) (cM (cN 2) (cW (cV 1) 4)))) 3))) (cM (cM (cN 2) (cR (cD (cM (cV 1) (cA (cN (-1)) (cM (cN 2) (cV 1)))) (cM (cA (cA (cN 3) (cM (cN 8) (cH 0))) (cM (cN 4) (cW (cH 0) 4))) (cA (cN 1) (cM (cN 2) (cV 1))))))) (cW (cM (cA (cN 1) (cH 0)) (cA (cA (cN 3) (cM (cN 5) (cV 1))) (cM (cN 2) (cW (cV 1) 4)))) 3)))) (cM (cW (cM (cA (cN 1) (cH 0)) (cA (cN 1) (cV 1))) 3) (cW (cA (cN 3) (cM (cN 2) (cV 1))) 4))).
Definition SPSU2T_e30 := (cD (cM (cM (cN (-2)) (cR (cN 2))) (cR (cD (cM (cH 0) (cA (cN 1) (cH 0))) (cM (cA (cN (-1)) (cV 1)) (cV 1))))) (cA (cN 1) (cM (cN 2) (cH 0)))).
Definition SPSU2T_e31 := (cM (cM (cN (-2)) (cR (cN 6))) (cR (cD (cM (cH 0) (cA (cN 1) (cH 0))) (cM (cW (cA (cN 1) (cM (cN 2) (cH 0))) 4) (cA (cB (cB (cV 1) (cW (cV 1) 4)) (cM (cN 4) (cW (cV 1) 6))) (cM (cN 4) (cW (cV 1) 8))))))).
Definition SPSU2T_e32 := (cD (cM (cN (-2)) (cA (cA (cB (cM (cN 2) (cR (cD (cM (cH 0) (cA (cN 1) (cV 1))) (cM (cM (cA (cN 1) (cM (cN 2) (cH 0))) (cA (cN (-2)) (cV 1))) (cV 1))))) (cM (cM (cN 3) (cV 1)) (cR (cD (cM (cH 0) (cA (cN 1) (cV 1))) (cM (cM (cA (cN 1) (cM (cN 2) (cH 0))) (cA (cN (-2)) (cV 1))) (cV 1)))))) (cM (cW (cV 1) 4) (cR (cD (cM (cH 0) (cA (cN 1) (cV 1))) (cM (cM (cA (cN 1) (cM (cN 2) (cH 0))) (cA (cN (-2)) (cV 1))) (cV 1)))))) (cM (cN 2) (cR (cD (cM (cM (cH 0) (cA (cN (-2)) (cV 1))) (cA (cN 1) (cV 1))) (cA (cV 1) (cM (cM (cN 2) (cH 0)) (cV 1)))))))) (cM (cR (cD (cM (cA (cN 1) (cM (cN 2) (cH 0))) (cA (cN (-1)) (cV 1))) (cA (cN 1) (cH 0)))) (cA (cN 1) (cV 1)))).
Definition SPSU2T_e33 := (cD (cM (cM (cM (cN (-2)) (cR (cN 3))) (cR (cD (cA (cN 1) (cH 0)) (cM (cA (cN 1) (cM (cN 2) (cH 0))) (cA (cN (-1)) (cV 1)))))) (cA (cB (cA (cM (cN 2) (cR (cD (cM (cH 0) (cA (cB (cN (-3)) (cV 1)) (cM (cN 2) (cW (cV 1) 4)))) (cM (cA (cN 1) (cM (cN 2) (cH 0))) (cA (cN 1) (cM (cN 2) (cV 1))))))) (cM (cN 3) (cR (cD (cM (cH 0) (cA (cN 1) (cV 1))) (cM (cA (cN 1) (cM (cN 2) (cH 0))) (cA (cB (cN (-3)) (cM (cN 4) (cV 1))) (cM (cN 4) (cW (cV 1) 4)))))))) (cM (cM (cN 5) (cV 1)) (cR (cD (cM (cH 0) (cA (cN 1) (cV 1))) (cM (cA (cN 1) (cM (cN 2) (cH 0))) (cA (cB (cN (-3)) (cM (cN 4) (cV 1))) (cM (cN 4) (cW (cV 1) 4)))))))) (cM (cM (cN 2) (cW (cV 1) 4)) (cR (cD (cM (cH 0) (cA (cN 1) (cV 1))) (cM (cA (cN 1) (cM (cN 2) (cH 0))) (cA (cB (cN (-3)) (cM (cN 4) (cV 1))) (cM (cN 4) (cW (cV 1) 4))))))))) (cM (cV 1) (cA (cN 1) (cV 1)))).
Definition SPSU2T_e34 := (cD (cM (cN (-6)) (cR (cM (cH 0) (cA (cN 1) (cH 0))))) (cM (cA (cN 1) (cM (cN 2) (cH 0))) (cA (cV 1) (cM (cN 2) (cW (cV 1) 4))))).
Definition SPSU2T_e35 := (cD (cM (cM (cN (-2)) (cR (cD (cA (cN 1) (cH 0)) (cM (cA (cV 1) (cM (cM (cN 2) (cH 0)) (cV 1))) (cA (cA (cN 3) (cM (cN 5) (cV 1))) (cM (cN 2) (cW (cV 1) 4))))))) (cB (cA (cA (cB (cA (cM (cN 9) (cR (cD (cM (cH 0) (cA (cB (cN 1) (cM (cN 3) (cV 1))) (cM (cN 2) (cW (cV 1) 4)))) (cM (cM (cA (cN 1) (cM (cN 2) (cH 0))) (cV 1)) (cA (cB (cN (-3)) (cM (cN 4) (cV 1))) (cM (cN 4) (cW (cV 1) 4))))))) (cM (cN 6) (cR (cD (cM (cH 0) (cA (cB (cA (cN (-3)) (cM (cN 11) (cV 1))) (cM (cN 12) (cW (cV 1) 4))) (cM (cN 4) (cW (cV 1) 6)))) (cM (cA (cN 1) (cM (cN 2) (cH 0))) (cA (cV 1) (cM (cN 2) (cW (cV 1) 4)))))))) (cM (cM (cN 12) (cW (cV 1) 6)) (cR (cD (cM (cH 0) (cA (cN (-1)) (cM (cN 2) (cV 1)))) (cM (cM (cA (cN 1) (cM (cN 2) (cH 0))) (cV 1)) (cA (cB (cA (cN 3) (cV 1)) (cM (cN 8) (cW (cV 1) 4))) (cM (cN 4) (cW (cV 1) 6)))))))) (cM (cM (cN 4) (cW (cV 1) 8)) (cR (cD (cM (cH 0) (cA (cN (-1)) (cM (cN 2) (cV 1)))) (cM (cM (cA (cN 1) (cM (cN 2) (cH 0))) (cV 1)) (cA (cB (cA (cN 3) (cV 1)) (cM (cN 8) (cW (cV 1) 4))) (cM (cN 4) (cW (cV 1) 6)))))))) (cM (cW (cV 1) 4) (cA (cM (cN 12) (cR (cD (cM (cH 0) (cA (cB (cN 1) (cM (cN 3) (cV 1))) (cM (cN 2) (cW (cV 1) 4)))) (cM (cM (cA (cN 1) (cM (cN 2) (cH 0))) (cV 1)) (cA (cB (cN (-3)) (cM (cN 4) (cV 1))) (cM (cN 4) (cW (cV 1) 4))))))) (cM (cN 11) (cR (cD (cM (cH 0) (cA (cN (-1)) (cM (cN 2) (cV 1)))) (cM (cM (cA (cN 1) (cM (cN 2) (cH 0))) (cV 1)) (cA (cB (cA (cN 3) (cV 1)) (cM (cN 8) (cW (cV 1) 4))) (cM (cN 4) (cW (cV 1) 6)))))))))) (cM (cM (cN 3) (cV 1)) (cA (cR (cD (cM (cH 0) (cA (cN (-1)) (cM (cN 2) (cV 1)))) (cM (cM (cA (cN 1) (cM (cN 2) (cH 0))) (cV 1)) (cA (cB (cA (cN 3) (cV 1)) (cM (cN 8) (cW (cV 1) 4))) (cM (cN 4) (cW (cV 1) 6)))))) (cM (cN 8) (cR (cD (cM (cH 0) (cA (cB (cN 1) (cM (cN 3) (cV 1))) (cM (cN 2) (cW (cV 1) 4)))) (cM (cA (cN 1) (cM (cN 2) (cH 0))) (cA (cB (cM (cN (-3)) (cV 1)) (cM (cN 4) (cW (cV 1) 4))) (cM (cN 4) (cW (cV 1) 6))))))))))) (cA (cN (-1)) (cM (cN 2) (cV 1)))).
Definition SPSU2T_e36 := (cD (cM (cM (cM (cN (-2)) (cR (cN 3))) (cA (cN (-1)) (cV 1))) (cR (cD (cM (cM (cH 0) (cA (cN 1) (cH 0))) (cA (cN 3) (cM (cN 2) (cV 1)))) (cM (cW (cA (cN 1) (cM (cN 2) (cH 0))) 4) (cA (cA (cB (cN (-1)) (cM (cN 2) (cV 1))) (cW (cV 1) 4)) (cM (cN 2) (cW (cV 1) 6))))))) (cV 1)).
Definition SPSU2T_e37 := (cD (cM (cM (cN (-2)) (cR (cN 6))) (cR (cD (cM (cH 0) (cA (cN 1) (cH 0))) (cM (cV 1) (cA (cA (cA (cN 3) (cM (cN 11) (cV 1))) (cM (cN 12) (cW (cV 1) 4))) (cM (cN 4) (cW (cV 1) 6))))))) (cA (cN 1) (cM (cN 2) (cH 0)))).
Definition SPSU2T_e38 := (cD (cM (cM (cM (cN (-2)) (cA (cN (-1)) (cV 1))) (cR (cO (cD (cA (cN 1) (cH 0)) (cB (cA (cN 1) (cV 1)) (cM (cN 2) (cW (cV 1) 4))))))) (cA (cA (cA (cM (cN 6) (cR (cD (cM (cM (cH 0) (cV 1)) (cA (cA (cA (cN (-6)) (cM (cN 5) (cV 1))) (cM (cN 12) (cW (cV 1) 4))) (cM (cN 4) (cW (cV 1) 6)))) (cA (cN 1) (cM (cN 2) (cV 1)))))) (cR (cM (cM (cH 0) (cW (cV 1) 6)) (cA (cA (cA (cB (cN (-6)) (cM (cN 7) (cV 1))) (cM (cN 22) (cW (cV 1) 4))) (cM (cN 28) (cW (cV 1) 6))) (cM (cN 8) (cW (cV 1) 8)))))) (cR (cM (cM (cH 0) (cW (cV 1) 10)) (cA (cA (cA (cB (cN (-6)) (cM (cN 7) (cV 1))) (cM (cN 22) (cW (cV 1) 4))) (cM (cN 28) (cW (cV 1) 6))) (cM (cN 8) (cW (cV 1) 8)))))) (cM (cM (cN 3) (cV 1)) (cA (cM (cN 3) (cR (cD (cM (cM (cH 0) (cV 1)) (cA (cA (cA (cN (-6)) (cM (cN 5) (cV 1))) (cM (cN 12) (cW (cV 1) 4))) (cM (cN 4) (cW (cV 1) 6)))) (cA (cN 1) (cM (cN 2) (cV 1)))))) (cR (cM (cM (cH 0) (cV 1)) (cA (cA (cA (cB (cN (-6)) (cM (cN 7) (cV 1))) (cM (cN 22) (cW (cV 1) 4))) (cM (cN 28) (cW (cV 1) 6))) (cM (cN 8) (cW (cV 1) 8))))))))) (cM (cM (cM (cA (cN 1) (cM (cN 2) (cH 0))) (cV 1)) (cW (cA (cN 1) (cV 1)) 3)) (cA (cA (cN 6) (cM (cN 7) (cV 1))) (cM (cN 2) (cW (cV 1) 4))))).
Definition SPSU2T_e39 := (cD (cM (cM (cM (cN (-2)) (cR (cN 2))) (cR (cD (cA (cN 1) (cH 0)) (cA (cV 1) (cM (cM (cN 2) (cH 0)) (cV 1)))))) (cA (cM (cN 6) (cR (cD (cM (cH 0) (cA (cN (-1)) (cM (cN 2) (cV 1)))) (cM (cA (cN 1) (cM (cN 2) (cH 0))) (cA (cA (cN 1) (cM (cN 3) (cV 1))) (cM (cN 2) (cW (cV 1) 4))))))) (cM (cV 1) (cA (cA (cM (cN 9) (cR (cD (cM (cH 0) (cA (cN (-1)) (cM (cN 2) (cV 1)))) (cM (cA (cN 1) (cM (cN 2) (cH 0))) (cA (cA (cN 1) (cM (cN 3) (cV 1))) (cM (cN 2) (cW (cV 1) 4))))))) (cM (cN 3) (cR (cD (cM (cH 0) (cA (cN (-1)) (cM (cN 4) (cW (cV 1) 4)))) (cM (cA (cN 1) (cM (cN 2) (cH 0))) (cA (cN 1) (cV 1))))))) (cR (cD (cM (cH 0) (cA (cA (cB (cN (-1)) (cV 1)) (cM (cN 4) (cW (cV 1) 4))) (cM (cN 4) (cW (cV 1) 6)))) (cA (cN 1) (cM (cN 2) (cH 0))))))))) (cA (cA (cA (cN 6) (cM (cN 13) (cV 1))) (cM (cN 9) (cW (cV 1) 4))) (cM (cN 2) (cW (cV 1) 6)))).
Definition SPSU2T_e40 := (cD (cM (cN (-2)) (cA (cA (cA (cA (cR (cD (cM (cM (cM (cH 0) (cA (cN (-1)) (cM (cN 2) (cV 1)))) (cA (cN 1) (cM (cN 2) (cV 1)))) (cA (cA (cN 2) (cM (cN 3) (cV 1))) (cW (cV 1) 4))) (cA (cN 1) (cM (cN 2) (cH 0))))) (cM (cN 6) (cR (cD (cM (cM (cH 0) (cA (cN (-1)) (cM (cN 2) (cV 1)))) (cA (cA (cN 1) (cM (cN 3) (cV 1))) (cM (cN 2) (cW (cV 1) 4)))) (cM (cM (cA (cN 1) (cM (cN 2) (cH 0))) (cA (cN 2) (cV 1))) (cW (cA (cN 3) (cM (cN 2) (cV 1))) 4)))))) (cM (cN 2) (cR (cD (cM (cM (cH 0) (cA (cN 1) (cV 1))) (cA (cN (-1)) (cM (cN 4) (cW (cV 1) 4)))) (cM (cA (cN 1) (cM (cN 2) (cH 0))) (cA (cN 2) (cV 1))))))) (cD (cM (cN 6) (cR (cD (cM (cH 0) (cA (cN (-1)) (cM (cN 4) (cW (cV 1) 4)))) (cM (cA (cN 1) (cM (cN 2) (cH 0))) (cA (cA (cN 2) (cM (cN 3) (cV 1))) (cW (cV 1) 4)))))) (cA (cN 3) (cM (cN 2) (cV 1))))) (cD (cM (cN 6) (cR (cD (cM (cH 0) (cA (cN (-1)) (cM (cN 2) (cV 1)))) (cM (cA (cN 1) (cM (cN 2) (cH 0))) (cA (cA (cA (cN 2) (cM (cN 7) (cV 1))) (cM (cN 7) (cW (cV 1) 4))) (cM (cN 2) (cW (cV 1) 6))))))) (cA (cN 3) (cM (cN 2) (cV 1)))))) (cR (cD (cM (cA (cN 1) (cM (cN 2) (cH 0))) (cA (cA (cA (cA (cN 30) (cM (cN 77) (cV 1))) (cM (cN 71) (cW (cV 1) 4))) (cM (cN 28) (cW (cV 1) 6))) (cM (cN 4) (cW (cV 1) 8)))) (cA (cN 1) (cH 0))))).
Definition SPSU2T_e41 := (cD (cR (cN 2)) (cM (cA (cN 1) (cM (cN 2) (cH 0))) (cR (cM (cA (cN (-1)) (cV 1)) (cV 1))))).
Definition SPSU2T_e42 := (cD (cR (cN 6)) (cM (cA (cN 1) (cM (cN 2) (cH 0))) (cR (cM (cM (cV 1) (cA (cN 1) (cM (cN 2) (cV 1)))) (cA (cB (cN 1) (cM (cN 3) (cV 1))) (cM (cN 2) (cW (cV 1) 4))))))).
Definition SPSU2T_e43 := (cO (cD (cR (cN 2)) (cR (cM (cA (cN (-1)) (cV 1)) (cV 1))))).
Definition SPSU2T_e44 := (cO (cD (cR (cN 6)) (cR (cM (cV 1) (cA (cB (cB (cN 1) (cV 1)) (cM (cN 4) (cW (cV 1) 4))) (cM (cN 4) (cW (cV 1) 6))))))).
Definition SPSU2T_e45 := (cD (cA (cB (cN (-2)) (cV 1)) (cW (cV 1) 4)) (cM (cA (cN 1) (cM (cN 2) (cH 0))) (cR (cM (cV 1) (cA (cB (cB (cN 2) (cV 1)) (cM (cN 2) (cW (cV 1) 4))) (cW (cV 1) 6)))))).
Definition SPSU2T_e46 := (cM (cM (cR (cQ 3 2)) (cR (cA (cN 1) (cH 0)))) (cA (cB (cB (cD (cN 2) (cR (cD (cM (cM (cM (cM (cA (cN 1) (cH 0)) (cA (cN (-1)) (cV 1))) (cW (cV 1) 4)) (cA (cN 1) (cV 1))) (cA (cN 1) (cM (cN 2) (cV 1)))) (cA (cN (-6)) (cM (cN 4) (cV 1)))))) (cD (cM (cN 4) (cH 0)) (cM (cA (cV 1) (cM (cM (cN 2) (cH 0)) (cV 1))) (cR (cD (cM (cM (cA (cN 1) (cH 0)) (cA (cN 1) (cV 1))) (cB (cA (cN 1) (cV 1)) (cM (cN 2) (cW (cV 1) 4)))) (cB (cN 6) (cM (cN 4) (cV 1)))))))) (cD (cM (cM (cM (cM (cN 2) (cR (cN 2))) (cH 0)) (cA (cN (-1)) (cV 1))) (cA (cN (-3)) (cM (cN 2) (cV 1)))) (cM (cM (cA (cN 1) (cM (cN 2) (cH 0))) (cV 1)) (cR (cM (cM (cA (cN 1) (cH 0)) (cA (cN (-1)) (cW (cV 1) 4))) (cA (cB (cN (-3)) (cM (cN 4) (cV 1))) (cM (cN 4) (cW (cV 1) 4)))))))) (cD (cM (cM (cR (cN 2)) (cA (cN (-1)) (cV 1))) (cA (cN (-3)) (cM (cN 2) (cV 1)))) (cM (cR (cV 1)) (cR (cM (cM (cM (cA (cN 1) (cH 0)) (cV 1)) (cA (cN (-1)) (cW (cV 1) 4))) (cA (cB (cN (-3)) (cM (cN 4) (cV 1))) (cM (cN 4) (cW (cV 1) 4))))))))).
Definition SPSU2T_e47 := (cD (cN 3) (cM (cA (cN 1) (cM (cN 2) (cH 0))) (cA (cV 1) (cM (cN 2) (cW (cV 1) 4))))).
Definition SPSU2T_e48 := (cM (cB (cA (cN 2) (cV 1)) (cW (cV 1) 4)) (cR (cD (cN 1) (cM (cM (cA (cN (-2)) (cV 1)) (cV 1)) (cA (cN (-1)) (cW (cV 1) 4)))))).
Definition SPSU2T_e49 := (cO (cM (cM (cR (cQ 3 2)) (cR (cA (cN 1) (cH 0)))) (cA (cA (cA (cD (cN 4) (cR (cD (cM (cM (cM (cM (cM (cA (cN 1) (cH 0)) (cW (cA (cN 3) (cM (cN 2) (cH 0))) 4)) (cA (cN (-1)) (cV 1))) (cW (cV 1) 4)) (cA (cN 1) (cV 1))) (cA (cN 1) (cM (cN 2) (cV 1)))) (cA (cN (-6)) (cM (cN 4) (cV 1)))))) (cD (cM (cM (cM (cN 2) (cR (cN 2))) (cA (cN (-1)) (cV 1))) (cA (cN (-3)) (cM (cN 2) (cV 1)))) (cM (cM (cA (cN 3) (cM (cN 2) (cH 0))) (cV 1)) (cR (cM (cM (cA (cN 1) (cH 0)) (cA (cN (-1)) (cW (cV 1) 4))) (cA (cB (cN (-3)) (cM (cN 4) (cV 1))) (cM (cN 4) (cW (cV 1) 4)))))))) (cD (cM (cM (cM (cR (cN 2)) (cA (cN 1) (cM (cN 2) (cH 0)))) (cA (cN (-1)) (cV 1))) (cA (cN (-3)) (cM (cN 2) (cV 1)))) (cM (cM (cA (cN 3) (cM (cN 2) (cH 0))) (cV 1)) (cR (cM (cM (cA (cN 1) (cH 0)) (cA (cN (-1)) (cW (cV 1) 4))) (cA (cB (cN (-3)) (cM (cN 4) (cV 1))) (cM (cN 4) (cW (cV 1) 4)))))))) (cD (cM (cM (cN 2) (cA (cN 1) (cM (cN 2) (cH 0)))) (cR (cD (cA (cN (-6)) (cM (cN 4) (cV 1))) (cM (cM (cA (cN 1) (cH 0)) (cW (cV 1) 4)) (cA (cA (cB (cN (-1)) (cM (cN 2) (cV 1))) (cW (cV 1) 4)) (cM (cN 2) (cW (cV 1) 6))))))) (cA (cN 3) (cM (cN 2) (cH 0))))))).
Definition SPSU2T_e50 := (cD (cN (-3)) (cA (cV 1) (cM (cN 2) (cW (cV 1) 4)))).
Definition SPSU2T_e51 := (cD (cA (cB (cN 9) (cM (cN 13) (cW (cV 1) 4))) (cM (cN 4) (cW (cV 1) 8))) (cM (cA (cV 1) (cM (cM (cN 2) (cH 0)) (cV 1))) (cR (cA (cB (cA (cN (-9)) (cM (cN 49) (cW (cV 1) 4))) (cM (cN 56) (cW (cV 1) 8))) (cM (cN 16) (cW (cV 1) 12)))))).
Definition SPSU2T_e52 := (cM (cM (cR (cN 3)) (cR (cA (cN 1) (cH 0)))) (cB (cB (cA (cB (cA (cM (cM (cM (cN 3) (cA (cN (-1)) (cV 1))) (cA (cN (-1)) (cM (cN 2) (cV 1)))) (cR (cD (cN 1) (cM (cM (cM (cA (cN 1) (cH 0)) (cW (cV 1) 4)) (cW (cA (cN 1) (cV 1)) 6)) (cA (cA (cB (cN (-3)) (cM (cN 5) (cV 1))) (cM (cN 4) (cW (cV 1) 4))) (cM (cN 4) (cW (cV 1) 6))))))) (cD (cM (cN 6) (cR (cD (cA (cN (-1)) (cV 1)) (cM (cA (cN 1) (cH 0)) (cA (cA (cA (cN 3) (cM (cN 11) (cV 1))) (cM (cN 12) (cW (cV 1) 4))) (cM (cN 4) (cW (cV 1) 6))))))) (cA (cV 1) (cW (cV 1) 4)))) (cD (cM (cN 12) (cH 0)) (cM (cM (cM (cA (cN 1) (cM (cN 2) (cH 0))) (cV 1)) (cA (cN 1) (cV 1))) (cR (cD (cM (cA (cN 1) (cH 0)) (cA (cA (cA (cN 3) (cM (cN 11) (cV 1))) (cM (cN 12) (cW (cV 1) 4))) (cM (cN 4) (cW (cV 1) 6)))) (cA (cN (-1)) (cV 1))))))) (cD (cM (cA (cN (-1)) (cV 1)) (cA (cN (-1)) (cM (cN 2) (cV 1)))) (cM (cA (cN 1) (cV 1)) (cR (cM (cA (cN 1) (cH 0)) (cA (cA (cB (cB (cN (-3)) (cM (cN 8) (cV 1))) (cW (cV 1) 4)) (cM (cN 8) (cW (cV 1) 6))) (cM (cN 4) (cW (cV 1) 8)))))))) (cD (cM (cM (cM (cN 6) (cH 0)) (cA (cN (-1)) (cV 1))) (cA (cN (-1)) (cM (cN 2) (cV 1)))) (cM (cM (cM (cA (cN 1) (cM (cN 2) (cH 0))) (cV 1)) (cA (cN 1) (cV 1))) (cR (cM (cA (cN 1) (cH 0)) (cA (cA (cB (cB (cN (-3)) (cM (cN 8) (cV 1))) (cW (cV 1) 4)) (cM (cN 8) (cW (cV 1) 6))) (cM (cN 4) (cW (cV 1) 8)))))))) (cD (cM (cM (cM (cN 2) (cH 0)) (cA (cN (-1)) (cV 1))) (cW (cA (cN (-1)) (cM (cN 2) (cV 1))) 3)) (cM (cM (cA (cN 1) (cM (cN 2) (cH 0))) (cA (cN 1) (cV 1))) (cR (cM (cA (cN 1) (cH 0)) (cA (cA (cB (cB (cA (cN 3) (cM (cN 2) (cV 1))) (cM (cN 15) (cW (cV 1) 4))) (cM (cN 10) (cW (cV 1) 6))) (cM (cN 12) (cW (cV 1) 8))) (cM (cN 8) (cW (cV 1) 10))))))))).
Definition SPSU2T_e53 := (cO (cM (cM (cR (cN 6)) (cR (cA (cN 1) (cH 0)))) (cA (cA (cA (cA (cA (cM (cN (-6)) (cR (cD (cN 1) (cM (cM (cA (cN 1) (cH 0)) (cA (cV 1) (cM (cN 2) (cW (cV 1) 4)))) (cW (cA (cA (cN 3) (cM (cN 5) (cV 1))) (cM (cN 2) (cW (cV 1) 4))) 6))))) (cD (cB (cN 3) (cM (cN 6) (cV 1))) (cM (cR (cM (cM (cA (cN 1) (cH 0)) (cV 1)) (cA (cN 1) (cM (cN 2) (cV 1))))) (cW (cA (cA (cN 3) (cM (cN 5) (cV 1))) (cM (cN 2) (cW (cV 1) 4))) 3)))) (cD (cB (cV 1) (cM (cN 2) (cW (cV 1) 4))) (cR (cM (cM (cM (cA (cN 1) (cH 0)) (cV 1)) (cA (cN 1) (cM (cN 2) (cV 1)))) (cW (cA (cA (cN 3) (cM (cN 5) (cV 1))) (cM (cN 2) (cW (cV 1) 4))) 6))))) (cD (cM (cM (cM (cM (cN 12) (cH 0)) (cA (cN 1) (cH 0))) (cV 1)) (cA (cN 1) (cM (cN 2) (cV 1)))) (cM (cA (cN 1) (cM (cN 2) (cH 0))) (cW (cM (cM (cA (cN 1) (cH 0)) (cV 1)) (cA (cA (cA (cN 3) (cM (cN 11) (cV 1))) (cM (cN 12) (cW (cV 1) 4))) (cM (cN 4) (cW (cV 1) 6)))) 3)))) (cD (cM (cM (cM (cN 2) (cH 0)) (cV 1)) (cA (cN (-1)) (cM (cN 2) (cV 1)))) (cM (cM (cA (cN 1) (cM (cN 2) (cH 0))) (cA (cA (cN 3) (cM (cN 5) (cV 1))) (cM (cN 2) (cW (cV 1) 4)))) (cR (cM (cM (cA (cN 1) (cH 0)) (cV 1)) (cA (cA (cA (cN 3) (cM (cN 11) (cV 1))) (cM (cN 12) (cW (cV 1) 4))) (cM (cN 4) (cW (cV 1) 6)))))))) (cD (cM (cM (cN 6) (cH 0)) (cW (cA (cN (-1)) (cM (cN 2) (cV 1))) 3)) (cM (cM (cA (cN 1) (cM (cN 2) (cH 0))) (cA (cA (cN 3) (cM (cN 5) (cV 1))) (cM (cN 2) (cW (cV 1) 4)))) (cR (cM (cM (cA (cN 1) (cH 0)) (cV 1)) (cA (cA (cA (cB (cN (-3)) (cM (cN 5) (cV 1))) (cM (cN 10) (cW (cV 1) 4))) (cM (cN 20) (cW (cV 1) 6))) (cM (cN 8) (cW (cV 1) 8)))))))))).
Definition SPSU2T_e54 := (cD (cB (cA (cN (-9)) (cM (cN 13) (cW (cV 1) 4))) (cM (cN 4) (cW (cV 1) 8))) (cM (cV 1) (cR (cA (cB (cA (cN (-9)) (cM (cN 49) (cW (cV 1) 4))) (cM (cN 56) (cW (cV 1) 8))) (cM (cN 16) (cW (cV 1) 12)))))).
Definition SPSU2T_e55 := (cO (cD (cM (cR (cN 3)) (cA (cA (cN (-3)) (cV 1)) (cM (cN 2) (cW (cV 1) 4)))) (cM (cV 1) (cR (cA (cA (cB (cB (cN (-3)) (cM (cN 8) (cV 1))) (cW (cV 1) 4)) (cM (cN 8) (cW (cV 1) 6))) (cM (cN 4) (cW (cV 1) 8))))))).
Definition SPSU2T_e56 := (cO (cM (cM (cR (cN 6)) (cR (cA (cN 1) (cH 0)))) (cA (cA (cA (cA (cA (cM (cM (cM (cN 2) (cV 1)) (cA (cN (-1)) (cM (cN 2) (cV 1)))) (cR (cD (cN 1) (cM (cM (cM (cA (cN 1) (cH 0)) (cW (cA (cN 3) (cM (cN 2) (cH 0))) 4)) (cA (cV 1) (cM (cN 2) (cW (cV 1) 4)))) (cW (cA (cA (cN 3) (cM (cN 5) (cV 1))) (cM (cN 2) (cW (cV 1) 4))) 6))))) (cD (cA (cN 6) (cM (cN 12) (cH 0))) (cM (cM (cA (cN 3) (cM (cN 2) (cH 0))) (cR (cM (cM (cA (cN 1) (cH 0)) (cV 1)) (cA (cN 1) (cM (cN 2) (cV 1)))))) (cW (cA (cA (cN 3) (cM (cN 5) (cV 1))) (cM (cN 2) (cW (cV 1) 4))) 3)))) (cD (cM (cM (cN 3) (cA (cN 1) (cM (cN 2) (cH 0)))) (cA (cN (-1)) (cM (cN 2) (cV 1)))) (cM (cM (cA (cN 3) (cM (cN 2) (cH 0))) (cR (cM (cM (cA (cN 1) (cH 0)) (cV 1)) (cA (cN 1) (cM (cN 2) (cV 1)))))) (cW (cA (cA (cN 3) (cM (cN 5) (cV 1))) (cM (cN 2) (cW (cV 1) 4))) 3)))) (cD (cN 12) (cM (cM (cA (cN 3) (cM (cN 2) (cH 0))) (cA (cA (cN 3) (cM (cN 5) (cV 1))) (cM (cN 2) (cW (cV 1) 4)))) (cR (cM (cM (cA (cN 1) (cH 0)) (cV 1)) (cA (cA (cA (cN 3) (cM (cN 11) (cV 1))) (cM (cN 12) (cW (cV 1) 4))) (cM (cN 4) (cW (cV 1) 6)))))))) (cD (cM (cN 6) (cW (cA (cN (-1)) (cM (cN 2) (cV 1))) 3)) (cM (cM (cA (cN 3) (cM (cN 2) (cH 0))) (cA (cA (cN 3) (cM (cN 5) (cV 1))) (cM (cN 2) (cW (cV 1) 4)))) (cR (cM (cM (cA (cN 1) (cH 0)) (cV 1)) (cA (cA (cA (cB (cN (-3)) (cM (cN 5) (cV 1))) (cM (cN 10) (cW (cV 1) 4))) (cM (cN 20) (cW (cV 1) 6))) (cM (cN 8) (cW (cV 1) 8)))))))) (cD (cM (cM (cA (cN 1) (cM (cN 2) (cH 0))) (cV 1)) (cW (cA (cN (-1)) (cM (cN 2) (cV 1))) 3)) (cM (cM (cA (cN 3) (cM (cN 2) (cH 0))) (cA (cA (cN 3) (cM (cN 5) (cV 1))) (cM (cN 2) (cW (cV 1) 4)))) (cR (cM (cM (cA (cN 1) (cH 0)) (cV 1)) (cA (cA (cA (cB (cN (-3)) (cM (cN 5) (cV 1))) (cM (cN 10) (cW (cV 1) 4))) (cM (cN 20) (cW (cV 1) 6))) (cM (cN 8) (cW (cV 1) 8)))))))))).
Definition SPSU2T_e57 := (cD (cM (cR (cA (cN 1) (cH 0))) (cA (cB (cB (cB (cA (cB (cA (cM (cM (cM (cN 3) (cA (cN (-1)) (cV 1))) (cV 1)) (cR (cD (cA (cN (-2)) (cM (cN 4) (cV 1))) (cM (cM (cM (cM (cA (cN 1) (cH 0)) (cA (cN (-1)) (cV 1))) (cV 1)) (cW (cA (cN 1) (cV 1)) 6)) (cA (cA (cN 6) (cM (cN 7) (cV 1))) (cM (cN 2) (cW (cV 1) 4))))))) (cD (cM (cA (cN (-1)) (cV 1)) (cV 1)) (cR (cD (cM (cM (cM (cA (cN 1) (cH 0)) (cV 1)) (cA (cN (-1)) (cW (cV 1) 4))) (cA (cA (cN 6) (cM (cN 7) (cV 1))) (cM (cN 2) (cW (cV 1) 4)))) (cA (cN (-2)) (cM (cN 4) (cV 1))))))) (cD (cM (cM (cM (cN 2) (cH 0)) (cA (cN (-1)) (cV 1))) (cV 1)) (cM (cA (cN 1) (cM (cN 2) (cH 0))) (cR (cD (cM (cM (cM (cA (cN 1) (cH 0)) (cV 1)) (cA (cN (-1)) (cW (cV 1) 4))) (cA (cA (cN 6) (cM (cN 7) (cV 1))) (cM (cN 2) (cW (cV 1) 4)))) (cA (cN (-2)) (cM (cN 4) (cV 1)))))))) (cD (cM (cN 6) (cR (cD (cA (cB (cN 2) (cM (cN 6) (cV 1))) (cM (cN 4) (cW (cV 1) 4))) (cM (cM (cM (cM (cA (cN 1) (cH 0)) (cV 1)) (cA (cN 1) (cV 1))) (cW (cA (cN 1) (cM (cN 2) (cV 1))) 4)) (cA (cA (cN 6) (cM (cN 7) (cV 1))) (cM (cN 2) (cW (cV 1) 4))))))) (cA (cN 1) (cV 1)))) (cM (cM (cM (cM (cN 6) (cR (cN 2))) (cA (cN (-1)) (cV 1))) (cV 1)) (cR (cD (cM (cW (cH 0) 4) (cA (cN (-1)) (cM (cN 2) (cV 1)))) (cM (cM (cM (cM (cA (cN 1) (cH 0)) (cW (cA (cN 1) (cM (cN 2) (cH 0))) 4)) (cV 1)) (cW (cA (cN 1) (cV 1)) 6)) (cA (cA (cB (cN (-6)) (cV 1)) (cM (cN 5) (cW (cV 1) 4))) (cM (cN 2) (cW (cV 1) 6)))))))) (cD (cM (cM (cN 12) (cH 0)) (cR (cA (cA (cN (-6)) (cD (cN 2) (cV 1))) (cM (cN 4) (cV 1))))) (cM (cM (cA (cN 1) (cM (cN 2) (cH 0))) (cA (cA (cN 1) (cM (cN 3) (cV 1))) (cM (cN 2) (cW (cV 1) 4)))) (cR (cM (cA (cN 1) (cH 0)) (cA (cA (cA (cN 6) (cM (cN 13) (cV 1))) (cM (cN 9) (cW (cV 1) 4))) (cM (cN 2) (cW (cV 1) 6)))))))) (cD (cM (cM (cM (cN 18) (cH 0)) (cV 1)) (cR (cM (cA (cN (-1)) (cV 1)) (cA (cN (-2)) (cM (cN 4) (cV 1)))))) (cM (cM (cA (cN 1) (cM (cN 2) (cH 0))) (cA (cA (cN 1) (cM (cN 3) (cV 1))) (cM (cN 2) (cW (cV 1) 4)))) (cR (cM (cM (cA (cN 1) (cH 0)) (cV 1)) (cA (cA (cA (cN 6) (cM (cN 13) (cV 1))) (cM (cN 9) (cW (cV 1) 4))) (cM (cN 2) (cW (cV 1) 6)))))))) (cD (cM (cM (cM (cN 9) (cR (cN 2))) (cA (cN (-1)) (cV 1))) (cR (cD (cM (cV 1) (cA (cN (-1)) (cM (cN 2) (cV 1)))) (cM (cM (cA (cN 1) (cH 0)) (cW (cA (cN 1) (cM (cN 2) (cV 1))) 4)) (cA (cA (cA (cB (cN (-6)) (cM (cN 7) (cV 1))) (cM (cN 4) (cW (cV 1) 4))) (cM (cN 7) (cW (cV 1) 6))) (cM (cN 2) (cW (cV 1) 8))))))) (cA (cN 1) (cV 1))))) (cR (cN 2))).
Definition SPSU2T_e58 := (cO (cD (cM (cM (cM (cR (cN 2)) (cV 1)) (cR (cM (cA (cN 1) (cM (cN 2) (cH 0))) (cA (cN 1) (cM (cN 2) (cV 1)))))) (cB (cA (cB (cA (cB (cA (cB (cD (cM (cM (cM (cM (cM (cN 2) (cH 0)) (cW (cA (cN 1) (cH 0)) 4)) (cW (cV 1) 4)) (cR (cA (cN (-1)) (cM (cN 2) (cV 1))))) (cW (cA (cN 3) (cM (cN 2) (cV 1))) 4)) (cW (cD (cA (cN 1) (cM (cN 2) (cH 0))) (cA (cA (cN 2) (cM (cN 3) (cV 1))) (cW (cV 1) 4))) 3)) (cD (cM (cM (cM (cW (cA (cN 1) (cH 0)) 4) (cW (cV 1) 4)) (cW (cA (cN 3) (cM (cN 2) (cV 1))) 4)) (cW (cA (cA (cN 2) (cM (cN 3) (cV 1))) (cW (cV 1) 4)) 3)) (cR (cD (cA (cN 1) (cM (cN 2) (cH 0))) (cA (cN (-1)) (cM (cN 2) (cV 1))))))) (cM (cN 6) (cR (cD (cM (cM (cM (cM (cM (cW (cH 0) 4) (cW (cA (cN 1) (cH 0)) 8)) (cW (cV 1) 8)) (cW (cA (cN 2) (cV 1)) 6)) (cW (cA (cN 3) (cM (cN 2) (cV 1))) 8)) (cA (cA (cN (-1)) (cV 1)) (cM (cN 2) (cW (cV 1) 4)))) (cW (cA (cN 1) (cM (cN 2) (cH 0))) 6))))) (cM (cN 3) (cR (cD (cM (cM (cM (cM (cW (cA (cN 1) (cH 0)) 8) (cW (cV 1) 8)) (cW (cA (cN 2) (cV 1)) 6)) (cW (cA (cN 3) (cM (cN 2) (cV 1))) 8)) (cA (cA (cN (-1)) (cV 1)) (cM (cN 2) (cW (cV 1) 4)))) (cA (cN 1) (cM (cN 2) (cH 0))))))) (cM (cN 18) (cR (cD (cM (cM (cM (cM (cM (cW (cH 0) 4) (cW (cA (cN 1) (cH 0)) 8)) (cW (cV 1) 8)) (cW (cA (cN 2) (cV 1)) 6)) (cW (cA (cN 3) (cM (cN 2) (cV 1))) 8)) (cA (cA (cN (-1)) (cV 1)) (cM (cN 2) (cW (cV 1) 4)))) (cM (cW (cA (cN 1) (cM (cN 2) (cH 0))) 6) (cW (cA (cN 1) (cM (cN 2) (cV 1))) 4)))))) (cM (cN 9) (cR (cD (cM (cM (cM (cM (cW (cA (cN 1) (cH 0)) 8) (cW (cV 1) 8)) (cW (cA (cN 2) (cV 1)) 6)) (cW (cA (cN 3) (cM (cN 2) (cV 1))) 8)) (cA (cA (cN (-1)) (cV 1)) (cM (cN 2) (cW (cV 1) 4)))) (cM (cA (cN 1) (cM (cN 2) (cH 0))) (cW (cA (cN 1) (cM (cN 2) (cV 1))) 4)))))) (cD (cM (cM (cM (cM (cM (cM (cN 12) (cH 0)) (cW (cA (cN 1) (cH 0)) 4)) (cV 1)) (cA (cN 1) (cV 1))) (cR (cD (cA (cN (-1)) (cM (cN 2) (cV 1))) (cA (cA (cN 2) (cM (cN 3) (cV 1))) (cW (cV 1) 4))))) (cW (cA (cA (cN 6) (cM (cN 7) (cV 1))) (cM (cN 2) (cW (cV 1) 4))) 4)) (cM (cW (cA (cN 1) (cM (cN 2) (cH 0))) 3) (cA (cN 1) (cM (cN 2) (cV 1)))))) (cD (cM (cM (cM (cM (cN 6) (cW (cA (cN 1) (cH 0)) 4)) (cV 1)) (cA (cN 1) (cV 1))) (cW (cA (cA (cN 6) (cM (cN 7) (cV 1))) (cM (cN 2) (cW (cV 1) 4))) 4)) (cM (cA (cN 1) (cM (cN 2) (cV 1))) (cR (cD (cM (cA (cN 1) (cM (cN 2) (cH 0))) (cA (cA (cN 2) (cM (cN 3) (cV 1))) (cW (cV 1) 4))) (cA (cN (-1)) (cM (cN 2) (cV 1))))))))) (cM (cM (cM (cW (cA (cN 1) (cH 0)) 4) (cW (cA (cN 1) (cV 1)) 4)) (cW (cM (cV 1) (cA (cN 2) (cV 1))) 5)) (cW (cA (cN 3) (cM (cN 2) (cV 1))) 6)))).
Definition SPSU2T_e59 := (cO (cD (cM (cR (cA (cN 1) (cH 0))) (cA (cA (cA (cA (cA (cA (cA (cM (cM (cM (cR (cN 2)) (cA (cN (-1)) (cV 1))) (cV 1)) (cR (cD (cM (cW (cA (cN 1) (cM (cN 2) (cH 0))) 4) (cA (cN (-1)) (cM (cN 2) (cV 1)))) (cM (cM (cM (cM (cA (cN 1) (cH 0)) (cW (cA (cN 3) (cM (cN 2) (cH 0))) 4)) (cV 1)) (cA (cN (-1)) (cW (cV 1) 4))) (cA (cA (cN 6) (cM (cN 7) (cV 1))) (cM (cN 2) (cW (cV 1) 4))))))) (cD (cM (cM (cN 2) (cA (cN (-1)) (cV 1))) (cV 1)) (cR (cD (cM (cM (cM (cM (cA (cN 1) (cH 0)) (cW (cA (cN 3) (cM (cN 2) (cH 0))) 4)) (cV 1)) (cA (cN (-1)) (cW (cV 1) 4))) (cA (cA (cN 6) (cM (cN 7) (cV 1))) (cM (cN 2) (cW (cV 1) 4)))) (cA (cN (-2)) (cM (cN 4) (cV 1))))))) (cD (cM (cM (cN 6) (cA (cN 1) (cM (cN 2) (cH 0)))) (cR (cD (cA (cB (cN 2) (cM (cN 6) (cV 1))) (cM (cN 4) (cW (cV 1) 4))) (cM (cM (cM (cM (cA (cN 1) (cH 0)) (cV 1)) (cA (cN 1) (cV 1))) (cW (cA (cN 1) (cM (cN 2) (cV 1))) 4)) (cA (cA (cN 6) (cM (cN 7) (cV 1))) (cM (cN 2) (cW (cV 1) 4))))))) (cM (cA (cN 3) (cM (cN 2) (cH 0))) (cA (cN 1) (cV 1))))) (cD (cM (cN 12) (cR (cD (cA (cB (cN 2) (cM (cN 6) (cV 1))) (cM (cN 4) (cW (cV 1) 4))) (cM (cM (cM (cM (cM (cA (cN 1) (cH 0)) (cW (cA (cN 3) (cM (cN 2) (cH 0))) 4)) (cV 1)) (cA (cN 1) (cV 1))) (cW (cA (cN 1) (cM (cN 2) (cV 1))) 4)) (cA (cA (cN 6) (cM (cN 7) (cV 1))) (cM (cN 2) (cW (cV 1) 4))))))) (cA (cN 1) (cV 1)))) (cM (cM (cM (cM (cN 3) (cR (cN 2))) (cA (cN (-1)) (cV 1))) (cV 1)) (cR (cD (cM (cW (cA (cN 1) (cM (cN 2) (cH 0))) 4) (cA (cN (-1)) (cM (cN 2) (cV 1)))) (cM (cM (cM (cM (cA (cN 1) (cH 0)) (cW (cA (cN 3) (cM (cN 2) (cH 0))) 4)) (cV 1)) (cW (cA (cN 1) (cV 1)) 6)) (cA (cA (cB (cN (-6)) (cV 1)) (cM (cN 5) (cW (cV 1) 4))) (cM (cN 2) (cW (cV 1) 6)))))))) (cD (cM (cM (cN 6) (cA (cN (-1)) (cV 1))) (cV 1)) (cR (cD (cM (cM (cM (cM (cA (cN 1) (cH 0)) (cW (cA (cN 3) (cM (cN 2) (cH 0))) 4)) (cV 1)) (cW (cA (cN 1) (cV 1)) 6)) (cA (cA (cB (cN (-6)) (cV 1)) (cM (cN 5) (cW (cV 1) 4))) (cM (cN 2) (cW (cV 1) 6)))) (cA (cN (-2)) (cM (cN 4) (cV 1))))))) (cD (cM (cM (cM (cN 9) (cA (cN 1) (cM (cN 2) (cH 0)))) (cV 1)) (cR (cD (cA (cB (cN 2) (cM (cN 6) (cV 1))) (cM (cN 4) (cW (cV 1) 4))) (cM (cM (cA (cN 1) (cH 0)) (cV 1)) (cA (cA (cA (cN 6) (cM (cN 13) (cV 1))) (cM (cN 9) (cW (cV 1) 4))) (cM (cN 2) (cW (cV 1) 6))))))) (cM (cA (cN 3) (cM (cN 2) (cH 0))) (cA (cA (cN 1) (cM (cN 3) (cV 1))) (cM (cN 2) (cW (cV 1) 4)))))) (cD (cM (cM (cM (cN 18) (cR (cN 2))) (cA (cN (-1)) (cV 1))) (cR (cD (cM (cV 1) (cA (cN (-1)) (cM (cN 2) (cV 1)))) (cM (cM (cM (cA (cN 1) (cH 0)) (cW (cA (cN 3) (cM (cN 2) (cH 0))) 4)) (cW (cA (cN 1) (cM (cN 2) (cV 1))) 4)) (cA (cA (cA (cB (cN (-6)) (cM (cN 7) (cV 1))) (cM (cN 4) (cW (cV 1) 4))) (cM (cN 7) (cW (cV 1) 6))) (cM (cN 2) (cW (cV 1) 8))))))) (cA (cN 1) (cV 1))))) (cR (cN 2)))).
Definition SPSU2T_e60 := (cO (cD (cN 1) (cM (cA (cN 1) (cM (cN 2) (cV 1))) (cR (cD (cM (cV 1) (cA (cN 1) (cV 1))) (cA (cN (-2)) (cM (cN 8) (cW (cV 1) 4)))))))).
Definition SPSU2T_e61 := (cO (cD (cB (cA (cA (cA (cB (cA (cB (cB (cA (cM (cM (cN (-6)) (cR (cN 2))) (cR (cD (cM (cM (cM (cM (cA (cN 1) (cH 0)) (cA (cN 1) (cM (cN 2) (cH 0)))) (cV 1)) (cA (cN (-1)) (cM (cN 2) (cV 1)))) (cA (cN 5) (cM (cN 2) (cV 1)))) (cM (cA (cN 1) (cM (cN 2) (cV 1))) (cA (cA (cN 6) (cM (cN 7) (cV 1))) (cM (cN 2) (cW (cV 1) 4))))))) (cM (cM (cM (cM (cN 12) (cR (cN 2))) (cH 0)) (cA (cN 1) (cV 1))) (cR (cD (cM (cM (cM (cM (cA (cN 1) (cH 0)) (cV 1)) (cA (cN (-1)) (cM (cN 2) (cV 1)))) (cA (cN 1) (cM (cN 2) (cV 1)))) (cA (cN 5) (cM (cN 2) (cV 1)))) (cM (cA (cN 1) (cM (cN 2) (cH 0))) (cA (cA (cN 6) (cM (cN 7) (cV 1))) (cM (cN 2) (cW (cV 1) 4)))))))) (cM (cM (cN 6) (cR (cN 2))) (cR (cD (cM (cM (cM (cM (cM (cA (cN 1) (cH 0)) (cA (cN 1) (cM (cN 2) (cH 0)))) (cV 1)) (cA (cN (-1)) (cM (cN 2) (cV 1)))) (cA (cN 1) (cM (cN 2) (cV 1)))) (cA (cN 5) (cM (cN 2) (cV 1)))) (cA (cA (cN 6) (cM (cN 7) (cV 1))) (cM (cN 2) (cW (cV 1) 4))))))) (cM (cM (cM (cN 6) (cR (cN 2))) (cA (cN 1) (cV 1))) (cR (cD (cM (cM (cM (cM (cM (cA (cN 1) (cH 0)) (cA (cN 1) (cM (cN 2) (cH 0)))) (cV 1)) (cA (cN (-1)) (cM (cN 2) (cV 1)))) (cA (cN 1) (cM (cN 2) (cV 1)))) (cA (cN 5) (cM (cN 2) (cV 1)))) (cA (cA (cN 6) (cM (cN 7) (cV 1))) (cM (cN 2) (cW (cV 1) 4))))))) (cM (cM (cM (cM (cN 4) (cR (cN 2))) (cH 0)) (cA (cN 1) (cV 1))) (cR (cD (cM (cM (cM (cM (cA (cN 1) (cH 0)) (cV 1)) (cA (cN (-1)) (cM (cN 2) (cV 1)))) (cA (cN 1) (cM (cN 2) (cV 1)))) (cA (cA (cN 15) (cM (cN 16) (cV 1))) (cM (cN 4) (cW (cV 1) 4)))) (cM (cA (cN 1) (cM (cN 2) (cH 0))) (cA (cN 2) (cV 1))))))) (cM (cM (cM (cN 2) (cR (cN 2))) (cA (cN 1) (cV 1))) (cR (cD (cM (cM (cM (cM (cM (cA (cN 1) (cH 0)) (cA (cN 1) (cM (cN 2) (cH 0)))) (cV 1)) (cA (cN (-1)) (cM (cN 2) (cV 1)))) (cA (cN 1) (cM (cN 2) (cV 1)))) (cA (cA (cN 15) (cM (cN 16) (cV 1))) (cM (cN 4) (cW (cV 1) 4)))) (cA (cN 2) (cV 1)))))) (cM (cM (cM (cN 12) (cR (cN 2))) (cH 0)) (cR (cD (cM (cM (cA (cN 1) (cH 0)) (cV 1)) (cA (cA (cN (-5)) (cM (cN 8) (cV 1))) (cM (cN 4) (cW (cV 1) 4)))) (cM (cA (cN 1) (cM (cN 2) (cH 0))) (cA (cA (cA (cN 6) (cM (cN 19) (cV 1))) (cM (cN 16) (cW (cV 1) 4))) (cM (cN 4) (cW (cV 1) 6)))))))) (cM (cM (cM (cM (cN 2) (cR (cN 2))) (cH 0)) (cA (cN 1) (cV 1))) (cR (cD (cM (cM (cM (cM (cA (cN 1) (cH 0)) (cV 1)) (cA (cN (-1)) (cM (cN 2) (cV 1)))) (cA (cN 1) (cM (cN 2) (cV 1)))) (cA (cA (cA (cN 30) (cM (cN 47) (cV 1))) (cM (cN 24) (cW (cV 1) 4))) (cM (cN 4) (cW (cV 1) 6)))) (cA (cN 1) (cM (cN 2) (cH 0))))))) (cM (cM (cM (cN 12) (cR (cN 2))) (cH 0)) (cR (cD (cM (cM (cA (cN 1) (cH 0)) (cV 1)) (cA (cA (cB (cN (-5)) (cM (cN 2) (cV 1))) (cM (cN 20) (cW (cV 1) 4))) (cM (cN 8) (cW (cV 1) 6)))) (cM (cA (cN 1) (cM (cN 2) (cH 0))) (cA (cA (cN 6) (cM (cN 7) (cV 1))) (cM (cN 2) (cW (cV 1) 4)))))))) (cM (cR (cN 2)) (cR (cM (cM (cM (cM (cM (cA (cN 1) (cH 0)) (cA (cN 1) (cM (cN 2) (cH 0)))) (cV 1)) (cA (cN (-1)) (cM (cN 2) (cV 1)))) (cA (cA (cN 1) (cM (cN 3) (cV 1))) (cM (cN 2) (cW (cV 1) 4)))) (cA (cA (cA (cA (cN 30) (cM (cN 77) (cV 1))) (cM (cN 71) (cW (cV 1) 4))) (cM (cN 28) (cW (cV 1) 6))) (cM (cN 4) (cW (cV 1) 8))))))) (cM (cM (cR (cN 2)) (cR (cM (cM (cM (cA (cN 1) (cH 0)) (cA (cN 1) (cM (cN 2) (cH 0)))) (cV 1)) (cA (cN 2) (cV 1))))) (cA (cA (cA (cN 15) (cM (cN 31) (cV 1))) (cM (cN 20) (cW (cV 1) 4))) (cM (cN 4) (cW (cV 1) 6)))))).
Definition SPSU2T_e62 := (cO (cD (cM (cA (cN 3) (cM (cN 2) (cH 0))) (cA (cA (cA (cA (cM (cN 6) (cR (cD (cM (cM (cA (cN 1) (cH 0)) (cV 1)) (cA (cA (cN (-5)) (cM (cN 8) (cV 1))) (cM (cN 4) (cW (cV 1) 4)))) (cM (cA (cN 3) (cM (cN 2) (cH 0))) (cA (cA (cA (cN 6) (cM (cN 19) (cV 1))) (cM (cN 16) (cW (cV 1) 4))) (cM (cN 4) (cW (cV 1) 6))))))) (cM (cN 12) (cR (cD (cM (cM (cA (cN 1) (cH 0)) (cV 1)) (cA (cA (cB (cN (-5)) (cM (cN 2) (cV 1))) (cM (cN 20) (cW (cV 1) 4))) (cM (cN 8) (cW (cV 1) 6)))) (cM (cA (cN 3) (cM (cN 2) (cH 0))) (cA (cA (cN 6) (cM (cN 7) (cV 1))) (cM (cN 2) (cW (cV 1) 4)))))))) (cM (cN 2) (cR (cD (cM (cM (cA (cN 1) (cH 0)) (cV 1)) (cA (cA (cA (cB (cN (-15)) (cM (cN 16) (cV 1))) (cM (cN 56) (cW (cV 1) 4))) (cM (cN 64) (cW (cV 1) 6))) (cM (cN 16) (cW (cV 1) 8)))) (cM (cA (cN 3) (cM (cN 2) (cH 0))) (cA (cN 2) (cV 1))))))) (cR (cD (cM (cM (cA (cN 1) (cH 0)) (cV 1)) (cA (cA (cA (cA (cB (cN (-30)) (cM (cN 47) (cV 1))) (cM (cN 96) (cW (cV 1) 4))) (cM (cN 184) (cW (cV 1) 6))) (cM (cN 96) (cW (cV 1) 8))) (cM (cN 16) (cW (cV 1) 10)))) (cA (cN 3) (cM (cN 2) (cH 0)))))) (cM (cV 1) (cA (cA (cM (cN 6) (cR (cD (cM (cM (cA (cN 1) (cH 0)) (cV 1)) (cA (cA (cB (cN (-5)) (cM (cN 2) (cV 1))) (cM (cN 20) (cW (cV 1) 4))) (cM (cN 8) (cW (cV 1) 6)))) (cM (cA (cN 3) (cM (cN 2) (cH 0))) (cA (cA (cN 6) (cM (cN 7) (cV 1))) (cM (cN 2) (cW (cV 1) 4))))))) (cM (cN 2) (cR (cD (cM (cM (cA (cN 1) (cH 0)) (cV 1)) (cA (cA (cA (cB (cN (-15)) (cM (cN 16) (cV 1))) (cM (cN 56) (cW (cV 1) 4))) (cM (cN 64) (cW (cV 1) 6))) (cM (cN 16) (cW (cV 1) 8)))) (cM (cA (cN 3) (cM (cN 2) (cH 0))) (cA (cN 2) (cV 1))))))) (cR (cD (cM (cM (cA (cN 1) (cH 0)) (cV 1)) (cA (cA (cA (cA (cB (cN (-30)) (cM (cN 47) (cV 1))) (cM (cN 96) (cW (cV 1) 4))) (cM (cN 184) (cW (cV 1) 6))) (cM (cN 96) (cW (cV 1) 8))) (cM (cN 16) (cW (cV 1) 10)))) (cA (cN 3) (cM (cN 2) (cH 0))))))))) (cM (cR (cM (cM (cA (cA (cN 3) (cM (cN 5) (cH 0))) (cM (cN 2) (cW (cH 0) 4))) (cV 1)) (cA (cN 2) (cV 1)))) (cA (cA (cA (cN 15) (cM (cN 31) (cV 1))) (cM (cN 20) (cW (cV 1) 4))) (cM (cN 4) (cW (cV 1) 6)))))).
Definition SPSU2T_e63 := (cR (cD (cA (cA (cN (-1)) (cH 0)) (cM (cN 2) (cW (cH 0) 4))) (cM (cH 0) (cA (cN 1) (cM (cN 2) (cH 0)))))).
Definition SPSU2T_e64 := (cR (cD (cA (cA (cN (-1)) (cH 0)) (cM (cN 2) (cW (cH 0) 4))) (cM (cA (cH 0) (cM (cN 2) (cW (cH 0) 4))) (cW (cV 1) 4)))).
Definition SPSU2T_e65 := (cD (cR (cD (cA (cA (cN (-1)) (cH 0)) (cM (cN 2) (cW (cH 0) 4))) (cM (cH 0) (cA (cN 1) (cM (cN 2) (cH 0)))))) (cA (cV 1) (cM (cN 2) (cW (cV 1) 4)))).
Definition SPSU2T_e66 := (cD (cA (cA (cO (cR (cD (cA (cN (-1)) (cM (cN 2) (cH 0))) (cM (cA (cN 1) (cM (cN 2) (cH 0))) (cA (cN (-1)) (cV 1)))))) (cR (cD (cM (cA (cN (-1)) (cM (cN 2) (cH 0))) (cA (cN (-1)) (cV 1))) (cM (cA (cN 1) (cM (cN 2) (cH 0))) (cW (cV 1) 4))))) (cM (cR (cD (cA (cN (-1)) (cM (cN 2) (cH 0))) (cM (cA (cN 1) (cM (cN 2) (cH 0))) (cA (cN (-1)) (cV 1))))) (cV 1))) (cR (cD (cM (cH 0) (cA (cN 1) (cV 1))) (cA (cN 1) (cH 0))))).
Definition SPSU2T_e67 := (cD (cR (cD (cM (cA (cA (cB (cN (-1)) (cH 0)) (cM (cN 4) (cW (cH 0) 4))) (cM (cN 4) (cW (cH 0) 6))) (cA (cN (-1)) (cM (cN 4) (cW (cV 1) 4)))) (cH 0))) (cM (cA (cN 1) (cM (cN 2) (cH 0))) (cA (cV 1) (cM (cN 2) (cW (cV 1) 4))))).
Definition SPSU2T_e68 := (cD (cA (cA (cR (cD (cM (cA (cN (-1)) (cM (cN 2) (cH 0))) (cA (cN (-1)) (cM (cN 2) (cV 1)))) (cM (cA (cN 1) (cM (cN 2) (cH 0))) (cA (cN 1) (cV 1))))) (cR (cD (cM (cA (cN (-1)) (cM (cN 2) (cH 0))) (cA (cN (-1)) (cM (cN 2) (cV 1)))) (cM (cM (cA (cN 1) (cM (cN 2) (cH 0))) (cA (cN 1) (cV 1))) (cW (cA (cN 1) (cM (cN 2) (cV 1))) 4))))) (cR (cD (cM (cA (cN (-1)) (cM (cN 2) (cH 0))) (cA (cA (cN (-1)) (cV 1)) (cM (cN 2) (cW (cV 1) 4)))) (cA (cN 1) (cM (cN 2) (cH 0)))))) (cR (cD (cM (cH 0) (cA (cA (cN 3) (cM (cN 5) (cV 1))) (cM (cN 2) (cW (cV 1) 4)))) (cA (cN 1) (cH 0))))).
Definition SPSU2T_e69 := (cO (cD (cN 1) (cR (cM (cH 0) (cA (cN 1) (cM (cN 2) (cH 0))))))).
Definition SPSU2T_e70 := (cO (cD (cN 1) (cM (cR (cM (cH 0) (cA (cN 1) (cM (cN 2) (cH 0))))) (cV 1)))).
Definition SPSU2T_e71 := (cO (cD (cN 1) (cM (cM (cR (cM (cH 0) (cA (cN 1) (cM (cN 2) (cH 0))))) (cV 1)) (cA (cN 1) (cM (cN 2) (cV 1)))))).
Definition SPSU2T_e72 := (cD (cA (cN 3) (cM (cN 2) (cH 0))) (cR (cM (cA (cN 1) (cD (cN 1) (cH 0))) (cA (cA (cN 3) (cM (cN 8) (cH 0))) (cM (cN 4) (cW (cH 0) 4)))))).
Definition SPSU2T_e73 := (cD (cA (cN 3) (cM (cN 2) (cH 0))) (cR (cD (cM (cM (cA (cN 1) (cH 0)) (cA (cA (cN 3) (cM (cN 8) (cH 0))) (cM (cN 4) (cW (cH 0) 4)))) (cW (cV 1) 4)) (cH 0)))).
Definition SPSU2T_e74 := (cD (cA (cN 3) (cM (cN 2) (cH 0))) (cR (cD (cM (cA (cA (cA (cN 3) (cM (cN 11) (cH 0))) (cM (cN 12) (cW (cH 0) 4))) (cM (cN 4) (cW (cH 0) 6))) (cW (cA (cV 1) (cM (cN 2) (cW (cV 1) 4))) 4)) (cH 0)))).
Definition SPSU2T_e75 := (cO (cD (cN 1) (cM (cV 1) (cR (cD (cM (cH 0) (cA (cN 1) (cM (cN 2) (cH 0)))) (cA (cN (-1)) (cW (cV 1) 4))))))).
Definition SPSU2T_e76 := (cO (cD (cA (cA (cB (cO (cM (cM (cM (cW (cA (cN 1) (cH 0)) 3) (cA (cN (-1)) (cM (cN 2) (cH 0)))) (cA (cN 1) (cV 1))) (cR (cD (cM (cV 1) (cA (cN (-1)) (cM (cN 2) (cV 1)))) (cH 0))))) (cM (cM (cM (cM (cW (cA (cN 1) (cH 0)) 3) (cA (cN (-1)) (cM (cN 2) (cH 0)))) (cV 1)) (cA (cN 1) (cV 1))) (cR (cD (cM (cV 1) (cA (cN (-1)) (cM (cN 2) (cV 1)))) (cH 0))))) (cM (cM (cN 2) (cV 1)) (cR (cM (cM (cM (cM (cH 0) (cW (cA (cN 1) (cH 0)) 6)) (cV 1)) (cW (cA (cN 1) (cV 1)) 4)) (cA (cN (-1)) (cM (cN 2) (cV 1))))))) (cM (cM (cM (cN 2) (cV 1)) (cW (cM (cA (cN 1) (cH 0)) (cA (cN 1) (cV 1))) 3)) (cR (cO (cD (cB (cH 0) (cM (cM (cN 2) (cH 0)) (cV 1))) (cA (cV 1) (cW (cV 1) 4))))))) (cM (cM (cW (cM (cA (cN 1) (cH 0)) (cV 1)) 3) (cW (cA (cN 1) (cV 1)) 4)) (cR (cM (cA (cN 1) (cM (cN 2) (cH 0))) (cA (cN 1) (cM (cN 2) (cV 1)))))))).
Definition SPSU2T_e77 := (cD (cR (cD (cM (cM (cH 0) (cA (cA (cN 3) (cM (cN 8) (cH 0))) (cM (cN 4) (cW (cH 0) 4)))) (cA (cN (-1)) (cW (cV 1) 4))) (cA (cN 1) (cH 0)))) (cA (cV 1) (cM (cM (cN 2) (cH 0)) (cV 1)))).
Definition SPSU2T_e78 := (cD (cA (cA (cA (cO (cM (cH 0) (cR (cD (cA (cN (-1)) (cM (cN 2) (cV 1))) (cM (cM (cH 0) (cA (cA (cN 3) (cM (cN 8) (cH 0))) (cM (cN 4) (cW (cH 0) 4)))) (cA (cN 1) (cM (cN 2) (cV 1)))))))) (cM (cM (cN 2) (cW (cH 0) 4)) (cR (cD (cA (cN (-1)) (cM (cN 2) (cV 1))) (cM (cM (cH 0) (cA (cA (cN 3) (cM (cN 8) (cH 0))) (cM (cN 4) (cW (cH 0) 4)))) (cA (cN 1) (cM (cN 2) (cV 1)))))))) (cM (cN 4) (cR (cD (cM (cH 0) (cA (cN (-1)) (cM (cN 2) (cV 1)))) (cM (cA (cA (cN 3) (cM (cN 8) (cH 0))) (cM (cN 4) (cW (cH 0) 4))) (cA (cN 1) (cM (cN 2) (cV 1)))))))) (cM (cM (cA (cN 3) (cM (cN 2) (cH 0))) (cV 1)) (cR (cD (cM (cH 0) (cA (cN (-1)) (cM (cN 2) (cV 1)))) (cM (cA (cA (cN 3) (cM (cN 8) (cH 0))) (cM (cN 4) (cW (cH 0) 4))) (cA (cN 1) (cM (cN 2) (cV 1)))))))) (cM (cM (cR (cA (cN 1) (cH 0))) (cV 1)) (cA (cN 1) (cV 1)))).
Definition SPSU2T_e79 := (cO (cD (cA (cA (cR (cD (cM (cV 1) (cA (cN (-1)) (cM (cN 2) (cV 1)))) (cM (cH 0) (cA (cA (cN 1) (cM (cN 3) (cV 1))) (cM (cN 2) (cW (cV 1) 4)))))) (cR (cO (cD (cB (cV 1) (cM (cN 4) (cW (cV 1) 6))) (cA (cH 0) (cM (cH 0) (cV 1))))))) (cR (cD (cM (cV 1) (cA (cA (cB (cN (-1)) (cV 1)) (cM (cN 4) (cW (cV 1) 4))) (cM (cN 4) (cW (cV 1) 6)))) (cH 0)))) (cR (cM (cM (cA (cN 1) (cM (cN 2) (cH 0))) (cV 1)) (cA (cA (cA (cN 3) (cM (cN 11) (cV 1))) (cM (cN 12) (cW (cV 1) 4))) (cM (cN 4) (cW (cV 1) 6))))))).
Definition SPSU2T_e80 := (cD (cA (cA (cA (cA (cM (cN 6) (cR (cD (cM (cH 0) (cA (cN (-1)) (cM (cN 2) (cV 1)))) (cM (cA (cA (cA (cN 3) (cM (cN 11) (cH 0))) (cM (cN 12) (cW (cH 0) 4))) (cM (cN 4) (cW (cH 0) 6))) (cA (cN 1) (cV 1)))))) (cM (cN 4) (cR (cD (cM (cW (cH 0) 6) (cA (cN (-1)) (cM (cN 2) (cV 1)))) (cM (cA (cA (cA (cN 3) (cM (cN 11) (cH 0))) (cM (cN 12) (cW (cH 0) 4))) (cM (cN 4) (cW (cH 0) 6))) (cA (cN 1) (cV 1))))))) (cM (cN 3) (cR (cD (cM (cH 0) (cA (cA (cN (-1)) (cV 1)) (cM (cN 2) (cW (cV 1) 4)))) (cA (cA (cA (cN 3) (cM (cN 11) (cH 0))) (cM (cN 12) (cW (cH 0) 4))) (cM (cN 4) (cW (cH 0) 6))))))) (cM (cN 2) (cR (cD (cM (cW (cH 0) 6) (cA (cA (cN (-1)) (cV 1)) (cM (cN 2) (cW (cV 1) 4)))) (cA (cA (cA (cN 3) (cM (cN 11) (cH 0))) (cM (cN 12) (cW (cH 0) 4))) (cM (cN 4) (cW (cH 0) 6))))))) (cM (cV 1) (cA (cA (cA (cM (cN 6) (cR (cD (cM (cH 0) (cA (cN (-1)) (cM (cN 2) (cV 1)))) (cM (cA (cA (cA (cN 3) (cM (cN 11) (cH 0))) (cM (cN 12) (cW (cH 0) 4))) (cM (cN 4) (cW (cH 0) 6))) (cA (cN 1) (cV 1)))))) (cM (cN 4) (cR (cD (cM (cW (cH 0) 6) (cA (cN (-1)) (cM (cN 2) (cV 1)))) (cM (cA (cA (cA (cN 3) (cM (cN 11) (cH 0))) (cM (cN 12) (cW (cH 0) 4))) (cM (cN 4) (cW (cH 0) 6))) (cA (cN 1) (cV 1))))))) (cM (cN 6) (cR (cD (cM (cH 0) (cA (cA (cN (-1)) (cV 1)) (cM (cN 2) (cW (cV 1) 4)))) (cA (cA (cA (cN 3) (cM (cN 11) (cH 0))) (cM (cN 12) (cW (cH 0) 4))) (cM (cN 4) (cW (cH 0) 6))))))) (cM (cN 4) (cR (cD (cM (cW (cH 0) 6) (cA (cA (cN (-1)) (cV 1)) (cM (cN 2) (cW (cV 1) 4)))) (cA (cA (cA (cN 3) (cM (cN 11) (cH 0))) (cM (cN 12) (cW (cH 0) 4))) (cM (cN 4) (cW (cH 0) 6))))))))) (cM (cA (cN 1) (cM (cN 2) (cV 1))) (cR (cA (cA (cN 3) (cM (cN 5) (cV 1))) (cM (cN 2) (cW (cV 1) 4)))))).
Definition SPSU2T_e81 := (cO (cD (cN 1) (cR (cA (cA (cN 1) (cM (cN 3) (cH 0))) (cM (cN 2) (cW (cH 0) 4)))))).
Definition SPSU2T_e82 := (cO (cD (cN 1) (cM (cR (cM (cA (cN 1) (cH 0)) (cA (cN 1) (cM (cN 2) (cH 0))))) (cV 1)))).
Definition SPSU2T_e83 := (cO (cD (cN 1) (cM (cR (cA (cA (cN 1) (cM (cN 3) (cH 0))) (cM (cN 2) (cW (cH 0) 4)))) (cA (cV 1) (cM (cN 2) (cW (cV 1) 4)))))).
Definition SPSU2T_e84 := (cD (cN 1) (cA (cV 1) (cM (cN 2) (cW (cV 1) 4)))).
Definition SPSU2T_e85 := (cO (cD (cA (cB (cA (cB (cB (cA (cB (cA (cM (cM (cM (cN (-2)) (cH 0)) (cW (cA (cA (cN 3) (cM (cN 8) (cH 0))) (cM (cN 4) (cW (cH 0) 4))) 3)) (cR (cD (cA (cN (-1)) (cV 1)) (cA (cN 1) (cH 0))))) (cM (cM (cN 2) (cW (cA (cA (cN 3) (cM (cN 8) (cH 0))) (cM (cN 4) (cW (cH 0) 4))) 3)) (cR (cM (cA (cN 1) (cH 0)) (cA (cN (-1)) (cV 1)))))) (cM (cM (cM (cN 4) (cH 0)) (cW (cA (cN 3) (cM (cN 2) (cH 0))) 3)) (cR (cD (cM (cA (cN 1) (cM (cN 2) (cH 0))) (cA (cN (-1)) (cV 1))) (cA (cN 1) (cH 0)))))) (cM (cM (cA (cN 1) (cM (cN 2) (cH 0))) (cA (cN 3) (cM (cN 2) (cH 0)))) (cR (cD (cM (cA (cA (cN 3) (cM (cN 8) (cH 0))) (cM (cN 4) (cW (cH 0) 4))) (cA (cN (-1)) (cV 1))) (cA (cN 1) (cH 0)))))) (cM (cM (cM (cN 2) (cW (cA (cA (cN 3) (cM (cN 8) (cH 0))) (cM (cN 4) (cW (cH 0) 4))) 3)) (cR (cD (cA (cN 1) (cH 0)) (cA (cN (-1)) (cV 1))))) (cV 1))) (cM (cM (cM (cM (cN 4) (cH 0)) (cW (cA (cN 3) (cM (cN 2) (cH 0))) 3)) (cR (cD (cM (cA (cN 1) (cM (cN 2) (cH 0))) (cA (cN (-1)) (cV 1))) (cA (cN 1) (cH 0))))) (cV 1))) (cM (cM (cM (cA (cN 1) (cM (cN 2) (cH 0))) (cW (cA (cN 3) (cM (cN 2) (cH 0))) 3)) (cR (cD (cM (cA (cN 1) (cM (cN 2) (cH 0))) (cA (cN (-1)) (cV 1))) (cA (cN 1) (cH 0))))) (cV 1))) (cM (cM (cM (cM (cM (cN 2) (cH 0)) (cA (cN 1) (cM (cN 2) (cH 0)))) (cW (cA (cN 3) (cM (cN 2) (cH 0))) 3)) (cR (cD (cM (cA (cN 1) (cM (cN 2) (cH 0))) (cA (cN (-1)) (cV 1))) (cA (cN 1) (cH 0))))) (cV 1))) (cM (cM (cM (cN 2) (cW (cA (cA (cN 3) (cM (cN 8) (cH 0))) (cM (cN 4) (cW (cH 0) 4))) 3)) (cR (cD (cA (cN 1) (cH 0)) (cA (cN (-1)) (cV 1))))) (cW (cV 1) 4))) (cM (cM (cW (cA (cN 3) (cM (cN 2) (cH 0))) 5) (cR (cA (cN 1) (cV 1)))) (cA (cV 1) (cM (cM (cN 2) (cH 0)) (cV 1)))))).
Definition SPSU2T_e86 := (cO (cD (cN 1) (cM (cV 1) (cR (cD (cM (cA (cA (cN 1) (cM (cN 3) (cH 0))) (cM (cN 2) (cW (cH 0) 4))) (cA (cN 1) (cM (cN 2) (cV 1)))) (cA (cN (-1)) (cM (cN 2) (cV 1)))))))).
Definition SPSU2T_e87 := (cD (cR (cA (cN (-1)) (cW (cV 1) 4))) (cV 1)).
Definition SPSU2T_e88 := (cD (cR (cD (cA (cN (-1)) (cM (cN 2) (cV 1))) (cA (cN 1) (cM (cN 2) (cV 1))))) (cV 1)).
Definition SPSU2T_e89 := (cO (cD (cB (cA (cA (cA (cA (cA (cR (cD (cM (cM (cA (cN 1) (cM (cN 2) (cH 0))) (cV 1)) (cA (cN (-1)) (cM (cN 2) (cV 1)))) (cM (cA (cN 1) (cH 0)) (cA (cA (cN 1) (cM (cN 3) (cV 1))) (cM (cN 2) (cW (cV 1) 4)))))) (cM (cN 2) (cR (cD (cM (cM (cA (cA (cN 1) (cM (cN 3) (cH 0))) (cM (cN 2) (cW (cH 0) 4))) (cV 1)) (cA (cN (-1)) (cM (cN 2) (cV 1)))) (cA (cA (cN 1) (cM (cN 3) (cV 1))) (cM (cN 2) (cW (cV 1) 4))))))) (cR (cD (cM (cM (cA (cN 1) (cM (cN 2) (cH 0))) (cV 1)) (cA (cN (-1)) (cM (cN 4) (cW (cV 1) 4)))) (cM (cA (cN 1) (cH 0)) (cA (cN 1) (cV 1)))))) (cM (cN 2) (cR (cD (cM (cM (cA (cA (cN 1) (cM (cN 3) (cH 0))) (cM (cN 2) (cW (cH 0) 4))) (cV 1)) (cA (cN (-1)) (cM (cN 4) (cW (cV 1) 4)))) (cA (cN 1) (cV 1)))))) (cR (cD (cM (cM (cA (cN 1) (cM (cN 2) (cH 0))) (cV 1)) (cA (cA (cB (cN (-1)) (cV 1)) (cM (cN 4) (cW (cV 1) 4))) (cM (cN 4) (cW (cV 1) 6)))) (cA (cN 1) (cH 0))))) (cM (cN 2) (cR (cM (cM (cA (cA (cN 1) (cM (cN 3) (cH 0))) (cM (cN 2) (cW (cH 0) 4))) (cV 1)) (cA (cA (cB (cN (-1)) (cV 1)) (cM (cN 4) (cW (cV 1) 4))) (cM (cN 4) (cW (cV 1) 6))))))) (cM (cM (cN 2) (cH 0)) (cA (cA (cA (cA (cA (cR (cD (cM (cM (cA (cN 1) (cM (cN 2) (cH 0))) (cV 1)) (cA (cN (-1)) (cM (cN 2) (cV 1)))) (cM (cA (cN 1) (cH 0)) (cA (cA (cN 1) (cM (cN 3) (cV 1))) (cM (cN 2) (cW (cV 1) 4)))))) (cM (cN 2) (cR (cD (cM (cV 1) (cA (cN (-1)) (cM (cN 2) (cV 1)))) (cM (cA (cA (cN 1) (cM (cN 3) (cH 0))) (cM (cN 2) (cW (cH 0) 4))) (cA (cA (cN 1) (cM (cN 3) (cV 1))) (cM (cN 2) (cW (cV 1) 4)))))))) (cR (cD (cM (cM (cA (cN 1) (cM (cN 2) (cH 0))) (cV 1)) (cA (cN (-1)) (cM (cN 4) (cW (cV 1) 4)))) (cM (cA (cN 1) (cH 0)) (cA (cN 1) (cV 1)))))) (cM (cN 2) (cR (cD (cM (cV 1) (cA (cN (-1)) (cM (cN 4) (cW (cV 1) 4)))) (cM (cA (cA (cN 1) (cM (cN 3) (cH 0))) (cM (cN 2) (cW (cH 0) 4))) (cA (cN 1) (cV 1))))))) (cR (cD (cM (cM (cA (cN 1) (cM (cN 2) (cH 0))) (cV 1)) (cA (cA (cB (cN (-1)) (cV 1)) (cM (cN 4) (cW (cV 1) 4))) (cM (cN 4) (cW (cV 1) 6)))) (cA (cN 1) (cH 0))))) (cM (cN 2) (cR (cD (cM (cV 1) (cA (cA (cB (cN (-1)) (cV 1)) (cM (cN 4) (cW (cV 1) 4))) (cM (cN 4) (cW (cV 1) 6)))) (cA (cA (cN 1) (cM (cN 3) (cH 0))) (cM (cN 2) (cW (cH 0) 4))))))))) (cM (cA (cN 3) (cM (cN 2) (cH 0))) (cR (cM (cV 1) (cA (cA (cA (cN 3) (cM (cN 11) (cV 1))) (cM (cN 12) (cW (cV 1) 4))) (cM (cN 4) (cW (cV 1) 6)))))))).
Definition SPSU2T_e90 := (cD (cM (cA (cN 2) (cH 0)) (cA (cA (cR (cD (cM (cV 1) (cA (cN (-1)) (cM (cN 2) (cV 1)))) (cM (cA (cN 2) (cH 0)) (cA (cA (cN 1) (cM (cN 3) (cV 1))) (cM (cN 2) (cW (cV 1) 4)))))) (cR (cD (cM (cV 1) (cA (cN (-1)) (cM (cN 4) (cW (cV 1) 4)))) (cM (cA (cN 2) (cH 0)) (cA (cN 1) (cV 1)))))) (cR (cD (cM (cV 1) (cA (cA (cB (cN (-1)) (cV 1)) (cM (cN 4) (cW (cV 1) 4))) (cM (cN 4) (cW (cV 1) 6)))) (cA (cN 2) (cH 0)))))) (cR (cM (cM (cA (cN 2) (cH 0)) (cV 1)) (cA (cA (cA (cN 3) (cM (cN 11) (cV 1))) (cM (cN 12) (cW (cV 1) 4))) (cM (cN 4) (cW (cV 1) 6)))))).
Definition SPSU2T_e91 := (cM (cN (-2)) (cR (cD (cA (cN (-1)) (cW (cH 0) 4)) (cA (cN (-1)) (cM (cN 4) (cW (cH 0) 4)))))).
Definition SPSU2T_e92 := (cD (cR (cN 3)) (cR (cA (cN (-1)) (cM (cN 4) (cW (cH 0) 4))))).
Definition SPSU2T_e93 := (cO (cD (cR (cA (cA (cN (-3)) (cM (cN 4) (cH 0))) (cM (cN 4) (cW (cH 0) 4)))) (cA (cN 1) (cM (cN 2) (cH 0))))).
Definition SPSU2T_e94 := (cD (cN 2) (cA (cN 1) (cM (cN 2) (cH 0)))).
Definition SPSU2T_e95 := (cD (cM (cM (cH 0) (cR (cD (cA (cN 4) (cM (cN 4) (cH 0))) (cA (cH 0) (cM (cN 2) (cW (cH 0) 4)))))) (cB (cB (cB (cM (cR (cD (cA (cA (cN 2) (cM (cN 3) (cH 0))) (cW (cH 0) 4)) (cA (cN 3) (cM (cN 2) (cH 0))))) (cA (cA (cN 3) (cM (cN 8) (cH 0))) (cM (cN 4) (cW (cH 0) 4)))) (cM (cM (cH 0) (cR (cD (cA (cA (cN 2) (cM (cN 3) (cH 0))) (cW (cH 0) 4)) (cA (cN 3) (cM (cN 2) (cH 0)))))) (cA (cA (cN 3) (cM (cN 8) (cH 0))) (cM (cN 4) (cW (cH 0) 4))))) (cM (cN 7) (cR (cA (cA (cA (cN 6) (cM (cN 13) (cH 0))) (cM (cN 9) (cW (cH 0) 4))) (cM (cN 2) (cW (cH 0) 6)))))) (cM (cM (cN 8) (cH 0)) (cR (cA (cA (cA (cN 6) (cM (cN 13) (cH 0))) (cM (cN 9) (cW (cH 0) 4))) (cM (cN 2) (cW (cH 0) 6))))))) (cM (cW (cA (cN 3) (cM (cN 2) (cH 0))) 4) (cA (cA (cN 2) (cM (cN 3) (cH 0))) (cW (cH 0) 4)))).
Definition SPSU2T_e96 := (cD (cR (cN 3)) (cR (cA (cA (cN 3) (cM (cN 8) (cH 0))) (cM (cN 4) (cW (cH 0) 4))))).
Definition SPSU2T_e97 := (cD (cN 1) (cB (cN (-1)) (cM (cN 2) (cH 0)))).
Definition SPSU2T_e98 := (cO (cD (cN 1) (cA (cV 1) (cM (cM (cN 2) (cH 0)) (cV 1))))).
Definition SPSU2T_e99 := (cO (cD (cN 1) (cM (cA (cN 1) (cM (cN 2) (cH 0))) (cA (cV 1) (cM (cN 2) (cW (cV 1) 4)))))).
Definition SPSU2T_e100 := (cO (cD (cA (cR (cD (cA (cN (-1)) (cV 1)) (cV 1))) (cR (cM (cA (cN (-1)) (cV 1)) (cV 1)))) (cR (cM (cV 1) (cA (cN 1) (cV 1)))))).
Definition SPSU2T_e101 := (cO (cD (cR (cA (cN (-1)) (cW (cV 1) 4))) (cA (cV 1) (cM (cM (cN 2) (cH 0)) (cV 1))))).
Definition SPSU2T_e102 := (cO (cD (cR (cD (cA (cN (-1)) (cM (cN 2) (cV 1))) (cA (cN 1) (cM (cN 2) (cV 1))))) (cA (cV 1) (cM (cM (cN 2) (cH 0)) (cV 1))))).
Definition SPSU2T_e103 := (cO (cD (cA (cA (cR (cM (cM (cM (cV 1) (cA (cN 1) (cV 1))) (cA (cN (-1)) (cM (cN 2) (cV 1)))) (cA (cN 1) (cM (cN 2) (cV 1))))) (cR (cD (cM (cV 1) (cA (cN (-1)) (cM (cN 2) (cV 1)))) (cA (cA (cN 1) (cM (cN 3) (cV 1))) (cM (cN 2) (cW (cV 1) 4)))))) (cR (cD (cM (cV 1) (cA (cN (-1)) (cM (cN 4) (cW (cV 1) 4)))) (cA (cN 1) (cV 1))))) (cR (cM (cM (cV 1) (cA (cN 1) (cM (cN 2) (cV 1)))) (cA (cA (cN 3) (cM (cN 5) (cV 1))) (cM (cN 2) (cW (cV 1) 4))))))).
Definition SPSU2T_e104 := (cO (cD (cA (cA (cR (cD (cM (cV 1) (cA (cN (-1)) (cM (cN 2) (cV 1)))) (cA (cA (cN 1) (cM (cN 3) (cV 1))) (cM (cN 2) (cW (cV 1) 4))))) (cR (cD (cM (cV 1) (cA (cN (-1)) (cM (cN 4) (cW (cV 1) 4)))) (cA (cN 1) (cV 1))))) (cR (cM (cV 1) (cA (cA (cB (cN (-1)) (cV 1)) (cM (cN 4) (cW (cV 1) 4))) (cM (cN 4) (cW (cV 1) 6)))))) (cM (cA (cN 1) (cM (cN 2) (cH 0))) (cR (cM (cV 1) (cA (cA (cA (cN 3) (cM (cN 11) (cV 1))) (cM (cN 12) (cW (cV 1) 4))) (cM (cN 4) (cW (cV 1) 6)))))))).
Definition SPSU2T_e105 := (cD (cM (cN (-2)) (cR (cM (cM (cH 0) (cA (cN 1) (cH 0))) (cA (cN (-1)) (cW (cV 1) 4))))) (cA (cV 1) (cM (cM (cN 2) (cH 0)) (cV 1)))).
Definition SPSU2T_e106 := (cD (cM (cN (-2)) (cR (cD (cM (cM (cH 0) (cA (cN 1) (cH 0))) (cA (cN (-1)) (cM (cN 2) (cV 1)))) (cA (cN 1) (cM (cN 2) (cV 1)))))) (cA (cV 1) (cM (cM (cN 2) (cH 0)) (cV 1)))).
Definition SPSU2T_e107 := (cD (cM (cQ (-1) 2) (cA (cA (cA (cA (cA (cM (cN 2) (cR (cD (cM (cM (cM (cM (cM (cH 0) (cW (cA (cN 1) (cH 0)) 6)) (cV 1)) (cA (cN 1) (cV 1))) (cA (cN (-1)) (cM (cN 2) (cV 1)))) (cW (cA (cN 3) (cM (cN 2) (cV 1))) 6)) (cW (cA (cN 1) (cM (cN 2) (cV 1))) 6)))) (cM (cN 2) (cR (cD (cM (cM (cM (cM (cM (cH 0) (cW (cA (cN 1) (cH 0)) 6)) (cV 1)) (cA (cN 1) (cV 1))) (cA (cN (-1)) (cM (cN 2) (cV 1)))) (cW (cA (cN 3) (cM (cN 2) (cV 1))) 6)) (cA (cN 1) (cM (cN 2) (cV 1))))))) (cM (cN 2) (cR (cD (cM (cM (cM (cM (cM (cH 0) (cW (cA (cN 1) (cH 0)) 6)) (cV 1)) (cA (cN 1) (cV 1))) (cA (cN (-1)) (cM (cN 2) (cV 1)))) (cW (cA (cN 3) (cM (cN 2) (cV 1))) 6)) (cM (cW (cA (cN 1) (cM (cN 2) (cH 0))) 4) (cA (cN 1) (cM (cN 2) (cV 1)))))))) (cM (cN 2) (cR (cD (cM (cM (cM (cM (cH 0) (cW (cA (cN 1) (cH 0)) 6)) (cV 1)) (cA (cN (-1)) (cM (cN 2) (cV 1)))) (cW (cA (cA (cN 3) (cM (cN 5) (cV 1))) (cM (cN 2) (cW (cV 1) 4))) 6)) (cA (cN 1) (cM (cN 2) (cV 1))))))) (cM (cN 2) (cR (cD (cM (cM (cM (cM (cH 0) (cW (cA (cN 1) (cH 0)) 6)) (cV 1)) (cA (cN (-1)) (cM (cN 2) (cV 1)))) (cW (cA (cA (cN 3) (cM (cN 5) (cV 1))) (cM (cN 2) (cW (cV 1) 4))) 6)) (cM (cW (cA (cN 1) (cM (cN 2) (cH 0))) 4) (cA (cN 1) (cM (cN 2) (cV 1)))))))) (cD (cM (cM (cM (cM (cN 2) (cW (cA (cN 1) (cH 0)) 3)) (cA (cN 1) (cV 1))) (cA (cN 3) (cM (cN 2) (cV 1)))) (cR (cD (cM (cM (cH 0) (cV 1)) (cA (cA (cN (-3)) (cM (cN 4) (cV 1))) (cM (cN 4) (cW (cV 1) 4)))) (cA (cA (cN 1) (cM (cN 3) (cV 1))) (cM (cN 2) (cW (cV 1) 4)))))) (cM (cA (cN 1) (cM (cN 2) (cH 0))) (cA (cN 1) (cM (cN 2) (cV 1))))))) (cR (cD (cM (cM (cM (cW (cA (cN 1) (cH 0)) 8) (cV 1)) (cW (cA (cN 1) (cV 1)) 6)) (cW (cA (cN 3) (cM (cN 2) (cV 1))) 8)) (cA (cN 1) (cM (cN 2) (cV 1)))))).
Definition SPSU2T_e108 := (cO (cD (cA (cA (cA (cA (cA (cR (cD (cM (cM (cM (cM (cH 0) (cW (cA (cN 1) (cH 0)) 6)) (cV 1)) (cW (cA (cN 3) (cM (cN 2) (cV 1))) 6)) (cA (cA (cN (-1)) (cV 1)) (cM (cN 2) (cW (cV 1) 4)))) (cW (cA (cN 1) (cM (cN 2) (cV 1))) 6))) (cR (cD (cM (cM (cM (cM (cH 0) (cW (cA (cN 1) (cH 0)) 6)) (cV 1)) (cW (cA (cN 3) (cM (cN 2) (cV 1))) 6)) (cA (cA (cN (-1)) (cV 1)) (cM (cN 2) (cW (cV 1) 4)))) (cA (cN 1) (cM (cN 2) (cV 1)))))) (cR (cD (cM (cM (cM (cM (cH 0) (cW (cA (cN 1) (cH 0)) 6)) (cV 1)) (cW (cA (cN 3) (cM (cN 2) (cV 1))) 6)) (cA (cA (cN (-1)) (cV 1)) (cM (cN 2) (cW (cV 1) 4)))) (cM (cW (cA (cN 1) (cM (cN 2) (cH 0))) 4) (cA (cN 1) (cM (cN 2) (cV 1))))))) (cR (cD (cM (cM (cM (cM (cH 0) (cW (cA (cN 1) (cH 0)) 6)) (cV 1)) (cA (cN (-1)) (cM (cN 2) (cV 1)))) (cW (cA (cA (cN 3) (cM (cN 5) (cV 1))) (cM (cN 2) (cW (cV 1) 4))) 6)) (cA (cN 1) (cM (cN 2) (cV 1)))))) (cR (cD (cM (cM (cM (cM (cH 0) (cW (cA (cN 1) (cH 0)) 6)) (cV 1)) (cA (cN (-1)) (cM (cN 2) (cV 1)))) (cW (cA (cA (cN 3) (cM (cN 5) (cV 1))) (cM (cN 2) (cW (cV 1) 4))) 6)) (cM (cW (cA (cN 1) (cM (cN 2) (cH 0))) 4) (cA (cN 1) (cM (cN 2) (cV 1))))))) (cD (cM (cM (cM (cA (cN 1) (cH 0)) (cA (cN 1) (cV 1))) (cA (cN 3) (cM (cN 2) (cV 1)))) (cR (cD (cM (cM (cM (cH 0) (cA (cN 1) (cH 0))) (cV 1)) (cA (cA (cN (-3)) (cM (cN 4) (cV 1))) (cM (cN 4) (cW (cV 1) 4)))) (cM (cW (cA (cN 1) (cM (cN 2) (cH 0))) 4) (cA (cA (cN 1) (cM (cN 3) (cV 1))) (cM (cN 2) (cW (cV 1) 4))))))) (cA (cN 1) (cM (cN 2) (cV 1))))) (cR (cD (cM (cM (cM (cW (cA (cN 1) (cH 0)) 8) (cV 1)) (cW (cA (cN 1) (cV 1)) 6)) (cW (cA (cN 3) (cM (cN 2) (cV 1))) 8)) (cA (cN 1) (cM (cN 2) (cV 1))))))).
Definition SPSU2T_e109 := (cO (cD (cR (cN 6)) (cR (cM (cM (cV 1) (cA (cN 1) (cM (cN 2) (cV 1)))) (cA (cB (cN 1) (cM (cN 3) (cV 1))) (cM (cN 2) (cW (cV 1) 4))))))).
Definition SPSU2T_e110 := (cO (cD (cR (cN 2)) (cM (cA (cN 1) (cM (cN 2) (cH 0))) (cR (cM (cA (cN (-1)) (cV 1)) (cV 1)))))).
Definition SPSU2T_e111 := (cO (cD (cR (cN 6)) (cM (cA (cN 1) (cM (cN 2) (cH 0))) (cR (cM (cM (cV 1) (cA (cN 1) (cM (cN 2) (cV 1)))) (cA (cB (cN 1) (cM (cN 3) (cV 1))) (cM (cN 2) (cW (cV 1) 4)))))))).
Definition SPSU2T_e112 := (cO (cD (cN 1) (cR (cD (cM (cA (cN (-1)) (cV 1)) (cV 1)) (cA (cB (cN (-2)) (cV 1)) (cW (cV 1) 4)))))).
Definition SPSU2T_e113 := (cD (cM (cB (cN 3) (cM (cN 2) (cV 1))) (cR (cD (cA (cA (cN 3) (cM (cN 9) (cV 1))) (cM (cN 6) (cW (cV 1) 4))) (cA (cB (cN 3) (cM (cN 5) (cV 1))) (cM (cN 2) (cW (cV 1) 4)))))) (cM (cV 1) (cA (cN 1) (cM (cN 2) (cV 1))))).
Definition SPSU2T_e114 := (cO (cD (cM (cA (cN (-2)) (cV 1)) (cR (cD (cM (cV 1) (cA (cN 1) (cV 1))) (cA (cB (cN 2) (cM (cN 3) (cV 1))) (cW (cV 1) 4))))) (cA (cV 1) (cM (cM (cN 2) (cH 0)) (cV 1))))).
Definition SPSU2T_e115 := (cD (cM (cB (cN 3) (cM (cN 2) (cV 1))) (cR (cD (cA (cA (cN 3) (cM (cN 9) (cV 1))) (cM (cN 6) (cW (cV 1) 4))) (cA (cB (cN 3) (cM (cN 5) (cV 1))) (cM (cN 2) (cW (cV 1) 4)))))) (cM (cM (cA (cN 1) (cM (cN 2) (cH 0))) (cV 1)) (cA (cN 1) (cM (cN 2) (cV 1))))).
Definition SPSU2T_e116 := (cD (cN (-3)) (cM (cA (cN 1) (cM (cN 2) (cH 0))) (cA (cV 1) (cM (cN 2) (cW (cV 1) 4))))).
Definition SPSU2T_e117 := (cO (cD (cM (cR (cD (cA (cN (-1)) (cV 1)) (cA (cA (cA (cN 3) (cM (cN 11) (cV 1))) (cM (cN 12) (cW (cV 1) 4))) (cM (cN 4) (cW (cV 1) 6))))) (cA (cA (cM (cN 6) (cR (cD (cB (cN 3) (cM (cN 2) (cV 1))) (cB (cN 1) (cM (cN 2) (cV 1)))))) (cM (cN 3) (cR (cA (cB (cN 3) (cM (cN 8) (cV 1))) (cM (cN 4) (cW (cV 1) 4)))))) (cM (cV 1) (cR (cA (cB (cN 3) (cM (cN 8) (cV 1))) (cM (cN 4) (cW (cV 1) 4))))))) (cV 1))).
Definition SPSU2T_e118 := (cO (cD (cM (cR (cN 3)) (cR (cD (cA (cA (cN (-3)) (cV 1)) (cM (cN 2) (cW (cV 1) 4))) (cA (cA (cN 1) (cM (cN 3) (cV 1))) (cM (cN 2) (cW (cV 1) 4)))))) (cV 1))).
Definition SPSU2T_e119 := (cO (cD (cR (cN 6)) (cR (cM (cM (cV 1) (cA (cN 1) (cM (cN 2) (cV 1)))) (cA (cA (cN 3) (cM (cN 5) (cV 1))) (cM (cN 2) (cW (cV 1) 4))))))).
Definition SPSU2T_e120 := (cO (cD (cA (cA (cD (cM (cM (cN 3) (cA (cN (-3)) (cM (cN 2) (cV 1)))) (cA (cN (-1)) (cM (cN 2) (cV 1)))) (cR (cD (cM (cM (cM (cA (cN 1) (cM (cN 2) (cH 0))) (cW (cV 1) 4)) (cA (cB (cN (-3)) (cM (cN 4) (cV 1))) (cM (cN 4) (cW (cV 1) 4)))) (cA (cA (cA (cN (-3)) (cV 1)) (cM (cN 8) (cW (cV 1) 4))) (cM (cN 4) (cW (cV 1) 6)))) (cA (cN (-1)) (cV 1))))) (cD (cM (cN 6) (cR (cD (cA (cB (cN 3) (cM (cN 5) (cV 1))) (cM (cN 2) (cW (cV 1) 4))) (cM (cA (cN 1) (cM (cN 2) (cH 0))) (cA (cA (cA (cB (cN (-3)) (cM (cN 5) (cV 1))) (cM (cN 10) (cW (cV 1) 4))) (cM (cN 20) (cW (cV 1) 6))) (cM (cN 8) (cW (cV 1) 8))))))) (cV 1))) (cD (cM (cA (cN (-1)) (cM (cN 2) (cV 1))) (cA (cB (cN 3) (cM (cN 5) (cV 1))) (cM (cN 2) (cW (cV 1) 4)))) (cR (cM (cA (cN 1) (cM (cN 2) (cH 0))) (cA (cB (cA (cN (-9)) (cM (cN 49) (cW (cV 1) 4))) (cM (cN 56) (cW (cV 1) 8))) (cM (cN 16) (cW (cV 1) 12))))))) (cR (cA (cN 1) (cM (cN 2) (cH 0)))))).
Definition SPSU2T_e121 := (cO (cD (cM (cM (cR (cN 3)) (cA (cA (cA (cN (-3)) (cV 1)) (cM (cN 8) (cW (cV 1) 4))) (cM (cN 4) (cW (cV 1) 6)))) (cA (cB (cA (cB (cA (cM (cN (-3)) (cR (cM (cM (cA (cN 1) (cM (cN 2) (cH 0))) (cV 1)) (cA (cN 1) (cM (cN 2) (cV 1)))))) (cM (cM (cN 7) (cV 1)) (cR (cM (cM (cA (cN 1) (cM (cN 2) (cH 0))) (cV 1)) (cA (cN 1) (cM (cN 2) (cV 1))))))) (cM (cM (cN 3) (cW (cV 1) 4)) (cR (cM (cM (cA (cN 1) (cM (cN 2) (cH 0))) (cV 1)) (cA (cN 1) (cM (cN 2) (cV 1))))))) (cM (cM (cN 2) (cW (cV 1) 6)) (cR (cM (cM (cA (cN 1) (cM (cN 2) (cH 0))) (cV 1)) (cA (cN 1) (cM (cN 2) (cV 1))))))) (cM (cN 9) (cR (cM (cM (cA (cN 1) (cM (cN 2) (cH 0))) (cW (cV 1) 6)) (cA (cN 1) (cM (cN 2) (cV 1))))))) (cM (cN 6) (cR (cM (cM (cA (cN 1) (cM (cN 2) (cH 0))) (cW (cV 1) 10)) (cA (cN 1) (cM (cN 2) (cV 1)))))))) (cR (cM (cM (cM (cM (cM (cW (cA (cN 1) (cM (cN 2) (cH 0))) 6) (cA (cN (-1)) (cV 1))) (cW (cV 1) 6)) (cW (cA (cN 1) (cV 1)) 10)) (cW (cA (cN 3) (cM (cN 2) (cV 1))) 6)) (cW (cB (cN 1) (cM (cN 4) (cW (cV 1) 4))) 4))))).
Definition SPSU2T_e122 := (cO (cD (cR (cN 6)) (cM (cA (cN 1) (cM (cN 2) (cH 0))) (cR (cM (cM (cV 1) (cA (cN 1) (cM (cN 2) (cV 1)))) (cA (cA (cN 3) (cM (cN 5) (cV 1))) (cM (cN 2) (cW (cV 1) 4)))))))).
Definition SPSU2T_e123 := (cO (cD (cM (cR (cD (cA (cN (-1)) (cV 1)) (cV 1))) (cA (cA (cA (cA (cM (cM (cM (cV 1) (cW (cA (cN 1) (cV 1)) 3)) (cA (cN 1) (cM (cN 2) (cV 1)))) (cR (cA (cA (cA (cN (-6)) (cM (cN 5) (cV 1))) (cM (cN 12) (cW (cV 1) 4))) (cM (cN 4) (cW (cV 1) 6))))) (cM (cM (cN 9) (cW (cV 1) 4)) (cR (cD (cA (cA (cA (cN (-6)) (cM (cN 5) (cV 1))) (cM (cN 12) (cW (cV 1) 4))) (cM (cN 4) (cW (cV 1) 6))) (cA (cN 1) (cV 1)))))) (cM (cM (cN 6) (cW (cV 1) 6)) (cR (cD (cA (cA (cA (cN (-6)) (cM (cN 5) (cV 1))) (cM (cN 12) (cW (cV 1) 4))) (cM (cN 4) (cW (cV 1) 6))) (cA (cN 1) (cV 1)))))) (cM (cN 6) (cR (cA (cA (cA (cB (cN (-6)) (cV 1)) (cM (cN 17) (cW (cV 1) 4))) (cM (cN 16) (cW (cV 1) 6))) (cM (cN 4) (cW (cV 1) 8)))))) (cM (cM (cN 3) (cV 1)) (cA (cR (cD (cA (cA (cA (cN (-6)) (cM (cN 5) (cV 1))) (cM (cN 12) (cW (cV 1) 4))) (cM (cN 4) (cW (cV 1) 6))) (cA (cN 1) (cV 1)))) (cM (cN 3) (cR (cA (cA (cA (cB (cN (-6)) (cV 1)) (cM (cN 17) (cW (cV 1) 4))) (cM (cN 16) (cW (cV 1) 6))) (cM (cN 4) (cW (cV 1) 8))))))))) (cM (cW (cA (cN 1) (cV 1)) 4) (cA (cA (cA (cN 6) (cM (cN 19) (cV 1))) (cM (cN 16) (cW (cV 1) 4))) (cM (cN 4) (cW (cV 1) 6)))))).
Definition SPSU2T_e124 := (cO (cD (cM (cR (cN 2)) (cA (cA (cM (cN 6) (cR (cM (cV 1) (cA (cA (cN (-3)) (cM (cN 4) (cV 1))) (cM (cN 4) (cW (cV 1) 4)))))) (cM (cN 7) (cR (cM (cW (cV 1) 6) (cA (cA (cN (-3)) (cM (cN 4) (cV 1))) (cM (cN 4) (cW (cV 1) 4))))))) (cM (cN 2) (cR (cM (cW (cV 1) 10) (cA (cA (cN (-3)) (cM (cN 4) (cV 1))) (cM (cN 4) (cW (cV 1) 4)))))))) (cM (cM (cM (cV 1) (cA (cN 2) (cV 1))) (cA (cN 3) (cM (cN 2) (cV 1)))) (cR (cM (cA (cN 1) (cM (cN 2) (cV 1))) (cA (cA (cN 3) (cM (cN 5) (cV 1))) (cM (cN 2) (cW (cV 1) 4)))))))).
Definition SPSU2T_e125 := (cO (cD (cM (cM (cR (cA (cN (-1)) (cV 1))) (cV 1)) (cA (cA (cA (cM (cN 6) (cR (cD (cM (cA (cN 1) (cM (cN 2) (cH 0))) (cA (cA (cA (cN (-6)) (cM (cN 5) (cV 1))) (cM (cN 12) (cW (cV 1) 4))) (cM (cN 4) (cW (cV 1) 6)))) (cA (cN 1) (cV 1))))) (cM (cM (cN 3) (cW (cV 1) 4)) (cA (cM (cN 3) (cR (cD (cM (cA (cN 1) (cM (cN 2) (cH 0))) (cA (cA (cA (cN (-6)) (cM (cN 5) (cV 1))) (cM (cN 12) (cW (cV 1) 4))) (cM (cN 4) (cW (cV 1) 6)))) (cA (cN 1) (cV 1))))) (cR (cM (cA (cN 1) (cM (cN 2) (cH 0))) (cA (cA (cA (cB (cN (-6)) (cV 1)) (cM (cN 17) (cW (cV 1) 4))) (cM (cN 16) (cW (cV 1) 6))) (cM (cN 4) (cW (cV 1) 8)))))))) (cM (cM (cN 2) (cW (cV 1) 6)) (cA (cM (cN 3) (cR (cD (cM (cA (cN 1) (cM (cN 2) (cH 0))) (cA (cA (cA (cN (-6)) (cM (cN 5) (cV 1))) (cM (cN 12) (cW (cV 1) 4))) (cM (cN 4) (cW (cV 1) 6)))) (cA (cN 1) (cV 1))))) (cR (cM (cA (cN 1) (cM (cN 2) (cH 0))) (cA (cA (cA (cB (cN (-6)) (cV 1)) (cM (cN 17) (cW (cV 1) 4))) (cM (cN 16) (cW (cV 1) 6))) (cM (cN 4) (cW (cV 1) 8)))))))) (cM (cV 1) (cA (cM (cN 9) (cR (cD (cM (cA (cN 1) (cM (cN 2) (cH 0))) (cA (cA (cA (cN (-6)) (cM (cN 5) (cV 1))) (cM (cN 12) (cW (cV 1) 4))) (cM (cN 4) (cW (cV 1) 6)))) (cA (cN 1) (cV 1))))) (cM (cN 10) (cR (cM (cA (cN 1) (cM (cN 2) (cH 0))) (cA (cA (cA (cB (cN (-6)) (cV 1)) (cM (cN 17) (cW (cV 1) 4))) (cM (cN 16) (cW (cV 1) 6))) (cM (cN 4) (cW (cV 1) 8)))))))))) (cM (cM (cW (cA (cN 1) (cV 1)) 4) (cW (cA (cV 1) (cM (cM (cN 2) (cH 0)) (cV 1))) 3)) (cA (cA (cA (cN 6) (cM (cN 19) (cV 1))) (cM (cN 16) (cW (cV 1) 4))) (cM (cN 4) (cW (cV 1) 6)))))).
Definition SPSU2T_e126 := (cO (cD (cM (cR (cN 2)) (cA (cA (cM (cN 6) (cR (cM (cV 1) (cA (cA (cN (-3)) (cM (cN 4) (cV 1))) (cM (cN 4) (cW (cV 1) 4)))))) (cM (cN 7) (cR (cM (cW (cV 1) 6) (cA (cA (cN (-3)) (cM (cN 4) (cV 1))) (cM (cN 4) (cW (cV 1) 4))))))) (cM (cN 2) (cR (cM (cW (cV 1) 10) (cA (cA (cN (-3)) (cM (cN 4) (cV 1))) (cM (cN 4) (cW (cV 1) 4)))))))) (cM (cM (cM (cM (cA (cN 1) (cM (cN 2) (cH 0))) (cV 1)) (cA (cN 2) (cV 1))) (cA (cN 3) (cM (cN 2) (cV 1)))) (cR (cA (cA (cA (cN 3) (cM (cN 11) (cV 1))) (cM (cN 12) (cW (cV 1) 4))) (cM (cN 4) (cW (cV 1) 6))))))).
Definition SPSU2T_e127 := (cO (cD (cA (cA (cA (cM (cN 18) (cR (cD (cM (cV 1) (cA (cN (-1)) (cM (cN 2) (cV 1)))) (cA (cA (cN 6) (cM (cN 7) (cV 1))) (cM (cN 2) (cW (cV 1) 4)))))) (cM (cN 2) (cR (cD (cM (cV 1) (cA (cA (cN (-3)) (cM (cN 4) (cV 1))) (cM (cN 4) (cW (cV 1) 4)))) (cA (cN 2) (cV 1)))))) (cR (cM (cV 1) (cA (cA (cA (cN (-6)) (cM (cN 5) (cV 1))) (cM (cN 12) (cW (cV 1) 4))) (cM (cN 4) (cW (cV 1) 6)))))) (cM (cM (cN 2) (cV 1)) (cA (cA (cM (cN 6) (cR (cD (cM (cV 1) (cA (cN (-1)) (cM (cN 2) (cV 1)))) (cA (cA (cN 6) (cM (cN 7) (cV 1))) (cM (cN 2) (cW (cV 1) 4)))))) (cM (cN 2) (cR (cD (cM (cV 1) (cA (cA (cN (-3)) (cM (cN 4) (cV 1))) (cM (cN 4) (cW (cV 1) 4)))) (cA (cN 2) (cV 1)))))) (cR (cM (cV 1) (cA (cA (cA (cN (-6)) (cM (cN 5) (cV 1))) (cM (cN 12) (cW (cV 1) 4))) (cM (cN 4) (cW (cV 1) 6)))))))) (cM (cA (cN 3) (cM (cN 2) (cV 1))) (cR (cM (cV 1) (cA (cA (cA (cN 10) (cM (cN 29) (cV 1))) (cM (cN 20) (cW (cV 1) 4))) (cM (cN 4) (cW (cV 1) 6)))))))).
Definition SPSU2T_e128 := (cO (cD (cA (cA (cA (cM (cN 18) (cR (cD (cM (cV 1) (cA (cN (-1)) (cM (cN 2) (cV 1)))) (cA (cA (cN 6) (cM (cN 7) (cV 1))) (cM (cN 2) (cW (cV 1) 4)))))) (cM (cN 2) (cR (cD (cM (cV 1) (cA (cA (cN (-3)) (cM (cN 4) (cV 1))) (cM (cN 4) (cW (cV 1) 4)))) (cA (cN 2) (cV 1)))))) (cR (cM (cV 1) (cA (cA (cA (cN (-6)) (cM (cN 5) (cV 1))) (cM (cN 12) (cW (cV 1) 4))) (cM (cN 4) (cW (cV 1) 6)))))) (cM (cM (cN 2) (cV 1)) (cA (cA (cM (cN 6) (cR (cD (cM (cV 1) (cA (cN (-1)) (cM (cN 2) (cV 1)))) (cA (cA (cN 6) (cM (cN 7) (cV 1))) (cM (cN 2) (cW (cV 1) 4)))))) (cM (cN 2) (cR (cD (cM (cV 1) (cA (cA (cN (-3)) (cM (cN 4) (cV 1))) (cM (cN 4) (cW (cV 1) 4)))) (cA (cN 2) (cV 1)))))) (cR (cM (cV 1) (cA (cA (cA (cN (-6)) (cM (cN 5) (cV 1))) (cM (cN 12) (cW (cV 1) 4))) (cM (cN 4) (cW (cV 1) 6)))))))) (cM (cM (cA (cN 1) (cM (cN 2) (cH 0))) (cA (cN 3) (cM (cN 2) (cV 1)))) (cR (cM (cV 1) (cA (cA (cA (cN 10) (cM (cN 29) (cV 1))) (cM (cN 20) (cW (cV 1) 4))) (cM (cN 4) (cW (cV 1) 6)))))))).
Definition SPSU2T_e129 := (cD (cM (cM (cN (-2)) (cR (cN 6))) (cR (cD (cA (cH 0) (cW (cH 0) 4)) (cA (cB (cB (cV 1) (cW (cV 1) 4)) (cM (cN 4) (cW (cV 1) 6))) (cM (cN 4) (cW (cV 1) 8)))))) (cA (cN 1) (cM (cN 2) (cH 0)))).
Definition SPSU2T_e130 := (cB (cB (cB (cO (cD (cM (cA (cN (-2)) (cV 1)) (cA (cN (-1)) (cV 1))) (cR (cD (cM (cM (cM (cA (cN 1) (cH 0)) (cA (cN (-2)) (cV 1))) (cV 1)) (cA (cN (-1)) (cW (cV 1) 4))) (cH 0))))) (cD (cM (cA (cN (-2)) (cV 1)) (cA (cN (-1)) (cV 1))) (cR (cD (cM (cM (cM (cM (cA (cN 1) (cH 0)) (cW (cA (cN 1) (cM (cN 2) (cH 0))) 4)) (cA (cN (-2)) (cV 1))) (cV 1)) (cA (cN (-1)) (cW (cV 1) 4))) (cH 0))))) (cM (cN 2) (cR (cD (cM (cH 0) (cA (cN (-2)) (cV 1))) (cM (cA (cN 1) (cH 0)) (cA (cO (cV 1)) (cW (cV 1) 6))))))) (cD (cM (cN 2) (cR (cD (cM (cH 0) (cA (cN (-2)) (cV 1))) (cM (cA (cN 1) (cH 0)) (cA (cO (cV 1)) (cW (cV 1) 6)))))) (cA (cN 1) (cM (cN 2) (cH 0))))).
Definition SPSU2T_e131 := (cD (cM (cM (cM (cN (-2)) (cR (cN 3))) (cA (cN 1) (cH 0))) (cA (cB (cA (cM (cN 2) (cR (cD (cM (cH 0) (cA (cN (-3)) (cM (cN 2) (cV 1)))) (cM (cA (cN 1) (cH 0)) (cA (cA (cB (cN (-1)) (cM (cN 2) (cV 1))) (cW (cV 1) 4)) (cM (cN 2) (cW (cV 1) 6))))))) (cM (cN 3) (cR (cD (cH 0) (cM (cA (cN 1) (cH 0)) (cA (cB (cB (cA (cN 3) (cM (cN 4) (cV 1))) (cM (cN 7) (cW (cV 1) 4))) (cM (cN 4) (cW (cV 1) 6))) (cM (cN 4) (cW (cV 1) 8)))))))) (cM (cM (cN 5) (cV 1)) (cR (cD (cH 0) (cM (cA (cN 1) (cH 0)) (cA (cB (cB (cA (cN 3) (cM (cN 4) (cV 1))) (cM (cN 7) (cW (cV 1) 4))) (cM (cN 4) (cW (cV 1) 6))) (cM (cN 4) (cW (cV 1) 8)))))))) (cM (cM (cN 2) (cW (cV 1) 4)) (cR (cD (cH 0) (cM (cA (cN 1) (cH 0)) (cA (cB (cB (cA (cN 3) (cM (cN 4) (cV 1))) (cM (cN 7) (cW (cV 1) 4))) (cM (cN 4) (cW (cV 1) 6))) (cM (cN 4) (cW (cV 1) 8))))))))) (cA (cV 1) (cM (cM (cN 2) (cH 0)) (cV 1)))).
Definition SPSU2T_e132 := (cB (cB (cB (cB (cB (cM (cM (cM (cN (-3)) (cA (cN (-3)) (cM (cN 2) (cV 1)))) (cA (cN (-1)) (cM (cN 2) (cV 1)))) (cR (cD (cM (cH 0) (cA (cN (-1)) (cV 1))) (cM (cM (cM (cA (cN 1) (cH 0)) (cW (cV 1) 4)) (cA (cB (cN (-3)) (cM (cN 4) (cV 1))) (cM (cN 4) (cW (cV 1) 4)))) (cA (cA (cA (cN (-3)) (cV 1)) (cM (cN 8) (cW (cV 1) 4))) (cM (cN 4) (cW (cV 1) 6))))))) (cM (cM (cM (cN 3) (cA (cN (-3)) (cM (cN 2) (cV 1)))) (cA (cN (-1)) (cM (cN 2) (cV 1)))) (cR (cD (cM (cH 0) (cA (cN (-1)) (cV 1))) (cM (cM (cM (cA (cN 1) (cH 0)) (cW (cA (cV 1) (cM (cM (cN 2) (cH 0)) (cV 1))) 4)) (cA (cB (cN (-3)) (cM (cN 4) (cV 1))) (cM (cN 4) (cW (cV 1) 4)))) (cA (cA (cA (cN (-3)) (cV 1)) (cM (cN 8) (cW (cV 1) 4))) (cM (cN 4) (cW (cV 1) 6)))))))) (cD (cM (cN 6) (cR (cD (cM (cH 0) (cA (cB (cN 3) (cM (cN 5) (cV 1))) (cM (cN 2) (cW (cV 1) 4)))) (cM (cA (cN 1) (cH 0)) (cA (cA (cA (cB (cN (-3)) (cM (cN 5) (cV 1))) (cM (cN 10) (cW (cV 1) 4))) (cM (cN 20) (cW (cV 1) 6))) (cM (cN 8) (cW (cV 1) 8))))))) (cV 1))) (cD (cM (cN 6) (cR (cD (cM (cH 0) (cA (cB (cN 3) (cM (cN 5) (cV 1))) (cM (cN 2) (cW (cV 1) 4)))) (cM (cA (cN 1) (cH 0)) (cA (cA (cA (cB (cN (-3)) (cM (cN 5) (cV 1))) (cM (cN 10) (cW (cV 1) 4))) (cM (cN 20) (cW (cV 1) 6))) (cM (cN 8) (cW (cV 1) 8))))))) (cA (cV 1) (cM (cM (cN 2) (cH 0)) (cV 1))))) (cM (cM (cA (cN (-1)) (cM (cN 2) (cV 1))) (cA (cB (cN 3) (cM (cN 5) (cV 1))) (cM (cN 2) (cW (cV 1) 4)))) (cR (cD (cH 0) (cM (cM (cA (cN 1) (cH 0)) (cW (cA (cN 1) (cM (cN 2) (cH 0))) 4)) (cA (cB (cA (cN (-9)) (cM (cN 49) (cW (cV 1) 4))) (cM (cN 56) (cW (cV 1) 8))) (cM (cN 16) (cW (cV 1) 12)))))))) (cD (cM (cA (cN (-1)) (cM (cN 2) (cV 1))) (cA (cB (cN 3) (cM (cN 5) (cV 1))) (cM (cN 2) (cW (cV 1) 4)))) (cR (cD (cM (cA (cN 1) (cH 0)) (cA (cB (cA (cN (-9)) (cM (cN 49) (cW (cV 1) 4))) (cM (cN 56) (cW (cV 1) 8))) (cM (cN 16) (cW (cV 1) 12)))) (cH 0))))).
Definition SPSU2T_e133 := (cM (cR (cN 3)) (cB (cB (cB (cB (cB (cD (cM (cN (-6)) (cR (cD (cM (cH 0) (cA (cN (-1)) (cV 1))) (cM (cM (cA (cN 1) (cH 0)) (cW (cA (cN 1) (cV 1)) 6)) (cA (cA (cN 3) (cM (cN 8) (cV 1))) (cM (cN 4) (cW (cV 1) 4))))))) (cV 1)) (cM (cM (cM (cN 3) (cA (cN (-1)) (cV 1))) (cA (cN (-1)) (cM (cN 2) (cV 1)))) (cR (cD (cH 0) (cM (cM (cM (cA (cN 1) (cH 0)) (cW (cV 1) 4)) (cW (cA (cN 1) (cV 1)) 6)) (cA (cA (cB (cN (-3)) (cM (cN 5) (cV 1))) (cM (cN 4) (cW (cV 1) 4))) (cM (cN 4) (cW (cV 1) 6)))))))) (cM (cM (cM (cN 3) (cA (cN (-1)) (cV 1))) (cA (cN (-1)) (cM (cN 2) (cV 1)))) (cR (cD (cH 0) (cM (cM (cM (cA (cN 1) (cH 0)) (cW (cA (cN 1) (cV 1)) 6)) (cW (cA (cV 1) (cM (cM (cN 2) (cH 0)) (cV 1))) 4)) (cA (cA (cB (cN (-3)) (cM (cN 5) (cV 1))) (cM (cN 4) (cW (cV 1) 4))) (cM (cN 4) (cW (cV 1) 6)))))))) (cD (cM (cN 6) (cR (cD (cM (cH 0) (cA (cN (-1)) (cV 1))) (cM (cA (cN 1) (cH 0)) (cA (cA (cA (cN 3) (cM (cN 11) (cV 1))) (cM (cN 12) (cW (cV 1) 4))) (cM (cN 4) (cW (cV 1) 6))))))) (cM (cA (cN 1) (cV 1)) (cA (cV 1) (cM (cM (cN 2) (cH 0)) (cV 1)))))) (cD (cM (cM (cA (cN (-1)) (cV 1)) (cW (cA (cN (-1)) (cM (cN 2) (cV 1))) 3)) (cR (cD (cH 0) (cM (cA (cN 1) (cH 0)) (cA (cA (cB (cB (cA (cN 3) (cM (cN 2) (cV 1))) (cM (cN 15) (cW (cV 1) 4))) (cM (cN 10) (cW (cV 1) 6))) (cM (cN 12) (cW (cV 1) 8))) (cM (cN 8) (cW (cV 1) 10))))))) (cA (cN 1) (cV 1)))) (cD (cM (cM (cA (cN (-1)) (cV 1)) (cW (cA (cN (-1)) (cM (cN 2) (cV 1))) 3)) (cR (cD (cH 0) (cM (cA (cN 1) (cH 0)) (cA (cA (cB (cB (cA (cN 3) (cM (cN 2) (cV 1))) (cM (cN 15) (cW (cV 1) 4))) (cM (cN 10) (cW (cV 1) 6))) (cM (cN 12) (cW (cV 1) 8))) (cM (cN 8) (cW (cV 1) 10))))))) (cM (cA (cN 1) (cM (cN 2) (cH 0))) (cA (cN 1) (cV 1)))))).
Definition SPSU2T_e134 := (cM (cR (cN 6)) (cB (cB (cB (cB (cA (cM (cN (-6)) (cR (cD (cH 0) (cM (cM (cA (cN 1) (cH 0)) (cA (cV 1) (cM (cN 2) (cW (cV 1) 4)))) (cW (cA (cA (cN 3) (cM (cN 5) (cV 1))) (cM (cN 2) (cW (cV 1) 4))) 6))))) (cM (cM (cN 3) (cB (cN 1) (cM (cN 2) (cV 1)))) (cR (cD (cH 0) (cM (cM (cA (cN 1) (cH 0)) (cA (cV 1) (cM (cN 2) (cW (cV 1) 4)))) (cW (cA (cA (cN 3) (cM (cN 5) (cV 1))) (cM (cN 2) (cW (cV 1) 4))) 6)))))) (cD (cM (cM (cV 1) (cA (cN (-1)) (cM (cN 2) (cV 1)))) (cR (cD (cH 0) (cM (cM (cA (cN 1) (cH 0)) (cV 1)) (cA (cA (cA (cN 3) (cM (cN 11) (cV 1))) (cM (cN 12) (cW (cV 1) 4))) (cM (cN 4) (cW (cV 1) 6))))))) (cA (cA (cN 3) (cM (cN 5) (cV 1))) (cM (cN 2) (cW (cV 1) 4))))) (cD (cM (cN 6) (cR (cD (cH 0) (cM (cM (cM (cA (cN 1) (cH 0)) (cW (cA (cN 1) (cM (cN 2) (cH 0))) 4)) (cV 1)) (cA (cA (cA (cN 3) (cM (cN 11) (cV 1))) (cM (cN 12) (cW (cV 1) 4))) (cM (cN 4) (cW (cV 1) 6))))))) (cA (cA (cN 3) (cM (cN 5) (cV 1))) (cM (cN 2) (cW (cV 1) 4))))) (cD (cM (cM (cN 3) (cW (cA (cN (-1)) (cM (cN 2) (cV 1))) 3)) (cR (cD (cH 0) (cM (cM (cA (cN 1) (cH 0)) (cV 1)) (cA (cA (cA (cB (cN (-3)) (cM (cN 5) (cV 1))) (cM (cN 10) (cW (cV 1) 4))) (cM (cN 20) (cW (cV 1) 6))) (cM (cN 8) (cW (cV 1) 8))))))) (cM (cA (cN 1) (cM (cN 2) (cH 0))) (cA (cA (cN 3) (cM (cN 5) (cV 1))) (cM (cN 2) (cW (cV 1) 4)))))) (cD (cM (cV 1) (cW (cA (cN (-1)) (cM (cN 2) (cV 1))) 3)) (cM (cM (cA (cN 1) (cM (cN 2) (cH 0))) (cA (cA (cN 3) (cM (cN 5) (cV 1))) (cM (cN 2) (cW (cV 1) 4)))) (cR (cD (cM (cM (cA (cN 1) (cH 0)) (cV 1)) (cA (cA (cA (cB (cN (-3)) (cM (cN 5) (cV 1))) (cM (cN 10) (cW (cV 1) 4))) (cM (cN 20) (cW (cV 1) 6))) (cM (cN 8) (cW (cV 1) 8)))) (cH 0))))))).
Definition SPSU2T_e135 := (cB (cB (cB (cB (cB (cB (cB (cD (cM (cN (-6)) (cR (cD (cM (cH 0) (cA (cB (cN 1) (cM (cN 3) (cV 1))) (cM (cN 2) (cW (cV 1) 4)))) (cM (cM (cM (cA (cN 1) (cH 0)) (cV 1)) (cW (cA (cN 1) (cV 1)) 6)) (cA (cA (cN 6) (cM (cN 7) (cV 1))) (cM (cN 2) (cW (cV 1) 4))))))) (cA (cN 1) (cM (cN 2) (cV 1)))) (cD (cM (cA (cN (-1)) (cV 1)) (cV 1)) (cR (cD (cM (cM (cM (cA (cN 1) (cH 0)) (cV 1)) (cA (cN (-1)) (cW (cV 1) 4))) (cA (cA (cN 6) (cM (cN 7) (cV 1))) (cM (cN 2) (cW (cV 1) 4)))) (cM (cH 0) (cA (cN (-1)) (cM (cN 2) (cV 1)))))))) (cD (cM (cA (cN (-1)) (cV 1)) (cV 1)) (cR (cD (cM (cM (cM (cM (cA (cN 1) (cH 0)) (cW (cA (cN 1) (cM (cN 2) (cH 0))) 4)) (cV 1)) (cA (cN (-1)) (cW (cV 1) 4))) (cA (cA (cN 6) (cM (cN 7) (cV 1))) (cM (cN 2) (cW (cV 1) 4)))) (cM (cH 0) (cA (cN (-1)) (cM (cN 2) (cV 1)))))))) (cM (cM (cM (cN 3) (cA (cN (-1)) (cV 1))) (cV 1)) (cR (cD (cM (cH 0) (cA (cN (-1)) (cM (cN 2) (cV 1)))) (cM (cM (cM (cA (cN 1) (cH 0)) (cV 1)) (cW (cA (cN 1) (cV 1)) 6)) (cA (cA (cB (cN (-6)) (cV 1)) (cM (cN 5) (cW (cV 1) 4))) (cM (cN 2) (cW (cV 1) 6)))))))) (cM (cM (cM (cN 3) (cA (cN (-1)) (cV 1))) (cV 1)) (cR (cD (cM (cH 0) (cA (cN (-1)) (cM (cN 2) (cV 1)))) (cM (cM (cM (cM (cA (cN 1) (cH 0)) (cW (cA (cN 1) (cM (cN 2) (cH 0))) 4)) (cV 1)) (cW (cA (cN 1) (cV 1)) 6)) (cA (cA (cB (cN (-6)) (cV 1)) (cM (cN 5) (cW (cV 1) 4))) (cM (cN 2) (cW (cV 1) 6)))))))) (cD (cM (cM (cN 9) (cV 1)) (cR (cD (cM (cM (cH 0) (cA (cN (-1)) (cV 1))) (cA (cN (-1)) (cM (cN 2) (cV 1)))) (cM (cM (cA (cN 1) (cH 0)) (cV 1)) (cA (cA (cA (cN 6) (cM (cN 13) (cV 1))) (cM (cN 9) (cW (cV 1) 4))) (cM (cN 2) (cW (cV 1) 6))))))) (cA (cA (cN 1) (cM (cN 3) (cV 1))) (cM (cN 2) (cW (cV 1) 4))))) (cD (cM (cN 6) (cR (cD (cM (cH 0) (cA (cB (cN 1) (cM (cN 3) (cV 1))) (cM (cN 2) (cW (cV 1) 4)))) (cM (cM (cA (cN 1) (cH 0)) (cV 1)) (cA (cA (cA (cN 6) (cM (cN 13) (cV 1))) (cM (cN 9) (cW (cV 1) 4))) (cM (cN 2) (cW (cV 1) 6))))))) (cM (cA (cN 1) (cV 1)) (cA (cA (cA (cN 1) (cM (cN 2) (cH 0))) (cM (cN 2) (cV 1))) (cM (cM (cN 4) (cH 0)) (cV 1)))))) (cD (cM (cM (cN 9) (cA (cN (-1)) (cV 1))) (cR (cD (cM (cM (cH 0) (cV 1)) (cA (cN (-1)) (cM (cN 2) (cV 1)))) (cM (cM (cM (cA (cN 1) (cH 0)) (cW (cA (cN 1) (cM (cN 2) (cH 0))) 4)) (cW (cA (cN 1) (cM (cN 2) (cV 1))) 4)) (cA (cA (cA (cB (cN (-6)) (cM (cN 7) (cV 1))) (cM (cN 4) (cW (cV 1) 4))) (cM (cN 7) (cW (cV 1) 6))) (cM (cN 2) (cW (cV 1) 8))))))) (cA (cN 1) (cV 1)))).
Definition SPSU2T_e136 := (cM (cM (cM (cR (cN 2)) (cV 1)) (cR (cD (cM (cA (cN 1) (cM (cN 2) (cH 0))) (cA (cN 1) (cM (cN 2) (cV 1)))) (cM (cM (cM (cM (cW (cA (cN 1) (cH 0)) 10) (cW (cV 1) 10)) (cW (cA (cN 1) (cV 1)) 8)) (cW (cA (cN 2) (cV 1)) 10)) (cW (cA (cN 3) (cM (cN 2) (cV 1))) 12))))) (cB (cB (cB (cB (cB (cB (cB (cD (cM (cM (cM (cM (cM (cM (cN (-3)) (cW (cA (cN 1) (cH 0)) 4)) (cW (cV 1) 4)) (cA (cN 1) (cV 1))) (cW (cA (cN 2) (cV 1)) 4)) (cW (cA (cN 3) (cM (cN 2) (cV 1))) 4)) (cR (cD (cM (cH 0) (cA (cN (-1)) (cM (cN 2) (cV 1)))) (cA (cA (cN 2) (cM (cN 3) (cV 1))) (cW (cV 1) 4))))) (cW (cA (cN 1) (cM (cN 2) (cH 0))) 3)) (cR (cD (cM (cM (cM (cM (cM (cH 0) (cW (cA (cN 1) (cH 0)) 8)) (cW (cV 1) 8)) (cA (cN (-1)) (cM (cN 2) (cV 1)))) (cW (cA (cN 3) (cM (cN 2) (cV 1))) 8)) (cW (cA (cA (cN 2) (cM (cN 3) (cV 1))) (cW (cV 1) 4)) 6)) (cW (cA (cN 1) (cM (cN 2) (cH 0))) 6)))) (cR (cD (cM (cM (cM (cM (cM (cH 0) (cW (cA (cN 1) (cH 0)) 8)) (cW (cV 1) 8)) (cA (cN (-1)) (cM (cN 2) (cV 1)))) (cW (cA (cN 3) (cM (cN 2) (cV 1))) 8)) (cW (cA (cA (cN 2) (cM (cN 3) (cV 1))) (cW (cV 1) 4)) 6)) (cA (cN 1) (cM (cN 2) (cH 0)))))) (cM (cN 3) (cR (cD (cM (cM (cM (cM (cM (cH 0) (cW (cA (cN 1) (cH 0)) 8)) (cW (cV 1) 8)) (cW (cA (cN 2) (cV 1)) 6)) (cW (cA (cN 3) (cM (cN 2) (cV 1))) 8)) (cA (cA (cN (-1)) (cV 1)) (cM (cN 2) (cW (cV 1) 4)))) (cA (cN 1) (cM (cN 2) (cH 0))))))) (cM (cN 9) (cR (cD (cM (cM (cM (cM (cM (cH 0) (cW (cA (cN 1) (cH 0)) 8)) (cW (cV 1) 8)) (cW (cA (cN 2) (cV 1)) 6)) (cW (cA (cN 3) (cM (cN 2) (cV 1))) 8)) (cA (cA (cN (-1)) (cV 1)) (cM (cN 2) (cW (cV 1) 4)))) (cM (cA (cN 1) (cM (cN 2) (cH 0))) (cW (cA (cN 1) (cM (cN 2) (cV 1))) 4)))))) (cD (cM (cM (cM (cM (cM (cN 6) (cW (cA (cN 1) (cH 0)) 4)) (cV 1)) (cA (cN 1) (cV 1))) (cR (cD (cM (cH 0) (cA (cN (-1)) (cM (cN 2) (cV 1)))) (cA (cA (cN 2) (cM (cN 3) (cV 1))) (cW (cV 1) 4))))) (cW (cA (cA (cN 6) (cM (cN 7) (cV 1))) (cM (cN 2) (cW (cV 1) 4))) 4)) (cM (cW (cA (cN 1) (cM (cN 2) (cH 0))) 3) (cA (cN 1) (cM (cN 2) (cV 1)))))) (cD (cM (cM (cM (cM (cM (cN 9) (cW (cA (cN 1) (cH 0)) 4)) (cW (cV 1) 4)) (cA (cN 1) (cV 1))) (cR (cD (cM (cH 0) (cA (cN (-1)) (cM (cN 2) (cV 1)))) (cA (cA (cN 2) (cM (cN 3) (cV 1))) (cW (cV 1) 4))))) (cW (cA (cA (cN 6) (cM (cN 7) (cV 1))) (cM (cN 2) (cW (cV 1) 4))) 4)) (cM (cW (cA (cN 1) (cM (cN 2) (cH 0))) 3) (cA (cN 1) (cM (cN 2) (cV 1)))))) (cD (cM (cM (cM (cM (cM (cN 6) (cW (cA (cN 1) (cH 0)) 4)) (cV 1)) (cA (cN 1) (cV 1))) (cR (cD (cM (cH 0) (cA (cN (-1)) (cM (cN 2) (cV 1)))) (cM (cA (cN 1) (cM (cN 2) (cH 0))) (cA (cA (cN 2) (cM (cN 3) (cV 1))) (cW (cV 1) 4)))))) (cW (cA (cA (cN 6) (cM (cN 7) (cV 1))) (cM (cN 2) (cW (cV 1) 4))) 4)) (cA (cN 1) (cM (cN 2) (cV 1)))))).
Definition SPSU2T_e137 := (cD (cM (cQ (-1) 2) (cA (cA (cA (cA (cA (cA (cA (cA (cA (cM (cN 12) (cR (cD (cM (cM (cM (cM (cM (cH 0) (cA (cN 1) (cH 0))) (cA (cN 1) (cM (cN 2) (cH 0)))) (cV 1)) (cA (cN (-1)) (cM (cN 2) (cV 1)))) (cA (cN 5) (cM (cN 2) (cV 1)))) (cM (cA (cN 1) (cM (cN 2) (cV 1))) (cA (cA (cN 6) (cM (cN 7) (cV 1))) (cM (cN 2) (cW (cV 1) 4))))))) (cM (cM (cN 12) (cA (cN 1) (cV 1))) (cR (cD (cM (cM (cM (cM (cM (cH 0) (cA (cN 1) (cH 0))) (cV 1)) (cA (cN (-1)) (cM (cN 2) (cV 1)))) (cA (cN 1) (cM (cN 2) (cV 1)))) (cA (cN 5) (cM (cN 2) (cV 1)))) (cM (cA (cN 1) (cM (cN 2) (cH 0))) (cA (cA (cN 6) (cM (cN 7) (cV 1))) (cM (cN 2) (cW (cV 1) 4)))))))) (cM (cN 12) (cR (cD (cM (cM (cM (cM (cM (cM (cH 0) (cA (cN 1) (cH 0))) (cA (cN 1) (cM (cN 2) (cH 0)))) (cV 1)) (cA (cN (-1)) (cM (cN 2) (cV 1)))) (cA (cN 1) (cM (cN 2) (cV 1)))) (cA (cN 5) (cM (cN 2) (cV 1)))) (cA (cA (cN 6) (cM (cN 7) (cV 1))) (cM (cN 2) (cW (cV 1) 4))))))) (cM (cM (cN 12) (cA (cN 1) (cV 1))) (cR (cD (cM (cM (cM (cM (cM (cM (cH 0) (cA (cN 1) (cH 0))) (cA (cN 1) (cM (cN 2) (cH 0)))) (cV 1)) (cA (cN (-1)) (cM (cN 2) (cV 1)))) (cA (cN 1) (cM (cN 2) (cV 1)))) (cA (cN 5) (cM (cN 2) (cV 1)))) (cA (cA (cN 6) (cM (cN 7) (cV 1))) (cM (cN 2) (cW (cV 1) 4))))))) (cM (cN 12) (cR (cD (cM (cM (cM (cM (cH 0) (cA (cN 1) (cH 0))) (cV 1)) (cA (cN 1) (cM (cN 2) (cV 1)))) (cA (cA (cN (-5)) (cM (cN 8) (cV 1))) (cM (cN 4) (cW (cV 1) 4)))) (cM (cA (cN 1) (cM (cN 2) (cH 0))) (cA (cA (cN 6) (cM (cN 7) (cV 1))) (cM (cN 2) (cW (cV 1) 4)))))))) (cM (cM (cN 4) (cA (cN 1) (cV 1))) (cR (cD (cM (cM (cM (cM (cM (cH 0) (cA (cN 1) (cH 0))) (cV 1)) (cA (cN (-1)) (cM (cN 2) (cV 1)))) (cA (cN 1) (cM (cN 2) (cV 1)))) (cA (cA (cN 15) (cM (cN 16) (cV 1))) (cM (cN 4) (cW (cV 1) 4)))) (cM (cA (cN 1) (cM (cN 2) (cH 0))) (cA (cN 2) (cV 1))))))) (cM (cM (cN 4) (cA (cN 1) (cV 1))) (cR (cD (cM (cM (cM (cM (cM (cM (cH 0) (cA (cN 1) (cH 0))) (cA (cN 1) (cM (cN 2) (cH 0)))) (cV 1)) (cA (cN (-1)) (cM (cN 2) (cV 1)))) (cA (cN 1) (cM (cN 2) (cV 1)))) (cA (cA (cN 15) (cM (cN 16) (cV 1))) (cM (cN 4) (cW (cV 1) 4)))) (cA (cN 2) (cV 1)))))) (cM (cN 12) (cR (cD (cM (cM (cM (cH 0) (cA (cN 1) (cH 0))) (cV 1)) (cA (cA (cN (-5)) (cM (cN 8) (cV 1))) (cM (cN 4) (cW (cV 1) 4)))) (cM (cA (cN 1) (cM (cN 2) (cH 0))) (cA (cA (cA (cN 6) (cM (cN 19) (cV 1))) (cM (cN 16) (cW (cV 1) 4))) (cM (cN 4) (cW (cV 1) 6)))))))) (cM (cM (cN 2) (cA (cN 1) (cV 1))) (cR (cD (cM (cM (cM (cM (cM (cH 0) (cA (cN 1) (cH 0))) (cV 1)) (cA (cN (-1)) (cM (cN 2) (cV 1)))) (cA (cN 1) (cM (cN 2) (cV 1)))) (cA (cA (cA (cN 30) (cM (cN 47) (cV 1))) (cM (cN 24) (cW (cV 1) 4))) (cM (cN 4) (cW (cV 1) 6)))) (cA (cN 1) (cM (cN 2) (cH 0))))))) (cM (cN 2) (cR (cM (cM (cM (cM (cM (cM (cH 0) (cA (cN 1) (cH 0))) (cA (cN 1) (cM (cN 2) (cH 0)))) (cV 1)) (cA (cN (-1)) (cM (cN 2) (cV 1)))) (cA (cA (cN 1) (cM (cN 3) (cV 1))) (cM (cN 2) (cW (cV 1) 4)))) (cA (cA (cA (cA (cN 30) (cM (cN 77) (cV 1))) (cM (cN 71) (cW (cV 1) 4))) (cM (cN 28) (cW (cV 1) 6))) (cM (cN 4) (cW (cV 1) 8)))))))) (cM (cM (cA (cN 1) (cH 0)) (cR (cM (cM (cA (cN 1) (cM (cN 2) (cH 0))) (cV 1)) (cA (cN 2) (cV 1))))) (cA (cA (cA (cN 15) (cM (cN 31) (cV 1))) (cM (cN 20) (cW (cV 1) 4))) (cM (cN 4) (cW (cV 1) 6))))).
Definition SPSU2T_e138 := (cD (cN 1) (cR (cM (cH 0) (cA (cN 1) (cM (cN 2) (cH 0)))))).
Definition SPSU2T_e139 := (cD (cN 1) (cM (cR (cM (cH 0) (cA (cN 1) (cM (cN 2) (cH 0))))) (cV 1))).
Definition SPSU2T_e140 := (cD (cN 1) (cM (cM (cR (cM (cH 0) (cA (cN 1) (cM (cN 2) (cH 0))))) (cV 1)) (cA (cN 1) (cM (cN 2) (cV 1))))).
Definition SPSU2T_e141 := (cD (cN 1) (cM (cV 1) (cR (cD (cM (cH 0) (cA (cN 1) (cM (cN 2) (cH 0)))) (cA (cN (-1)) (cW (cV 1) 4)))))).
Definition SPSU2T_e142 := (cD (cN 1) (cR (cD (cM (cM (cM (cH 0) (cA (cN 1) (cM (cN 2) (cH 0)))) (cW (cV 1) 4)) (cA (cN 1) (cM (cN 2) (cV 1)))) (cA (cN (-1)) (cM (cN 2) (cV 1)))))).
Definition SPSU2T_e143 := (cD (cA (cA (cR (cM (cM (cM (cV 1) (cA (cN 1) (cV 1))) (cA (cN (-1)) (cM (cN 2) (cV 1)))) (cA (cN 1) (cM (cN 2) (cV 1))))) (cR (cD (cM (cV 1) (cA (cN (-1)) (cM (cN 2) (cV 1)))) (cA (cA (cN 1) (cM (cN 3) (cV 1))) (cM (cN 2) (cW (cV 1) 4)))))) (cR (cD (cM (cV 1) (cA (cN (-1)) (cM (cN 4) (cW (cV 1) 4)))) (cA (cN 1) (cV 1))))) (cR (cM (cM (cV 1) (cA (cN 1) (cM (cN 2) (cV 1)))) (cA (cA (cN 3) (cM (cN 5) (cV 1))) (cM (cN 2) (cW (cV 1) 4)))))).
Definition SPSU2T_e144 := (cD (cA (cA (cR (cM (cM (cM (cV 1) (cA (cN 1) (cV 1))) (cA (cN (-1)) (cM (cN 2) (cV 1)))) (cA (cN 1) (cM (cN 2) (cV 1))))) (cR (cD (cM (cV 1) (cA (cN (-1)) (cM (cN 2) (cV 1)))) (cA (cA (cN 1) (cM (cN 3) (cV 1))) (cM (cN 2) (cW (cV 1) 4)))))) (cR (cD (cM (cV 1) (cA (cN (-1)) (cM (cN 4) (cW (cV 1) 4)))) (cA (cN 1) (cV 1))))) (cR (cM (cM (cM (cM (cH 0) (cA (cN 1) (cM (cN 2) (cH 0)))) (cV 1)) (cA (cN 1) (cM (cN 2) (cV 1)))) (cA (cA (cN 3) (cM (cN 5) (cV 1))) (cM (cN 2) (cW (cV 1) 4)))))).
Definition SPSU2T_e145 := (cD (cA (cA (cO (cR (cA (cN 2) (cD (cN 1) (cH 0))))) (cR (cM (cH 0) (cA (cN 1) (cM (cN 2) (cH 0)))))) (cM (cN 2) (cR (cM (cW (cH 0) 6) (cA (cN 1) (cM (cN 2) (cH 0))))))) (cM (cA (cN 1) (cM (cN 2) (cH 0))) (cR (cA (cA (cN (-1)) (cH 0)) (cM (cN 2) (cW (cH 0) 4)))))).
Definition SPSU2T_e146 := (cD (cA (cA (cO (cR (cM (cA (cN 2) (cD (cN 1) (cH 0))) (cV 1)))) (cR (cM (cM (cH 0) (cA (cN 1) (cM (cN 2) (cH 0)))) (cV 1)))) (cM (cM (cN 2) (cH 0)) (cR (cM (cM (cH 0) (cA (cN 1) (cM (cN 2) (cH 0)))) (cV 1))))) (cM (cM (cA (cN 1) (cM (cN 2) (cH 0))) (cR (cA (cA (cN (-1)) (cH 0)) (cM (cN 2) (cW (cH 0) 4))))) (cW (cV 1) 3))).
Definition SPSU2T_e147 := (cD (cM (cA (cA (cN (-1)) (cH 0)) (cM (cN 2) (cW (cH 0) 4))) (cA (cA (cO (cR (cD (cM (cM (cA (cN 1) (cM (cN 2) (cH 0))) (cV 1)) (cA (cN 1) (cM (cN 2) (cV 1)))) (cH 0)))) (cR (cM (cM (cM (cH 0) (cA (cN 1) (cM (cN 2) (cH 0)))) (cV 1)) (cA (cN 1) (cM (cN 2) (cV 1)))))) (cM (cN 2) (cR (cM (cM (cM (cW (cH 0) 6) (cA (cN 1) (cM (cN 2) (cH 0)))) (cV 1)) (cA (cN 1) (cM (cN 2) (cV 1)))))))) (cM (cA (cN 1) (cM (cN 2) (cH 0))) (cW (cM (cM (cA (cA (cN (-1)) (cH 0)) (cM (cN 2) (cW (cH 0) 4))) (cV 1)) (cA (cN 1) (cM (cN 2) (cV 1)))) 3))).
Definition SPSU2T_e148 := (cD (cN 1) (cR (cM (cA (cN 1) (cH 0)) (cA (cN 1) (cM (cN 2) (cH 0)))))).
Definition SPSU2T_e149 := (cD (cN 1) (cM (cR (cM (cA (cN 1) (cH 0)) (cA (cN 1) (cM (cN 2) (cH 0))))) (cV 1))).
Definition SPSU2T_e150 := (cD (cN 1) (cM (cR (cA (cA (cN 1) (cM (cN 3) (cH 0))) (cM (cN 2) (cW (cH 0) 4)))) (cA (cV 1) (cM (cN 2) (cW (cV 1) 4))))).
Definition SPSU2T_e151 := (cA (cA (cA (cD (cA (cN (-1)) (cV 1)) (cR (cD (cM (cM (cM (cM (cH 0) (cA (cN 1) (cH 0))) (cA (cN 1) (cM (cN 2) (cH 0)))) (cA (cN (-1)) (cV 1))) (cA (cN 1) (cV 1))) (cA (cN (-1)) (cM (cN 2) (cH 0)))))) (cD (cN 1) (cR (cD (cM (cM (cM (cM (cH 0) (cA (cN 1) (cH 0))) (cA (cN 1) (cM (cN 2) (cH 0)))) (cW (cV 1) 4)) (cA (cN 1) (cV 1))) (cM (cA (cN (-1)) (cM (cN 2) (cH 0))) (cA (cN (-1)) (cV 1))))))) (cD (cM (cH 0) (cA (cN (-1)) (cM (cN 2) (cH 0)))) (cR (cD (cM (cM (cM (cM (cH 0) (cA (cN 1) (cH 0))) (cA (cN (-1)) (cM (cN 4) (cW (cH 0) 4)))) (cW (cV 1) 4)) (cA (cN 1) (cV 1))) (cA (cN (-1)) (cV 1)))))) (cD (cM (cM (cA (cN (-1)) (cM (cN 2) (cH 0))) (cA (cN (-1)) (cV 1))) (cV 1)) (cR (cD (cM (cM (cM (cM (cA (cN 1) (cH 0)) (cA (cN (-1)) (cM (cN 4) (cW (cH 0) 4)))) (cA (cN (-1)) (cV 1))) (cW (cV 1) 4)) (cA (cN 1) (cV 1))) (cH 0))))).
Definition SPSU2T_e152 := (cD (cM (cR (cD (cA (cN (-1)) (cM (cN 2) (cH 0))) (cA (cN 1) (cH 0)))) (cA (cR (cD (cM (cA (cN 1) (cM (cN 2) (cH 0))) (cA (cN (-1)) (cM (cN 4) (cW (cV 1) 4)))) (cH 0))) (cR (cM (cM (cH 0) (cA (cN 1) (cM (cN 2) (cH 0)))) (cA (cN (-1)) (cM (cN 4) (cW (cV 1) 4))))))) (cM (cM (cA (cN 1) (cM (cN 2) (cH 0))) (cV 1)) (cA (cN 1) (cM (cN 2) (cV 1))))).
Definition SPSU2T_e153 := (cD (cN 1) (cM (cV 1) (cR (cD (cM (cA (cN 1) (cH 0)) (cA (cN 1) (cM (cN 2) (cH 0)))) (cA (cN (-1)) (cW (cV 1) 4)))))).
Definition SPSU2T_e154 := (cD (cN 1) (cM (cV 1) (cR (cD (cM (cM (cA (cN 1) (cH 0)) (cA (cN 1) (cM (cN 2) (cH 0)))) (cA (cN 1) (cM (cN 2) (cV 1)))) (cA (cN (-1)) (cM (cN 2) (cV 1))))))).
Definition SPSU2T_e155 := (cD (cA (cB (cA (cA (cB (cA (cA (cB (cM (cA (cN (-1)) (cM (cN 2) (cH 0))) (cR (cD (cM (cA (cN 1) (cM (cN 2) (cH 0))) (cA (cN (-1)) (cM (cN 2) (cV 1)))) (cM (cH 0) (cA (cN 1) (cV 1)))))) (cR (cD (cM (cM (cH 0) (cA (cN 1) (cM (cN 2) (cH 0)))) (cA (cN (-1)) (cM (cN 2) (cV 1)))) (cA (cN 1) (cV 1))))) (cM (cN 2) (cR (cD (cM (cM (cW (cH 0) 6) (cA (cN 1) (cM (cN 2) (cH 0)))) (cA (cN (-1)) (cM (cN 2) (cV 1)))) (cA (cN 1) (cV 1)))))) (cM (cM (cA (cN (-1)) (cM (cN 2) (cH 0))) (cR (cD (cM (cA (cN 1) (cM (cN 2) (cH 0))) (cA (cN (-1)) (cM (cN 2) (cV 1)))) (cM (cH 0) (cA (cN 1) (cV 1)))))) (cA (cN 1) (cM (cN 2) (cV 1))))) (cM (cR (cD (cM (cM (cH 0) (cA (cN 1) (cM (cN 2) (cH 0)))) (cA (cN (-1)) (cM (cN 2) (cV 1)))) (cA (cN 1) (cV 1)))) (cA (cN 1) (cM (cN 2) (cV 1))))) (cM (cM (cM (cN 2) (cH 0)) (cR (cD (cM (cM (cH 0) (cA (cN 1) (cM (cN 2) (cH 0)))) (cA (cN (-1)) (cM (cN 2) (cV 1)))) (cA (cN 1) (cV 1))))) (cA (cN 1) (cM (cN 2) (cV 1))))) (cM (cM (cM (cN 2) (cW (cH 0) 3)) (cA (cN 1) (cM (cN 2) (cV 1)))) (cR (cM (cA (cN 1) (cM (cN 2) (cH 0))) (cA (cA (cN (-1)) (cV 1)) (cM (cN 2) (cW (cV 1) 4))))))) (cM (cM (cH 0) (cA (cN 1) (cM (cN 2) (cV 1)))) (cR (cD (cM (cA (cN 1) (cM (cN 2) (cH 0))) (cA (cA (cN (-1)) (cV 1)) (cM (cN 2) (cW (cV 1) 4)))) (cH 0))))) (cM (cM (cA (cN (-1)) (cM (cN 2) (cH 0))) (cA (cN 1) (cM (cN 2) (cV 1)))) (cR (cD (cM (cA (cN 1) (cM (cN 2) (cH 0))) (cA (cA (cN (-1)) (cV 1)) (cM (cN 2) (cW (cV 1) 4)))) (cH 0))))) (cM (cM (cA (cN 1) (cM (cN 2) (cH 0))) (cA (cN 1) (cM (cN 2) (cV 1)))) (cR (cM (cA (cA (cN (-1)) (cH 0)) (cM (cN 2) (cW (cH 0) 4))) (cA (cA (cN 3) (cM (cN 5) (cV 1))) (cM (cN 2) (cW (cV 1) 4))))))).
Definition SPSU2T_e156 := (cD (cN 1) (cM (cA (cN 1) (cM (cN 2) (cV 1))) (cR (cD (cM (cA (cN 1) (cH 0)) (cA (cN 1) (cM (cN 2) (cH 0)))) (cA (cA (cN (-3)) (cM (cN 4) (cV 1))) (cM (cN 4) (cW (cV 1) 4))))))).
Definition SPSU2T_e157 := (cD (cA (cA (cR (cD (cH 0) (cA (cN 1) (cH 0)))) (cM (cR (cD (cH 0) (cA (cN 1) (cH 0)))) (cA (cN 1) (cM (cN 2) (cH 0))))) (cM (cR (cM (cH 0) (cA (cN 1) (cH 0)))) (cA (cN 1) (cM (cN 2) (cH 0))))) (cM (cA (cN 1) (cH 0)) (cR (cA (cA (cN 3) (cM (cN 8) (cH 0))) (cM (cN 4) (cW (cH 0) 4)))))).
Definition SPSU2T_e158 := (cD (cA (cA (cM (cN 2) (cR (cD (cH 0) (cA (cN 1) (cH 0))))) (cR (cM (cH 0) (cA (cN 1) (cH 0))))) (cM (cM (cN 2) (cH 0)) (cA (cR (cD (cH 0) (cA (cN 1) (cH 0)))) (cR (cM (cH 0) (cA (cN 1) (cH 0))))))) (cM (cM (cA (cN 1) (cH 0)) (cR (cA (cA (cN 3) (cM (cN 8) (cH 0))) (cM (cN 4) (cW (cH 0) 4))))) (cV 1))).
Definition SPSU2T_e159 := (cD (cA (cN 3) (cM (cN 2) (cH 0))) (cR (cD (cM (cM (cA (cN 1) (cM (cN 2) (cH 0))) (cA (cA (cN 3) (cM (cN 5) (cH 0))) (cM (cN 2) (cW (cH 0) 4)))) (cW (cA (cV 1) (cM (cN 2) (cW (cV 1) 4))) 4)) (cH 0)))).
Definition SPSU2T_e160 := (cD (cA (cA (cA (cB (cA (cA (cR (cD (cM (cH 0) (cA (cN (-1)) (cV 1))) (cM (cA (cN 1) (cH 0)) (cV 1)))) (cM (cA (cN 1) (cM (cN 2) (cH 0))) (cR (cD (cM (cH 0) (cA (cN (-1)) (cV 1))) (cM (cA (cN 1) (cH 0)) (cV 1)))))) (cM (cA (cN 1) (cM (cN 2) (cH 0))) (cR (cD (cM (cM (cH 0) (cA (cN 1) (cH 0))) (cA (cN (-1)) (cV 1))) (cV 1))))) (cM (cM (cA (cN 1) (cM (cN 2) (cH 0))) (cR (cD (cM (cH 0) (cA (cN 1) (cH 0))) (cM (cA (cN (-1)) (cV 1)) (cV 1))))) (cV 1))) (cM (cM (cA (cN 1) (cM (cN 2) (cH 0))) (cR (cD (cM (cH 0) (cA (cN 1) (cH 0))) (cM (cA (cN (-1)) (cV 1)) (cV 1))))) (cW (cV 1) 4))) (cR (cD (cM (cM (cH 0) (cA (cN (-1)) (cV 1))) (cV 1)) (cA (cN 1) (cH 0))))) (cM (cA (cN 1) (cM (cN 2) (cH 0))) (cR (cD (cM (cM (cH 0) (cA (cN (-1)) (cV 1))) (cV 1)) (cA (cN 1) (cH 0)))))) (cM (cA (cN 1) (cH 0)) (cR (cM (cM (cA (cA (cN 3) (cM (cN 8) (cH 0))) (cM (cN 4) (cW (cH 0) 4))) (cV 1)) (cA (cN 1) (cV 1)))))).
Definition SPSU2T_e161 := (cD (cA (cA (cA (cA (cM (cN 2) (cR (cD (cM (cH 0) (cA (cN (-1)) (cM (cN 2) (cV 1)))) (cA (cN 1) (cH 0))))) (cM (cN 2) (cR (cD (cM (cW (cH 0) 6) (cA (cN (-1)) (cM (cN 2) (cV 1)))) (cA (cN 1) (cH 0)))))) (cR (cM (cM (cH 0) (cA (cN 1) (cH 0))) (cA (cN (-1)) (cM (cN 2) (cV 1)))))) (cM (cM (cN 2) (cH 0)) (cR (cM (cM (cH 0) (cA (cN 1) (cH 0))) (cA (cN (-1)) (cM (cN 2) (cV 1))))))) (cM (cV 1) (cA (cA (cM (cN 2) (cR (cD (cM (cH 0) (cA (cN (-1)) (cM (cN 2) (cV 1)))) (cA (cN 1) (cH 0))))) (cR (cM (cM (cH 0) (cA (cN 1) (cH 0))) (cA (cN (-1)) (cM (cN 2) (cV 1)))))) (cM (cM (cN 2) (cH 0)) (cA (cR (cD (cM (cH 0) (cA (cN (-1)) (cM (cN 2) (cV 1)))) (cA (cN 1) (cH 0)))) (cR (cM (cM (cH 0) (cA (cN 1) (cH 0))) (cA (cN (-1)) (cM (cN 2) (cV 1)))))))))) (cM (cM (cM (cA (cN 1) (cH 0)) (cV 1)) (cA (cN 1) (cV 1))) (cR (cM (cA (cA (cN 3) (cM (cN 8) (cH 0))) (cM (cN 4) (cW (cH 0) 4))) (cA (cN 1) (cM (cN 2) (cV 1))))))).
Definition SPSU2T_e162 := (cD (cA (cM (cN 3) (cA (cA (cA (cA (cA (cR (cD (cM (cM (cH 0) (cV 1)) (cA (cN (-1)) (cM (cN 2) (cV 1)))) (cM (cA (cN 1) (cH 0)) (cA (cA (cN 1) (cM (cN 3) (cV 1))) (cM (cN 2) (cW (cV 1) 4)))))) (cR (cD (cM (cM (cW (cH 0) 6) (cV 1)) (cA (cN (-1)) (cM (cN 2) (cV 1)))) (cM (cA (cN 1) (cH 0)) (cA (cA (cN 1) (cM (cN 3) (cV 1))) (cM (cN 2) (cW (cV 1) 4))))))) (cR (cD (cM (cM (cH 0) (cV 1)) (cA (cN (-1)) (cM (cN 4) (cW (cV 1) 4)))) (cM (cA (cN 1) (cH 0)) (cA (cN 1) (cV 1)))))) (cR (cD (cM (cM (cW (cH 0) 6) (cV 1)) (cA (cN (-1)) (cM (cN 4) (cW (cV 1) 4)))) (cM (cA (cN 1) (cH 0)) (cA (cN 1) (cV 1)))))) (cR (cD (cM (cM (cH 0) (cV 1)) (cA (cA (cB (cN (-1)) (cV 1)) (cM (cN 4) (cW (cV 1) 4))) (cM (cN 4) (cW (cV 1) 6)))) (cA (cN 1) (cH 0))))) (cR (cD (cM (cM (cW (cH 0) 6) (cV 1)) (cA (cA (cB (cN (-1)) (cV 1)) (cM (cN 4) (cW (cV 1) 4))) (cM (cN 4) (cW (cV 1) 6)))) (cA (cN 1) (cH 0)))))) (cM (cM (cN 2) (cH 0)) (cA (cA (cR (cD (cM (cM (cM (cH 0) (cA (cN 1) (cH 0))) (cV 1)) (cA (cN (-1)) (cM (cN 2) (cV 1)))) (cA (cA (cN 1) (cM (cN 3) (cV 1))) (cM (cN 2) (cW (cV 1) 4))))) (cR (cD (cM (cM (cM (cH 0) (cA (cN 1) (cH 0))) (cV 1)) (cA (cN (-1)) (cM (cN 4) (cW (cV 1) 4)))) (cA (cN 1) (cV 1))))) (cR (cM (cM (cM (cH 0) (cA (cN 1) (cH 0))) (cV 1)) (cA (cA (cB (cN (-1)) (cV 1)) (cM (cN 4) (cW (cV 1) 4))) (cM (cN 4) (cW (cV 1) 6)))))))) (cM (cA (cN 1) (cH 0)) (cR (cM (cM (cA (cA (cN 3) (cM (cN 8) (cH 0))) (cM (cN 4) (cW (cH 0) 4))) (cV 1)) (cA (cA (cA (cN 3) (cM (cN 11) (cV 1))) (cM (cN 12) (cW (cV 1) 4))) (cM (cN 4) (cW (cV 1) 6))))))).
Definition SPSU2T_e163 := (cO (cD (cR (cN 3)) (cR (cA (cN (-1)) (cM (cN 4) (cW (cH 0) 4)))))).
Definition SPSU2T_e164 := (cD (cM (cN (-2)) (cA (cN (-1)) (cW (cH 0) 4))) (cR (cA (cB (cN 1) (cM (cN 5) (cW (cH 0) 4))) (cM (cN 4) (cW (cH 0) 8))))).
Definition SPSU2T_e165 := (cD (cN (-2)) (cA (cN 1) (cM (cN 2) (cH 0)))).
Definition SPSU2T_e166 := (cO (cD (cM (cR (cN 3)) (cA (cA (cM (cN 3) (cR (cM (cH 0) (cA (cN 1) (cH 0))))) (cM (cN 5) (cR (cM (cW (cH 0) 6) (cA (cN 1) (cH 0)))))) (cM (cN 2) (cR (cM (cW (cH 0) 10) (cA (cN 1) (cH 0))))))) (cR (cM (cM (cH 0) (cA (cN 1) (cM (cN 2) (cH 0)))) (cW (cA (cA (cN 3) (cM (cN 5) (cH 0))) (cM (cN 2) (cW (cH 0) 4))) 6))))).
Definition SPSU2T_e167 := (cO (cD (cA (cA (cM (cN 9) (cR (cD (cH 0) (cA (cN 3) (cM (cN 2) (cH 0)))))) (cR (cM (cH 0) (cA (cN 3) (cM (cN 2) (cH 0)))))) (cM (cM (cN 2) (cH 0)) (cA (cM (cN 3) (cR (cD (cH 0) (cA (cN 3) (cM (cN 2) (cH 0)))))) (cR (cM (cH 0) (cA (cN 3) (cM (cN 2) (cH 0)))))))) (cM (cA (cN 3) (cM (cN 2) (cH 0))) (cR (cA (cA (cN 2) (cM (cN 5) (cH 0))) (cM (cN 2) (cW (cH 0) 4))))))).
Definition SPSU2T_e168 := (cR (cD (cA (cN (-6)) (cM (cN 4) (cV 1))) (cA (cB (cV 1) (cM (cN 3) (cW (cV 1) 4))) (cM (cN 2) (cW (cV 1) 6))))).
Definition SPSU2T_e169 := (cD (cA (cN (-3)) (cW (cV 1) 4)) (cM (cV 1) (cR (cA (cN (-1)) (cW (cV 1) 4))))).
Definition SPSU2T_e170 := (cD (cM (cR (cN 3)) (cA (cA (cN (-3)) (cV 1)) (cM (cN 2) (cW (cV 1) 4)))) (cM (cV 1) (cR (cM (cA (cN 1) (cV 1)) (cA (cA (cB (cN (-3)) (cM (cN 5) (cV 1))) (cM (cN 4) (cW (cV 1) 4))) (cM (cN 4) (cW (cV 1) 6))))))).
Definition SPSU2T_e171 := (cO (cD (cM (cR (cN 3)) (cB (cA (cB (cA (cB (cA (cM (cM (cM (cM (cM (cN (-2)) (cA (cN (-1)) (cV 1))) (cW (cV 1) 5)) (cW (cA (cN 1) (cV 1)) 3)) (cR (cA (cN (-1)) (cM (cN 2) (cV 1))))) (cA (cN 3) (cM (cN 2) (cV 1)))) (cM (cM (cM (cM (cN 7) (cA (cN (-1)) (cV 1))) (cW (cM (cV 1) (cA (cN 1) (cV 1))) 3)) (cR (cA (cN (-1)) (cM (cN 2) (cV 1))))) (cA (cN 3) (cM (cN 2) (cV 1))))) (cM (cM (cM (cM (cN 3) (cA (cN (-1)) (cV 1))) (cW (cA (cN 1) (cV 1)) 3)) (cR (cM (cV 1) (cA (cN (-1)) (cM (cN 2) (cV 1)))))) (cA (cN 3) (cM (cN 2) (cV 1))))) (cM (cV 1) (cR (cM (cM (cM (cV 1) (cW (cA (cN 1) (cV 1)) 6)) (cA (cN (-1)) (cM (cN 2) (cV 1)))) (cW (cA (cN 3) (cM (cN 2) (cV 1))) 4))))) (cM (cM (cN 3) (cW (cV 1) 4)) (cR (cM (cM (cM (cV 1) (cW (cA (cN 1) (cV 1)) 6)) (cA (cN (-1)) (cM (cN 2) (cV 1)))) (cW (cA (cN 3) (cM (cN 2) (cV 1))) 4))))) (cM (cM (cN 2) (cW (cV 1) 6)) (cR (cM (cM (cM (cV 1) (cW (cA (cN 1) (cV 1)) 6)) (cA (cN (-1)) (cM (cN 2) (cV 1)))) (cW (cA (cN 3) (cM (cN 2) (cV 1))) 4))))) (cM (cM (cM (cN 2) (cR (cD (cM (cV 1) (cA (cN 1) (cV 1))) (cA (cN (-1)) (cM (cN 2) (cV 1)))))) (cA (cB (cN 3) (cM (cN 5) (cV 1))) (cM (cN 2) (cW (cV 1) 4)))) (cA (cA (cA (cN (-3)) (cV 1)) (cM (cN 8) (cW (cV 1) 4))) (cM (cN 4) (cW (cV 1) 6)))))) (cM (cM (cM (cR (cA (cN (-1)) (cV 1))) (cW (cA (cN 1) (cV 1)) 4)) (cA (cN (-1)) (cM (cN 2) (cV 1)))) (cW (cM (cV 1) (cA (cN 3) (cM (cN 2) (cV 1)))) 3)))).
Definition SPSU2T_e172 := (cD (cA (cA (cN (-3)) (cV 1)) (cW (cV 1) 4)) (cM (cV 1) (cA (cN 1) (cV 1)))).
Definition SPSU2T_e173 := (cD (cM (cM (cR (cN 3)) (cR (cA (cN 1) (cV 1)))) (cA (cA (cA (cB (cM (cM (cN 6) (cR (cM (cV 1) (cA (cA (cN (-2)) (cM (cN 3) (cV 1))) (cM (cN 2) (cW (cV 1) 4)))))) (cA (cA (cN 3) (cM (cN 5) (cV 1))) (cM (cN 2) (cW (cV 1) 4)))) (cM (cM (cM (cN 19) (cV 1)) (cR (cM (cV 1) (cA (cA (cN (-2)) (cM (cN 3) (cV 1))) (cM (cN 2) (cW (cV 1) 4)))))) (cA (cA (cN 3) (cM (cN 5) (cV 1))) (cM (cN 2) (cW (cV 1) 4))))) (cM (cM (cM (cN 12) (cW (cV 1) 4)) (cR (cM (cV 1) (cA (cA (cN (-2)) (cM (cN 3) (cV 1))) (cM (cN 2) (cW (cV 1) 4)))))) (cA (cA (cN 3) (cM (cN 5) (cV 1))) (cM (cN 2) (cW (cV 1) 4))))) (cM (cM (cM (cN 4) (cW (cV 1) 6)) (cR (cM (cV 1) (cA (cA (cN (-2)) (cM (cN 3) (cV 1))) (cM (cN 2) (cW (cV 1) 4)))))) (cA (cA (cN 3) (cM (cN 5) (cV 1))) (cM (cN 2) (cW (cV 1) 4))))) (cM (cN 12) (cR (cM (cM (cM (cV 1) (cA (cN 2) (cV 1))) (cW (cA (cN (-1)) (cM (cN 2) (cV 1))) 6)) (cW (cA (cA (cN 3) (cM (cN 5) (cV 1))) (cM (cN 2) (cW (cV 1) 4))) 4)))))) (cM (cM (cV 1) (cA (cA (cN (-2)) (cM (cN 3) (cV 1))) (cM (cN 2) (cW (cV 1) 4)))) (cW (cA (cA (cN 3) (cM (cN 5) (cV 1))) (cM (cN 2) (cW (cV 1) 4))) 5))).
Definition SPSU2T_e174 := (cD (cM (cR (cA (cN 3) (cD (cN 3) (cV 1)))) (cB (cA (cB (cM (cN (-6)) (cR (cD (cA (cA (cA (cN (-6)) (cM (cN 5) (cV 1))) (cM (cN 12) (cW (cV 1) 4))) (cM (cN 4) (cW (cV 1) 6))) (cA (cN 1) (cM (cN 2) (cV 1)))))) (cM (cM (cN 3) (cV 1)) (cR (cD (cA (cA (cA (cN (-6)) (cM (cN 5) (cV 1))) (cM (cN 12) (cW (cV 1) 4))) (cM (cN 4) (cW (cV 1) 6))) (cA (cN 1) (cM (cN 2) (cV 1))))))) (cM (cM (cN 6) (cW (cV 1) 4)) (cR (cD (cA (cA (cA (cN (-6)) (cM (cN 5) (cV 1))) (cM (cN 12) (cW (cV 1) 4))) (cM (cN 4) (cW (cV 1) 6))) (cA (cN 1) (cM (cN 2) (cV 1))))))) (cM (cM (cN 4) (cV 1)) (cR (cA (cA (cA (cB (cN (-6)) (cM (cN 7) (cV 1))) (cM (cN 22) (cW (cV 1) 4))) (cM (cN 28) (cW (cV 1) 6))) (cM (cN 8) (cW (cV 1) 8))))))) (cM (cA (cN 2) (cV 1)) (cW (cA (cA (cN 3) (cM (cN 5) (cV 1))) (cM (cN 2) (cW (cV 1) 4))) 3))).
Definition SPSU2T_e175 := (cD (cA (cA (cN (-2)) (cM (cN 2) (cV 1))) (cW (cV 1) 4)) (cM (cA (cN 1) (cV 1)) (cR (cM (cV 1) (cA (cN 2) (cV 1)))))).
Definition SPSU2T_e176 := (cD (cM (cR (cN 2)) (cA (cM (cM (cN 45) (cV 1)) (cR (cD (cM (cV 1) (cA (cA (cN 3) (cM (cN 5) (cV 1))) (cM (cN 2) (cW (cV 1) 4)))) (cA (cN 5) (cM (cN 2) (cV 1)))))) (cM (cN 2) (cA (cA (cR (cD (cM (cM (cM (cW (cV 1) 6) (cW (cA (cN 1) (cV 1)) 6)) (cW (cA (cN 1) (cM (cN 2) (cV 1))) 4)) (cA (cN 3) (cM (cN 2) (cV 1)))) (cA (cN 5) (cM (cN 2) (cV 1))))) (cM (cN 15) (cR (cD (cM (cV 1) (cA (cA (cN 3) (cM (cN 5) (cV 1))) (cM (cN 2) (cW (cV 1) 4)))) (cA (cN 5) (cM (cN 2) (cV 1))))))) (cM (cN 9) (cR (cD (cM (cW (cV 1) 10) (cA (cA (cN 3) (cM (cN 5) (cV 1))) (cM (cN 2) (cW (cV 1) 4)))) (cA (cN 5) (cM (cN 2) (cV 1)))))))))) (cM (cM (cA (cN 1) (cV 1)) (cR (cM (cV 1) (cA (cN 5) (cM (cN 2) (cV 1)))))) (cW (cA (cA (cN 6) (cM (cN 7) (cV 1))) (cM (cN 2) (cW (cV 1) 4))) 3))).
Definition SPSU2T_e177 := (cO (cD (cM (cR (cN 2)) (cA (cM (cN 5) (cR (cM (cV 1) (cA (cN 1) (cV 1))))) (cM (cN 2) (cR (cM (cW (cV 1) 6) (cA (cN 1) (cV 1))))))) (cM (cA (cN 1) (cV 1)) (cR (cM (cM (cV 1) (cA (cN 5) (cM (cN 2) (cV 1)))) (cA (cA (cN 6) (cM (cN 7) (cV 1))) (cM (cN 2) (cW (cV 1) 4)))))))).
Definition SPSU2T_e178 := (cD (cA (cN 3) (cV 1)) (cR (cA (cA (cA (cN 11) (cD (cN 6) (cV 1))) (cM (cN 6) (cV 1))) (cW (cV 1) 4)))).
Definition SPSU2T_e179 := (cD (cM (cN 2) (cR (cM (cH 0) (cA (cN 1) (cH 0))))) (cA (cV 1) (cM (cM (cN 2) (cH 0)) (cV 1)))).
Definition SPSU2T_e180 := (cD (cM (cM (cN (-2)) (cR (cM (cH 0) (cA (cN 1) (cH 0))))) (cA (cA (cN (-1)) (cV 1)) (cW (cV 1) 4))) (cM (cM (cA (cN 1) (cM (cN 2) (cH 0))) (cV 1)) (cA (cN 1) (cV 1)))).
Definition SPSU2T_e181 := (cD (cM (cN (-2)) (cR (cM (cH 0) (cA (cN 1) (cH 0))))) (cA (cA (cA (cN 1) (cM (cN 2) (cH 0))) (cV 1)) (cM (cM (cN 2) (cH 0)) (cV 1)))).
Definition SPSU2T_e182 := (cD (cM (cN 2) (cB (cA (cM (cN 2) (cR (cD (cA (cH 0) (cM (cM (cN 2) (cH 0)) (cV 1))) (cA (cN 1) (cM (cN 2) (cH 0)))))) (cR (cD (cH 0) (cA (cA (cA (cN 1) (cM (cN 2) (cH 0))) (cM (cN 2) (cV 1))) (cM (cM (cN 4) (cH 0)) (cV 1)))))) (cM (cM (cN 2) (cV 1)) (cR (cD (cH 0) (cA (cA (cA (cN 1) (cM (cN 2) (cH 0))) (cM (cN 2) (cV 1))) (cM (cM (cN 4) (cH 0)) (cV 1)))))))) (cM (cA (cN 1) (cV 1)) (cR (cD (cM (cA (cN 1) (cM (cN 2) (cH 0))) (cA (cN 3) (cM (cN 2) (cV 1)))) (cA (cN 1) (cH 0)))))).
Definition SPSU2T_e183 := (cD (cM (cN (-2)) (cR (cM (cM (cM (cH 0) (cA (cN 1) (cH 0))) (cV 1)) (cA (cN 2) (cV 1))))) (cA (cA (cA (cN 1) (cM (cN 2) (cH 0))) (cV 1)) (cM (cM (cN 2) (cH 0)) (cV 1)))).
Definition SPSU2T_e184 := (cO (cD (cA (cR (cD (cM (cM (cA (cN 1) (cH 0)) (cV 1)) (cA (cN 1) (cV 1))) (cA (cN 1) (cM (cN 2) (cH 0))))) (cM (cM (cN 2) (cH 0)) (cA (cO (cM (cV 1) (cR (cD (cM (cM (cA (cN 1) (cH 0)) (cV 1)) (cA (cN 1) (cV 1))) (cA (cN 1) (cM (cN 2) (cH 0))))))) (cR (cD (cM (cM (cA (cN 1) (cH 0)) (cW (cV 1) 6)) (cA (cN 1) (cV 1))) (cA (cN 1) (cM (cN 2) (cH 0)))))))) (cM (cV 1) (cR (cM (cM (cM (cA (cN 1) (cH 0)) (cA (cN 1) (cM (cN 2) (cH 0)))) (cV 1)) (cA (cN 1) (cV 1))))))).
Definition SPSU2T_e185 := (cD (cA (cA (cN (-1)) (cV 1)) (cW (cV 1) 4)) (cM (cM (cA (cN 1) (cM (cN 2) (cH 0))) (cV 1)) (cA (cN 1) (cV 1)))).
Definition SPSU2T_e186 := (cD (cN 1) (cA (cA (cA (cN 1) (cM (cN 2) (cH 0))) (cV 1)) (cM (cM (cN 2) (cH 0)) (cV 1)))).
Definition SPSU2T_e187 := (cO (cD (cA (cA (cB (cB (cA (cD (cM (cM (cW (cA (cN 1) (cH 0)) 3) (cW (cV 1) 5)) (cA (cN 1) (cV 1))) (cR (cA (cN 3) (cM (cN 2) (cH 0))))) (cD (cM (cM (cM (cN 2) (cW (cA (cN 1) (cH 0)) 3)) (cW (cV 1) 5)) (cA (cN 1) (cV 1))) (cM (cA (cN 1) (cM (cN 2) (cH 0))) (cR (cA (cN 3) (cM (cN 2) (cH 0))))))) (cM (cV 1) (cR (cD (cM (cM (cW (cA (cN 1) (cH 0)) 6) (cV 1)) (cW (cA (cN 1) (cV 1)) 4)) (cA (cN 3) (cM (cN 2) (cH 0))))))) (cM (cM (cN 2) (cV 1)) (cR (cD (cM (cM (cW (cA (cN 1) (cH 0)) 6) (cV 1)) (cW (cA (cN 1) (cV 1)) 4)) (cM (cW (cA (cN 1) (cM (cN 2) (cH 0))) 4) (cA (cN 3) (cM (cN 2) (cH 0)))))))) (cR (cD (cM (cM (cW (cA (cN 1) (cH 0)) 6) (cV 1)) (cW (cA (cA (cN (-1)) (cV 1)) (cM (cN 2) (cW (cV 1) 4))) 4)) (cA (cN 3) (cM (cN 2) (cH 0)))))) (cM (cN 2) (cR (cD (cM (cM (cW (cA (cN 1) (cH 0)) 6) (cV 1)) (cW (cA (cA (cN (-1)) (cV 1)) (cM (cN 2) (cW (cV 1) 4))) 4)) (cM (cW (cA (cN 1) (cM (cN 2) (cH 0))) 4) (cA (cN 3) (cM (cN 2) (cH 0)))))))) (cR (cD (cM (cM (cM (cW (cA (cN 1) (cH 0)) 6) (cA (cN 3) (cM (cN 2) (cH 0)))) (cW (cV 1) 6)) (cW (cA (cN 1) (cV 1)) 8)) (cW (cA (cN 1) (cM (cN 2) (cH 0))) 4))))).
Definition SPSU2T_e188 := (cO (cD (cN 1) (cA (cN 1) (cV 1)))).
Definition SPSU2T_e189 := (cO (cD (cR (cD (cA (cN 3) (cM (cN 2) (cV 1))) (cA (cN 1) (cM (cN 2) (cV 1))))) (cA (cA (cA (cN 1) (cM (cN 2) (cH 0))) (cV 1)) (cM (cM (cN 2) (cH 0)) (cV 1))))).
Definition SPSU2T_e190 := (cD (cM (cA (cN 1) (cH 0)) (cA (cA (cA (cM (cM (cN 2) (cW (cV 1) 4)) (cR (cD (cM (cM (cA (cN 1) (cH 0)) (cV 1)) (cA (cA (cN 3) (cM (cN 5) (cV 1))) (cM (cN 2) (cW (cV 1) 4)))) (cA (cN 2) (cV 1))))) (cM (cM (cN 6) (cH 0)) (cB (cA (cR (cD (cM (cM (cA (cN 1) (cH 0)) (cV 1)) (cA (cN 3) (cM (cN 2) (cV 1)))) (cA (cA (cN 2) (cM (cN 3) (cV 1))) (cW (cV 1) 4)))) (cM (cV 1) (cR (cD (cM (cM (cA (cN 1) (cH 0)) (cV 1)) (cA (cN 3) (cM (cN 2) (cV 1)))) (cA (cA (cN 2) (cM (cN 3) (cV 1))) (cW (cV 1) 4)))))) (cR (cD (cM (cM (cA (cN 1) (cH 0)) (cV 1)) (cA (cA (cN 3) (cM (cN 5) (cV 1))) (cM (cN 2) (cW (cV 1) 4)))) (cA (cN 2) (cV 1))))))) (cM (cN 3) (cA (cR (cD (cM (cM (cA (cN 1) (cH 0)) (cV 1)) (cA (cN 3) (cM (cN 2) (cV 1)))) (cA (cA (cN 2) (cM (cN 3) (cV 1))) (cW (cV 1) 4)))) (cR (cD (cM (cM (cA (cN 1) (cH 0)) (cV 1)) (cA (cA (cN 3) (cM (cN 5) (cV 1))) (cM (cN 2) (cW (cV 1) 4)))) (cA (cN 2) (cV 1))))))) (cM (cV 1) (cA (cM (cN 3) (cR (cD (cM (cM (cA (cN 1) (cH 0)) (cV 1)) (cA (cN 3) (cM (cN 2) (cV 1)))) (cA (cA (cN 2) (cM (cN 3) (cV 1))) (cW (cV 1) 4))))) (cM (cN 7) (cR (cD (cM (cM (cA (cN 1) (cH 0)) (cV 1)) (cA (cA (cN 3) (cM (cN 5) (cV 1))) (cM (cN 2) (cW (cV 1) 4)))) (cA (cN 2) (cV 1))))))))) (cM (cA (cN 1) (cM (cN 2) (cH 0))) (cW (cM (cM (cA (cN 1) (cH 0)) (cA (cN 1) (cV 1))) (cA (cN 3) (cM (cN 2) (cV 1)))) 3))).
Definition SPSU2T_e191 := (cD (cB (cB (cB (cA (cA (cA (cM (cN 2) (cR (cD (cM (cM (cM (cW (cA (cN 1) (cH 0)) 6) (cV 1)) (cW (cA (cN 1) (cV 1)) 4)) (cW (cA (cN 3) (cM (cN 2) (cV 1))) 6)) (cM (cA (cN 1) (cM (cN 2) (cH 0))) (cA (cN 1) (cM (cN 2) (cV 1))))))) (cR (cD (cM (cM (cM (cM (cW (cA (cN 1) (cH 0)) 6) (cA (cN 1) (cM (cN 2) (cH 0)))) (cV 1)) (cW (cA (cN 1) (cV 1)) 4)) (cW (cA (cN 3) (cM (cN 2) (cV 1))) 6)) (cA (cN 1) (cM (cN 2) (cV 1)))))) (cM (cN 2) (cR (cD (cM (cM (cM (cW (cA (cN 1) (cH 0)) 6) (cV 1)) (cW (cA (cN 1) (cV 1)) 8)) (cW (cA (cN 3) (cM (cN 2) (cV 1))) 6)) (cM (cA (cN 1) (cM (cN 2) (cH 0))) (cA (cN 1) (cM (cN 2) (cV 1)))))))) (cR (cD (cM (cM (cM (cM (cW (cA (cN 1) (cH 0)) 6) (cA (cN 1) (cM (cN 2) (cH 0)))) (cV 1)) (cW (cA (cN 1) (cV 1)) 8)) (cW (cA (cN 3) (cM (cN 2) (cV 1))) 6)) (cA (cN 1) (cM (cN 2) (cV 1)))))) (cM (cN 2) (cR (cD (cM (cM (cM (cW (cA (cN 1) (cH 0)) 6) (cV 1)) (cW (cA (cN 3) (cM (cN 2) (cV 1))) 6)) (cW (cA (cA (cN (-1)) (cV 1)) (cM (cN 2) (cW (cV 1) 4))) 4)) (cM (cA (cN 1) (cM (cN 2) (cH 0))) (cW (cA (cN 1) (cM (cN 2) (cV 1))) 6)))))) (cR (cD (cM (cM (cM (cM (cW (cA (cN 1) (cH 0)) 6) (cA (cN 1) (cM (cN 2) (cH 0)))) (cV 1)) (cW (cA (cN 3) (cM (cN 2) (cV 1))) 6)) (cW (cA (cA (cN (-1)) (cV 1)) (cM (cN 2) (cW (cV 1) 4))) 4)) (cW (cA (cN 1) (cM (cN 2) (cV 1))) 6)))) (cM (cV 1) (cA (cM (cN 2) (cR (cD (cM (cM (cM (cW (cA (cN 1) (cH 0)) 6) (cV 1)) (cW (cA (cN 1) (cV 1)) 4)) (cW (cA (cN 3) (cM (cN 2) (cV 1))) 6)) (cM (cA (cN 1) (cM (cN 2) (cH 0))) (cA (cN 1) (cM (cN 2) (cV 1))))))) (cR (cD (cM (cM (cM (cM (cW (cA (cN 1) (cH 0)) 6) (cA (cN 1) (cM (cN 2) (cH 0)))) (cV 1)) (cW (cA (cN 1) (cV 1)) 4)) (cW (cA (cN 3) (cM (cN 2) (cV 1))) 6)) (cA (cN 1) (cM (cN 2) (cV 1)))))))) (cR (cD (cM (cM (cM (cW (cA (cN 1) (cH 0)) 6) (cW (cA (cN 3) (cM (cN 2) (cH 0))) 4)) (cV 1)) (cW (cA (cA (cN 3) (cM (cN 5) (cV 1))) (cM (cN 2) (cW (cV 1) 4))) 8)) (cM (cA (cN 1) (cM (cN 2) (cH 0))) (cW (cA (cN 1) (cM (cN 2) (cV 1))) 4))))).
Definition SPSU2T_e192 := (cO (cD (cA (cA (cA (cA (cA (cM (cN 2) (cR (cD (cM (cM (cM (cM (cW (cA (cN 1) (cH 0)) 6) (cA (cN 1) (cM (cN 2) (cH 0)))) (cV 1)) (cA (cN 1) (cV 1))) (cW (cA (cN 3) (cM (cN 2) (cV 1))) 6)) (cM (cA (cN 3) (cM (cN 2) (cH 0))) (cA (cN 2) (cV 1)))))) (cM (cN 4) (cR (cD (cM (cM (cM (cW (cA (cN 1) (cH 0)) 6) (cV 1)) (cA (cN 1) (cV 1))) (cW (cA (cN 3) (cM (cN 2) (cV 1))) 6)) (cM (cA (cA (cN 3) (cM (cN 8) (cH 0))) (cM (cN 4) (cW (cH 0) 4))) (cA (cN 2) (cV 1))))))) (cM (cN 3) (cR (cD (cM (cM (cM (cM (cW (cA (cN 1) (cH 0)) 6) (cA (cN 1) (cM (cN 2) (cH 0)))) (cV 1)) (cA (cN 1) (cV 1))) (cW (cA (cN 3) (cM (cN 2) (cV 1))) 6)) (cM (cM (cA (cN 3) (cM (cN 2) (cH 0))) (cA (cN 2) (cV 1))) (cW (cA (cN 1) (cM (cN 2) (cV 1))) 4)))))) (cD (cM (cM (cM (cM (cN 6) (cA (cN 1) (cH 0))) (cA (cN 1) (cV 1))) (cA (cN 3) (cM (cN 2) (cV 1)))) (cR (cD (cM (cM (cA (cN 1) (cH 0)) (cV 1)) (cA (cN 3) (cM (cN 2) (cV 1)))) (cM (cA (cA (cN 3) (cM (cN 8) (cH 0))) (cM (cN 4) (cW (cH 0) 4))) (cA (cA (cN 2) (cM (cN 3) (cV 1))) (cW (cV 1) 4)))))) (cA (cN 1) (cM (cN 2) (cV 1))))) (cR (cD (cM (cM (cM (cW (cA (cN 1) (cH 0)) 6) (cA (cN 1) (cM (cN 2) (cH 0)))) (cV 1)) (cW (cA (cA (cN 3) (cM (cN 5) (cV 1))) (cM (cN 2) (cW (cV 1) 4))) 6)) (cM (cA (cN 3) (cM (cN 2) (cH 0))) (cA (cN 2) (cV 1)))))) (cM (cN 2) (cR (cD (cM (cM (cW (cA (cN 1) (cH 0)) 6) (cV 1)) (cW (cA (cA (cN 3) (cM (cN 5) (cV 1))) (cM (cN 2) (cW (cV 1) 4))) 6)) (cM (cA (cA (cN 3) (cM (cN 8) (cH 0))) (cM (cN 4) (cW (cH 0) 4))) (cA (cN 2) (cV 1))))))) (cR (cD (cM (cM (cM (cW (cA (cN 1) (cH 0)) 6) (cA (cN 3) (cM (cN 2) (cH 0)))) (cW (cA (cN 1) (cV 1)) 6)) (cW (cA (cN 3) (cM (cN 2) (cV 1))) 10)) (cM (cA (cN 1) (cM (cN 2) (cH 0))) (cW (cA (cN 1) (cM (cN 2) (cV 1))) 4)))))).
Definition SPSU2T_e193 := (cD (cM (cN 2) (cA (cM (cN 3) (cR (cD (cH 0) (cA (cA (cA (cN 1) (cM (cN 2) (cH 0))) (cM (cN 2) (cV 1))) (cM (cM (cN 4) (cH 0)) (cV 1)))))) (cM (cV 1) (cA (cR (cD (cA (cH 0) (cM (cM (cN 2) (cH 0)) (cV 1))) (cA (cN 1) (cM (cN 2) (cH 0))))) (cM (cN 4) (cR (cD (cH 0) (cA (cA (cA (cN 1) (cM (cN 2) (cH 0))) (cM (cN 2) (cV 1))) (cM (cM (cN 4) (cH 0)) (cV 1)))))))))) (cM (cW (cA (cN 1) (cV 1)) 4) (cR (cD (cM (cA (cN 1) (cM (cN 2) (cH 0))) (cA (cN 3) (cM (cN 2) (cV 1)))) (cA (cN 1) (cH 0)))))).
Definition SPSU2T_e194 := (cO (cD (cA (cA (cN (-1)) (cV 1)) (cW (cV 1) 4)) (cM (cV 1) (cA (cN 1) (cV 1))))).
Definition SPSU2T_e195 := (cD (cR (cD (cA (cN 3) (cM (cN 2) (cV 1))) (cA (cN 1) (cM (cN 2) (cV 1))))) (cA (cN 1) (cV 1))).
Definition SPSU2T_e196 := (cO (cM (cR (cD (cM (cA (cN 1) (cM (cN 2) (cH 0))) (cW (cA (cN 1) (cM (cN 2) (cV 1))) 4)) (cM (cM (cM (cW (cA (cN 1) (cH 0)) 6) (cA (cN 3) (cM (cN 2) (cH 0)))) (cW (cA (cN 1) (cV 1)) 6)) (cW (cA (cN 3) (cM (cN 2) (cV 1))) 10)))) (cA (cA (cA (cA (cA (cM (cN 2) (cR (cD (cM (cM (cM (cM (cW (cA (cN 1) (cH 0)) 6) (cA (cN 1) (cM (cN 2) (cH 0)))) (cV 1)) (cA (cN 1) (cV 1))) (cW (cA (cN 3) (cM (cN 2) (cV 1))) 6)) (cM (cA (cN 3) (cM (cN 2) (cH 0))) (cA (cN 2) (cV 1)))))) (cM (cN 3) (cR (cD (cM (cM (cM (cM (cW (cA (cN 1) (cH 0)) 6) (cA (cN 1) (cM (cN 2) (cH 0)))) (cV 1)) (cA (cN 1) (cV 1))) (cW (cA (cN 3) (cM (cN 2) (cV 1))) 6)) (cM (cM (cA (cN 3) (cM (cN 2) (cH 0))) (cA (cN 2) (cV 1))) (cW (cA (cN 1) (cM (cN 2) (cV 1))) 4)))))) (cD (cN 4) (cR (cD (cM (cA (cA (cN 3) (cM (cN 8) (cH 0))) (cM (cN 4) (cW (cH 0) 4))) (cA (cN 2) (cV 1))) (cM (cM (cW (cA (cN 1) (cH 0)) 6) (cW (cA (cN 3) (cM (cN 2) (cV 1))) 6)) (cA (cV 1) (cW (cV 1) 4))))))) (cD (cM (cM (cM (cM (cN 6) (cA (cN 1) (cH 0))) (cA (cN 1) (cV 1))) (cA (cN 3) (cM (cN 2) (cV 1)))) (cR (cD (cM (cM (cA (cN 1) (cH 0)) (cV 1)) (cA (cN 3) (cM (cN 2) (cV 1)))) (cM (cA (cA (cN 3) (cM (cN 8) (cH 0))) (cM (cN 4) (cW (cH 0) 4))) (cA (cA (cN 2) (cM (cN 3) (cV 1))) (cW (cV 1) 4)))))) (cA (cN 1) (cM (cN 2) (cV 1))))) (cD (cN 2) (cR (cD (cM (cA (cA (cN 3) (cM (cN 8) (cH 0))) (cM (cN 4) (cW (cH 0) 4))) (cA (cN 2) (cV 1))) (cM (cM (cW (cA (cN 1) (cH 0)) 6) (cV 1)) (cW (cA (cA (cN 3) (cM (cN 5) (cV 1))) (cM (cN 2) (cW (cV 1) 4))) 6)))))) (cD (cN 1) (cR (cD (cM (cA (cN 3) (cM (cN 2) (cH 0))) (cA (cN 2) (cV 1))) (cM (cM (cW (cA (cN 1) (cH 0)) 6) (cA (cV 1) (cM (cM (cN 2) (cH 0)) (cV 1)))) (cW (cA (cA (cN 3) (cM (cN 5) (cV 1))) (cM (cN 2) (cW (cV 1) 4))) 6)))))))).
Definition SPSU2T_e197 := (cD (cM (cN (-2)) (cR (cD (cM (cM (cM (cH 0) (cA (cN 1) (cH 0))) (cA (cN (-2)) (cV 1))) (cA (cN 1) (cV 1))) (cM (cA (cN (-1)) (cV 1)) (cV 1))))) (cA (cN 1) (cM (cN 2) (cH 0)))).
Definition SPSU2T_e198 := (cM (cM (cN (-2)) (cR (cN 2))) (cR (cD (cM (cA (cH 0) (cW (cH 0) 4)) (cA (cN (-3)) (cM (cN 2) (cV 1)))) (cM (cW (cA (cN 1) (cM (cN 2) (cH 0))) 4) (cA (cB (cV 1) (cM (cN 3) (cW (cV 1) 4))) (cM (cN 2) (cW (cV 1) 6))))))).
Definition SPSU2T_e199 := (cD (cM (cM (cN (-2)) (cR (cN 2))) (cA (cA (cO (cR (cD (cM (cM (cH 0) (cV 1)) (cA (cN 1) (cV 1))) (cA (cN 1) (cM (cN 2) (cH 0)))))) (cR (cD (cM (cH 0) (cA (cN 1) (cV 1))) (cA (cV 1) (cM (cM (cN 2) (cH 0)) (cV 1)))))) (cR (cD (cM (cM (cH 0) (cW (cA (cN (-2)) (cV 1)) 4)) (cA (cN 1) (cV 1))) (cA (cV 1) (cM (cM (cN 2) (cH 0)) (cV 1))))))) (cR (cD (cM (cA (cN 1) (cM (cN 2) (cH 0))) (cA (cN (-1)) (cW (cV 1) 4))) (cA (cN 1) (cH 0))))).
Definition SPSU2T_e200 := (cD (cM (cM (cN (-2)) (cA (cN (-3)) (cW (cV 1) 4))) (cR (cD (cM (cH 0) (cA (cN 1) (cH 0))) (cA (cN (-1)) (cW (cV 1) 4))))) (cA (cV 1) (cM (cM (cN 2) (cH 0)) (cV 1)))).
Definition SPSU2T_e201 := (cD (cM (cM (cM (cN (-2)) (cR (cN 3))) (cA (cA (cN (-3)) (cV 1)) (cM (cN 2) (cW (cV 1) 4)))) (cR (cD (cM (cH 0) (cA (cN 1) (cH 0))) (cM (cM (cW (cA (cN 1) (cM (cN 2) (cH 0))) 4) (cA (cN (-1)) (cW (cV 1) 4))) (cA (cA (cN 3) (cM (cN 8) (cV 1))) (cM (cN 4) (cW (cV 1) 4))))))) (cV 1)).
Definition SPSU2T_e202 := (cD (cM (cM (cM (cN 2) (cR (cN 3))) (cR (cD (cM (cA (cN 1) (cH 0)) (cA (cN 1) (cV 1))) (cA (cV 1) (cM (cM (cN 2) (cH 0)) (cV 1)))))) (cA (cB (cA (cA (cB (cM (cM (cN 3) (cV 1)) (cR (cD (cM (cH 0) (cA (cA (cN (-1)) (cV 1)) (cM (cN 2) (cW (cV 1) 4)))) (cM (cM (cA (cN 1) (cM (cN 2) (cH 0))) (cA (cN (-1)) (cV 1))) (cV 1))))) (cM (cM (cN 7) (cW (cV 1) 4)) (cR (cD (cM (cH 0) (cA (cA (cN (-1)) (cV 1)) (cM (cN 2) (cW (cV 1) 4)))) (cM (cM (cA (cN 1) (cM (cN 2) (cH 0))) (cA (cN (-1)) (cV 1))) (cV 1)))))) (cM (cM (cN 4) (cW (cV 1) 8)) (cR (cD (cM (cH 0) (cA (cA (cN (-1)) (cV 1)) (cM (cN 2) (cW (cV 1) 4)))) (cM (cM (cA (cN 1) (cM (cN 2) (cH 0))) (cA (cN (-1)) (cV 1))) (cV 1)))))) (cM (cN 15) (cR (cD (cM (cM (cH 0) (cV 1)) (cA (cB (cB (cN 1) (cM (cN 2) (cV 1))) (cW (cV 1) 4)) (cM (cN 2) (cW (cV 1) 6)))) (cA (cN 1) (cM (cN 2) (cH 0))))))) (cM (cN 4) (cR (cD (cM (cM (cH 0) (cW (cV 1) 10)) (cA (cB (cB (cN 1) (cM (cN 2) (cV 1))) (cW (cV 1) 4)) (cM (cN 2) (cW (cV 1) 6)))) (cA (cN 1) (cM (cN 2) (cH 0))))))) (cM (cN 9) (cR (cD (cM (cH 0) (cA (cB (cB (cN 1) (cM (cN 2) (cV 1))) (cW (cV 1) 4)) (cM (cN 2) (cW (cV 1) 6)))) (cA (cV 1) (cM (cM (cN 2) (cH 0)) (cV 1)))))))) (cM (cA (cN (-1)) (cM (cN 2) (cV 1))) (cW (cA (cA (cN 3) (cM (cN 5) (cV 1))) (cM (cN 2) (cW (cV 1) 4))) 3))).
Definition SPSU2T_e203 := (cD (cM (cN 2) (cB (cB (cB (cA (cM (cN 15) (cR (cD (cM (cM (cH 0) (cV 1)) (cA (cN 3) (cM (cN 2) (cV 1)))) (cA (cN 1) (cM (cN 2) (cH 0)))))) (cM (cN 11) (cR (cD (cM (cM (cH 0) (cW (cV 1) 6)) (cA (cN 3) (cM (cN 2) (cV 1)))) (cA (cN 1) (cM (cN 2) (cH 0))))))) (cM (cN 8) (cR (cD (cM (cM (cH 0) (cW (cV 1) 10)) (cA (cN 3) (cM (cN 2) (cV 1)))) (cA (cN 1) (cM (cN 2) (cH 0))))))) (cM (cN 4) (cR (cD (cM (cM (cH 0) (cW (cV 1) 14)) (cA (cN 3) (cM (cN 2) (cV 1)))) (cA (cN 1) (cM (cN 2) (cH 0))))))) (cM (cN 9) (cR (cD (cM (cH 0) (cA (cN 3) (cM (cN 2) (cV 1)))) (cA (cV 1) (cM (cM (cN 2) (cH 0)) (cV 1)))))))) (cM (cM (cA (cN (-1)) (cM (cN 2) (cV 1))) (cR (cD (cA (cV 1) (cM (cM (cN 2) (cH 0)) (cV 1))) (cA (cA (cA (cN 1) (cH 0)) (cV 1)) (cM (cH 0) (cV 1)))))) (cW (cA (cA (cN 3) (cM (cN 5) (cV 1))) (cM (cN 2) (cW (cV 1) 4))) 3))).
Definition SPSU2T_e204 := (cD (cM (cM (cN (-2)) (cR (cN 3))) (cR (cD (cM (cM (cM (cH 0) (cA (cN 1) (cH 0))) (cV 1)) (cA (cA (cN (-2)) (cM (cN 3) (cV 1))) (cM (cN 2) (cW (cV 1) 4)))) (cM (cW (cA (cN 1) (cV 1)) 4) (cA (cN 3) (cM (cN 2) (cV 1))))))) (cA (cV 1) (cM (cM (cN 2) (cH 0)) (cV 1)))).
Definition SPSU2T_e205 := (cD (cM (cM (cM (cN (-2)) (cR (cN 3))) (cR (cD (cM (cA (cN 1) (cH 0)) (cA (cN 1) (cV 1))) (cA (cV 1) (cM (cM (cN 2) (cH 0)) (cV 1)))))) (cA (cA (cA (cM (cN (-6)) (cR (cD (cM (cH 0) (cA (cA (cN (-2)) (cM (cN 3) (cV 1))) (cM (cN 2) (cW (cV 1) 4)))) (cM (cA (cN 1) (cM (cN 2) (cH 0))) (cA (cA (cN 1) (cM (cN 3) (cV 1))) (cM (cN 2) (cW (cV 1) 4))))))) (cM (cM (cN 2) (cW (cV 1) 6)) (cR (cD (cM (cH 0) (cA (cA (cN 2) (cM (cN 5) (cV 1))) (cM (cN 2) (cW (cV 1) 4)))) (cM (cA (cN 1) (cM (cN 2) (cH 0))) (cA (cA (cN (-1)) (cV 1)) (cM (cN 2) (cW (cV 1) 4)))))))) (cM (cW (cV 1) 4) (cB (cB (cM (cN 6) (cR (cD (cM (cH 0) (cA (cA (cN (-2)) (cM (cN 3) (cV 1))) (cM (cN 2) (cW (cV 1) 4)))) (cM (cA (cN 1) (cM (cN 2) (cH 0))) (cA (cA (cN 1) (cM (cN 3) (cV 1))) (cM (cN 2) (cW (cV 1) 4))))))) (cM (cN 7) (cR (cD (cM (cH 0) (cA (cA (cN 2) (cM (cN 5) (cV 1))) (cM (cN 2) (cW (cV 1) 4)))) (cM (cA (cN 1) (cM (cN 2) (cH 0))) (cA (cA (cN (-1)) (cV 1)) (cM (cN 2) (cW (cV 1) 4)))))))) (cM (cN 2) (cR (cD (cM (cH 0) (cA (cA (cA (cN 2) (cM (cN 7) (cV 1))) (cM (cN 7) (cW (cV 1) 4))) (cM (cN 2) (cW (cV 1) 6)))) (cM (cA (cN 1) (cM (cN 2) (cH 0))) (cA (cN (-1)) (cM (cN 2) (cV 1)))))))))) (cM (cV 1) (cA (cA (cM (cN (-3)) (cR (cD (cM (cH 0) (cA (cA (cN (-2)) (cM (cN 3) (cV 1))) (cM (cN 2) (cW (cV 1) 4)))) (cM (cA (cN 1) (cM (cN 2) (cH 0))) (cA (cA (cN 1) (cM (cN 3) (cV 1))) (cM (cN 2) (cW (cV 1) 4))))))) (cM (cN 3) (cR (cD (cM (cH 0) (cA (cA (cN 2) (cM (cN 5) (cV 1))) (cM (cN 2) (cW (cV 1) 4)))) (cM (cA (cN 1) (cM (cN 2) (cH 0))) (cA (cA (cN (-1)) (cV 1)) (cM (cN 2) (cW (cV 1) 4)))))))) (cR (cD (cM (cH 0) (cA (cA (cA (cN 2) (cM (cN 7) (cV 1))) (cM (cN 7) (cW (cV 1) 4))) (cM (cN 2) (cW (cV 1) 6)))) (cM (cA (cN 1) (cM (cN 2) (cH 0))) (cA (cN (-1)) (cM (cN 2) (cV 1)))))))))) (cA (cA (cA (cN 6) (cM (cN 13) (cV 1))) (cM (cN 9) (cW (cV 1) 4))) (cM (cN 2) (cW (cV 1) 6)))).
Definition SPSU2T_e206 := (cD (cM (cM (cN 2) (cR (cD (cM (cH 0) (cA (cN 1) (cH 0))) (cW (cA (cN 1) (cM (cN 2) (cH 0))) 4)))) (cB (cB (cB (cA (cM (cN 12) (cR (cM (cV 1) (cA (cN 3) (cM (cN 2) (cV 1)))))) (cM (cN 2) (cR (cM (cW (cV 1) 6) (cA (cN 3) (cM (cN 2) (cV 1))))))) (cM (cN 16) (cR (cM (cW (cV 1) 10) (cA (cN 3) (cM (cN 2) (cV 1))))))) (cM (cN 11) (cR (cM (cW (cV 1) 14) (cA (cN 3) (cM (cN 2) (cV 1))))))) (cM (cN 2) (cR (cM (cW (cV 1) 18) (cA (cN 3) (cM (cN 2) (cV 1)))))))) (cM (cM (cV 1) (cA (cN 1) (cV 1))) (cW (cA (cA (cN 6) (cM (cN 7) (cV 1))) (cM (cN 2) (cW (cV 1) 4))) 3))).
Definition SPSU2T_e207 := (cD (cM (cM (cM (cN (-2)) (cR (cN 2))) (cR (cD (cM (cA (cN 1) (cH 0)) (cA (cN 1) (cV 1))) (cA (cV 1) (cM (cM (cN 2) (cH 0)) (cV 1)))))) (cA (cA (cA (cA (cM (cN 150) (cR (cD (cM (cH 0) (cV 1)) (cA (cA (cA (cN 2) (cM (cN 4) (cH 0))) (cV 1)) (cM (cM (cN 2) (cH 0)) (cV 1)))))) (cM (cN 295) (cR (cD (cM (cH 0) (cW (cV 1) 6)) (cA (cA (cA (cN 2) (cM (cN 4) (cH 0))) (cV 1)) (cM (cM (cN 2) (cH 0)) (cV 1))))))) (cM (cN 214) (cR (cD (cM (cH 0) (cW (cV 1) 10)) (cA (cA (cA (cN 2) (cM (cN 4) (cH 0))) (cV 1)) (cM (cM (cN 2) (cH 0)) (cV 1))))))) (cM (cN 68) (cR (cD (cM (cH 0) (cW (cV 1) 14)) (cA (cA (cA (cN 2) (cM (cN 4) (cH 0))) (cV 1)) (cM (cM (cN 2) (cH 0)) (cV 1))))))) (cM (cN 8) (cR (cD (cM (cH 0) (cW (cV 1) 18)) (cA (cA (cA (cN 2) (cM (cN 4) (cH 0))) (cV 1)) (cM (cM (cN 2) (cH 0)) (cV 1)))))))) (cM (cW (cA (cN 5) (cM (cN 2) (cV 1))) 4) (cA (cA (cA (cN 6) (cM (cN 13) (cV 1))) (cM (cN 9) (cW (cV 1) 4))) (cM (cN 2) (cW (cV 1) 6))))).
Definition SPSU2T_e208 := (cM (cM (cM (cN 2) (cR (cN 2))) (cA (cN 5) (cM (cN 2) (cV 1)))) (cR (cD (cM (cH 0) (cA (cN 1) (cH 0))) (cM (cM (cW (cA (cN 1) (cM (cN 2) (cH 0))) 4) (cA (cA (cN 5) (cM (cN 7) (cV 1))) (cM (cN 2) (cW (cV 1) 4)))) (cA (cA (cN 6) (cM (cN 7) (cV 1))) (cM (cN 2) (cW (cV 1) 4))))))).
Definition SPSU2T_e209 := (cD (cM (cM (cN (-2)) (cR (cD (cA (cN 1) (cH 0)) (cM (cA (cN 1) (cM (cN 2) (cH 0))) (cA (cA (cA (cN 30) (cM (cN 47) (cV 1))) (cM (cN 24) (cW (cV 1) 4))) (cM (cN 4) (cW (cV 1) 6))))))) (cA (cA (cA (cA (cM (cM (cN 4) (cA (cN 1) (cM (cN 2) (cV 1)))) (cR (cD (cM (cM (cH 0) (cV 1)) (cA (cA (cN 3) (cM (cN 5) (cV 1))) (cM (cN 2) (cW (cV 1) 4)))) (cM (cA (cN 1) (cM (cN 2) (cH 0))) (cA (cA (cN 15) (cM (cN 11) (cV 1))) (cM (cN 2) (cW (cV 1) 4))))))) (cM (cM (cA (cN 2) (cV 1)) (cA (cN 1) (cM (cN 2) (cV 1)))) (cR (cD (cM (cM (cH 0) (cV 1)) (cA (cA (cN 3) (cM (cN 5) (cV 1))) (cM (cN 2) (cW (cV 1) 4)))) (cM (cA (cN 1) (cM (cN 2) (cH 0))) (cA (cA (cN 15) (cM (cN 11) (cV 1))) (cM (cN 2) (cW (cV 1) 4)))))))) (cM (cM (cN 18) (cA (cN 1) (cM (cN 2) (cV 1)))) (cR (cD (cM (cM (cH 0) (cV 1)) (cA (cN 1) (cV 1))) (cM (cA (cN 1) (cM (cN 2) (cH 0))) (cA (cA (cA (cN 45) (cM (cN 63) (cV 1))) (cM (cN 28) (cW (cV 1) 4))) (cM (cN 4) (cW (cV 1) 6)))))))) (cM (cN 30) (cR (cD (cM (cH 0) (cV 1)) (cM (cA (cN 1) (cM (cN 2) (cH 0))) (cA (cA (cA (cA (cN 45) (cM (cN 108) (cV 1))) (cM (cN 91) (cW (cV 1) 4))) (cM (cN 32) (cW (cV 1) 6))) (cM (cN 4) (cW (cV 1) 8)))))))) (cM (cM (cN 24) (cA (cN 1) (cM (cN 2) (cV 1)))) (cR (cD (cM (cH 0) (cV 1)) (cM (cA (cN 1) (cM (cN 2) (cH 0))) (cA (cA (cA (cA (cN 45) (cM (cN 108) (cV 1))) (cM (cN 91) (cW (cV 1) 4))) (cM (cN 32) (cW (cV 1) 6))) (cM (cN 4) (cW (cV 1) 8))))))))) (cA (cN 2) (cV 1))).
Definition SPSU2T_e210 := (cD (cN 1) (cM (cA (cN 1) (cM (cN 2) (cH 0))) (cR (cD (cM (cA (cN (-1)) (cV 1)) (cV 1)) (cA (cB (cN (-2)) (cV 1)) (cW (cV 1) 4)))))).
Definition SPSU2T_e211 := (cD (cR (cD (cA (cN (-6)) (cM (cN 4) (cV 1))) (cA (cB (cV 1) (cM (cN 3) (cW (cV 1) 4))) (cM (cN 2) (cW (cV 1) 6))))) (cA (cN 1) (cM (cN 2) (cH 0)))).
Definition SPSU2T_e212 := (cO (cR (cD (cA (cN (-6)) (cM (cN 4) (cV 1))) (cA (cB (cV 1) (cM (cN 3) (cW (cV 1) 4))) (cM (cN 2) (cW (cV 1) 6)))))).
Definition SPSU2T_e213 := (cD (cA (cN (-3)) (cW (cV 1) 4)) (cM (cA (cV 1) (cM (cM (cN 2) (cH 0)) (cV 1))) (cR (cA (cN (-1)) (cW (cV 1) 4))))).
Definition SPSU2T_e214 := (cD (cM (cR (cN 3)) (cA (cA (cN (-3)) (cV 1)) (cM (cN 2) (cW (cV 1) 4)))) (cM (cA (cV 1) (cM (cM (cN 2) (cH 0)) (cV 1))) (cR (cA (cA (cB (cB (cN (-3)) (cM (cN 8) (cV 1))) (cW (cV 1) 4)) (cM (cN 8) (cW (cV 1) 6))) (cM (cN 4) (cW (cV 1) 8)))))).
Definition SPSU2T_e215 := (cD (cB (cN 3) (cW (cV 1) 4)) (cM (cV 1) (cR (cA (cN (-1)) (cW (cV 1) 4))))).
Definition SPSU2T_e216 := (cO (cD (cM (cR (cN 3)) (cA (cA (cN (-3)) (cV 1)) (cM (cN 2) (cW (cV 1) 4)))) (cM (cV 1) (cR (cM (cA (cN 1) (cV 1)) (cA (cA (cB (cN (-3)) (cM (cN 5) (cV 1))) (cM (cN 4) (cW (cV 1) 4))) (cM (cN 4) (cW (cV 1) 6)))))))).
Definition SPSU2T_e217 := (cO (cD (cM (cR (cN 3)) (cA (cA (cN (-3)) (cV 1)) (cM (cN 2) (cW (cV 1) 4)))) (cM (cA (cV 1) (cM (cM (cN 2) (cH 0)) (cV 1))) (cR (cM (cA (cN 1) (cV 1)) (cA (cB (cN 3) (cM (cN 7) (cV 1))) (cM (cN 4) (cW (cV 1) 6)))))))).
Definition SPSU2T_e218 := (cD (cA (cA (cN (-3)) (cV 1)) (cW (cV 1) 4)) (cM (cA (cN 1) (cV 1)) (cA (cV 1) (cM (cM (cN 2) (cH 0)) (cV 1))))).
Definition SPSU2T_e219 := (cM (cM (cR (cN 3)) (cR (cM (cA (cN 1) (cH 0)) (cA (cN 1) (cV 1))))) (cB (cB (cA (cA (cA (cD (cM (cM (cN (-24)) (cH 0)) (cR (cD (cA (cN (-1)) (cM (cN 2) (cV 1))) (cM (cM (cM (cA (cN 1) (cH 0)) (cV 1)) (cA (cN 2) (cV 1))) (cW (cA (cA (cN 3) (cM (cN 5) (cV 1))) (cM (cN 2) (cW (cV 1) 4))) 6))))) (cA (cN 1) (cM (cN 2) (cH 0)))) (cD (cM (cM (cM (cN 2) (cA (cN (-1)) (cV 1))) (cV 1)) (cA (cN (-1)) (cM (cN 2) (cV 1)))) (cM (cR (cM (cM (cA (cN 1) (cH 0)) (cV 1)) (cA (cA (cN (-2)) (cM (cN 3) (cV 1))) (cM (cN 2) (cW (cV 1) 4))))) (cW (cA (cA (cN 3) (cM (cN 5) (cV 1))) (cM (cN 2) (cW (cV 1) 4))) 3)))) (cD (cM (cN 12) (cR (cD (cA (cN (-1)) (cM (cN 2) (cV 1))) (cM (cM (cA (cN 1) (cH 0)) (cV 1)) (cA (cA (cA (cN 6) (cM (cN 13) (cV 1))) (cM (cN 9) (cW (cV 1) 4))) (cM (cN 2) (cW (cV 1) 6))))))) (cA (cA (cN 3) (cM (cN 5) (cV 1))) (cM (cN 2) (cW (cV 1) 4))))) (cD (cM (cM (cN 3) (cA (cN (-2)) (cM (cN 3) (cV 1)))) (cR (cD (cA (cN (-1)) (cM (cN 2) (cV 1))) (cM (cM (cA (cN 1) (cH 0)) (cV 1)) (cA (cA (cA (cN 6) (cM (cN 13) (cV 1))) (cM (cN 9) (cW (cV 1) 4))) (cM (cN 2) (cW (cV 1) 6))))))) (cA (cA (cN 3) (cM (cN 5) (cV 1))) (cM (cN 2) (cW (cV 1) 4))))) (cD (cM (cM (cM (cM (cN 4) (cH 0)) (cA (cN (-1)) (cV 1))) (cV 1)) (cA (cN (-1)) (cM (cN 2) (cV 1)))) (cM (cM (cA (cN 1) (cM (cN 2) (cH 0))) (cA (cA (cN 3) (cM (cN 5) (cV 1))) (cM (cN 2) (cW (cV 1) 4)))) (cR (cM (cM (cA (cN 1) (cH 0)) (cV 1)) (cA (cA (cA (cB (cN (-6)) (cV 1)) (cM (cN 17) (cW (cV 1) 4))) (cM (cN 16) (cW (cV 1) 6))) (cM (cN 4) (cW (cV 1) 8)))))))) (cD (cM (cM (cM (cN 6) (cH 0)) (cA (cN (-1)) (cM (cN 2) (cV 1)))) (cA (cN (-2)) (cM (cN 3) (cV 1)))) (cM (cM (cA (cN 1) (cM (cN 2) (cH 0))) (cA (cA (cN 3) (cM (cN 5) (cV 1))) (cM (cN 2) (cW (cV 1) 4)))) (cR (cM (cM (cA (cN 1) (cH 0)) (cV 1)) (cA (cA (cA (cB (cN (-6)) (cV 1)) (cM (cN 17) (cW (cV 1) 4))) (cM (cN 16) (cW (cV 1) 6))) (cM (cN 4) (cW (cV 1) 8))))))))).
Definition SPSU2T_e220 := (cD (cM (cR (cN 3)) (cA (cA (cN (-3)) (cV 1)) (cM (cN 2) (cW (cV 1) 4)))) (cM (cV 1) (cR (cM (cA (cN 1) (cV 1)) (cA (cB (cN 3) (cM (cN 7) (cV 1))) (cM (cN 4) (cW (cV 1) 6))))))).
Definition SPSU2T_e221 := (cO (cD (cA (cA (cN (-3)) (cV 1)) (cW (cV 1) 4)) (cM (cV 1) (cA (cN 1) (cV 1))))).
Definition SPSU2T_e222 := (cM (cM (cR (cN 3)) (cR (cM (cA (cN 1) (cH 0)) (cA (cN 1) (cV 1))))) (cB (cB (cB (cB (cB (cD (cM (cM (cM (cM (cN (-2)) (cA (cN 1) (cM (cN 2) (cH 0)))) (cA (cN (-1)) (cV 1))) (cV 1)) (cA (cN (-1)) (cM (cN 2) (cV 1)))) (cM (cM (cA (cN 3) (cM (cN 2) (cH 0))) (cR (cM (cM (cA (cN 1) (cH 0)) (cV 1)) (cA (cA (cN (-2)) (cM (cN 3) (cV 1))) (cM (cN 2) (cW (cV 1) 4)))))) (cW (cA (cA (cN 3) (cM (cN 5) (cV 1))) (cM (cN 2) (cW (cV 1) 4))) 3))) (cD (cM (cM (cM (cN 3) (cA (cN 1) (cM (cN 2) (cH 0)))) (cA (cN (-1)) (cM (cN 2) (cV 1)))) (cA (cN (-2)) (cM (cN 3) (cV 1)))) (cM (cM (cA (cN 3) (cM (cN 2) (cH 0))) (cR (cM (cM (cA (cN 1) (cH 0)) (cV 1)) (cA (cA (cN (-2)) (cM (cN 3) (cV 1))) (cM (cN 2) (cW (cV 1) 4)))))) (cW (cA (cA (cN 3) (cM (cN 5) (cV 1))) (cM (cN 2) (cW (cV 1) 4))) 3)))) (cD (cN 24) (cR (cD (cM (cM (cM (cM (cA (cN 1) (cH 0)) (cW (cA (cN 3) (cM (cN 2) (cH 0))) 4)) (cV 1)) (cA (cN 2) (cV 1))) (cW (cA (cA (cN 3) (cM (cN 5) (cV 1))) (cM (cN 2) (cW (cV 1) 4))) 6)) (cA (cN (-1)) (cM (cN 2) (cV 1))))))) (cD (cM (cM (cN 12) (cA (cN 1) (cM (cN 2) (cH 0)))) (cR (cD (cA (cN (-1)) (cM (cN 2) (cV 1))) (cM (cM (cA (cN 1) (cH 0)) (cV 1)) (cA (cA (cA (cN 6) (cM (cN 13) (cV 1))) (cM (cN 9) (cW (cV 1) 4))) (cM (cN 2) (cW (cV 1) 6))))))) (cM (cA (cN 3) (cM (cN 2) (cH 0))) (cA (cA (cN 3) (cM (cN 5) (cV 1))) (cM (cN 2) (cW (cV 1) 4)))))) (cD (cM (cM (cM (cN 4) (cA (cN (-1)) (cV 1))) (cV 1)) (cA (cN (-1)) (cM (cN 2) (cV 1)))) (cM (cM (cA (cN 3) (cM (cN 2) (cH 0))) (cA (cA (cN 3) (cM (cN 5) (cV 1))) (cM (cN 2) (cW (cV 1) 4)))) (cR (cM (cM (cA (cN 1) (cH 0)) (cV 1)) (cA (cA (cA (cB (cN (-6)) (cV 1)) (cM (cN 17) (cW (cV 1) 4))) (cM (cN 16) (cW (cV 1) 6))) (cM (cN 4) (cW (cV 1) 8)))))))) (cD (cM (cM (cN 6) (cA (cN (-1)) (cM (cN 2) (cV 1)))) (cA (cN (-2)) (cM (cN 3) (cV 1)))) (cM (cM (cA (cN 3) (cM (cN 2) (cH 0))) (cA (cA (cN 3) (cM (cN 5) (cV 1))) (cM (cN 2) (cW (cV 1) 4)))) (cR (cM (cM (cA (cN 1) (cH 0)) (cV 1)) (cA (cA (cA (cB (cN (-6)) (cV 1)) (cM (cN 17) (cW (cV 1) 4))) (cM (cN 16) (cW (cV 1) 6))) (cM (cN 4) (cW (cV 1) 8))))))))).
Definition SPSU2T_e223 := (cM (cM (cR (cN 3)) (cR (cM (cA (cN 1) (cH 0)) (cA (cN 1) (cV 1))))) (cB (cB (cA (cA (cA (cA (cB (cM (cM (cV 1) (cA (cB (cN 3) (cM (cN 7) (cV 1))) (cM (cN 2) (cW (cV 1) 4)))) (cR (cD (cA (cN 1) (cM (cN 2) (cV 1))) (cM (cM (cM (cM (cA (cN 1) (cH 0)) (cV 1)) (cW (cA (cN 1) (cV 1)) 6)) (cW (cA (cN 3) (cM (cN 2) (cV 1))) 4)) (cA (cA (cN (-2)) (cM (cN 3) (cV 1))) (cM (cN 2) (cW (cV 1) 4))))))) (cM (cM (cM (cN 2) (cV 1)) (cA (cB (cN 3) (cM (cN 7) (cV 1))) (cM (cN 2) (cW (cV 1) 4)))) (cR (cD (cM (cW (cH 0) 4) (cA (cN 1) (cM (cN 2) (cV 1)))) (cM (cM (cM (cM (cM (cA (cN 1) (cH 0)) (cW (cA (cN 1) (cM (cN 2) (cH 0))) 4)) (cV 1)) (cW (cA (cN 1) (cV 1)) 6)) (cW (cA (cN 3) (cM (cN 2) (cV 1))) 4)) (cA (cA (cN (-2)) (cM (cN 3) (cV 1))) (cM (cN 2) (cW (cV 1) 4)))))))) (cM (cN 6) (cR (cD (cM (cW (cA (cN (-1)) (cV 1)) 4) (cA (cN (-1)) (cM (cN 2) (cV 1)))) (cM (cM (cM (cM (cA (cN 1) (cH 0)) (cV 1)) (cW (cA (cN 1) (cV 1)) 6)) (cW (cA (cN 3) (cM (cN 2) (cV 1))) 4)) (cA (cA (cN 2) (cM (cN 5) (cV 1))) (cM (cN 2) (cW (cV 1) 4)))))))) (cD (cM (cM (cM (cN 2) (cH 0)) (cV 1)) (cA (cN (-1)) (cM (cN 2) (cV 1)))) (cM (cA (cN 1) (cM (cN 2) (cH 0))) (cR (cD (cM (cM (cM (cA (cN 1) (cH 0)) (cV 1)) (cW (cA (cN 3) (cM (cN 2) (cV 1))) 4)) (cA (cA (cA (cN (-2)) (cV 1)) (cM (cN 5) (cW (cV 1) 4))) (cM (cN 2) (cW (cV 1) 6)))) (cA (cN 1) (cM (cN 2) (cV 1)))))))) (cD (cB (cV 1) (cM (cN 2) (cW (cV 1) 4))) (cR (cD (cM (cM (cM (cA (cN 1) (cH 0)) (cV 1)) (cW (cA (cN 3) (cM (cN 2) (cV 1))) 4)) (cA (cA (cA (cN (-2)) (cV 1)) (cM (cN 5) (cW (cV 1) 4))) (cM (cN 2) (cW (cV 1) 6)))) (cA (cN 1) (cM (cN 2) (cV 1))))))) (cD (cM (cM (cN 3) (cA (cN (-3)) (cM (cN 2) (cV 1)))) (cR (cD (cM (cV 1) (cA (cN (-1)) (cM (cN 2) (cV 1)))) (cM (cA (cN 1) (cH 0)) (cA (cA (cA (cN 2) (cM (cN 7) (cV 1))) (cM (cN 7) (cW (cV 1) 4))) (cM (cN 2) (cW (cV 1) 6))))))) (cA (cA (cN 3) (cM (cN 5) (cV 1))) (cM (cN 2) (cW (cV 1) 4))))) (cD (cM (cM (cM (cN 12) (cH 0)) (cA (cN (-1)) (cV 1))) (cR (cD (cA (cN (-1)) (cM (cN 2) (cV 1))) (cM (cM (cM (cA (cN 1) (cH 0)) (cV 1)) (cW (cA (cN 3) (cM (cN 2) (cV 1))) 4)) (cA (cA (cA (cN 2) (cM (cN 7) (cV 1))) (cM (cN 7) (cW (cV 1) 4))) (cM (cN 2) (cW (cV 1) 6))))))) (cM (cA (cN 1) (cM (cN 2) (cH 0))) (cA (cN 1) (cV 1))))) (cD (cM (cM (cM (cM (cN 6) (cH 0)) (cV 1)) (cA (cN (-3)) (cM (cN 2) (cV 1)))) (cR (cD (cA (cN (-1)) (cM (cN 2) (cV 1))) (cM (cM (cM (cA (cN 1) (cH 0)) (cV 1)) (cW (cA (cN 3) (cM (cN 2) (cV 1))) 4)) (cA (cA (cA (cN 2) (cM (cN 7) (cV 1))) (cM (cN 7) (cW (cV 1) 4))) (cM (cN 2) (cW (cV 1) 6))))))) (cM (cA (cN 1) (cM (cN 2) (cH 0))) (cA (cN 1) (cV 1)))))).
Definition SPSU2T_e224 := (cM (cR (cM (cA (cN 1) (cH 0)) (cA (cN 1) (cV 1)))) (cA (cB (cB (cB (cA (cB (cA (cD (cM (cA (cN (-2)) (cV 1)) (cV 1)) (cR (cD (cM (cM (cM (cM (cA (cN 1) (cH 0)) (cV 1)) (cA (cN 1) (cV 1))) (cW (cA (cN 2) (cV 1)) 6)) (cW (cA (cN 3) (cM (cN 2) (cV 1))) 4)) (cW (cA (cN 1) (cM (cN 2) (cV 1))) 4)))) (cD (cM (cN 12) (cA (cN (-1)) (cM (cN 2) (cV 1)))) (cM (cM (cR (cM (cA (cN 1) (cH 0)) (cV 1))) (cA (cN 3) (cM (cN 2) (cV 1)))) (cW (cA (cA (cN 2) (cM (cN 3) (cV 1))) (cW (cV 1) 4)) 3)))) (cD (cM (cM (cN 24) (cH 0)) (cA (cN (-1)) (cM (cN 2) (cV 1)))) (cM (cM (cM (cA (cN 1) (cM (cN 2) (cH 0))) (cR (cM (cA (cN 1) (cH 0)) (cV 1)))) (cA (cN 3) (cM (cN 2) (cV 1)))) (cW (cA (cA (cN 2) (cM (cN 3) (cV 1))) (cW (cV 1) 4)) 3)))) (cD (cM (cM (cM (cN 6) (cA (cN (-1)) (cV 1))) (cV 1)) (cA (cN 1) (cM (cN 2) (cV 1)))) (cM (cM (cR (cM (cA (cN 1) (cH 0)) (cV 1))) (cA (cN 3) (cM (cN 2) (cV 1)))) (cW (cA (cA (cN 2) (cM (cN 3) (cV 1))) (cW (cV 1) 4)) 3)))) (cD (cM (cM (cM (cN 18) (cH 0)) (cV 1)) (cA (cN (-2)) (cM (cN 3) (cV 1)))) (cM (cM (cM (cA (cN 1) (cM (cN 2) (cH 0))) (cR (cM (cA (cN 1) (cH 0)) (cV 1)))) (cA (cN 3) (cM (cN 2) (cV 1)))) (cW (cA (cA (cN 2) (cM (cN 3) (cV 1))) (cW (cV 1) 4)) 3)))) (cD (cM (cM (cM (cN 12) (cA (cN (-1)) (cV 1))) (cV 1)) (cA (cH 0) (cM (cM (cN 2) (cH 0)) (cV 1)))) (cM (cM (cM (cA (cN 1) (cM (cN 2) (cH 0))) (cR (cM (cA (cN 1) (cH 0)) (cV 1)))) (cA (cN 3) (cM (cN 2) (cV 1)))) (cW (cA (cA (cN 2) (cM (cN 3) (cV 1))) (cW (cV 1) 4)) 3)))) (cD (cM (cM (cM (cM (cN 2) (cH 0)) (cA (cN (-2)) (cV 1))) (cV 1)) (cA (cN 1) (cM (cN 2) (cV 1)))) (cM (cM (cM (cA (cN 1) (cM (cN 2) (cH 0))) (cA (cN 2) (cV 1))) (cA (cN 3) (cM (cN 2) (cV 1)))) (cR (cM (cM (cA (cN 1) (cH 0)) (cV 1)) (cA (cA (cN 2) (cM (cN 3) (cV 1))) (cW (cV 1) 4))))))) (cD (cM (cM (cN 9) (cA (cN (-2)) (cM (cN 3) (cV 1)))) (cR (cD (cV 1) (cM (cA (cN 1) (cH 0)) (cA (cA (cN 2) (cM (cN 3) (cV 1))) (cW (cV 1) 4)))))) (cA (cA (cA (cN 6) (cM (cN 13) (cV 1))) (cM (cN 9) (cW (cV 1) 4))) (cM (cN 2) (cW (cV 1) 6)))))).
Definition SPSU2T_e225 := (cD (cR (cN 2)) (cM (cA (cN 1) (cM (cN 2) (cH 0))) (cR (cM (cA (cN 1) (cV 1)) (cA (cN 2) (cV 1)))))).
Definition SPSU2T_e226 := (cM (cM (cR (cN 3)) (cR (cM (cA (cN 1) (cH 0)) (cA (cN 1) (cV 1))))) (cB (cB (cA (cA (cB (cB (cB (cO (cM (cM (cV 1) (cA (cB (cN 3) (cM (cN 7) (cV 1))) (cM (cN 2) (cW (cV 1) 4)))) (cR (cD (cM (cW (cA (cN 1) (cM (cN 2) (cH 0))) 4) (cA (cN 1) (cM (cN 2) (cV 1)))) (cM (cM (cM (cM (cM (cA (cN 1) (cH 0)) (cW (cA (cN 3) (cM (cN 2) (cH 0))) 4)) (cV 1)) (cW (cA (cN 1) (cV 1)) 6)) (cW (cA (cN 3) (cM (cN 2) (cV 1))) 4)) (cA (cA (cN (-2)) (cM (cN 3) (cV 1))) (cM (cN 2) (cW (cV 1) 4)))))))) (cD (cM (cM (cN 2) (cV 1)) (cA (cB (cN 3) (cM (cN 7) (cV 1))) (cM (cN 2) (cW (cV 1) 4)))) (cR (cD (cM (cM (cM (cM (cM (cA (cN 1) (cH 0)) (cW (cA (cN 3) (cM (cN 2) (cH 0))) 4)) (cV 1)) (cW (cA (cN 1) (cV 1)) 6)) (cW (cA (cN 3) (cM (cN 2) (cV 1))) 4)) (cA (cA (cN (-2)) (cM (cN 3) (cV 1))) (cM (cN 2) (cW (cV 1) 4)))) (cA (cN 1) (cM (cN 2) (cV 1))))))) (cM (cM (cM (cN 3) (cV 1)) (cA (cN (-3)) (cM (cN 2) (cV 1)))) (cR (cD (cM (cW (cA (cN 1) (cM (cN 2) (cH 0))) 4) (cA (cN (-1)) (cM (cN 2) (cV 1)))) (cM (cM (cM (cM (cM (cA (cN 1) (cH 0)) (cW (cA (cN 3) (cM (cN 2) (cH 0))) 4)) (cV 1)) (cW (cA (cN 1) (cV 1)) 6)) (cW (cA (cN 3) (cM (cN 2) (cV 1))) 4)) (cA (cA (cN 2) (cM (cN 5) (cV 1))) (cM (cN 2) (cW (cV 1) 4)))))))) (cD (cM (cM (cN 6) (cA (cN 1) (cM (cN 2) (cH 0)))) (cA (cN (-1)) (cV 1))) (cM (cM (cW (cA (cN 1) (cV 1)) 3) (cA (cN 3) (cM (cN 2) (cV 1)))) (cR (cD (cM (cM (cM (cA (cN 1) (cH 0)) (cW (cA (cN 3) (cM (cN 2) (cH 0))) 4)) (cV 1)) (cA (cA (cN 2) (cM (cN 5) (cV 1))) (cM (cN 2) (cW (cV 1) 4)))) (cA (cN (-1)) (cM (cN 2) (cV 1)))))))) (cD (cM (cM (cM (cN 2) (cV 1)) (cA (cN (-1)) (cM (cN 2) (cV 1)))) (cR (cD (cA (cN 1) (cM (cN 2) (cV 1))) (cM (cM (cA (cN 1) (cH 0)) (cV 1)) (cA (cA (cA (cN (-2)) (cV 1)) (cM (cN 5) (cW (cV 1) 4))) (cM (cN 2) (cW (cV 1) 6))))))) (cM (cA (cN 3) (cM (cN 2) (cH 0))) (cA (cN 3) (cM (cN 2) (cV 1)))))) (cD (cM (cM (cA (cN 1) (cM (cN 2) (cH 0))) (cV 1)) (cA (cN (-1)) (cM (cN 2) (cV 1)))) (cM (cM (cA (cN 3) (cM (cN 2) (cH 0))) (cA (cN 3) (cM (cN 2) (cV 1)))) (cR (cD (cM (cM (cA (cN 1) (cH 0)) (cV 1)) (cA (cA (cA (cN (-2)) (cV 1)) (cM (cN 5) (cW (cV 1) 4))) (cM (cN 2) (cW (cV 1) 6)))) (cA (cN 1) (cM (cN 2) (cV 1)))))))) (cD (cM (cM (cN 6) (cA (cN (-3)) (cM (cN 2) (cV 1)))) (cR (cD (cM (cV 1) (cA (cN (-1)) (cM (cN 2) (cV 1)))) (cM (cM (cA (cN 1) (cH 0)) (cW (cA (cN 3) (cM (cN 2) (cH 0))) 4)) (cA (cA (cA (cN 2) (cM (cN 7) (cV 1))) (cM (cN 7) (cW (cV 1) 4))) (cM (cN 2) (cW (cV 1) 6))))))) (cA (cA (cN 3) (cM (cN 5) (cV 1))) (cM (cN 2) (cW (cV 1) 4))))) (cD (cM (cM (cN 12) (cA (cN (-1)) (cV 1))) (cR (cD (cA (cN (-1)) (cM (cN 2) (cV 1))) (cM (cM (cM (cA (cN 1) (cH 0)) (cV 1)) (cW (cA (cN 3) (cM (cN 2) (cV 1))) 4)) (cA (cA (cA (cN 2) (cM (cN 7) (cV 1))) (cM (cN 7) (cW (cV 1) 4))) (cM (cN 2) (cW (cV 1) 6))))))) (cM (cA (cN 3) (cM (cN 2) (cH 0))) (cA (cN 1) (cV 1)))))).
Definition SPSU2T_e227 := (cO (cD (cM (cA (cN 1) (cH 0)) (cA (cA (cB (cA (cA (cB (cA (cM (cN (-36)) (cR (cM (cM (cA (cN 1) (cH 0)) (cV 1)) (cA (cA (cN 2) (cM (cN 3) (cV 1))) (cW (cV 1) 4))))) (cM (cM (cN 30) (cV 1)) (cR (cM (cM (cA (cN 1) (cH 0)) (cV 1)) (cA (cA (cN 2) (cM (cN 3) (cV 1))) (cW (cV 1) 4)))))) (cM (cM (cN 6) (cW (cV 1) 4)) (cR (cM (cM (cA (cN 1) (cH 0)) (cV 1)) (cA (cA (cN 2) (cM (cN 3) (cV 1))) (cW (cV 1) 4)))))) (cM (cM (cN 33) (cW (cV 1) 6)) (cR (cM (cM (cA (cN 1) (cH 0)) (cV 1)) (cA (cA (cN 2) (cM (cN 3) (cV 1))) (cW (cV 1) 4)))))) (cM (cM (cN 6) (cW (cV 1) 8)) (cR (cM (cM (cA (cN 1) (cH 0)) (cV 1)) (cA (cA (cN 2) (cM (cN 3) (cV 1))) (cW (cV 1) 4)))))) (cM (cN 36) (cR (cM (cM (cA (cN 1) (cH 0)) (cW (cV 1) 6)) (cA (cA (cN 2) (cM (cN 3) (cV 1))) (cW (cV 1) 4)))))) (cM (cN 54) (cR (cM (cM (cA (cN 1) (cH 0)) (cW (cV 1) 10)) (cA (cA (cN 2) (cM (cN 3) (cV 1))) (cW (cV 1) 4)))))) (cM (cM (cM (cN 2) (cH 0)) (cR (cM (cM (cA (cN 1) (cH 0)) (cV 1)) (cA (cA (cN 2) (cM (cN 3) (cV 1))) (cW (cV 1) 4))))) (cA (cA (cA (cB (cN (-12)) (cM (cN 2) (cV 1))) (cM (cN 16) (cW (cV 1) 4))) (cM (cN 11) (cW (cV 1) 6))) (cM (cN 2) (cW (cV 1) 8)))))) (cM (cM (cM (cM (cA (cN 3) (cM (cN 2) (cH 0))) (cV 1)) (cW (cM (cA (cN 1) (cH 0)) (cA (cN 1) (cV 1))) 3)) (cW (cA (cN 2) (cV 1)) 4)) (cA (cN 3) (cM (cN 2) (cV 1)))))).
Definition SPSU2T_e228 := (cO (cD (cR (cN 2)) (cR (cA (cA (cN 2) (cM (cN 3) (cV 1))) (cW (cV 1) 4))))).
Definition SPSU2T_e229 := (cM (cM (cR (cN 2)) (cR (cM (cA (cN 1) (cH 0)) (cA (cN 1) (cV 1))))) (cA (cA (cA (cB (cA (cB (cB (cA (cA (cD (cM (cM (cN (-12)) (cH 0)) (cA (cN (-1)) (cM (cN 2) (cV 1)))) (cM (cM (cM (cA (cN 1) (cM (cN 2) (cH 0))) (cA (cN 1) (cV 1))) (cR (cM (cA (cN 1) (cH 0)) (cA (cN 5) (cM (cN 2) (cV 1)))))) (cW (cA (cA (cN 6) (cM (cN 7) (cV 1))) (cM (cN 2) (cW (cV 1) 4))) 3))) (cD (cM (cM (cN 6) (cA (cN (-1)) (cV 1))) (cA (cN 1) (cM (cN 2) (cV 1)))) (cM (cR (cM (cA (cN 1) (cH 0)) (cA (cN 5) (cM (cN 2) (cV 1))))) (cW (cA (cA (cN 6) (cM (cN 7) (cV 1))) (cM (cN 2) (cW (cV 1) 4))) 3)))) (cD (cM (cM (cN 3) (cA (cN 1) (cM (cN 2) (cV 1)))) (cA (cN (-2)) (cM (cN 3) (cV 1)))) (cM (cM (cA (cN 1) (cV 1)) (cR (cM (cA (cN 1) (cH 0)) (cA (cN 5) (cM (cN 2) (cV 1)))))) (cW (cA (cA (cN 6) (cM (cN 7) (cV 1))) (cM (cN 2) (cW (cV 1) 4))) 3)))) (cD (cM (cM (cN 12) (cA (cN (-1)) (cV 1))) (cA (cH 0) (cM (cM (cN 2) (cH 0)) (cV 1)))) (cM (cM (cA (cN 1) (cM (cN 2) (cH 0))) (cR (cM (cA (cN 1) (cH 0)) (cA (cN 5) (cM (cN 2) (cV 1)))))) (cW (cA (cA (cN 6) (cM (cN 7) (cV 1))) (cM (cN 2) (cW (cV 1) 4))) 3)))) (cD (cM (cM (cN 6) (cA (cN (-2)) (cM (cN 3) (cV 1)))) (cA (cH 0) (cM (cM (cN 2) (cH 0)) (cV 1)))) (cM (cM (cM (cA (cN 1) (cM (cN 2) (cH 0))) (cA (cN 1) (cV 1))) (cR (cM (cA (cN 1) (cH 0)) (cA (cN 5) (cM (cN 2) (cV 1)))))) (cW (cA (cA (cN 6) (cM (cN 7) (cV 1))) (cM (cN 2) (cW (cV 1) 4))) 3)))) (cD (cM (cM (cN 2) (cH 0)) (cA (cN 1) (cM (cN 2) (cV 1)))) (cM (cA (cN 1) (cM (cN 2) (cH 0))) (cR (cM (cM (cA (cN 1) (cH 0)) (cA (cN 5) (cM (cN 2) (cV 1)))) (cA (cA (cN 6) (cM (cN 7) (cV 1))) (cM (cN 2) (cW (cV 1) 4)))))))) (cD (cM (cM (cN 2) (cA (cN (-2)) (cV 1))) (cA (cH 0) (cM (cM (cN 2) (cH 0)) (cV 1)))) (cM (cM (cA (cN 1) (cM (cN 2) (cH 0))) (cW (cA (cN 2) (cV 1)) 3)) (cR (cM (cA (cN 1) (cH 0)) (cA (cA (cN 15) (cM (cN 16) (cV 1))) (cM (cN 4) (cW (cV 1) 4)))))))) (cD (cB (cN (-1)) (cM (cN 2) (cV 1))) (cR (cM (cA (cN 1) (cH 0)) (cA (cA (cA (cN 30) (cM (cN 47) (cV 1))) (cM (cN 24) (cW (cV 1) 4))) (cM (cN 4) (cW (cV 1) 6))))))) (cD (cM (cA (cN (-2)) (cV 1)) (cA (cN 1) (cM (cN 2) (cV 1)))) (cM (cA (cN 2) (cV 1)) (cR (cM (cA (cN 1) (cH 0)) (cA (cA (cA (cN 30) (cM (cN 47) (cV 1))) (cM (cN 24) (cW (cV 1) 4))) (cM (cN 4) (cW (cV 1) 6)))))))) (cD (cM (cN 6) (cA (cN (-1)) (cM (cN 2) (cV 1)))) (cM (cM (cA (cN 1) (cV 1)) (cA (cA (cN 6) (cM (cN 7) (cV 1))) (cM (cN 2) (cW (cV 1) 4)))) (cR (cM (cA (cN 1) (cH 0)) (cA (cA (cA (cN 30) (cM (cN 47) (cV 1))) (cM (cN 24) (cW (cV 1) 4))) (cM (cN 4) (cW (cV 1) 6))))))))).
Definition SPSU2T_e230 := (cD (cM (cR (cD (cA (cA (cN 1) (cM (cN 3) (cV 1))) (cM (cN 2) (cW (cV 1) 4))) (cA (cA (cN 2) (cM (cN 6) (cH 0))) (cM (cN 4) (cW (cH 0) 4))))) (cB (cB (cA (cA (cB (cA (cA (cB (cB (cM (cM (cN 30) (cR (cN 2))) (cR (cD (cM (cM (cM (cA (cN 1) (cH 0)) (cA (cN 1) (cM (cN 2) (cH 0)))) (cV 1)) (cA (cN 5) (cM (cN 2) (cV 1)))) (cM (cA (cN 1) (cM (cN 2) (cV 1))) (cA (cA (cN 6) (cM (cN 5) (cV 1))) (cW (cV 1) 4)))))) (cM (cM (cM (cM (cN 36) (cR (cN 2))) (cH 0)) (cA (cN 1) (cV 1))) (cR (cD (cM (cM (cM (cA (cN 1) (cH 0)) (cV 1)) (cA (cN 1) (cM (cN 2) (cV 1)))) (cA (cN 5) (cM (cN 2) (cV 1)))) (cM (cA (cN 1) (cM (cN 2) (cH 0))) (cA (cA (cN 6) (cM (cN 5) (cV 1))) (cW (cV 1) 4))))))) (cM (cM (cM (cM (cM (cN 8) (cR (cN 2))) (cH 0)) (cA (cN 1) (cV 1))) (cA (cN 3) (cM (cN 2) (cV 1)))) (cR (cD (cM (cM (cM (cA (cN 1) (cH 0)) (cV 1)) (cA (cN 1) (cM (cN 2) (cV 1)))) (cA (cN 5) (cM (cN 2) (cV 1)))) (cM (cA (cN 1) (cM (cN 2) (cH 0))) (cA (cA (cN 6) (cM (cN 5) (cV 1))) (cW (cV 1) 4))))))) (cM (cM (cM (cN 18) (cR (cN 2))) (cA (cN 1) (cV 1))) (cR (cD (cM (cM (cM (cM (cA (cN 1) (cH 0)) (cA (cN 1) (cM (cN 2) (cH 0)))) (cV 1)) (cA (cN 1) (cM (cN 2) (cV 1)))) (cA (cN 5) (cM (cN 2) (cV 1)))) (cA (cA (cN 6) (cM (cN 5) (cV 1))) (cW (cV 1) 4)))))) (cM (cM (cM (cM (cN 4) (cR (cN 2))) (cA (cN 1) (cV 1))) (cA (cN 3) (cM (cN 2) (cV 1)))) (cR (cD (cM (cM (cM (cM (cA (cN 1) (cH 0)) (cA (cN 1) (cM (cN 2) (cH 0)))) (cV 1)) (cA (cN 1) (cM (cN 2) (cV 1)))) (cA (cN 5) (cM (cN 2) (cV 1)))) (cA (cA (cN 6) (cM (cN 5) (cV 1))) (cW (cV 1) 4)))))) (cM (cM (cN 48) (cH 0)) (cR (cD (cM (cM (cM (cA (cN 1) (cH 0)) (cV 1)) (cA (cN 5) (cM (cN 2) (cV 1)))) (cA (cN 2) (cM (cN 4) (cV 1)))) (cM (cA (cN 1) (cM (cN 2) (cH 0))) (cA (cA (cN 6) (cM (cN 5) (cV 1))) (cW (cV 1) 4))))))) (cM (cN 24) (cR (cD (cM (cM (cM (cM (cA (cN 1) (cH 0)) (cA (cN 1) (cM (cN 2) (cH 0)))) (cV 1)) (cA (cN 5) (cM (cN 2) (cV 1)))) (cA (cN 2) (cM (cN 4) (cV 1)))) (cA (cA (cN 6) (cM (cN 5) (cV 1))) (cW (cV 1) 4)))))) (cM (cM (cR (cN 2)) (cA (cA (cN 3) (cM (cN 5) (cV 1))) (cM (cN 2) (cW (cV 1) 4)))) (cR (cD (cM (cM (cM (cM (cA (cN 1) (cH 0)) (cA (cN 1) (cM (cN 2) (cH 0)))) (cV 1)) (cA (cN 1) (cM (cN 2) (cV 1)))) (cA (cA (cN 10) (cM (cN 9) (cV 1))) (cM (cN 2) (cW (cV 1) 4)))) (cA (cN 3) (cV 1)))))) (cM (cM (cM (cN 60) (cR (cN 2))) (cH 0)) (cR (cD (cM (cM (cA (cN 1) (cH 0)) (cV 1)) (cA (cN 5) (cM (cN 2) (cV 1)))) (cM (cA (cN 1) (cM (cN 2) (cH 0))) (cA (cA (cA (cN 6) (cM (cN 17) (cV 1))) (cM (cN 11) (cW (cV 1) 4))) (cM (cN 2) (cW (cV 1) 6)))))))) (cM (cM (cM (cM (cN 2) (cR (cN 2))) (cH 0)) (cA (cA (cN 3) (cM (cN 5) (cV 1))) (cM (cN 2) (cW (cV 1) 4)))) (cR (cD (cM (cM (cA (cN 1) (cH 0)) (cV 1)) (cA (cA (cA (cN 10) (cM (cN 29) (cV 1))) (cM (cN 20) (cW (cV 1) 4))) (cM (cN 4) (cW (cV 1) 6)))) (cM (cA (cN 1) (cM (cN 2) (cH 0))) (cA (cN 3) (cV 1)))))))) (cM (cW (cA (cN 5) (cM (cN 2) (cV 1))) 3) (cA (cA (cA (cN 6) (cM (cN 13) (cV 1))) (cM (cN 9) (cW (cV 1) 4))) (cM (cN 2) (cW (cV 1) 6))))).
Definition SPSU2T_e231 := (cD (cM (cR (cN 2)) (cR (cM (cA (cN 1) (cV 1)) (cA (cA (cA (cN 30) (cM (cN 47) (cV 1))) (cM (cN 24) (cW (cV 1) 4))) (cM (cN 4) (cW (cV 1) 6)))))) (cA (cA (cA (cN 6) (cM (cN 13) (cV 1))) (cM (cN 9) (cW (cV 1) 4))) (cM (cN 2) (cW (cV 1) 6)))).
Definition SPSU2T_e232 := (cO (cD (cM (cM (cA (cN 3) (cM (cN 2) (cH 0))) (cR (cD (cA (cA (cN 1) (cM (cN 3) (cV 1))) (cM (cN 2) (cW (cV 1) 4))) (cA (cA (cN 3) (cM (cN 5) (cH 0))) (cM (cN 2) (cW (cH 0) 4)))))) (cA (cA (cM (cM (cN 2) (cW (cV 1) 4)) (cA (cM (cN 4) (cR (cD (cM (cM (cA (cN 1) (cH 0)) (cV 1)) (cA (cA (cN 5) (cM (cN 12) (cV 1))) (cM (cN 4) (cW (cV 1) 4)))) (cM (cA (cN 3) (cM (cN 2) (cH 0))) (cA (cA (cN 6) (cM (cN 5) (cV 1))) (cW (cV 1) 4)))))) (cR (cD (cM (cM (cA (cN 1) (cH 0)) (cV 1)) (cA (cA (cA (cN 10) (cM (cN 29) (cV 1))) (cM (cN 20) (cW (cV 1) 4))) (cM (cN 4) (cW (cV 1) 6)))) (cM (cA (cN 3) (cM (cN 2) (cH 0))) (cA (cN 3) (cV 1))))))) (cM (cN 3) (cA (cA (cM (cN 18) (cR (cD (cM (cM (cA (cN 1) (cH 0)) (cV 1)) (cA (cA (cN 5) (cM (cN 12) (cV 1))) (cM (cN 4) (cW (cV 1) 4)))) (cM (cA (cN 3) (cM (cN 2) (cH 0))) (cA (cA (cN 6) (cM (cN 5) (cV 1))) (cW (cV 1) 4)))))) (cM (cN 10) (cR (cD (cM (cM (cA (cN 1) (cH 0)) (cV 1)) (cA (cN 5) (cM (cN 2) (cV 1)))) (cM (cA (cN 3) (cM (cN 2) (cH 0))) (cA (cA (cA (cN 6) (cM (cN 17) (cV 1))) (cM (cN 11) (cW (cV 1) 4))) (cM (cN 2) (cW (cV 1) 6)))))))) (cR (cD (cM (cM (cA (cN 1) (cH 0)) (cV 1)) (cA (cA (cA (cN 10) (cM (cN 29) (cV 1))) (cM (cN 20) (cW (cV 1) 4))) (cM (cN 4) (cW (cV 1) 6)))) (cM (cA (cN 3) (cM (cN 2) (cH 0))) (cA (cN 3) (cV 1)))))))) (cM (cV 1) (cA (cM (cN 38) (cR (cD (cM (cM (cA (cN 1) (cH 0)) (cV 1)) (cA (cA (cN 5) (cM (cN 12) (cV 1))) (cM (cN 4) (cW (cV 1) 4)))) (cM (cA (cN 3) (cM (cN 2) (cH 0))) (cA (cA (cN 6) (cM (cN 5) (cV 1))) (cW (cV 1) 4)))))) (cM (cN 5) (cR (cD (cM (cM (cA (cN 1) (cH 0)) (cV 1)) (cA (cA (cA (cN 10) (cM (cN 29) (cV 1))) (cM (cN 20) (cW (cV 1) 4))) (cM (cN 4) (cW (cV 1) 6)))) (cM (cA (cN 3) (cM (cN 2) (cH 0))) (cA (cN 3) (cV 1)))))))))) (cM (cW (cA (cN 5) (cM (cN 2) (cV 1))) 3) (cA (cA (cA (cN 6) (cM (cN 13) (cV 1))) (cM (cN 9) (cW (cV 1) 4))) (cM (cN 2) (cW (cV 1) 6)))))).
Definition SPSU2T_e233 := (cR (cD (cM (cA (cA (cN (-1)) (cH 0)) (cM (cN 2) (cW (cH 0) 4))) (cA (cN (-1)) (cW (cV 1) 4))) (cM (cA (cH 0) (cM (cN 2) (cW (cH 0) 4))) (cW (cV 1) 4)))).
Definition SPSU2T_e234 := (cD (cR (cD (cM (cA (cA (cN (-1)) (cH 0)) (cM (cN 2) (cW (cH 0) 4))) (cA (cN (-1)) (cM (cN 2) (cV 1)))) (cM (cA (cH 0) (cM (cN 2) (cW (cH 0) 4))) (cA (cN 1) (cM (cN 2) (cV 1)))))) (cV 1)).
Definition SPSU2T_e235 := (cO (cD (cR (cD (cA (cA (cN (-1)) (cH 0)) (cM (cN 2) (cW (cH 0) 4))) (cM (cH 0) (cA (cN 1) (cM (cN 2) (cH 0)))))) (cV 1))).
Definition SPSU2T_e236 := (cD (cM (cR (cD (cA (cA (cN (-1)) (cH 0)) (cM (cN 2) (cW (cH 0) 4))) (cM (cH 0) (cA (cN 1) (cM (cN 2) (cH 0)))))) (cA (cA (cN (-1)) (cV 1)) (cW (cV 1) 4))) (cM (cV 1) (cA (cN 1) (cV 1)))).
Definition SPSU2T_e237 := (cD (cR (cD (cA (cA (cN (-1)) (cH 0)) (cM (cN 2) (cW (cH 0) 4))) (cM (cH 0) (cA (cN 1) (cM (cN 2) (cH 0)))))) (cA (cN 1) (cV 1))).
Definition SPSU2T_e238 := (cO (cD (cA (cM (cN 3) (cR (cD (cA (cN (-1)) (cM (cN 2) (cH 0))) (cM (cA (cN 1) (cM (cN 2) (cH 0))) (cA (cN 1) (cM (cN 2) (cV 1))))))) (cM (cV 1) (cA (cM (cN 4) (cR (cD (cA (cN (-1)) (cM (cN 2) (cH 0))) (cM (cA (cN 1) (cM (cN 2) (cH 0))) (cA (cN 1) (cM (cN 2) (cV 1))))))) (cR (cD (cM (cA (cN (-1)) (cM (cN 2) (cH 0))) (cA (cN 1) (cM (cN 2) (cV 1)))) (cA (cN 1) (cM (cN 2) (cH 0)))))))) (cM (cW (cA (cN 1) (cV 1)) 4) (cR (cD (cM (cH 0) (cA (cN 3) (cM (cN 2) (cV 1)))) (cA (cN 1) (cH 0))))))).
Definition SPSU2T_e239 := (cD (cR (cD (cM (cM (cA (cA (cN (-1)) (cH 0)) (cM (cN 2) (cW (cH 0) 4))) (cV 1)) (cA (cN 2) (cV 1))) (cM (cH 0) (cA (cN 1) (cM (cN 2) (cH 0)))))) (cA (cN 1) (cV 1))).
Definition SPSU2T_e240 := (cO (cD (cN 1) (cR (cD (cM (cM (cH 0) (cA (cN 1) (cM (cN 2) (cH 0)))) (cW (cV 1) 4)) (cA (cN (-1)) (cW (cV 1) 4)))))).
Definition SPSU2T_e241 := (cO (cD (cR (cD (cA (cN (-1)) (cM (cN 2) (cV 1))) (cM (cA (cH 0) (cM (cN 2) (cW (cH 0) 4))) (cA (cN 1) (cM (cN 2) (cV 1)))))) (cV 1))).
Definition SPSU2T_e242 := (cD (cM (cA (cN 3) (cM (cN 2) (cH 0))) (cR (cD (cM (cH 0) (cA (cN (-1)) (cW (cV 1) 4))) (cA (cA (cA (cN 3) (cM (cN 11) (cH 0))) (cM (cN 12) (cW (cH 0) 4))) (cM (cN 4) (cW (cH 0) 6)))))) (cV 1)).
Definition SPSU2T_e243 := (cM (cA (cN 3) (cM (cN 2) (cH 0))) (cR (cD (cM (cH 0) (cA (cN (-1)) (cM (cN 2) (cV 1)))) (cM (cM (cA (cA (cA (cN 3) (cM (cN 11) (cH 0))) (cM (cN 12) (cW (cH 0) 4))) (cM (cN 4) (cW (cH 0) 6))) (cW (cV 1) 4)) (cA (cN 1) (cM (cN 2) (cV 1))))))).
Definition SPSU2T_e244 := (cD (cB (cB (cR (cM (cA (cN 1) (cH 0)) (cV 1))) (cR (cM (cA (cN 1) (cH 0)) (cW (cV 1) 6)))) (cR (cM (cA (cN 1) (cH 0)) (cW (cV 1) 10)))) (cM (cM (cV 1) (cR (cM (cM (cM (cH 0) (cA (cN 1) (cH 0))) (cA (cN 1) (cM (cN 2) (cH 0)))) (cV 1)))) (cA (cN 1) (cV 1)))).
Definition SPSU2T_e245 := (cO (cD (cB (cB (cA (cM (cN 4) (cR (cD (cM (cM (cH 0) (cW (cA (cN 1) (cH 0)) 6)) (cW (cA (cV 1) (cW (cV 1) 4)) 4)) (cA (cN 3) (cM (cN 2) (cV 1)))))) (cM (cM (cN 6) (cW (cM (cA (cN 1) (cH 0)) (cA (cN 1) (cV 1))) 3)) (cR (cD (cH 0) (cA (cA (cN 3) (cM (cN 5) (cV 1))) (cM (cN 2) (cW (cV 1) 4))))))) (cD (cM (cM (cN 3) (cA (cN (-1)) (cM (cN 2) (cH 0)))) (cW (cM (cA (cN 1) (cH 0)) (cA (cN 1) (cV 1))) 3)) (cR (cM (cH 0) (cA (cA (cN 3) (cM (cN 5) (cV 1))) (cM (cN 2) (cW (cV 1) 4))))))) (cD (cM (cM (cM (cN 2) (cA (cN (-1)) (cM (cN 2) (cH 0)))) (cV 1)) (cW (cM (cA (cN 1) (cH 0)) (cA (cN 1) (cV 1))) 3)) (cR (cM (cH 0) (cA (cA (cN 3) (cM (cN 5) (cV 1))) (cM (cN 2) (cW (cV 1) 4))))))) (cM (cM (cW (cA (cN 1) (cH 0)) 3) (cW (cA (cN 1) (cV 1)) 4)) (cR (cM (cA (cN 1) (cM (cN 2) (cH 0))) (cA (cN 3) (cM (cN 2) (cV 1)))))))).
Definition SPSU2T_e246 := (cO (cD (cB (cA (cM (cN 3) (cR (cM (cM (cH 0) (cV 1)) (cA (cN 1) (cV 1))))) (cM (cM (cM (cN 2) (cH 0)) (cA (cN 1) (cV 1))) (cR (cM (cM (cH 0) (cV 1)) (cA (cN 1) (cV 1)))))) (cM (cN 2) (cR (cM (cM (cW (cH 0) 6) (cW (cV 1) 6)) (cA (cN 1) (cV 1)))))) (cM (cV 1) (cR (cM (cM (cM (cA (cN 1) (cH 0)) (cA (cA (cN 3) (cM (cN 8) (cH 0))) (cM (cN 4) (cW (cH 0) 4)))) (cV 1)) (cA (cN 1) (cV 1))))))).
Definition SPSU2T_e247 := (cA (cA (cA (cD (cM (cM (cN 4) (cR (cD (cH 0) (cA (cA (cA (cN 3) (cM (cN 11) (cH 0))) (cM (cN 12) (cW (cH 0) 4))) (cM (cN 4) (cW (cH 0) 6)))))) (cA (cN (-1)) (cV 1))) (cA (cN 1) (cV 1))) (cD (cM (cA (cN (-1)) (cM (cN 2) (cH 0))) (cA (cN (-1)) (cV 1))) (cR (cD (cM (cM (cA (cN 1) (cH 0)) (cA (cA (cN 3) (cM (cN 8) (cH 0))) (cM (cN 4) (cW (cH 0) 4)))) (cW (cA (cN 1) (cV 1)) 4)) (cH 0))))) (cD (cM (cM (cH 0) (cA (cN (-1)) (cM (cN 2) (cH 0)))) (cA (cN (-1)) (cM (cN 2) (cV 1)))) (cM (cM (cR (cM (cM (cH 0) (cA (cN 1) (cH 0))) (cA (cA (cN 3) (cM (cN 8) (cH 0))) (cM (cN 4) (cW (cH 0) 4))))) (cV 1)) (cA (cN 1) (cV 1))))) (cD (cM (cM (cN 4) (cR (cH 0))) (cA (cN (-1)) (cM (cN 2) (cV 1)))) (cM (cR (cA (cA (cA (cN 3) (cM (cN 11) (cH 0))) (cM (cN 12) (cW (cH 0) 4))) (cM (cN 4) (cW (cH 0) 6)))) (cA (cV 1) (cW (cV 1) 4))))).
Definition SPSU2T_e248 := (cD (cM (cA (cN 3) (cM (cN 2) (cH 0))) (cR (cD (cH 0) (cM (cA (cN 1) (cH 0)) (cA (cA (cN 3) (cM (cN 8) (cH 0))) (cM (cN 4) (cW (cH 0) 4))))))) (cA (cN 1) (cV 1))).
Definition SPSU2T_e249 := (cD (cA (cN 3) (cM (cN 2) (cV 1))) (cM (cA (cN 1) (cV 1)) (cR (cM (cM (cH 0) (cA (cN 1) (cM (cN 2) (cH 0)))) (cA (cA (cN 3) (cM (cN 8) (cV 1))) (cM (cN 4) (cW (cV 1) 4))))))).
Definition SPSU2T_e250 := (cO (cD (cR (cD (cM (cV 1) (cA (cN 2) (cV 1))) (cM (cH 0) (cA (cN 1) (cM (cN 2) (cH 0)))))) (cA (cN 1) (cV 1)))).
Definition SPSU2T_e251 := (cM (cR (cM (cA (cN 1) (cH 0)) (cA (cN 1) (cV 1)))) (cA (cA (cA (cB (cA (cM (cM (cN 4) (cA (cN (-1)) (cV 1))) (cR (cD (cM (cH 0) (cA (cN 1) (cM (cN 2) (cV 1)))) (cM (cM (cM (cW (cA (cN 1) (cH 0)) 4) (cA (cA (cN 3) (cM (cN 8) (cH 0))) (cM (cN 4) (cW (cH 0) 4)))) (cW (cA (cN 1) (cV 1)) 6)) (cA (cN 3) (cM (cN 2) (cV 1))))))) (cD (cM (cA (cN (-1)) (cM (cN 2) (cH 0))) (cA (cN (-1)) (cV 1))) (cR (cD (cM (cM (cM (cW (cA (cN 1) (cH 0)) 4) (cA (cA (cN 3) (cM (cN 8) (cH 0))) (cM (cN 4) (cW (cH 0) 4)))) (cW (cA (cN 1) (cV 1)) 6)) (cA (cN 3) (cM (cN 2) (cV 1)))) (cA (cH 0) (cM (cM (cN 2) (cH 0)) (cV 1))))))) (cD (cM (cN 4) (cR (cD (cM (cH 0) (cA (cN 1) (cM (cN 2) (cV 1)))) (cM (cA (cA (cN 3) (cM (cN 8) (cH 0))) (cM (cN 4) (cW (cH 0) 4))) (cA (cA (cN 3) (cM (cN 5) (cV 1))) (cM (cN 2) (cW (cV 1) 4))))))) (cA (cN 1) (cH 0)))) (cD (cB (cH 0) (cM (cN 2) (cW (cH 0) 4))) (cR (cD (cM (cM (cM (cH 0) (cW (cA (cN 1) (cH 0)) 4)) (cA (cA (cN 3) (cM (cN 8) (cH 0))) (cM (cN 4) (cW (cH 0) 4)))) (cA (cA (cN 3) (cM (cN 5) (cV 1))) (cM (cN 2) (cW (cV 1) 4)))) (cA (cN 1) (cM (cN 2) (cV 1))))))) (cM (cN 4) (cR (cD (cM (cH 0) (cW (cB (cN 1) (cM (cN 2) (cV 1))) 4)) (cM (cM (cM (cW (cA (cN 1) (cH 0)) 4) (cA (cA (cN 3) (cM (cN 8) (cH 0))) (cM (cN 4) (cW (cH 0) 4)))) (cW (cA (cN 1) (cV 1)) 6)) (cA (cA (cN 3) (cM (cN 8) (cV 1))) (cM (cN 4) (cW (cV 1) 4)))))))) (cD (cA (cN (-1)) (cM (cN 2) (cH 0))) (cR (cD (cM (cM (cM (cW (cA (cN 1) (cH 0)) 4) (cA (cA (cN 3) (cM (cN 8) (cH 0))) (cM (cN 4) (cW (cH 0) 4)))) (cW (cA (cN 1) (cV 1)) 6)) (cA (cA (cN 3) (cM (cN 8) (cV 1))) (cM (cN 4) (cW (cV 1) 4)))) (cM (cH 0) (cW (cB (cN 1) (cM (cN 2) (cV 1))) 4))))))).
Definition SPSU2T_e252 := (cD (cM (cH 0) (cA (cM (cM (cN 2) (cH 0)) (cA (cA (cA (cM (cN 5) (cR (cD (cV 1) (cA (cN 1) (cV 1))))) (cM (cM (cN 4) (cV 1)) (cR (cD (cV 1) (cA (cN 1) (cV 1)))))) (cR (cM (cV 1) (cA (cN 1) (cV 1))))) (cM (cN 2) (cR (cM (cW (cV 1) 6) (cA (cN 1) (cV 1))))))) (cM (cN 3) (cA (cA (cM (cN 5) (cR (cD (cV 1) (cA (cN 1) (cV 1))))) (cR (cM (cV 1) (cA (cN 1) (cV 1))))) (cM (cM (cN 2) (cV 1)) (cA (cM (cN 2) (cR (cD (cV 1) (cA (cN 1) (cV 1))))) (cR (cM (cV 1) (cA (cN 1) (cV 1)))))))))) (cM (cR (cD (cM (cM (cM (cH 0) (cA (cN 1) (cH 0))) (cA (cA (cN 3) (cM (cN 8) (cH 0))) (cM (cN 4) (cW (cH 0) 4)))) (cA (cN 2) (cV 1))) (cA (cN 1) (cV 1)))) (cA (cA (cN 3) (cM (cN 5) (cV 1))) (cM (cN 2) (cW (cV 1) 4))))).
Definition SPSU2T_e253 := (cO (cD (cA (cA (cM (cM (cN (-2)) (cH 0)) (cA (cR (cD (cM (cA (cN 1) (cM (cN 2) (cH 0))) (cA (cN (-1)) (cV 1))) (cM (cA (cA (cN 3) (cM (cN 5) (cH 0))) (cM (cN 2) (cW (cH 0) 4))) (cV 1)))) (cM (cN 2) (cR (cD (cA (cN (-1)) (cV 1)) (cM (cA (cA (cA (cN 3) (cM (cN 11) (cH 0))) (cM (cN 12) (cW (cH 0) 4))) (cM (cN 4) (cW (cH 0) 6))) (cV 1))))))) (cM (cN 2) (cR (cD (cM (cA (cA (cN 1) (cM (cN 3) (cH 0))) (cM (cN 2) (cW (cH 0) 4))) (cA (cN (-1)) (cV 1))) (cM (cA (cN 3) (cM (cN 2) (cH 0))) (cV 1)))))) (cR (cD (cM (cA (cN 1) (cM (cN 2) (cH 0))) (cA (cN (-1)) (cV 1))) (cM (cA (cA (cN 3) (cM (cN 5) (cH 0))) (cM (cN 2) (cW (cH 0) 4))) (cV 1))))) (cR (cD (cM (cA (cN 3) (cM (cN 2) (cH 0))) (cV 1)) (cA (cN 1) (cV 1)))))).
Definition SPSU2T_e254 := (cO (cD (cA (cA (cN (-1)) (cV 1)) (cW (cV 1) 4)) (cM (cM (cR (cM (cA (cN 1) (cH 0)) (cA (cN 1) (cM (cN 2) (cH 0))))) (cV 1)) (cA (cN 1) (cV 1))))).
Definition SPSU2T_e255 := (cO (cD (cN 1) (cM (cR (cM (cA (cN 1) (cH 0)) (cA (cN 1) (cM (cN 2) (cH 0))))) (cA (cN 1) (cV 1))))).
Definition SPSU2T_e256 := (cD (cA (cA (cN (-1)) (cV 1)) (cW (cV 1) 4)) (cM (cV 1) (cA (cN 1) (cV 1)))).
Definition SPSU2T_e257 := (cD (cN 1) (cA (cN 1) (cV 1))).
Definition SPSU2T_e258 := (cM (cR (cM (cA (cN 1) (cH 0)) (cA (cN 1) (cV 1)))) (cA (cA (cB (cA (cA (cB (cA (cA (cM (cM (cN (-2)) (cA (cN (-1)) (cV 1))) (cR (cD (cM (cA (cN 1) (cM (cN 2) (cH 0))) (cA (cN 1) (cM (cN 2) (cV 1)))) (cM (cM (cW (cA (cN 3) (cM (cN 2) (cH 0))) 4) (cW (cA (cN 1) (cV 1)) 6)) (cA (cN 3) (cM (cN 2) (cV 1))))))) (cM (cM (cN 4) (cA (cN (-1)) (cV 1))) (cR (cD (cM (cW (cH 0) 4) (cA (cN 1) (cM (cN 2) (cV 1)))) (cM (cM (cM (cA (cN 1) (cM (cN 2) (cH 0))) (cW (cA (cA (cN 3) (cM (cN 5) (cH 0))) (cM (cN 2) (cW (cH 0) 4))) 4)) (cW (cA (cN 1) (cV 1)) 6)) (cA (cN 3) (cM (cN 2) (cV 1)))))))) (cM (cM (cA (cN (-1)) (cM (cN 2) (cH 0))) (cA (cN (-1)) (cV 1))) (cR (cD (cM (cA (cN 1) (cM (cN 2) (cH 0))) (cA (cN 1) (cM (cN 2) (cV 1)))) (cM (cM (cW (cA (cA (cN 3) (cM (cN 5) (cH 0))) (cM (cN 2) (cW (cH 0) 4))) 4) (cW (cA (cN 1) (cV 1)) 6)) (cA (cN 3) (cM (cN 2) (cV 1)))))))) (cD (cM (cM (cN 4) (cH 0)) (cR (cD (cA (cN 1) (cM (cN 2) (cV 1))) (cM (cA (cN 1) (cM (cN 2) (cH 0))) (cA (cA (cN 3) (cM (cN 5) (cV 1))) (cM (cN 2) (cW (cV 1) 4))))))) (cA (cA (cN 3) (cM (cN 5) (cH 0))) (cM (cN 2) (cW (cH 0) 4))))) (cD (cM (cN 2) (cR (cD (cM (cA (cN 1) (cM (cN 2) (cH 0))) (cA (cN 1) (cM (cN 2) (cV 1)))) (cA (cA (cN 3) (cM (cN 5) (cV 1))) (cM (cN 2) (cW (cV 1) 4)))))) (cA (cN 3) (cM (cN 2) (cH 0))))) (cD (cB (cN 1) (cM (cN 4) (cW (cH 0) 4))) (cM (cA (cN 1) (cH 0)) (cR (cD (cM (cM (cA (cN 1) (cM (cN 2) (cH 0))) (cW (cA (cN 3) (cM (cN 2) (cH 0))) 4)) (cA (cA (cN 3) (cM (cN 5) (cV 1))) (cM (cN 2) (cW (cV 1) 4)))) (cA (cN 1) (cM (cN 2) (cV 1)))))))) (cM (cN 2) (cR (cD (cM (cA (cN 1) (cM (cN 2) (cH 0))) (cW (cB (cN 1) (cM (cN 2) (cV 1))) 4)) (cM (cM (cW (cA (cN 3) (cM (cN 2) (cH 0))) 4) (cW (cA (cN 1) (cV 1)) 6)) (cA (cA (cN 3) (cM (cN 8) (cV 1))) (cM (cN 4) (cW (cV 1) 4)))))))) (cD (cA (cN (-1)) (cM (cN 2) (cH 0))) (cR (cD (cM (cM (cW (cA (cA (cN 3) (cM (cN 5) (cH 0))) (cM (cN 2) (cW (cH 0) 4))) 4) (cW (cA (cN 1) (cV 1)) 6)) (cA (cA (cN 3) (cM (cN 8) (cV 1))) (cM (cN 4) (cW (cV 1) 4)))) (cM (cA (cN 1) (cM (cN 2) (cH 0))) (cW (cB (cN 1) (cM (cN 2) (cV 1))) 4)))))) (cD (cM (cM (cN 4) (cH 0)) (cA (cN (-1)) (cM (cN 2) (cV 1)))) (cM (cM (cA (cA (cN 3) (cM (cN 5) (cH 0))) (cM (cN 2) (cW (cH 0) 4))) (cA (cN 1) (cV 1))) (cR (cM (cA (cN 1) (cM (cN 2) (cH 0))) (cA (cA (cA (cN 3) (cM (cN 11) (cV 1))) (cM (cN 12) (cW (cV 1) 4))) (cM (cN 4) (cW (cV 1) 6))))))))).
Definition SPSU2T_e259 := (cO (cD (cM (cA (cN 2) (cV 1)) (cA (cA (cB (cR (cD (cM (cM (cA (cN 3) (cM (cN 2) (cH 0))) (cV 1)) (cA (cN 3) (cM (cN 2) (cV 1)))) (cM (cA (cN 1) (cH 0)) (cA (cN 2) (cV 1))))) (cM (cM (cN 4) (cW (cH 0) 4)) (cR (cD (cM (cM (cA (cN 3) (cM (cN 2) (cH 0))) (cV 1)) (cA (cN 3) (cM (cN 2) (cV 1)))) (cM (cA (cN 1) (cH 0)) (cA (cN 2) (cV 1))))))) (cM (cN 2) (cR (cD (cM (cM (cA (cA (cN 3) (cM (cN 5) (cH 0))) (cM (cN 2) (cW (cH 0) 4))) (cV 1)) (cA (cN 3) (cM (cN 2) (cV 1)))) (cA (cN 2) (cV 1)))))) (cM (cM (cN 4) (cH 0)) (cA (cO (cR (cD (cM (cM (cA (cN 3) (cM (cN 2) (cH 0))) (cV 1)) (cA (cN 3) (cM (cN 2) (cV 1)))) (cM (cA (cN 1) (cH 0)) (cA (cN 2) (cV 1)))))) (cR (cD (cM (cM (cA (cA (cN 3) (cM (cN 5) (cH 0))) (cM (cN 2) (cW (cH 0) 4))) (cV 1)) (cA (cN 3) (cM (cN 2) (cV 1)))) (cA (cN 2) (cV 1)))))))) (cM (cM (cA (cN 3) (cM (cN 2) (cH 0))) (cA (cN 1) (cV 1))) (cR (cM (cA (cA (cN 3) (cM (cN 8) (cH 0))) (cM (cN 4) (cW (cH 0) 4))) (cA (cN 3) (cM (cN 2) (cV 1)))))))).
Definition SPSU2T_e260 := (cD (cB (cN (-3)) (cM (cN 2) (cV 1))) (cM (cA (cN 1) (cV 1)) (cR (cA (cA (cN 3) (cM (cN 8) (cV 1))) (cM (cN 4) (cW (cV 1) 4)))))).
Definition SPSU2T_e261 := (cD (cR (cM (cV 1) (cA (cN 2) (cV 1)))) (cA (cN 1) (cV 1))).
Definition SPSU2T_e262 := (cO (cD (cA (cA (cN (-1)) (cV 1)) (cW (cV 1) 4)) (cM (cM (cA (cN 1) (cM (cN 2) (cH 0))) (cV 1)) (cA (cN 1) (cV 1))))).
Definition SPSU2T_e263 := (cO (cD (cN 1) (cA (cA (cA (cN 1) (cM (cN 2) (cH 0))) (cV 1)) (cM (cM (cN 2) (cH 0)) (cV 1))))).
Definition SPSU2T_e264 := (cO (cD (cM (cR (cD (cA (cN (-1)) (cM (cN 2) (cV 1))) (cA (cN 3) (cM (cN 2) (cV 1))))) (cB (cA (cR (cD (cA (cN (-1)) (cM (cN 2) (cV 1))) (cA (cA (cN 1) (cM (cN 3) (cV 1))) (cM (cN 2) (cW (cV 1) 4))))) (cM (cV 1) (cR (cD (cA (cN (-1)) (cM (cN 2) (cV 1))) (cA (cA (cN 1) (cM (cN 3) (cV 1))) (cM (cN 2) (cW (cV 1) 4))))))) (cM (cN 2) (cR (cD (cA (cA (cN 1) (cM (cN 3) (cV 1))) (cM (cN 2) (cW (cV 1) 4))) (cA (cN (-1)) (cM (cN 2) (cV 1)))))))) (cW (cA (cN 1) (cV 1)) 3))).
Definition SPSU2T_e265 := (cO (cM (cR (cA (cN 1) (cV 1))) (cA (cA (cM (cN 2) (cR (cD (cM (cV 1) (cW (cA (cN 1) (cM (cN 2) (cV 1))) 4)) (cM (cM (cW (cA (cN 1) (cV 1)) 6) (cA (cN 2) (cV 1))) (cW (cA (cN 3) (cM (cN 2) (cV 1))) 4))))) (cD (cM (cA (cN 1) (cM (cN 2) (cV 1))) (cR (cD (cV 1) (cA (cA (cN 2) (cM (cN 3) (cV 1))) (cW (cV 1) 4))))) (cA (cN 3) (cM (cN 2) (cV 1))))) (cD (cM (cN 3) (cR (cD (cV 1) (cA (cA (cN 2) (cM (cN 3) (cV 1))) (cW (cV 1) 4))))) (cA (cA (cN 3) (cM (cN 5) (cV 1))) (cM (cN 2) (cW (cV 1) 4))))))).
Definition SPSU2T_e266 := (cO (cD (cA (cM (cN (-2)) (cR (cM (cM (cA (cN 1) (cM (cN 2) (cH 0))) (cV 1)) (cA (cN 1) (cM (cN 2) (cV 1)))))) (cM (cA (cN (-1)) (cM (cN 2) (cV 1))) (cR (cD (cA (cV 1) (cM (cM (cN 2) (cH 0)) (cV 1))) (cA (cN 1) (cM (cN 2) (cV 1))))))) (cM (cM (cW (cA (cN 1) (cM (cN 2) (cH 0))) 3) (cA (cN 1) (cV 1))) (cR (cM (cV 1) (cA (cN 3) (cM (cN 2) (cV 1)))))))).
Definition SPSU2T_e267 := (cO (cD (cM (cR (cA (cN 1) (cV 1))) (cA (cA (cR (cD (cM (cV 1) (cA (cN 1) (cV 1))) (cA (cN 2) (cV 1)))) (cM (cN 5) (cR (cD (cV 1) (cA (cA (cN 2) (cM (cN 3) (cV 1))) (cW (cV 1) 4)))))) (cM (cM (cN 2) (cV 1)) (cA (cR (cD (cM (cV 1) (cA (cN 1) (cV 1))) (cA (cN 2) (cV 1)))) (cM (cN 2) (cR (cD (cV 1) (cA (cA (cN 2) (cM (cN 3) (cV 1))) (cW (cV 1) 4))))))))) (cM (cA (cN 1) (cM (cN 2) (cH 0))) (cA (cA (cN 3) (cM (cN 5) (cV 1))) (cM (cN 2) (cW (cV 1) 4)))))).
Definition SPSU2T_e268 := (cD (cM (cN 2) (cR (cM (cM (cM (cH 0) (cA (cN 1) (cH 0))) (cA (cN 1) (cM (cN 2) (cH 0)))) (cV 1)))) (cW (cA (cV 1) (cM (cM (cN 2) (cH 0)) (cV 1))) 3)).
Definition SPSU2T_e269 := (cD (cM (cN (-2)) (cA (cA (cR (cM (cH 0) (cA (cN 1) (cH 0)))) (cM (cN 2) (cR (cM (cW (cH 0) 6) (cA (cN 1) (cH 0)))))) (cR (cM (cW (cH 0) 10) (cA (cN 1) (cH 0)))))) (cM (cM (cW (cA (cN 1) (cH 0)) 4) (cA (cN 1) (cM (cN 2) (cH 0)))) (cA (cN 1) (cV 1)))).
Definition SPSU2T_e270 := (cO (cD (cM (cA (cN 1) (cM (cN 2) (cV 1))) (cA (cA (cA (cB (cB (cB (cO (cR (cD (cM (cM (cM (cM (cH 0) (cW (cA (cN 1) (cH 0)) 6)) (cV 1)) (cW (cA (cN 1) (cV 1)) 4)) (cW (cA (cN 3) (cM (cN 2) (cV 1))) 6)) (cM (cA (cN 1) (cM (cN 2) (cH 0))) (cA (cN 1) (cM (cN 2) (cV 1))))))) (cR (cD (cM (cM (cM (cM (cM (cH 0) (cW (cA (cN 1) (cH 0)) 6)) (cA (cN 1) (cM (cN 2) (cH 0)))) (cV 1)) (cW (cA (cN 1) (cV 1)) 4)) (cW (cA (cN 3) (cM (cN 2) (cV 1))) 6)) (cA (cN 1) (cM (cN 2) (cV 1)))))) (cR (cD (cM (cM (cM (cM (cH 0) (cW (cA (cN 1) (cH 0)) 6)) (cV 1)) (cW (cA (cN 1) (cV 1)) 8)) (cW (cA (cN 3) (cM (cN 2) (cV 1))) 6)) (cM (cA (cN 1) (cM (cN 2) (cH 0))) (cA (cN 1) (cM (cN 2) (cV 1))))))) (cR (cD (cM (cM (cM (cM (cM (cH 0) (cW (cA (cN 1) (cH 0)) 6)) (cA (cN 1) (cM (cN 2) (cH 0)))) (cV 1)) (cW (cA (cN 1) (cV 1)) 8)) (cW (cA (cN 3) (cM (cN 2) (cV 1))) 6)) (cA (cN 1) (cM (cN 2) (cV 1)))))) (cM (cM (cM (cM (cM (cN 2) (cW (cA (cN 1) (cH 0)) 5)) (cV 1)) (cA (cN 1) (cV 1))) (cW (cA (cN 3) (cM (cN 2) (cV 1))) 3)) (cR (cD (cM (cH 0) (cV 1)) (cA (cA (cA (cN 1) (cM (cN 2) (cH 0))) (cM (cN 2) (cV 1))) (cM (cM (cN 4) (cH 0)) (cV 1))))))) (cR (cD (cM (cM (cM (cM (cH 0) (cW (cA (cN 1) (cH 0)) 6)) (cV 1)) (cW (cA (cN 3) (cM (cN 2) (cV 1))) 6)) (cW (cA (cA (cN (-1)) (cV 1)) (cM (cN 2) (cW (cV 1) 4))) 4)) (cM (cA (cN 1) (cM (cN 2) (cH 0))) (cW (cA (cN 1) (cM (cN 2) (cV 1))) 6))))) (cR (cD (cM (cM (cM (cM (cM (cH 0) (cW (cA (cN 1) (cH 0)) 6)) (cA (cN 1) (cM (cN 2) (cH 0)))) (cV 1)) (cW (cA (cN 3) (cM (cN 2) (cV 1))) 6)) (cW (cA (cA (cN (-1)) (cV 1)) (cM (cN 2) (cW (cV 1) 4))) 4)) (cW (cA (cN 1) (cM (cN 2) (cV 1))) 6))))) (cM (cM (cW (cA (cN 1) (cH 0)) 4) (cR (cA (cV 1) (cM (cM (cN 2) (cH 0)) (cV 1))))) (cW (cA (cA (cN 3) (cM (cN 5) (cV 1))) (cM (cN 2) (cW (cV 1) 4))) 4)))).
Definition SPSU2T_e271 := (cD (cM (cA (cN 1) (cM (cN 2) (cV 1))) (cB (cB (cB (cB (cB (cM (cN (-4)) (cR (cD (cM (cM (cM (cM (cH 0) (cW (cA (cN 1) (cH 0)) 6)) (cV 1)) (cA (cN 1) (cV 1))) (cW (cA (cN 3) (cM (cN 2) (cV 1))) 6)) (cA (cN 2) (cV 1))))) (cM (cN 4) (cR (cD (cM (cM (cM (cM (cH 0) (cW (cA (cN 1) (cH 0)) 6)) (cV 1)) (cA (cN 1) (cV 1))) (cW (cA (cN 3) (cM (cN 2) (cV 1))) 6)) (cM (cW (cA (cN 1) (cM (cN 2) (cH 0))) 4) (cA (cN 2) (cV 1))))))) (cM (cN 6) (cR (cD (cM (cM (cM (cM (cH 0) (cW (cA (cN 1) (cH 0)) 6)) (cV 1)) (cA (cN 1) (cV 1))) (cW (cA (cN 3) (cM (cN 2) (cV 1))) 6)) (cM (cA (cN 2) (cV 1)) (cW (cA (cN 1) (cM (cN 2) (cV 1))) 4)))))) (cD (cM (cM (cM (cM (cN 6) (cA (cN 1) (cH 0))) (cA (cN 1) (cV 1))) (cW (cA (cN 3) (cM (cN 2) (cV 1))) 3)) (cR (cD (cM (cM (cH 0) (cA (cN 1) (cH 0))) (cV 1)) (cA (cA (cN 2) (cM (cN 3) (cV 1))) (cW (cV 1) 4))))) (cM (cA (cN 1) (cM (cN 2) (cH 0))) (cA (cN 1) (cM (cN 2) (cV 1)))))) (cM (cN 2) (cR (cD (cM (cM (cM (cH 0) (cW (cA (cN 1) (cH 0)) 6)) (cV 1)) (cW (cA (cA (cN 3) (cM (cN 5) (cV 1))) (cM (cN 2) (cW (cV 1) 4))) 6)) (cA (cN 2) (cV 1)))))) (cM (cN 2) (cR (cD (cM (cM (cM (cH 0) (cW (cA (cN 1) (cH 0)) 6)) (cV 1)) (cW (cA (cA (cN 3) (cM (cN 5) (cV 1))) (cM (cN 2) (cW (cV 1) 4))) 6)) (cM (cW (cA (cN 1) (cM (cN 2) (cH 0))) 4) (cA (cN 2) (cV 1)))))))) (cM (cM (cM (cN 2) (cW (cA (cN 1) (cH 0)) 4)) (cW (cA (cN 1) (cV 1)) 3)) (cW (cA (cN 3) (cM (cN 2) (cV 1))) 5))).
Definition SPSU2T_e272 := (cM (cR (cA (cN 1) (cV 1))) (cB (cB (cM (cN (-2)) (cR (cD (cM (cV 1) (cW (cA (cN 1) (cM (cN 2) (cV 1))) 4)) (cM (cM (cW (cA (cN 1) (cV 1)) 6) (cA (cN 2) (cV 1))) (cW (cA (cN 3) (cM (cN 2) (cV 1))) 4))))) (cD (cM (cA (cN 1) (cM (cN 2) (cV 1))) (cR (cD (cV 1) (cA (cA (cN 2) (cM (cN 3) (cV 1))) (cW (cV 1) 4))))) (cA (cN 3) (cM (cN 2) (cV 1))))) (cD (cM (cN 3) (cR (cD (cV 1) (cA (cA (cN 2) (cM (cN 3) (cV 1))) (cW (cV 1) 4))))) (cA (cA (cN 3) (cM (cN 5) (cV 1))) (cM (cN 2) (cW (cV 1) 4)))))).
Definition SPSU2T_e273 := (cD (cM (cA (cN 1) (cM (cN 2) (cV 1))) (cB (cB (cB (cB (cB (cM (cN (-2)) (cR (cD (cM (cM (cM (cM (cH 0) (cW (cA (cN 1) (cH 0)) 6)) (cV 1)) (cA (cN 1) (cV 1))) (cW (cA (cN 3) (cM (cN 2) (cV 1))) 6)) (cA (cN 2) (cV 1))))) (cM (cN 2) (cR (cD (cM (cM (cM (cM (cH 0) (cW (cA (cN 1) (cH 0)) 6)) (cV 1)) (cA (cN 1) (cV 1))) (cW (cA (cN 3) (cM (cN 2) (cV 1))) 6)) (cM (cW (cA (cN 1) (cM (cN 2) (cH 0))) 4) (cA (cN 2) (cV 1))))))) (cM (cN 3) (cR (cD (cM (cM (cM (cM (cH 0) (cW (cA (cN 1) (cH 0)) 6)) (cV 1)) (cA (cN 1) (cV 1))) (cW (cA (cN 3) (cM (cN 2) (cV 1))) 6)) (cM (cA (cN 2) (cV 1)) (cW (cA (cN 1) (cM (cN 2) (cV 1))) 4)))))) (cD (cM (cM (cM (cM (cN 3) (cA (cN 1) (cH 0))) (cA (cN 1) (cV 1))) (cA (cN 3) (cM (cN 2) (cV 1)))) (cR (cD (cM (cM (cM (cH 0) (cA (cN 1) (cH 0))) (cV 1)) (cA (cN 3) (cM (cN 2) (cV 1)))) (cM (cW (cA (cN 1) (cM (cN 2) (cH 0))) 4) (cA (cA (cN 2) (cM (cN 3) (cV 1))) (cW (cV 1) 4)))))) (cA (cN 1) (cM (cN 2) (cV 1))))) (cR (cD (cM (cM (cM (cH 0) (cW (cA (cN 1) (cH 0)) 6)) (cV 1)) (cW (cA (cA (cN 3) (cM (cN 5) (cV 1))) (cM (cN 2) (cW (cV 1) 4))) 6)) (cA (cN 2) (cV 1))))) (cR (cD (cM (cM (cM (cH 0) (cW (cA (cN 1) (cH 0)) 6)) (cV 1)) (cW (cA (cA (cN 3) (cM (cN 5) (cV 1))) (cM (cN 2) (cW (cV 1) 4))) 6)) (cM (cW (cA (cN 1) (cM (cN 2) (cH 0))) 4) (cA (cN 2) (cV 1))))))) (cM (cM (cW (cA (cN 1) (cH 0)) 4) (cW (cA (cN 1) (cV 1)) 3)) (cW (cA (cN 3) (cM (cN 2) (cV 1))) 5))).
Definition SPSU2T_e274 := (cO (cD (cN 1) (cR (cD (cM (cM (cW (cA (cN 1) (cM (cN 2) (cH 0))) 4) (cA (cN (-1)) (cV 1))) (cV 1)) (cA (cB (cN (-2)) (cV 1)) (cW (cV 1) 4)))))).
Definition SPSU2T_e275 := (cO (cR (cD (cA (cN (-6)) (cM (cN 4) (cV 1))) (cM (cM (cW (cA (cN 1) (cM (cN 2) (cH 0))) 4) (cV 1)) (cA (cB (cN 1) (cM (cN 3) (cV 1))) (cM (cN 2) (cW (cV 1) 4))))))).
Definition SPSU2T_e276 := (cO (cD (cA (cN (-3)) (cW (cV 1) 4)) (cM (cA (cV 1) (cM (cM (cN 2) (cH 0)) (cV 1))) (cR (cA (cN (-1)) (cW (cV 1) 4)))))).
Definition SPSU2T_e277 := (cO (cD (cM (cR (cN 3)) (cR (cD (cA (cA (cN (-3)) (cV 1)) (cM (cN 2) (cW (cV 1) 4))) (cA (cA (cN 1) (cM (cN 3) (cV 1))) (cM (cN 2) (cW (cV 1) 4)))))) (cA (cV 1) (cM (cM (cN 2) (cH 0)) (cV 1))))).
Definition SPSU2T_e278 := (cO (cD (cM (cR (cN 3)) (cA (cB (cA (cB (cA (cB (cM (cM (cM (cM (cM (cN 2) (cA (cN (-1)) (cV 1))) (cW (cV 1) 5)) (cW (cA (cN 1) (cV 1)) 3)) (cR (cA (cN (-1)) (cM (cN 2) (cV 1))))) (cA (cN 3) (cM (cN 2) (cV 1)))) (cM (cM (cM (cM (cN 7) (cA (cN (-1)) (cV 1))) (cW (cM (cV 1) (cA (cN 1) (cV 1))) 3)) (cR (cA (cN (-1)) (cM (cN 2) (cV 1))))) (cA (cN 3) (cM (cN 2) (cV 1))))) (cM (cM (cM (cM (cN 3) (cA (cN (-1)) (cV 1))) (cW (cA (cN 1) (cV 1)) 3)) (cR (cM (cV 1) (cA (cN (-1)) (cM (cN 2) (cV 1)))))) (cA (cN 3) (cM (cN 2) (cV 1))))) (cM (cV 1) (cR (cM (cM (cM (cV 1) (cW (cA (cN 1) (cV 1)) 6)) (cA (cN (-1)) (cM (cN 2) (cV 1)))) (cW (cA (cN 3) (cM (cN 2) (cV 1))) 4))))) (cM (cM (cN 3) (cW (cV 1) 4)) (cR (cM (cM (cM (cV 1) (cW (cA (cN 1) (cV 1)) 6)) (cA (cN (-1)) (cM (cN 2) (cV 1)))) (cW (cA (cN 3) (cM (cN 2) (cV 1))) 4))))) (cM (cM (cN 2) (cW (cV 1) 6)) (cR (cM (cM (cM (cV 1) (cW (cA (cN 1) (cV 1)) 6)) (cA (cN (-1)) (cM (cN 2) (cV 1)))) (cW (cA (cN 3) (cM (cN 2) (cV 1))) 4))))) (cM (cM (cM (cN 2) (cR (cD (cM (cV 1) (cA (cN 1) (cV 1))) (cA (cN (-1)) (cM (cN 2) (cV 1)))))) (cA (cB (cN 3) (cM (cN 5) (cV 1))) (cM (cN 2) (cW (cV 1) 4)))) (cA (cA (cA (cN (-3)) (cV 1)) (cM (cN 8) (cW (cV 1) 4))) (cM (cN 4) (cW (cV 1) 6)))))) (cM (cM (cM (cR (cA (cN (-1)) (cV 1))) (cW (cA (cN 1) (cV 1)) 4)) (cA (cN (-1)) (cM (cN 2) (cV 1)))) (cW (cM (cV 1) (cA (cN 3) (cM (cN 2) (cV 1)))) 3)))).
Definition SPSU2T_e279 := (cO (cD (cM (cM (cR (cN 3)) (cR (cA (cN 1) (cV 1)))) (cA (cA (cA (cB (cM (cM (cN 6) (cR (cM (cV 1) (cA (cA (cN (-2)) (cM (cN 3) (cV 1))) (cM (cN 2) (cW (cV 1) 4)))))) (cA (cA (cN 3) (cM (cN 5) (cV 1))) (cM (cN 2) (cW (cV 1) 4)))) (cM (cM (cM (cN 19) (cV 1)) (cR (cM (cV 1) (cA (cA (cN (-2)) (cM (cN 3) (cV 1))) (cM (cN 2) (cW (cV 1) 4)))))) (cA (cA (cN 3) (cM (cN 5) (cV 1))) (cM (cN 2) (cW (cV 1) 4))))) (cM (cM (cM (cN 12) (cW (cV 1) 4)) (cR (cM (cV 1) (cA (cA (cN (-2)) (cM (cN 3) (cV 1))) (cM (cN 2) (cW (cV 1) 4)))))) (cA (cA (cN 3) (cM (cN 5) (cV 1))) (cM (cN 2) (cW (cV 1) 4))))) (cM (cM (cM (cN 4) (cW (cV 1) 6)) (cR (cM (cV 1) (cA (cA (cN (-2)) (cM (cN 3) (cV 1))) (cM (cN 2) (cW (cV 1) 4)))))) (cA (cA (cN 3) (cM (cN 5) (cV 1))) (cM (cN 2) (cW (cV 1) 4))))) (cM (cN 12) (cR (cM (cM (cM (cV 1) (cA (cN 2) (cV 1))) (cW (cA (cN (-1)) (cM (cN 2) (cV 1))) 6)) (cW (cA (cA (cN 3) (cM (cN 5) (cV 1))) (cM (cN 2) (cW (cV 1) 4))) 4)))))) (cM (cM (cV 1) (cA (cA (cN (-2)) (cM (cN 3) (cV 1))) (cM (cN 2) (cW (cV 1) 4)))) (cW (cA (cA (cN 3) (cM (cN 5) (cV 1))) (cM (cN 2) (cW (cV 1) 4))) 5)))).
Definition SPSU2T_e280 := (cD (cM (cM (cR (cN 3)) (cA (cN (-1)) (cV 1))) (cB (cA (cA (cB (cB (cA (cM (cN (-6)) (cR (cD (cM (cA (cN 1) (cM (cN 2) (cH 0))) (cA (cN 1) (cV 1))) (cM (cV 1) (cA (cN (-1)) (cM (cN 2) (cV 1))))))) (cM (cN 16) (cR (cD (cM (cM (cA (cN 1) (cM (cN 2) (cH 0))) (cV 1)) (cA (cN 1) (cV 1))) (cA (cN (-1)) (cM (cN 2) (cV 1))))))) (cM (cN 8) (cR (cD (cM (cM (cA (cN 1) (cM (cN 2) (cH 0))) (cW (cV 1) 6)) (cA (cN 1) (cV 1))) (cA (cN (-1)) (cM (cN 2) (cV 1))))))) (cM (cN 3) (cR (cD (cM (cA (cN 1) (cM (cN 2) (cH 0))) (cA (cA (cN (-1)) (cV 1)) (cM (cN 2) (cW (cV 1) 4)))) (cV 1))))) (cM (cN 6) (cR (cM (cM (cA (cN 1) (cM (cN 2) (cH 0))) (cV 1)) (cA (cA (cN (-1)) (cV 1)) (cM (cN 2) (cW (cV 1) 4))))))) (cM (cM (cN 2) (cV 1)) (cR (cM (cM (cA (cN 1) (cM (cN 2) (cH 0))) (cV 1)) (cA (cA (cN (-1)) (cV 1)) (cM (cN 2) (cW (cV 1) 4))))))) (cM (cN 2) (cR (cM (cM (cA (cN 1) (cM (cN 2) (cH 0))) (cW (cV 1) 6)) (cA (cA (cN (-1)) (cV 1)) (cM (cN 2) (cW (cV 1) 4)))))))) (cM (cM (cW (cA (cN 1) (cM (cN 2) (cH 0))) 3) (cR (cM (cV 1) (cA (cA (cN (-3)) (cV 1)) (cM (cN 2) (cW (cV 1) 4)))))) (cA (cA (cN (-1)) (cV 1)) (cM (cN 2) (cW (cV 1) 4))))).
Definition SPSU2T_e281 := (cO (cD (cM (cM (cR (cA (cN 1) (cV 1))) (cA (cN (-1)) (cM (cN 2) (cV 1)))) (cA (cA (cB (cB (cM (cN (-9)) (cR (cM (cM (cA (cN 1) (cM (cN 2) (cH 0))) (cV 1)) (cA (cA (cN (-3)) (cM (cN 4) (cV 1))) (cM (cN 4) (cW (cV 1) 4)))))) (cM (cM (cN 3) (cV 1)) (cR (cM (cM (cA (cN 1) (cM (cN 2) (cH 0))) (cV 1)) (cA (cA (cN (-3)) (cM (cN 4) (cV 1))) (cM (cN 4) (cW (cV 1) 4))))))) (cM (cM (cN 7) (cW (cV 1) 4)) (cR (cM (cM (cA (cN 1) (cM (cN 2) (cH 0))) (cV 1)) (cA (cA (cN (-3)) (cM (cN 4) (cV 1))) (cM (cN 4) (cW (cV 1) 4))))))) (cM (cM (cN 2) (cW (cV 1) 6)) (cR (cM (cM (cA (cN 1) (cM (cN 2) (cH 0))) (cV 1)) (cA (cA (cN (-3)) (cM (cN 4) (cV 1))) (cM (cN 4) (cW (cV 1) 4))))))) (cM (cN 12) (cR (cM (cM (cA (cN 1) (cM (cN 2) (cH 0))) (cW (cV 1) 10)) (cA (cA (cN (-3)) (cM (cN 4) (cV 1))) (cM (cN 4) (cW (cV 1) 4)))))))) (cW (cM (cM (cA (cN 1) (cM (cN 2) (cH 0))) (cV 1)) (cA (cA (cA (cN (-3)) (cV 1)) (cM (cN 8) (cW (cV 1) 4))) (cM (cN 4) (cW (cV 1) 6)))) 3))).
Definition SPSU2T_e282 := (cO (cD (cR (cD (cA (cA (cN (-6)) (cM (cN 9) (cV 1))) (cM (cN 6) (cW (cV 1) 4))) (cM (cV 1) (cA (cN 3) (cM (cN 2) (cV 1)))))) (cM (cA (cN 1) (cM (cN 2) (cH 0))) (cA (cN 1) (cV 1))))).
Definition SPSU2T_e283 := (cD (cM (cR (cA (cN 3) (cD (cN 3) (cV 1)))) (cA (cB (cA (cM (cN 6) (cR (cD (cA (cA (cA (cN (-6)) (cM (cN 5) (cV 1))) (cM (cN 12) (cW (cV 1) 4))) (cM (cN 4) (cW (cV 1) 6))) (cA (cN 1) (cM (cN 2) (cV 1)))))) (cM (cM (cN 3) (cV 1)) (cR (cD (cA (cA (cA (cN (-6)) (cM (cN 5) (cV 1))) (cM (cN 12) (cW (cV 1) 4))) (cM (cN 4) (cW (cV 1) 6))) (cA (cN 1) (cM (cN 2) (cV 1))))))) (cM (cM (cN 6) (cW (cV 1) 4)) (cR (cD (cA (cA (cA (cN (-6)) (cM (cN 5) (cV 1))) (cM (cN 12) (cW (cV 1) 4))) (cM (cN 4) (cW (cV 1) 6))) (cA (cN 1) (cM (cN 2) (cV 1))))))) (cM (cM (cN 4) (cV 1)) (cR (cA (cA (cA (cB (cN (-6)) (cM (cN 7) (cV 1))) (cM (cN 22) (cW (cV 1) 4))) (cM (cN 28) (cW (cV 1) 6))) (cM (cN 8) (cW (cV 1) 8))))))) (cM (cA (cN 2) (cV 1)) (cW (cA (cA (cN 3) (cM (cN 5) (cV 1))) (cM (cN 2) (cW (cV 1) 4))) 3))).
Definition SPSU2T_e284 := (cO (cD (cA (cA (cN (-2)) (cM (cN 2) (cV 1))) (cW (cV 1) 4)) (cM (cA (cN 1) (cV 1)) (cR (cM (cV 1) (cA (cN 2) (cV 1))))))).
Definition SPSU2T_e285 := (cO (cD (cM (cR (cN 2)) (cA (cM (cM (cN 45) (cV 1)) (cR (cD (cM (cV 1) (cA (cA (cN 3) (cM (cN 5) (cV 1))) (cM (cN 2) (cW (cV 1) 4)))) (cA (cN 5) (cM (cN 2) (cV 1)))))) (cM (cN 2) (cA (cA (cR (cD (cM (cM (cM (cW (cV 1) 6) (cW (cA (cN 1) (cV 1)) 6)) (cW (cA (cN 1) (cM (cN 2) (cV 1))) 4)) (cA (cN 3) (cM (cN 2) (cV 1)))) (cA (cN 5) (cM (cN 2) (cV 1))))) (cM (cN 15) (cR (cD (cM (cV 1) (cA (cA (cN 3) (cM (cN 5) (cV 1))) (cM (cN 2) (cW (cV 1) 4)))) (cA (cN 5) (cM (cN 2) (cV 1))))))) (cM (cN 9) (cR (cD (cM (cW (cV 1) 10) (cA (cA (cN 3) (cM (cN 5) (cV 1))) (cM (cN 2) (cW (cV 1) 4)))) (cA (cN 5) (cM (cN 2) (cV 1)))))))))) (cM (cM (cA (cN 1) (cV 1)) (cR (cM (cV 1) (cA (cN 5) (cM (cN 2) (cV 1)))))) (cW (cA (cA (cN 6) (cM (cN 7) (cV 1))) (cM (cN 2) (cW (cV 1) 4))) 3)))).
Definition SPSU2T_e286 := (cO (cD (cM (cR (cA (cN 3) (cD (cN 3) (cV 1)))) (cB (cA (cB (cM (cN (-6)) (cR (cD (cM (cA (cN 2) (cV 1)) (cA (cA (cN (-3)) (cM (cN 4) (cV 1))) (cM (cN 4) (cW (cV 1) 4)))) (cA (cN 1) (cM (cN 2) (cV 1)))))) (cM (cM (cN 3) (cV 1)) (cR (cD (cM (cA (cN 2) (cV 1)) (cA (cA (cN (-3)) (cM (cN 4) (cV 1))) (cM (cN 4) (cW (cV 1) 4)))) (cA (cN 1) (cM (cN 2) (cV 1))))))) (cM (cM (cN 6) (cW (cV 1) 4)) (cR (cD (cM (cA (cN 2) (cV 1)) (cA (cA (cN (-3)) (cM (cN 4) (cV 1))) (cM (cN 4) (cW (cV 1) 4)))) (cA (cN 1) (cM (cN 2) (cV 1))))))) (cM (cM (cN 4) (cV 1)) (cR (cM (cA (cN 3) (cM (cN 2) (cV 1))) (cA (cA (cB (cN (-2)) (cV 1)) (cM (cN 8) (cW (cV 1) 4))) (cM (cN 4) (cW (cV 1) 6)))))))) (cM (cM (cA (cN 1) (cM (cN 2) (cH 0))) (cA (cN 2) (cV 1))) (cW (cA (cA (cN 3) (cM (cN 5) (cV 1))) (cM (cN 2) (cW (cV 1) 4))) 3)))).
Definition SPSU2T_e287 := (cD (cA (cA (cB (cB (cM (cM (cN 5) (cW (cV 1) 4)) (cR (cM (cM (cA (cN 1) (cM (cN 2) (cH 0))) (cV 1)) (cA (cN 1) (cV 1))))) (cM (cM (cN 2) (cW (cV 1) 8)) (cR (cM (cM (cA (cN 1) (cM (cN 2) (cH 0))) (cV 1)) (cA (cN 1) (cV 1)))))) (cM (cN 3) (cA (cA (cM (cN 4) (cR (cD (cM (cM (cA (cN 1) (cM (cN 2) (cH 0))) (cW (cB (cN 1) (cM (cN 2) (cV 1))) 4)) (cV 1)) (cA (cN 1) (cV 1))))) (cM (cN 7) (cR (cD (cM (cA (cN 1) (cM (cN 2) (cH 0))) (cW (cV 1) 10)) (cA (cN 1) (cV 1)))))) (cM (cN 9) (cR (cD (cM (cA (cN 1) (cM (cN 2) (cH 0))) (cW (cV 1) 14)) (cA (cN 1) (cV 1)))))))) (cM (cW (cV 1) 6) (cB (cR (cM (cM (cA (cN 1) (cM (cN 2) (cH 0))) (cV 1)) (cA (cN 1) (cV 1)))) (cM (cN 6) (cR (cD (cM (cM (cA (cN 1) (cM (cN 2) (cH 0))) (cV 1)) (cW (cA (cN 1) (cM (cN 2) (cV 1))) 4)) (cA (cN 1) (cV 1)))))))) (cM (cM (cN 2) (cV 1)) (cA (cR (cM (cM (cA (cN 1) (cM (cN 2) (cH 0))) (cV 1)) (cA (cN 1) (cV 1)))) (cM (cN 18) (cR (cD (cA (cV 1) (cM (cM (cN 2) (cH 0)) (cV 1))) (cA (cN 1) (cV 1)))))))) (cM (cM (cV 1) (cA (cN 3) (cM (cN 2) (cV 1)))) (cW (cM (cA (cN 1) (cM (cN 2) (cH 0))) (cA (cA (cN 2) (cM (cN 3) (cV 1))) (cW (cV 1) 4))) 3))).
Definition SPSU2T_e288 := (cO (cD (cM (cR (cN 2)) (cA (cM (cM (cN 45) (cV 1)) (cR (cD (cM (cV 1) (cA (cA (cN 3) (cM (cN 5) (cV 1))) (cM (cN 2) (cW (cV 1) 4)))) (cA (cN 5) (cM (cN 2) (cV 1)))))) (cM (cN 2) (cA (cA (cR (cD (cM (cM (cM (cW (cV 1) 6) (cW (cA (cN 1) (cV 1)) 6)) (cW (cA (cN 1) (cM (cN 2) (cV 1))) 4)) (cA (cN 3) (cM (cN 2) (cV 1)))) (cA (cN 5) (cM (cN 2) (cV 1))))) (cM (cN 15) (cR (cD (cM (cV 1) (cA (cA (cN 3) (cM (cN 5) (cV 1))) (cM (cN 2) (cW (cV 1) 4)))) (cA (cN 5) (cM (cN 2) (cV 1))))))) (cM (cN 9) (cR (cD (cM (cW (cV 1) 10) (cA (cA (cN 3) (cM (cN 5) (cV 1))) (cM (cN 2) (cW (cV 1) 4)))) (cA (cN 5) (cM (cN 2) (cV 1)))))))))) (cM (cM (cM (cA (cN 1) (cM (cN 2) (cH 0))) (cA (cN 1) (cV 1))) (cR (cM (cV 1) (cA (cN 5) (cM (cN 2) (cV 1)))))) (cW (cA (cA (cN 6) (cM (cN 7) (cV 1))) (cM (cN 2) (cW (cV 1) 4))) 3)))).
Definition SPSU2T_e289 := (cD (cM (cR (cN 2)) (cA (cM (cN 5) (cR (cM (cV 1) (cA (cN 1) (cV 1))))) (cM (cN 2) (cR (cM (cW (cV 1) 6) (cA (cN 1) (cV 1))))))) (cM (cA (cN 1) (cV 1)) (cR (cM (cM (cV 1) (cA (cN 5) (cM (cN 2) (cV 1)))) (cA (cA (cN 6) (cM (cN 7) (cV 1))) (cM (cN 2) (cW (cV 1) 4))))))).
Definition SPSU2T_e290 := (cO (cD (cA (cN 3) (cV 1)) (cR (cA (cA (cA (cN 11) (cD (cN 6) (cV 1))) (cM (cN 6) (cV 1))) (cW (cV 1) 4))))).
Definition SPSU2T_e291 := (cD (cM (cR (cD (cA (cN 2) (cM (cN 4) (cV 1))) (cA (cM (cN 5) (cV 1)) (cM (cN 2) (cW (cV 1) 4))))) (cA (cB (cA (cB (cA (cB (cB (cM (cM (cM (cM (cN 2) (cA (cN 1) (cM (cN 2) (cH 0)))) (cR (cD (cM (cM (cV 1) (cA (cN 1) (cV 1))) (cA (cN 1) (cM (cN 2) (cV 1)))) (cA (cN 2) (cV 1))))) (cW (cA (cN 3) (cM (cN 2) (cV 1))) 3)) (cA (cA (cN 2) (cM (cN 3) (cV 1))) (cW (cV 1) 4))) (cM (cM (cM (cM (cA (cN 1) (cM (cN 2) (cH 0))) (cV 1)) (cR (cD (cM (cM (cV 1) (cA (cN 1) (cV 1))) (cA (cN 1) (cM (cN 2) (cV 1)))) (cA (cN 2) (cV 1))))) (cW (cA (cN 3) (cM (cN 2) (cV 1))) 3)) (cA (cA (cN 2) (cM (cN 3) (cV 1))) (cW (cV 1) 4)))) (cM (cM (cM (cN 9) (cA (cN 1) (cM (cN 2) (cH 0)))) (cW (cV 1) 3)) (cR (cM (cM (cA (cN 1) (cV 1)) (cA (cN 1) (cM (cN 2) (cV 1)))) (cA (cA (cN 6) (cM (cN 7) (cV 1))) (cM (cN 2) (cW (cV 1) 4))))))) (cM (cM (cN 6) (cA (cN 1) (cM (cN 2) (cH 0)))) (cR (cM (cM (cM (cV 1) (cA (cN 1) (cV 1))) (cA (cN 1) (cM (cN 2) (cV 1)))) (cA (cA (cN 6) (cM (cN 7) (cV 1))) (cM (cN 2) (cW (cV 1) 4))))))) (cM (cM (cM (cM (cN 6) (cA (cN 1) (cM (cN 2) (cH 0)))) (cW (cV 1) 3)) (cR (cD (cA (cA (cN 1) (cM (cN 3) (cV 1))) (cM (cN 2) (cW (cV 1) 4))) (cA (cA (cN 6) (cM (cN 7) (cV 1))) (cM (cN 2) (cW (cV 1) 4)))))) (cA (cA (cA (cN 6) (cM (cN 13) (cV 1))) (cM (cN 9) (cW (cV 1) 4))) (cM (cN 2) (cW (cV 1) 6))))) (cM (cM (cM (cN 6) (cA (cN 1) (cM (cN 2) (cH 0)))) (cR (cD (cM (cV 1) (cA (cA (cN 1) (cM (cN 3) (cV 1))) (cM (cN 2) (cW (cV 1) 4)))) (cA (cA (cN 6) (cM (cN 7) (cV 1))) (cM (cN 2) (cW (cV 1) 4)))))) (cA (cA (cA (cN 6) (cM (cN 13) (cV 1))) (cM (cN 9) (cW (cV 1) 4))) (cM (cN 2) (cW (cV 1) 6))))) (cM (cM (cM (cN 6) (cA (cN 1) (cM (cN 2) (cH 0)))) (cA (cN (-1)) (cM (cN 2) (cV 1)))) (cR (cD (cM (cV 1) (cA (cA (cA (cN 6) (cM (cN 13) (cV 1))) (cM (cN 9) (cW (cV 1) 4))) (cM (cN 2) (cW (cV 1) 6)))) (cA (cN 1) (cM (cN 2) (cV 1))))))) (cR (cM (cM (cM (cW (cA (cN 1) (cM (cN 2) (cH 0))) 4) (cV 1)) (cA (cN 1) (cM (cN 2) (cV 1)))) (cW (cA (cA (cA (cN 6) (cM (cN 13) (cV 1))) (cM (cN 9) (cW (cV 1) 4))) (cM (cN 2) (cW (cV 1) 6))) 6))))) (cM (cM (cW (cA (cN 1) (cM (cN 2) (cH 0))) 4) (cA (cN 1) (cV 1))) (cW (cA (cA (cN 6) (cM (cN 7) (cV 1))) (cM (cN 2) (cW (cV 1) 4))) 4))).
Definition SPSU2T_e292 := (cO (cD (cM (cA (cN 3) (cV 1)) (cR (cD (cV 1) (cA (cA (cA (cN 6) (cM (cN 11) (cV 1))) (cM (cN 6) (cW (cV 1) 4))) (cW (cV 1) 6))))) (cA (cN 1) (cM (cN 2) (cH 0))))).
Definition SPSU2T_e293 := (cD (cM (cN (-2)) (cR (cD (cM (cM (cH 0) (cA (cN 1) (cH 0))) (cA (cB (cN (-2)) (cV 1)) (cW (cV 1) 4))) (cM (cA (cN (-1)) (cV 1)) (cV 1))))) (cA (cN 1) (cM (cN 2) (cH 0)))).
Definition SPSU2T_e294 := (cD (cM (cM (cN (-2)) (cR (cN 2))) (cR (cD (cM (cM (cH 0) (cA (cN 1) (cH 0))) (cA (cN (-3)) (cM (cN 2) (cV 1)))) (cM (cV 1) (cA (cB (cN 1) (cM (cN 3) (cV 1))) (cM (cN 2) (cW (cV 1) 4))))))) (cA (cN 1) (cM (cN 2) (cH 0)))).
Definition SPSU2T_e295 := (cD (cM (cM (cM (cN 2) (cR (cN 2))) (cR (cD (cA (cN 1) (cH 0)) (cV 1)))) (cB (cA (cA (cM (cN 2) (cR (cD (cH 0) (cA (cN (-1)) (cV 1))))) (cM (cM (cN 2) (cH 0)) (cR (cD (cH 0) (cA (cN (-1)) (cV 1)))))) (cR (cM (cH 0) (cA (cN (-1)) (cV 1))))) (cM (cR (cD (cH 0) (cA (cN (-1)) (cV 1)))) (cV 1)))) (cW (cA (cN 1) (cM (cN 2) (cH 0))) 4)).
Definition SPSU2T_e296 := (cD (cM (cM (cN (-2)) (cA (cN 1) (cH 0))) (cA (cM (cN (-3)) (cA (cM (cN 2) (cR (cD (cH 0) (cM (cA (cN 1) (cH 0)) (cA (cN (-1)) (cV 1)))))) (cR (cD (cM (cH 0) (cA (cN (-1)) (cV 1))) (cA (cN 1) (cH 0)))))) (cM (cA (cM (cN 4) (cR (cD (cH 0) (cM (cA (cN 1) (cH 0)) (cA (cN (-1)) (cV 1)))))) (cR (cD (cM (cH 0) (cA (cN (-1)) (cV 1))) (cA (cN 1) (cH 0))))) (cV 1)))) (cM (cR (cA (cN 1) (cV 1))) (cA (cV 1) (cM (cM (cN 2) (cH 0)) (cV 1))))).
Definition SPSU2T_e297 := (cD (cM (cM (cM (cN (-2)) (cR (cN 3))) (cA (cN 1) (cH 0))) (cA (cB (cA (cM (cN 6) (cR (cD (cM (cH 0) (cA (cN (-1)) (cV 1))) (cM (cA (cN 1) (cH 0)) (cA (cA (cN 3) (cM (cN 8) (cV 1))) (cM (cN 4) (cW (cV 1) 4))))))) (cM (cN 3) (cR (cD (cH 0) (cM (cA (cN 1) (cH 0)) (cA (cA (cB (cN (-3)) (cM (cN 5) (cV 1))) (cM (cN 4) (cW (cV 1) 4))) (cM (cN 4) (cW (cV 1) 6)))))))) (cM (cM (cN 5) (cV 1)) (cR (cD (cH 0) (cM (cA (cN 1) (cH 0)) (cA (cA (cB (cN (-3)) (cM (cN 5) (cV 1))) (cM (cN 4) (cW (cV 1) 4))) (cM (cN 4) (cW (cV 1) 6)))))))) (cM (cM (cN 2) (cW (cV 1) 4)) (cR (cD (cH 0) (cM (cA (cN 1) (cH 0)) (cA (cA (cB (cN (-3)) (cM (cN 5) (cV 1))) (cM (cN 4) (cW (cV 1) 4))) (cM (cN 4) (cW (cV 1) 6))))))))) (cM (cR (cA (cN 1) (cV 1))) (cA (cV 1) (cM (cM (cN 2) (cH 0)) (cV 1))))).
Definition SPSU2T_e298 := (cD (cM (cM (cM (cN 2) (cR (cN 3))) (cA (cN 1) (cH 0))) (cB (cA (cA (cM (cN 3) (cR (cD (cM (cH 0) (cA (cN (-1)) (cV 1))) (cM (cA (cN 1) (cH 0)) (cA (cA (cN (-3)) (cM (cN 4) (cV 1))) (cM (cN 4) (cW (cV 1) 4))))))) (cM (cM (cN 2) (cW (cV 1) 6)) (cR (cD (cH 0) (cM (cA (cN 1) (cH 0)) (cA (cB (cN 3) (cM (cN 7) (cV 1))) (cM (cN 4) (cW (cV 1) 6)))))))) (cM (cV 1) (cA (cM (cN 3) (cR (cD (cM (cH 0) (cA (cN (-1)) (cV 1))) (cM (cA (cN 1) (cH 0)) (cA (cA (cN (-3)) (cM (cN 4) (cV 1))) (cM (cN 4) (cW (cV 1) 4))))))) (cR (cD (cH 0) (cM (cA (cN 1) (cH 0)) (cA (cB (cN 3) (cM (cN 7) (cV 1))) (cM (cN 4) (cW (cV 1) 6))))))))) (cM (cW (cV 1) 4) (cA (cM (cN 2) (cR (cD (cM (cH 0) (cA (cN (-1)) (cV 1))) (cM (cA (cN 1) (cH 0)) (cA (cA (cN (-3)) (cM (cN 4) (cV 1))) (cM (cN 4) (cW (cV 1) 4))))))) (cM (cN 3) (cR (cD (cH 0) (cM (cA (cN 1) (cH 0)) (cA (cB (cN 3) (cM (cN 7) (cV 1))) (cM (cN 4) (cW (cV 1) 6))))))))))) (cM (cR (cA (cN 1) (cV 1))) (cA (cV 1) (cM (cM (cN 2) (cH 0)) (cV 1))))).
Definition SPSU2T_e299 := (cM (cQ (-1) 2) (cM (cR (cA (cN 1) (cV 1))) (cA (cA (cA (cA (cA (cM (cN 36) (cR (cD (cM (cH 0) (cW (cA (cN (-1)) (cV 1)) 4)) (cM (cM (cM (cA (cN 1) (cH 0)) (cW (cV 1) 4)) (cW (cA (cN 1) (cV 1)) 6)) (cW (cA (cN 3) (cM (cN 2) (cV 1))) 4))))) (cD (cM (cM (cN 36) (cR (cD (cH 0) (cA (cN 1) (cH 0))))) (cA (cN (-1)) (cV 1))) (cM (cM (cM (cA (cN 1) (cM (cN 2) (cH 0))) (cV 1)) (cW (cA (cN 1) (cV 1)) 3)) (cA (cN 3) (cM (cN 2) (cV 1)))))) (cD (cM (cM (cM (cN 2) (cR (cD (cH 0) (cA (cN 1) (cH 0))))) (cA (cN (-3)) (cV 1))) (cA (cN (-1)) (cM (cN 2) (cV 1)))) (cM (cW (cA (cN 1) (cV 1)) 3) (cA (cN 3) (cM (cN 2) (cV 1)))))) (cD (cM (cM (cN 2) (cA (cN (-3)) (cV 1))) (cA (cN (-1)) (cM (cN 2) (cV 1)))) (cM (cR (cD (cM (cM (cA (cN 1) (cH 0)) (cW (cA (cN 1) (cM (cN 2) (cH 0))) 4)) (cA (cN 1) (cV 1))) (cH 0))) (cA (cA (cN 3) (cM (cN 5) (cV 1))) (cM (cN 2) (cW (cV 1) 4)))))) (cD (cM (cM (cM (cN 6) (cA (cN (-3)) (cM (cN 2) (cV 1)))) (cA (cN (-1)) (cM (cN 2) (cV 1)))) (cR (cD (cH 0) (cA (cA (cA (cN 1) (cH 0)) (cV 1)) (cM (cH 0) (cV 1)))))) (cM (cV 1) (cA (cA (cN 3) (cM (cN 5) (cV 1))) (cM (cN 2) (cW (cV 1) 4)))))) (cD (cM (cM (cN 6) (cA (cN (-3)) (cM (cN 2) (cV 1)))) (cA (cN (-1)) (cM (cN 2) (cV 1)))) (cM (cR (cD (cM (cM (cA (cN 1) (cH 0)) (cA (cN 1) (cV 1))) (cW (cA (cV 1) (cM (cM (cN 2) (cH 0)) (cV 1))) 4)) (cH 0))) (cA (cA (cN 3) (cM (cN 5) (cV 1))) (cM (cN 2) (cW (cV 1) 4)))))))).
Definition SPSU2T_e300 := (cO (cM (cM (cR (cN 3)) (cR (cA (cN 1) (cV 1)))) (cA (cA (cA (cA (cA (cM (cN 12) (cR (cD (cM (cH 0) (cA (cN (-1)) (cM (cN 2) (cV 1)))) (cM (cM (cM (cA (cN 1) (cH 0)) (cV 1)) (cA (cN 2) (cV 1))) (cW (cA (cA (cN 3) (cM (cN 5) (cV 1))) (cM (cN 2) (cW (cV 1) 4))) 6))))) (cM (cM (cM (cM (cN 2) (cA (cN (-1)) (cV 1))) (cV 1)) (cA (cN (-1)) (cM (cN 2) (cV 1)))) (cR (cD (cH 0) (cM (cM (cM (cA (cN 1) (cH 0)) (cV 1)) (cA (cA (cN (-2)) (cM (cN 3) (cV 1))) (cM (cN 2) (cW (cV 1) 4)))) (cW (cA (cA (cN 3) (cM (cN 5) (cV 1))) (cM (cN 2) (cW (cV 1) 4))) 6)))))) (cM (cM (cM (cN 3) (cA (cN (-1)) (cM (cN 2) (cV 1)))) (cA (cN (-2)) (cM (cN 3) (cV 1)))) (cR (cD (cH 0) (cM (cM (cM (cA (cN 1) (cH 0)) (cV 1)) (cA (cA (cN (-2)) (cM (cN 3) (cV 1))) (cM (cN 2) (cW (cV 1) 4)))) (cW (cA (cA (cN 3) (cM (cN 5) (cV 1))) (cM (cN 2) (cW (cV 1) 4))) 6)))))) (cD (cM (cN 12) (cR (cD (cM (cH 0) (cA (cN (-1)) (cM (cN 2) (cV 1)))) (cM (cM (cM (cA (cN 1) (cH 0)) (cW (cA (cN 1) (cM (cN 2) (cH 0))) 4)) (cV 1)) (cA (cA (cA (cN 6) (cM (cN 13) (cV 1))) (cM (cN 9) (cW (cV 1) 4))) (cM (cN 2) (cW (cV 1) 6))))))) (cA (cA (cN 3) (cM (cN 5) (cV 1))) (cM (cN 2) (cW (cV 1) 4))))) (cD (cM (cM (cM (cM (cN 2) (cA (cN (-1)) (cV 1))) (cV 1)) (cA (cN (-1)) (cM (cN 2) (cV 1)))) (cR (cD (cH 0) (cM (cM (cM (cA (cN 1) (cH 0)) (cW (cA (cN 1) (cM (cN 2) (cH 0))) 4)) (cV 1)) (cA (cA (cA (cB (cN (-6)) (cV 1)) (cM (cN 17) (cW (cV 1) 4))) (cM (cN 16) (cW (cV 1) 6))) (cM (cN 4) (cW (cV 1) 8))))))) (cA (cA (cN 3) (cM (cN 5) (cV 1))) (cM (cN 2) (cW (cV 1) 4))))) (cD (cM (cM (cM (cN 3) (cA (cN (-1)) (cM (cN 2) (cV 1)))) (cA (cN (-2)) (cM (cN 3) (cV 1)))) (cR (cD (cH 0) (cM (cM (cM (cA (cN 1) (cH 0)) (cW (cA (cN 1) (cM (cN 2) (cH 0))) 4)) (cV 1)) (cA (cA (cA (cB (cN (-6)) (cV 1)) (cM (cN 17) (cW (cV 1) 4))) (cM (cN 16) (cW (cV 1) 6))) (cM (cN 4) (cW (cV 1) 8))))))) (cA (cA (cN 3) (cM (cN 5) (cV 1))) (cM (cN 2) (cW (cV 1) 4))))))).
Definition SPSU2T_e301 := (cM (cQ (-1) 2) (cM (cM (cR (cN 3)) (cR (cA (cN 1) (cV 1)))) (cB (cA (cA (cA (cA (cA (cB (cD (cN 12) (cR (cD (cM (cM (cM (cM (cM (cM (cA (cN 1) (cH 0)) (cW (cA (cN 1) (cM (cN 2) (cH 0))) 4)) (cV 1)) (cW (cA (cN 1) (cV 1)) 6)) (cA (cN 2) (cV 1))) (cA (cN 1) (cM (cN 2) (cV 1)))) (cW (cA (cN 3) (cM (cN 2) (cV 1))) 4)) (cM (cM (cH 0) (cW (cA (cN (-1)) (cV 1)) 4)) (cA (cN (-1)) (cM (cN 2) (cV 1))))))) (cD (cM (cM (cN 2) (cV 1)) (cA (cN (-1)) (cM (cN 2) (cV 1)))) (cR (cD (cM (cM (cM (cM (cA (cN 1) (cH 0)) (cV 1)) (cA (cN 2) (cV 1))) (cW (cA (cN 3) (cM (cN 2) (cV 1))) 4)) (cA (cA (cN (-1)) (cV 1)) (cM (cN 2) (cW (cV 1) 4)))) (cA (cH 0) (cM (cM (cN 2) (cH 0)) (cV 1))))))) (cM (cM (cM (cN 2) (cV 1)) (cA (cB (cN 3) (cM (cN 7) (cV 1))) (cM (cN 2) (cW (cV 1) 4)))) (cR (cD (cM (cH 0) (cA (cN 1) (cM (cN 2) (cV 1)))) (cM (cM (cM (cM (cA (cN 1) (cH 0)) (cV 1)) (cW (cA (cN 1) (cV 1)) 6)) (cW (cA (cN 3) (cM (cN 2) (cV 1))) 4)) (cA (cA (cN (-2)) (cM (cN 3) (cV 1))) (cM (cN 2) (cW (cV 1) 4)))))))) (cM (cM (cM (cN 2) (cV 1)) (cA (cB (cN 3) (cM (cN 7) (cV 1))) (cM (cN 2) (cW (cV 1) 4)))) (cR (cD (cM (cH 0) (cA (cN 1) (cM (cN 2) (cV 1)))) (cM (cM (cM (cM (cM (cA (cN 1) (cH 0)) (cW (cA (cN 1) (cM (cN 2) (cH 0))) 4)) (cV 1)) (cW (cA (cN 1) (cV 1)) 6)) (cW (cA (cN 3) (cM (cN 2) (cV 1))) 4)) (cA (cA (cN (-2)) (cM (cN 3) (cV 1))) (cM (cN 2) (cW (cV 1) 4)))))))) (cM (cM (cM (cN 6) (cV 1)) (cA (cN (-3)) (cM (cN 2) (cV 1)))) (cR (cD (cM (cH 0) (cA (cN (-1)) (cM (cN 2) (cV 1)))) (cM (cM (cM (cM (cA (cN 1) (cH 0)) (cV 1)) (cW (cA (cN 1) (cV 1)) 6)) (cW (cA (cN 3) (cM (cN 2) (cV 1))) 4)) (cA (cA (cN 2) (cM (cN 5) (cV 1))) (cM (cN 2) (cW (cV 1) 4)))))))) (cM (cN 12) (cR (cD (cM (cM (cH 0) (cW (cA (cN (-1)) (cV 1)) 4)) (cA (cN (-1)) (cM (cN 2) (cV 1)))) (cM (cM (cM (cM (cA (cN 1) (cH 0)) (cV 1)) (cW (cA (cN 1) (cV 1)) 6)) (cW (cA (cN 3) (cM (cN 2) (cV 1))) 4)) (cA (cA (cN 2) (cM (cN 5) (cV 1))) (cM (cN 2) (cW (cV 1) 4)))))))) (cD (cM (cN 6) (cA (cN (-3)) (cM (cN 2) (cV 1)))) (cM (cR (cD (cM (cM (cM (cA (cN 1) (cH 0)) (cW (cA (cN 1) (cM (cN 2) (cH 0))) 4)) (cA (cN 2) (cV 1))) (cA (cA (cN 1) (cM (cN 3) (cV 1))) (cM (cN 2) (cW (cV 1) 4)))) (cM (cM (cH 0) (cV 1)) (cA (cN (-1)) (cM (cN 2) (cV 1)))))) (cA (cA (cN 3) (cM (cN 5) (cV 1))) (cM (cN 2) (cW (cV 1) 4)))))) (cM (cM (cM (cN 2) (cV 1)) (cA (cN (-1)) (cM (cN 2) (cV 1)))) (cR (cD (cM (cH 0) (cA (cN 1) (cM (cN 2) (cV 1)))) (cM (cM (cM (cM (cA (cN 1) (cH 0)) (cW (cA (cN 1) (cM (cN 2) (cH 0))) 4)) (cV 1)) (cW (cA (cN 3) (cM (cN 2) (cV 1))) 4)) (cA (cA (cA (cN (-2)) (cV 1)) (cM (cN 5) (cW (cV 1) 4))) (cM (cN 2) (cW (cV 1) 6)))))))))).
Definition SPSU2T_e302 := (cM (cQ (-1) 2) (cM (cR (cA (cN 1) (cV 1))) (cA (cA (cA (cA (cA (cA (cA (cD (cM (cM (cN 2) (cA (cN (-2)) (cV 1))) (cV 1)) (cR (cD (cM (cM (cM (cM (cA (cN 1) (cH 0)) (cV 1)) (cA (cN 1) (cV 1))) (cW (cA (cN 2) (cV 1)) 6)) (cW (cA (cN 3) (cM (cN 2) (cV 1))) 4)) (cM (cH 0) (cW (cA (cN 1) (cM (cN 2) (cV 1))) 4))))) (cM (cM (cM (cN 2) (cA (cN (-2)) (cV 1))) (cV 1)) (cR (cD (cM (cH 0) (cW (cA (cN 1) (cM (cN 2) (cV 1))) 4)) (cM (cM (cM (cM (cA (cN 1) (cH 0)) (cW (cA (cN 1) (cM (cN 2) (cH 0))) 4)) (cW (cA (cN 2) (cV 1)) 6)) (cW (cA (cN 3) (cM (cN 2) (cV 1))) 4)) (cA (cV 1) (cW (cV 1) 4))))))) (cM (cM (cM (cN 18) (cV 1)) (cA (cN (-2)) (cM (cN 3) (cV 1)))) (cR (cD (cH 0) (cM (cM (cM (cA (cN 1) (cH 0)) (cV 1)) (cW (cA (cN 3) (cM (cN 2) (cV 1))) 4)) (cW (cA (cA (cN 2) (cM (cN 3) (cV 1))) (cW (cV 1) 4)) 6)))))) (cM (cM (cM (cN 12) (cA (cN (-1)) (cV 1))) (cV 1)) (cR (cD (cM (cH 0) (cW (cA (cN 1) (cM (cN 2) (cV 1))) 4)) (cM (cM (cM (cA (cN 1) (cH 0)) (cV 1)) (cW (cA (cN 3) (cM (cN 2) (cV 1))) 4)) (cW (cA (cA (cN 2) (cM (cN 3) (cV 1))) (cW (cV 1) 4)) 6)))))) (cD (cM (cM (cM (cN 12) (cA (cN (-1)) (cV 1))) (cR (cD (cM (cH 0) (cV 1)) (cA (cN 1) (cH 0))))) (cA (cN 1) (cM (cN 2) (cV 1)))) (cM (cM (cA (cN 1) (cM (cN 2) (cH 0))) (cA (cN 3) (cM (cN 2) (cV 1)))) (cW (cA (cA (cN 2) (cM (cN 3) (cV 1))) (cW (cV 1) 4)) 3)))) (cD (cM (cM (cN 24) (cA (cN (-1)) (cM (cN 2) (cV 1)))) (cR (cD (cH 0) (cA (cV 1) (cM (cH 0) (cV 1)))))) (cM (cA (cN 3) (cM (cN 2) (cV 1))) (cW (cA (cA (cN 2) (cM (cN 3) (cV 1))) (cW (cV 1) 4)) 3)))) (cD (cM (cN 18) (cA (cN (-2)) (cM (cN 3) (cV 1)))) (cM (cR (cD (cM (cM (cA (cN 1) (cH 0)) (cW (cA (cN 1) (cM (cN 2) (cH 0))) 4)) (cA (cA (cN 2) (cM (cN 3) (cV 1))) (cW (cV 1) 4))) (cM (cH 0) (cV 1)))) (cA (cA (cA (cN 6) (cM (cN 13) (cV 1))) (cM (cN 9) (cW (cV 1) 4))) (cM (cN 2) (cW (cV 1) 6)))))) (cD (cM (cN 24) (cA (cN (-1)) (cM (cN 2) (cV 1)))) (cM (cM (cA (cN 1) (cM (cN 2) (cH 0))) (cR (cD (cM (cM (cA (cN 1) (cH 0)) (cV 1)) (cA (cA (cN 2) (cM (cN 3) (cV 1))) (cW (cV 1) 4))) (cH 0)))) (cA (cA (cA (cN 6) (cM (cN 13) (cV 1))) (cM (cN 9) (cW (cV 1) 4))) (cM (cN 2) (cW (cV 1) 6)))))))).
Definition SPSU2T_e303 := (cO (cM (cM (cM (cR (cN 2)) (cV 1)) (cR (cD (cM (cA (cN 1) (cM (cN 2) (cH 0))) (cW (cA (cN 1) (cM (cN 2) (cV 1))) 4)) (cM (cM (cM (cM (cW (cA (cN 1) (cH 0)) 10) (cW (cV 1) 8)) (cW (cA (cN 1) (cV 1)) 6)) (cA (cN 5) (cM (cN 2) (cV 1)))) (cW (cA (cA (cN 6) (cM (cN 7) (cV 1))) (cM (cN 2) (cW (cV 1) 4))) 12))))) (cA (cA (cA (cA (cA (cA (cA (cM (cN 2) (cR (cD (cM (cM (cM (cM (cH 0) (cW (cA (cN 1) (cH 0)) 8)) (cW (cV 1) 8)) (cW (cA (cN 2) (cV 1)) 6)) (cW (cA (cA (cN 3) (cM (cN 5) (cV 1))) (cM (cN 2) (cW (cV 1) 4))) 8)) (cM (cA (cN 1) (cM (cN 2) (cH 0))) (cA (cN 5) (cM (cN 2) (cV 1))))))) (cD (cM (cM (cM (cM (cM (cN 9) (cW (cA (cN 1) (cH 0)) 4)) (cW (cV 1) 4)) (cA (cN 1) (cV 1))) (cW (cA (cA (cN 6) (cM (cN 7) (cV 1))) (cM (cN 2) (cW (cV 1) 4))) 4)) (cR (cD (cH 0) (cA (cA (cN 10) (cM (cN 9) (cV 1))) (cM (cN 2) (cW (cV 1) 4)))))) (cW (cA (cN 1) (cM (cN 2) (cH 0))) 3))) (cD (cM (cM (cM (cM (cM (cN 2) (cW (cA (cN 1) (cH 0)) 4)) (cW (cV 1) 4)) (cW (cA (cN 1) (cV 1)) 4)) (cW (cA (cA (cN 6) (cM (cN 7) (cV 1))) (cM (cN 2) (cW (cV 1) 4))) 4)) (cR (cD (cH 0) (cA (cA (cN 10) (cM (cN 9) (cV 1))) (cM (cN 2) (cW (cV 1) 4)))))) (cW (cA (cN 1) (cM (cN 2) (cH 0))) 3))) (cD (cM (cM (cM (cM (cM (cN 30) (cW (cA (cN 1) (cH 0)) 4)) (cV 1)) (cA (cN 1) (cV 1))) (cW (cA (cA (cN 6) (cM (cN 7) (cV 1))) (cM (cN 2) (cW (cV 1) 4))) 4)) (cR (cD (cH 0) (cA (cA (cN 10) (cM (cN 9) (cV 1))) (cM (cN 2) (cW (cV 1) 4)))))) (cM (cW (cA (cN 1) (cM (cN 2) (cH 0))) 3) (cA (cN 1) (cM (cN 2) (cV 1)))))) (cD (cM (cM (cM (cM (cM (cN 36) (cW (cA (cN 1) (cH 0)) 4)) (cW (cV 1) 4)) (cA (cN 1) (cV 1))) (cW (cA (cA (cN 6) (cM (cN 7) (cV 1))) (cM (cN 2) (cW (cV 1) 4))) 4)) (cR (cD (cH 0) (cA (cA (cN 10) (cM (cN 9) (cV 1))) (cM (cN 2) (cW (cV 1) 4)))))) (cM (cW (cA (cN 1) (cM (cN 2) (cH 0))) 3) (cA (cN 1) (cM (cN 2) (cV 1)))))) (cM (cM (cM (cM (cM (cN 9) (cW (cA (cN 1) (cH 0)) 4)) (cW (cV 1) 4)) (cA (cN 1) (cV 1))) (cW (cA (cA (cN 6) (cM (cN 7) (cV 1))) (cM (cN 2) (cW (cV 1) 4))) 4)) (cR (cD (cH 0) (cM (cA (cN 1) (cM (cN 2) (cH 0))) (cA (cA (cN 10) (cM (cN 9) (cV 1))) (cM (cN 2) (cW (cV 1) 4)))))))) (cD (cM (cM (cM (cM (cM (cN 30) (cW (cA (cN 1) (cH 0)) 4)) (cV 1)) (cA (cN 1) (cV 1))) (cW (cA (cA (cN 6) (cM (cN 7) (cV 1))) (cM (cN 2) (cW (cV 1) 4))) 4)) (cR (cD (cH 0) (cM (cA (cN 1) (cM (cN 2) (cH 0))) (cA (cA (cN 10) (cM (cN 9) (cV 1))) (cM (cN 2) (cW (cV 1) 4))))))) (cA (cN 1) (cM (cN 2) (cV 1))))) (cD (cM (cM (cM (cM (cM (cN 36) (cW (cA (cN 1) (cH 0)) 4)) (cW (cV 1) 4)) (cA (cN 1) (cV 1))) (cW (cA (cA (cN 6) (cM (cN 7) (cV 1))) (cM (cN 2) (cW (cV 1) 4))) 4)) (cR (cD (cH 0) (cM (cA (cN 1) (cM (cN 2) (cH 0))) (cA (cA (cN 10) (cM (cN 9) (cV 1))) (cM (cN 2) (cW (cV 1) 4))))))) (cA (cN 1) (cM (cN 2) (cV 1))))))).
Definition SPSU2T_e304 := (cO (cM (cM (cR (cN 2)) (cR (cA (cN 1) (cV 1)))) (cA (cA (cA (cB (cB (cA (cA (cA (cA (cD (cM (cM (cM (cN 6) (cA (cN (-1)) (cV 1))) (cA (cN 1) (cM (cN 2) (cV 1)))) (cR (cD (cH 0) (cM (cA (cN 1) (cH 0)) (cA (cN 5) (cM (cN 2) (cV 1))))))) (cW (cA (cA (cN 6) (cM (cN 7) (cV 1))) (cM (cN 2) (cW (cV 1) 4))) 3)) (cD (cM (cM (cM (cN 6) (cA (cN (-1)) (cV 1))) (cA (cN 1) (cM (cN 2) (cV 1)))) (cR (cD (cH 0) (cM (cA (cN 1) (cH 0)) (cA (cN 5) (cM (cN 2) (cV 1))))))) (cM (cA (cN 1) (cM (cN 2) (cH 0))) (cW (cA (cA (cN 6) (cM (cN 7) (cV 1))) (cM (cN 2) (cW (cV 1) 4))) 3)))) (cD (cM (cM (cM (cN 3) (cA (cN 1) (cM (cN 2) (cV 1)))) (cR (cD (cH 0) (cM (cA (cN 1) (cH 0)) (cA (cN 5) (cM (cN 2) (cV 1))))))) (cA (cN (-2)) (cM (cN 3) (cV 1)))) (cM (cA (cN 1) (cV 1)) (cW (cA (cA (cN 6) (cM (cN 7) (cV 1))) (cM (cN 2) (cW (cV 1) 4))) 3)))) (cD (cM (cM (cM (cN 3) (cA (cN 1) (cM (cN 2) (cV 1)))) (cR (cD (cH 0) (cM (cA (cN 1) (cH 0)) (cA (cN 5) (cM (cN 2) (cV 1))))))) (cA (cN (-2)) (cM (cN 3) (cV 1)))) (cM (cM (cA (cN 1) (cM (cN 2) (cH 0))) (cA (cN 1) (cV 1))) (cW (cA (cA (cN 6) (cM (cN 7) (cV 1))) (cM (cN 2) (cW (cV 1) 4))) 3)))) (cD (cM (cM (cA (cN (-2)) (cV 1)) (cA (cN 1) (cM (cN 2) (cV 1)))) (cR (cD (cH 0) (cM (cA (cN 1) (cH 0)) (cA (cA (cN 15) (cM (cN 16) (cV 1))) (cM (cN 4) (cW (cV 1) 4))))))) (cW (cA (cN 2) (cV 1)) 3))) (cM (cA (cN 1) (cM (cN 2) (cV 1))) (cR (cD (cH 0) (cM (cA (cN 1) (cH 0)) (cA (cA (cA (cN 30) (cM (cN 47) (cV 1))) (cM (cN 24) (cW (cV 1) 4))) (cM (cN 4) (cW (cV 1) 6)))))))) (cD (cM (cA (cN 1) (cM (cN 2) (cV 1))) (cR (cD (cH 0) (cM (cA (cN 1) (cH 0)) (cA (cA (cA (cN 30) (cM (cN 47) (cV 1))) (cM (cN 24) (cW (cV 1) 4))) (cM (cN 4) (cW (cV 1) 6))))))) (cA (cN 1) (cM (cN 2) (cH 0))))) (cD (cM (cM (cA (cN (-2)) (cV 1)) (cA (cN 1) (cM (cN 2) (cV 1)))) (cR (cD (cH 0) (cM (cA (cN 1) (cH 0)) (cA (cA (cA (cN 30) (cM (cN 47) (cV 1))) (cM (cN 24) (cW (cV 1) 4))) (cM (cN 4) (cW (cV 1) 6))))))) (cM (cA (cN 1) (cM (cN 2) (cH 0))) (cA (cN 2) (cV 1))))) (cD (cM (cM (cN 6) (cA (cN (-1)) (cM (cN 2) (cV 1)))) (cR (cD (cH 0) (cM (cA (cN 1) (cH 0)) (cA (cA (cA (cN 30) (cM (cN 47) (cV 1))) (cM (cN 24) (cW (cV 1) 4))) (cM (cN 4) (cW (cV 1) 6))))))) (cM (cA (cN 1) (cV 1)) (cA (cA (cN 6) (cM (cN 7) (cV 1))) (cM (cN 2) (cW (cV 1) 4)))))) (cD (cM (cM (cN 6) (cA (cN (-1)) (cM (cN 2) (cV 1)))) (cR (cD (cH 0) (cM (cA (cN 1) (cH 0)) (cA (cA (cA (cN 30) (cM (cN 47) (cV 1))) (cM (cN 24) (cW (cV 1) 4))) (cM (cN 4) (cW (cV 1) 6))))))) (cM (cA (cN 1) (cM (cN 2) (cH 0))) (cA (cA (cA (cN 6) (cM (cN 13) (cV 1))) (cM (cN 9) (cW (cV 1) 4))) (cM (cN 2) (cW (cV 1) 6)))))))).
Definition SPSU2T_e305 := (cD (cM (cR (cD (cM (cA (cN 1) (cV 1)) (cA (cN 1) (cM (cN 2) (cV 1)))) (cA (cN 1) (cM (cN 2) (cH 0))))) (cB (cB (cB (cB (cB (cB (cB (cB (cB (cM (cN (-60)) (cR (cD (cM (cM (cM (cH 0) (cA (cN 1) (cH 0))) (cV 1)) (cA (cN 5) (cM (cN 2) (cV 1)))) (cM (cM (cA (cN 1) (cM (cN 2) (cH 0))) (cA (cN 1) (cM (cN 2) (cV 1)))) (cA (cA (cN 6) (cM (cN 5) (cV 1))) (cW (cV 1) 4)))))) (cM (cN 60) (cR (cD (cM (cM (cM (cM (cH 0) (cA (cN 1) (cH 0))) (cA (cN 1) (cM (cN 2) (cH 0)))) (cV 1)) (cA (cN 5) (cM (cN 2) (cV 1)))) (cM (cA (cN 1) (cM (cN 2) (cV 1))) (cA (cA (cN 6) (cM (cN 5) (cV 1))) (cW (cV 1) 4))))))) (cM (cN 48) (cR (cD (cM (cM (cM (cM (cH 0) (cA (cN 1) (cH 0))) (cV 1)) (cA (cN 1) (cM (cN 2) (cV 1)))) (cA (cN 5) (cM (cN 2) (cV 1)))) (cM (cA (cN 1) (cM (cN 2) (cH 0))) (cA (cA (cN 6) (cM (cN 5) (cV 1))) (cW (cV 1) 4))))))) (cM (cM (cN 36) (cA (cN 1) (cV 1))) (cR (cD (cM (cM (cM (cM (cH 0) (cA (cN 1) (cH 0))) (cV 1)) (cA (cN 1) (cM (cN 2) (cV 1)))) (cA (cN 5) (cM (cN 2) (cV 1)))) (cM (cA (cN 1) (cM (cN 2) (cH 0))) (cA (cA (cN 6) (cM (cN 5) (cV 1))) (cW (cV 1) 4))))))) (cM (cM (cM (cN 8) (cA (cN 1) (cV 1))) (cA (cN 3) (cM (cN 2) (cV 1)))) (cR (cD (cM (cM (cM (cM (cH 0) (cA (cN 1) (cH 0))) (cV 1)) (cA (cN 1) (cM (cN 2) (cV 1)))) (cA (cN 5) (cM (cN 2) (cV 1)))) (cM (cA (cN 1) (cM (cN 2) (cH 0))) (cA (cA (cN 6) (cM (cN 5) (cV 1))) (cW (cV 1) 4))))))) (cM (cM (cN 36) (cA (cN 1) (cV 1))) (cR (cD (cM (cM (cM (cM (cM (cH 0) (cA (cN 1) (cH 0))) (cA (cN 1) (cM (cN 2) (cH 0)))) (cV 1)) (cA (cN 1) (cM (cN 2) (cV 1)))) (cA (cN 5) (cM (cN 2) (cV 1)))) (cA (cA (cN 6) (cM (cN 5) (cV 1))) (cW (cV 1) 4)))))) (cM (cM (cM (cN 8) (cA (cN 1) (cV 1))) (cA (cN 3) (cM (cN 2) (cV 1)))) (cR (cD (cM (cM (cM (cM (cM (cH 0) (cA (cN 1) (cH 0))) (cA (cN 1) (cM (cN 2) (cH 0)))) (cV 1)) (cA (cN 1) (cM (cN 2) (cV 1)))) (cA (cN 5) (cM (cN 2) (cV 1)))) (cA (cA (cN 6) (cM (cN 5) (cV 1))) (cW (cV 1) 4)))))) (cM (cN 48) (cR (cD (cM (cM (cM (cM (cH 0) (cA (cA (cN 1) (cM (cN 3) (cH 0))) (cM (cN 2) (cW (cH 0) 4)))) (cV 1)) (cA (cN 1) (cM (cN 2) (cV 1)))) (cA (cN 5) (cM (cN 2) (cV 1)))) (cA (cA (cN 6) (cM (cN 5) (cV 1))) (cW (cV 1) 4)))))) (cM (cM (cN 2) (cA (cA (cN 3) (cM (cN 5) (cV 1))) (cM (cN 2) (cW (cV 1) 4)))) (cR (cD (cM (cM (cM (cM (cM (cH 0) (cA (cN 1) (cH 0))) (cA (cN 1) (cM (cN 2) (cH 0)))) (cV 1)) (cA (cN 1) (cM (cN 2) (cV 1)))) (cA (cA (cN 10) (cM (cN 9) (cV 1))) (cM (cN 2) (cW (cV 1) 4)))) (cA (cN 3) (cV 1)))))) (cM (cM (cN 2) (cA (cA (cN 3) (cM (cN 5) (cV 1))) (cM (cN 2) (cW (cV 1) 4)))) (cR (cD (cM (cM (cM (cH 0) (cA (cN 1) (cH 0))) (cV 1)) (cA (cA (cA (cN 10) (cM (cN 29) (cV 1))) (cM (cN 20) (cW (cV 1) 4))) (cM (cN 4) (cW (cV 1) 6)))) (cM (cA (cN 1) (cM (cN 2) (cH 0))) (cA (cN 3) (cV 1)))))))) (cM (cM (cM (cN 2) (cA (cN 1) (cH 0))) (cW (cA (cN 5) (cM (cN 2) (cV 1))) 3)) (cA (cA (cA (cN 6) (cM (cN 13) (cV 1))) (cM (cN 9) (cW (cV 1) 4))) (cM (cN 2) (cW (cV 1) 6))))).
Definition SPSU2T_e306 := (cR (cD (cA (cN (-1)) (cW (cV 1) 4)) (cM (cA (cH 0) (cM (cN 2) (cW (cH 0) 4))) (cW (cV 1) 4)))).
Definition SPSU2T_e307 := (cD (cR (cD (cA (cN (-1)) (cM (cN 2) (cV 1))) (cM (cA (cH 0) (cM (cN 2) (cW (cH 0) 4))) (cA (cN 1) (cM (cN 2) (cV 1)))))) (cV 1)).
Definition SPSU2T_e308 := (cD (cA (cA (cN (-1)) (cV 1)) (cW (cV 1) 4)) (cM (cM (cR (cM (cH 0) (cA (cN 1) (cM (cN 2) (cH 0))))) (cV 1)) (cA (cN 1) (cV 1)))).
Definition SPSU2T_e309 := (cD (cN 1) (cM (cR (cM (cH 0) (cA (cN 1) (cM (cN 2) (cH 0))))) (cA (cN 1) (cV 1)))).
Definition SPSU2T_e310 := (cM (cR (cA (cN 1) (cV 1))) (cA (cA (cM (cN 2) (cR (cD (cM (cV 1) (cW (cA (cN 1) (cM (cN 2) (cV 1))) 4)) (cM (cM (cW (cA (cN 1) (cV 1)) 6) (cA (cN 2) (cV 1))) (cW (cA (cN 3) (cM (cN 2) (cV 1))) 4))))) (cD (cM (cA (cN 1) (cM (cN 2) (cV 1))) (cR (cD (cV 1) (cA (cA (cN 2) (cM (cN 3) (cV 1))) (cW (cV 1) 4))))) (cA (cN 3) (cM (cN 2) (cV 1))))) (cD (cM (cN 3) (cR (cD (cV 1) (cA (cA (cN 2) (cM (cN 3) (cV 1))) (cW (cV 1) 4))))) (cA (cA (cN 3) (cM (cN 5) (cV 1))) (cM (cN 2) (cW (cV 1) 4)))))).
Definition SPSU2T_e311 := (cD (cA (cM (cN (-2)) (cR (cM (cM (cA (cN 1) (cM (cN 2) (cH 0))) (cV 1)) (cA (cN 1) (cM (cN 2) (cV 1)))))) (cM (cA (cN (-1)) (cM (cN 2) (cV 1))) (cR (cD (cA (cV 1) (cM (cM (cN 2) (cH 0)) (cV 1))) (cA (cN 1) (cM (cN 2) (cV 1))))))) (cM (cM (cA (cN 1) (cM (cN 2) (cH 0))) (cA (cN 1) (cV 1))) (cR (cM (cM (cH 0) (cV 1)) (cA (cN 3) (cM (cN 2) (cV 1))))))).
Definition SPSU2T_e312 := (cD (cA (cA (cR (cD (cM (cV 1) (cA (cN 1) (cV 1))) (cA (cN 2) (cV 1)))) (cM (cN 5) (cR (cD (cV 1) (cA (cA (cN 2) (cM (cN 3) (cV 1))) (cW (cV 1) 4)))))) (cM (cM (cN 2) (cV 1)) (cA (cR (cD (cM (cV 1) (cA (cN 1) (cV 1))) (cA (cN 2) (cV 1)))) (cM (cN 2) (cR (cD (cV 1) (cA (cA (cN 2) (cM (cN 3) (cV 1))) (cW (cV 1) 4)))))))) (cM (cR (cD (cM (cH 0) (cA (cN 1) (cM (cN 2) (cH 0)))) (cA (cN 1) (cV 1)))) (cA (cA (cN 3) (cM (cN 5) (cV 1))) (cM (cN 2) (cW (cV 1) 4))))).
Definition SPSU2T_e313 := (cD (cA (cB (cR (cD (cM (cA (cN (-1)) (cM (cN 2) (cH 0))) (cA (cN (-1)) (cV 1))) (cM (cA (cH 0) (cM (cN 2) (cW (cH 0) 4))) (cV 1)))) (cR (cD (cB (cH 0) (cM (cH 0) (cV 1))) (cB (cV 1) (cM (cM (cN 4) (cW (cH 0) 4)) (cV 1)))))) (cM (cM (cN 2) (cH 0)) (cR (cD (cB (cH 0) (cM (cH 0) (cV 1))) (cB (cV 1) (cM (cM (cN 4) (cW (cH 0) 4)) (cV 1))))))) (cR (cD (cM (cA (cN 1) (cH 0)) (cV 1)) (cA (cN 1) (cV 1))))).
Definition SPSU2T_e314 := (cD (cA (cA (cO (cR (cD (cM (cH 0) (cA (cN (-1)) (cM (cN 2) (cV 1)))) (cM (cM (cA (cN (-1)) (cM (cN 4) (cW (cH 0) 4))) (cV 1)) (cA (cN 1) (cV 1)))))) (cM (cM (cN 2) (cH 0)) (cR (cD (cM (cH 0) (cA (cN (-1)) (cM (cN 2) (cV 1)))) (cM (cM (cA (cN (-1)) (cM (cN 4) (cW (cH 0) 4))) (cV 1)) (cA (cN 1) (cV 1))))))) (cR (cD (cM (cA (cN (-1)) (cM (cN 2) (cH 0))) (cA (cN (-1)) (cM (cN 2) (cV 1)))) (cM (cM (cH 0) (cA (cN 1) (cM (cN 2) (cH 0)))) (cA (cV 1) (cW (cV 1) 4)))))) (cR (cD (cM (cM (cA (cN 1) (cH 0)) (cV 1)) (cA (cN 1) (cM (cN 2) (cV 1)))) (cA (cN 1) (cV 1))))).
Definition SPSU2T_e315 := (cD (cN 1) (cR (cD (cM (cM (cA (cN 1) (cH 0)) (cA (cN 1) (cM (cN 2) (cH 0)))) (cW (cV 1) 4)) (cA (cN (-1)) (cW (cV 1) 4))))).
Definition SPSU2T_e316 := (cD (cN 1) (cR (cD (cM (cM (cM (cA (cN 1) (cH 0)) (cA (cN 1) (cM (cN 2) (cH 0)))) (cW (cV 1) 4)) (cA (cN 1) (cM (cN 2) (cV 1)))) (cA (cN (-1)) (cM (cN 2) (cV 1)))))).
Definition SPSU2T_e317 := (cO (cD (cA (cR (cA (cA (cB (cN (-1)) (cD (cN 1) (cH 0))) (cM (cN 4) (cH 0))) (cM (cN 4) (cW (cH 0) 4)))) (cR (cM (cH 0) (cA (cA (cB (cN (-1)) (cH 0)) (cM (cN 4) (cW (cH 0) 4))) (cM (cN 4) (cW (cH 0) 6)))))) (cM (cM (cA (cN 1) (cH 0)) (cA (cN 1) (cM (cN 2) (cH 0)))) (cV 1)))).
Definition SPSU2T_e318 := (cA (cA (cA (cD (cM (cA (cN (-1)) (cM (cN 2) (cH 0))) (cA (cN (-1)) (cV 1))) (cM (cR (cD (cM (cA (cN 1) (cH 0)) (cA (cN (-1)) (cM (cN 4) (cW (cH 0) 4)))) (cH 0))) (cA (cN 1) (cV 1)))) (cD (cM (cR (cA (cN (-1)) (cM (cN 2) (cH 0)))) (cA (cN (-1)) (cV 1))) (cM (cR (cA (cA (cH 0) (cM (cN 3) (cW (cH 0) 4))) (cM (cN 2) (cW (cH 0) 6)))) (cA (cN 1) (cV 1))))) (cD (cM (cM (cH 0) (cA (cN (-1)) (cM (cN 2) (cH 0)))) (cA (cN (-1)) (cM (cN 2) (cV 1)))) (cM (cM (cR (cM (cM (cH 0) (cA (cN 1) (cH 0))) (cA (cN (-1)) (cM (cN 4) (cW (cH 0) 4))))) (cV 1)) (cA (cN 1) (cV 1))))) (cD (cA (cN (-1)) (cM (cN 2) (cV 1))) (cM (cR (cD (cM (cM (cH 0) (cA (cN 1) (cH 0))) (cA (cN 1) (cM (cN 2) (cH 0)))) (cA (cN (-1)) (cM (cN 2) (cH 0))))) (cA (cV 1) (cW (cV 1) 4))))).
Definition SPSU2T_e319 := (cD (cA (cA (cO (cR (cD (cM (cA (cA (cN 1) (cM (cN 3) (cH 0))) (cM (cN 2) (cW (cH 0) 4))) (cA (cN 1) (cV 1))) (cH 0)))) (cR (cM (cM (cH 0) (cA (cA (cN 1) (cM (cN 3) (cH 0))) (cM (cN 2) (cW (cH 0) 4)))) (cA (cN 1) (cV 1))))) (cM (cM (cN 2) (cH 0)) (cR (cM (cM (cH 0) (cA (cA (cN 1) (cM (cN 3) (cH 0))) (cM (cN 2) (cW (cH 0) 4)))) (cA (cN 1) (cV 1)))))) (cM (cM (cM (cA (cN 1) (cH 0)) (cR (cA (cN (-1)) (cM (cN 2) (cH 0))))) (cA (cN 1) (cM (cN 2) (cH 0)))) (cW (cA (cN 1) (cV 1)) 3))).
Definition SPSU2T_e320 := (cD (cA (cA (cO (cR (cD (cA (cN 1) (cH 0)) (cA (cA (cA (cN 1) (cM (cN 2) (cH 0))) (cV 1)) (cM (cM (cN 2) (cH 0)) (cV 1)))))) (cM (cV 1) (cA (cO (cR (cD (cM (cA (cN 1) (cH 0)) (cA (cN 1) (cV 1))) (cA (cN 1) (cM (cN 2) (cH 0)))))) (cR (cD (cA (cN 1) (cH 0)) (cA (cA (cA (cN 1) (cM (cN 2) (cH 0))) (cV 1)) (cM (cM (cN 2) (cH 0)) (cV 1)))))))) (cM (cW (cV 1) 4) (cA (cR (cD (cM (cA (cN 1) (cH 0)) (cA (cN 1) (cV 1))) (cA (cN 1) (cM (cN 2) (cH 0))))) (cM (cN 2) (cR (cD (cA (cN 1) (cH 0)) (cA (cA (cA (cN 1) (cM (cN 2) (cH 0))) (cV 1)) (cM (cM (cN 2) (cH 0)) (cV 1))))))))) (cM (cM (cA (cN 1) (cH 0)) (cV 1)) (cW (cA (cN 1) (cV 1)) 3))).
Definition SPSU2T_e321 := (cD (cN 1) (cM (cR (cA (cA (cN 1) (cM (cN 3) (cH 0))) (cM (cN 2) (cW (cH 0) 4)))) (cA (cN 1) (cV 1)))).
Definition SPSU2T_e322 := (cM (cR (cA (cN 1) (cV 1))) (cA (cA (cA (cA (cA (cO (cD (cN 1) (cR (cD (cM (cM (cM (cM (cH 0) (cA (cN 1) (cH 0))) (cA (cN 1) (cM (cN 2) (cH 0)))) (cA (cN 1) (cV 1))) (cA (cN 3) (cM (cN 2) (cV 1)))) (cM (cA (cN (-1)) (cM (cN 2) (cH 0))) (cA (cN 1) (cM (cN 2) (cV 1)))))))) (cD (cB (cH 0) (cM (cN 2) (cW (cH 0) 4))) (cR (cD (cM (cM (cM (cM (cH 0) (cA (cN 1) (cH 0))) (cA (cN (-1)) (cM (cN 4) (cW (cH 0) 4)))) (cA (cN 1) (cV 1))) (cA (cN 3) (cM (cN 2) (cV 1)))) (cA (cN 1) (cM (cN 2) (cV 1))))))) (cD (cA (cN (-1)) (cV 1)) (cR (cD (cM (cM (cM (cM (cH 0) (cA (cN 1) (cH 0))) (cA (cN 1) (cM (cN 2) (cH 0)))) (cW (cA (cN 1) (cV 1)) 6)) (cA (cN 3) (cM (cN 2) (cV 1)))) (cM (cA (cN (-1)) (cM (cN 2) (cH 0))) (cA (cN 1) (cM (cN 2) (cV 1)))))))) (cD (cM (cA (cN (-1)) (cM (cN 2) (cH 0))) (cA (cN (-1)) (cV 1))) (cR (cD (cM (cM (cM (cA (cN 1) (cH 0)) (cA (cN (-1)) (cM (cN 4) (cW (cH 0) 4)))) (cW (cA (cN 1) (cV 1)) 6)) (cA (cN 3) (cM (cN 2) (cV 1)))) (cA (cH 0) (cM (cM (cN 2) (cH 0)) (cV 1))))))) (cR (cD (cM (cA (cN (-1)) (cM (cN 2) (cH 0))) (cW (cB (cN 1) (cM (cN 2) (cV 1))) 4)) (cM (cM (cM (cH 0) (cA (cA (cN 1) (cM (cN 3) (cH 0))) (cM (cN 2) (cW (cH 0) 4)))) (cW (cA (cN 1) (cV 1)) 6)) (cA (cA (cN 3) (cM (cN 8) (cV 1))) (cM (cN 4) (cW (cV 1) 4))))))) (cM (cA (cN (-1)) (cM (cN 2) (cH 0))) (cR (cD (cM (cH 0) (cW (cB (cN 1) (cM (cN 2) (cV 1))) 4)) (cM (cM (cA (cA (cB (cN (-1)) (cH 0)) (cM (cN 4) (cW (cH 0) 4))) (cM (cN 4) (cW (cH 0) 6))) (cW (cA (cN 1) (cV 1)) 6)) (cA (cA (cN 3) (cM (cN 8) (cV 1))) (cM (cN 4) (cW (cV 1) 4))))))))).
Definition SPSU2T_e323 := (cD (cA (cA (cA (cA (cA (cB (cM (cN (-6)) (cR (cD (cM (cM (cA (cN 1) (cM (cN 2) (cH 0))) (cV 1)) (cA (cN 3) (cM (cN 2) (cV 1)))) (cM (cH 0) (cA (cN 2) (cV 1)))))) (cM (cM (cN 2) (cW (cV 1) 4)) (cR (cD (cM (cM (cA (cN 1) (cM (cN 2) (cH 0))) (cV 1)) (cA (cN 3) (cM (cN 2) (cV 1)))) (cM (cH 0) (cA (cN 2) (cV 1))))))) (cM (cN 6) (cR (cD (cM (cM (cM (cH 0) (cA (cN 1) (cM (cN 2) (cH 0)))) (cV 1)) (cA (cN 3) (cM (cN 2) (cV 1)))) (cA (cN 2) (cV 1)))))) (cM (cN 12) (cR (cD (cM (cM (cM (cW (cH 0) 6) (cA (cN 1) (cM (cN 2) (cH 0)))) (cV 1)) (cA (cN 3) (cM (cN 2) (cV 1)))) (cA (cN 2) (cV 1)))))) (cM (cN 2) (cR (cD (cM (cM (cM (cH 0) (cA (cN 1) (cM (cN 2) (cH 0)))) (cW (cV 1) 10)) (cA (cN 3) (cM (cN 2) (cV 1)))) (cA (cN 2) (cV 1)))))) (cM (cN 4) (cR (cD (cM (cM (cM (cW (cH 0) 6) (cA (cN 1) (cM (cN 2) (cH 0)))) (cW (cV 1) 10)) (cA (cN 3) (cM (cN 2) (cV 1)))) (cA (cN 2) (cV 1)))))) (cM (cM (cN 7) (cV 1)) (cA (cA (cO (cR (cD (cM (cM (cA (cN 1) (cM (cN 2) (cH 0))) (cV 1)) (cA (cN 3) (cM (cN 2) (cV 1)))) (cM (cH 0) (cA (cN 2) (cV 1)))))) (cR (cD (cM (cM (cM (cH 0) (cA (cN 1) (cM (cN 2) (cH 0)))) (cV 1)) (cA (cN 3) (cM (cN 2) (cV 1)))) (cA (cN 2) (cV 1))))) (cM (cN 2) (cR (cD (cM (cM (cM (cW (cH 0) 6) (cA (cN 1) (cM (cN 2) (cH 0)))) (cV 1)) (cA (cN 3) (cM (cN 2) (cV 1)))) (cA (cN 2) (cV 1)))))))) (cM (cM (cA (cN 1) (cM (cN 2) (cH 0))) (cR (cD (cA (cA (cN (-1)) (cH 0)) (cM (cN 2) (cW (cH 0) 4))) (cA (cN 1) (cV 1))))) (cW (cA (cA (cN 3) (cM (cN 5) (cV 1))) (cM (cN 2) (cW (cV 1) 4))) 3))).
Definition SPSU2T_e324 := (cO (cD (cA (cB (cR (cD (cM (cA (cN 1) (cH 0)) (cA (cN 1) (cV 1))) (cA (cN 1) (cM (cN 2) (cV 1))))) (cM (cM (cN 2) (cV 1)) (cR (cD (cM (cA (cN 1) (cH 0)) (cA (cN 1) (cV 1))) (cA (cN 1) (cM (cN 2) (cV 1))))))) (cM (cN 2) (cR (cM (cA (cN 1) (cH 0)) (cA (cA (cN 1) (cM (cN 3) (cV 1))) (cM (cN 2) (cW (cV 1) 4))))))) (cM (cM (cA (cN 1) (cH 0)) (cA (cN 1) (cV 1))) (cR (cM (cM (cA (cN 1) (cM (cN 2) (cH 0))) (cA (cN 1) (cV 1))) (cA (cN 3) (cM (cN 2) (cV 1)))))))).
Definition SPSU2T_e325 := (cD (cR (cD (cM (cV 1) (cA (cN 2) (cV 1))) (cA (cA (cN 1) (cM (cN 3) (cH 0))) (cM (cN 2) (cW (cH 0) 4))))) (cA (cN 1) (cV 1))).
Definition SPSU2T_e326 := (cD (cA (cA (cR (cD (cM (cM (cH 0) (cA (cN 1) (cM (cN 2) (cH 0)))) (cA (cN (-1)) (cV 1))) (cV 1))) (cR (cD (cM (cM (cH 0) (cA (cN 1) (cM (cN 2) (cH 0)))) (cA (cN (-1)) (cV 1))) (cM (cW (cA (cN 1) (cH 0)) 4) (cV 1))))) (cR (cD (cM (cH 0) (cA (cN (-1)) (cV 1))) (cM (cW (cA (cN 1) (cH 0)) 4) (cA (cV 1) (cM (cM (cN 2) (cH 0)) (cV 1))))))) (cR (cD (cM (cA (cA (cN 3) (cM (cN 5) (cH 0))) (cM (cN 2) (cW (cH 0) 4))) (cV 1)) (cA (cN 1) (cV 1))))).
Definition SPSU2T_e327 := (cD (cA (cN 3) (cM (cN 2) (cH 0))) (cR (cD (cM (cM (cM (cA (cN 1) (cM (cN 2) (cH 0))) (cA (cA (cN 3) (cM (cN 5) (cH 0))) (cM (cN 2) (cW (cH 0) 4)))) (cW (cV 1) 4)) (cA (cN 1) (cM (cN 2) (cV 1)))) (cM (cH 0) (cA (cN (-1)) (cM (cN 2) (cV 1))))))).
Definition SPSU2T_e328 := (cO (cD (cA (cN 3) (cM (cN 2) (cH 0))) (cR (cD (cM (cM (cA (cN 1) (cH 0)) (cA (cA (cN 3) (cM (cN 8) (cH 0))) (cM (cN 4) (cW (cH 0) 4)))) (cW (cV 1) 4)) (cH 0))))).
Definition SPSU2T_e329 := (cD (cM (cM (cA (cN 3) (cM (cN 2) (cH 0))) (cR (cD (cH 0) (cA (cA (cA (cN 3) (cM (cN 11) (cH 0))) (cM (cN 12) (cW (cH 0) 4))) (cM (cN 4) (cW (cH 0) 6)))))) (cA (cA (cN (-1)) (cV 1)) (cW (cV 1) 4))) (cM (cV 1) (cA (cN 1) (cV 1)))).
Definition SPSU2T_e330 := (cD (cM (cA (cN 3) (cM (cN 2) (cH 0))) (cR (cD (cH 0) (cA (cA (cA (cN 3) (cM (cN 11) (cH 0))) (cM (cN 12) (cW (cH 0) 4))) (cM (cN 4) (cW (cH 0) 6)))))) (cA (cN 1) (cV 1))).
Definition SPSU2T_e331 := (cO (cD (cB (cB (cA (cB (cB (cA (cA (cA (cA (cA (cB (cM (cA (cN 1) (cM (cN 2) (cH 0))) (cR (cD (cM (cM (cH 0) (cA (cN 1) (cH 0))) (cA (cN 1) (cM (cN 2) (cV 1)))) (cA (cN 1) (cV 1))))) (cM (cM (cA (cN 1) (cM (cN 2) (cH 0))) (cV 1)) (cR (cD (cM (cM (cH 0) (cA (cN 1) (cH 0))) (cA (cN 1) (cM (cN 2) (cV 1)))) (cA (cN 1) (cV 1)))))) (cR (cD (cM (cM (cH 0) (cA (cN 1) (cV 1))) (cA (cN 1) (cM (cN 2) (cV 1)))) (cA (cN 1) (cH 0))))) (cM (cA (cN 1) (cM (cN 2) (cH 0))) (cR (cD (cM (cM (cH 0) (cA (cN 1) (cV 1))) (cA (cN 1) (cM (cN 2) (cV 1)))) (cA (cN 1) (cH 0)))))) (cM (cA (cN 1) (cM (cN 2) (cH 0))) (cR (cM (cM (cM (cH 0) (cA (cN 1) (cH 0))) (cA (cN 1) (cV 1))) (cA (cN 1) (cM (cN 2) (cV 1))))))) (cR (cD (cA (cH 0) (cM (cM (cN 2) (cH 0)) (cV 1))) (cA (cA (cA (cN 1) (cH 0)) (cV 1)) (cM (cH 0) (cV 1)))))) (cM (cA (cN 1) (cM (cN 2) (cH 0))) (cR (cD (cA (cH 0) (cM (cM (cN 2) (cH 0)) (cV 1))) (cA (cA (cA (cN 1) (cH 0)) (cV 1)) (cM (cH 0) (cV 1))))))) (cM (cV 1) (cR (cD (cA (cH 0) (cM (cM (cN 2) (cH 0)) (cV 1))) (cA (cA (cA (cN 1) (cH 0)) (cV 1)) (cM (cH 0) (cV 1))))))) (cM (cM (cA (cN 1) (cM (cN 2) (cH 0))) (cV 1)) (cR (cD (cA (cH 0) (cM (cM (cN 2) (cH 0)) (cV 1))) (cA (cA (cA (cN 1) (cH 0)) (cV 1)) (cM (cH 0) (cV 1))))))) (cM (cB (cN 1) (cM (cN 2) (cV 1))) (cR (cD (cH 0) (cM (cA (cN 1) (cH 0)) (cA (cA (cN 1) (cM (cN 3) (cV 1))) (cM (cN 2) (cW (cV 1) 4)))))))) (cM (cM (cA (cN 1) (cM (cN 2) (cH 0))) (cA (cN (-1)) (cM (cN 2) (cV 1)))) (cR (cD (cH 0) (cM (cA (cN 1) (cH 0)) (cA (cA (cN 1) (cM (cN 3) (cV 1))) (cM (cN 2) (cW (cV 1) 4)))))))) (cM (cM (cA (cN 1) (cM (cN 2) (cH 0))) (cA (cN (-1)) (cM (cN 2) (cV 1)))) (cR (cD (cM (cH 0) (cA (cN 1) (cH 0))) (cA (cA (cN 1) (cM (cN 3) (cV 1))) (cM (cN 2) (cW (cV 1) 4))))))) (cM (cA (cN 1) (cH 0)) (cR (cM (cM (cA (cA (cN 3) (cM (cN 8) (cH 0))) (cM (cN 4) (cW (cH 0) 4))) (cA (cN 1) (cV 1))) (cA (cN 3) (cM (cN 2) (cV 1)))))))).
Definition SPSU2T_e332 := (cO (cD (cM (cR (cD (cA (cN 1) (cV 1)) (cA (cA (cN 3) (cM (cN 8) (cH 0))) (cM (cN 4) (cW (cH 0) 4))))) (cB (cB (cB (cB (cB (cB (cB (cB (cO (cM (cR (cD (cM (cM (cH 0) (cV 1)) (cA (cN 1) (cV 1))) (cM (cA (cN 1) (cH 0)) (cA (cN 2) (cV 1))))) (cA (cN 1) (cM (cN 2) (cV 1))))) (cM (cM (cA (cN 1) (cM (cN 2) (cH 0))) (cR (cD (cM (cM (cH 0) (cV 1)) (cA (cN 1) (cV 1))) (cM (cA (cN 1) (cH 0)) (cA (cN 2) (cV 1)))))) (cA (cN 1) (cM (cN 2) (cV 1))))) (cM (cM (cA (cN 1) (cM (cN 2) (cH 0))) (cR (cD (cM (cM (cM (cH 0) (cA (cN 1) (cH 0))) (cV 1)) (cA (cN 1) (cV 1))) (cA (cN 2) (cV 1))))) (cA (cN 1) (cM (cN 2) (cV 1))))) (cM (cN 3) (cR (cD (cM (cH 0) (cV 1)) (cM (cA (cN 1) (cH 0)) (cA (cA (cN 2) (cM (cN 3) (cV 1))) (cW (cV 1) 4))))))) (cM (cM (cN 3) (cA (cN 1) (cM (cN 2) (cH 0)))) (cR (cD (cM (cH 0) (cV 1)) (cM (cA (cN 1) (cH 0)) (cA (cA (cN 2) (cM (cN 3) (cV 1))) (cW (cV 1) 4))))))) (cM (cM (cN 2) (cA (cN 1) (cM (cN 2) (cV 1)))) (cR (cD (cM (cH 0) (cV 1)) (cM (cA (cN 1) (cH 0)) (cA (cA (cN 2) (cM (cN 3) (cV 1))) (cW (cV 1) 4))))))) (cM (cM (cM (cN 2) (cA (cN 1) (cM (cN 2) (cH 0)))) (cA (cN 1) (cM (cN 2) (cV 1)))) (cR (cD (cM (cH 0) (cV 1)) (cM (cA (cN 1) (cH 0)) (cA (cA (cN 2) (cM (cN 3) (cV 1))) (cW (cV 1) 4))))))) (cM (cM (cN 3) (cA (cN 1) (cM (cN 2) (cH 0)))) (cR (cD (cM (cM (cH 0) (cA (cN 1) (cH 0))) (cV 1)) (cA (cA (cN 2) (cM (cN 3) (cV 1))) (cW (cV 1) 4)))))) (cM (cM (cM (cN 2) (cA (cN 1) (cM (cN 2) (cH 0)))) (cA (cN 1) (cM (cN 2) (cV 1)))) (cR (cD (cM (cM (cH 0) (cA (cN 1) (cH 0))) (cV 1)) (cA (cA (cN 2) (cM (cN 3) (cV 1))) (cW (cV 1) 4))))))) (cM (cA (cN 1) (cH 0)) (cA (cA (cN 3) (cM (cN 5) (cV 1))) (cM (cN 2) (cW (cV 1) 4)))))).
Definition SPSU2T_e333 := (cR (cD (cB (cN 9) (cM (cN 4) (cW (cV 1) 4))) (cB (cN 1) (cM (cN 4) (cW (cV 1) 4))))).
Definition SPSU2T_e334 := (cD (cM (cM (cR (cN 2)) (cR (cD (cA (cA (cN 3) (cM (cN 5) (cV 1))) (cM (cN 2) (cW (cV 1) 4))) (cA (cN (-1)) (cV 1))))) (cA (cA (cM (cN (-2)) (cR (cD (cM (cA (cN (-1)) (cV 1)) (cV 1)) (cA (cN 1) (cM (cN 2) (cV 1)))))) (cD (cN 2) (cR (cD (cM (cV 1) (cA (cN 1) (cM (cN 2) (cV 1)))) (cA (cN (-1)) (cV 1)))))) (cD (cM (cA (cN (-1)) (cV 1)) (cA (cN (-3)) (cM (cN 2) (cV 1)))) (cR (cM (cV 1) (cA (cB (cN (-1)) (cV 1)) (cM (cN 2) (cW (cV 1) 4)))))))) (cA (cN 1) (cV 1))).
Definition SPSU2T_e335 := (cD (cR (cD (cM (cA (cA (cN (-2)) (cV 1)) (cW (cV 1) 4)) (cA (cA (cA (cN (-3)) (cV 1)) (cM (cN 8) (cW (cV 1) 4))) (cM (cN 4) (cW (cV 1) 6)))) (cV 1))) (cM (cA (cN 1) (cV 1)) (cA (cN 1) (cM (cN 2) (cV 1))))).
Definition SPSU2T_e336 := (cD (cR (cN 6)) (cR (cM (cM (cV 1) (cA (cN 1) (cM (cN 2) (cV 1)))) (cA (cA (cN (-1)) (cV 1)) (cM (cN 2) (cW (cV 1) 4)))))).
Definition SPSU2T_e337 := (cO (cD (cM (cR (cN 3)) (cA (cA (cA (cM (cN (-4)) (cR (cD (cA (cN (-1)) (cM (cN 2) (cV 1))) (cA (cN 1) (cV 1))))) (cM (cM (cN 7) (cW (cV 1) 4)) (cR (cD (cA (cN (-1)) (cM (cN 2) (cV 1))) (cA (cN 1) (cV 1)))))) (cM (cN 6) (cR (cA (cA (cN (-1)) (cV 1)) (cM (cN 2) (cW (cV 1) 4)))))) (cM (cM (cN 3) (cV 1)) (cB (cR (cD (cA (cN (-1)) (cM (cN 2) (cV 1))) (cA (cN 1) (cV 1)))) (cM (cN 2) (cR (cA (cA (cN (-1)) (cV 1)) (cM (cN 2) (cW (cV 1) 4))))))))) (cM (cW (cA (cN 1) (cV 1)) 3) (cR (cM (cV 1) (cA (cA (cN 2) (cM (cN 5) (cV 1))) (cM (cN 2) (cW (cV 1) 4)))))))).
Definition SPSU2T_e338 := (cD (cM (cV 1) (cA (cA (cN 10) (cM (cN 9) (cV 1))) (cM (cN 2) (cW (cV 1) 4)))) (cM (cM (cW (cA (cN 1) (cV 1)) 3) (cA (cN 3) (cM (cN 2) (cV 1)))) (cR (cD (cM (cV 1) (cA (cA (cA (cN 10) (cM (cN 29) (cV 1))) (cM (cN 20) (cW (cV 1) 4))) (cM (cN 4) (cW (cV 1) 6)))) (cA (cA (cA (cN (-3)) (cV 1)) (cM (cN 8) (cW (cV 1) 4))) (cM (cN 4) (cW (cV 1) 6))))))).
Definition SPSU2T_e339 := (cD (cN 3) (cA (cA (cN 1) (cM (cN 3) (cV 1))) (cM (cN 2) (cW (cV 1) 4)))).
Definition SPSU2T_e340 := (cO (cD (cM (cV 1) (cR (cD (cA (cN 15) (cM (cN 6) (cV 1))) (cA (cA (cM (cN 2) (cV 1)) (cM (cN 5) (cW (cV 1) 4))) (cM (cN 2) (cW (cV 1) 6)))))) (cA (cN 1) (cV 1)))).
Definition SPSU2T_e341 := (cD (cM (cV 1) (cA (cN 3) (cV 1))) (cR (cM (cV 1) (cA (cA (cA (cN 6) (cM (cN 11) (cV 1))) (cM (cN 6) (cW (cV 1) 4))) (cW (cV 1) 6))))).
Definition SPSU2T_e342 := (cD (cR (cN 6)) (cR (cM (cA (cN 1) (cV 1)) (cA (cA (cA (cN 6) (cM (cN 19) (cV 1))) (cM (cN 16) (cW (cV 1) 4))) (cM (cN 4) (cW (cV 1) 6)))))).
Definition SPSU2T_e343 := (cO (cD (cR (cN 2)) (cR (cM (cA (cN 1) (cV 1)) (cA (cN 2) (cV 1)))))).
Definition SPSU2T_e344 := (cD (cM (cN (-2)) (cR (cM (cM (cH 0) (cA (cN 1) (cH 0))) (cA (cA (cN (-3)) (cM (cN 4) (cV 1))) (cM (cN 4) (cW (cV 1) 4)))))) (cA (cA (cA (cN 1) (cM (cN 2) (cH 0))) (cM (cN 2) (cV 1))) (cM (cM (cN 4) (cH 0)) (cV 1)))).
Definition SPSU2T_e345 := (cD (cM (cN 2) (cR (cD (cM (cM (cH 0) (cA (cN 1) (cH 0))) (cA (cN 3) (cM (cN 2) (cV 1)))) (cA (cN 1) (cM (cN 2) (cV 1)))))) (cA (cA (cA (cN 1) (cM (cN 2) (cH 0))) (cV 1)) (cM (cM (cN 2) (cH 0)) (cV 1)))).
Definition SPSU2T_e346 := (cD (cM (cN (-2)) (cA (cM (cN 2) (cR (cD (cM (cM (cH 0) (cA (cN 1) (cH 0))) (cV 1)) (cA (cN 2) (cV 1))))) (cR (cD (cM (cM (cH 0) (cA (cN 1) (cH 0))) (cW (cV 1) 6)) (cA (cN 2) (cV 1)))))) (cM (cA (cN 1) (cM (cN 2) (cH 0))) (cA (cN 1) (cV 1)))).
Definition SPSU2T_e347 := (cD (cM (cN (-2)) (cR (cM (cH 0) (cA (cN 1) (cH 0))))) (cM (cA (cN 1) (cM (cN 2) (cH 0))) (cA (cA (cN 1) (cM (cN 3) (cV 1))) (cM (cN 2) (cW (cV 1) 4))))).
Definition SPSU2T_e348 := (cD (cM (cN 2) (cR (cM (cH 0) (cA (cN 1) (cH 0))))) (cA (cA (cA (cN 1) (cM (cN 2) (cH 0))) (cV 1)) (cM (cM (cN 2) (cH 0)) (cV 1)))).
Definition SPSU2T_e349 := (cO (cD (cR (cA (cA (cN (-3)) (cM (cN 4) (cV 1))) (cM (cN 4) (cW (cV 1) 4)))) (cA (cN 1) (cM (cN 2) (cV 1))))).
Definition SPSU2T_e350 := (cD (cB (cM (cA (cN 2) (cV 1)) (cR (cD (cM (cM (cA (cN 1) (cH 0)) (cV 1)) (cA (cA (cN 3) (cM (cN 5) (cV 1))) (cM (cN 2) (cW (cV 1) 4)))) (cA (cN 1) (cM (cN 2) (cH 0)))))) (cM (cM (cN 2) (cH 0)) (cA (cO (cM (cV 1) (cR (cD (cM (cM (cA (cN 1) (cH 0)) (cV 1)) (cA (cA (cN 3) (cM (cN 5) (cV 1))) (cM (cN 2) (cW (cV 1) 4)))) (cA (cN 1) (cM (cN 2) (cH 0))))))) (cR (cD (cM (cM (cA (cN 1) (cH 0)) (cW (cV 1) 6)) (cA (cA (cN 3) (cM (cN 5) (cV 1))) (cM (cN 2) (cW (cV 1) 4)))) (cA (cN 1) (cM (cN 2) (cH 0)))))))) (cM (cA (cN 1) (cV 1)) (cR (cM (cM (cM (cA (cN 1) (cH 0)) (cA (cN 1) (cM (cN 2) (cH 0)))) (cA (cN 3) (cM (cN 2) (cV 1)))) (cA (cA (cN 2) (cM (cN 3) (cV 1))) (cW (cV 1) 4)))))).
Definition SPSU2T_e351 := (cD (cB (cB (cB (cA (cB (cM (cV 1) (cR (cD (cM (cM (cW (cA (cN 1) (cH 0)) 6) (cV 1)) (cW (cA (cN 1) (cV 1)) 4)) (cM (cA (cN 3) (cM (cN 2) (cH 0))) (cA (cN 3) (cM (cN 2) (cV 1))))))) (cM (cW (cV 1) 4) (cR (cD (cM (cM (cW (cA (cN 1) (cH 0)) 6) (cV 1)) (cW (cA (cN 1) (cV 1)) 4)) (cM (cA (cN 3) (cM (cN 2) (cH 0))) (cA (cN 3) (cM (cN 2) (cV 1)))))))) (cM (cM (cN 2) (cV 1)) (cR (cD (cM (cM (cW (cA (cN 1) (cH 0)) 6) (cV 1)) (cW (cA (cN 1) (cV 1)) 4)) (cM (cM (cW (cA (cN 1) (cM (cN 2) (cH 0))) 4) (cA (cN 3) (cM (cN 2) (cH 0)))) (cA (cN 3) (cM (cN 2) (cV 1)))))))) (cM (cM (cN 2) (cW (cV 1) 4)) (cR (cD (cM (cM (cW (cA (cN 1) (cH 0)) 6) (cV 1)) (cW (cA (cN 1) (cV 1)) 4)) (cM (cM (cW (cA (cN 1) (cM (cN 2) (cH 0))) 4) (cA (cN 3) (cM (cN 2) (cH 0)))) (cA (cN 3) (cM (cN 2) (cV 1)))))))) (cD (cM (cN 3) (cW (cM (cM (cA (cN 1) (cH 0)) (cV 1)) (cA (cN 1) (cV 1))) 3)) (cR (cM (cA (cN 3) (cM (cN 2) (cH 0))) (cA (cA (cN 3) (cM (cN 5) (cV 1))) (cM (cN 2) (cW (cV 1) 4))))))) (cD (cM (cN 6) (cW (cM (cM (cA (cN 1) (cH 0)) (cV 1)) (cA (cN 1) (cV 1))) 3)) (cM (cA (cN 1) (cM (cN 2) (cH 0))) (cR (cM (cA (cN 3) (cM (cN 2) (cH 0))) (cA (cA (cN 3) (cM (cN 5) (cV 1))) (cM (cN 2) (cW (cV 1) 4)))))))) (cR (cD (cM (cM (cM (cM (cW (cA (cN 1) (cH 0)) 6) (cA (cN 3) (cM (cN 2) (cH 0)))) (cW (cV 1) 4)) (cW (cA (cN 1) (cV 1)) 8)) (cA (cN 2) (cV 1))) (cM (cW (cA (cN 1) (cM (cN 2) (cH 0))) 4) (cA (cN 3) (cM (cN 2) (cV 1))))))).
Definition SPSU2T_e352 := (cD (cN 1) (cM (cM (cA (cN 1) (cM (cN 2) (cH 0))) (cA (cN 1) (cV 1))) (cA (cN 1) (cM (cN 2) (cV 1))))).
Definition SPSU2T_e353 := (cO (cD (cM (cR (cD (cM (cA (cN 1) (cM (cN 2) (cH 0))) (cA (cN 1) (cM (cN 2) (cV 1)))) (cA (cN 3) (cM (cN 2) (cH 0))))) (cA (cA (cA (cA (cB (cM (cM (cM (cN (-2)) (cV 1)) (cR (cD (cM (cA (cN 1) (cM (cN 2) (cH 0))) (cA (cN 1) (cV 1))) (cM (cA (cN 3) (cM (cN 2) (cH 0))) (cA (cN 1) (cM (cN 2) (cV 1))))))) (cW (cM (cA (cN 1) (cH 0)) (cA (cN 3) (cM (cN 2) (cV 1)))) 3)) (cM (cM (cM (cN 4) (cV 1)) (cR (cD (cA (cN 1) (cV 1)) (cM (cA (cA (cN 3) (cM (cN 8) (cH 0))) (cM (cN 4) (cW (cH 0) 4))) (cA (cN 1) (cM (cN 2) (cV 1))))))) (cW (cM (cA (cN 1) (cH 0)) (cA (cN 3) (cM (cN 2) (cV 1)))) 3))) (cM (cM (cM (cV 1) (cR (cD (cM (cA (cN 1) (cM (cN 2) (cH 0))) (cA (cN 1) (cV 1))) (cA (cN 3) (cM (cN 2) (cH 0)))))) (cA (cN (-1)) (cM (cN 2) (cV 1)))) (cW (cD (cM (cA (cN 1) (cH 0)) (cA (cN 3) (cM (cN 2) (cV 1)))) (cA (cN 1) (cM (cN 2) (cV 1)))) 3))) (cM (cM (cM (cM (cN 2) (cV 1)) (cR (cD (cA (cN 1) (cV 1)) (cA (cA (cN 3) (cM (cN 8) (cH 0))) (cM (cN 4) (cW (cH 0) 4)))))) (cA (cN (-1)) (cM (cN 2) (cV 1)))) (cW (cD (cM (cA (cN 1) (cH 0)) (cA (cN 3) (cM (cN 2) (cV 1)))) (cA (cN 1) (cM (cN 2) (cV 1)))) 3))) (cD (cM (cN 2) (cW (cM (cA (cN 1) (cH 0)) (cA (cA (cN 3) (cM (cN 5) (cV 1))) (cM (cN 2) (cW (cV 1) 4)))) 3)) (cR (cM (cA (cA (cN 3) (cM (cN 8) (cH 0))) (cM (cN 4) (cW (cH 0) 4))) (cA (cN 1) (cM (cN 2) (cV 1))))))) (cM (cR (cD (cA (cN 1) (cM (cN 2) (cH 0))) (cA (cA (cA (cN 3) (cM (cN 2) (cH 0))) (cM (cN 6) (cV 1))) (cM (cM (cN 4) (cH 0)) (cV 1))))) (cW (cM (cA (cN 1) (cH 0)) (cA (cA (cN 3) (cM (cN 5) (cV 1))) (cM (cN 2) (cW (cV 1) 4)))) 3)))) (cW (cM (cA (cN 1) (cH 0)) (cA (cA (cN 3) (cM (cN 5) (cV 1))) (cM (cN 2) (cW (cV 1) 4)))) 3))).
Definition SPSU2T_e354 := (cD (cB (cA (cA (cB (cB (cA (cR (cD (cM (cM (cM (cW (cA (cN 1) (cH 0)) 6) (cA (cN 1) (cM (cN 2) (cH 0)))) (cA (cN 1) (cV 1))) (cW (cA (cN 3) (cM (cN 2) (cV 1))) 6)) (cM (cA (cN 3) (cM (cN 2) (cH 0))) (cA (cN 2) (cV 1))))) (cM (cN 2) (cR (cD (cM (cM (cW (cA (cN 1) (cH 0)) 6) (cA (cN 1) (cV 1))) (cW (cA (cN 3) (cM (cN 2) (cV 1))) 6)) (cM (cA (cA (cN 3) (cM (cN 8) (cH 0))) (cM (cN 4) (cW (cH 0) 4))) (cA (cN 2) (cV 1))))))) (cM (cN 3) (cR (cD (cM (cM (cM (cM (cW (cA (cN 1) (cH 0)) 6) (cA (cN 1) (cM (cN 2) (cH 0)))) (cW (cV 1) 4)) (cA (cN 1) (cV 1))) (cW (cA (cN 3) (cM (cN 2) (cV 1))) 6)) (cM (cM (cA (cN 3) (cM (cN 2) (cH 0))) (cA (cN 2) (cV 1))) (cW (cA (cN 1) (cM (cN 2) (cV 1))) 4)))))) (cM (cN 6) (cR (cD (cM (cM (cM (cW (cA (cN 1) (cH 0)) 6) (cW (cV 1) 4)) (cA (cN 1) (cV 1))) (cW (cA (cN 3) (cM (cN 2) (cV 1))) 6)) (cM (cM (cA (cA (cN 3) (cM (cN 8) (cH 0))) (cM (cN 4) (cW (cH 0) 4))) (cA (cN 2) (cV 1))) (cW (cA (cN 1) (cM (cN 2) (cV 1))) 4)))))) (cR (cD (cM (cM (cW (cA (cN 1) (cH 0)) 6) (cA (cN 1) (cM (cN 2) (cH 0)))) (cW (cA (cA (cN 3) (cM (cN 5) (cV 1))) (cM (cN 2) (cW (cV 1) 4))) 6)) (cM (cA (cN 3) (cM (cN 2) (cH 0))) (cA (cN 2) (cV 1)))))) (cM (cN 2) (cR (cD (cM (cW (cA (cN 1) (cH 0)) 6) (cW (cA (cA (cN 3) (cM (cN 5) (cV 1))) (cM (cN 2) (cW (cV 1) 4))) 6)) (cM (cA (cA (cN 3) (cM (cN 8) (cH 0))) (cM (cN 4) (cW (cH 0) 4))) (cA (cN 2) (cV 1))))))) (cM (cV 1) (cA (cR (cD (cM (cM (cM (cW (cA (cN 1) (cH 0)) 6) (cA (cN 1) (cM (cN 2) (cH 0)))) (cA (cN 1) (cV 1))) (cW (cA (cN 3) (cM (cN 2) (cV 1))) 6)) (cM (cA (cN 3) (cM (cN 2) (cH 0))) (cA (cN 2) (cV 1))))) (cM (cN 2) (cR (cD (cM (cM (cW (cA (cN 1) (cH 0)) 6) (cA (cN 1) (cV 1))) (cW (cA (cN 3) (cM (cN 2) (cV 1))) 6)) (cM (cA (cA (cN 3) (cM (cN 8) (cH 0))) (cM (cN 4) (cW (cH 0) 4))) (cA (cN 2) (cV 1))))))))) (cR (cD (cM (cM (cM (cW (cA (cN 1) (cH 0)) 6) (cA (cN 3) (cM (cN 2) (cH 0)))) (cA (cN 2) (cV 1))) (cW (cA (cA (cN 3) (cM (cN 5) (cV 1))) (cM (cN 2) (cW (cV 1) 4))) 6)) (cM (cA (cN 1) (cM (cN 2) (cH 0))) (cW (cA (cN 1) (cM (cN 2) (cV 1))) 4))))).
Definition SPSU2T_e355 := (cD (cB (cB (cB (cB (cB (cM (cN (-3)) (cR (cD (cM (cM (cM (cW (cA (cN 1) (cH 0)) 6) (cA (cN 1) (cM (cN 2) (cH 0)))) (cW (cA (cN 1) (cV 1)) 4)) (cW (cA (cN 3) (cM (cN 2) (cV 1))) 6)) (cM (cA (cN 3) (cM (cN 2) (cH 0))) (cA (cA (cN 10) (cM (cN 9) (cV 1))) (cM (cN 2) (cW (cV 1) 4))))))) (cR (cD (cM (cM (cM (cW (cA (cN 1) (cH 0)) 6) (cA (cN 1) (cM (cN 2) (cH 0)))) (cW (cA (cN 1) (cV 1)) 8)) (cW (cA (cN 3) (cM (cN 2) (cV 1))) 6)) (cM (cA (cN 3) (cM (cN 2) (cH 0))) (cA (cA (cN 10) (cM (cN 9) (cV 1))) (cM (cN 2) (cW (cV 1) 4))))))) (cM (cN 2) (cR (cD (cM (cM (cW (cA (cN 1) (cH 0)) 6) (cW (cA (cN 1) (cV 1)) 8)) (cW (cA (cN 3) (cM (cN 2) (cV 1))) 6)) (cM (cA (cA (cN 3) (cM (cN 8) (cH 0))) (cM (cN 4) (cW (cH 0) 4))) (cA (cA (cN 10) (cM (cN 9) (cV 1))) (cM (cN 2) (cW (cV 1) 4)))))))) (cM (cN 6) (cR (cD (cM (cM (cM (cW (cA (cN 1) (cH 0)) 6) (cA (cN 1) (cM (cN 2) (cH 0)))) (cW (cA (cN 1) (cV 1)) 4)) (cW (cA (cN 3) (cM (cN 2) (cV 1))) 6)) (cM (cM (cA (cN 3) (cM (cN 2) (cH 0))) (cW (cA (cN 1) (cM (cN 2) (cV 1))) 4)) (cA (cA (cN 10) (cM (cN 9) (cV 1))) (cM (cN 2) (cW (cV 1) 4)))))))) (cD (cM (cM (cN 6) (cA (cN 1) (cV 1))) (cW (cM (cA (cN 1) (cH 0)) (cA (cN 3) (cM (cN 2) (cV 1)))) 3)) (cR (cM (cA (cA (cN 3) (cM (cN 8) (cH 0))) (cM (cN 4) (cW (cH 0) 4))) (cA (cA (cN 10) (cM (cN 9) (cV 1))) (cM (cN 2) (cW (cV 1) 4))))))) (cD (cM (cM (cN 12) (cA (cN 1) (cV 1))) (cW (cM (cA (cN 1) (cH 0)) (cA (cN 3) (cM (cN 2) (cV 1)))) 3)) (cM (cA (cN 1) (cM (cN 2) (cV 1))) (cR (cM (cA (cA (cN 3) (cM (cN 8) (cH 0))) (cM (cN 4) (cW (cH 0) 4))) (cA (cA (cN 10) (cM (cN 9) (cV 1))) (cM (cN 2) (cW (cV 1) 4)))))))) (cR (cD (cM (cM (cM (cM (cW (cA (cN 1) (cH 0)) 6) (cA (cN 3) (cM (cN 2) (cH 0)))) (cW (cA (cN 1) (cV 1)) 4)) (cW (cA (cN 3) (cM (cN 2) (cV 1))) 6)) (cA (cA (cN 10) (cM (cN 9) (cV 1))) (cM (cN 2) (cW (cV 1) 4)))) (cM (cA (cN 1) (cM (cN 2) (cH 0))) (cW (cA (cN 1) (cM (cN 2) (cV 1))) 4))))).
Definition SPSU2T_e356 := (cD (cM (cA (cN 1) (cM (cN 2) (cH 0))) (cB (cB (cB (cA (cB (cM (cV 1) (cR (cD (cM (cM (cW (cA (cN 1) (cH 0)) 6) (cV 1)) (cW (cA (cN 1) (cV 1)) 4)) (cM (cA (cN 3) (cM (cN 2) (cH 0))) (cA (cN 3) (cM (cN 2) (cV 1))))))) (cM (cW (cV 1) 4) (cR (cD (cM (cM (cW (cA (cN 1) (cH 0)) 6) (cV 1)) (cW (cA (cN 1) (cV 1)) 4)) (cM (cA (cN 3) (cM (cN 2) (cH 0))) (cA (cN 3) (cM (cN 2) (cV 1)))))))) (cM (cM (cN 2) (cV 1)) (cR (cD (cM (cM (cW (cA (cN 1) (cH 0)) 6) (cV 1)) (cW (cA (cN 1) (cV 1)) 4)) (cM (cM (cW (cA (cN 1) (cM (cN 2) (cH 0))) 4) (cA (cN 3) (cM (cN 2) (cH 0)))) (cA (cN 3) (cM (cN 2) (cV 1)))))))) (cM (cM (cN 2) (cW (cV 1) 4)) (cR (cD (cM (cM (cW (cA (cN 1) (cH 0)) 6) (cV 1)) (cW (cA (cN 1) (cV 1)) 4)) (cM (cM (cW (cA (cN 1) (cM (cN 2) (cH 0))) 4) (cA (cN 3) (cM (cN 2) (cH 0)))) (cA (cN 3) (cM (cN 2) (cV 1)))))))) (cD (cM (cN 3) (cW (cM (cM (cA (cN 1) (cH 0)) (cV 1)) (cA (cN 1) (cV 1))) 3)) (cR (cM (cA (cN 3) (cM (cN 2) (cH 0))) (cA (cA (cN 3) (cM (cN 5) (cV 1))) (cM (cN 2) (cW (cV 1) 4))))))) (cD (cM (cN 6) (cW (cM (cM (cA (cN 1) (cH 0)) (cV 1)) (cA (cN 1) (cV 1))) 3)) (cM (cA (cN 1) (cM (cN 2) (cH 0))) (cR (cM (cA (cN 3) (cM (cN 2) (cH 0))) (cA (cA (cN 3) (cM (cN 5) (cV 1))) (cM (cN 2) (cW (cV 1) 4))))))))) (cM (cM (cM (cW (cA (cN 1) (cH 0)) 3) (cV 1)) (cW (cA (cN 1) (cV 1)) 4)) (cR (cD (cM (cA (cN 3) (cM (cN 2) (cH 0))) (cA (cN 2) (cV 1))) (cA (cN 3) (cM (cN 2) (cV 1))))))).
Definition SPSU2T_e357 := (cD (cM (cR (cD (cM (cA (cN 1) (cM (cN 2) (cH 0))) (cA (cN 1) (cM (cN 2) (cV 1)))) (cA (cN 3) (cM (cN 2) (cH 0))))) (cB (cB (cB (cB (cA (cM (cM (cM (cN 2) (cV 1)) (cR (cD (cM (cA (cN 1) (cM (cN 2) (cH 0))) (cA (cN 1) (cV 1))) (cM (cA (cN 3) (cM (cN 2) (cH 0))) (cA (cN 1) (cM (cN 2) (cV 1))))))) (cW (cM (cA (cN 1) (cH 0)) (cA (cN 3) (cM (cN 2) (cV 1)))) 3)) (cM (cM (cM (cN 4) (cV 1)) (cR (cD (cA (cN 1) (cV 1)) (cM (cA (cA (cN 3) (cM (cN 8) (cH 0))) (cM (cN 4) (cW (cH 0) 4))) (cA (cN 1) (cM (cN 2) (cV 1))))))) (cW (cM (cA (cN 1) (cH 0)) (cA (cN 3) (cM (cN 2) (cV 1)))) 3))) (cM (cM (cM (cV 1) (cR (cD (cM (cA (cN 1) (cM (cN 2) (cH 0))) (cA (cN 1) (cV 1))) (cA (cN 3) (cM (cN 2) (cH 0)))))) (cA (cN (-1)) (cM (cN 2) (cV 1)))) (cW (cD (cM (cA (cN 1) (cH 0)) (cA (cN 3) (cM (cN 2) (cV 1)))) (cA (cN 1) (cM (cN 2) (cV 1)))) 3))) (cM (cM (cM (cM (cN 2) (cV 1)) (cR (cD (cA (cN 1) (cV 1)) (cA (cA (cN 3) (cM (cN 8) (cH 0))) (cM (cN 4) (cW (cH 0) 4)))))) (cA (cN (-1)) (cM (cN 2) (cV 1)))) (cW (cD (cM (cA (cN 1) (cH 0)) (cA (cN 3) (cM (cN 2) (cV 1)))) (cA (cN 1) (cM (cN 2) (cV 1)))) 3))) (cD (cM (cN 2) (cW (cM (cA (cN 1) (cH 0)) (cA (cA (cN 3) (cM (cN 5) (cV 1))) (cM (cN 2) (cW (cV 1) 4)))) 3)) (cR (cM (cA (cA (cN 3) (cM (cN 8) (cH 0))) (cM (cN 4) (cW (cH 0) 4))) (cA (cN 1) (cM (cN 2) (cV 1))))))) (cM (cR (cD (cA (cN 1) (cM (cN 2) (cH 0))) (cA (cA (cA (cN 3) (cM (cN 2) (cH 0))) (cM (cN 6) (cV 1))) (cM (cM (cN 4) (cH 0)) (cV 1))))) (cW (cM (cA (cN 1) (cH 0)) (cA (cA (cN 3) (cM (cN 5) (cV 1))) (cM (cN 2) (cW (cV 1) 4)))) 3)))) (cW (cM (cA (cN 1) (cH 0)) (cA (cA (cN 3) (cM (cN 5) (cV 1))) (cM (cN 2) (cW (cV 1) 4)))) 3)).
Definition SPSU2T_e358 := (cM (cR (cD (cM (cA (cN 1) (cM (cN 2) (cH 0))) (cW (cA (cN 1) (cM (cN 2) (cV 1))) 4)) (cM (cM (cM (cW (cA (cN 1) (cH 0)) 6) (cA (cN 3) (cM (cN 2) (cH 0)))) (cA (cN 2) (cV 1))) (cW (cA (cA (cN 3) (cM (cN 5) (cV 1))) (cM (cN 2) (cW (cV 1) 4))) 6)))) (cA (cA (cB (cB (cA (cB (cB (cD (cN 2) (cR (cD (cM (cA (cA (cN 3) (cM (cN 8) (cH 0))) (cM (cN 4) (cW (cH 0) 4))) (cA (cN 2) (cV 1))) (cM (cM (cW (cA (cN 1) (cH 0)) 6) (cA (cN 1) (cV 1))) (cW (cA (cN 3) (cM (cN 2) (cV 1))) 6))))) (cD (cM (cN 2) (cV 1)) (cR (cD (cM (cA (cA (cN 3) (cM (cN 8) (cH 0))) (cM (cN 4) (cW (cH 0) 4))) (cA (cN 2) (cV 1))) (cM (cM (cW (cA (cN 1) (cH 0)) 6) (cA (cN 1) (cV 1))) (cW (cA (cN 3) (cM (cN 2) (cV 1))) 6)))))) (cD (cN 6) (cR (cD (cM (cM (cA (cA (cN 3) (cM (cN 8) (cH 0))) (cM (cN 4) (cW (cH 0) 4))) (cA (cN 2) (cV 1))) (cW (cA (cN 1) (cM (cN 2) (cV 1))) 4)) (cM (cM (cM (cW (cA (cN 1) (cH 0)) 6) (cW (cV 1) 4)) (cA (cN 1) (cV 1))) (cW (cA (cN 3) (cM (cN 2) (cV 1))) 6)))))) (cR (cD (cM (cM (cM (cW (cA (cN 1) (cH 0)) 6) (cA (cN 1) (cM (cN 2) (cH 0)))) (cA (cN 1) (cV 1))) (cW (cA (cN 3) (cM (cN 2) (cV 1))) 6)) (cM (cA (cN 3) (cM (cN 2) (cH 0))) (cA (cN 2) (cV 1)))))) (cM (cV 1) (cR (cD (cM (cM (cM (cW (cA (cN 1) (cH 0)) 6) (cA (cN 1) (cM (cN 2) (cH 0)))) (cA (cN 1) (cV 1))) (cW (cA (cN 3) (cM (cN 2) (cV 1))) 6)) (cM (cA (cN 3) (cM (cN 2) (cH 0))) (cA (cN 2) (cV 1))))))) (cM (cN 3) (cR (cD (cM (cM (cM (cM (cW (cA (cN 1) (cH 0)) 6) (cA (cN 1) (cM (cN 2) (cH 0)))) (cW (cV 1) 4)) (cA (cN 1) (cV 1))) (cW (cA (cN 3) (cM (cN 2) (cV 1))) 6)) (cM (cM (cA (cN 3) (cM (cN 2) (cH 0))) (cA (cN 2) (cV 1))) (cW (cA (cN 1) (cM (cN 2) (cV 1))) 4)))))) (cD (cN 1) (cR (cD (cM (cA (cN 3) (cM (cN 2) (cH 0))) (cA (cN 2) (cV 1))) (cM (cM (cW (cA (cN 1) (cH 0)) 6) (cA (cN 1) (cM (cN 2) (cH 0)))) (cW (cA (cA (cN 3) (cM (cN 5) (cV 1))) (cM (cN 2) (cW (cV 1) 4))) 6)))))) (cD (cN 2) (cR (cD (cM (cA (cA (cN 3) (cM (cN 8) (cH 0))) (cM (cN 4) (cW (cH 0) 4))) (cA (cN 2) (cV 1))) (cM (cW (cA (cN 1) (cH 0)) 6) (cW (cA (cA (cN 3) (cM (cN 5) (cV 1))) (cM (cN 2) (cW (cV 1) 4))) 6))))))).
Definition SPSU2T_e359 := (cD (cM (cN (-2)) (cR (cD (cM (cM (cH 0) (cA (cN 1) (cH 0))) (cA (cN (-9)) (cM (cN 4) (cW (cV 1) 4)))) (cA (cN (-1)) (cM (cN 4) (cW (cV 1) 4)))))) (cA (cN 1) (cM (cN 2) (cH 0)))).
Definition SPSU2T_e360 := (cD (cM (cM (cN 2) (cR (cN 2))) (cR (cD (cM (cM (cH 0) (cA (cN 1) (cH 0))) (cA (cA (cN 3) (cM (cN 5) (cV 1))) (cM (cN 2) (cW (cV 1) 4)))) (cM (cV 1) (cA (cN 1) (cM (cN 2) (cV 1))))))) (cA (cA (cA (cN 1) (cM (cN 2) (cH 0))) (cV 1)) (cM (cM (cN 2) (cH 0)) (cV 1)))).
Definition SPSU2T_e361 := (cD (cM (cM (cN (-2)) (cA (cB (cN 1) (cM (cN 3) (cV 1))) (cM (cN 2) (cW (cV 1) 4)))) (cR (cD (cM (cM (cH 0) (cA (cN 1) (cH 0))) (cA (cA (cA (cN 6) (cM (cN 13) (cV 1))) (cM (cN 9) (cW (cV 1) 4))) (cM (cN 2) (cW (cV 1) 6)))) (cM (cW (cA (cN 1) (cM (cN 2) (cH 0))) 4) (cA (cB (cV 1) (cM (cN 3) (cW (cV 1) 4))) (cM (cN 2) (cW (cV 1) 6))))))) (cM (cA (cN 1) (cV 1)) (cA (cN 1) (cM (cN 2) (cV 1))))).
Definition SPSU2T_e362 := (cD (cM (cM (cN (-2)) (cR (cN 6))) (cR (cO (cD (cM (cH 0) (cA (cN 1) (cH 0))) (cB (cB (cA (cV 1) (cW (cV 1) 4)) (cM (cN 4) (cW (cV 1) 6))) (cM (cN 4) (cW (cV 1) 8))))))) (cA (cN 1) (cM (cN 2) (cH 0)))).
Definition SPSU2T_e363 := (cD (cM (cM (cM (cN 2) (cR (cN 3))) (cA (cN 2) (cV 1))) (cR (cD (cM (cM (cH 0) (cA (cN 1) (cH 0))) (cA (cN (-1)) (cM (cN 2) (cV 1)))) (cM (cM (cW (cA (cN 1) (cM (cN 2) (cH 0))) 4) (cV 1)) (cA (cA (cN 2) (cM (cN 5) (cV 1))) (cM (cN 2) (cW (cV 1) 4))))))) (cA (cN 1) (cV 1))).
Definition SPSU2T_e364 := (cD (cM (cM (cM (cN (-2)) (cV 1)) (cA (cA (cN 10) (cM (cN 9) (cV 1))) (cM (cN 2) (cW (cV 1) 4)))) (cR (cD (cM (cM (cH 0) (cA (cN 1) (cH 0))) (cA (cA (cN (-3)) (cM (cN 4) (cV 1))) (cM (cN 4) (cW (cV 1) 4)))) (cM (cM (cW (cA (cN 1) (cM (cN 2) (cH 0))) 4) (cV 1)) (cA (cA (cA (cN 10) (cM (cN 29) (cV 1))) (cM (cN 20) (cW (cV 1) 4))) (cM (cN 4) (cW (cV 1) 6))))))) (cA (cA (cN 3) (cM (cN 5) (cV 1))) (cM (cN 2) (cW (cV 1) 4)))).
Definition SPSU2T_e365 := (cD (cM (cM (cN 6) (cR (cD (cM (cA (cN 1) (cH 0)) (cA (cA (cN 3) (cM (cN 5) (cV 1))) (cM (cN 2) (cW (cV 1) 4)))) (cA (cV 1) (cM (cM (cN 2) (cH 0)) (cV 1)))))) (cA (cB (cA (cM (cN (-2)) (cR (cD (cM (cM (cH 0) (cV 1)) (cA (cN 3) (cM (cN 2) (cV 1)))) (cM (cA (cN 1) (cM (cN 2) (cH 0))) (cA (cN 1) (cV 1)))))) (cM (cM (cN 2) (cW (cV 1) 6)) (cR (cD (cM (cM (cH 0) (cV 1)) (cA (cN 3) (cM (cN 2) (cV 1)))) (cM (cA (cN 1) (cM (cN 2) (cH 0))) (cA (cN 1) (cV 1))))))) (cM (cV 1) (cR (cD (cM (cM (cH 0) (cV 1)) (cA (cA (cN 3) (cM (cN 5) (cV 1))) (cM (cN 2) (cW (cV 1) 4)))) (cA (cN 1) (cM (cN 2) (cH 0))))))) (cM (cW (cV 1) 4) (cB (cM (cN 3) (cR (cD (cM (cM (cH 0) (cV 1)) (cA (cN 3) (cM (cN 2) (cV 1)))) (cM (cA (cN 1) (cM (cN 2) (cH 0))) (cA (cN 1) (cV 1)))))) (cM (cN 2) (cR (cD (cM (cM (cH 0) (cV 1)) (cA (cA (cN 3) (cM (cN 5) (cV 1))) (cM (cN 2) (cW (cV 1) 4)))) (cA (cN 1) (cM (cN 2) (cH 0)))))))))) (cM (cA (cN 1) (cM (cN 2) (cV 1))) (cA (cA (cA (cN 6) (cM (cN 13) (cV 1))) (cM (cN 9) (cW (cV 1) 4))) (cM (cN 2) (cW (cV 1) 6))))).
Definition SPSU2T_e366 := (cD (cM (cM (cM (cM (cN (-2)) (cR (cN 3))) (cV 1)) (cR (cD (cM (cA (cN 1) (cH 0)) (cA (cA (cN 3) (cM (cN 5) (cV 1))) (cM (cN 2) (cW (cV 1) 4)))) (cM (cV 1) (cA (cA (cN 10) (cM (cN 9) (cV 1))) (cM (cN 2) (cW (cV 1) 4))))))) (cB (cA (cA (cA (cM (cN (-12)) (cR (cD (cM (cH 0) (cA (cN 3) (cM (cN 2) (cV 1)))) (cA (cA (cN 1) (cM (cN 3) (cV 1))) (cM (cN 2) (cW (cV 1) 4)))))) (cR (cD (cM (cH 0) (cA (cA (cN 3) (cM (cN 8) (cV 1))) (cM (cN 4) (cW (cV 1) 4)))) (cA (cN 1) (cV 1))))) (cR (cM (cH 0) (cA (cA (cA (cN 3) (cM (cN 11) (cV 1))) (cM (cN 12) (cW (cV 1) 4))) (cM (cN 4) (cW (cV 1) 6)))))) (cM (cM (cN 2) (cW (cV 1) 4)) (cA (cM (cN 9) (cR (cD (cM (cH 0) (cA (cN 3) (cM (cN 2) (cV 1)))) (cA (cA (cN 1) (cM (cN 3) (cV 1))) (cM (cN 2) (cW (cV 1) 4)))))) (cR (cD (cM (cH 0) (cA (cA (cN 3) (cM (cN 8) (cV 1))) (cM (cN 4) (cW (cV 1) 4)))) (cA (cN 1) (cV 1))))))) (cM (cV 1) (cA (cA (cM (cN 3) (cR (cD (cM (cH 0) (cA (cN 3) (cM (cN 2) (cV 1)))) (cA (cA (cN 1) (cM (cN 3) (cV 1))) (cM (cN 2) (cW (cV 1) 4)))))) (cM (cN 9) (cR (cD (cM (cH 0) (cA (cA (cN 3) (cM (cN 8) (cV 1))) (cM (cN 4) (cW (cV 1) 4)))) (cA (cN 1) (cV 1)))))) (cM (cN 2) (cR (cM (cH 0) (cA (cA (cA (cN 3) (cM (cN 11) (cV 1))) (cM (cN 12) (cW (cV 1) 4))) (cM (cN 4) (cW (cV 1) 6)))))))))) (cM (cA (cN 1) (cM (cN 2) (cH 0))) (cA (cA (cA (cN 6) (cM (cN 13) (cV 1))) (cM (cN 9) (cW (cV 1) 4))) (cM (cN 2) (cW (cV 1) 6))))).
Definition SPSU2T_e367 := (cD (cM (cM (cN (-2)) (cR (cM (cM (cH 0) (cA (cN 1) (cH 0))) (cA (cA (cN 3) (cM (cN 5) (cV 1))) (cM (cN 2) (cW (cV 1) 4)))))) (cB (cA (cA (cA (cA (cA (cB (cA (cM (cN 96) (cR (cD (cM (cM (cA (cN 1) (cM (cN 2) (cH 0))) (cV 1)) (cA (cA (cN 9) (cM (cN 9) (cV 1))) (cM (cN 2) (cW (cV 1) 4)))) (cA (cN 2) (cV 1))))) (cM (cM (cN 41) (cV 1)) (cR (cD (cM (cM (cA (cN 1) (cM (cN 2) (cH 0))) (cV 1)) (cA (cA (cN 9) (cM (cN 9) (cV 1))) (cM (cN 2) (cW (cV 1) 4)))) (cA (cN 2) (cV 1)))))) (cM (cM (cN 14) (cW (cV 1) 4)) (cR (cD (cM (cM (cA (cN 1) (cM (cN 2) (cH 0))) (cV 1)) (cA (cA (cN 9) (cM (cN 9) (cV 1))) (cM (cN 2) (cW (cV 1) 4)))) (cA (cN 2) (cV 1)))))) (cM (cW (cV 1) 6) (cR (cD (cM (cM (cA (cN 1) (cM (cN 2) (cH 0))) (cV 1)) (cA (cA (cN 9) (cM (cN 9) (cV 1))) (cM (cN 2) (cW (cV 1) 4)))) (cA (cN 2) (cV 1)))))) (cM (cM (cN 2) (cW (cV 1) 8)) (cR (cD (cM (cM (cA (cN 1) (cM (cN 2) (cH 0))) (cV 1)) (cA (cA (cN 9) (cM (cN 9) (cV 1))) (cM (cN 2) (cW (cV 1) 4)))) (cA (cN 2) (cV 1)))))) (cM (cN 81) (cR (cD (cM (cM (cA (cN 1) (cM (cN 2) (cH 0))) (cW (cV 1) 6)) (cA (cA (cN 9) (cM (cN 9) (cV 1))) (cM (cN 2) (cW (cV 1) 4)))) (cA (cN 2) (cV 1)))))) (cM (cN 81) (cR (cD (cM (cM (cA (cN 1) (cM (cN 2) (cH 0))) (cW (cV 1) 10)) (cA (cA (cN 9) (cM (cN 9) (cV 1))) (cM (cN 2) (cW (cV 1) 4)))) (cA (cN 2) (cV 1)))))) (cM (cN 18) (cR (cD (cM (cM (cA (cN 1) (cM (cN 2) (cH 0))) (cW (cV 1) 14)) (cA (cA (cN 9) (cM (cN 9) (cV 1))) (cM (cN 2) (cW (cV 1) 4)))) (cA (cN 2) (cV 1)))))) (cM (cN 18) (cR (cM (cM (cA (cN 1) (cM (cN 2) (cH 0))) (cV 1)) (cA (cA (cA (cN 18) (cM (cN 27) (cV 1))) (cM (cN 13) (cW (cV 1) 4))) (cM (cN 2) (cW (cV 1) 6)))))))) (cM (cM (cM (cW (cA (cN 1) (cM (cN 2) (cH 0))) 3) (cA (cN 1) (cV 1))) (cW (cA (cN 2) (cV 1)) 4)) (cA (cA (cA (cN 45) (cM (cN 63) (cV 1))) (cM (cN 28) (cW (cV 1) 4))) (cM (cN 4) (cW (cV 1) 6))))).
Definition SPSU2T_e368 := (cD (cM (cM (cN (-2)) (cR (cN 6))) (cB (cA (cA (cR (cD (cM (cH 0) (cA (cA (cN 1) (cM (cN 3) (cV 1))) (cM (cN 2) (cW (cV 1) 4)))) (cM (cA (cN 1) (cM (cN 2) (cH 0))) (cA (cA (cN 15) (cM (cN 16) (cV 1))) (cM (cN 4) (cW (cV 1) 4)))))) (cM (cN 3) (cR (cD (cM (cH 0) (cA (cA (cA (cN 3) (cM (cN 11) (cV 1))) (cM (cN 12) (cW (cV 1) 4))) (cM (cN 4) (cW (cV 1) 6)))) (cM (cA (cN 1) (cM (cN 2) (cH 0))) (cA (cN 5) (cM (cN 2) (cV 1)))))))) (cM (cM (cN 2) (cW (cV 1) 4)) (cA (cA (cR (cD (cM (cH 0) (cA (cA (cN 1) (cM (cN 3) (cV 1))) (cM (cN 2) (cW (cV 1) 4)))) (cM (cA (cN 1) (cM (cN 2) (cH 0))) (cA (cA (cN 15) (cM (cN 16) (cV 1))) (cM (cN 4) (cW (cV 1) 4)))))) (cM (cN 3) (cR (cD (cM (cH 0) (cA (cN 1) (cM (cN 2) (cV 1)))) (cM (cA (cN 1) (cM (cN 2) (cH 0))) (cA (cA (cA (cN 15) (cM (cN 31) (cV 1))) (cM (cN 20) (cW (cV 1) 4))) (cM (cN 4) (cW (cV 1) 6)))))))) (cM (cN 6) (cR (cD (cH 0) (cM (cA (cN 1) (cM (cN 2) (cH 0))) (cA (cA (cA (cA (cN 15) (cM (cN 61) (cV 1))) (cM (cN 82) (cW (cV 1) 4))) (cM (cN 44) (cW (cV 1) 6))) (cM (cN 8) (cW (cV 1) 8)))))))))) (cM (cV 1) (cA (cA (cA (cM (cN 9) (cR (cD (cM (cH 0) (cA (cA (cN 1) (cM (cN 3) (cV 1))) (cM (cN 2) (cW (cV 1) 4)))) (cM (cA (cN 1) (cM (cN 2) (cH 0))) (cA (cA (cN 15) (cM (cN 16) (cV 1))) (cM (cN 4) (cW (cV 1) 4))))))) (cR (cD (cM (cH 0) (cA (cA (cA (cN 3) (cM (cN 11) (cV 1))) (cM (cN 12) (cW (cV 1) 4))) (cM (cN 4) (cW (cV 1) 6)))) (cM (cA (cN 1) (cM (cN 2) (cH 0))) (cA (cN 5) (cM (cN 2) (cV 1))))))) (cM (cN 9) (cR (cD (cM (cH 0) (cA (cN 1) (cM (cN 2) (cV 1)))) (cM (cA (cN 1) (cM (cN 2) (cH 0))) (cA (cA (cA (cN 15) (cM (cN 31) (cV 1))) (cM (cN 20) (cW (cV 1) 4))) (cM (cN 4) (cW (cV 1) 6)))))))) (cM (cN 6) (cR (cD (cH 0) (cM (cA (cN 1) (cM (cN 2) (cH 0))) (cA (cA (cA (cA (cN 15) (cM (cN 61) (cV 1))) (cM (cN 82) (cW (cV 1) 4))) (cM (cN 44) (cW (cV 1) 6))) (cM (cN 8) (cW (cV 1) 8))))))))))) (cM (cA (cN 2) (cV 1)) (cR (cD (cM (cA (cN 1) (cM (cN 2) (cH 0))) (cA (cA (cN 10) (cM (cN 9) (cV 1))) (cM (cN 2) (cW (cV 1) 4)))) (cA (cN 1) (cH 0)))))).
Definition SPSU2T_e369 := (cM (cM (cR (cN 2)) (cR (cD (cM (cA (cN 1) (cH 0)) (cA (cA (cN 3) (cM (cN 5) (cV 1))) (cM (cN 2) (cW (cV 1) 4)))) (cA (cN 1) (cM (cN 2) (cH 0)))))) (cB (cB (cB (cA (cM (cM (cN (-2)) (cA (cN (-3)) (cV 1))) (cR (cD (cM (cM (cH 0) (cW (cA (cN 1) (cM (cN 2) (cV 1))) 4)) (cA (cN 3) (cM (cN 2) (cV 1)))) (cM (cM (cM (cA (cN 1) (cM (cN 2) (cH 0))) (cW (cA (cN 2) (cV 1)) 6)) (cW (cA (cN 3) (cV 1)) 4)) (cW (cA (cN 5) (cM (cN 2) (cV 1))) 4))))) (cD (cN 2) (cR (cD (cM (cM (cM (cA (cN 1) (cM (cN 2) (cH 0))) (cA (cN 2) (cV 1))) (cW (cA (cN 3) (cV 1)) 4)) (cW (cA (cN 5) (cM (cN 2) (cV 1))) 4)) (cM (cM (cH 0) (cW (cA (cN 1) (cM (cN 2) (cV 1))) 4)) (cA (cN 3) (cM (cN 2) (cV 1)))))))) (cM (cM (cN 12) (cA (cN (-1)) (cM (cN 3) (cV 1)))) (cR (cD (cM (cH 0) (cW (cA (cN 1) (cM (cN 2) (cV 1))) 4)) (cM (cM (cM (cM (cA (cN 1) (cM (cN 2) (cH 0))) (cW (cA (cN 2) (cV 1)) 6)) (cW (cA (cN 3) (cV 1)) 4)) (cA (cN 3) (cM (cN 2) (cV 1)))) (cW (cA (cA (cN 5) (cM (cN 7) (cV 1))) (cM (cN 2) (cW (cV 1) 4))) 4)))))) (cM (cM (cM (cN 18) (cA (cN (-1)) (cV 1))) (cA (cN 1) (cM (cN 2) (cV 1)))) (cR (cD (cH 0) (cM (cM (cM (cA (cN 1) (cM (cN 2) (cH 0))) (cW (cA (cN 2) (cV 1)) 6)) (cA (cN 3) (cM (cN 2) (cV 1)))) (cW (cA (cA (cN 15) (cM (cN 11) (cV 1))) (cM (cN 2) (cW (cV 1) 4))) 4)))))) (cD (cM (cM (cN 60) (cV 1)) (cR (cD (cH 0) (cM (cM (cA (cN 1) (cM (cN 2) (cH 0))) (cW (cA (cN 2) (cV 1)) 6)) (cA (cN 3) (cM (cN 2) (cV 1))))))) (cA (cA (cA (cN 15) (cM (cN 26) (cV 1))) (cM (cN 13) (cW (cV 1) 4))) (cM (cN 2) (cW (cV 1) 6)))))).
Definition SPSU2T_e370 := (cD (cM (cN (-2)) (cA (cA (cA (cM (cM (cN 4) (cW (cV 1) 6)) (cA (cR (cD (cM (cH 0) (cA (cN 2) (cV 1))) (cM (cA (cN 1) (cM (cN 2) (cH 0))) (cA (cN 5) (cM (cN 2) (cV 1)))))) (cM (cN 6) (cR (cD (cH 0) (cM (cA (cN 1) (cM (cN 2) (cH 0))) (cA (cA (cN 10) (cM (cN 9) (cV 1))) (cM (cN 2) (cW (cV 1) 4))))))))) (cM (cM (cN 12) (cW (cV 1) 4)) (cA (cR (cD (cM (cH 0) (cA (cN 2) (cV 1))) (cM (cA (cN 1) (cM (cN 2) (cH 0))) (cA (cN 5) (cM (cN 2) (cV 1)))))) (cM (cN 12) (cR (cD (cH 0) (cM (cA (cN 1) (cM (cN 2) (cH 0))) (cA (cA (cN 10) (cM (cN 9) (cV 1))) (cM (cN 2) (cW (cV 1) 4)))))))))) (cM (cN 3) (cA (cR (cD (cM (cH 0) (cA (cN 2) (cV 1))) (cM (cA (cN 1) (cM (cN 2) (cH 0))) (cA (cN 5) (cM (cN 2) (cV 1)))))) (cM (cN 68) (cR (cD (cH 0) (cM (cA (cN 1) (cM (cN 2) (cH 0))) (cA (cA (cN 10) (cM (cN 9) (cV 1))) (cM (cN 2) (cW (cV 1) 4)))))))))) (cM (cV 1) (cA (cM (cN 11) (cR (cD (cM (cH 0) (cA (cN 2) (cV 1))) (cM (cA (cN 1) (cM (cN 2) (cH 0))) (cA (cN 5) (cM (cN 2) (cV 1))))))) (cM (cN 294) (cR (cD (cH 0) (cM (cA (cN 1) (cM (cN 2) (cH 0))) (cA (cA (cN 10) (cM (cN 9) (cV 1))) (cM (cN 2) (cW (cV 1) 4))))))))))) (cM (cR (cD (cM (cA (cN 1) (cM (cN 2) (cH 0))) (cA (cA (cN 10) (cM (cN 9) (cV 1))) (cM (cN 2) (cW (cV 1) 4)))) (cA (cN 1) (cH 0)))) (cA (cA (cN 21) (cM (cN 13) (cV 1))) (cM (cN 2) (cW (cV 1) 4))))).
Definition SPSU2T_e371 := (cD (cR (cD (cB (cN 9) (cM (cN 4) (cW (cV 1) 4))) (cB (cN 1) (cM (cN 4) (cW (cV 1) 4))))) (cA (cN 1) (cM (cN 2) (cH 0)))).
Definition SPSU2T_e372 := (cO (cR (cD (cB (cN 9) (cM (cN 4) (cW (cV 1) 4))) (cB (cN 1) (cM (cN 4) (cW (cV 1) 4)))))).
Definition SPSU2T_e373 := (cD (cM (cM (cR (cN 2)) (cR (cM (cA (cN 1) (cM (cN 2) (cH 0))) (cA (cA (cN 3) (cM (cN 5) (cV 1))) (cM (cN 2) (cW (cV 1) 4)))))) (cA (cB (cB (cM (cM (cN 2) (cH 0)) (cR (cD (cA (cN 1) (cV 1)) (cM (cM (cW (cA (cN 1) (cM (cN 2) (cH 0))) 6) (cV 1)) (cA (cN 1) (cM (cN 2) (cV 1))))))) (cM (cN 2) (cR (cD (cA (cV 1) (cW (cV 1) 4)) (cA (cA (cA (cN 1) (cM (cN 2) (cH 0))) (cM (cN 2) (cV 1))) (cM (cM (cN 4) (cH 0)) (cV 1))))))) (cR (cD (cA (cN 1) (cV 1)) (cM (cA (cN 1) (cM (cN 2) (cH 0))) (cA (cV 1) (cM (cN 2) (cW (cV 1) 4))))))) (cM (cM (cN 2) (cV 1)) (cR (cD (cA (cN 1) (cV 1)) (cM (cA (cN 1) (cM (cN 2) (cH 0))) (cA (cV 1) (cM (cN 2) (cW (cV 1) 4))))))))) (cW (cA (cN 1) (cV 1)) 3)).
Definition SPSU2T_e374 := (cD (cM (cR (cM (cA (cN 1) (cH 0)) (cA (cA (cN 3) (cM (cN 5) (cV 1))) (cM (cN 2) (cW (cV 1) 4))))) (cA (cB (cB (cD (cM (cM (cR (cN 2)) (cA (cN (-4)) (cV 1))) (cA (cN (-1)) (cV 1))) (cM (cM (cA (cN 1) (cV 1)) (cR (cD (cM (cM (cM (cA (cN 1) (cH 0)) (cA (cN (-1)) (cV 1))) (cV 1)) (cA (cN 2) (cV 1))) (cA (cN (-1)) (cM (cN 2) (cV 1)))))) (cA (cN 1) (cM (cN 2) (cV 1))))) (cD (cM (cM (cM (cN 2) (cH 0)) (cA (cN (-4)) (cV 1))) (cA (cN (-1)) (cV 1))) (cM (cM (cA (cN 1) (cM (cN 2) (cH 0))) (cA (cN 1) (cM (cN 2) (cV 1)))) (cR (cD (cM (cM (cM (cM (cA (cN 1) (cH 0)) (cA (cN (-1)) (cV 1))) (cV 1)) (cW (cA (cN 1) (cV 1)) 4)) (cA (cN 2) (cV 1))) (cA (cN (-2)) (cM (cN 4) (cV 1)))))))) (cD (cM (cN 12) (cH 0)) (cM (cM (cA (cN 1) (cM (cN 2) (cH 0))) (cA (cN 1) (cM (cN 2) (cV 1)))) (cR (cD (cM (cM (cM (cA (cN 1) (cH 0)) (cV 1)) (cW (cA (cN 1) (cV 1)) 4)) (cA (cN 2) (cV 1))) (cA (cB (cN 2) (cM (cN 6) (cV 1))) (cM (cN 4) (cW (cV 1) 4)))))))) (cD (cN 6) (cR (cD (cM (cM (cM (cM (cA (cN 1) (cH 0)) (cV 1)) (cW (cA (cN 1) (cV 1)) 4)) (cA (cN 2) (cV 1))) (cW (cA (cN 1) (cM (cN 2) (cV 1))) 4)) (cA (cB (cN 2) (cM (cN 6) (cV 1))) (cM (cN 4) (cW (cV 1) 4)))))))) (cR (cN 2))).
Definition SPSU2T_e375 := (cD (cN 1) (cR (cD (cM (cM (cV 1) (cA (cN 1) (cV 1))) (cA (cN 1) (cM (cN 2) (cV 1)))) (cA (cN 6) (cM (cN 4) (cV 1)))))).
Definition SPSU2T_e376 := (cO (cD (cM (cR (cM (cA (cN 1) (cH 0)) (cA (cA (cN 3) (cM (cN 5) (cV 1))) (cM (cN 2) (cW (cV 1) 4))))) (cA (cA (cA (cD (cM (cM (cN 2) (cA (cN (-4)) (cV 1))) (cA (cN (-1)) (cV 1))) (cR (cD (cM (cM (cM (cM (cM (cM (cA (cN 1) (cH 0)) (cW (cA (cN 3) (cM (cN 2) (cH 0))) 4)) (cA (cN (-1)) (cV 1))) (cV 1)) (cW (cA (cN 1) (cV 1)) 4)) (cA (cN 2) (cV 1))) (cW (cA (cN 1) (cM (cN 2) (cV 1))) 4)) (cA (cN (-2)) (cM (cN 4) (cV 1)))))) (cD (cM (cM (cM (cA (cN 1) (cM (cN 2) (cH 0))) (cA (cN (-4)) (cV 1))) (cA (cN (-1)) (cV 1))) (cR (cA (cN (-2)) (cM (cN 4) (cV 1))))) (cM (cM (cA (cN 3) (cM (cN 2) (cH 0))) (cR (cM (cM (cA (cN 1) (cH 0)) (cV 1)) (cA (cA (cN (-2)) (cV 1)) (cW (cV 1) 4))))) (cA (cA (cN 1) (cM (cN 3) (cV 1))) (cM (cN 2) (cW (cV 1) 4)))))) (cD (cM (cN 6) (cA (cN 1) (cM (cN 2) (cH 0)))) (cM (cM (cA (cN 3) (cM (cN 2) (cH 0))) (cA (cA (cN 1) (cM (cN 3) (cV 1))) (cM (cN 2) (cW (cV 1) 4)))) (cR (cD (cM (cM (cA (cN 1) (cH 0)) (cV 1)) (cA (cN 2) (cV 1))) (cA (cB (cN 2) (cM (cN 6) (cV 1))) (cM (cN 4) (cW (cV 1) 4)))))))) (cD (cN 12) (cR (cD (cM (cM (cM (cM (cM (cA (cN 1) (cH 0)) (cW (cA (cN 3) (cM (cN 2) (cH 0))) 4)) (cV 1)) (cW (cA (cN 1) (cV 1)) 4)) (cA (cN 2) (cV 1))) (cW (cA (cN 1) (cM (cN 2) (cV 1))) 4)) (cA (cB (cN 2) (cM (cN 6) (cV 1))) (cM (cN 4) (cW (cV 1) 4)))))))) (cR (cN 2)))).
Definition SPSU2T_e377 := (cD (cM (cR (cN 6)) (cR (cO (cD (cN 1) (cM (cA (cN 1) (cV 1)) (cB (cV 1) (cM (cN 4) (cW (cV 1) 6)))))))) (cA (cN 1) (cM (cN 2) (cH 0)))).
Definition SPSU2T_e378 := (cD (cM (cR (cM (cA (cN 1) (cH 0)) (cA (cA (cN 3) (cM (cN 5) (cV 1))) (cM (cN 2) (cW (cV 1) 4))))) (cB (cA (cA (cA (cB (cD (cM (cM (cM (cN (-12)) (cR (cN 6))) (cH 0)) (cA (cN (-1)) (cV 1))) (cM (cM (cA (cN 1) (cM (cN 2) (cH 0))) (cA (cN 1) (cV 1))) (cR (cD (cM (cM (cM (cA (cN 1) (cH 0)) (cV 1)) (cA (cA (cN 2) (cM (cN 5) (cV 1))) (cM (cN 2) (cW (cV 1) 4)))) (cA (cA (cN 3) (cM (cN 5) (cV 1))) (cM (cN 2) (cW (cV 1) 4)))) (cA (cN (-1)) (cM (cN 2) (cV 1))))))) (cD (cM (cM (cM (cM (cN 2) (cR (cN 6))) (cH 0)) (cW (cB (cN 1) (cM (cN 2) (cV 1))) 4)) (cA (cN (-4)) (cV 1))) (cM (cM (cA (cN 1) (cM (cN 2) (cH 0))) (cA (cN 1) (cV 1))) (cR (cM (cM (cM (cA (cN 1) (cH 0)) (cV 1)) (cA (cA (cN 2) (cM (cN 5) (cV 1))) (cM (cN 2) (cW (cV 1) 4)))) (cA (cA (cA (cN (-3)) (cV 1)) (cM (cN 8) (cW (cV 1) 4))) (cM (cN 4) (cW (cV 1) 6)))))))) (cD (cM (cM (cM (cM (cM (cN 4) (cR (cN 6))) (cH 0)) (cA (cN (-1)) (cV 1))) (cV 1)) (cA (cN (-1)) (cM (cN 2) (cV 1)))) (cM (cM (cA (cN 1) (cM (cN 2) (cH 0))) (cA (cN 1) (cV 1))) (cR (cM (cM (cM (cA (cN 1) (cH 0)) (cV 1)) (cA (cA (cN 2) (cM (cN 5) (cV 1))) (cM (cN 2) (cW (cV 1) 4)))) (cA (cA (cA (cN (-3)) (cV 1)) (cM (cN 8) (cW (cV 1) 4))) (cM (cN 4) (cW (cV 1) 6)))))))) (cM (cM (cN 6) (cR (cN 6))) (cR (cD (cM (cW (cA (cN (-1)) (cV 1)) 4) (cA (cN (-1)) (cM (cN 2) (cV 1)))) (cM (cM (cM (cA (cN 1) (cH 0)) (cV 1)) (cW (cA (cN 1) (cV 1)) 6)) (cA (cA (cA (cN 6) (cM (cN 19) (cV 1))) (cM (cN 16) (cW (cV 1) 4))) (cM (cN 4) (cW (cV 1) 6)))))))) (cD (cM (cM (cR (cN 6)) (cA (cN (-4)) (cV 1))) (cA (cN (-1)) (cM (cN 2) (cV 1)))) (cM (cA (cN 1) (cV 1)) (cR (cD (cM (cM (cM (cA (cN 1) (cH 0)) (cV 1)) (cA (cN 1) (cV 1))) (cA (cA (cA (cN 6) (cM (cN 19) (cV 1))) (cM (cN 16) (cW (cV 1) 4))) (cM (cN 4) (cW (cV 1) 6)))) (cA (cN (-1)) (cM (cN 2) (cV 1)))))))) (cD (cM (cM (cM (cM (cN 2) (cR (cN 6))) (cA (cN (-1)) (cV 1))) (cV 1)) (cA (cN (-1)) (cM (cN 2) (cV 1)))) (cR (cM (cM (cM (cA (cN 1) (cH 0)) (cV 1)) (cW (cA (cN 1) (cV 1)) 6)) (cA (cA (cA (cB (cN (-6)) (cM (cN 7) (cV 1))) (cM (cN 22) (cW (cV 1) 4))) (cM (cN 28) (cW (cV 1) 6))) (cM (cN 8) (cW (cV 1) 8)))))))) (cR (cN 2))).
Definition SPSU2T_e379 := (cM (cR (cM (cA (cN 1) (cH 0)) (cA (cA (cN 3) (cM (cN 5) (cV 1))) (cM (cN 2) (cW (cV 1) 4))))) (cB (cB (cA (cA (cB (cD (cM (cN 36) (cR (cD (cM (cV 1) (cA (cN (-1)) (cM (cN 2) (cV 1)))) (cM (cM (cA (cN 1) (cH 0)) (cW (cA (cN 1) (cV 1)) 6)) (cA (cA (cA (cN 10) (cM (cN 29) (cV 1))) (cM (cN 20) (cW (cV 1) 4))) (cM (cN 4) (cW (cV 1) 6))))))) (cA (cN 3) (cM (cN 2) (cV 1)))) (cD (cM (cM (cN 72) (cH 0)) (cR (cD (cM (cV 1) (cA (cN (-1)) (cM (cN 2) (cV 1)))) (cM (cM (cA (cN 1) (cH 0)) (cW (cA (cN 3) (cM (cN 2) (cV 1))) 4)) (cA (cA (cA (cA (cN 10) (cM (cN 39) (cV 1))) (cM (cN 49) (cW (cV 1) 4))) (cM (cN 24) (cW (cV 1) 6))) (cM (cN 4) (cW (cV 1) 8))))))) (cM (cA (cN 1) (cM (cN 2) (cH 0))) (cA (cN 1) (cV 1))))) (cM (cM (cM (cN 9) (cA (cN (-3)) (cM (cN 2) (cV 1)))) (cA (cN (-1)) (cM (cN 2) (cV 1)))) (cR (cD (cV 1) (cM (cM (cM (cA (cN 1) (cH 0)) (cW (cA (cN 1) (cV 1)) 6)) (cW (cA (cN 3) (cM (cN 2) (cV 1))) 4)) (cA (cA (cA (cB (cN (-10)) (cM (cN 9) (cV 1))) (cM (cN 38) (cW (cV 1) 4))) (cM (cN 36) (cW (cV 1) 6))) (cM (cN 8) (cW (cV 1) 8)))))))) (cD (cM (cM (cV 1) (cA (cN (-1)) (cM (cN 2) (cV 1)))) (cA (cB (cN 1) (cM (cN 9) (cV 1))) (cM (cN 2) (cW (cV 1) 4)))) (cR (cM (cM (cM (cM (cA (cN 1) (cH 0)) (cV 1)) (cW (cA (cN 1) (cV 1)) 6)) (cW (cA (cN 3) (cM (cN 2) (cV 1))) 4)) (cA (cA (cA (cB (cN (-10)) (cM (cN 9) (cV 1))) (cM (cN 38) (cW (cV 1) 4))) (cM (cN 36) (cW (cV 1) 6))) (cM (cN 8) (cW (cV 1) 8))))))) (cD (cM (cM (cM (cM (cN 18) (cH 0)) (cA (cN (-3)) (cM (cN 2) (cV 1)))) (cA (cN (-1)) (cM (cN 2) (cV 1)))) (cR (cD (cV 1) (cM (cM (cA (cN 1) (cH 0)) (cW (cA (cN 3) (cM (cN 2) (cV 1))) 4)) (cA (cA (cA (cA (cB (cN (-10)) (cM (cN 19) (cV 1))) (cM (cN 29) (cW (cV 1) 4))) (cM (cN 74) (cW (cV 1) 6))) (cM (cN 44) (cW (cV 1) 8))) (cM (cN 8) (cW (cV 1) 10))))))) (cM (cA (cN 1) (cM (cN 2) (cH 0))) (cA (cN 1) (cV 1))))) (cD (cM (cM (cM (cM (cN 2) (cH 0)) (cV 1)) (cA (cN (-1)) (cM (cN 2) (cV 1)))) (cA (cB (cN 1) (cM (cN 9) (cV 1))) (cM (cN 2) (cW (cV 1) 4)))) (cM (cM (cM (cA (cN 1) (cM (cN 2) (cH 0))) (cA (cN 1) (cV 1))) (cA (cN 3) (cM (cN 2) (cV 1)))) (cR (cM (cM (cA (cN 1) (cH 0)) (cV 1)) (cA (cA (cA (cA (cB (cN (-10)) (cM (cN 19) (cV 1))) (cM (cN 29) (cW (cV 1) 4))) (cM (cN 74) (cW (cV 1) 6))) (cM (cN 44) (cW (cV 1) 8))) (cM (cN 8) (cW (cV 1) 10))))))))).
Definition SPSU2T_e380 := (cO (cM (cR (cN 6)) (cR (cO (cD (cN 1) (cM (cA (cN 1) (cV 1)) (cB (cV 1) (cM (cN 4) (cW (cV 1) 6))))))))).
Definition SPSU2T_e381 := (cO (cD (cM (cR (cM (cA (cN 1) (cH 0)) (cA (cA (cN 3) (cM (cN 5) (cV 1))) (cM (cN 2) (cW (cV 1) 4))))) (cB (cB (cA (cA (cA (cD (cM (cM (cN 12) (cR (cN 6))) (cA (cN (-1)) (cV 1))) (cM (cM (cA (cN 3) (cM (cN 2) (cH 0))) (cA (cN 1) (cV 1))) (cR (cD (cM (cM (cM (cA (cN 1) (cH 0)) (cV 1)) (cA (cA (cN 2) (cM (cN 5) (cV 1))) (cM (cN 2) (cW (cV 1) 4)))) (cA (cA (cN 3) (cM (cN 5) (cV 1))) (cM (cN 2) (cW (cV 1) 4)))) (cA (cN (-1)) (cM (cN 2) (cV 1))))))) (cD (cM (cM (cM (cN 2) (cR (cN 6))) (cW (cB (cN 1) (cM (cN 2) (cV 1))) 4)) (cA (cN (-4)) (cV 1))) (cM (cM (cA (cN 3) (cM (cN 2) (cH 0))) (cA (cN 1) (cV 1))) (cR (cM (cM (cM (cA (cN 1) (cH 0)) (cV 1)) (cA (cA (cN 2) (cM (cN 5) (cV 1))) (cM (cN 2) (cW (cV 1) 4)))) (cA (cA (cA (cN (-3)) (cV 1)) (cM (cN 8) (cW (cV 1) 4))) (cM (cN 4) (cW (cV 1) 6)))))))) (cD (cM (cM (cM (cM (cN 6) (cR (cN 6))) (cA (cN 1) (cM (cN 2) (cH 0)))) (cA (cN (-1)) (cV 1))) (cR (cD (cA (cN (-1)) (cM (cN 2) (cV 1))) (cM (cM (cM (cA (cN 1) (cH 0)) (cW (cA (cN 3) (cM (cN 2) (cH 0))) 4)) (cV 1)) (cA (cA (cA (cN 6) (cM (cN 19) (cV 1))) (cM (cN 16) (cW (cV 1) 4))) (cM (cN 4) (cW (cV 1) 6))))))) (cW (cA (cN 1) (cV 1)) 3))) (cD (cM (cM (cM (cR (cN 6)) (cA (cN 1) (cM (cN 2) (cH 0)))) (cA (cN (-4)) (cV 1))) (cA (cN (-1)) (cM (cN 2) (cV 1)))) (cM (cA (cN 1) (cV 1)) (cR (cD (cM (cM (cM (cM (cA (cN 1) (cH 0)) (cW (cA (cN 3) (cM (cN 2) (cH 0))) 4)) (cV 1)) (cA (cN 1) (cV 1))) (cA (cA (cA (cN 6) (cM (cN 19) (cV 1))) (cM (cN 16) (cW (cV 1) 4))) (cM (cN 4) (cW (cV 1) 6)))) (cA (cN (-1)) (cM (cN 2) (cV 1)))))))) (cD (cM (cM (cM (cM (cM (cN 2) (cR (cN 6))) (cA (cN 1) (cM (cN 2) (cH 0)))) (cA (cN (-1)) (cV 1))) (cV 1)) (cA (cN (-1)) (cM (cN 2) (cV 1)))) (cM (cM (cA (cN 3) (cM (cN 2) (cH 0))) (cW (cA (cN 1) (cV 1)) 3)) (cR (cM (cM (cA (cN 1) (cH 0)) (cV 1)) (cA (cA (cA (cB (cN (-6)) (cM (cN 7) (cV 1))) (cM (cN 22) (cW (cV 1) 4))) (cM (cN 28) (cW (cV 1) 6))) (cM (cN 8) (cW (cV 1) 8)))))))) (cD (cM (cM (cM (cM (cN 4) (cR (cN 6))) (cA (cN (-1)) (cV 1))) (cV 1)) (cA (cN (-1)) (cM (cN 2) (cV 1)))) (cR (cM (cM (cM (cM (cA (cN 1) (cH 0)) (cW (cA (cN 3) (cM (cN 2) (cH 0))) 4)) (cV 1)) (cW (cA (cN 1) (cV 1)) 6)) (cA (cA (cA (cB (cN (-6)) (cM (cN 7) (cV 1))) (cM (cN 22) (cW (cV 1) 4))) (cM (cN 28) (cW (cV 1) 6))) (cM (cN 8) (cW (cV 1) 8)))))))) (cR (cN 2)))).
Definition SPSU2T_e382 := (cO (cM (cR (cM (cA (cN 1) (cH 0)) (cA (cA (cN 3) (cM (cN 5) (cV 1))) (cM (cN 2) (cW (cV 1) 4))))) (cA (cA (cA (cA (cA (cM (cN 36) (cR (cD (cM (cM (cW (cA (cN 1) (cM (cN 2) (cH 0))) 4) (cV 1)) (cA (cN (-1)) (cM (cN 2) (cV 1)))) (cM (cM (cM (cM (cA (cN 1) (cH 0)) (cW (cA (cN 3) (cM (cN 2) (cH 0))) 4)) (cW (cA (cN 1) (cV 1)) 6)) (cW (cA (cN 3) (cM (cN 2) (cV 1))) 4)) (cA (cA (cA (cN 10) (cM (cN 29) (cV 1))) (cM (cN 20) (cW (cV 1) 4))) (cM (cN 4) (cW (cV 1) 6))))))) (cD (cM (cN 72) (cR (cD (cM (cV 1) (cA (cN (-1)) (cM (cN 2) (cV 1)))) (cM (cA (cN 1) (cH 0)) (cA (cA (cA (cA (cN 10) (cM (cN 39) (cV 1))) (cM (cN 49) (cW (cV 1) 4))) (cM (cN 24) (cW (cV 1) 6))) (cM (cN 4) (cW (cV 1) 8))))))) (cM (cA (cN 1) (cV 1)) (cA (cA (cA (cN 9) (cM (cN 6) (cH 0))) (cM (cN 6) (cV 1))) (cM (cM (cN 4) (cH 0)) (cV 1)))))) (cM (cM (cM (cN 18) (cA (cN (-3)) (cM (cN 2) (cV 1)))) (cA (cN (-1)) (cM (cN 2) (cV 1)))) (cR (cD (cV 1) (cM (cM (cM (cM (cA (cN 1) (cH 0)) (cW (cA (cN 3) (cM (cN 2) (cH 0))) 4)) (cW (cA (cN 1) (cV 1)) 6)) (cW (cA (cN 3) (cM (cN 2) (cV 1))) 4)) (cA (cA (cA (cB (cN (-10)) (cM (cN 9) (cV 1))) (cM (cN 38) (cW (cV 1) 4))) (cM (cN 36) (cW (cV 1) 6))) (cM (cN 8) (cW (cV 1) 8)))))))) (cM (cM (cM (cN 9) (cA (cN (-3)) (cM (cN 2) (cV 1)))) (cA (cN (-1)) (cM (cN 2) (cV 1)))) (cR (cD (cM (cW (cA (cN 1) (cM (cN 2) (cH 0))) 4) (cV 1)) (cM (cM (cM (cM (cA (cN 1) (cH 0)) (cW (cA (cN 3) (cM (cN 2) (cH 0))) 4)) (cW (cA (cN 1) (cV 1)) 6)) (cW (cA (cN 3) (cM (cN 2) (cV 1))) 4)) (cA (cA (cA (cB (cN (-10)) (cM (cN 9) (cV 1))) (cM (cN 38) (cW (cV 1) 4))) (cM (cN 36) (cW (cV 1) 6))) (cM (cN 8) (cW (cV 1) 8)))))))) (cD (cM (cM (cM (cA (cN 1) (cM (cN 2) (cH 0))) (cV 1)) (cA (cN (-1)) (cM (cN 2) (cV 1)))) (cA (cB (cN 1) (cM (cN 9) (cV 1))) (cM (cN 2) (cW (cV 1) 4)))) (cM (cM (cM (cA (cN 3) (cM (cN 2) (cH 0))) (cW (cA (cN 1) (cV 1)) 3)) (cA (cN 3) (cM (cN 2) (cV 1)))) (cR (cM (cM (cA (cN 1) (cH 0)) (cV 1)) (cA (cA (cA (cB (cN (-10)) (cM (cN 9) (cV 1))) (cM (cN 38) (cW (cV 1) 4))) (cM (cN 36) (cW (cV 1) 6))) (cM (cN 8) (cW (cV 1) 8)))))))) (cD (cM (cM (cM (cN 2) (cV 1)) (cA (cN (-1)) (cM (cN 2) (cV 1)))) (cA (cB (cN 1) (cM (cN 9) (cV 1))) (cM (cN 2) (cW (cV 1) 4)))) (cM (cM (cM (cA (cN 3) (cM (cN 2) (cH 0))) (cA (cN 1) (cV 1))) (cA (cN 3) (cM (cN 2) (cV 1)))) (cR (cM (cM (cA (cN 1) (cH 0)) (cV 1)) (cA (cA (cA (cA (cB (cN (-10)) (cM (cN 19) (cV 1))) (cM (cN 29) (cW (cV 1) 4))) (cM (cN 74) (cW (cV 1) 6))) (cM (cN 44) (cW (cV 1) 8))) (cM (cN 8) (cW (cV 1) 10)))))))))).
Definition SPSU2T_e383 := (cD (cN 3) (cM (cM (cA (cN 1) (cM (cN 2) (cH 0))) (cA (cN 1) (cV 1))) (cA (cN 1) (cM (cN 2) (cV 1))))).
Definition SPSU2T_e384 := (cD (cM (cR (cM (cA (cN 1) (cH 0)) (cA (cA (cN 3) (cM (cN 5) (cV 1))) (cM (cN 2) (cW (cV 1) 4))))) (cA (cA (cB (cB (cA (cB (cB (cD (cM (cM (cM (cM (cN 2) (cR (cN 6))) (cH 0)) (cV 1)) (cA (cN (-1)) (cM (cN 2) (cV 1)))) (cM (cM (cA (cN 1) (cM (cN 2) (cH 0))) (cA (cN 2) (cV 1))) (cR (cD (cM (cM (cM (cA (cN 1) (cH 0)) (cV 1)) (cA (cA (cN 5) (cM (cN 7) (cV 1))) (cM (cN 2) (cW (cV 1) 4)))) (cA (cA (cN 6) (cM (cN 7) (cV 1))) (cM (cN 2) (cW (cV 1) 4)))) (cA (cN 1) (cM (cN 2) (cV 1))))))) (cM (cM (cM (cM (cN 2) (cR (cN 6))) (cV 1)) (cA (cB (cN 1) (cM (cN 9) (cV 1))) (cM (cN 2) (cW (cV 1) 4)))) (cR (cD (cM (cW (cH 0) 4) (cA (cN 1) (cM (cN 2) (cV 1)))) (cM (cM (cM (cM (cA (cN 1) (cH 0)) (cW (cA (cN 1) (cM (cN 2) (cH 0))) 4)) (cV 1)) (cW (cA (cA (cN 2) (cM (cN 3) (cV 1))) (cW (cV 1) 4)) 6)) (cA (cA (cN 15) (cM (cN 16) (cV 1))) (cM (cN 4) (cW (cV 1) 4)))))))) (cD (cM (cM (cM (cM (cN 24) (cR (cN 6))) (cH 0)) (cA (cN (-1)) (cM (cN 2) (cV 1)))) (cR (cD (cV 1) (cM (cM (cA (cN 1) (cH 0)) (cA (cA (cN 5) (cM (cN 12) (cV 1))) (cM (cN 4) (cW (cV 1) 4)))) (cA (cA (cA (cN 6) (cM (cN 13) (cV 1))) (cM (cN 9) (cW (cV 1) 4))) (cM (cN 2) (cW (cV 1) 6))))))) (cM (cA (cN 1) (cM (cN 2) (cH 0))) (cA (cA (cN 2) (cM (cN 3) (cV 1))) (cW (cV 1) 4))))) (cD (cM (cM (cM (cN 9) (cR (cN 6))) (cW (cV 1) 4)) (cA (cN (-3)) (cM (cN 2) (cV 1)))) (cM (cA (cA (cN 2) (cM (cN 3) (cV 1))) (cW (cV 1) 4)) (cR (cM (cM (cM (cA (cN 1) (cH 0)) (cV 1)) (cA (cA (cN 5) (cM (cN 12) (cV 1))) (cM (cN 4) (cW (cV 1) 4)))) (cA (cA (cA (cN 6) (cM (cN 13) (cV 1))) (cM (cN 9) (cW (cV 1) 4))) (cM (cN 2) (cW (cV 1) 6)))))))) (cD (cM (cM (cM (cM (cN 18) (cR (cN 6))) (cH 0)) (cW (cV 1) 4)) (cA (cN (-3)) (cM (cN 2) (cV 1)))) (cM (cM (cA (cN 1) (cM (cN 2) (cH 0))) (cA (cA (cN 2) (cM (cN 3) (cV 1))) (cW (cV 1) 4))) (cR (cM (cM (cM (cA (cN 1) (cH 0)) (cV 1)) (cA (cA (cN 5) (cM (cN 12) (cV 1))) (cM (cN 4) (cW (cV 1) 4)))) (cA (cA (cA (cN 6) (cM (cN 13) (cV 1))) (cM (cN 9) (cW (cV 1) 4))) (cM (cN 2) (cW (cV 1) 6)))))))) (cD (cM (cM (cR (cN 6)) (cV 1)) (cA (cN (-1)) (cM (cN 2) (cV 1)))) (cR (cD (cM (cM (cM (cA (cN 1) (cH 0)) (cV 1)) (cW (cA (cN 2) (cV 1)) 6)) (cA (cA (cA (cN 15) (cM (cN 31) (cV 1))) (cM (cN 20) (cW (cV 1) 4))) (cM (cN 4) (cW (cV 1) 6)))) (cA (cN 1) (cM (cN 2) (cV 1))))))) (cM (cM (cN 12) (cR (cN 6))) (cR (cD (cM (cW (cB (cN 1) (cM (cN 2) (cV 1))) 4) (cV 1)) (cM (cM (cA (cN 1) (cH 0)) (cW (cA (cA (cN 2) (cM (cN 3) (cV 1))) (cW (cV 1) 4)) 6)) (cA (cA (cA (cN 15) (cM (cN 46) (cV 1))) (cM (cN 36) (cW (cV 1) 4))) (cM (cN 8) (cW (cV 1) 6)))))))) (cD (cM (cM (cM (cR (cN 6)) (cV 1)) (cA (cN 1) (cM (cN 2) (cV 1)))) (cA (cB (cN 1) (cM (cN 9) (cV 1))) (cM (cN 2) (cW (cV 1) 4)))) (cM (cA (cA (cN 2) (cM (cN 3) (cV 1))) (cW (cV 1) 4)) (cR (cM (cM (cA (cN 1) (cH 0)) (cV 1)) (cA (cA (cA (cA (cA (cN 30) (cM (cN 137) (cV 1))) (cM (cN 225) (cW (cV 1) 4))) (cM (cN 170) (cW (cV 1) 6))) (cM (cN 60) (cW (cV 1) 8))) (cM (cN 8) (cW (cV 1) 10))))))))) (cR (cN 2))).
Definition SPSU2T_e385 := (cM (cR (cM (cA (cN 1) (cH 0)) (cA (cA (cN 3) (cM (cN 5) (cV 1))) (cM (cN 2) (cW (cV 1) 4))))) (cB (cB (cB (cA (cA (cA (cB (cD (cM (cN 60) (cR (cD (cV 1) (cM (cM (cA (cN 1) (cH 0)) (cW (cA (cN 2) (cV 1)) 6)) (cA (cA (cN 9) (cM (cN 9) (cV 1))) (cM (cN 2) (cW (cV 1) 4))))))) (cA (cA (cN 5) (cM (cN 7) (cV 1))) (cM (cN 2) (cW (cV 1) 4)))) (cM (cN 120) (cR (cD (cM (cW (cH 0) 4) (cV 1)) (cM (cM (cM (cM (cA (cN 1) (cH 0)) (cW (cA (cN 1) (cM (cN 2) (cH 0))) 4)) (cW (cA (cN 2) (cV 1)) 6)) (cW (cA (cA (cN 5) (cM (cN 7) (cV 1))) (cM (cN 2) (cW (cV 1) 4))) 4)) (cA (cA (cN 9) (cM (cN 9) (cV 1))) (cM (cN 2) (cW (cV 1) 4)))))))) (cD (cM (cM (cM (cN 9) (cA (cN (-1)) (cV 1))) (cV 1)) (cA (cN 1) (cM (cN 2) (cV 1)))) (cM (cM (cW (cA (cN 2) (cV 1)) 3) (cA (cA (cN 5) (cM (cN 7) (cV 1))) (cM (cN 2) (cW (cV 1) 4)))) (cR (cM (cM (cA (cN 1) (cH 0)) (cV 1)) (cA (cA (cN 9) (cM (cN 9) (cV 1))) (cM (cN 2) (cW (cV 1) 4)))))))) (cD (cM (cA (cN (-3)) (cV 1)) (cV 1)) (cR (cD (cM (cM (cM (cM (cA (cN 1) (cH 0)) (cV 1)) (cW (cA (cN 2) (cV 1)) 6)) (cW (cA (cN 5) (cM (cN 2) (cV 1))) 4)) (cA (cA (cN 9) (cM (cN 9) (cV 1))) (cM (cN 2) (cW (cV 1) 4)))) (cW (cA (cN 1) (cM (cN 2) (cV 1))) 4))))) (cD (cM (cM (cN 18) (cV 1)) (cA (cN (-1)) (cM (cN 3) (cV 1)))) (cM (cM (cA (cN 5) (cM (cN 2) (cV 1))) (cA (cA (cN 2) (cM (cN 3) (cV 1))) (cW (cV 1) 4))) (cR (cM (cM (cA (cN 1) (cH 0)) (cV 1)) (cA (cA (cA (cN 18) (cM (cN 27) (cV 1))) (cM (cN 13) (cW (cV 1) 4))) (cM (cN 2) (cW (cV 1) 6)))))))) (cD (cM (cM (cM (cN 18) (cA (cN (-1)) (cV 1))) (cV 1)) (cA (cH 0) (cM (cM (cN 2) (cH 0)) (cV 1)))) (cM (cM (cM (cA (cN 1) (cM (cN 2) (cH 0))) (cA (cN 2) (cV 1))) (cA (cA (cN 5) (cM (cN 7) (cV 1))) (cM (cN 2) (cW (cV 1) 4)))) (cR (cM (cM (cA (cN 1) (cH 0)) (cV 1)) (cA (cA (cA (cN 18) (cM (cN 27) (cV 1))) (cM (cN 13) (cW (cV 1) 4))) (cM (cN 2) (cW (cV 1) 6)))))))) (cD (cM (cM (cM (cM (cN 2) (cH 0)) (cA (cN (-3)) (cV 1))) (cV 1)) (cA (cN 1) (cM (cN 2) (cV 1)))) (cM (cM (cA (cN 1) (cM (cN 2) (cH 0))) (cA (cA (cN 10) (cM (cN 9) (cV 1))) (cM (cN 2) (cW (cV 1) 4)))) (cR (cM (cM (cA (cN 1) (cH 0)) (cV 1)) (cA (cA (cA (cN 18) (cM (cN 27) (cV 1))) (cM (cN 13) (cW (cV 1) 4))) (cM (cN 2) (cW (cV 1) 6)))))))) (cD (cM (cM (cM (cN 36) (cH 0)) (cV 1)) (cA (cN (-1)) (cM (cN 3) (cV 1)))) (cM (cM (cM (cA (cN 1) (cM (cN 2) (cH 0))) (cA (cN 1) (cV 1))) (cA (cA (cN 10) (cM (cN 9) (cV 1))) (cM (cN 2) (cW (cV 1) 4)))) (cR (cM (cM (cA (cN 1) (cH 0)) (cV 1)) (cA (cA (cA (cN 18) (cM (cN 27) (cV 1))) (cM (cN 13) (cW (cV 1) 4))) (cM (cN 2) (cW (cV 1) 6))))))))).
Definition SPSU2T_e386 := (cD (cN (-3)) (cA (cA (cN 1) (cM (cN 3) (cV 1))) (cM (cN 2) (cW (cV 1) 4)))).
Definition SPSU2T_e387 := (cO (cM (cM (cR (cN 3)) (cR (cM (cA (cN 1) (cH 0)) (cA (cA (cN 3) (cM (cN 5) (cV 1))) (cM (cN 2) (cW (cV 1) 4)))))) (cA (cA (cA (cA (cB (cB (cA (cD (cM (cM (cN 2) (cA (cB (cN 1) (cM (cN 9) (cV 1))) (cM (cN 2) (cW (cV 1) 4)))) (cR (cD (cM (cV 1) (cA (cN 1) (cM (cN 2) (cV 1)))) (cM (cA (cN 1) (cH 0)) (cA (cA (cN 15) (cM (cN 16) (cV 1))) (cM (cN 4) (cW (cV 1) 4))))))) (cM (cA (cN 3) (cM (cN 2) (cH 0))) (cW (cA (cA (cN 2) (cM (cN 3) (cV 1))) (cW (cV 1) 4)) 3))) (cD (cM (cM (cA (cN 1) (cM (cN 2) (cH 0))) (cA (cB (cN 1) (cM (cN 9) (cV 1))) (cM (cN 2) (cW (cV 1) 4)))) (cR (cD (cM (cV 1) (cA (cN 1) (cM (cN 2) (cV 1)))) (cM (cA (cN 1) (cH 0)) (cA (cA (cN 15) (cM (cN 16) (cV 1))) (cM (cN 4) (cW (cV 1) 4))))))) (cM (cA (cN 3) (cM (cN 2) (cH 0))) (cW (cA (cA (cN 2) (cM (cN 3) (cV 1))) (cW (cV 1) 4)) 3)))) (cM (cM (cV 1) (cA (cN (-1)) (cM (cN 2) (cV 1)))) (cR (cD (cM (cW (cA (cN 1) (cM (cN 2) (cH 0))) 4) (cA (cN 1) (cM (cN 2) (cV 1)))) (cM (cM (cM (cM (cA (cN 1) (cH 0)) (cW (cA (cN 3) (cM (cN 2) (cH 0))) 4)) (cV 1)) (cW (cA (cN 2) (cV 1)) 6)) (cA (cA (cA (cN 15) (cM (cN 31) (cV 1))) (cM (cN 20) (cW (cV 1) 4))) (cM (cN 4) (cW (cV 1) 6)))))))) (cD (cM (cM (cN 2) (cV 1)) (cA (cN (-1)) (cM (cN 2) (cV 1)))) (cR (cD (cM (cM (cM (cM (cA (cN 1) (cH 0)) (cW (cA (cN 3) (cM (cN 2) (cH 0))) 4)) (cV 1)) (cW (cA (cN 2) (cV 1)) 6)) (cA (cA (cA (cN 15) (cM (cN 31) (cV 1))) (cM (cN 20) (cW (cV 1) 4))) (cM (cN 4) (cW (cV 1) 6)))) (cA (cN 1) (cM (cN 2) (cV 1))))))) (cM (cN 12) (cR (cD (cM (cM (cW (cA (cN 1) (cM (cN 2) (cH 0))) 4) (cW (cB (cN 1) (cM (cN 2) (cV 1))) 4)) (cV 1)) (cM (cM (cM (cA (cN 1) (cH 0)) (cW (cA (cN 3) (cM (cN 2) (cH 0))) 4)) (cW (cA (cA (cN 2) (cM (cN 3) (cV 1))) (cW (cV 1) 4)) 6)) (cA (cA (cA (cN 15) (cM (cN 46) (cV 1))) (cM (cN 36) (cW (cV 1) 4))) (cM (cN 8) (cW (cV 1) 6)))))))) (cD (cM (cN 24) (cA (cN (-1)) (cM (cN 2) (cV 1)))) (cM (cM (cA (cN 3) (cM (cN 2) (cH 0))) (cW (cA (cA (cN 2) (cM (cN 3) (cV 1))) (cW (cV 1) 4)) 3)) (cR (cD (cM (cA (cN 1) (cH 0)) (cA (cA (cA (cN 15) (cM (cN 46) (cV 1))) (cM (cN 36) (cW (cV 1) 4))) (cM (cN 8) (cW (cV 1) 6)))) (cV 1)))))) (cD (cM (cM (cN 18) (cW (cV 1) 4)) (cA (cN (-3)) (cM (cN 2) (cV 1)))) (cM (cM (cA (cN 3) (cM (cN 2) (cH 0))) (cA (cA (cN 2) (cM (cN 3) (cV 1))) (cW (cV 1) 4))) (cR (cM (cM (cA (cN 1) (cH 0)) (cV 1)) (cA (cA (cA (cA (cA (cN 30) (cM (cN 137) (cV 1))) (cM (cN 225) (cW (cV 1) 4))) (cM (cN 170) (cW (cV 1) 6))) (cM (cN 60) (cW (cV 1) 8))) (cM (cN 8) (cW (cV 1) 10)))))))) (cD (cM (cM (cM (cN 9) (cA (cN 1) (cM (cN 2) (cH 0)))) (cW (cV 1) 4)) (cA (cN (-3)) (cM (cN 2) (cV 1)))) (cM (cM (cA (cN 3) (cM (cN 2) (cH 0))) (cA (cA (cN 2) (cM (cN 3) (cV 1))) (cW (cV 1) 4))) (cR (cM (cM (cA (cN 1) (cH 0)) (cV 1)) (cA (cA (cA (cA (cA (cN 30) (cM (cN 137) (cV 1))) (cM (cN 225) (cW (cV 1) 4))) (cM (cN 170) (cW (cV 1) 6))) (cM (cN 60) (cW (cV 1) 8))) (cM (cN 8) (cW (cV 1) 10)))))))))).
Definition SPSU2T_e388 := (cO (cM (cR (cM (cA (cN 1) (cH 0)) (cA (cA (cN 3) (cM (cN 5) (cV 1))) (cM (cN 2) (cW (cV 1) 4))))) (cA (cA (cA (cA (cA (cA (cA (cM (cN 60) (cR (cD (cM (cW (cA (cN 1) (cM (cN 2) (cH 0))) 4) (cV 1)) (cM (cM (cM (cM (cA (cN 1) (cH 0)) (cW (cA (cN 3) (cM (cN 2) (cH 0))) 4)) (cW (cA (cN 2) (cV 1)) 6)) (cW (cA (cA (cN 5) (cM (cN 7) (cV 1))) (cM (cN 2) (cW (cV 1) 4))) 4)) (cA (cA (cN 9) (cM (cN 9) (cV 1))) (cM (cN 2) (cW (cV 1) 4))))))) (cD (cM (cM (cM (cN 2) (cA (cN (-3)) (cV 1))) (cV 1)) (cA (cN 1) (cM (cN 2) (cV 1)))) (cM (cM (cM (cA (cN 3) (cM (cN 2) (cH 0))) (cW (cA (cN 2) (cV 1)) 3)) (cA (cN 5) (cM (cN 2) (cV 1)))) (cR (cM (cM (cA (cN 1) (cH 0)) (cV 1)) (cA (cA (cN 9) (cM (cN 9) (cV 1))) (cM (cN 2) (cW (cV 1) 4)))))))) (cD (cM (cM (cM (cA (cN 1) (cM (cN 2) (cH 0))) (cA (cN (-3)) (cV 1))) (cV 1)) (cA (cN 1) (cM (cN 2) (cV 1)))) (cM (cM (cM (cA (cN 3) (cM (cN 2) (cH 0))) (cW (cA (cN 2) (cV 1)) 3)) (cA (cN 5) (cM (cN 2) (cV 1)))) (cR (cM (cM (cA (cN 1) (cH 0)) (cV 1)) (cA (cA (cN 9) (cM (cN 9) (cV 1))) (cM (cN 2) (cW (cV 1) 4)))))))) (cD (cM (cM (cM (cN 18) (cA (cN 1) (cM (cN 2) (cH 0)))) (cV 1)) (cA (cN (-1)) (cM (cN 3) (cV 1)))) (cM (cM (cM (cA (cN 3) (cM (cN 2) (cH 0))) (cW (cA (cN 2) (cV 1)) 3)) (cA (cA (cN 5) (cM (cN 7) (cV 1))) (cM (cN 2) (cW (cV 1) 4)))) (cR (cM (cM (cA (cN 1) (cH 0)) (cV 1)) (cA (cA (cN 9) (cM (cN 9) (cV 1))) (cM (cN 2) (cW (cV 1) 4)))))))) (cD (cN 120) (cR (cD (cM (cM (cM (cM (cA (cN 1) (cH 0)) (cW (cA (cN 3) (cM (cN 2) (cH 0))) 4)) (cW (cA (cN 2) (cV 1)) 6)) (cW (cA (cA (cN 5) (cM (cN 7) (cV 1))) (cM (cN 2) (cW (cV 1) 4))) 4)) (cA (cA (cN 9) (cM (cN 9) (cV 1))) (cM (cN 2) (cW (cV 1) 4)))) (cV 1))))) (cD (cM (cM (cM (cN 18) (cA (cN (-1)) (cV 1))) (cV 1)) (cA (cN 1) (cM (cN 2) (cV 1)))) (cM (cM (cM (cA (cN 3) (cM (cN 2) (cH 0))) (cA (cN 5) (cM (cN 2) (cV 1)))) (cA (cA (cN 2) (cM (cN 3) (cV 1))) (cW (cV 1) 4))) (cR (cM (cM (cA (cN 1) (cH 0)) (cV 1)) (cA (cA (cA (cN 18) (cM (cN 27) (cV 1))) (cM (cN 13) (cW (cV 1) 4))) (cM (cN 2) (cW (cV 1) 6)))))))) (cD (cM (cM (cM (cM (cN 9) (cA (cN 1) (cM (cN 2) (cH 0)))) (cA (cN (-1)) (cV 1))) (cV 1)) (cA (cN 1) (cM (cN 2) (cV 1)))) (cM (cM (cM (cA (cN 3) (cM (cN 2) (cH 0))) (cA (cN 5) (cM (cN 2) (cV 1)))) (cA (cA (cN 2) (cM (cN 3) (cV 1))) (cW (cV 1) 4))) (cR (cM (cM (cA (cN 1) (cH 0)) (cV 1)) (cA (cA (cA (cN 18) (cM (cN 27) (cV 1))) (cM (cN 13) (cW (cV 1) 4))) (cM (cN 2) (cW (cV 1) 6)))))))) (cD (cM (cM (cN 36) (cV 1)) (cA (cN (-1)) (cM (cN 3) (cV 1)))) (cM (cM (cM (cA (cN 3) (cM (cN 2) (cH 0))) (cA (cN 5) (cM (cN 2) (cV 1)))) (cA (cA (cN 2) (cM (cN 3) (cV 1))) (cW (cV 1) 4))) (cR (cM (cM (cA (cN 1) (cH 0)) (cV 1)) (cA (cA (cA (cN 18) (cM (cN 27) (cV 1))) (cM (cN 13) (cW (cV 1) 4))) (cM (cN 2) (cW (cV 1) 6)))))))))).
Definition SPSU2T_e389 := (cO (cM (cM (cR (cN 6)) (cR (cM (cA (cN 1) (cH 0)) (cA (cA (cN 3) (cM (cN 5) (cV 1))) (cM (cN 2) (cW (cV 1) 4)))))) (cA (cB (cA (cB (cA (cA (cB (cA (cB (cM (cA (cN (-1)) (cM (cN 2) (cV 1))) (cR (cD (cA (cN 1) (cM (cN 2) (cV 1))) (cM (cM (cA (cN 1) (cH 0)) (cW (cA (cN 2) (cV 1)) 6)) (cW (cA (cN 5) (cM (cN 2) (cV 1))) 4))))) (cM (cM (cN 2) (cA (cN (-1)) (cM (cN 2) (cV 1)))) (cR (cD (cM (cW (cH 0) 4) (cA (cN 1) (cM (cN 2) (cV 1)))) (cM (cM (cM (cA (cN 1) (cH 0)) (cW (cA (cN 1) (cM (cN 2) (cH 0))) 4)) (cW (cA (cN 2) (cV 1)) 6)) (cW (cA (cN 5) (cM (cN 2) (cV 1))) 4)))))) (cD (cM (cN 2) (cH 0)) (cM (cA (cN 1) (cM (cN 2) (cH 0))) (cR (cD (cM (cM (cA (cN 1) (cH 0)) (cA (cN 2) (cV 1))) (cW (cA (cN 5) (cM (cN 2) (cV 1))) 4)) (cA (cN 1) (cM (cN 2) (cV 1)))))))) (cD (cR (cD (cA (cN 1) (cM (cN 2) (cV 1))) (cA (cA (cA (cN 2) (cM (cN 2) (cH 0))) (cV 1)) (cM (cH 0) (cV 1))))) (cA (cN 5) (cM (cN 2) (cV 1))))) (cM (cB (cA (cN (-1)) (cM (cN 9) (cV 1))) (cM (cN 2) (cW (cV 1) 4))) (cR (cD (cA (cN 1) (cM (cN 2) (cV 1))) (cM (cM (cA (cN 1) (cH 0)) (cW (cA (cN 2) (cV 1)) 6)) (cW (cA (cA (cN 15) (cM (cN 16) (cV 1))) (cM (cN 4) (cW (cV 1) 4))) 4)))))) (cM (cM (cN 2) (cA (cB (cN 1) (cM (cN 9) (cV 1))) (cM (cN 2) (cW (cV 1) 4)))) (cR (cD (cM (cW (cH 0) 4) (cA (cN 1) (cM (cN 2) (cV 1)))) (cM (cM (cM (cA (cN 1) (cH 0)) (cW (cA (cN 1) (cM (cN 2) (cH 0))) 4)) (cW (cA (cN 2) (cV 1)) 6)) (cW (cA (cA (cN 15) (cM (cN 16) (cV 1))) (cM (cN 4) (cW (cV 1) 4))) 4)))))) (cM (cM (cN 3) (cA (cN (-3)) (cM (cN 2) (cV 1)))) (cR (cD (cM (cW (cV 1) 4) (cA (cN 1) (cM (cN 2) (cV 1)))) (cM (cM (cA (cN 1) (cH 0)) (cW (cA (cN 2) (cV 1)) 6)) (cW (cA (cA (cA (cN 15) (cM (cN 31) (cV 1))) (cM (cN 20) (cW (cV 1) 4))) (cM (cN 4) (cW (cV 1) 6))) 4)))))) (cD (cM (cM (cM (cN 6) (cH 0)) (cV 1)) (cA (cN (-3)) (cM (cN 2) (cV 1)))) (cM (cM (cM (cA (cN 1) (cM (cN 2) (cH 0))) (cW (cA (cN 2) (cV 1)) 3)) (cR (cD (cA (cN 1) (cH 0)) (cA (cN 1) (cM (cN 2) (cV 1)))))) (cA (cA (cA (cN 15) (cM (cN 31) (cV 1))) (cM (cN 20) (cW (cV 1) 4))) (cM (cN 4) (cW (cV 1) 6)))))) (cD (cM (cM (cN 6) (cV 1)) (cA (cN (-1)) (cM (cN 2) (cV 1)))) (cM (cM (cW (cA (cN 2) (cV 1)) 3) (cR (cM (cA (cN 1) (cH 0)) (cA (cN 1) (cM (cN 2) (cV 1)))))) (cA (cA (cA (cN 15) (cM (cN 31) (cV 1))) (cM (cN 20) (cW (cV 1) 4))) (cM (cN 4) (cW (cV 1) 6)))))) (cD (cM (cM (cM (cN 12) (cH 0)) (cV 1)) (cA (cN (-1)) (cM (cN 2) (cV 1)))) (cM (cM (cM (cA (cN 1) (cM (cN 2) (cH 0))) (cA (cN 2) (cV 1))) (cR (cM (cA (cN 1) (cH 0)) (cA (cA (cN 2) (cM (cN 5) (cV 1))) (cM (cN 2) (cW (cV 1) 4)))))) (cA (cA (cA (cN 15) (cM (cN 31) (cV 1))) (cM (cN 20) (cW (cV 1) 4))) (cM (cN 4) (cW (cV 1) 6)))))))).
Definition SPSU2T_e390 := (cO (cD (cM (cM (cR (cN 2)) (cR (cM (cA (cN 1) (cH 0)) (cA (cA (cN 3) (cM (cN 5) (cV 1))) (cM (cN 2) (cW (cV 1) 4)))))) (cA (cA (cB (cA (cA (cM (cW (cV 1) 8) (cA (cM (cN (-18)) (cR (cD (cN 1) (cM (cM (cA (cN 1) (cH 0)) (cW (cA (cN 2) (cV 1)) 10)) (cA (cN 3) (cM (cN 2) (cV 1))))))) (cM (cM (cN 4) (cH 0)) (cR (cD (cA (cN 3) (cM (cN 2) (cV 1))) (cM (cA (cN 1) (cH 0)) (cW (cA (cN 2) (cV 1)) 10))))))) (cM (cN 5) (cA (cM (cN 6) (cR (cD (cN 1) (cM (cM (cA (cN 1) (cH 0)) (cW (cA (cN 2) (cV 1)) 10)) (cA (cN 3) (cM (cN 2) (cV 1))))))) (cR (cD (cA (cN 3) (cM (cN 2) (cV 1))) (cM (cA (cN 1) (cH 0)) (cW (cA (cN 2) (cV 1)) 6))))))) (cM (cM (cN 6) (cH 0)) (cA (cM (cN (-2)) (cR (cD (cA (cN 3) (cM (cN 2) (cV 1))) (cM (cA (cN 1) (cH 0)) (cW (cA (cN 2) (cV 1)) 10))))) (cR (cD (cA (cN 3) (cM (cN 2) (cV 1))) (cM (cA (cN 1) (cH 0)) (cW (cA (cN 2) (cV 1)) 6))))))) (cM (cM (cN 2) (cW (cV 1) 4)) (cB (cB (cA (cM (cN 54) (cR (cD (cN 1) (cM (cM (cA (cN 1) (cH 0)) (cW (cA (cN 2) (cV 1)) 10)) (cA (cN 3) (cM (cN 2) (cV 1))))))) (cM (cM (cN 14) (cH 0)) (cR (cD (cA (cN 3) (cM (cN 2) (cV 1))) (cM (cA (cN 1) (cH 0)) (cW (cA (cN 2) (cV 1)) 10)))))) (cM (cN 5) (cR (cD (cA (cN 3) (cM (cN 2) (cV 1))) (cM (cA (cN 1) (cH 0)) (cW (cA (cN 2) (cV 1)) 6)))))) (cM (cM (cN 3) (cH 0)) (cR (cD (cA (cN 3) (cM (cN 2) (cV 1))) (cM (cA (cN 1) (cH 0)) (cW (cA (cN 2) (cV 1)) 6)))))))) (cM (cV 1) (cA (cA (cB (cM (cN (-21)) (cR (cD (cN 1) (cM (cM (cA (cN 1) (cH 0)) (cW (cA (cN 2) (cV 1)) 10)) (cA (cN 3) (cM (cN 2) (cV 1))))))) (cM (cM (cN 38) (cH 0)) (cR (cD (cA (cN 3) (cM (cN 2) (cV 1))) (cM (cA (cN 1) (cH 0)) (cW (cA (cN 2) (cV 1)) 10)))))) (cM (cN 15) (cR (cD (cA (cN 3) (cM (cN 2) (cV 1))) (cM (cA (cN 1) (cH 0)) (cW (cA (cN 2) (cV 1)) 6)))))) (cM (cM (cN 16) (cH 0)) (cR (cD (cA (cN 3) (cM (cN 2) (cV 1))) (cM (cA (cN 1) (cH 0)) (cW (cA (cN 2) (cV 1)) 6)))))))) (cM (cW (cV 1) 6) (cA (cM (cN (-81)) (cR (cD (cN 1) (cM (cM (cA (cN 1) (cH 0)) (cW (cA (cN 2) (cV 1)) 10)) (cA (cN 3) (cM (cN 2) (cV 1))))))) (cM (cM (cN 2) (cH 0)) (cB (cR (cD (cA (cN 3) (cM (cN 2) (cV 1))) (cM (cA (cN 1) (cH 0)) (cW (cA (cN 2) (cV 1)) 10)))) (cM (cN 2) (cR (cD (cA (cN 3) (cM (cN 2) (cV 1))) (cM (cA (cN 1) (cH 0)) (cW (cA (cN 2) (cV 1)) 6))))))))))) (cM (cA (cN 1) (cM (cN 2) (cH 0))) (cA (cA (cA (cN 15) (cM (cN 26) (cV 1))) (cM (cN 13) (cW (cV 1) 4))) (cM (cN 2) (cW (cV 1) 6)))))).
Definition SPSU2T_e391 := (cD (cB (cA (cA (cA (cA (cM (cN 120) (cR (cD (cM (cA (cA (cN 1) (cM (cN 3) (cH 0))) (cM (cN 2) (cW (cH 0) 4))) (cA (cA (cN 5) (cM (cN 12) (cV 1))) (cM (cN 4) (cW (cV 1) 4)))) (cA (cA (cN 21) (cM (cN 13) (cV 1))) (cM (cN 2) (cW (cV 1) 4)))))) (cM (cM (cN 79) (cV 1)) (cR (cD (cM (cA (cA (cN 1) (cM (cN 3) (cH 0))) (cM (cN 2) (cW (cH 0) 4))) (cA (cA (cN 5) (cM (cN 12) (cV 1))) (cM (cN 4) (cW (cV 1) 4)))) (cA (cA (cN 21) (cM (cN 13) (cV 1))) (cM (cN 2) (cW (cV 1) 4))))))) (cM (cM (cN 21) (cW (cV 1) 4)) (cR (cD (cM (cA (cA (cN 1) (cM (cN 3) (cH 0))) (cM (cN 2) (cW (cH 0) 4))) (cA (cA (cN 5) (cM (cN 12) (cV 1))) (cM (cN 4) (cW (cV 1) 4)))) (cA (cA (cN 21) (cM (cN 13) (cV 1))) (cM (cN 2) (cW (cV 1) 4))))))) (cM (cM (cN 2) (cW (cV 1) 6)) (cR (cD (cM (cA (cA (cN 1) (cM (cN 3) (cH 0))) (cM (cN 2) (cW (cH 0) 4))) (cA (cA (cN 5) (cM (cN 12) (cV 1))) (cM (cN 4) (cW (cV 1) 4)))) (cA (cA (cN 21) (cM (cN 13) (cV 1))) (cM (cN 2) (cW (cV 1) 4))))))) (cM (cN 90) (cR (cD (cM (cA (cA (cN 1) (cM (cN 3) (cH 0))) (cM (cN 2) (cW (cH 0) 4))) (cA (cN 5) (cM (cN 2) (cV 1)))) (cA (cA (cA (cN 21) (cM (cN 55) (cV 1))) (cM (cN 28) (cW (cV 1) 4))) (cM (cN 4) (cW (cV 1) 6))))))) (cM (cM (cN 2) (cH 0)) (cA (cA (cA (cA (cM (cN 120) (cR (cD (cM (cA (cN 1) (cH 0)) (cA (cA (cN 5) (cM (cN 12) (cV 1))) (cM (cN 4) (cW (cV 1) 4)))) (cM (cA (cN 1) (cM (cN 2) (cH 0))) (cA (cA (cN 21) (cM (cN 13) (cV 1))) (cM (cN 2) (cW (cV 1) 4))))))) (cM (cM (cN 79) (cV 1)) (cR (cD (cM (cA (cN 1) (cH 0)) (cA (cA (cN 5) (cM (cN 12) (cV 1))) (cM (cN 4) (cW (cV 1) 4)))) (cM (cA (cN 1) (cM (cN 2) (cH 0))) (cA (cA (cN 21) (cM (cN 13) (cV 1))) (cM (cN 2) (cW (cV 1) 4)))))))) (cM (cM (cN 21) (cW (cV 1) 4)) (cR (cD (cM (cA (cN 1) (cH 0)) (cA (cA (cN 5) (cM (cN 12) (cV 1))) (cM (cN 4) (cW (cV 1) 4)))) (cM (cA (cN 1) (cM (cN 2) (cH 0))) (cA (cA (cN 21) (cM (cN 13) (cV 1))) (cM (cN 2) (cW (cV 1) 4)))))))) (cM (cM (cN 2) (cW (cV 1) 6)) (cR (cD (cM (cA (cN 1) (cH 0)) (cA (cA (cN 5) (cM (cN 12) (cV 1))) (cM (cN 4) (cW (cV 1) 4)))) (cM (cA (cN 1) (cM (cN 2) (cH 0))) (cA (cA (cN 21) (cM (cN 13) (cV 1))) (cM (cN 2) (cW (cV 1) 4)))))))) (cM (cN 90) (cR (cD (cM (cA (cN 1) (cH 0)) (cA (cN 5) (cM (cN 2) (cV 1)))) (cM (cA (cN 1) (cM (cN 2) (cH 0))) (cA (cA (cA (cN 21) (cM (cN 55) (cV 1))) (cM (cN 28) (cW (cV 1) 4))) (cM (cN 4) (cW (cV 1) 6)))))))))) (cR (cD (cM (cM (cM (cA (cA (cN 1) (cM (cN 3) (cH 0))) (cM (cN 2) (cW (cH 0) 4))) (cW (cA (cN 2) (cV 1)) 4)) (cW (cA (cN 5) (cM (cN 2) (cV 1))) 6)) (cA (cA (cN 21) (cM (cN 13) (cV 1))) (cM (cN 2) (cW (cV 1) 4)))) (cA (cN 1) (cM (cN 2) (cV 1)))))).
Definition SPSU2T_e392 := (cO (cM (cM (cR (cN 6)) (cR (cM (cA (cN 1) (cH 0)) (cA (cA (cN 3) (cM (cN 5) (cV 1))) (cM (cN 2) (cW (cV 1) 4)))))) (cA (cA (cA (cA (cA (cA (cA (cA (cA (cD (cB (cN 2) (cM (cN 4) (cV 1))) (cM (cM (cM (cA (cN 3) (cM (cN 2) (cH 0))) (cW (cA (cN 2) (cV 1)) 3)) (cR (cD (cA (cN 1) (cH 0)) (cA (cN 1) (cM (cN 2) (cV 1)))))) (cA (cN 5) (cM (cN 2) (cV 1))))) (cD (cN 2) (cM (cM (cA (cN 3) (cM (cN 2) (cH 0))) (cR (cD (cM (cA (cN 1) (cH 0)) (cA (cN 2) (cV 1))) (cA (cN 1) (cM (cN 2) (cV 1)))))) (cA (cN 5) (cM (cN 2) (cV 1)))))) (cD (cN 1) (cR (cD (cM (cM (cM (cA (cN 1) (cH 0)) (cW (cA (cN 3) (cM (cN 2) (cH 0))) 4)) (cA (cN 2) (cV 1))) (cW (cA (cN 5) (cM (cN 2) (cV 1))) 4)) (cM (cW (cA (cN 1) (cM (cN 2) (cH 0))) 4) (cA (cN 1) (cM (cN 2) (cV 1)))))))) (cD (cB (cN 1) (cM (cN 2) (cV 1))) (cR (cD (cM (cM (cM (cA (cN 1) (cH 0)) (cW (cA (cN 3) (cM (cN 2) (cH 0))) 4)) (cW (cA (cN 2) (cV 1)) 6)) (cW (cA (cN 5) (cM (cN 2) (cV 1))) 4)) (cM (cW (cA (cN 1) (cM (cN 2) (cH 0))) 4) (cA (cN 1) (cM (cN 2) (cV 1)))))))) (cD (cM (cM (cM (cN 6) (cA (cN 1) (cM (cN 2) (cH 0)))) (cV 1)) (cA (cN (-1)) (cM (cN 2) (cV 1)))) (cM (cM (cM (cM (cA (cN 3) (cM (cN 2) (cH 0))) (cW (cA (cN 2) (cV 1)) 3)) (cR (cM (cA (cN 1) (cH 0)) (cA (cN 1) (cM (cN 2) (cV 1)))))) (cA (cN 3) (cM (cN 2) (cV 1)))) (cA (cA (cN 5) (cM (cN 7) (cV 1))) (cM (cN 2) (cW (cV 1) 4)))))) (cD (cM (cN 3) (cA (cN (-3)) (cM (cN 2) (cV 1)))) (cR (cD (cM (cM (cM (cM (cA (cN 1) (cH 0)) (cW (cA (cN 3) (cM (cN 2) (cH 0))) 4)) (cW (cA (cN 2) (cV 1)) 6)) (cW (cA (cN 3) (cM (cN 2) (cV 1))) 4)) (cW (cA (cA (cN 5) (cM (cN 7) (cV 1))) (cM (cN 2) (cW (cV 1) 4))) 4)) (cM (cA (cN 1) (cM (cN 2) (cV 1))) (cW (cA (cV 1) (cM (cM (cN 2) (cH 0)) (cV 1))) 4)))))) (cD (cM (cN 2) (cA (cB (cN 1) (cM (cN 9) (cV 1))) (cM (cN 2) (cW (cV 1) 4)))) (cM (cM (cA (cN 3) (cM (cN 2) (cH 0))) (cR (cD (cM (cM (cA (cN 1) (cH 0)) (cA (cN 2) (cV 1))) (cW (cA (cN 3) (cM (cN 2) (cV 1))) 4)) (cA (cN 1) (cM (cN 2) (cV 1)))))) (cA (cA (cN 10) (cM (cN 9) (cV 1))) (cM (cN 2) (cW (cV 1) 4)))))) (cD (cM (cA (cN 1) (cM (cN 2) (cH 0))) (cA (cB (cN 1) (cM (cN 9) (cV 1))) (cM (cN 2) (cW (cV 1) 4)))) (cM (cM (cA (cN 3) (cM (cN 2) (cH 0))) (cR (cD (cM (cM (cA (cN 1) (cH 0)) (cA (cN 2) (cV 1))) (cW (cA (cN 3) (cM (cN 2) (cV 1))) 4)) (cA (cN 1) (cM (cN 2) (cV 1)))))) (cA (cA (cN 10) (cM (cN 9) (cV 1))) (cM (cN 2) (cW (cV 1) 4)))))) (cD (cM (cM (cN 12) (cV 1)) (cA (cN (-1)) (cM (cN 2) (cV 1)))) (cM (cM (cM (cA (cN 3) (cM (cN 2) (cH 0))) (cA (cN 3) (cM (cN 2) (cV 1)))) (cR (cM (cA (cN 1) (cH 0)) (cA (cA (cN 2) (cM (cN 5) (cV 1))) (cM (cN 2) (cW (cV 1) 4)))))) (cA (cA (cA (cN 10) (cM (cN 19) (cV 1))) (cM (cN 11) (cW (cV 1) 4))) (cM (cN 2) (cW (cV 1) 6)))))) (cD (cM (cN 6) (cA (cN (-3)) (cM (cN 2) (cV 1)))) (cR (cD (cM (cM (cM (cA (cN 1) (cH 0)) (cW (cA (cN 3) (cM (cN 2) (cH 0))) 4)) (cW (cA (cN 2) (cV 1)) 6)) (cW (cA (cA (cA (cN 15) (cM (cN 31) (cV 1))) (cM (cN 20) (cW (cV 1) 4))) (cM (cN 4) (cW (cV 1) 6))) 4)) (cM (cW (cV 1) 4) (cA (cN 1) (cM (cN 2) (cV 1)))))))))).
Definition SPSU2T_e393 := (cO (cD (cM (cM (cR (cN 2)) (cR (cM (cA (cN 1) (cH 0)) (cA (cA (cN 3) (cM (cN 5) (cV 1))) (cM (cN 2) (cW (cV 1) 4)))))) (cA (cA (cB (cA (cA (cA (cA (cA (cA (cD (cM (cN (-2)) (cA (cN 1) (cM (cN 2) (cV 1)))) (cM (cM (cA (cN 3) (cV 1)) (cR (cD (cM (cA (cN 1) (cH 0)) (cA (cN 2) (cV 1))) (cA (cN 3) (cM (cN 2) (cV 1)))))) (cA (cN 5) (cM (cN 2) (cV 1))))) (cD (cM (cN 60) (cV 1)) (cM (cM (cM (cW (cA (cN 2) (cV 1)) 3) (cA (cN 3) (cV 1))) (cR (cM (cA (cN 1) (cH 0)) (cA (cN 3) (cM (cN 2) (cV 1)))))) (cA (cA (cN 5) (cM (cN 7) (cV 1))) (cM (cN 2) (cW (cV 1) 4)))))) (cD (cM (cM (cM (cN 6) (cA (cN 1) (cM (cN 2) (cH 0)))) (cA (cN 1) (cM (cN 2) (cV 1)))) (cA (cN (-1)) (cM (cN 3) (cV 1)))) (cM (cM (cM (cW (cA (cN 2) (cV 1)) 3) (cA (cN 3) (cV 1))) (cR (cM (cA (cN 1) (cH 0)) (cA (cN 3) (cM (cN 2) (cV 1)))))) (cA (cA (cN 5) (cM (cN 7) (cV 1))) (cM (cN 2) (cW (cV 1) 4)))))) (cD (cM (cM (cN 2) (cA (cN (-3)) (cV 1))) (cA (cN 1) (cM (cN 2) (cV 1)))) (cM (cR (cD (cM (cM (cA (cN 1) (cH 0)) (cA (cN 2) (cV 1))) (cW (cA (cN 3) (cV 1)) 4)) (cA (cN 3) (cM (cN 2) (cV 1))))) (cA (cA (cN 10) (cM (cN 9) (cV 1))) (cM (cN 2) (cW (cV 1) 4)))))) (cD (cM (cM (cA (cN 1) (cM (cN 2) (cH 0))) (cA (cN (-3)) (cV 1))) (cA (cN 1) (cM (cN 2) (cV 1)))) (cM (cR (cD (cM (cM (cA (cN 1) (cH 0)) (cA (cN 2) (cV 1))) (cW (cA (cN 3) (cV 1)) 4)) (cA (cN 3) (cM (cN 2) (cV 1))))) (cA (cA (cN 10) (cM (cN 9) (cV 1))) (cM (cN 2) (cW (cV 1) 4)))))) (cD (cM (cM (cN 18) (cA (cN (-1)) (cV 1))) (cA (cN 1) (cM (cN 2) (cV 1)))) (cM (cM (cA (cN 3) (cV 1)) (cR (cM (cA (cN 1) (cH 0)) (cA (cA (cN 6) (cM (cN 7) (cV 1))) (cM (cN 2) (cW (cV 1) 4)))))) (cA (cA (cN 10) (cM (cN 9) (cV 1))) (cM (cN 2) (cW (cV 1) 4)))))) (cD (cM (cM (cM (cN 9) (cA (cN 1) (cM (cN 2) (cH 0)))) (cA (cN (-1)) (cV 1))) (cA (cN 1) (cM (cN 2) (cV 1)))) (cM (cM (cA (cN 3) (cV 1)) (cR (cM (cA (cN 1) (cH 0)) (cA (cA (cN 6) (cM (cN 7) (cV 1))) (cM (cN 2) (cW (cV 1) 4)))))) (cA (cA (cN 10) (cM (cN 9) (cV 1))) (cM (cN 2) (cW (cV 1) 4)))))) (cD (cM (cA (cN 1) (cM (cN 2) (cH 0))) (cA (cN 1) (cM (cN 2) (cV 1)))) (cM (cR (cD (cM (cA (cN 1) (cH 0)) (cA (cN 2) (cV 1))) (cA (cN 3) (cM (cN 2) (cV 1))))) (cA (cA (cN 15) (cM (cN 11) (cV 1))) (cM (cN 2) (cW (cV 1) 4)))))) (cD (cM (cN 30) (cA (cV 1) (cM (cM (cN 2) (cH 0)) (cV 1)))) (cM (cM (cW (cA (cN 2) (cV 1)) 3) (cR (cM (cA (cN 1) (cH 0)) (cA (cN 3) (cM (cN 2) (cV 1)))))) (cA (cA (cA (cN 15) (cM (cN 26) (cV 1))) (cM (cN 13) (cW (cV 1) 4))) (cM (cN 2) (cW (cV 1) 6)))))) (cD (cM (cM (cN 12) (cA (cN 1) (cM (cN 2) (cV 1)))) (cA (cN (-1)) (cM (cN 3) (cV 1)))) (cM (cM (cA (cN 2) (cV 1)) (cR (cM (cA (cN 1) (cH 0)) (cA (cA (cN 6) (cM (cN 7) (cV 1))) (cM (cN 2) (cW (cV 1) 4)))))) (cA (cA (cA (cN 15) (cM (cN 26) (cV 1))) (cM (cN 13) (cW (cV 1) 4))) (cM (cN 2) (cW (cV 1) 6))))))) (cA (cN 3) (cM (cN 2) (cH 0))))).
Definition SPSU2T_e394 := (cO (cD (cM (cA (cN 3) (cM (cN 2) (cH 0))) (cA (cA (cA (cA (cM (cN 120) (cR (cD (cM (cA (cN 1) (cH 0)) (cA (cA (cN 5) (cM (cN 12) (cV 1))) (cM (cN 4) (cW (cV 1) 4)))) (cM (cA (cN 3) (cM (cN 2) (cH 0))) (cA (cA (cN 21) (cM (cN 13) (cV 1))) (cM (cN 2) (cW (cV 1) 4))))))) (cM (cM (cN 79) (cV 1)) (cR (cD (cM (cA (cN 1) (cH 0)) (cA (cA (cN 5) (cM (cN 12) (cV 1))) (cM (cN 4) (cW (cV 1) 4)))) (cM (cA (cN 3) (cM (cN 2) (cH 0))) (cA (cA (cN 21) (cM (cN 13) (cV 1))) (cM (cN 2) (cW (cV 1) 4)))))))) (cM (cM (cN 21) (cW (cV 1) 4)) (cR (cD (cM (cA (cN 1) (cH 0)) (cA (cA (cN 5) (cM (cN 12) (cV 1))) (cM (cN 4) (cW (cV 1) 4)))) (cM (cA (cN 3) (cM (cN 2) (cH 0))) (cA (cA (cN 21) (cM (cN 13) (cV 1))) (cM (cN 2) (cW (cV 1) 4)))))))) (cM (cM (cN 2) (cW (cV 1) 6)) (cR (cD (cM (cA (cN 1) (cH 0)) (cA (cA (cN 5) (cM (cN 12) (cV 1))) (cM (cN 4) (cW (cV 1) 4)))) (cM (cA (cN 3) (cM (cN 2) (cH 0))) (cA (cA (cN 21) (cM (cN 13) (cV 1))) (cM (cN 2) (cW (cV 1) 4)))))))) (cM (cN 90) (cR (cD (cM (cA (cN 1) (cH 0)) (cA (cN 5) (cM (cN 2) (cV 1)))) (cM (cA (cN 3) (cM (cN 2) (cH 0))) (cA (cA (cA (cN 21) (cM (cN 55) (cV 1))) (cM (cN 28) (cW (cV 1) 4))) (cM (cN 4) (cW (cV 1) 6))))))))) (cR (cD (cM (cM (cM (cM (cA (cN 1) (cH 0)) (cA (cN 3) (cM (cN 2) (cH 0)))) (cW (cA (cN 2) (cV 1)) 4)) (cW (cA (cN 5) (cM (cN 2) (cV 1))) 6)) (cA (cA (cN 21) (cM (cN 13) (cV 1))) (cM (cN 2) (cW (cV 1) 4)))) (cA (cN 1) (cM (cN 2) (cV 1))))))).
Definition SPSU2T_e395 := (cD (cR (cD (cM (cA (cA (cN (-1)) (cH 0)) (cM (cN 2) (cW (cH 0) 4))) (cA (cA (cN (-3)) (cM (cN 4) (cV 1))) (cM (cN 4) (cW (cV 1) 4)))) (cM (cH 0) (cA (cN 1) (cM (cN 2) (cH 0)))))) (cA (cN 1) (cM (cN 2) (cV 1)))).
Definition SPSU2T_e396 := (cO (cD (cN 1) (cM (cA (cN 1) (cV 1)) (cR (cD (cM (cM (cH 0) (cA (cN 1) (cM (cN 2) (cH 0)))) (cA (cN 1) (cM (cN 2) (cV 1)))) (cM (cA (cA (cN (-1)) (cH 0)) (cM (cN 2) (cW (cH 0) 4))) (cA (cN 3) (cM (cN 2) (cV 1))))))))).
Definition SPSU2T_e397 := (cD (cM (cR (cD (cM (cA (cN 1) (cH 0)) (cA (cN 3) (cM (cN 2) (cV 1)))) (cH 0))) (cA (cM (cN 2) (cR (cD (cM (cA (cN (-1)) (cM (cN 2) (cH 0))) (cV 1)) (cM (cA (cN 1) (cM (cN 2) (cH 0))) (cA (cA (cN 6) (cM (cN 7) (cV 1))) (cM (cN 2) (cW (cV 1) 4))))))) (cR (cD (cM (cA (cN (-1)) (cM (cN 2) (cH 0))) (cW (cV 1) 6)) (cM (cA (cN 1) (cM (cN 2) (cH 0))) (cA (cA (cN 6) (cM (cN 7) (cV 1))) (cM (cN 2) (cW (cV 1) 4)))))))) (cA (cN 1) (cV 1))).
Definition SPSU2T_e398 := (cD (cR (cD (cA (cA (cN (-1)) (cH 0)) (cM (cN 2) (cW (cH 0) 4))) (cM (cH 0) (cA (cN 1) (cM (cN 2) (cH 0)))))) (cA (cA (cN 1) (cM (cN 3) (cV 1))) (cM (cN 2) (cW (cV 1) 4)))).
Definition SPSU2T_e399 := (cO (cD (cR (cD (cA (cA (cN (-1)) (cH 0)) (cM (cN 2) (cW (cH 0) 4))) (cM (cH 0) (cA (cN 1) (cM (cN 2) (cH 0)))))) (cA (cN 1) (cV 1)))).
Definition SPSU2T_e400 := (cO (cD (cN 1) (cR (cD (cM (cM (cH 0) (cA (cN 1) (cM (cN 2) (cH 0)))) (cW (cA (cN 1) (cM (cN 2) (cV 1))) 4)) (cA (cA (cN (-3)) (cM (cN 4) (cV 1))) (cM (cN 4) (cW (cV 1) 4))))))).
Definition SPSU2T_e401 := (cD (cM (cA (cN 3) (cM (cN 2) (cH 0))) (cR (cD (cM (cH 0) (cA (cA (cN (-3)) (cM (cN 4) (cV 1))) (cM (cN 4) (cW (cV 1) 4)))) (cA (cA (cA (cN 3) (cM (cN 11) (cH 0))) (cM (cN 12) (cW (cH 0) 4))) (cM (cN 4) (cW (cH 0) 6)))))) (cA (cN 1) (cM (cN 2) (cV 1)))).
Definition SPSU2T_e402 := (cD (cN 1) (cM (cA (cN 1) (cV 1)) (cR (cD (cM (cM (cH 0) (cA (cN 1) (cM (cN 2) (cH 0)))) (cA (cN 1) (cM (cN 2) (cV 1)))) (cA (cN 3) (cM (cN 2) (cV 1))))))).
Definition SPSU2T_e403 := (cO (cD (cB (cA (cA (cB (cA (cM (cM (cN (-2)) (cV 1)) (cR (cD (cM (cM (cM (cH 0) (cW (cA (cN 1) (cH 0)) 6)) (cV 1)) (cW (cA (cN 1) (cV 1)) 4)) (cA (cN 3) (cM (cN 2) (cV 1)))))) (cM (cM (cN 2) (cW (cV 1) 4)) (cR (cD (cM (cM (cM (cH 0) (cW (cA (cN 1) (cH 0)) 6)) (cV 1)) (cW (cA (cN 1) (cV 1)) 4)) (cA (cN 3) (cM (cN 2) (cV 1))))))) (cD (cM (cM (cM (cW (cA (cN 1) (cH 0)) 3) (cA (cN (-1)) (cM (cN 2) (cH 0)))) (cW (cV 1) 5)) (cA (cN 1) (cV 1))) (cR (cM (cH 0) (cA (cN 3) (cM (cN 2) (cV 1))))))) (cD (cM (cM (cM (cW (cA (cN 1) (cH 0)) 3) (cA (cN (-1)) (cM (cN 2) (cH 0)))) (cV 1)) (cA (cN 1) (cV 1))) (cR (cD (cM (cH 0) (cA (cN 3) (cM (cN 2) (cV 1)))) (cV 1))))) (cM (cM (cN 6) (cW (cM (cM (cA (cN 1) (cH 0)) (cV 1)) (cA (cN 1) (cV 1))) 3)) (cR (cD (cH 0) (cA (cA (cN 3) (cM (cN 5) (cV 1))) (cM (cN 2) (cW (cV 1) 4))))))) (cD (cM (cM (cN 3) (cA (cN (-1)) (cM (cN 2) (cH 0)))) (cW (cM (cM (cA (cN 1) (cH 0)) (cV 1)) (cA (cN 1) (cV 1))) 3)) (cR (cM (cH 0) (cA (cA (cN 3) (cM (cN 5) (cV 1))) (cM (cN 2) (cW (cV 1) 4))))))) (cM (cM (cM (cW (cA (cN 1) (cH 0)) 3) (cV 1)) (cW (cA (cN 1) (cV 1)) 4)) (cR (cD (cM (cA (cN 1) (cM (cN 2) (cH 0))) (cA (cN 2) (cV 1))) (cA (cN 3) (cM (cN 2) (cV 1)))))))).
Definition SPSU2T_e404 := (cO (cD (cM (cH 0) (cA (cN 3) (cM (cN 2) (cH 0)))) (cM (cA (cN 1) (cV 1)) (cR (cD (cM (cM (cM (cH 0) (cA (cN 1) (cH 0))) (cA (cA (cN 3) (cM (cN 8) (cH 0))) (cM (cN 4) (cW (cH 0) 4)))) (cA (cN 1) (cM (cN 2) (cV 1)))) (cA (cN 3) (cM (cN 2) (cV 1)))))))).
Definition SPSU2T_e405 := (cA (cA (cA (cD (cM (cN 12) (cR (cD (cM (cH 0) (cV 1)) (cM (cA (cA (cA (cN 3) (cM (cN 11) (cH 0))) (cM (cN 12) (cW (cH 0) 4))) (cM (cN 4) (cW (cH 0) 6))) (cA (cN 2) (cV 1)))))) (cA (cN 1) (cV 1))) (cD (cM (cM (cN 3) (cH 0)) (cA (cN (-1)) (cM (cN 2) (cH 0)))) (cR (cD (cM (cM (cM (cM (cH 0) (cA (cN 1) (cH 0))) (cA (cA (cN 3) (cM (cN 8) (cH 0))) (cM (cN 4) (cW (cH 0) 4)))) (cW (cA (cN 1) (cV 1)) 4)) (cA (cN 2) (cV 1))) (cV 1))))) (cD (cM (cM (cN 4) (cA (cN (-1)) (cV 1))) (cV 1)) (cR (cD (cM (cM (cM (cM (cA (cN 1) (cH 0)) (cA (cA (cN 3) (cM (cN 8) (cH 0))) (cM (cN 4) (cW (cH 0) 4)))) (cV 1)) (cW (cA (cN 1) (cV 1)) 4)) (cA (cN 2) (cV 1))) (cH 0))))) (cD (cM (cM (cA (cN (-1)) (cM (cN 2) (cH 0))) (cA (cN (-1)) (cV 1))) (cV 1)) (cR (cD (cM (cM (cM (cM (cA (cN 1) (cH 0)) (cA (cA (cN 3) (cM (cN 8) (cH 0))) (cM (cN 4) (cW (cH 0) 4)))) (cV 1)) (cW (cA (cN 1) (cV 1)) 4)) (cA (cN 2) (cV 1))) (cH 0))))).
Definition SPSU2T_e406 := (cO (cD (cA (cB (cA (cA (cB (cM (cM (cM (cN 2) (cA (cN (-1)) (cM (cN 2) (cH 0)))) (cV 1)) (cR (cD (cA (cN 1) (cM (cN 2) (cV 1))) (cA (cH 0) (cM (cH 0) (cV 1)))))) (cM (cM (cN 4) (cV 1)) (cR (cD (cA (cH 0) (cM (cM (cN 2) (cH 0)) (cV 1))) (cA (cN 1) (cV 1)))))) (cD (cB (cN 1) (cM (cN 2) (cH 0))) (cR (cD (cH 0) (cA (cA (cN 1) (cM (cN 3) (cV 1))) (cM (cN 2) (cW (cV 1) 4))))))) (cM (cM (cM (cN 2) (cV 1)) (cA (cN (-1)) (cM (cN 2) (cV 1)))) (cR (cD (cH 0) (cA (cA (cN 1) (cM (cN 3) (cV 1))) (cM (cN 2) (cW (cV 1) 4))))))) (cD (cM (cM (cA (cN (-1)) (cM (cN 2) (cH 0))) (cV 1)) (cA (cN (-1)) (cM (cN 2) (cV 1)))) (cR (cM (cH 0) (cA (cA (cN 1) (cM (cN 3) (cV 1))) (cM (cN 2) (cW (cV 1) 4))))))) (cM (cN 2) (cR (cM (cH 0) (cA (cA (cN 1) (cM (cN 3) (cV 1))) (cM (cN 2) (cW (cV 1) 4))))))) (cM (cA (cN 1) (cV 1)) (cR (cD (cM (cA (cN 1) (cM (cN 2) (cH 0))) (cA (cN 1) (cM (cN 2) (cV 1)))) (cA (cN 1) (cV 1))))))).
Definition SPSU2T_e407 := (cD (cN 1) (cR (cM (cM (cH 0) (cA (cN 1) (cM (cN 2) (cH 0)))) (cW (cA (cN 1) (cV 1)) 4)))).
Definition SPSU2T_e408 := (cD (cA (cB (cA (cM (cN 3) (cR (cD (cM (cH 0) (cA (cA (cN 1) (cM (cN 3) (cV 1))) (cM (cN 2) (cW (cV 1) 4)))) (cA (cN 1) (cH 0))))) (cM (cN 2) (cR (cD (cM (cW (cH 0) 6) (cA (cA (cN 1) (cM (cN 3) (cV 1))) (cM (cN 2) (cW (cV 1) 4)))) (cA (cN 1) (cH 0)))))) (cM (cV 1) (cA (cA (cA (cM (cN 6) (cR (cD (cA (cH 0) (cM (cM (cN 2) (cH 0)) (cV 1))) (cA (cA (cA (cN 1) (cH 0)) (cV 1)) (cM (cH 0) (cV 1)))))) (cM (cN 4) (cR (cD (cA (cW (cH 0) 6) (cM (cM (cN 2) (cW (cH 0) 6)) (cV 1))) (cA (cA (cA (cN 1) (cH 0)) (cV 1)) (cM (cH 0) (cV 1))))))) (cM (cN 3) (cR (cD (cH 0) (cM (cA (cN 1) (cH 0)) (cA (cA (cN 1) (cM (cN 3) (cV 1))) (cM (cN 2) (cW (cV 1) 4)))))))) (cM (cN 2) (cR (cD (cW (cH 0) 6) (cM (cA (cN 1) (cH 0)) (cA (cA (cN 1) (cM (cN 3) (cV 1))) (cM (cN 2) (cW (cV 1) 4)))))))))) (cM (cW (cV 1) 4) (cA (cM (cN 6) (cR (cD (cH 0) (cM (cA (cN 1) (cH 0)) (cA (cA (cN 1) (cM (cN 3) (cV 1))) (cM (cN 2) (cW (cV 1) 4))))))) (cM (cN 4) (cR (cD (cW (cH 0) 6) (cM (cA (cN 1) (cH 0)) (cA (cA (cN 1) (cM (cN 3) (cV 1))) (cM (cN 2) (cW (cV 1) 4)))))))))) (cR (cM (cA (cA (cN 3) (cM (cN 8) (cH 0))) (cM (cN 4) (cW (cH 0) 4))) (cA (cA (cN 1) (cM (cN 3) (cV 1))) (cM (cN 2) (cW (cV 1) 4)))))).
Definition SPSU2T_e409 := (cO (cM (cR (cM (cA (cN 1) (cH 0)) (cA (cA (cN 3) (cM (cN 5) (cV 1))) (cM (cN 2) (cW (cV 1) 4))))) (cA (cA (cB (cA (cA (cM (cM (cN (-4)) (cA (cN (-1)) (cV 1))) (cR (cD (cM (cH 0) (cW (cA (cN 1) (cM (cN 2) (cV 1))) 4)) (cM (cM (cM (cM (cW (cA (cN 1) (cH 0)) 4) (cA (cA (cN 3) (cM (cN 8) (cH 0))) (cM (cN 4) (cW (cH 0) 4)))) (cW (cA (cN 1) (cV 1)) 6)) (cW (cA (cN 2) (cV 1)) 4)) (cA (cN 3) (cM (cN 2) (cV 1))))))) (cD (cB (cN 3) (cM (cN 6) (cH 0))) (cR (cD (cM (cM (cM (cM (cW (cA (cN 1) (cH 0)) 4) (cA (cA (cN 3) (cM (cN 8) (cH 0))) (cM (cN 4) (cW (cH 0) 4)))) (cW (cA (cN 1) (cV 1)) 6)) (cW (cA (cN 2) (cV 1)) 4)) (cA (cN 3) (cM (cN 2) (cV 1)))) (cM (cH 0) (cW (cV 1) 4)))))) (cD (cA (cB (cN (-1)) (cM (cM (cN 2) (cH 0)) (cA (cN (-1)) (cV 1)))) (cV 1)) (cR (cD (cM (cM (cM (cM (cW (cA (cN 1) (cH 0)) 4) (cA (cA (cN 3) (cM (cN 8) (cH 0))) (cM (cN 4) (cW (cH 0) 4)))) (cW (cA (cN 1) (cV 1)) 6)) (cW (cA (cN 2) (cV 1)) 4)) (cA (cN 3) (cM (cN 2) (cV 1)))) (cM (cH 0) (cW (cA (cN 1) (cM (cN 2) (cV 1))) 4)))))) (cD (cM (cM (cN 12) (cV 1)) (cR (cD (cH 0) (cM (cM (cW (cA (cN 1) (cH 0)) 4) (cA (cA (cN 3) (cM (cN 8) (cH 0))) (cM (cN 4) (cW (cH 0) 4)))) (cA (cA (cN 3) (cM (cN 5) (cV 1))) (cM (cN 2) (cW (cV 1) 4))))))) (cA (cA (cN 2) (cM (cN 3) (cV 1))) (cW (cV 1) 4)))) (cM (cN 4) (cR (cD (cM (cH 0) (cW (cA (cN 1) (cM (cN 2) (cV 1))) 4)) (cM (cM (cM (cW (cA (cN 1) (cH 0)) 4) (cA (cA (cN 3) (cM (cN 8) (cH 0))) (cM (cN 4) (cW (cH 0) 4)))) (cW (cA (cN 2) (cV 1)) 4)) (cA (cA (cN 3) (cM (cN 5) (cV 1))) (cM (cN 2) (cW (cV 1) 4)))))))) (cD (cM (cM (cH 0) (cA (cN (-1)) (cM (cN 2) (cH 0)))) (cA (cN 1) (cM (cN 2) (cV 1)))) (cM (cM (cA (cN 1) (cH 0)) (cA (cN 2) (cV 1))) (cR (cM (cM (cH 0) (cA (cA (cN 3) (cM (cN 8) (cH 0))) (cM (cN 4) (cW (cH 0) 4)))) (cA (cA (cN 3) (cM (cN 5) (cV 1))) (cM (cN 2) (cW (cV 1) 4)))))))))).
Definition SPSU2T_e410 := (cM (cA (cN 3) (cM (cN 2) (cH 0))) (cR (cD (cH 0) (cM (cA (cN 1) (cH 0)) (cA (cA (cN 3) (cM (cN 8) (cH 0))) (cM (cN 4) (cW (cH 0) 4))))))).
Definition SPSU2T_e411 := (cO (cD (cB (cA (cM (cN 2) (cR (cD (cM (cM (cA (cA (cN 1) (cM (cN 3) (cH 0))) (cM (cN 2) (cW (cH 0) 4))) (cV 1)) (cA (cN (-1)) (cM (cN 2) (cV 1)))) (cM (cA (cN 3) (cM (cN 2) (cH 0))) (cA (cA (cN 1) (cM (cN 3) (cV 1))) (cM (cN 2) (cW (cV 1) 4))))))) (cR (cD (cM (cM (cA (cN 1) (cM (cN 2) (cH 0))) (cV 1)) (cA (cN (-1)) (cM (cN 2) (cV 1)))) (cM (cA (cA (cN 3) (cM (cN 5) (cH 0))) (cM (cN 2) (cW (cH 0) 4))) (cA (cA (cN 1) (cM (cN 3) (cV 1))) (cM (cN 2) (cW (cV 1) 4))))))) (cM (cM (cN 2) (cH 0)) (cA (cR (cD (cM (cM (cA (cN 1) (cM (cN 2) (cH 0))) (cV 1)) (cA (cN (-1)) (cM (cN 2) (cV 1)))) (cM (cA (cA (cN 3) (cM (cN 5) (cH 0))) (cM (cN 2) (cW (cH 0) 4))) (cA (cA (cN 1) (cM (cN 3) (cV 1))) (cM (cN 2) (cW (cV 1) 4)))))) (cM (cN 2) (cR (cD (cM (cV 1) (cA (cN (-1)) (cM (cN 2) (cV 1)))) (cM (cA (cA (cA (cN 3) (cM (cN 11) (cH 0))) (cM (cN 12) (cW (cH 0) 4))) (cM (cN 4) (cW (cH 0) 6))) (cA (cA (cN 1) (cM (cN 3) (cV 1))) (cM (cN 2) (cW (cV 1) 4)))))))))) (cR (cD (cM (cM (cA (cN 3) (cM (cN 2) (cH 0))) (cV 1)) (cA (cN 1) (cM (cN 2) (cV 1)))) (cA (cA (cN 3) (cM (cN 5) (cV 1))) (cM (cN 2) (cW (cV 1) 4))))))).
Definition SPSU2T_e412 := (cD (cR (cA (cA (cN (-3)) (cM (cN 4) (cV 1))) (cM (cN 4) (cW (cV 1) 4)))) (cA (cN 1) (cM (cN 2) (cV 1)))).
Definition SPSU2T_e413 := (cD (cN 1) (cM (cA (cN 1) (cV 1)) (cR (cD (cM (cA (cA (cN 1) (cM (cN 3) (cH 0))) (cM (cN 2) (cW (cH 0) 4))) (cA (cN 1) (cM (cN 2) (cV 1)))) (cA (cN 3) (cM (cN 2) (cV 1))))))).
Definition SPSU2T_e414 := (cO (cM (cR (cM (cA (cN 1) (cH 0)) (cA (cA (cN 3) (cM (cN 5) (cV 1))) (cM (cN 2) (cW (cV 1) 4))))) (cA (cA (cB (cA (cB (cM (cM (cM (cN 2) (cA (cN (-1)) (cV 1))) (cV 1)) (cR (cD (cA (cN 1) (cM (cN 2) (cH 0))) (cM (cM (cM (cW (cA (cN 3) (cM (cN 2) (cH 0))) 4) (cV 1)) (cW (cA (cN 1) (cV 1)) 6)) (cA (cA (cN 6) (cM (cN 7) (cV 1))) (cM (cN 2) (cW (cV 1) 4))))))) (cD (cM (cM (cN 12) (cH 0)) (cR (cD (cV 1) (cM (cM (cA (cN 1) (cM (cN 2) (cH 0))) (cW (cA (cN 1) (cV 1)) 6)) (cA (cA (cN 6) (cM (cN 7) (cV 1))) (cM (cN 2) (cW (cV 1) 4))))))) (cA (cA (cN 3) (cM (cN 5) (cH 0))) (cM (cN 2) (cW (cH 0) 4))))) (cD (cM (cN 6) (cR (cD (cM (cA (cN 1) (cM (cN 2) (cH 0))) (cV 1)) (cM (cW (cA (cN 1) (cV 1)) 6) (cA (cA (cN 6) (cM (cN 7) (cV 1))) (cM (cN 2) (cW (cV 1) 4))))))) (cA (cN 3) (cM (cN 2) (cH 0))))) (cM (cM (cN 4) (cA (cN (-1)) (cV 1))) (cR (cD (cM (cW (cH 0) 4) (cV 1)) (cM (cM (cM (cA (cN 1) (cM (cN 2) (cH 0))) (cW (cA (cA (cN 3) (cM (cN 5) (cH 0))) (cM (cN 2) (cW (cH 0) 4))) 4)) (cW (cA (cN 1) (cV 1)) 6)) (cA (cA (cN 6) (cM (cN 7) (cV 1))) (cM (cN 2) (cW (cV 1) 4)))))))) (cD (cB (cN 3) (cM (cN 6) (cH 0))) (cR (cD (cM (cM (cW (cA (cA (cN 3) (cM (cN 5) (cH 0))) (cM (cN 2) (cW (cH 0) 4))) 4) (cW (cA (cN 1) (cV 1)) 6)) (cA (cA (cN 6) (cM (cN 7) (cV 1))) (cM (cN 2) (cW (cV 1) 4)))) (cA (cV 1) (cM (cM (cN 2) (cH 0)) (cV 1))))))) (cD (cA (cB (cN (-1)) (cM (cM (cN 2) (cH 0)) (cA (cN (-1)) (cV 1)))) (cV 1)) (cR (cD (cM (cM (cW (cA (cA (cN 3) (cM (cN 5) (cH 0))) (cM (cN 2) (cW (cH 0) 4))) 4) (cW (cA (cN 1) (cV 1)) 6)) (cA (cA (cN 6) (cM (cN 7) (cV 1))) (cM (cN 2) (cW (cV 1) 4)))) (cA (cV 1) (cM (cM (cN 2) (cH 0)) (cV 1))))))))).
Definition SPSU2T_e415 := (cO (cD (cR (cD (cA (cN 3) (cM (cN 2) (cV 1))) (cA (cN 1) (cM (cN 2) (cV 1))))) (cA (cN 1) (cV 1)))).
Definition SPSU2T_e416 := (cO (cD (cN 1) (cM (cR (cM (cA (cN 1) (cH 0)) (cA (cN 1) (cM (cN 2) (cH 0))))) (cA (cA (cN 1) (cM (cN 3) (cV 1))) (cM (cN 2) (cW (cV 1) 4)))))).
Definition SPSU2T_e417 := (cO (cM (cR (cM (cA (cN 1) (cH 0)) (cA (cA (cN 3) (cM (cN 5) (cV 1))) (cM (cN 2) (cW (cV 1) 4))))) (cB (cB (cA (cA (cB (cB (cA (cA (cD (cM (cM (cN 6) (cV 1)) (cR (cD (cA (cN 1) (cM (cN 2) (cH 0))) (cM (cW (cA (cN 1) (cV 1)) 6) (cA (cN 3) (cM (cN 2) (cV 1))))))) (cM (cA (cN 3) (cM (cN 2) (cH 0))) (cA (cN 2) (cV 1)))) (cM (cM (cN 2) (cA (cN (-1)) (cV 1))) (cR (cD (cM (cA (cN 1) (cM (cN 2) (cH 0))) (cW (cA (cN 1) (cM (cN 2) (cV 1))) 4)) (cM (cM (cM (cW (cA (cN 3) (cM (cN 2) (cH 0))) 4) (cW (cA (cN 1) (cV 1)) 6)) (cW (cA (cN 2) (cV 1)) 4)) (cA (cN 3) (cM (cN 2) (cV 1)))))))) (cD (cM (cB (cN 3) (cM (cN 6) (cH 0))) (cV 1)) (cM (cM (cM (cA (cA (cN 3) (cM (cN 5) (cH 0))) (cM (cN 2) (cW (cH 0) 4))) (cW (cA (cN 1) (cV 1)) 3)) (cA (cN 2) (cV 1))) (cR (cD (cA (cN 3) (cM (cN 2) (cV 1))) (cA (cN 1) (cM (cN 2) (cH 0)))))))) (cD (cM (cM (cN 4) (cA (cN (-1)) (cV 1))) (cA (cH 0) (cM (cM (cN 2) (cH 0)) (cV 1)))) (cM (cM (cM (cA (cA (cN 3) (cM (cN 5) (cH 0))) (cM (cN 2) (cW (cH 0) 4))) (cW (cA (cN 1) (cV 1)) 3)) (cA (cN 2) (cV 1))) (cR (cM (cA (cN 1) (cM (cN 2) (cH 0))) (cA (cN 3) (cM (cN 2) (cV 1)))))))) (cD (cM (cM (cM (cA (cN (-1)) (cM (cN 2) (cH 0))) (cA (cN (-1)) (cV 1))) (cA (cN 1) (cM (cN 2) (cV 1)))) (cR (cD (cA (cN 1) (cM (cN 2) (cH 0))) (cA (cA (cN 3) (cM (cN 5) (cV 1))) (cM (cN 2) (cW (cV 1) 4)))))) (cM (cM (cM (cA (cN 1) (cH 0)) (cA (cN 3) (cM (cN 2) (cH 0)))) (cA (cN 1) (cV 1))) (cA (cN 2) (cV 1))))) (cD (cM (cA (cN (-1)) (cM (cN 2) (cH 0))) (cA (cN 1) (cM (cN 2) (cV 1)))) (cM (cM (cM (cA (cN 1) (cH 0)) (cA (cN 3) (cM (cN 2) (cH 0)))) (cA (cN 2) (cV 1))) (cR (cD (cA (cA (cN 3) (cM (cN 5) (cV 1))) (cM (cN 2) (cW (cV 1) 4))) (cA (cN 1) (cM (cN 2) (cH 0)))))))) (cD (cM (cN 4) (cA (cH 0) (cM (cM (cN 2) (cH 0)) (cV 1)))) (cM (cM (cM (cA (cN 1) (cH 0)) (cA (cN 3) (cM (cN 2) (cH 0)))) (cA (cN 2) (cV 1))) (cR (cM (cA (cN 1) (cM (cN 2) (cH 0))) (cA (cA (cN 3) (cM (cN 5) (cV 1))) (cM (cN 2) (cW (cV 1) 4)))))))) (cD (cM (cM (cN 12) (cH 0)) (cV 1)) (cM (cM (cA (cA (cN 3) (cM (cN 5) (cH 0))) (cM (cN 2) (cW (cH 0) 4))) (cA (cA (cN 2) (cM (cN 3) (cV 1))) (cW (cV 1) 4))) (cR (cM (cA (cN 1) (cM (cN 2) (cH 0))) (cA (cA (cN 3) (cM (cN 5) (cV 1))) (cM (cN 2) (cW (cV 1) 4)))))))) (cD (cM (cN 2) (cA (cN 1) (cM (cN 2) (cV 1)))) (cM (cA (cN 3) (cM (cN 2) (cH 0))) (cR (cD (cM (cW (cA (cN 2) (cV 1)) 4) (cA (cA (cN 3) (cM (cN 5) (cV 1))) (cM (cN 2) (cW (cV 1) 4)))) (cA (cN 1) (cM (cN 2) (cH 0)))))))))).
Definition SPSU2T_e418 := (cO (cD (cN 1) (cR (cM (cA (cN 1) (cH 0)) (cA (cN 1) (cM (cN 2) (cH 0))))))).
Definition SPSU2T_e419 := (cD (cN 1) (cA (cA (cN 1) (cM (cN 3) (cV 1))) (cM (cN 2) (cW (cV 1) 4)))).
Definition SPSU2T_e420 := (cO (cD (cR (cA (cA (cN (-3)) (cM (cN 4) (cV 1))) (cM (cN 4) (cW (cV 1) 4)))) (cA (cA (cA (cN 1) (cM (cN 2) (cH 0))) (cM (cN 2) (cV 1))) (cM (cM (cN 4) (cH 0)) (cV 1))))).
Definition SPSU2T_e421 := (cO (cD (cA (cM (cN 2) (cR (cD (cV 1) (cA (cN 2) (cV 1))))) (cR (cD (cW (cV 1) 6) (cA (cN 2) (cV 1))))) (cA (cN 1) (cV 1)))).
Definition SPSU2T_e422 := (cD (cR (cD (cA (cN 3) (cM (cN 2) (cV 1))) (cA (cN 1) (cM (cN 2) (cV 1))))) (cA (cA (cA (cN 1) (cM (cN 2) (cH 0))) (cV 1)) (cM (cM (cN 2) (cH 0)) (cV 1)))).
Definition SPSU2T_e423 := (cO (cD (cA (cM (cN 2) (cR (cD (cV 1) (cA (cN 2) (cV 1))))) (cR (cD (cW (cV 1) 6) (cA (cN 2) (cV 1))))) (cA (cA (cA (cN 1) (cM (cN 2) (cH 0))) (cV 1)) (cM (cM (cN 2) (cH 0)) (cV 1))))).
Definition SPSU2T_e424 := (cO (cD (cN 1) (cA (cA (cN 1) (cM (cN 3) (cV 1))) (cM (cN 2) (cW (cV 1) 4))))).
Definition SPSU2T_e425 := (cO (cD (cN 1) (cM (cA (cN 1) (cM (cN 2) (cH 0))) (cA (cA (cN 1) (cM (cN 3) (cV 1))) (cM (cN 2) (cW (cV 1) 4)))))).
Definition SPSU2T_e426 := (cD (cM (cN (-2)) (cR (cD (cM (cH 0) (cA (cN 1) (cH 0))) (cW (cA (cN 1) (cM (cN 2) (cV 1))) 4)))) (cM (cA (cN 1) (cM (cN 2) (cH 0))) (cA (cN 1) (cV 1)))).
Definition SPSU2T_e427 := (cO (cD (cM (cA (cN 1) (cM (cN 2) (cV 1))) (cA (cA (cA (cA (cA (cM (cM (cM (cM (cN 3) (cA (cN 1) (cH 0))) (cA (cN 1) (cV 1))) (cA (cN 3) (cM (cN 2) (cV 1)))) (cR (cD (cM (cM (cH 0) (cA (cN 1) (cH 0))) (cA (cN 3) (cM (cN 2) (cV 1)))) (cM (cW (cA (cN 1) (cM (cN 2) (cH 0))) 4) (cA (cA (cN 10) (cM (cN 9) (cV 1))) (cM (cN 2) (cW (cV 1) 4))))))) (cD (cM (cM (cM (cM (cN 6) (cA (cN 1) (cH 0))) (cA (cN 1) (cV 1))) (cA (cN 3) (cM (cN 2) (cV 1)))) (cR (cD (cM (cM (cH 0) (cA (cN 1) (cH 0))) (cA (cN 3) (cM (cN 2) (cV 1)))) (cM (cW (cA (cN 1) (cM (cN 2) (cH 0))) 4) (cA (cA (cN 10) (cM (cN 9) (cV 1))) (cM (cN 2) (cW (cV 1) 4))))))) (cA (cN 1) (cM (cN 2) (cV 1))))) (cM (cN 3) (cR (cD (cM (cM (cM (cH 0) (cW (cA (cN 1) (cH 0)) 6)) (cW (cA (cN 1) (cV 1)) 4)) (cW (cA (cN 3) (cM (cN 2) (cV 1))) 6)) (cA (cA (cN 10) (cM (cN 9) (cV 1))) (cM (cN 2) (cW (cV 1) 4))))))) (cR (cD (cM (cM (cM (cH 0) (cW (cA (cN 1) (cH 0)) 6)) (cW (cA (cN 1) (cV 1)) 8)) (cW (cA (cN 3) (cM (cN 2) (cV 1))) 6)) (cA (cA (cN 10) (cM (cN 9) (cV 1))) (cM (cN 2) (cW (cV 1) 4)))))) (cR (cD (cM (cM (cM (cH 0) (cW (cA (cN 1) (cH 0)) 6)) (cW (cA (cN 1) (cV 1)) 8)) (cW (cA (cN 3) (cM (cN 2) (cV 1))) 6)) (cM (cW (cA (cN 1) (cM (cN 2) (cH 0))) 4) (cA (cA (cN 10) (cM (cN 9) (cV 1))) (cM (cN 2) (cW (cV 1) 4))))))) (cM (cN 6) (cR (cD (cM (cM (cM (cH 0) (cW (cA (cN 1) (cH 0)) 6)) (cW (cA (cN 1) (cV 1)) 4)) (cW (cA (cN 3) (cM (cN 2) (cV 1))) 6)) (cM (cW (cA (cN 1) (cM (cN 2) (cV 1))) 4) (cA (cA (cN 10) (cM (cN 9) (cV 1))) (cM (cN 2) (cW (cV 1) 4))))))))) (cM (cM (cM (cW (cA (cN 1) (cH 0)) 4) (cA (cN 1) (cV 1))) (cW (cA (cN 3) (cM (cN 2) (cV 1))) 3)) (cR (cA (cA (cN 10) (cM (cN 9) (cV 1))) (cM (cN 2) (cW (cV 1) 4))))))).
Definition SPSU2T_e428 := (cO (cD (cM (cR (cD (cM (cA (cN 1) (cM (cN 2) (cH 0))) (cA (cN 3) (cM (cN 2) (cV 1)))) (cA (cN 2) (cV 1)))) (cA (cA (cA (cM (cN 2) (cR (cD (cM (cM (cH 0) (cA (cN 1) (cH 0))) (cW (cV 1) 6)) (cM (cW (cA (cN 1) (cM (cN 2) (cH 0))) 6) (cA (cN 3) (cM (cN 2) (cV 1))))))) (cM (cN 2) (cR (cD (cM (cM (cH 0) (cA (cN 1) (cH 0))) (cW (cV 1) 6)) (cM (cA (cN 1) (cM (cN 2) (cH 0))) (cA (cN 3) (cM (cN 2) (cV 1)))))))) (cR (cD (cM (cM (cH 0) (cA (cN 1) (cH 0))) (cW (cV 1) 10)) (cM (cW (cA (cN 1) (cM (cN 2) (cH 0))) 6) (cA (cN 3) (cM (cN 2) (cV 1))))))) (cR (cD (cM (cM (cH 0) (cA (cN 1) (cH 0))) (cW (cV 1) 10)) (cM (cA (cN 1) (cM (cN 2) (cH 0))) (cA (cN 3) (cM (cN 2) (cV 1)))))))) (cM (cM (cA (cN 1) (cH 0)) (cV 1)) (cA (cN 1) (cV 1))))).
Definition SPSU2T_e429 := (cD (cM (cA (cN 1) (cM (cN 2) (cV 1))) (cA (cA (cB (cB (cA (cA (cD (cM (cM (cM (cM (cN (-2)) (cW (cA (cN 1) (cH 0)) 5)) (cV 1)) (cR (cD (cM (cH 0) (cA (cN 1) (cV 1))) (cA (cN 2) (cV 1))))) (cW (cA (cN 3) (cM (cN 2) (cV 1))) 3)) (cA (cN 1) (cM (cN 2) (cH 0)))) (cR (cD (cM (cM (cM (cH 0) (cW (cA (cN 1) (cH 0)) 6)) (cA (cN 1) (cV 1))) (cW (cA (cN 3) (cM (cN 2) (cV 1))) 6)) (cA (cN 2) (cV 1))))) (cR (cD (cM (cM (cM (cH 0) (cW (cA (cN 1) (cH 0)) 6)) (cA (cN 1) (cV 1))) (cW (cA (cN 3) (cM (cN 2) (cV 1))) 6)) (cM (cW (cA (cN 1) (cM (cN 2) (cH 0))) 4) (cA (cN 2) (cV 1)))))) (cM (cN 3) (cR (cD (cM (cM (cM (cM (cH 0) (cW (cA (cN 1) (cH 0)) 6)) (cW (cV 1) 4)) (cA (cN 1) (cV 1))) (cW (cA (cN 3) (cM (cN 2) (cV 1))) 6)) (cM (cA (cN 2) (cV 1)) (cW (cA (cN 1) (cM (cN 2) (cV 1))) 4)))))) (cM (cN 3) (cR (cD (cM (cM (cM (cM (cH 0) (cW (cA (cN 1) (cH 0)) 6)) (cW (cV 1) 4)) (cA (cN 1) (cV 1))) (cW (cA (cN 3) (cM (cN 2) (cV 1))) 6)) (cM (cM (cW (cA (cN 1) (cM (cN 2) (cH 0))) 4) (cA (cN 2) (cV 1))) (cW (cA (cN 1) (cM (cN 2) (cV 1))) 4)))))) (cR (cD (cM (cM (cH 0) (cW (cA (cN 1) (cH 0)) 6)) (cW (cA (cA (cN 3) (cM (cN 5) (cV 1))) (cM (cN 2) (cW (cV 1) 4))) 6)) (cA (cN 2) (cV 1))))) (cR (cD (cM (cM (cH 0) (cW (cA (cN 1) (cH 0)) 6)) (cW (cA (cA (cN 3) (cM (cN 5) (cV 1))) (cM (cN 2) (cW (cV 1) 4))) 6)) (cM (cW (cA (cN 1) (cM (cN 2) (cH 0))) 4) (cA (cN 2) (cV 1))))))) (cM (cM (cW (cA (cN 1) (cH 0)) 4) (cR (cA (cN 2) (cV 1)))) (cW (cA (cA (cN 3) (cM (cN 5) (cV 1))) (cM (cN 2) (cW (cV 1) 4))) 3))).
Definition SPSU2T_e430 := (cO (cD (cR (cD (cB (cN 9) (cM (cN 4) (cW (cV 1) 4))) (cB (cN 1) (cM (cN 4) (cW (cV 1) 4))))) (cA (cN 1) (cM (cN 2) (cH 0))))).
Definition SPSU2T_e431 := (cD (cM (cM (cR (cN 2)) (cR (cD (cA (cA (cN 3) (cM (cN 5) (cV 1))) (cM (cN 2) (cW (cV 1) 4))) (cA (cN (-1)) (cV 1))))) (cB (cB (cM (cN 2) (cR (cD (cM (cA (cN (-1)) (cV 1)) (cV 1)) (cA (cN 1) (cM (cN 2) (cV 1)))))) (cD (cN 2) (cR (cD (cM (cV 1) (cA (cN 1) (cM (cN 2) (cV 1)))) (cA (cN (-1)) (cV 1)))))) (cD (cM (cA (cN (-1)) (cV 1)) (cA (cN (-3)) (cM (cN 2) (cV 1)))) (cR (cM (cV 1) (cA (cB (cN (-1)) (cV 1)) (cM (cN 2) (cW (cV 1) 4)))))))) (cA (cN 1) (cV 1))).
Definition SPSU2T_e432 := (cO (cD (cR (cD (cM (cA (cA (cN (-2)) (cV 1)) (cW (cV 1) 4)) (cA (cA (cA (cN (-3)) (cV 1)) (cM (cN 8) (cW (cV 1) 4))) (cM (cN 4) (cW (cV 1) 6)))) (cV 1))) (cM (cA (cN 1) (cV 1)) (cA (cN 1) (cM (cN 2) (cV 1)))))).
Definition SPSU2T_e433 := (cD (cR (cD (cA (cA (cN 6) (cM (cN 10) (cV 1))) (cM (cN 4) (cW (cV 1) 4))) (cA (cV 1) (cM (cN 2) (cW (cV 1) 4))))) (cM (cA (cN 1) (cM (cN 2) (cH 0))) (cA (cN 1) (cV 1)))).
Definition SPSU2T_e434 := (cO (cD (cR (cA (cA (cA (cB (cA (cN (-5)) (cD (cN 6) (cV 1))) (cM (cN 18) (cV 1))) (cW (cV 1) 4)) (cM (cN 12) (cW (cV 1) 6))) (cM (cN 4) (cW (cV 1) 8)))) (cM (cA (cN 1) (cM (cN 2) (cH 0))) (cA (cA (cN 1) (cM (cN 3) (cV 1))) (cM (cN 2) (cW (cV 1) 4)))))).
Definition SPSU2T_e435 := (cO (cD (cR (cN 6)) (cR (cM (cM (cV 1) (cA (cN 1) (cM (cN 2) (cV 1)))) (cA (cA (cN (-1)) (cV 1)) (cM (cN 2) (cW (cV 1) 4))))))).
Definition SPSU2T_e436 := (cD (cM (cR (cN 3)) (cA (cA (cA (cM (cN (-4)) (cR (cD (cA (cN (-1)) (cM (cN 2) (cV 1))) (cA (cN 1) (cV 1))))) (cM (cM (cN 7) (cW (cV 1) 4)) (cR (cD (cA (cN (-1)) (cM (cN 2) (cV 1))) (cA (cN 1) (cV 1)))))) (cM (cN 6) (cR (cA (cA (cN (-1)) (cV 1)) (cM (cN 2) (cW (cV 1) 4)))))) (cM (cM (cN 3) (cV 1)) (cB (cR (cD (cA (cN (-1)) (cM (cN 2) (cV 1))) (cA (cN 1) (cV 1)))) (cM (cN 2) (cR (cA (cA (cN (-1)) (cV 1)) (cM (cN 2) (cW (cV 1) 4))))))))) (cM (cW (cA (cN 1) (cV 1)) 3) (cR (cM (cV 1) (cA (cA (cN 2) (cM (cN 5) (cV 1))) (cM (cN 2) (cW (cV 1) 4))))))).
Definition SPSU2T_e437 := (cO (cD (cM (cV 1) (cA (cA (cN 10) (cM (cN 9) (cV 1))) (cM (cN 2) (cW (cV 1) 4)))) (cM (cM (cW (cA (cN 1) (cV 1)) 3) (cA (cN 3) (cM (cN 2) (cV 1)))) (cR (cD (cM (cV 1) (cA (cA (cA (cN 10) (cM (cN 29) (cV 1))) (cM (cN 20) (cW (cV 1) 4))) (cM (cN 4) (cW (cV 1) 6)))) (cA (cA (cA (cN (-3)) (cV 1)) (cM (cN 8) (cW (cV 1) 4))) (cM (cN 4) (cW (cV 1) 6)))))))).
Definition SPSU2T_e438 := (cO (cD (cR (cN 6)) (cM (cA (cN 1) (cM (cN 2) (cH 0))) (cR (cM (cM (cV 1) (cA (cN 1) (cM (cN 2) (cV 1)))) (cA (cA (cN (-1)) (cV 1)) (cM (cN 2) (cW (cV 1) 4)))))))).
Definition SPSU2T_e439 := (cD (cM (cR (cN 3)) (cA (cA (cA (cM (cN (-4)) (cR (cD (cA (cN (-1)) (cM (cN 2) (cV 1))) (cA (cN 1) (cV 1))))) (cM (cM (cN 7) (cW (cV 1) 4)) (cR (cD (cA (cN (-1)) (cM (cN 2) (cV 1))) (cA (cN 1) (cV 1)))))) (cM (cN 6) (cR (cA (cA (cN (-1)) (cV 1)) (cM (cN 2) (cW (cV 1) 4)))))) (cM (cM (cN 3) (cV 1)) (cB (cR (cD (cA (cN (-1)) (cM (cN 2) (cV 1))) (cA (cN 1) (cV 1)))) (cM (cN 2) (cR (cA (cA (cN (-1)) (cV 1)) (cM (cN 2) (cW (cV 1) 4))))))))) (cM (cM (cA (cN 1) (cM (cN 2) (cH 0))) (cW (cA (cN 1) (cV 1)) 3)) (cR (cM (cV 1) (cA (cA (cN 2) (cM (cN 5) (cV 1))) (cM (cN 2) (cW (cV 1) 4))))))).
Definition SPSU2T_e440 := (cO (cD (cM (cV 1) (cA (cA (cN 10) (cM (cN 9) (cV 1))) (cM (cN 2) (cW (cV 1) 4)))) (cM (cM (cW (cA (cN 1) (cV 1)) 3) (cA (cN 3) (cM (cN 2) (cV 1)))) (cR (cD (cM (cM (cW (cA (cN 1) (cM (cN 2) (cH 0))) 4) (cV 1)) (cA (cA (cA (cN 10) (cM (cN 29) (cV 1))) (cM (cN 20) (cW (cV 1) 4))) (cM (cN 4) (cW (cV 1) 6)))) (cA (cA (cA (cN (-3)) (cV 1)) (cM (cN 8) (cW (cV 1) 4))) (cM (cN 4) (cW (cV 1) 6)))))))).
Definition SPSU2T_e441 := (cD (cM (cV 1) (cR (cD (cA (cN 15) (cM (cN 6) (cV 1))) (cA (cA (cM (cN 2) (cV 1)) (cM (cN 5) (cW (cV 1) 4))) (cM (cN 2) (cW (cV 1) 6)))))) (cA (cN 1) (cV 1))).
Definition SPSU2T_e442 := (cO (cD (cM (cV 1) (cA (cN 3) (cV 1))) (cR (cM (cV 1) (cA (cA (cA (cN 6) (cM (cN 11) (cV 1))) (cM (cN 6) (cW (cV 1) 4))) (cW (cV 1) 6)))))).
Definition SPSU2T_e443 := (cD (cM (cM (cN (-3)) (cR (cA (cA (cN 3) (cM (cN 5) (cV 1))) (cM (cN 2) (cW (cV 1) 4))))) (cA (cA (cB (cM (cN 2) (cR (cD (cM (cA (cN 1) (cM (cN 2) (cH 0))) (cA (cN 3) (cM (cN 2) (cV 1)))) (cA (cN 1) (cV 1))))) (cM (cM (cN 2) (cW (cV 1) 6)) (cR (cD (cM (cA (cN 1) (cM (cN 2) (cH 0))) (cA (cN 3) (cM (cN 2) (cV 1)))) (cA (cN 1) (cV 1)))))) (cM (cV 1) (cR (cM (cA (cN 1) (cM (cN 2) (cH 0))) (cA (cA (cN 3) (cM (cN 5) (cV 1))) (cM (cN 2) (cW (cV 1) 4))))))) (cM (cW (cV 1) 4) (cA (cM (cN (-3)) (cR (cD (cM (cA (cN 1) (cM (cN 2) (cH 0))) (cA (cN 3) (cM (cN 2) (cV 1)))) (cA (cN 1) (cV 1))))) (cM (cN 2) (cR (cM (cA (cN 1) (cM (cN 2) (cH 0))) (cA (cA (cN 3) (cM (cN 5) (cV 1))) (cM (cN 2) (cW (cV 1) 4)))))))))) (cM (cM (cM (cW (cA (cN 1) (cM (cN 2) (cH 0))) 3) (cA (cN 1) (cV 1))) (cA (cN 2) (cV 1))) (cA (cA (cN 3) (cM (cN 8) (cV 1))) (cM (cN 4) (cW (cV 1) 4))))).
Definition SPSU2T_e444 := (cO (cD (cM (cM (cV 1) (cR (cD (cA (cA (cN 9) (cM (cN 15) (cV 1))) (cM (cN 6) (cW (cV 1) 4))) (cA (cV 1) (cM (cN 2) (cW (cV 1) 4)))))) (cA (cA (cB (cB (cB (cB (cA (cM (cM (cN 2) (cW (cA (cN 1) (cV 1)) 3)) (cR (cD (cM (cA (cN 1) (cM (cN 2) (cH 0))) (cA (cA (cN 15) (cM (cN 16) (cV 1))) (cM (cN 4) (cW (cV 1) 4)))) (cA (cN 2) (cV 1))))) (cM (cM (cV 1) (cW (cA (cN 1) (cV 1)) 3)) (cR (cD (cM (cA (cN 1) (cM (cN 2) (cH 0))) (cA (cA (cN 15) (cM (cN 16) (cV 1))) (cM (cN 4) (cW (cV 1) 4)))) (cA (cN 2) (cV 1)))))) (cM (cM (cM (cN 8) (cW (cV 1) 4)) (cW (cA (cN 1) (cV 1)) 3)) (cR (cD (cM (cA (cN 1) (cM (cN 2) (cH 0))) (cA (cA (cN 15) (cM (cN 16) (cV 1))) (cM (cN 4) (cW (cV 1) 4)))) (cA (cN 2) (cV 1)))))) (cM (cM (cM (cN 4) (cW (cV 1) 6)) (cW (cA (cN 1) (cV 1)) 3)) (cR (cD (cM (cA (cN 1) (cM (cN 2) (cH 0))) (cA (cA (cN 15) (cM (cN 16) (cV 1))) (cM (cN 4) (cW (cV 1) 4)))) (cA (cN 2) (cV 1)))))) (cM (cN 11) (cR (cM (cA (cN 1) (cM (cN 2) (cH 0))) (cA (cA (cA (cA (cN 30) (cM (cN 77) (cV 1))) (cM (cN 71) (cW (cV 1) 4))) (cM (cN 28) (cW (cV 1) 6))) (cM (cN 4) (cW (cV 1) 8))))))) (cM (cM (cN 10) (cV 1)) (cR (cM (cA (cN 1) (cM (cN 2) (cH 0))) (cA (cA (cA (cA (cN 30) (cM (cN 77) (cV 1))) (cM (cN 71) (cW (cV 1) 4))) (cM (cN 28) (cW (cV 1) 6))) (cM (cN 4) (cW (cV 1) 8))))))) (cM (cM (cN 2) (cW (cV 1) 4)) (cR (cM (cA (cN 1) (cM (cN 2) (cH 0))) (cA (cA (cA (cA (cN 30) (cM (cN 77) (cV 1))) (cM (cN 71) (cW (cV 1) 4))) (cM (cN 28) (cW (cV 1) 6))) (cM (cN 4) (cW (cV 1) 8))))))) (cM (cM (cN 4) (cW (cV 1) 6)) (cR (cM (cA (cN 1) (cM (cN 2) (cH 0))) (cA (cA (cA (cA (cN 30) (cM (cN 77) (cV 1))) (cM (cN 71) (cW (cV 1) 4))) (cM (cN 28) (cW (cV 1) 6))) (cM (cN 4) (cW (cV 1) 8)))))))) (cM (cM (cW (cA (cN 1) (cM (cN 2) (cH 0))) 3) (cW (cA (cA (cN 2) (cM (cN 3) (cV 1))) (cW (cV 1) 4)) 4)) (cA (cA (cN 15) (cM (cN 16) (cV 1))) (cM (cN 4) (cW (cV 1) 4)))))).
Definition SPSU2T_e445 := (cO (cD (cM (cR (cA (cA (cN 3) (cM (cN 5) (cV 1))) (cM (cN 2) (cW (cV 1) 4)))) (cB (cB (cA (cA (cA (cB (cM (cM (cM (cN 54) (cW (cV 1) 3)) (cA (cA (cN 2) (cM (cN 3) (cV 1))) (cW (cV 1) 4))) (cR (cD (cM (cA (cN 1) (cM (cN 2) (cH 0))) (cA (cA (cN 9) (cM (cN 9) (cV 1))) (cM (cN 2) (cW (cV 1) 4)))) (cA (cN 2) (cV 1))))) (cM (cM (cM (cM (cN 9) (cV 1)) (cA (cN 1) (cM (cN 2) (cV 1)))) (cA (cA (cN 2) (cM (cN 3) (cV 1))) (cW (cV 1) 4))) (cR (cD (cM (cA (cN 1) (cM (cN 2) (cH 0))) (cA (cA (cN 9) (cM (cN 9) (cV 1))) (cM (cN 2) (cW (cV 1) 4)))) (cM (cV 1) (cA (cN 2) (cV 1))))))) (cM (cM (cM (cM (cN 9) (cW (cV 1) 4)) (cA (cN 1) (cM (cN 2) (cV 1)))) (cA (cA (cN 2) (cM (cN 3) (cV 1))) (cW (cV 1) 4))) (cR (cD (cM (cA (cN 1) (cM (cN 2) (cH 0))) (cA (cA (cN 9) (cM (cN 9) (cV 1))) (cM (cN 2) (cW (cV 1) 4)))) (cM (cV 1) (cA (cN 2) (cV 1))))))) (cM (cM (cN 60) (cA (cA (cN 2) (cM (cN 3) (cV 1))) (cW (cV 1) 4))) (cR (cD (cM (cM (cA (cN 1) (cM (cN 2) (cH 0))) (cV 1)) (cA (cA (cN 9) (cM (cN 9) (cV 1))) (cM (cN 2) (cW (cV 1) 4)))) (cA (cN 2) (cV 1)))))) (cM (cM (cM (cW (cV 1) 3) (cW (cA (cN 1) (cV 1)) 4)) (cA (cN 1) (cM (cN 2) (cV 1)))) (cR (cM (cM (cA (cN 1) (cM (cN 2) (cH 0))) (cA (cN 2) (cV 1))) (cA (cA (cN 9) (cM (cN 9) (cV 1))) (cM (cN 2) (cW (cV 1) 4))))))) (cM (cM (cM (cN 3) (cW (cA (cN 1) (cV 1)) 4)) (cA (cN 1) (cM (cN 2) (cV 1)))) (cR (cM (cM (cM (cA (cN 1) (cM (cN 2) (cH 0))) (cV 1)) (cA (cN 2) (cV 1))) (cA (cA (cN 9) (cM (cN 9) (cV 1))) (cM (cN 2) (cW (cV 1) 4))))))) (cM (cM (cM (cN 18) (cV 1)) (cA (cN 1) (cV 1))) (cR (cD (cM (cA (cN 1) (cM (cN 2) (cH 0))) (cA (cA (cA (cN 18) (cM (cN 27) (cV 1))) (cM (cN 13) (cW (cV 1) 4))) (cM (cN 2) (cW (cV 1) 6)))) (cV 1)))))) (cM (cM (cW (cA (cN 1) (cM (cN 2) (cH 0))) 3) (cW (cA (cA (cN 2) (cM (cN 3) (cV 1))) (cW (cV 1) 4)) 4)) (cA (cA (cA (cN 45) (cM (cN 63) (cV 1))) (cM (cN 28) (cW (cV 1) 4))) (cM (cN 4) (cW (cV 1) 6)))))).
Definition SPSU2T_e446 := (cO (cD (cR (cN 6)) (cR (cM (cA (cN 1) (cV 1)) (cA (cA (cA (cN 6) (cM (cN 19) (cV 1))) (cM (cN 16) (cW (cV 1) 4))) (cM (cN 4) (cW (cV 1) 6))))))).
Definition SPSU2T_e447 := (cD (cR (cN 2)) (cR (cM (cA (cN 1) (cV 1)) (cA (cN 2) (cV 1))))).
Definition SPSU2T_e448 := (cO (cD (cR (cN 6)) (cM (cA (cN 1) (cM (cN 2) (cH 0))) (cR (cM (cA (cN 1) (cV 1)) (cA (cA (cA (cN 6) (cM (cN 19) (cV 1))) (cM (cN 16) (cW (cV 1) 4))) (cM (cN 4) (cW (cV 1) 6)))))))).
Definition SPSU2T_e449 := (cO (cD (cM (cR (cM (cM (cA (cN 2) (cM (cN 4) (cH 0))) (cV 1)) (cA (cA (cN 3) (cM (cN 8) (cV 1))) (cM (cN 4) (cW (cV 1) 4))))) (cA (cA (cB (cA (cB (cB (cA (cD (cM (cM (cM (cN (-3)) (cW (cA (cN 1) (cV 1)) 3)) (cA (cN 3) (cV 1))) (cA (cA (cN 10) (cM (cN 9) (cV 1))) (cM (cN 2) (cW (cV 1) 4)))) (cR (cD (cM (cV 1) (cA (cA (cN 6) (cM (cN 5) (cV 1))) (cW (cV 1) 4))) (cA (cA (cN 3) (cM (cN 8) (cV 1))) (cM (cN 4) (cW (cV 1) 4)))))) (cD (cM (cM (cM (cV 1) (cW (cA (cN 1) (cV 1)) 3)) (cA (cN 3) (cV 1))) (cA (cA (cN 10) (cM (cN 9) (cV 1))) (cM (cN 2) (cW (cV 1) 4)))) (cR (cD (cM (cV 1) (cA (cA (cN 6) (cM (cN 5) (cV 1))) (cW (cV 1) 4))) (cA (cA (cN 3) (cM (cN 8) (cV 1))) (cM (cN 4) (cW (cV 1) 4))))))) (cM (cM (cA (cN 5) (cM (cN 2) (cV 1))) (cW (cA (cA (cN 2) (cM (cN 3) (cV 1))) (cW (cV 1) 4)) 3)) (cR (cA (cA (cA (cN 27) (cD (cN 9) (cV 1))) (cM (cN 20) (cV 1))) (cM (cN 4) (cW (cV 1) 4)))))) (cD (cM (cN 6) (cA (cA (cA (cN 30) (cM (cN 37) (cV 1))) (cM (cN 15) (cW (cV 1) 4))) (cM (cN 2) (cW (cV 1) 6)))) (cR (cD (cM (cV 1) (cA (cA (cA (cN 18) (cM (cN 27) (cV 1))) (cM (cN 13) (cW (cV 1) 4))) (cM (cN 2) (cW (cV 1) 6)))) (cA (cA (cN 1) (cM (cN 3) (cV 1))) (cM (cN 2) (cW (cV 1) 4))))))) (cD (cM (cM (cN 18) (cV 1)) (cA (cA (cA (cN 30) (cM (cN 37) (cV 1))) (cM (cN 15) (cW (cV 1) 4))) (cM (cN 2) (cW (cV 1) 6)))) (cR (cD (cM (cV 1) (cA (cA (cA (cN 18) (cM (cN 27) (cV 1))) (cM (cN 13) (cW (cV 1) 4))) (cM (cN 2) (cW (cV 1) 6)))) (cA (cA (cN 1) (cM (cN 3) (cV 1))) (cM (cN 2) (cW (cV 1) 4))))))) (cM (cM (cM (cN 9) (cA (cN 3) (cV 1))) (cA (cA (cA (cN 10) (cM (cN 19) (cV 1))) (cM (cN 11) (cW (cV 1) 4))) (cM (cN 2) (cW (cV 1) 6)))) (cR (cD (cA (cA (cN 1) (cM (cN 3) (cV 1))) (cM (cN 2) (cW (cV 1) 4))) (cA (cA (cA (cM (cN 18) (cV 1)) (cM (cN 27) (cW (cV 1) 4))) (cM (cN 13) (cW (cV 1) 6))) (cM (cN 2) (cW (cV 1) 8))))))) (cM (cM (cM (cM (cN 9) (cV 1)) (cA (cN 3) (cV 1))) (cA (cA (cA (cN 10) (cM (cN 19) (cV 1))) (cM (cN 11) (cW (cV 1) 4))) (cM (cN 2) (cW (cV 1) 6)))) (cR (cD (cA (cA (cN 1) (cM (cN 3) (cV 1))) (cM (cN 2) (cW (cV 1) 4))) (cA (cA (cA (cM (cN 18) (cV 1)) (cM (cN 27) (cW (cV 1) 4))) (cM (cN 13) (cW (cV 1) 6))) (cM (cN 2) (cW (cV 1) 8))))))) (cM (cM (cN 30) (cA (cA (cA (cN 30) (cM (cN 37) (cV 1))) (cM (cN 15) (cW (cV 1) 4))) (cM (cN 2) (cW (cV 1) 6)))) (cR (cD (cM (cV 1) (cA (cN 1) (cV 1))) (cA (cA (cA (cA (cN 18) (cM (cN 63) (cV 1))) (cM (cN 67) (cW (cV 1) 4))) (cM (cN 28) (cW (cV 1) 6))) (cM (cN 4) (cW (cV 1) 8)))))))) (cM (cM (cA (cN 1) (cV 1)) (cW (cM (cA (cN 1) (cM (cN 2) (cH 0))) (cA (cN 3) (cV 1))) 3)) (cW (cA (cA (cN 10) (cM (cN 9) (cV 1))) (cM (cN 2) (cW (cV 1) 4))) 4)))).
Definition SPSU2T_e450 := (cD (cM (cM (cM (cN (-2)) (cR (cN 2))) (cR (cM (cA (cN 1) (cM (cN 2) (cH 0))) (cA (cA (cN 3) (cM (cN 5) (cV 1))) (cM (cN 2) (cW (cV 1) 4)))))) (cA (cB (cB (cB (cA (cM (cN 2) (cR (cD (cM (cW (cH 0) 6) (cA (cN 1) (cV 1))) (cM (cV 1) (cA (cN 1) (cM (cN 2) (cV 1))))))) (cR (cD (cM (cW (cH 0) 10) (cA (cN 1) (cV 1))) (cM (cV 1) (cA (cN 1) (cM (cN 2) (cV 1))))))) (cR (cD (cM (cM (cH 0) (cV 1)) (cA (cN 1) (cV 1))) (cA (cN 1) (cM (cN 2) (cV 1)))))) (cM (cN 2) (cR (cD (cM (cM (cW (cH 0) 6) (cV 1)) (cA (cN 1) (cV 1))) (cA (cN 1) (cM (cN 2) (cV 1))))))) (cR (cD (cM (cM (cW (cH 0) 10) (cV 1)) (cA (cN 1) (cV 1))) (cA (cN 1) (cM (cN 2) (cV 1)))))) (cR (cD (cA (cH 0) (cM (cH 0) (cV 1))) (cA (cV 1) (cM (cN 2) (cW (cV 1) 4))))))) (cM (cA (cN (-1)) (cV 1)) (cW (cM (cM (cA (cN 1) (cH 0)) (cA (cN 1) (cM (cN 2) (cH 0)))) (cA (cN 1) (cV 1))) 3))).
Definition SPSU2T_e451 := (cD (cM (cM (cM (cN (-2)) (cA (cN 1) (cH 0))) (cR (cA (cA (cN 3) (cM (cN 5) (cV 1))) (cM (cN 2) (cW (cV 1) 4))))) (cA (cA (cB (cM (cN 4) (cR (cD (cM (cH 0) (cA (cN (-1)) (cM (cN 2) (cV 1)))) (cM (cM (cA (cN 1) (cH 0)) (cV 1)) (cA (cA (cN (-2)) (cV 1)) (cW (cV 1) 4)))))) (cM (cM (cN 5) (cV 1)) (cR (cD (cM (cH 0) (cA (cN (-1)) (cM (cN 2) (cV 1)))) (cM (cM (cA (cN 1) (cH 0)) (cV 1)) (cA (cA (cN (-2)) (cV 1)) (cW (cV 1) 4))))))) (cM (cW (cV 1) 4) (cR (cD (cM (cH 0) (cA (cN (-1)) (cM (cN 2) (cV 1)))) (cM (cM (cA (cN 1) (cH 0)) (cV 1)) (cA (cA (cN (-2)) (cV 1)) (cW (cV 1) 4))))))) (cM (cN 6) (cR (cD (cM (cH 0) (cA (cB (cN 1) (cM (cN 3) (cV 1))) (cM (cN 2) (cW (cV 1) 4)))) (cM (cM (cA (cN 1) (cH 0)) (cV 1)) (cA (cN 2) (cV 1)))))))) (cM (cA (cN 1) (cM (cN 2) (cH 0))) (cA (cA (cN 1) (cM (cN 3) (cV 1))) (cM (cN 2) (cW (cV 1) 4))))).
Definition SPSU2T_e452 := (cD (cM (cM (cN (-2)) (cR (cN 6))) (cR (cD (cM (cH 0) (cA (cN 1) (cH 0))) (cM (cM (cV 1) (cA (cN 1) (cV 1))) (cA (cN (-1)) (cM (cN 4) (cW (cV 1) 4))))))) (cA (cN 1) (cM (cN 2) (cH 0)))).
Definition SPSU2T_e453 := (cM (cR (cA (cA (cN 9) (cM (cN 15) (cV 1))) (cM (cN 6) (cW (cV 1) 4)))) (cB (cA (cA (cB (cB (cO (cM (cM (cA (cN (-4)) (cV 1)) (cA (cN (-1)) (cM (cN 2) (cV 1)))) (cR (cD (cM (cH 0) (cA (cN (-1)) (cM (cN 2) (cV 1)))) (cM (cM (cM (cA (cN 1) (cH 0)) (cV 1)) (cW (cA (cN 1) (cV 1)) 6)) (cA (cA (cA (cN 6) (cM (cN 19) (cV 1))) (cM (cN 16) (cW (cV 1) 4))) (cM (cN 4) (cW (cV 1) 6)))))))) (cM (cN 6) (cR (cD (cM (cM (cH 0) (cW (cA (cN (-1)) (cV 1)) 4)) (cA (cN (-1)) (cM (cN 2) (cV 1)))) (cM (cM (cM (cA (cN 1) (cH 0)) (cV 1)) (cW (cA (cN 1) (cV 1)) 6)) (cA (cA (cA (cN 6) (cM (cN 19) (cV 1))) (cM (cN 16) (cW (cV 1) 4))) (cM (cN 4) (cW (cV 1) 6)))))))) (cM (cN 6) (cR (cD (cM (cM (cH 0) (cW (cA (cN (-1)) (cV 1)) 4)) (cA (cN (-1)) (cM (cN 2) (cV 1)))) (cM (cM (cM (cM (cA (cN 1) (cH 0)) (cW (cA (cN 1) (cM (cN 2) (cH 0))) 4)) (cV 1)) (cW (cA (cN 1) (cV 1)) 6)) (cA (cA (cA (cN 6) (cM (cN 19) (cV 1))) (cM (cN 16) (cW (cV 1) 4))) (cM (cN 4) (cW (cV 1) 6)))))))) (cM (cM (cM (cM (cN 2) (cA (cN (-1)) (cV 1))) (cV 1)) (cA (cN (-1)) (cM (cN 2) (cV 1)))) (cR (cD (cH 0) (cM (cM (cM (cA (cN 1) (cH 0)) (cV 1)) (cW (cA (cN 1) (cV 1)) 6)) (cA (cA (cA (cB (cN (-6)) (cM (cN 7) (cV 1))) (cM (cN 22) (cW (cV 1) 4))) (cM (cN 28) (cW (cV 1) 6))) (cM (cN 8) (cW (cV 1) 8)))))))) (cM (cM (cM (cM (cN 2) (cA (cN (-1)) (cV 1))) (cV 1)) (cA (cN (-1)) (cM (cN 2) (cV 1)))) (cR (cD (cH 0) (cM (cM (cM (cM (cA (cN 1) (cH 0)) (cW (cA (cN 1) (cM (cN 2) (cH 0))) 4)) (cV 1)) (cW (cA (cN 1) (cV 1)) 6)) (cA (cA (cA (cB (cN (-6)) (cM (cN 7) (cV 1))) (cM (cN 22) (cW (cV 1) 4))) (cM (cN 28) (cW (cV 1) 6))) (cM (cN 8) (cW (cV 1) 8)))))))) (cD (cM (cW (cB (cN 1) (cM (cN 2) (cV 1))) 4) (cA (cN (-4)) (cV 1))) (cM (cM (cA (cN 1) (cM (cN 2) (cH 0))) (cA (cN 1) (cV 1))) (cR (cD (cM (cM (cA (cN 1) (cH 0)) (cV 1)) (cA (cA (cA (cA (cB (cN (-6)) (cM (cN 13) (cV 1))) (cM (cN 15) (cW (cV 1) 4))) (cM (cN 50) (cW (cV 1) 6))) (cM (cN 36) (cW (cV 1) 8))) (cM (cN 8) (cW (cV 1) 10)))) (cH 0))))))).
Definition SPSU2T_e454 := (cD (cM (cR (cA (cA (cN 3) (cM (cN 5) (cV 1))) (cM (cN 2) (cW (cV 1) 4)))) (cB (cB (cB (cA (cB (cD (cM (cN (-72)) (cR (cD (cM (cM (cH 0) (cV 1)) (cA (cN (-1)) (cM (cN 2) (cV 1)))) (cM (cM (cA (cN 1) (cH 0)) (cW (cA (cN 1) (cV 1)) 6)) (cA (cA (cA (cN 10) (cM (cN 29) (cV 1))) (cM (cN 20) (cW (cV 1) 4))) (cM (cN 4) (cW (cV 1) 6))))))) (cA (cN 3) (cM (cN 2) (cV 1)))) (cD (cN 72) (cM (cM (cA (cN 1) (cM (cN 2) (cH 0))) (cA (cN 1) (cV 1))) (cR (cD (cM (cM (cM (cA (cN 1) (cH 0)) (cA (cN 1) (cV 1))) (cW (cA (cN 3) (cM (cN 2) (cV 1))) 4)) (cA (cA (cA (cN 10) (cM (cN 29) (cV 1))) (cM (cN 20) (cW (cV 1) 4))) (cM (cN 4) (cW (cV 1) 6)))) (cM (cM (cH 0) (cV 1)) (cA (cN (-1)) (cM (cN 2) (cV 1))))))))) (cD (cM (cM (cN 18) (cB (cN 1) (cM (cN 2) (cV 1)))) (cA (cN (-3)) (cM (cN 2) (cV 1)))) (cR (cD (cM (cM (cM (cM (cA (cN 1) (cH 0)) (cW (cA (cN 1) (cV 1)) 6)) (cA (cN (-1)) (cM (cN 2) (cV 1)))) (cW (cA (cN 3) (cM (cN 2) (cV 1))) 4)) (cA (cA (cA (cN 10) (cM (cN 29) (cV 1))) (cM (cN 20) (cW (cV 1) 4))) (cM (cN 4) (cW (cV 1) 6)))) (cM (cH 0) (cV 1)))))) (cD (cM (cM (cN 18) (cA (cN (-3)) (cM (cN 2) (cV 1)))) (cA (cN (-1)) (cM (cN 2) (cV 1)))) (cR (cD (cM (cM (cM (cM (cM (cA (cN 1) (cH 0)) (cW (cA (cN 1) (cM (cN 2) (cH 0))) 4)) (cW (cA (cN 1) (cV 1)) 6)) (cA (cN (-1)) (cM (cN 2) (cV 1)))) (cW (cA (cN 3) (cM (cN 2) (cV 1))) 4)) (cA (cA (cA (cN 10) (cM (cN 29) (cV 1))) (cM (cN 20) (cW (cV 1) 4))) (cM (cN 4) (cW (cV 1) 6)))) (cM (cH 0) (cV 1)))))) (cD (cM (cM (cM (cN 2) (cV 1)) (cA (cN (-1)) (cM (cN 2) (cV 1)))) (cA (cB (cN 1) (cM (cN 9) (cV 1))) (cM (cN 2) (cW (cV 1) 4)))) (cR (cD (cM (cM (cM (cM (cM (cA (cN 1) (cH 0)) (cV 1)) (cW (cA (cN 1) (cV 1)) 6)) (cA (cN (-1)) (cM (cN 2) (cV 1)))) (cW (cA (cN 3) (cM (cN 2) (cV 1))) 4)) (cA (cA (cA (cN 10) (cM (cN 29) (cV 1))) (cM (cN 20) (cW (cV 1) 4))) (cM (cN 4) (cW (cV 1) 6)))) (cH 0))))) (cM (cM (cM (cM (cN 2) (cV 1)) (cA (cN (-1)) (cM (cN 2) (cV 1)))) (cA (cB (cN 1) (cM (cN 9) (cV 1))) (cM (cN 2) (cW (cV 1) 4)))) (cR (cD (cH 0) (cM (cM (cM (cM (cM (cA (cN 1) (cH 0)) (cW (cA (cN 1) (cM (cN 2) (cH 0))) 4)) (cV 1)) (cW (cA (cN 1) (cV 1)) 6)) (cW (cA (cN 3) (cM (cN 2) (cV 1))) 4)) (cA (cA (cA (cB (cN (-10)) (cM (cN 9) (cV 1))) (cM (cN 38) (cW (cV 1) 4))) (cM (cN 36) (cW (cV 1) 6))) (cM (cN 8) (cW (cV 1) 8))))))))) (cN 2)).
Definition SPSU2T_e455 := (cM (cM (cN 3) (cR (cA (cA (cN 3) (cM (cN 5) (cV 1))) (cM (cN 2) (cW (cV 1) 4))))) (cB (cB (cB (cB (cB (cB (cA (cM (cM (cM (cN 2) (cA (cN (-1)) (cV 1))) (cV 1)) (cR (cD (cH 0) (cM (cM (cM (cA (cN 1) (cH 0)) (cW (cA (cN 1) (cV 1)) 6)) (cW (cA (cN 2) (cV 1)) 4)) (cA (cN 3) (cM (cN 2) (cV 1))))))) (cM (cM (cM (cN 2) (cA (cN (-1)) (cV 1))) (cV 1)) (cR (cD (cH 0) (cM (cM (cM (cM (cA (cN 1) (cH 0)) (cW (cA (cN 1) (cM (cN 2) (cH 0))) 4)) (cW (cA (cN 1) (cV 1)) 6)) (cW (cA (cN 2) (cV 1)) 4)) (cA (cN 3) (cM (cN 2) (cV 1)))))))) (cM (cM (cA (cN (-4)) (cV 1)) (cV 1)) (cR (cD (cM (cH 0) (cW (cB (cN 1) (cM (cN 2) (cV 1))) 4)) (cM (cM (cM (cA (cN 1) (cH 0)) (cW (cA (cN 1) (cV 1)) 6)) (cA (cN 3) (cM (cN 2) (cV 1)))) (cW (cA (cA (cN 2) (cM (cN 5) (cV 1))) (cM (cN 2) (cW (cV 1) 4))) 4)))))) (cM (cM (cA (cN (-4)) (cV 1)) (cV 1)) (cR (cD (cM (cH 0) (cW (cB (cN 1) (cM (cN 2) (cV 1))) 4)) (cM (cM (cM (cM (cA (cN 1) (cH 0)) (cW (cA (cN 1) (cM (cN 2) (cH 0))) 4)) (cW (cA (cN 1) (cV 1)) 6)) (cA (cN 3) (cM (cN 2) (cV 1)))) (cW (cA (cA (cN 2) (cM (cN 5) (cV 1))) (cM (cN 2) (cW (cV 1) 4))) 4)))))) (cM (cN 2) (cR (cD (cM (cH 0) (cW (cA (cB (cN 1) (cM (cN 3) (cV 1))) (cM (cN 2) (cW (cV 1) 4))) 4)) (cM (cM (cM (cA (cN 1) (cH 0)) (cW (cA (cN 1) (cV 1)) 6)) (cA (cN 3) (cM (cN 2) (cV 1)))) (cW (cA (cA (cN 2) (cM (cN 5) (cV 1))) (cM (cN 2) (cW (cV 1) 4))) 4)))))) (cD (cM (cV 1) (cR (cD (cH 0) (cM (cA (cN 1) (cH 0)) (cA (cA (cN 3) (cM (cN 5) (cV 1))) (cM (cN 2) (cW (cV 1) 4))))))) (cA (cA (cA (cN 2) (cM (cN 4) (cH 0))) (cV 1)) (cM (cM (cN 2) (cH 0)) (cV 1))))) (cD (cM (cM (cN 2) (cA (cB (cN 1) (cM (cN 3) (cV 1))) (cM (cN 2) (cW (cV 1) 4)))) (cR (cD (cH 0) (cM (cM (cA (cN 1) (cH 0)) (cW (cA (cN 2) (cV 1)) 4)) (cA (cA (cN 3) (cM (cN 5) (cV 1))) (cM (cN 2) (cW (cV 1) 4))))))) (cM (cA (cN 1) (cM (cN 2) (cH 0))) (cA (cA (cN 1) (cM (cN 3) (cV 1))) (cM (cN 2) (cW (cV 1) 4)))))) (cD (cV 1) (cM (cA (cN 2) (cV 1)) (cR (cD (cM (cA (cN 1) (cH 0)) (cA (cA (cN 3) (cM (cN 5) (cV 1))) (cM (cN 2) (cW (cV 1) 4)))) (cH 0))))))).
Definition SPSU2T_e456 := (cM (cR (cA (cA (cN 9) (cM (cN 15) (cV 1))) (cM (cN 6) (cW (cV 1) 4)))) (cB (cB (cB (cB (cB (cA (cA (cO (cM (cM (cV 1) (cA (cB (cN 1) (cM (cN 9) (cV 1))) (cM (cN 2) (cW (cV 1) 4)))) (cR (cD (cM (cH 0) (cA (cN 1) (cM (cN 2) (cV 1)))) (cM (cM (cM (cA (cN 1) (cH 0)) (cV 1)) (cW (cA (cA (cN 2) (cM (cN 3) (cV 1))) (cW (cV 1) 4)) 6)) (cA (cA (cN 15) (cM (cN 16) (cV 1))) (cM (cN 4) (cW (cV 1) 4)))))))) (cM (cM (cV 1) (cA (cN (-1)) (cM (cN 2) (cV 1)))) (cR (cD (cM (cH 0) (cA (cN 1) (cM (cN 2) (cV 1)))) (cM (cM (cM (cA (cN 1) (cH 0)) (cV 1)) (cW (cA (cN 2) (cV 1)) 6)) (cA (cA (cA (cN 15) (cM (cN 31) (cV 1))) (cM (cN 20) (cW (cV 1) 4))) (cM (cN 4) (cW (cV 1) 6)))))))) (cM (cM (cV 1) (cA (cN (-1)) (cM (cN 2) (cV 1)))) (cR (cD (cM (cH 0) (cA (cN 1) (cM (cN 2) (cV 1)))) (cM (cM (cM (cM (cA (cN 1) (cH 0)) (cW (cA (cN 1) (cM (cN 2) (cH 0))) 4)) (cV 1)) (cW (cA (cN 2) (cV 1)) 6)) (cA (cA (cA (cN 15) (cM (cN 31) (cV 1))) (cM (cN 20) (cW (cV 1) 4))) (cM (cN 4) (cW (cV 1) 6)))))))) (cM (cM (cM (cN 9) (cV 1)) (cA (cN (-3)) (cM (cN 2) (cV 1)))) (cR (cD (cM (cH 0) (cV 1)) (cM (cM (cA (cN 1) (cH 0)) (cW (cA (cA (cN 2) (cM (cN 3) (cV 1))) (cW (cV 1) 4)) 6)) (cA (cA (cA (cN 15) (cM (cN 46) (cV 1))) (cM (cN 36) (cW (cV 1) 4))) (cM (cN 8) (cW (cV 1) 6)))))))) (cM (cN 12) (cR (cD (cM (cM (cH 0) (cW (cB (cN 1) (cM (cN 2) (cV 1))) 4)) (cV 1)) (cM (cM (cA (cN 1) (cH 0)) (cW (cA (cA (cN 2) (cM (cN 3) (cV 1))) (cW (cV 1) 4)) 6)) (cA (cA (cA (cN 15) (cM (cN 46) (cV 1))) (cM (cN 36) (cW (cV 1) 4))) (cM (cN 8) (cW (cV 1) 6)))))))) (cM (cN 12) (cR (cD (cM (cM (cH 0) (cW (cB (cN 1) (cM (cN 2) (cV 1))) 4)) (cV 1)) (cM (cM (cM (cA (cN 1) (cH 0)) (cW (cA (cN 1) (cM (cN 2) (cH 0))) 4)) (cW (cA (cA (cN 2) (cM (cN 3) (cV 1))) (cW (cV 1) 4)) 6)) (cA (cA (cA (cN 15) (cM (cN 46) (cV 1))) (cM (cN 36) (cW (cV 1) 4))) (cM (cN 8) (cW (cV 1) 6)))))))) (cD (cM (cM (cM (cV 1) (cA (cN 1) (cM (cN 2) (cV 1)))) (cA (cB (cN 1) (cM (cN 9) (cV 1))) (cM (cN 2) (cW (cV 1) 4)))) (cR (cD (cH 0) (cM (cM (cM (cA (cN 1) (cH 0)) (cW (cA (cN 1) (cM (cN 2) (cH 0))) 4)) (cV 1)) (cA (cA (cA (cA (cA (cN 30) (cM (cN 137) (cV 1))) (cM (cN 225) (cW (cV 1) 4))) (cM (cN 170) (cW (cV 1) 6))) (cM (cN 60) (cW (cV 1) 8))) (cM (cN 8) (cW (cV 1) 10))))))) (cA (cA (cN 2) (cM (cN 3) (cV 1))) (cW (cV 1) 4)))) (cD (cM (cM (cN 9) (cW (cV 1) 4)) (cA (cN (-3)) (cM (cN 2) (cV 1)))) (cM (cM (cA (cN 1) (cM (cN 2) (cH 0))) (cA (cA (cN 2) (cM (cN 3) (cV 1))) (cW (cV 1) 4))) (cR (cD (cM (cM (cA (cN 1) (cH 0)) (cV 1)) (cA (cA (cA (cA (cA (cN 30) (cM (cN 137) (cV 1))) (cM (cN 225) (cW (cV 1) 4))) (cM (cN 170) (cW (cV 1) 6))) (cM (cN 60) (cW (cV 1) 8))) (cM (cN 8) (cW (cV 1) 10)))) (cH 0))))))).
Definition SPSU2T_e457 := (cD (cM (cR (cA (cA (cN 3) (cM (cN 5) (cV 1))) (cM (cN 2) (cW (cV 1) 4)))) (cB (cB (cB (cB (cB (cB (cB (cD (cM (cM (cN (-2)) (cA (cN (-3)) (cV 1))) (cV 1)) (cR (cD (cM (cM (cM (cM (cM (cA (cN 1) (cH 0)) (cV 1)) (cW (cA (cN 2) (cV 1)) 6)) (cA (cN 3) (cV 1))) (cA (cN 3) (cM (cN 2) (cV 1)))) (cW (cA (cN 5) (cM (cN 2) (cV 1))) 4)) (cM (cH 0) (cW (cA (cN 1) (cM (cN 2) (cV 1))) 4))))) (cD (cM (cM (cN 2) (cA (cN (-3)) (cV 1))) (cV 1)) (cR (cD (cM (cM (cM (cM (cM (cM (cA (cN 1) (cH 0)) (cW (cA (cN 1) (cM (cN 2) (cH 0))) 4)) (cV 1)) (cW (cA (cN 2) (cV 1)) 6)) (cA (cN 3) (cV 1))) (cA (cN 3) (cM (cN 2) (cV 1)))) (cW (cA (cN 5) (cM (cN 2) (cV 1))) 4)) (cM (cH 0) (cW (cA (cN 1) (cM (cN 2) (cV 1))) 4)))))) (cD (cM (cM (cN 36) (cV 1)) (cA (cN (-1)) (cM (cN 3) (cV 1)))) (cR (cD (cM (cM (cM (cM (cM (cM (cA (cN 1) (cH 0)) (cV 1)) (cW (cA (cN 1) (cV 1)) 4)) (cW (cA (cN 2) (cV 1)) 6)) (cA (cN 3) (cV 1))) (cA (cN 3) (cM (cN 2) (cV 1)))) (cW (cA (cN 5) (cM (cN 2) (cV 1))) 4)) (cH 0))))) (cD (cN 120) (cR (cD (cM (cM (cM (cM (cA (cN 1) (cH 0)) (cW (cA (cN 2) (cV 1)) 6)) (cA (cN 3) (cV 1))) (cA (cN 3) (cM (cN 2) (cV 1)))) (cW (cA (cA (cN 5) (cM (cN 7) (cV 1))) (cM (cN 2) (cW (cV 1) 4))) 4)) (cM (cH 0) (cV 1)))))) (cD (cM (cM (cM (cN 36) (cV 1)) (cA (cN (-1)) (cM (cN 3) (cV 1)))) (cR (cD (cH 0) (cM (cM (cM (cM (cM (cA (cN 1) (cH 0)) (cW (cA (cN 1) (cM (cN 2) (cH 0))) 4)) (cV 1)) (cA (cN 2) (cV 1))) (cW (cA (cN 5) (cM (cN 2) (cV 1))) 4)) (cA (cA (cN 9) (cM (cN 9) (cV 1))) (cM (cN 2) (cW (cV 1) 4))))))) (cA (cA (cN 2) (cM (cN 3) (cV 1))) (cW (cV 1) 4)))) (cM (cN 120) (cR (cD (cM (cH 0) (cV 1)) (cM (cM (cM (cM (cA (cN 1) (cH 0)) (cW (cA (cN 1) (cM (cN 2) (cH 0))) 4)) (cW (cA (cN 2) (cV 1)) 6)) (cW (cA (cA (cN 5) (cM (cN 7) (cV 1))) (cM (cN 2) (cW (cV 1) 4))) 4)) (cA (cA (cN 9) (cM (cN 9) (cV 1))) (cM (cN 2) (cW (cV 1) 4)))))))) (cD (cM (cM (cM (cN 18) (cA (cN (-1)) (cV 1))) (cV 1)) (cA (cN 1) (cM (cN 2) (cV 1)))) (cM (cA (cA (cN 2) (cM (cN 3) (cV 1))) (cW (cV 1) 4)) (cR (cD (cM (cM (cM (cM (cA (cN 1) (cH 0)) (cV 1)) (cA (cN 2) (cV 1))) (cW (cA (cN 5) (cM (cN 2) (cV 1))) 4)) (cA (cA (cN 9) (cM (cN 9) (cV 1))) (cM (cN 2) (cW (cV 1) 4)))) (cH 0)))))) (cD (cM (cM (cM (cM (cN 18) (cA (cN (-1)) (cV 1))) (cV 1)) (cA (cN 1) (cM (cN 2) (cV 1)))) (cR (cD (cH 0) (cM (cM (cM (cA (cN 1) (cH 0)) (cW (cA (cN 1) (cM (cN 2) (cH 0))) 4)) (cV 1)) (cA (cA (cA (cN 18) (cM (cN 27) (cV 1))) (cM (cN 13) (cW (cV 1) 4))) (cM (cN 2) (cW (cV 1) 6))))))) (cM (cA (cN 5) (cM (cN 2) (cV 1))) (cA (cA (cN 2) (cM (cN 3) (cV 1))) (cW (cV 1) 4)))))) (cN 2)).
Definition SPSU2T_e458 := (cM (cM (cR (cN 6)) (cR (cA (cA (cN 3) (cM (cN 5) (cV 1))) (cM (cN 2) (cW (cV 1) 4))))) (cB (cB (cB (cB (cA (cA (cB (cB (cA (cM (cA (cN (-1)) (cM (cN 2) (cV 1))) (cR (cD (cM (cH 0) (cA (cN 1) (cM (cN 2) (cV 1)))) (cM (cM (cA (cN 1) (cH 0)) (cW (cA (cN 2) (cV 1)) 6)) (cW (cA (cN 5) (cM (cN 2) (cV 1))) 4))))) (cM (cA (cN (-1)) (cM (cN 2) (cV 1))) (cR (cD (cM (cH 0) (cA (cN 1) (cM (cN 2) (cV 1)))) (cM (cM (cM (cA (cN 1) (cH 0)) (cW (cA (cN 1) (cM (cN 2) (cH 0))) 4)) (cW (cA (cN 2) (cV 1)) 6)) (cW (cA (cN 5) (cM (cN 2) (cV 1))) 4)))))) (cD (cR (cD (cA (cH 0) (cM (cM (cN 2) (cH 0)) (cV 1))) (cA (cA (cA (cN 2) (cM (cN 2) (cH 0))) (cV 1)) (cM (cH 0) (cV 1))))) (cA (cN 5) (cM (cN 2) (cV 1))))) (cD (cR (cD (cM (cH 0) (cA (cN 1) (cM (cN 2) (cV 1)))) (cM (cA (cN 1) (cH 0)) (cA (cN 2) (cV 1))))) (cA (cA (cA (cN 5) (cM (cN 10) (cH 0))) (cM (cN 2) (cV 1))) (cM (cM (cN 4) (cH 0)) (cV 1))))) (cM (cB (cA (cN (-1)) (cM (cN 9) (cV 1))) (cM (cN 2) (cW (cV 1) 4))) (cR (cD (cM (cH 0) (cA (cN 1) (cM (cN 2) (cV 1)))) (cM (cM (cA (cN 1) (cH 0)) (cW (cA (cN 2) (cV 1)) 6)) (cW (cA (cA (cN 15) (cM (cN 16) (cV 1))) (cM (cN 4) (cW (cV 1) 4))) 4)))))) (cM (cB (cA (cN (-1)) (cM (cN 9) (cV 1))) (cM (cN 2) (cW (cV 1) 4))) (cR (cD (cM (cH 0) (cA (cN 1) (cM (cN 2) (cV 1)))) (cM (cM (cM (cA (cN 1) (cH 0)) (cW (cA (cN 1) (cM (cN 2) (cH 0))) 4)) (cW (cA (cN 2) (cV 1)) 6)) (cW (cA (cA (cN 15) (cM (cN 16) (cV 1))) (cM (cN 4) (cW (cV 1) 4))) 4)))))) (cM (cN 6) (cR (cD (cM (cM (cH 0) (cW (cB (cN 1) (cM (cN 2) (cV 1))) 4)) (cW (cV 1) 4)) (cM (cM (cM (cA (cN 1) (cH 0)) (cW (cA (cN 2) (cV 1)) 6)) (cA (cN 1) (cM (cN 2) (cV 1)))) (cW (cA (cA (cA (cN 15) (cM (cN 31) (cV 1))) (cM (cN 20) (cW (cV 1) 4))) (cM (cN 4) (cW (cV 1) 6))) 4)))))) (cM (cM (cN 3) (cA (cN (-3)) (cM (cN 2) (cV 1)))) (cR (cD (cM (cM (cH 0) (cW (cV 1) 4)) (cA (cN 1) (cM (cN 2) (cV 1)))) (cM (cM (cA (cN 1) (cH 0)) (cW (cA (cN 2) (cV 1)) 6)) (cW (cA (cA (cA (cN 15) (cM (cN 31) (cV 1))) (cM (cN 20) (cW (cV 1) 4))) (cM (cN 4) (cW (cV 1) 6))) 4)))))) (cM (cM (cN 3) (cA (cN (-3)) (cM (cN 2) (cV 1)))) (cR (cD (cM (cM (cH 0) (cW (cV 1) 4)) (cA (cN 1) (cM (cN 2) (cV 1)))) (cM (cM (cM (cA (cN 1) (cH 0)) (cW (cA (cN 1) (cM (cN 2) (cH 0))) 4)) (cW (cA (cN 2) (cV 1)) 6)) (cW (cA (cA (cA (cN 15) (cM (cN 31) (cV 1))) (cM (cN 20) (cW (cV 1) 4))) (cM (cN 4) (cW (cV 1) 6))) 4)))))) (cD (cM (cM (cM (cN 6) (cV 1)) (cA (cN (-1)) (cM (cN 2) (cV 1)))) (cR (cD (cH 0) (cM (cM (cA (cN 1) (cH 0)) (cA (cA (cN 2) (cM (cN 5) (cV 1))) (cM (cN 2) (cW (cV 1) 4)))) (cW (cA (cA (cA (cN 15) (cM (cN 31) (cV 1))) (cM (cN 20) (cW (cV 1) 4))) (cM (cN 4) (cW (cV 1) 6))) 4))))) (cM (cA (cN 1) (cM (cN 2) (cH 0))) (cA (cN 2) (cV 1)))))).
Definition SPSU2T_e459 := (cM (cR (cA (cA (cN 6) (cM (cN 10) (cV 1))) (cM (cN 4) (cW (cV 1) 4)))) (cB (cB (cB (cB (cA (cA (cB (cB (cB (cO (cD (cM (cM (cA (cN (-3)) (cV 1)) (cA (cN 1) (cM (cN 2) (cV 1)))) (cR (cD (cM (cH 0) (cA (cN 3) (cM (cN 2) (cV 1)))) (cM (cM (cM (cA (cN 1) (cH 0)) (cW (cA (cN 1) (cM (cN 2) (cH 0))) 4)) (cA (cN 2) (cV 1))) (cW (cA (cN 3) (cV 1)) 4))))) (cA (cA (cN 10) (cM (cN 9) (cV 1))) (cM (cN 2) (cW (cV 1) 4))))) (cD (cM (cM (cM (cN 9) (cA (cN (-1)) (cV 1))) (cA (cN 1) (cM (cN 2) (cV 1)))) (cR (cD (cH 0) (cM (cM (cM (cA (cN 1) (cH 0)) (cW (cA (cN 1) (cM (cN 2) (cH 0))) 4)) (cW (cA (cN 3) (cV 1)) 4)) (cA (cA (cN 6) (cM (cN 7) (cV 1))) (cM (cN 2) (cW (cV 1) 4))))))) (cA (cA (cN 10) (cM (cN 9) (cV 1))) (cM (cN 2) (cW (cV 1) 4))))) (cM (cM (cN 9) (cA (cN (-1)) (cV 1))) (cR (cD (cM (cH 0) (cW (cA (cN 1) (cM (cN 2) (cV 1))) 4)) (cM (cM (cM (cA (cN 1) (cH 0)) (cW (cA (cN 2) (cV 1)) 6)) (cA (cN 3) (cM (cN 2) (cV 1)))) (cW (cA (cA (cN 15) (cM (cN 11) (cV 1))) (cM (cN 2) (cW (cV 1) 4))) 4)))))) (cM (cA (cN (-3)) (cV 1)) (cR (cD (cM (cM (cH 0) (cW (cA (cN 1) (cM (cN 2) (cV 1))) 4)) (cA (cN 3) (cM (cN 2) (cV 1)))) (cM (cM (cA (cN 1) (cH 0)) (cW (cA (cN 2) (cV 1)) 6)) (cW (cA (cA (cN 15) (cM (cN 11) (cV 1))) (cM (cN 2) (cW (cV 1) 4))) 4)))))) (cR (cD (cM (cM (cH 0) (cW (cA (cN 1) (cM (cN 2) (cV 1))) 4)) (cA (cN 3) (cM (cN 2) (cV 1)))) (cM (cM (cA (cN 1) (cH 0)) (cA (cN 2) (cV 1))) (cW (cA (cA (cN 15) (cM (cN 11) (cV 1))) (cM (cN 2) (cW (cV 1) 4))) 4))))) (cR (cD (cM (cM (cH 0) (cW (cA (cN 1) (cM (cN 2) (cV 1))) 4)) (cA (cN 3) (cM (cN 2) (cV 1)))) (cM (cM (cM (cA (cN 1) (cH 0)) (cW (cA (cN 1) (cM (cN 2) (cH 0))) 4)) (cA (cN 2) (cV 1))) (cW (cA (cA (cN 15) (cM (cN 11) (cV 1))) (cM (cN 2) (cW (cV 1) 4))) 4))))) (cM (cN 30) (cR (cD (cM (cH 0) (cW (cV 1) 4)) (cM (cM (cM (cM (cA (cN 1) (cH 0)) (cW (cA (cN 1) (cM (cN 2) (cH 0))) 4)) (cW (cA (cN 2) (cV 1)) 6)) (cA (cN 3) (cM (cN 2) (cV 1)))) (cW (cA (cA (cA (cN 15) (cM (cN 26) (cV 1))) (cM (cN 13) (cW (cV 1) 4))) (cM (cN 2) (cW (cV 1) 6))) 4)))))) (cM (cM (cN 6) (cA (cN (-1)) (cM (cN 3) (cV 1)))) (cR (cD (cM (cH 0) (cW (cA (cN 1) (cM (cN 2) (cV 1))) 4)) (cM (cM (cM (cA (cN 1) (cH 0)) (cW (cA (cN 2) (cV 1)) 6)) (cA (cN 3) (cM (cN 2) (cV 1)))) (cW (cA (cA (cA (cN 15) (cM (cN 26) (cV 1))) (cM (cN 13) (cW (cV 1) 4))) (cM (cN 2) (cW (cV 1) 6))) 4)))))) (cM (cM (cN 6) (cA (cN (-1)) (cM (cN 3) (cV 1)))) (cR (cD (cM (cH 0) (cW (cA (cN 1) (cM (cN 2) (cV 1))) 4)) (cM (cM (cM (cM (cA (cN 1) (cH 0)) (cW (cA (cN 1) (cM (cN 2) (cH 0))) 4)) (cW (cA (cN 2) (cV 1)) 6)) (cA (cN 3) (cM (cN 2) (cV 1)))) (cW (cA (cA (cA (cN 15) (cM (cN 26) (cV 1))) (cM (cN 13) (cW (cV 1) 4))) (cM (cN 2) (cW (cV 1) 6))) 4)))))) (cD (cM (cM (cN 30) (cV 1)) (cR (cD (cH 0) (cM (cM (cA (cN 1) (cH 0)) (cW (cA (cN 2) (cV 1)) 6)) (cA (cN 3) (cM (cN 2) (cV 1))))))) (cA (cA (cA (cN 15) (cM (cN 26) (cV 1))) (cM (cN 13) (cW (cV 1) 4))) (cM (cN 2) (cW (cV 1) 6)))))).
Definition SPSU2T_e460 := (cD (cM (cM (cN (-2)) (cR (cA (cN 1) (cM (cN 2) (cV 1))))) (cA (cA (cA (cA (cM (cN 90) (cR (cD (cM (cM (cH 0) (cA (cN 1) (cH 0))) (cA (cN 5) (cM (cN 2) (cV 1)))) (cA (cN 1) (cM (cN 2) (cV 1)))))) (cM (cN 120) (cR (cM (cM (cH 0) (cA (cN 1) (cH 0))) (cA (cA (cN 5) (cM (cN 12) (cV 1))) (cM (cN 4) (cW (cV 1) 4))))))) (cM (cM (cN 79) (cV 1)) (cR (cM (cM (cH 0) (cA (cN 1) (cH 0))) (cA (cA (cN 5) (cM (cN 12) (cV 1))) (cM (cN 4) (cW (cV 1) 4))))))) (cM (cM (cN 21) (cW (cV 1) 4)) (cR (cM (cM (cH 0) (cA (cN 1) (cH 0))) (cA (cA (cN 5) (cM (cN 12) (cV 1))) (cM (cN 4) (cW (cV 1) 4))))))) (cM (cM (cN 2) (cW (cV 1) 6)) (cR (cM (cM (cH 0) (cA (cN 1) (cH 0))) (cA (cA (cN 5) (cM (cN 12) (cV 1))) (cM (cN 4) (cW (cV 1) 4)))))))) (cM (cM (cM (cA (cN 1) (cM (cN 2) (cH 0))) (cA (cN 2) (cV 1))) (cW (cA (cN 5) (cM (cN 2) (cV 1))) 3)) (cA (cA (cN 21) (cM (cN 13) (cV 1))) (cM (cN 2) (cW (cV 1) 4))))).
Definition SPSU2T_e461 := (cD (cN 1) (cR (cD (cM (cM (cH 0) (cA (cN 1) (cM (cN 2) (cH 0)))) (cW (cA (cN 1) (cM (cN 2) (cV 1))) 4)) (cA (cA (cN (-3)) (cM (cN 4) (cV 1))) (cM (cN 4) (cW (cV 1) 4)))))).
Definition SPSU2T_e462 := (cD (cA (cM (cN 2) (cR (cD (cV 1) (cA (cN 2) (cV 1))))) (cR (cD (cW (cV 1) 6) (cA (cN 2) (cV 1))))) (cA (cN 1) (cV 1))).
Definition SPSU2T_e463 := (cO (cD (cN 1) (cM (cA (cN 1) (cV 1)) (cR (cD (cM (cM (cH 0) (cA (cN 1) (cM (cN 2) (cH 0)))) (cA (cN 1) (cM (cN 2) (cV 1)))) (cA (cN 3) (cM (cN 2) (cV 1)))))))).
Definition SPSU2T_e464 := (cD (cA (cM (cN 2) (cR (cD (cV 1) (cM (cA (cH 0) (cM (cN 2) (cW (cH 0) 4))) (cA (cN 2) (cV 1)))))) (cR (cD (cW (cV 1) 6) (cM (cA (cH 0) (cM (cN 2) (cW (cH 0) 4))) (cA (cN 2) (cV 1)))))) (cA (cN 1) (cV 1))).
Definition SPSU2T_e465 := (cD (cN 1) (cM (cR (cM (cH 0) (cA (cN 1) (cM (cN 2) (cH 0))))) (cA (cA (cN 1) (cM (cN 3) (cV 1))) (cM (cN 2) (cW (cV 1) 4))))).
Definition SPSU2T_e466 := (cO (cD (cN 1) (cM (cR (cM (cH 0) (cA (cN 1) (cM (cN 2) (cH 0))))) (cA (cN 1) (cV 1))))).
Definition SPSU2T_e467 := (cD (cA (cB (cR (cD (cM (cM (cA (cN (-1)) (cM (cN 2) (cH 0))) (cV 1)) (cA (cN (-1)) (cM (cN 2) (cV 1)))) (cM (cM (cH 0) (cA (cN 1) (cM (cN 2) (cH 0)))) (cA (cA (cN 1) (cM (cN 3) (cV 1))) (cM (cN 2) (cW (cV 1) 4)))))) (cR (cD (cM (cM (cH 0) (cV 1)) (cA (cN (-1)) (cM (cN 2) (cV 1)))) (cM (cA (cN (-1)) (cM (cN 4) (cW (cH 0) 4))) (cA (cA (cN 1) (cM (cN 3) (cV 1))) (cM (cN 2) (cW (cV 1) 4))))))) (cM (cM (cN 2) (cH 0)) (cR (cD (cM (cM (cH 0) (cV 1)) (cA (cN (-1)) (cM (cN 2) (cV 1)))) (cM (cA (cN (-1)) (cM (cN 4) (cW (cH 0) 4))) (cA (cA (cN 1) (cM (cN 3) (cV 1))) (cM (cN 2) (cW (cV 1) 4)))))))) (cR (cD (cM (cM (cA (cN 1) (cH 0)) (cV 1)) (cA (cN 1) (cM (cN 2) (cV 1)))) (cA (cA (cN 3) (cM (cN 5) (cV 1))) (cM (cN 2) (cW (cV 1) 4)))))).
Definition SPSU2T_e468 := (cD (cN 1) (cR (cD (cM (cM (cA (cN 1) (cH 0)) (cA (cN 1) (cM (cN 2) (cH 0)))) (cW (cA (cN 1) (cM (cN 2) (cV 1))) 4)) (cA (cA (cN (-3)) (cM (cN 4) (cV 1))) (cM (cN 4) (cW (cV 1) 4)))))).
Definition SPSU2T_e469 := (cD (cM (cR (cA (cA (cN 3) (cM (cN 5) (cV 1))) (cM (cN 2) (cW (cV 1) 4)))) (cA (cB (cA (cO (cR (cD (cM (cA (cA (cN (-1)) (cH 0)) (cM (cN 2) (cW (cH 0) 4))) (cA (cN 1) (cV 1))) (cM (cA (cH 0) (cM (cN 2) (cW (cH 0) 4))) (cA (cN 1) (cM (cN 2) (cV 1))))))) (cM (cH 0) (cR (cD (cM (cA (cN 1) (cH 0)) (cA (cN 1) (cV 1))) (cM (cA (cO (cH 0)) (cM (cN 4) (cW (cH 0) 6))) (cA (cN 1) (cM (cN 2) (cV 1)))))))) (cM (cM (cN 2) (cW (cH 0) 4)) (cR (cD (cM (cA (cN 1) (cH 0)) (cA (cN 1) (cV 1))) (cM (cA (cO (cH 0)) (cM (cN 4) (cW (cH 0) 6))) (cA (cN 1) (cM (cN 2) (cV 1)))))))) (cM (cM (cN 2) (cV 1)) (cA (cB (cB (cR (cD (cM (cM (cH 0) (cA (cN 1) (cH 0))) (cA (cN 1) (cV 1))) (cM (cA (cN (-1)) (cM (cN 4) (cW (cH 0) 4))) (cA (cN 1) (cM (cN 2) (cV 1)))))) (cM (cN 2) (cR (cD (cM (cM (cW (cH 0) 6) (cA (cN 1) (cH 0))) (cA (cN 1) (cV 1))) (cM (cA (cN (-1)) (cM (cN 4) (cW (cH 0) 4))) (cA (cN 1) (cM (cN 2) (cV 1)))))))) (cM (cH 0) (cR (cD (cM (cA (cN 1) (cH 0)) (cA (cN 1) (cV 1))) (cM (cA (cO (cH 0)) (cM (cN 4) (cW (cH 0) 6))) (cA (cN 1) (cM (cN 2) (cV 1)))))))) (cM (cM (cN 2) (cW (cH 0) 4)) (cR (cD (cM (cA (cN 1) (cH 0)) (cA (cN 1) (cV 1))) (cM (cA (cO (cH 0)) (cM (cN 4) (cW (cH 0) 6))) (cA (cN 1) (cM (cN 2) (cV 1))))))))))) (cM (cA (cN 1) (cH 0)) (cW (cA (cN 1) (cV 1)) 4))).
Definition SPSU2T_e470 := (cA (cA (cA (cD (cN 3) (cM (cA (cN 1) (cV 1)) (cR (cD (cM (cM (cM (cH 0) (cA (cN 1) (cH 0))) (cA (cN 1) (cM (cN 2) (cH 0)))) (cA (cN 2) (cV 1))) (cM (cA (cN (-1)) (cM (cN 2) (cH 0))) (cV 1)))))) (cD (cM (cM (cN 3) (cH 0)) (cA (cN (-1)) (cM (cN 2) (cH 0)))) (cR (cD (cM (cM (cM (cM (cH 0) (cA (cN 1) (cH 0))) (cA (cN (-1)) (cM (cN 4) (cW (cH 0) 4)))) (cW (cA (cN 1) (cV 1)) 4)) (cA (cN 2) (cV 1))) (cV 1))))) (cD (cM (cA (cN (-1)) (cV 1)) (cV 1)) (cR (cD (cM (cM (cM (cM (cM (cH 0) (cA (cN 1) (cH 0))) (cA (cN 1) (cM (cN 2) (cH 0)))) (cV 1)) (cW (cA (cN 1) (cV 1)) 4)) (cA (cN 2) (cV 1))) (cA (cN (-1)) (cM (cN 2) (cH 0))))))) (cD (cM (cM (cA (cN (-1)) (cM (cN 2) (cH 0))) (cA (cN (-1)) (cV 1))) (cV 1)) (cR (cD (cM (cM (cM (cM (cA (cN 1) (cH 0)) (cA (cN (-1)) (cM (cN 4) (cW (cH 0) 4)))) (cV 1)) (cW (cA (cN 1) (cV 1)) 4)) (cA (cN 2) (cV 1))) (cH 0))))).
Definition SPSU2T_e471 := (cO (cD (cN 1) (cM (cA (cN 1) (cV 1)) (cR (cD (cM (cM (cA (cN 1) (cH 0)) (cA (cN 1) (cM (cN 2) (cH 0)))) (cA (cN 1) (cM (cN 2) (cV 1)))) (cA (cN 3) (cM (cN 2) (cV 1)))))))).
Definition SPSU2T_e472 := (cD (cN 1) (cM (cM (cR (cD (cM (cH 0) (cA (cN 1) (cM (cN 2) (cH 0)))) (cA (cA (cN (-1)) (cH 0)) (cM (cN 2) (cW (cH 0) 4))))) (cA (cN 1) (cV 1))) (cA (cN 1) (cM (cN 2) (cV 1))))).
Definition SPSU2T_e473 := (cM (cR (cA (cA (cN 3) (cM (cN 5) (cV 1))) (cM (cN 2) (cW (cV 1) 4)))) (cB (cA (cB (cA (cA (cM (cM (cN (-3)) (cB (cN 1) (cM (cN 2) (cH 0)))) (cR (cD (cM (cH 0) (cW (cV 1) 4)) (cM (cM (cM (cM (cA (cN 1) (cH 0)) (cA (cN (-1)) (cM (cN 4) (cW (cH 0) 4)))) (cW (cA (cN 1) (cV 1)) 6)) (cW (cA (cN 2) (cV 1)) 4)) (cA (cN 3) (cM (cN 2) (cV 1))))))) (cD (cA (cN (-1)) (cV 1)) (cR (cD (cM (cM (cM (cM (cM (cH 0) (cA (cN 1) (cH 0))) (cA (cN 1) (cM (cN 2) (cH 0)))) (cW (cA (cN 1) (cV 1)) 6)) (cW (cA (cN 2) (cV 1)) 4)) (cA (cN 3) (cM (cN 2) (cV 1)))) (cM (cA (cN (-1)) (cM (cN 2) (cH 0))) (cW (cA (cN 1) (cM (cN 2) (cV 1))) 4)))))) (cD (cM (cA (cN (-1)) (cM (cN 2) (cH 0))) (cA (cN (-1)) (cV 1))) (cR (cD (cM (cM (cM (cM (cA (cN 1) (cH 0)) (cA (cN (-1)) (cM (cN 4) (cW (cH 0) 4)))) (cW (cA (cN 1) (cV 1)) 6)) (cW (cA (cN 2) (cV 1)) 4)) (cA (cN 3) (cM (cN 2) (cV 1)))) (cM (cH 0) (cW (cA (cN 1) (cM (cN 2) (cV 1))) 4)))))) (cD (cM (cA (cN 1) (cM (cN 2) (cV 1))) (cR (cD (cA (cN (-1)) (cM (cN 2) (cH 0))) (cM (cA (cA (cH 0) (cM (cN 3) (cW (cH 0) 4))) (cM (cN 2) (cW (cH 0) 6))) (cA (cA (cN 3) (cM (cN 5) (cV 1))) (cM (cN 2) (cW (cV 1) 4))))))) (cA (cN 2) (cV 1)))) (cD (cM (cM (cN 3) (cV 1)) (cR (cD (cA (cN (-1)) (cM (cN 2) (cH 0))) (cM (cA (cA (cH 0) (cM (cN 3) (cW (cH 0) 4))) (cM (cN 2) (cW (cH 0) 6))) (cA (cA (cN 3) (cM (cN 5) (cV 1))) (cM (cN 2) (cW (cV 1) 4))))))) (cA (cA (cN 2) (cM (cN 3) (cV 1))) (cW (cV 1) 4)))) (cD (cM (cM (cH 0) (cA (cN (-1)) (cM (cN 2) (cH 0)))) (cA (cN 1) (cM (cN 2) (cV 1)))) (cM (cA (cN 2) (cV 1)) (cR (cM (cM (cH 0) (cA (cA (cB (cN (-1)) (cH 0)) (cM (cN 4) (cW (cH 0) 4))) (cM (cN 4) (cW (cH 0) 6)))) (cA (cA (cN 3) (cM (cN 5) (cV 1))) (cM (cN 2) (cW (cV 1) 4))))))))).
Definition SPSU2T_e474 := (cD (cN 1) (cR (cD (cM (cH 0) (cA (cN 1) (cM (cN 2) (cH 0)))) (cA (cA (cN (-1)) (cH 0)) (cM (cN 2) (cW (cH 0) 4)))))).
Definition SPSU2T_e475 := (cD (cB (cA (cM (cM (cN 2) (cW (cV 1) 4)) (cR (cD (cM (cA (cN 1) (cH 0)) (cA (cN 1) (cV 1))) (cA (cN 1) (cM (cN 2) (cV 1)))))) (cR (cM (cA (cN 1) (cH 0)) (cA (cA (cN 1) (cM (cN 3) (cV 1))) (cM (cN 2) (cW (cV 1) 4)))))) (cM (cV 1) (cA (cR (cD (cM (cA (cN 1) (cH 0)) (cA (cN 1) (cV 1))) (cA (cN 1) (cM (cN 2) (cV 1))))) (cR (cM (cA (cN 1) (cH 0)) (cA (cA (cN 1) (cM (cN 3) (cV 1))) (cM (cN 2) (cW (cV 1) 4)))))))) (cM (cM (cA (cN 1) (cH 0)) (cA (cN 1) (cV 1))) (cR (cM (cM (cA (cN 1) (cM (cN 2) (cH 0))) (cA (cN 1) (cV 1))) (cA (cN 1) (cM (cN 2) (cV 1))))))).
Definition SPSU2T_e476 := (cO (cD (cA (cA (cB (cB (cR (cD (cM (cA (cN 1) (cH 0)) (cA (cN 2) (cV 1))) (cA (cN 1) (cV 1)))) (cM (cM (cN 2) (cV 1)) (cR (cD (cM (cA (cN 1) (cH 0)) (cA (cN 2) (cV 1))) (cA (cN 1) (cV 1)))))) (cM (cM (cN 2) (cW (cV 1) 4)) (cR (cD (cM (cA (cN 1) (cH 0)) (cA (cN 2) (cV 1))) (cA (cN 1) (cV 1)))))) (cR (cM (cA (cN 1) (cH 0)) (cA (cA (cN 2) (cM (cN 3) (cV 1))) (cW (cV 1) 4))))) (cM (cM (cN 2) (cV 1)) (cR (cM (cA (cN 1) (cH 0)) (cA (cA (cN 2) (cM (cN 3) (cV 1))) (cW (cV 1) 4)))))) (cM (cM (cA (cN 1) (cH 0)) (cA (cN 2) (cV 1))) (cR (cM (cM (cA (cN 1) (cM (cN 2) (cH 0))) (cA (cN 1) (cV 1))) (cA (cN 2) (cV 1))))))).
Definition SPSU2T_e477 := (cO (cD (cM (cW (cH 0) 4) (cA (cN 3) (cM (cN 2) (cH 0)))) (cM (cA (cN 1) (cV 1)) (cR (cD (cM (cM (cM (cW (cH 0) 6) (cA (cN 1) (cM (cN 2) (cH 0)))) (cA (cA (cN 3) (cM (cN 5) (cH 0))) (cM (cN 2) (cW (cH 0) 4)))) (cA (cN 1) (cM (cN 2) (cV 1)))) (cA (cN 3) (cM (cN 2) (cV 1)))))))).
Definition SPSU2T_e478 := (cD (cM (cA (cN 3) (cM (cN 2) (cH 0))) (cA (cA (cM (cN 2) (cR (cM (cH 0) (cV 1)))) (cR (cM (cH 0) (cW (cV 1) 6)))) (cM (cM (cH 0) (cR (cM (cH 0) (cV 1)))) (cA (cN 2) (cV 1))))) (cM (cM (cA (cN 1) (cH 0)) (cA (cN 1) (cV 1))) (cR (cM (cM (cA (cN 1) (cH 0)) (cA (cA (cN 3) (cM (cN 8) (cH 0))) (cM (cN 4) (cW (cH 0) 4)))) (cA (cN 2) (cV 1)))))).
Definition SPSU2T_e479 := (cD (cA (cN 3) (cM (cN 2) (cH 0))) (cR (cD (cM (cM (cA (cN 1) (cH 0)) (cA (cA (cN 3) (cM (cN 8) (cH 0))) (cM (cN 4) (cW (cH 0) 4)))) (cW (cA (cA (cN 1) (cM (cN 3) (cV 1))) (cM (cN 2) (cW (cV 1) 4))) 4)) (cH 0)))).
Definition SPSU2T_e480 := (cO (cD (cM (cA (cN 3) (cM (cN 2) (cH 0))) (cR (cD (cH 0) (cA (cA (cA (cN 3) (cM (cN 11) (cH 0))) (cM (cN 12) (cW (cH 0) 4))) (cM (cN 4) (cW (cH 0) 6)))))) (cA (cN 1) (cV 1)))).
Definition SPSU2T_e481 := (cD (cM (cH 0) (cA (cN 3) (cM (cN 2) (cH 0)))) (cR (cM (cM (cH 0) (cA (cN 1) (cH 0))) (cA (cA (cN 3) (cM (cN 8) (cH 0))) (cM (cN 4) (cW (cH 0) 4)))))).
Definition SPSU2T_e482 := (cD (cR (cD (cM (cA (cN 1) (cM (cN 2) (cH 0))) (cA (cN 1) (cM (cN 2) (cV 1)))) (cM (cA (cN 1) (cH 0)) (cA (cN 3) (cM (cN 2) (cV 1)))))) (cR (cN 6))).
Definition SPSU2T_e483 := (cO (cD (cR (cD (cM (cA (cN 1) (cM (cN 2) (cH 0))) (cA (cN 1) (cM (cN 2) (cV 1)))) (cM (cA (cN 1) (cH 0)) (cA (cN 3) (cM (cN 2) (cV 1)))))) (cR (cN 3)))).
Definition SPSU2T_e484 := (cO (cD (cR (cD (cM (cA (cN 1) (cM (cN 2) (cH 0))) (cA (cN 1) (cM (cN 2) (cV 1)))) (cM (cA (cN 1) (cH 0)) (cA (cN 3) (cM (cN 2) (cV 1)))))) (cR (cN 2)))).
Definition SPSU2T_e485 := (cD (cR (cD (cA (cN 1) (cM (cN 2) (cH 0))) (cA (cN 1) (cH 0)))) (cR (cN 2))).
Definition SPSU2T_e486 := (cD (cA (cN 2) (cV 1)) (cM (cN 2) (cR (cD (cM (cA (cN 1) (cH 0)) (cA (cA (cN 2) (cM (cN 3) (cV 1))) (cW (cV 1) 4))) (cA (cN 1) (cM (cN 2) (cH 0))))))).
Definition SPSU2T_e487 := (cD (cA (cA (cN 10) (cM (cN 9) (cV 1))) (cM (cN 2) (cW (cV 1) 4))) (cM (cM (cN 2) (cR (cN 3))) (cR (cD (cM (cM (cA (cN 1) (cH 0)) (cA (cN 3) (cM (cN 2) (cV 1)))) (cA (cA (cA (cN 10) (cM (cN 19) (cV 1))) (cM (cN 11) (cW (cV 1) 4))) (cM (cN 2) (cW (cV 1) 6)))) (cA (cN 1) (cM (cN 2) (cH 0))))))).
Definition SPSU2T_e488 := (cM (cQ (-1) 2) (cR (cD (cA (cN 1) (cM (cN 2) (cH 0))) (cA (cN 1) (cH 0))))).
Definition SPSU2T_e489 := (cM (cQ (-1) 2) (cM (cA (cN (-1)) (cV 1)) (cR (cD (cA (cN 1) (cM (cN 2) (cH 0))) (cM (cA (cN 1) (cH 0)) (cA (cN (-1)) (cW (cV 1) 4))))))).
Definition SPSU2T_e490 := (cM (cQ (-1) 4) (cM (cA (cN 2) (cV 1)) (cR (cD (cA (cN 2) (cM (cN 4) (cH 0))) (cM (cA (cN 1) (cH 0)) (cA (cA (cN 2) (cM (cN 3) (cV 1))) (cW (cV 1) 4))))))).
Definition SPSU2T_e491 := (cD (cM (cQ (-1) 2) (cM (cM (cR (cQ 3 2)) (cA (cN 2) (cV 1))) (cA (cN (-1)) (cM (cN 2) (cV 1))))) (cR (cD (cM (cA (cN 1) (cH 0)) (cA (cA (cA (cB (cN (-6)) (cV 1)) (cM (cN 17) (cW (cV 1) 4))) (cM (cN 16) (cW (cV 1) 6))) (cM (cN 4) (cW (cV 1) 8)))) (cA (cN 1) (cM (cN 2) (cH 0)))))).
Definition SPSU2T_e492 := (cD (cM (cQ (-1) 2) (cA (cA (cN 10) (cM (cN 9) (cV 1))) (cM (cN 2) (cW (cV 1) 4)))) (cM (cR (cN 6)) (cR (cD (cM (cM (cA (cN 1) (cH 0)) (cA (cN 3) (cM (cN 2) (cV 1)))) (cA (cA (cA (cN 10) (cM (cN 19) (cV 1))) (cM (cN 11) (cW (cV 1) 4))) (cM (cN 2) (cW (cV 1) 6)))) (cA (cN 1) (cM (cN 2) (cH 0))))))).
Definition SPSU2T_e493 := (cD (cM (cQ (-1) 2) (cM (cM (cR (cA (cQ 3 2) (cM (cN 3) (cH 0)))) (cV 1)) (cA (cN 5) (cM (cN 2) (cV 1))))) (cR (cM (cM (cA (cN 1) (cH 0)) (cV 1)) (cA (cA (cA (cN 15) (cM (cN 31) (cV 1))) (cM (cN 20) (cW (cV 1) 4))) (cM (cN 4) (cW (cV 1) 6)))))).
Definition SPSU2T_e494 := (cO (cD (cA (cA (cA (cA (cM (cN 5) (cR (cD (cM (cA (cN 1) (cM (cN 2) (cH 0))) (cA (cA (cN 3) (cM (cN 8) (cV 1))) (cM (cN 4) (cW (cV 1) 4)))) (cM (cA (cN 1) (cH 0)) (cA (cA (cN 3) (cM (cN 4) (cV 1))) (cW (cV 1) 4)))))) (cM (cM (cN 6) (cV 1)) (cR (cD (cM (cA (cN 1) (cM (cN 2) (cH 0))) (cA (cA (cN 3) (cM (cN 8) (cV 1))) (cM (cN 4) (cW (cV 1) 4)))) (cM (cA (cN 1) (cH 0)) (cA (cA (cN 3) (cM (cN 4) (cV 1))) (cW (cV 1) 4))))))) (cM (cW (cV 1) 4) (cR (cD (cM (cA (cN 1) (cM (cN 2) (cH 0))) (cA (cA (cN 3) (cM (cN 8) (cV 1))) (cM (cN 4) (cW (cV 1) 4)))) (cM (cA (cN 1) (cH 0)) (cA (cA (cN 3) (cM (cN 4) (cV 1))) (cW (cV 1) 4))))))) (cM (cN 15) (cR (cD (cM (cA (cN 1) (cM (cN 2) (cH 0))) (cA (cN 1) (cM (cN 2) (cV 1)))) (cM (cA (cN 1) (cH 0)) (cA (cA (cA (cN 9) (cM (cN 18) (cV 1))) (cM (cN 11) (cW (cV 1) 4))) (cM (cN 2) (cW (cV 1) 6)))))))) (cM (cM (cN 9) (cV 1)) (cR (cD (cM (cA (cN 1) (cM (cN 2) (cH 0))) (cA (cN 1) (cM (cN 2) (cV 1)))) (cM (cA (cN 1) (cH 0)) (cA (cA (cA (cN 9) (cM (cN 18) (cV 1))) (cM (cN 11) (cW (cV 1) 4))) (cM (cN 2) (cW (cV 1) 6)))))))) (cA (cA (cN 20) (cM (cN 18) (cV 1))) (cM (cN 4) (cW (cV 1) 4))))).
Definition SPSU2T_e495 := (cD (cM (cV 1) (cA (cN (-1)) (cM (cN 2) (cV 1)))) (cM (cM (cN 2) (cR (cN 3))) (cR (cM (cV 1) (cA (cA (cA (cN (-3)) (cV 1)) (cM (cN 8) (cW (cV 1) 4))) (cM (cN 4) (cW (cV 1) 6))))))).
Definition SPSU2T_e496 := (cD (cM (cV 1) (cR (cD (cH 0) (cM (cA (cN 1) (cH 0)) (cA (cV 1) (cW (cV 1) 4)))))) (cN 2)).
Definition SPSU2T_e497 := (cD (cR (cD (cM (cV 1) (cA (cN 1) (cM (cN 2) (cV 1)))) (cA (cA (cN 3) (cM (cN 5) (cV 1))) (cM (cN 2) (cW (cV 1) 4))))) (cN 2)).
Definition SPSU2T_e498 := (cD (cM (cM (cH 0) (cA (cN 2) (cV 1))) (cR (cD (cA (cN 1) (cM (cN 2) (cV 1))) (cM (cM (cH 0) (cA (cN 1) (cH 0))) (cA (cA (cA (cN 6) (cM (cN 13) (cV 1))) (cM (cN 9) (cW (cV 1) 4))) (cM (cN 2) (cW (cV 1) 6))))))) (cN 2)).
Definition SPSU2T_e499 := (cR (cD (cA (cN 1) (cM (cN 2) (cV 1))) (cA (cN 6) (cM (cN 4) (cV 1))))).
Definition SPSU2T_e500 := (cD (cM (cV 1) (cA (cR (cD (cA (cN 1) (cM (cN 2) (cH 0))) (cM (cA (cN 1) (cH 0)) (cA (cV 1) (cW (cV 1) 4))))) (cM (cN 2) (cR (cD (cA (cA (cN 1) (cM (cN 3) (cH 0))) (cM (cN 2) (cW (cH 0) 4))) (cA (cV 1) (cW (cV 1) 4))))))) (cA (cN 6) (cM (cN 4) (cH 0)))).
Definition SPSU2T_e501 := (cD (cR (cD (cM (cM (cA (cN 1) (cM (cN 2) (cH 0))) (cA (cN 2) (cV 1))) (cA (cN 1) (cM (cN 2) (cV 1)))) (cM (cA (cN 1) (cH 0)) (cA (cA (cN 3) (cM (cN 5) (cV 1))) (cM (cN 2) (cW (cV 1) 4)))))) (cN 2)).
Definition SPSU2T_e502 := (cO (cD (cN 1) (cR (cN 3)))).
Definition SPSU2T_e503 := (cD (cM (cV 1) (cA (cN (-1)) (cM (cN 2) (cV 1)))) (cM (cR (cN 6)) (cR (cM (cV 1) (cA (cA (cA (cN (-3)) (cV 1)) (cM (cN 8) (cW (cV 1) 4))) (cM (cN 4) (cW (cV 1) 6))))))).
Definition SPSU2T_e504 := (cO (cD (cV 1) (cM (cR (cN 2)) (cR (cD (cM (cM (cA (cN 1) (cH 0)) (cV 1)) (cA (cN 1) (cV 1))) (cH 0)))))).
Definition SPSU2T_e505 := (cR (cD (cM (cV 1) (cA (cN 1) (cM (cN 2) (cV 1)))) (cA (cA (cN 6) (cM (cN 10) (cV 1))) (cM (cN 4) (cW (cV 1) 4))))).
Definition SPSU2T_e506 := (cM (cQ (-1) 2) (cM (cM (cH 0) (cA (cN 2) (cV 1))) (cR (cD (cA (cN 2) (cM (cN 4) (cV 1))) (cM (cM (cH 0) (cA (cN 1) (cH 0))) (cA (cA (cA (cN 6) (cM (cN 13) (cV 1))) (cM (cN 9) (cW (cV 1) 4))) (cM (cN 2) (cW (cV 1) 6)))))))).
Definition SPSU2T_e507 := (cR (cD (cA (cN 1) (cM (cN 2) (cV 1))) (cA (cN 3) (cM (cN 2) (cV 1))))).
Definition SPSU2T_e508 := (cO (cD (cM (cV 1) (cA (cR (cD (cA (cN 1) (cM (cN 2) (cH 0))) (cM (cA (cN 1) (cH 0)) (cA (cV 1) (cW (cV 1) 4))))) (cM (cN 2) (cR (cD (cA (cA (cN 1) (cM (cN 3) (cH 0))) (cM (cN 2) (cW (cH 0) 4))) (cA (cV 1) (cW (cV 1) 4))))))) (cM (cR (cN 2)) (cA (cN 3) (cM (cN 2) (cH 0)))))).
Definition SPSU2T_e509 := (cO (cD (cR (cD (cM (cA (cN 1) (cM (cN 2) (cH 0))) (cA (cA (cN 2) (cM (cN 5) (cV 1))) (cM (cN 2) (cW (cV 1) 4)))) (cM (cA (cN 1) (cH 0)) (cA (cA (cN 3) (cM (cN 5) (cV 1))) (cM (cN 2) (cW (cV 1) 4)))))) (cR (cN 2)))).
Definition SPSU2T_e510 := (cD (cA (cN (-1)) (cV 1)) (cM (cR (cN 2)) (cR (cA (cN (-1)) (cW (cV 1) 4))))).
Definition SPSU2T_e511 := (cO (cD (cH 0) (cM (cR (cN 2)) (cR (cM (cH 0) (cA (cN 1) (cH 0))))))).
Definition SPSU2T_e512 := (cD (cM (cM (cR (cN 3)) (cA (cN (-1)) (cM (cN 2) (cV 1)))) (cA (cM (cN 2) (cR (cD (cV 1) (cA (cA (cN 6) (cM (cN 7) (cV 1))) (cM (cN 2) (cW (cV 1) 4)))))) (cR (cD (cW (cV 1) 6) (cA (cA (cN 6) (cM (cN 7) (cV 1))) (cM (cN 2) (cW (cV 1) 4))))))) (cM (cN 2) (cR (cM (cV 1) (cA (cA (cN (-1)) (cV 1)) (cM (cN 2) (cW (cV 1) 4))))))).
Definition SPSU2T_e513 := (cM (cQ (-1) 2) (cM (cA (cN 2) (cV 1)) (cR (cD (cH 0) (cM (cA (cN 1) (cH 0)) (cA (cA (cN 2) (cM (cN 3) (cV 1))) (cW (cV 1) 4))))))).
Definition SPSU2T_e514 := (cD (cM (cM (cR (cN 3)) (cV 1)) (cA (cA (cM (cN 10) (cR (cD (cM (cA (cN 1) (cM (cN 2) (cH 0))) (cA (cN 1) (cM (cN 2) (cV 1)))) (cM (cV 1) (cA (cA (cN 6) (cM (cN 7) (cV 1))) (cM (cN 2) (cW (cV 1) 4))))))) (cM (cN 9) (cR (cD (cM (cM (cA (cN 1) (cM (cN 2) (cH 0))) (cV 1)) (cA (cN 1) (cM (cN 2) (cV 1)))) (cA (cA (cN 6) (cM (cN 7) (cV 1))) (cM (cN 2) (cW (cV 1) 4))))))) (cM (cN 2) (cR (cD (cM (cM (cA (cN 1) (cM (cN 2) (cH 0))) (cW (cV 1) 6)) (cA (cN 1) (cM (cN 2) (cV 1)))) (cA (cA (cN 6) (cM (cN 7) (cV 1))) (cM (cN 2) (cW (cV 1) 4)))))))) (cM (cN 2) (cR (cM (cA (cN 1) (cM (cN 2) (cH 0))) (cA (cA (cA (cA (cN 10) (cM (cN 39) (cV 1))) (cM (cN 49) (cW (cV 1) 4))) (cM (cN 24) (cW (cV 1) 6))) (cM (cN 4) (cW (cV 1) 8))))))).
Definition SPSU2T_e515 := (cD (cM (cQ (-1) 2) (cM (cH 0) (cA (cA (cN 10) (cM (cN 9) (cV 1))) (cM (cN 2) (cW (cV 1) 4))))) (cM (cR (cN 3)) (cR (cM (cM (cM (cH 0) (cA (cN 1) (cH 0))) (cA (cN 3) (cM (cN 2) (cV 1)))) (cA (cA (cA (cN 10) (cM (cN 19) (cV 1))) (cM (cN 11) (cW (cV 1) 4))) (cM (cN 2) (cW (cV 1) 6))))))).
Definition SPSU2T_e516 := (cD (cA (cA (cA (cA (cA (cR (cD (cM (cM (cM (cA (cN 1) (cM (cN 2) (cH 0))) (cA (cN 2) (cV 1))) (cA (cN 1) (cM (cN 2) (cV 1)))) (cA (cN 3) (cM (cN 2) (cV 1)))) (cA (cN 5) (cM (cN 2) (cV 1))))) (cM (cV 1) (cR (cD (cM (cM (cM (cA (cN 1) (cM (cN 2) (cH 0))) (cA (cN 2) (cV 1))) (cA (cN 1) (cM (cN 2) (cV 1)))) (cA (cN 3) (cM (cN 2) (cV 1)))) (cA (cN 5) (cM (cN 2) (cV 1))))))) (cM (cN 3) (cR (cD (cM (cA (cN 1) (cM (cN 2) (cH 0))) (cA (cA (cN 3) (cM (cN 8) (cV 1))) (cM (cN 4) (cW (cV 1) 4)))) (cA (cA (cN 10) (cM (cN 9) (cV 1))) (cM (cN 2) (cW (cV 1) 4))))))) (cM (cM (cN 3) (cV 1)) (cR (cD (cM (cA (cN 1) (cM (cN 2) (cH 0))) (cA (cA (cN 3) (cM (cN 8) (cV 1))) (cM (cN 4) (cW (cV 1) 4)))) (cA (cA (cN 10) (cM (cN 9) (cV 1))) (cM (cN 2) (cW (cV 1) 4))))))) (cM (cN 15) (cR (cD (cM (cA (cN 1) (cM (cN 2) (cH 0))) (cA (cN 1) (cM (cN 2) (cV 1)))) (cA (cA (cA (cN 30) (cM (cN 47) (cV 1))) (cM (cN 24) (cW (cV 1) 4))) (cM (cN 4) (cW (cV 1) 6))))))) (cM (cM (cN 9) (cV 1)) (cR (cD (cM (cA (cN 1) (cM (cN 2) (cH 0))) (cA (cN 1) (cM (cN 2) (cV 1)))) (cA (cA (cA (cN 30) (cM (cN 47) (cV 1))) (cM (cN 24) (cW (cV 1) 4))) (cM (cN 4) (cW (cV 1) 6))))))) (cM (cR (cN 2)) (cR (cM (cA (cN 1) (cM (cN 2) (cH 0))) (cA (cA (cA (cA (cN 30) (cM (cN 67) (cV 1))) (cM (cN 52) (cW (cV 1) 4))) (cM (cN 17) (cW (cV 1) 6))) (cM (cN 2) (cW (cV 1) 8))))))).
Definition SPSU2T_e517 := (cO (cD (cA (cR (cD (cA (cN 1) (cM (cN 2) (cH 0))) (cA (cN 1) (cH 0)))) (cM (cN 2) (cR (cA (cA (cN 1) (cM (cN 3) (cH 0))) (cM (cN 2) (cW (cH 0) 4)))))) (cM (cR (cN 2)) (cA (cN 3) (cM (cN 2) (cH 0)))))).
Definition SPSU2T_e518 := (cO (cD (cM (cA (cN 2) (cV 1)) (cA (cR (cD (cA (cN 1) (cM (cN 2) (cH 0))) (cM (cA (cN 1) (cH 0)) (cA (cA (cN 2) (cM (cN 3) (cV 1))) (cW (cV 1) 4))))) (cM (cN 2) (cR (cD (cA (cA (cN 1) (cM (cN 3) (cH 0))) (cM (cN 2) (cW (cH 0) 4))) (cA (cA (cN 2) (cM (cN 3) (cV 1))) (cW (cV 1) 4))))))) (cA (cN 6) (cM (cN 4) (cH 0))))).
Definition SPSU2T_e519 := (cD (cM (cQ (-1) 2) (cM (cA (cA (cN 10) (cM (cN 9) (cV 1))) (cM (cN 2) (cW (cV 1) 4))) (cA (cR (cD (cA (cN 1) (cM (cN 2) (cH 0))) (cM (cA (cN 1) (cH 0)) (cA (cA (cA (cA (cN 30) (cM (cN 77) (cV 1))) (cM (cN 71) (cW (cV 1) 4))) (cM (cN 28) (cW (cV 1) 6))) (cM (cN 4) (cW (cV 1) 8)))))) (cM (cN 2) (cR (cD (cA (cA (cN 1) (cM (cN 3) (cH 0))) (cM (cN 2) (cW (cH 0) 4))) (cA (cA (cA (cA (cN 30) (cM (cN 77) (cV 1))) (cM (cN 71) (cW (cV 1) 4))) (cM (cN 28) (cW (cV 1) 6))) (cM (cN 4) (cW (cV 1) 8))))))))) (cM (cR (cN 3)) (cA (cN 3) (cM (cN 2) (cH 0))))).
Definition SPSU2T_e520 := (cR (cD (cV 1) (cA (cN 1) (cV 1)))).
Definition SPSU2T_e521 := (cM (cA (cN 2) (cV 1)) (cR (cD (cA (cN 1) (cM (cN 2) (cV 1))) (cA (cA (cA (cN 6) (cM (cN 13) (cV 1))) (cM (cN 9) (cW (cV 1) 4))) (cM (cN 2) (cW (cV 1) 6)))))).
Definition SPSU2T_e522 := (cD (cA (cN 3) (cM (cN 2) (cH 0))) (cM (cN 2) (cR (cD (cM (cA (cA (cN 3) (cM (cN 5) (cH 0))) (cM (cN 2) (cW (cH 0) 4))) (cA (cN 1) (cV 1))) (cV 1))))).
Definition SPSU2T_e523 := (cD (cM (cM (cA (cN 3) (cM (cN 2) (cH 0))) (cA (cN 2) (cV 1))) (cR (cD (cA (cN 1) (cM (cN 2) (cV 1))) (cM (cA (cA (cN 3) (cM (cN 5) (cH 0))) (cM (cN 2) (cW (cH 0) 4))) (cA (cA (cA (cN 6) (cM (cN 13) (cV 1))) (cM (cN 9) (cW (cV 1) 4))) (cM (cN 2) (cW (cV 1) 6))))))) (cN 2)).
Definition SPSU2T_e524 := (cD (cN 1) (cR (cA (cN 2) (cD (cN 2) (cV 1))))).
Definition SPSU2T_e525 := (cD (cB (cV 1) (cM (cN 2) (cW (cV 1) 4))) (cM (cR (cN 6)) (cR (cM (cV 1) (cA (cA (cA (cN (-3)) (cV 1)) (cM (cN 8) (cW (cV 1) 4))) (cM (cN 4) (cW (cV 1) 6))))))).
Definition SPSU2T_e526 := (cD (cB (cN 1) (cM (cN 2) (cH 0))) (cM (cR (cN 6)) (cR (cA (cA (cN (-1)) (cH 0)) (cM (cN 2) (cW (cH 0) 4)))))).
Definition SPSU2T_e527 := (cD (cM (cA (cN 2) (cV 1)) (cR (cD (cA (cN 1) (cM (cN 2) (cV 1))) (cA (cA (cA (cN 6) (cM (cN 13) (cV 1))) (cM (cN 9) (cW (cV 1) 4))) (cM (cN 2) (cW (cV 1) 6)))))) (cR (cN 2))).
Definition SPSU2T_e528 := (cO (cR (cD (cM (cV 1) (cA (cN 1) (cM (cN 2) (cV 1)))) (cA (cA (cN 6) (cM (cN 10) (cV 1))) (cM (cN 4) (cW (cV 1) 4)))))).
Definition SPSU2T_e529 := (cO (cR (cD (cA (cN 1) (cM (cN 2) (cV 1))) (cA (cN 3) (cM (cN 2) (cV 1)))))).
Definition SPSU2T_e530 := (cD (cA (cN 3) (cM (cN 2) (cH 0))) (cM (cM (cN 2) (cR (cN 2))) (cR (cD (cM (cA (cA (cN 3) (cM (cN 5) (cH 0))) (cM (cN 2) (cW (cH 0) 4))) (cA (cN 1) (cV 1))) (cV 1))))).
Definition SPSU2T_e531 := (cD (cM (cQ (-1) 2) (cM (cM (cA (cN 3) (cM (cN 2) (cH 0))) (cV 1)) (cA (cN (-1)) (cM (cN 2) (cV 1))))) (cM (cR (cN 6)) (cR (cM (cM (cA (cA (cN 3) (cM (cN 5) (cH 0))) (cM (cN 2) (cW (cH 0) 4))) (cV 1)) (cA (cA (cA (cN (-3)) (cV 1)) (cM (cN 8) (cW (cV 1) 4))) (cM (cN 4) (cW (cV 1) 6))))))).
Definition SPSU2T_e532 := (cO (cD (cM (cR (cQ 2 3)) (cH 0)) (cR (cM (cH 0) (cA (cN 1) (cH 0)))))).
Definition SPSU2T_e533 := (cD (cM (cA (cN 3) (cM (cN 2) (cH 0))) (cA (cN 2) (cV 1))) (cM (cM (cN 2) (cR (cN 2))) (cR (cD (cM (cM (cM (cA (cN 1) (cH 0)) (cA (cN 3) (cM (cN 2) (cH 0)))) (cA (cN 3) (cM (cN 2) (cV 1)))) (cA (cA (cN 2) (cM (cN 3) (cV 1))) (cW (cV 1) 4))) (cA (cN 1) (cM (cN 2) (cV 1))))))).
Definition SPSU2T_e534 := (cD (cM (cQ (-1) 2) (cM (cM (cA (cN 3) (cM (cN 2) (cH 0))) (cV 1)) (cA (cN 2) (cV 1)))) (cM (cR (cN 2)) (cR (cD (cM (cM (cM (cM (cM (cA (cN 1) (cH 0)) (cA (cN 3) (cM (cN 2) (cH 0)))) (cV 1)) (cA (cN 1) (cV 1))) (cW (cA (cN 2) (cV 1)) 4)) (cA (cN 3) (cM (cN 2) (cV 1)))) (cA (cN 1) (cM (cN 2) (cV 1))))))).
Definition SPSU2T_e535 := (cD (cM (cQ (-1) 2) (cA (cA (cA (cA (cA (cM (cN 3) (cR (cD (cA (cN 1) (cM (cN 2) (cV 1))) (cM (cA (cA (cN 3) (cM (cN 5) (cH 0))) (cM (cN 2) (cW (cH 0) 4))) (cA (cN 3) (cM (cN 2) (cV 1))))))) (cM (cM (cN 2) (cV 1)) (cR (cD (cA (cN 1) (cM (cN 2) (cV 1))) (cM (cA (cA (cN 3) (cM (cN 5) (cH 0))) (cM (cN 2) (cW (cH 0) 4))) (cA (cN 3) (cM (cN 2) (cV 1)))))))) (cM (cN 29) (cR (cD (cA (cA (cN 3) (cM (cN 8) (cV 1))) (cM (cN 4) (cW (cV 1) 4))) (cA (cA (cN 3) (cM (cN 5) (cH 0))) (cM (cN 2) (cW (cH 0) 4))))))) (cM (cM (cN 27) (cV 1)) (cR (cD (cA (cA (cN 3) (cM (cN 8) (cV 1))) (cM (cN 4) (cW (cV 1) 4))) (cA (cA (cN 3) (cM (cN 5) (cH 0))) (cM (cN 2) (cW (cH 0) 4))))))) (cM (cM (cN 6) (cW (cV 1) 4)) (cR (cD (cA (cA (cN 3) (cM (cN 8) (cV 1))) (cM (cN 4) (cW (cV 1) 4))) (cA (cA (cN 3) (cM (cN 5) (cH 0))) (cM (cN 2) (cW (cH 0) 4))))))) (cM (cM (cM (cN 2) (cH 0)) (cA (cN 3) (cM (cN 2) (cV 1)))) (cA (cA (cR (cD (cA (cN 1) (cM (cN 2) (cV 1))) (cM (cA (cA (cN 3) (cM (cN 5) (cH 0))) (cM (cN 2) (cW (cH 0) 4))) (cA (cN 3) (cM (cN 2) (cV 1)))))) (cM (cN 3) (cR (cD (cA (cA (cN 3) (cM (cN 8) (cV 1))) (cM (cN 4) (cW (cV 1) 4))) (cA (cA (cN 3) (cM (cN 5) (cH 0))) (cM (cN 2) (cW (cH 0) 4))))))) (cM (cV 1) (cR (cD (cA (cA (cN 3) (cM (cN 8) (cV 1))) (cM (cN 4) (cW (cV 1) 4))) (cA (cA (cN 3) (cM (cN 5) (cH 0))) (cM (cN 2) (cW (cH 0) 4)))))))))) (cM (cM (cA (cN 2) (cV 1)) (cA (cN 3) (cM (cN 2) (cV 1)))) (cA (cN 5) (cM (cN 2) (cV 1))))).
Definition SPSU2T_e536 := (cO (cD (cA (cA (cR (cD (cA (cN 1) (cM (cN 2) (cH 0))) (cA (cN 1) (cH 0)))) (cM (cN 5) (cR (cA (cA (cN 1) (cM (cN 3) (cH 0))) (cM (cN 2) (cW (cH 0) 4)))))) (cM (cM (cN 2) (cH 0)) (cR (cA (cA (cN 1) (cM (cN 3) (cH 0))) (cM (cN 2) (cW (cH 0) 4)))))) (cM (cR (cN 2)) (cA (cA (cN 6) (cM (cN 7) (cH 0))) (cM (cN 2) (cW (cH 0) 4)))))).
Definition SPSU2T_e537 := (cD (cM (cA (cN 3) (cM (cN 2) (cH 0))) (cR (cD (cA (cN 3) (cM (cN 6) (cV 1))) (cM (cA (cA (cN 3) (cM (cN 5) (cH 0))) (cM (cN 2) (cW (cH 0) 4))) (cA (cN 3) (cM (cN 2) (cV 1))))))) (cN 3)).
Definition SPSU2T_e538 := (cD (cA (cA (cR (cD (cM (cA (cN 1) (cH 0)) (cA (cN 1) (cM (cN 2) (cV 1)))) (cA (cN 2) (cH 0)))) (cM (cN 5) (cR (cD (cA (cN 1) (cM (cN 2) (cV 1))) (cA (cA (cN 2) (cM (cN 3) (cH 0))) (cW (cH 0) 4)))))) (cM (cM (cN 2) (cH 0)) (cA (cR (cD (cM (cA (cN 1) (cH 0)) (cA (cN 1) (cM (cN 2) (cV 1)))) (cA (cN 2) (cH 0)))) (cM (cN 2) (cR (cD (cA (cN 1) (cM (cN 2) (cV 1))) (cA (cA (cN 2) (cM (cN 3) (cH 0))) (cW (cH 0) 4)))))))) (cM (cA (cN 3) (cM (cN 2) (cH 0))) (cR (cA (cN 9) (cM (cN 6) (cV 1)))))).
Definition SPSU2T_e539 := (cO (cD (cR (cD (cA (cN 1) (cM (cN 2) (cH 0))) (cA (cN 1) (cH 0)))) (cR (cN 6)))).
Definition SPSU2T_e540 := (cD (cR (cD (cA (cN 1) (cM (cN 2) (cH 0))) (cA (cN 1) (cH 0)))) (cR (cN 3))).
Definition SPSU2T_e541 := (cD (cA (cN (-1)) (cV 1)) (cM (cN 2) (cR (cD (cM (cM (cA (cN 1) (cH 0)) (cA (cN (-1)) (cV 1))) (cV 1)) (cA (cN 1) (cM (cN 2) (cH 0))))))).
Definition SPSU2T_e542 := (cD (cM (cA (cN (-1)) (cM (cN 2) (cV 1))) (cA (cM (cN 3) (cR (cD (cA (cV 1) (cM (cM (cN 2) (cH 0)) (cV 1))) (cA (cA (cA (cN 1) (cH 0)) (cV 1)) (cM (cH 0) (cV 1)))))) (cM (cM (cN 2) (cW (cV 1) 4)) (cR (cD (cA (cN 1) (cM (cN 2) (cH 0))) (cM (cA (cN 1) (cH 0)) (cA (cV 1) (cW (cV 1) 4)))))))) (cM (cM (cM (cN 2) (cR (cN 3))) (cV 1)) (cR (cA (cA (cN (-3)) (cM (cN 4) (cV 1))) (cM (cN 4) (cW (cV 1) 4)))))).
Definition SPSU2T_e543 := (cD (cR (cD (cA (cA (cA (cN 2) (cM (cN 4) (cH 0))) (cV 1)) (cM (cM (cN 2) (cH 0)) (cV 1))) (cA (cA (cA (cN 1) (cH 0)) (cV 1)) (cM (cH 0) (cV 1))))) (cN 2)).
Definition SPSU2T_e544 := (cD (cR (cD (cM (cA (cN 1) (cM (cN 2) (cH 0))) (cA (cN 1) (cV 1))) (cM (cA (cN 1) (cH 0)) (cV 1)))) (cR (cN 2))).
Definition SPSU2T_e545 := (cD (cM (cQ (-1) 2) (cA (cN (-1)) (cV 1))) (cM (cR (cN 2)) (cR (cD (cM (cM (cA (cN 1) (cH 0)) (cA (cN (-1)) (cV 1))) (cV 1)) (cA (cN 1) (cM (cN 2) (cH 0))))))).
Definition SPSU2T_e546 := (cD (cA (cN 3) (cV 1)) (cM (cM (cN 2) (cR (cN 2))) (cR (cD (cM (cM (cA (cN 1) (cH 0)) (cV 1)) (cA (cN 1) (cV 1))) (cA (cN 1) (cM (cN 2) (cH 0))))))).
Definition SPSU2T_e547 := (cD (cM (cQ (-1) 2) (cM (cA (cN (-1)) (cM (cN 2) (cV 1))) (cA (cM (cN 3) (cR (cD (cA (cV 1) (cM (cM (cN 2) (cH 0)) (cV 1))) (cA (cA (cA (cN 1) (cH 0)) (cV 1)) (cM (cH 0) (cV 1)))))) (cM (cM (cN 2) (cW (cV 1) 4)) (cR (cD (cA (cN 1) (cM (cN 2) (cH 0))) (cM (cA (cN 1) (cH 0)) (cA (cV 1) (cW (cV 1) 4))))))))) (cM (cM (cR (cN 6)) (cV 1)) (cR (cA (cA (cN (-3)) (cM (cN 4) (cV 1))) (cM (cN 4) (cW (cV 1) 4)))))).
Definition SPSU2T_e548 := (cD (cM (cN 3) (cA (cB (cA (cM (cN 4) (cR (cD (cM (cM (cA (cN 1) (cM (cN 2) (cH 0))) (cV 1)) (cA (cN (-1)) (cM (cN 2) (cV 1)))) (cA (cA (cN 3) (cM (cN 5) (cV 1))) (cM (cN 2) (cW (cV 1) 4)))))) (cR (cD (cM (cA (cN 1) (cM (cN 2) (cH 0))) (cV 1)) (cA (cA (cA (cN (-3)) (cV 1)) (cM (cN 8) (cW (cV 1) 4))) (cM (cN 4) (cW (cV 1) 6)))))) (cM (cM (cN 4) (cV 1)) (cR (cD (cM (cA (cN 1) (cM (cN 2) (cH 0))) (cV 1)) (cA (cA (cA (cN (-3)) (cV 1)) (cM (cN 8) (cW (cV 1) 4))) (cM (cN 4) (cW (cV 1) 6))))))) (cM (cN 4) (cR (cD (cM (cA (cN 1) (cM (cN 2) (cH 0))) (cW (cV 1) 10)) (cA (cA (cA (cN (-3)) (cV 1)) (cM (cN 8) (cW (cV 1) 4))) (cM (cN 4) (cW (cV 1) 6)))))))) (cM (cM (cM (cN 2) (cR (cN 2))) (cV 1)) (cR (cM (cA (cN 1) (cH 0)) (cA (cA (cN (-3)) (cM (cN 4) (cV 1))) (cM (cN 4) (cW (cV 1) 4))))))).
Definition SPSU2T_e549 := (cD (cM (cQ (-1) 2) (cR (cD (cM (cA (cN 1) (cM (cN 2) (cH 0))) (cA (cN 2) (cV 1))) (cM (cA (cN 1) (cH 0)) (cA (cN 1) (cV 1)))))) (cR (cN 2))).
Definition SPSU2T_e550 := (cD (cA (cA (cO (cM (cM (cV 1) (cA (cN 1) (cM (cN 2) (cV 1)))) (cR (cD (cM (cA (cN 1) (cM (cN 2) (cH 0))) (cA (cN 1) (cV 1))) (cA (cA (cN 6) (cM (cN 7) (cV 1))) (cM (cN 2) (cW (cV 1) 4))))))) (cM (cN 12) (cR (cD (cA (cN 1) (cM (cN 2) (cH 0))) (cA (cA (cA (cN 6) (cM (cN 13) (cV 1))) (cM (cN 9) (cW (cV 1) 4))) (cM (cN 2) (cW (cV 1) 6))))))) (cM (cM (cN 9) (cV 1)) (cR (cD (cA (cN 1) (cM (cN 2) (cH 0))) (cA (cA (cA (cN 6) (cM (cN 13) (cV 1))) (cM (cN 9) (cW (cV 1) 4))) (cM (cN 2) (cW (cV 1) 6))))))) (cM (cM (cN 2) (cR (cN 2))) (cR (cM (cM (cA (cN 1) (cH 0)) (cV 1)) (cA (cA (cN 6) (cM (cN 7) (cV 1))) (cM (cN 2) (cW (cV 1) 4))))))).
Definition SPSU2T_e551 := (cD (cM (cQ (-1) 2) (cB (cB (cA (cM (cA (cN 1) (cM (cN 2) (cV 1))) (cR (cD (cA (cA (cN 3) (cM (cN 5) (cV 1))) (cM (cN 2) (cW (cV 1) 4))) (cA (cA (cN 10) (cM (cN 9) (cV 1))) (cM (cN 2) (cW (cV 1) 4)))))) (cD (cA (cN 1) (cM (cN 2) (cV 1))) (cR (cD (cA (cN 5) (cM (cN 2) (cV 1))) (cA (cA (cA (cN 6) (cM (cN 13) (cV 1))) (cM (cN 9) (cW (cV 1) 4))) (cM (cN 2) (cW (cV 1) 6))))))) (cD (cN 6) (cR (cA (cA (cA (cA (cN 30) (cM (cN 77) (cV 1))) (cM (cN 71) (cW (cV 1) 4))) (cM (cN 28) (cW (cV 1) 6))) (cM (cN 4) (cW (cV 1) 8)))))) (cD (cM (cN 3) (cA (cN 1) (cM (cN 2) (cV 1)))) (cR (cA (cA (cA (cA (cN 30) (cM (cN 77) (cV 1))) (cM (cN 71) (cW (cV 1) 4))) (cM (cN 28) (cW (cV 1) 6))) (cM (cN 4) (cW (cV 1) 8))))))) (cR (cD (cM (cM (cA (cN 1) (cH 0)) (cV 1)) (cA (cA (cA (cN 30) (cM (cN 47) (cV 1))) (cM (cN 24) (cW (cV 1) 4))) (cM (cN 4) (cW (cV 1) 6)))) (cA (cN 2) (cM (cN 4) (cH 0)))))).
Definition SPSU2T_e552 := (cD (cB (cN 1) (cV 1)) (cM (cN 2) (cR (cM (cA (cN (-1)) (cV 1)) (cV 1))))).
Definition SPSU2T_e553 := (cD (cM (cQ (-1) 2) (cH 0)) (cR (cD (cM (cM (cH 0) (cA (cN 1) (cH 0))) (cV 1)) (cA (cN 1) (cV 1))))).
Definition SPSU2T_e554 := (cD (cM (cQ (-1) 2) (cA (cA (cN (-3)) (cM (cN 4) (cV 1))) (cM (cN 4) (cW (cV 1) 4)))) (cM (cR (cN 3)) (cR (cM (cV 1) (cA (cA (cA (cN (-3)) (cV 1)) (cM (cN 8) (cW (cV 1) 4))) (cM (cN 4) (cW (cV 1) 6))))))).
Definition SPSU2T_e555 := (cD (cM (cQ (-1) 2) (cH 0)) (cR (cM (cM (cM (cH 0) (cA (cN 1) (cH 0))) (cV 1)) (cA (cN 1) (cV 1))))).
Definition SPSU2T_e556 := (cM (cQ (-1) 2) (cR (cD (cA (cN 2) (cV 1)) (cA (cN 1) (cV 1))))).
Definition SPSU2T_e557 := (cD (cM (cH 0) (cB (cR (cD (cA (cN 1) (cM (cN 2) (cV 1))) (cM (cA (cH 0) (cW (cH 0) 4)) (cW (cA (cN 3) (cM (cN 2) (cV 1))) 4)))) (cD (cN 1) (cM (cR (cM (cM (cH 0) (cA (cN 1) (cH 0))) (cA (cN 1) (cM (cN 2) (cV 1))))) (cA (cA (cN 3) (cM (cN 5) (cV 1))) (cM (cN 2) (cW (cV 1) 4))))))) (cM (cN 2) (cR (cD (cV 1) (cA (cA (cN 1) (cM (cN 3) (cV 1))) (cM (cN 2) (cW (cV 1) 4))))))).
Definition SPSU2T_e558 := (cM (cQ (-1) 2) (cR (cD (cA (cA (cA (cN 1) (cM (cN 2) (cH 0))) (cV 1)) (cM (cM (cN 2) (cH 0)) (cV 1))) (cA (cV 1) (cM (cH 0) (cV 1)))))).
Definition SPSU2T_e559 := (cD (cM (cQ (-1) 2) (cN 1)) (cR (cD (cM (cM (cA (cN 1) (cH 0)) (cV 1)) (cA (cN 1) (cV 1))) (cA (cN 1) (cM (cN 2) (cH 0)))))).
Definition SPSU2T_e560 := (cD (cV 1) (cM (cN 2) (cR (cD (cM (cM (cA (cN 1) (cH 0)) (cV 1)) (cA (cN 1) (cV 1))) (cA (cN 1) (cM (cN 2) (cH 0))))))).
Definition SPSU2T_e561 := (cO (cD (cR (cD (cA (cN (-1)) (cV 1)) (cV 1))) (cR (cN 2)))).
Definition SPSU2T_e562 := (cD (cR (cD (cM (cH 0) (cA (cN 1) (cV 1))) (cM (cA (cN 1) (cH 0)) (cV 1)))) (cR (cN 2))).
Definition SPSU2T_e563 := (cD (cB (cB (cN 3) (cM (cN 4) (cV 1))) (cM (cN 4) (cW (cV 1) 4))) (cM (cR (cN 6)) (cR (cM (cV 1) (cA (cA (cA (cN (-3)) (cV 1)) (cM (cN 8) (cW (cV 1) 4))) (cM (cN 4) (cW (cV 1) 6))))))).
Definition SPSU2T_e564 := (cD (cH 0) (cM (cR (cN 2)) (cR (cM (cM (cM (cH 0) (cA (cN 1) (cH 0))) (cV 1)) (cA (cN 1) (cV 1)))))).
Definition SPSU2T_e565 := (cO (cD (cR (cD (cA (cN 2) (cV 1)) (cA (cN 1) (cV 1)))) (cR (cN 2)))).
Definition SPSU2T_e566 := (cO (cD (cM (cH 0) (cB (cR (cD (cA (cN 1) (cM (cN 2) (cV 1))) (cM (cM (cH 0) (cA (cN 1) (cH 0))) (cW (cA (cN 3) (cM (cN 2) (cV 1))) 4)))) (cD (cN 1) (cM (cR (cM (cM (cH 0) (cA (cN 1) (cH 0))) (cA (cN 1) (cM (cN 2) (cV 1))))) (cA (cA (cN 3) (cM (cN 5) (cV 1))) (cM (cN 2) (cW (cV 1) 4))))))) (cM (cR (cN 2)) (cR (cD (cV 1) (cA (cA (cN 1) (cM (cN 3) (cV 1))) (cM (cN 2) (cW (cV 1) 4)))))))).
Definition SPSU2T_e567 := (cD (cR (cD (cM (cA (cN 2) (cM (cN 4) (cH 0))) (cA (cN 1) (cV 1))) (cM (cA (cN 1) (cH 0)) (cV 1)))) (cN 2)).
Definition SPSU2T_e568 := (cD (cN 1) (cM (cR (cN 2)) (cR (cD (cM (cM (cA (cN 1) (cH 0)) (cV 1)) (cA (cN 1) (cV 1))) (cA (cN 1) (cM (cN 2) (cH 0))))))).
Definition SPSU2T_e569 := (cO (cR (cD (cA (cV 1) (cM (cM (cN 2) (cH 0)) (cV 1))) (cA (cA (cA (cN 2) (cM (cN 2) (cH 0))) (cM (cN 2) (cV 1))) (cM (cM (cN 2) (cH 0)) (cV 1)))))).
Definition SPSU2T_e570 := (cO (cR (cA (cN 1) (cD (cN 1) (cV 1))))).
Definition SPSU2T_e571 := (cD (cB (cN (-3)) (cV 1)) (cM (cN 2) (cR (cM (cV 1) (cA (cN 1) (cV 1)))))).
Definition SPSU2T_e572 := (cD (cB (cH 0) (cM (cH 0) (cV 1))) (cM (cN 2) (cR (cM (cM (cM (cH 0) (cA (cN 1) (cH 0))) (cA (cN (-1)) (cV 1))) (cV 1))))).
Definition SPSU2T_e573 := (cD (cM (cN (-3)) (cA (cB (cA (cM (cN 4) (cR (cD (cM (cM (cA (cN 1) (cM (cN 2) (cH 0))) (cV 1)) (cA (cN (-1)) (cM (cN 2) (cV 1)))) (cA (cA (cN 3) (cM (cN 5) (cV 1))) (cM (cN 2) (cW (cV 1) 4)))))) (cR (cD (cM (cA (cN 1) (cM (cN 2) (cH 0))) (cV 1)) (cA (cA (cA (cN (-3)) (cV 1)) (cM (cN 8) (cW (cV 1) 4))) (cM (cN 4) (cW (cV 1) 6)))))) (cM (cM (cN 4) (cV 1)) (cR (cD (cM (cA (cN 1) (cM (cN 2) (cH 0))) (cV 1)) (cA (cA (cA (cN (-3)) (cV 1)) (cM (cN 8) (cW (cV 1) 4))) (cM (cN 4) (cW (cV 1) 6))))))) (cM (cN 4) (cR (cD (cM (cA (cN 1) (cM (cN 2) (cH 0))) (cW (cV 1) 10)) (cA (cA (cA (cN (-3)) (cV 1)) (cM (cN 8) (cW (cV 1) 4))) (cM (cN 4) (cW (cV 1) 6)))))))) (cM (cM (cN 2) (cV 1)) (cR (cM (cA (cN 1) (cM (cN 2) (cH 0))) (cA (cA (cN (-3)) (cM (cN 4) (cV 1))) (cM (cN 4) (cW (cV 1) 4))))))).
Definition SPSU2T_e574 := (cD (cM (cQ (-1) 2) (cM (cM (cH 0) (cA (cN (-1)) (cM (cN 2) (cV 1)))) (cA (cN 3) (cM (cN 2) (cV 1))))) (cM (cR (cN 3)) (cR (cM (cM (cM (cH 0) (cA (cN 1) (cH 0))) (cV 1)) (cA (cA (cA (cN (-3)) (cV 1)) (cM (cN 8) (cW (cV 1) 4))) (cM (cN 4) (cW (cV 1) 6))))))).
Definition SPSU2T_e575 := (cD (cB (cB (cM (cW (cV 1) 4) (cR (cD (cM (cM (cA (cN 1) (cM (cN 2) (cH 0))) (cA (cN 1) (cV 1))) (cW (cA (cN 1) (cM (cN 2) (cV 1))) 4)) (cM (cV 1) (cA (cA (cN 6) (cM (cN 7) (cV 1))) (cM (cN 2) (cW (cV 1) 4))))))) (cM (cN 9) (cR (cD (cM (cA (cN 1) (cM (cN 2) (cH 0))) (cW (cV 1) 6)) (cA (cA (cA (cN 6) (cM (cN 13) (cV 1))) (cM (cN 9) (cW (cV 1) 4))) (cM (cN 2) (cW (cV 1) 6))))))) (cM (cN 12) (cR (cD (cA (cV 1) (cM (cM (cN 2) (cH 0)) (cV 1))) (cA (cA (cA (cN 6) (cM (cN 13) (cV 1))) (cM (cN 9) (cW (cV 1) 4))) (cM (cN 2) (cW (cV 1) 6))))))) (cM (cM (cN 2) (cV 1)) (cR (cM (cA (cN 1) (cM (cN 2) (cH 0))) (cA (cA (cN 6) (cM (cN 7) (cV 1))) (cM (cN 2) (cW (cV 1) 4))))))).
Definition SPSU2T_e576 := (cD (cM (cQ (-1) 2) (cM (cH 0) (cA (cA (cR (cD (cM (cA (cN 1) (cM (cN 2) (cH 0))) (cA (cA (cN 1) (cM (cN 3) (cV 1))) (cM (cN 2) (cW (cV 1) 4)))) (cM (cA (cH 0) (cW (cH 0) 4)) (cA (cN 3) (cM (cN 2) (cV 1)))))) (cM (cN 2) (cR (cD (cM (cA (cN 1) (cM (cN 2) (cH 0))) (cA (cN 1) (cM (cN 2) (cV 1)))) (cM (cM (cH 0) (cA (cN 1) (cH 0))) (cA (cA (cN 3) (cM (cN 5) (cV 1))) (cM (cN 2) (cW (cV 1) 4)))))))) (cM (cN 3) (cR (cD (cA (cN 1) (cM (cN 2) (cH 0))) (cM (cM (cH 0) (cA (cN 1) (cH 0))) (cA (cA (cA (cN 3) (cM (cN 11) (cV 1))) (cM (cN 12) (cW (cV 1) 4))) (cM (cN 4) (cW (cV 1) 6)))))))))) (cR (cD (cM (cM (cA (cN 1) (cM (cN 2) (cH 0))) (cA (cN 2) (cV 1))) (cA (cN 3) (cM (cN 2) (cV 1)))) (cA (cN 1) (cM (cN 2) (cV 1)))))).
Definition SPSU2T_e577 := (cD (cB (cN 1) (cV 1)) (cM (cN 2) (cR (cD (cM (cM (cA (cN 1) (cH 0)) (cA (cN (-1)) (cV 1))) (cV 1)) (cA (cN 1) (cM (cN 2) (cH 0))))))).
Definition SPSU2T_e578 := (cD (cM (cQ (-1) 2) (cM (cM (cA (cN (-1)) (cM (cN 2) (cV 1))) (cA (cN 3) (cM (cN 2) (cV 1)))) (cA (cR (cD (cA (cN 1) (cM (cN 2) (cH 0))) (cM (cA (cN 1) (cH 0)) (cA (cA (cN (-3)) (cM (cN 4) (cV 1))) (cM (cN 4) (cW (cV 1) 4)))))) (cM (cN 2) (cR (cD (cA (cA (cN 1) (cM (cN 3) (cH 0))) (cM (cN 2) (cW (cH 0) 4))) (cA (cA (cN (-3)) (cM (cN 4) (cV 1))) (cM (cN 4) (cW (cV 1) 4))))))))) (cM (cM (cA (cN 3) (cM (cN 2) (cH 0))) (cR (cA (cN 3) (cD (cN 3) (cV 1))))) (cV 1))).
Definition SPSU2T_e579 := (cD (cB (cN (-2)) (cV 1)) (cM (cN 2) (cR (cD (cM (cA (cN 1) (cH 0)) (cA (cA (cN 2) (cM (cN 3) (cV 1))) (cW (cV 1) 4))) (cA (cN 1) (cM (cN 2) (cH 0))))))).
Definition SPSU2T_e580 := (cO (cD (cN 1) (cR (cM (cV 1) (cA (cN 1) (cV 1)))))).
Definition SPSU2T_e581 := (cD (cB (cN (-3)) (cM (cN 2) (cH 0))) (cM (cN 2) (cR (cD (cM (cA (cA (cN 3) (cM (cN 5) (cH 0))) (cM (cN 2) (cW (cH 0) 4))) (cV 1)) (cA (cN 1) (cV 1)))))).
Definition SPSU2T_e582 := (cD (cB (cN (-3)) (cM (cN 2) (cH 0))) (cM (cN 2) (cR (cM (cM (cA (cA (cN 3) (cM (cN 5) (cH 0))) (cM (cN 2) (cW (cH 0) 4))) (cV 1)) (cA (cN 1) (cV 1)))))).
Definition SPSU2T_e583 := (cD (cM (cA (cN 3) (cM (cN 2) (cH 0))) (cV 1)) (cM (cN 2) (cR (cM (cM (cA (cA (cN 3) (cM (cN 5) (cH 0))) (cM (cN 2) (cW (cH 0) 4))) (cV 1)) (cA (cN 1) (cV 1)))))).
Definition SPSU2T_e584 := (cO (cD (cR (cA (cN 1) (cD (cN 1) (cV 1)))) (cR (cN 2)))).
Definition SPSU2T_e585 := (cD (cR (cD (cA (cN (-1)) (cV 1)) (cV 1))) (cR (cN 2))).
Definition SPSU2T_e586 := (cO (cD (cN 1) (cM (cR (cN 2)) (cR (cM (cV 1) (cA (cN 1) (cV 1))))))).
Definition SPSU2T_e587 := (cD (cA (cA (cN (-3)) (cM (cN 4) (cV 1))) (cM (cN 4) (cW (cV 1) 4))) (cM (cR (cN 6)) (cR (cM (cV 1) (cA (cA (cA (cN (-3)) (cV 1)) (cM (cN 8) (cW (cV 1) 4))) (cM (cN 4) (cW (cV 1) 6))))))).
Definition SPSU2T_e588 := (cD (cM (cA (cN 1) (cM (cN 2) (cV 1))) (cA (cA (cR (cD (cM (cH 0) (cA (cN 1) (cV 1))) (cA (cN 3) (cM (cN 2) (cV 1))))) (cM (cN 2) (cR (cD (cH 0) (cA (cA (cN 3) (cM (cN 5) (cV 1))) (cM (cN 2) (cW (cV 1) 4))))))) (cD (cM (cN 3) (cR (cD (cH 0) (cA (cA (cN 3) (cM (cN 5) (cV 1))) (cM (cN 2) (cW (cV 1) 4)))))) (cA (cN 1) (cM (cN 2) (cV 1)))))) (cM (cR (cN 2)) (cR (cM (cM (cH 0) (cA (cN 2) (cV 1))) (cA (cN 3) (cM (cN 2) (cV 1))))))).
Definition SPSU2T_e589 := (cD (cM (cQ (-1) 2) (cA (cN 3) (cM (cN 2) (cH 0)))) (cM (cR (cN 2)) (cR (cD (cM (cA (cA (cN 3) (cM (cN 5) (cH 0))) (cM (cN 2) (cW (cH 0) 4))) (cV 1)) (cA (cN 1) (cV 1)))))).
Definition SPSU2T_e590 := (cD (cM (cA (cN 3) (cM (cN 2) (cH 0))) (cA (cN (-1)) (cV 1))) (cM (cM (cN 2) (cR (cN 2))) (cR (cM (cM (cA (cA (cN 3) (cM (cN 5) (cH 0))) (cM (cN 2) (cW (cH 0) 4))) (cA (cN (-1)) (cV 1))) (cV 1))))).
Definition SPSU2T_e591 := (cD (cM (cQ (-1) 2) (cA (cN 3) (cM (cN 2) (cH 0)))) (cM (cR (cN 2)) (cR (cM (cM (cA (cA (cN 3) (cM (cN 5) (cH 0))) (cM (cN 2) (cW (cH 0) 4))) (cV 1)) (cA (cN 1) (cV 1)))))).
Definition SPSU2T_e592 := (cD (cM (cM (cA (cN 3) (cM (cN 2) (cH 0))) (cA (cN (-1)) (cM (cN 2) (cV 1)))) (cA (cN 3) (cM (cN 2) (cV 1)))) (cM (cM (cN 2) (cR (cN 6))) (cR (cM (cM (cA (cA (cN 3) (cM (cN 5) (cH 0))) (cM (cN 2) (cW (cH 0) 4))) (cV 1)) (cA (cA (cA (cN (-3)) (cV 1)) (cM (cN 8) (cW (cV 1) 4))) (cM (cN 4) (cW (cV 1) 6))))))).
Definition SPSU2T_e593 := (cD (cM (cA (cN 3) (cM (cN 2) (cH 0))) (cV 1)) (cM (cM (cN 2) (cR (cN 2))) (cR (cM (cM (cA (cA (cN 3) (cM (cN 5) (cH 0))) (cM (cN 2) (cW (cH 0) 4))) (cV 1)) (cA (cN 1) (cV 1)))))).
Definition SPSU2T_e594 := (cD (cM (cA (cN 3) (cM (cN 2) (cH 0))) (cA (cN 2) (cV 1))) (cM (cM (cN 2) (cR (cN 2))) (cR (cM (cM (cA (cA (cN 3) (cM (cN 5) (cH 0))) (cM (cN 2) (cW (cH 0) 4))) (cA (cN 1) (cV 1))) (cA (cN 2) (cV 1)))))).
Definition SPSU2T_e595 := (cO (cD (cA (cN 3) (cM (cN 2) (cH 0))) (cR (cA (cA (cN 9) (cM (cN 15) (cH 0))) (cM (cN 6) (cW (cH 0) 4)))))).
Definition SPSU2T_e596 := (cO (cD (cA (cN 2) (cH 0)) (cM (cR (cN 3)) (cR (cA (cA (cN 2) (cM (cN 3) (cH 0))) (cW (cH 0) 4)))))).
Definition SPSU2T_e597 := (cD (cR (cD (cM (cA (cN 1) (cM (cN 2) (cH 0))) (cA (cN 1) (cM (cN 2) (cV 1)))) (cM (cA (cN 1) (cH 0)) (cA (cN (-1)) (cM (cN 2) (cV 1)))))) (cR (cN 6))).
Definition SPSU2T_e598 := (cO (cR (cD (cM (cA (cN 1) (cM (cN 2) (cH 0))) (cA (cN 1) (cM (cN 2) (cV 1)))) (cM (cA (cN 1) (cH 0)) (cA (cN (-3)) (cM (cN 6) (cV 1))))))).
Definition SPSU2T_e599 := (cO (cR (cD (cM (cA (cN 1) (cM (cN 2) (cH 0))) (cA (cN 1) (cM (cN 2) (cV 1)))) (cM (cA (cN 1) (cH 0)) (cA (cN (-2)) (cM (cN 4) (cV 1))))))).
Definition SPSU2T_e600 := (cD (cA (cB (cN 3) (cM (cN 5) (cV 1))) (cM (cN 2) (cW (cV 1) 4))) (cM (cM (cN 2) (cR (cN 3))) (cR (cD (cM (cM (cM (cA (cN 1) (cH 0)) (cV 1)) (cA (cN (-1)) (cM (cN 2) (cV 1)))) (cA (cB (cN 3) (cM (cN 5) (cV 1))) (cM (cN 2) (cW (cV 1) 4)))) (cA (cN 1) (cM (cN 2) (cH 0))))))).
Definition SPSU2T_e601 := (cR (cD (cA (cN 1) (cM (cN 2) (cH 0))) (cA (cN 2) (cM (cN 2) (cH 0))))).
Definition SPSU2T_e602 := (cD (cA (cN (-2)) (cV 1)) (cM (cN 2) (cR (cD (cM (cM (cM (cA (cN 1) (cH 0)) (cA (cN (-2)) (cV 1))) (cV 1)) (cA (cN (-1)) (cM (cN 2) (cV 1)))) (cM (cA (cN 1) (cM (cN 2) (cH 0))) (cA (cN 1) (cM (cN 2) (cV 1)))))))).
Definition SPSU2T_e603 := (cD (cB (cA (cN (-3)) (cM (cN 5) (cV 1))) (cM (cN 2) (cW (cV 1) 4))) (cM (cM (cN 2) (cR (cN 6))) (cR (cD (cM (cM (cM (cA (cN 1) (cH 0)) (cV 1)) (cA (cN (-1)) (cM (cN 2) (cV 1)))) (cA (cB (cN 3) (cM (cN 5) (cV 1))) (cM (cN 2) (cW (cV 1) 4)))) (cA (cN 1) (cM (cN 2) (cH 0))))))).
Definition SPSU2T_e604 := (cD (cM (cM (cR (cQ 3 2)) (cA (cN (-3)) (cM (cN 2) (cV 1)))) (cR (cD (cM (cA (cN 1) (cM (cN 2) (cH 0))) (cA (cN 1) (cV 1))) (cM (cM (cA (cN 1) (cH 0)) (cV 1)) (cA (cB (cN 3) (cM (cN 8) (cV 1))) (cM (cN 4) (cW (cV 1) 4))))))) (cN 2)).
Definition SPSU2T_e605 := (cD (cM (cM (cR (cA (cQ 3 2) (cM (cN 3) (cH 0)))) (cA (cN (-1)) (cV 1))) (cA (cN 3) (cM (cN 2) (cV 1)))) (cM (cN 2) (cR (cM (cM (cA (cN 1) (cH 0)) (cV 1)) (cA (cB (cN 3) (cM (cN 7) (cV 1))) (cM (cN 4) (cW (cV 1) 6))))))).
Definition SPSU2T_e606 := (cD (cA (cA (cA (cM (cV 1) (cR (cD (cM (cM (cM (cA (cN 1) (cM (cN 2) (cH 0))) (cA (cN 1) (cV 1))) (cA (cN (-1)) (cM (cN 2) (cV 1)))) (cA (cN 1) (cM (cN 2) (cV 1)))) (cA (cN 3) (cM (cN 2) (cV 1)))))) (cM (cM (cN 3) (cV 1)) (cR (cD (cM (cA (cN 1) (cM (cN 2) (cH 0))) (cA (cN (-1)) (cM (cN 4) (cW (cV 1) 4)))) (cA (cA (cN 3) (cM (cN 5) (cV 1))) (cM (cN 2) (cW (cV 1) 4))))))) (cM (cN 6) (cR (cD (cM (cA (cN 1) (cM (cN 2) (cH 0))) (cA (cN (-1)) (cM (cN 2) (cV 1)))) (cA (cA (cA (cN 3) (cM (cN 11) (cV 1))) (cM (cN 12) (cW (cV 1) 4))) (cM (cN 4) (cW (cV 1) 6))))))) (cM (cM (cN 9) (cV 1)) (cR (cD (cM (cA (cN 1) (cM (cN 2) (cH 0))) (cA (cN (-1)) (cM (cN 2) (cV 1)))) (cA (cA (cA (cN 3) (cM (cN 11) (cV 1))) (cM (cN 12) (cW (cV 1) 4))) (cM (cN 4) (cW (cV 1) 6))))))) (cM (cN 2) (cR (cD (cM (cM (cM (cA (cN 1) (cH 0)) (cV 1)) (cA (cN (-1)) (cM (cN 2) (cV 1)))) (cA (cA (cA (cN 6) (cM (cN 13) (cV 1))) (cM (cN 9) (cW (cV 1) 4))) (cM (cN 2) (cW (cV 1) 6)))) (cA (cN 1) (cM (cN 2) (cV 1))))))).
Definition SPSU2T_e607 := (cR (cD (cA (cN 1) (cM (cN 2) (cV 1))) (cA (cN (-2)) (cM (cN 4) (cV 1))))).
Definition SPSU2T_e608 := (cD (cR (cD (cM (cA (cN 1) (cD (cN 1) (cV 1))) (cA (cN 1) (cM (cN 2) (cV 1)))) (cA (cN (-1)) (cM (cN 2) (cV 1))))) (cN 2)).
Definition SPSU2T_e609 := (cM (cQ (-1) 2) (cR (cD (cM (cM (cH 0) (cA (cN (-1)) (cV 1))) (cA (cN 1) (cM (cN 2) (cV 1)))) (cM (cM (cA (cN 1) (cH 0)) (cV 1)) (cA (cN (-1)) (cM (cN 2) (cV 1))))))).
Definition SPSU2T_e610 := (cD (cA (cA (cN 3) (cM (cN 5) (cV 1))) (cM (cN 2) (cW (cV 1) 4))) (cM (cM (cN 2) (cR (cN 3))) (cR (cM (cV 1) (cA (cA (cA (cN (-3)) (cV 1)) (cM (cN 8) (cW (cV 1) 4))) (cM (cN 4) (cW (cV 1) 6))))))).
Definition SPSU2T_e611 := (cD (cM (cQ (-1) 2) (cM (cH 0) (cA (cN 1) (cV 1)))) (cR (cM (cM (cM (cH 0) (cA (cN 1) (cH 0))) (cV 1)) (cA (cN 1) (cV 1))))).
Definition SPSU2T_e612 := (cD (cM (cQ (-1) 2) (cM (cA (cN (-1)) (cV 1)) (cA (cR (cD (cM (cA (cN 1) (cM (cN 2) (cH 0))) (cA (cN 1) (cM (cN 2) (cV 1)))) (cM (cM (cA (cN 1) (cH 0)) (cA (cN (-1)) (cV 1))) (cV 1)))) (cM (cN 2) (cR (cD (cM (cA (cA (cN 1) (cM (cN 3) (cH 0))) (cM (cN 2) (cW (cH 0) 4))) (cA (cN 1) (cM (cN 2) (cV 1)))) (cM (cA (cN (-1)) (cV 1)) (cV 1)))))))) (cM (cA (cN 3) (cM (cN 2) (cH 0))) (cR (cA (cN (-1)) (cM (cN 2) (cV 1)))))).
Definition SPSU2T_e613 := (cO (cD (cA (cA (cA (cM (cN 2) (cR (cD (cM (cA (cA (cN 1) (cM (cN 3) (cH 0))) (cM (cN 2) (cW (cH 0) 4))) (cV 1)) (cA (cN 1) (cV 1))))) (cR (cD (cA (cV 1) (cM (cM (cN 2) (cH 0)) (cV 1))) (cA (cA (cA (cN 1) (cH 0)) (cV 1)) (cM (cH 0) (cV 1)))))) (cR (cD (cA (cN 1) (cM (cN 2) (cH 0))) (cM (cA (cN 1) (cH 0)) (cA (cV 1) (cW (cV 1) 4)))))) (cM (cN 2) (cR (cD (cA (cA (cN 1) (cM (cN 3) (cH 0))) (cM (cN 2) (cW (cH 0) 4))) (cA (cV 1) (cW (cV 1) 4)))))) (cA (cN 6) (cM (cN 4) (cH 0))))).
Definition SPSU2T_e614 := (cR (cD (cA (cN 1) (cM (cN 2) (cV 1))) (cA (cN (-1)) (cM (cN 2) (cV 1))))).
Definition SPSU2T_e615 := (cR (cD (cM (cA (cN 1) (cD (cN 1) (cV 1))) (cA (cN 1) (cM (cN 2) (cV 1)))) (cA (cN (-2)) (cM (cN 4) (cV 1))))).
Definition SPSU2T_e616 := (cR (cD (cM (cM (cH 0) (cA (cN (-1)) (cV 1))) (cA (cN 1) (cM (cN 2) (cV 1)))) (cM (cM (cA (cN 1) (cH 0)) (cV 1)) (cA (cN (-2)) (cM (cN 4) (cV 1)))))).
Definition SPSU2T_e617 := (cD (cA (cA (cN 3) (cM (cN 5) (cV 1))) (cM (cN 2) (cW (cV 1) 4))) (cM (cR (cN 6)) (cR (cM (cV 1) (cA (cA (cA (cN (-3)) (cV 1)) (cM (cN 8) (cW (cV 1) 4))) (cM (cN 4) (cW (cV 1) 6))))))).
Definition SPSU2T_e618 := (cD (cM (cH 0) (cA (cN 1) (cV 1))) (cM (cR (cN 2)) (cR (cM (cM (cM (cH 0) (cA (cN 1) (cH 0))) (cV 1)) (cA (cN 1) (cV 1)))))).
Definition SPSU2T_e619 := (cD (cM (cA (cN (-1)) (cV 1)) (cA (cR (cD (cM (cA (cN 1) (cM (cN 2) (cH 0))) (cA (cN 1) (cM (cN 2) (cV 1)))) (cM (cM (cA (cN 1) (cH 0)) (cA (cN (-1)) (cV 1))) (cV 1)))) (cM (cN 2) (cR (cD (cM (cA (cA (cN 1) (cM (cN 3) (cH 0))) (cM (cN 2) (cW (cH 0) 4))) (cA (cN 1) (cM (cN 2) (cV 1)))) (cM (cA (cN (-1)) (cV 1)) (cV 1))))))) (cM (cA (cN 3) (cM (cN 2) (cH 0))) (cR (cA (cN (-2)) (cM (cN 4) (cV 1)))))).
Definition SPSU2T_e620 := (cD (cA (cA (cA (cM (cN 2) (cR (cD (cM (cA (cA (cN 1) (cM (cN 3) (cH 0))) (cM (cN 2) (cW (cH 0) 4))) (cV 1)) (cA (cN 1) (cV 1))))) (cR (cD (cA (cV 1) (cM (cM (cN 2) (cH 0)) (cV 1))) (cA (cA (cA (cN 1) (cH 0)) (cV 1)) (cM (cH 0) (cV 1)))))) (cR (cD (cA (cN 1) (cM (cN 2) (cH 0))) (cM (cA (cN 1) (cH 0)) (cA (cV 1) (cW (cV 1) 4)))))) (cM (cN 2) (cR (cD (cA (cA (cN 1) (cM (cN 3) (cH 0))) (cM (cN 2) (cW (cH 0) 4))) (cA (cV 1) (cW (cV 1) 4)))))) (cM (cR (cN 2)) (cA (cN 3) (cM (cN 2) (cH 0))))).
Definition SPSU2T_e621 := (cD (cB (cN 2) (cV 1)) (cR (cD (cM (cM (cA (cN (-2)) (cV 1)) (cV 1)) (cA (cN (-2)) (cM (cN 4) (cV 1)))) (cA (cN 1) (cM (cN 2) (cV 1)))))).
Definition SPSU2T_e622 := (cD (cM (cQ (-1) 2) (cM (cM (cR (cN 3)) (cA (cN 1) (cV 1))) (cA (cN (-3)) (cM (cN 2) (cV 1))))) (cR (cM (cV 1) (cA (cB (cB (cN 3) (cM (cN 5) (cV 1))) (cM (cN 4) (cW (cV 1) 4))) (cM (cN 4) (cW (cV 1) 6)))))).
Definition SPSU2T_e623 := (cD (cB (cA (cN (-3)) (cM (cN 5) (cV 1))) (cM (cN 2) (cW (cV 1) 4))) (cM (cM (cN 2) (cR (cN 3))) (cR (cD (cM (cM (cM (cA (cN 1) (cH 0)) (cV 1)) (cA (cN (-1)) (cM (cN 2) (cV 1)))) (cA (cB (cN 3) (cM (cN 5) (cV 1))) (cM (cN 2) (cW (cV 1) 4)))) (cH 0))))).
Definition SPSU2T_e624 := (cD (cM (cQ (-1) 2) (cM (cM (cR (cN 3)) (cA (cN (-1)) (cV 1))) (cA (cA (cM (cN 2) (cR (cM (cA (cN 1) (cM (cN 2) (cH 0))) (cW (cV 1) 10)))) (cM (cN 3) (cR (cA (cV 1) (cM (cM (cN 2) (cH 0)) (cV 1)))))) (cM (cM (cN 5) (cV 1)) (cR (cA (cV 1) (cM (cM (cN 2) (cH 0)) (cV 1)))))))) (cM (cM (cV 1) (cA (cN 1) (cV 1))) (cR (cM (cA (cN 1) (cM (cN 2) (cH 0))) (cA (cB (cN 3) (cM (cN 7) (cV 1))) (cM (cN 4) (cW (cV 1) 6))))))).
Definition SPSU2T_e625 := (cD (cM (cQ (-1) 2) (cM (cH 0) (cA (cN (-1)) (cV 1)))) (cR (cM (cM (cM (cH 0) (cA (cN 1) (cH 0))) (cA (cN (-1)) (cV 1))) (cV 1)))).
Definition SPSU2T_e626 := (cD (cB (cB (cB (cM (cN (-6)) (cR (cD (cA (cN (-1)) (cM (cN 2) (cV 1))) (cM (cV 1) (cA (cA (cN 2) (cM (cN 5) (cV 1))) (cM (cN 2) (cW (cV 1) 4))))))) (cM (cN 9) (cR (cD (cM (cV 1) (cA (cN (-1)) (cM (cN 2) (cV 1)))) (cA (cA (cN 2) (cM (cN 5) (cV 1))) (cM (cN 2) (cW (cV 1) 4))))))) (cM (cN 4) (cR (cD (cM (cV 1) (cA (cN (-1)) (cM (cN 4) (cW (cV 1) 4)))) (cA (cN 2) (cV 1)))))) (cR (cD (cM (cW (cV 1) 6) (cA (cN (-1)) (cM (cN 4) (cW (cV 1) 4)))) (cA (cN 2) (cV 1))))) (cM (cR (cD (cA (cN (-2)) (cM (cN 4) (cV 1))) (cA (cN 1) (cM (cN 2) (cV 1))))) (cA (cA (cN 3) (cM (cN 5) (cV 1))) (cM (cN 2) (cW (cV 1) 4))))).
Definition SPSU2T_e627 := (cO (cD (cH 0) (cR (cA (cM (cN 2) (cH 0)) (cM (cN 2) (cW (cH 0) 4)))))).
Definition SPSU2T_e628 := (cD (cM (cQ (-1) 2) (cM (cA (cB (cN 3) (cM (cN 5) (cV 1))) (cM (cN 2) (cW (cV 1) 4))) (cA (cR (cD (cA (cN 1) (cM (cN 2) (cH 0))) (cM (cM (cA (cN 1) (cH 0)) (cV 1)) (cA (cB (cN 3) (cM (cN 5) (cV 1))) (cM (cN 2) (cW (cV 1) 4)))))) (cM (cN 2) (cR (cD (cA (cA (cN 1) (cM (cN 3) (cH 0))) (cM (cN 2) (cW (cH 0) 4))) (cM (cV 1) (cA (cB (cN 3) (cM (cN 5) (cV 1))) (cM (cN 2) (cW (cV 1) 4)))))))))) (cM (cA (cN 3) (cM (cN 2) (cH 0))) (cR (cA (cN (-3)) (cM (cN 6) (cV 1)))))).
Definition SPSU2T_e629 := (cO (cD (cM (cM (cA (cN (-1)) (cV 1)) (cR (cD (cA (cN 1) (cM (cN 2) (cV 1))) (cA (cN (-1)) (cM (cN 2) (cV 1)))))) (cA (cR (cD (cM (cA (cN 1) (cM (cN 2) (cH 0))) (cA (cN (-1)) (cM (cN 2) (cV 1)))) (cM (cM (cA (cN 1) (cH 0)) (cV 1)) (cA (cB (cN (-1)) (cV 1)) (cM (cN 2) (cW (cV 1) 4)))))) (cM (cN 2) (cR (cD (cM (cA (cA (cN 1) (cM (cN 3) (cH 0))) (cM (cN 2) (cW (cH 0) 4))) (cA (cN (-1)) (cM (cN 2) (cV 1)))) (cM (cV 1) (cA (cB (cN (-1)) (cV 1)) (cM (cN 2) (cW (cV 1) 4))))))))) (cA (cN 6) (cM (cN 4) (cH 0))))).
Definition SPSU2T_e630 := (cD (cB (cB (cB (cB (cB (cO (cR (cD (cM (cM (cM (cA (cN 1) (cM (cN 2) (cH 0))) (cA (cN 1) (cV 1))) (cA (cN (-1)) (cM (cN 2) (cV 1)))) (cA (cN 1) (cM (cN 2) (cV 1)))) (cM (cA (cN 3) (cM (cN 2) (cH 0))) (cA (cN 3) (cM (cN 2) (cV 1))))))) (cM (cM (cN 2) (cA (cN 1) (cH 0))) (cR (cD (cM (cM (cM (cA (cN 1) (cM (cN 2) (cH 0))) (cA (cN 1) (cV 1))) (cA (cN (-1)) (cM (cN 2) (cV 1)))) (cA (cN 1) (cM (cN 2) (cV 1)))) (cM (cA (cN 3) (cM (cN 2) (cH 0))) (cA (cN 3) (cM (cN 2) (cV 1)))))))) (cR (cD (cM (cA (cN 1) (cM (cN 2) (cH 0))) (cA (cN (-1)) (cM (cN 4) (cW (cV 1) 4)))) (cM (cA (cN 3) (cM (cN 2) (cH 0))) (cA (cA (cN 3) (cM (cN 5) (cV 1))) (cM (cN 2) (cW (cV 1) 4))))))) (cM (cM (cN 2) (cA (cN 1) (cH 0))) (cR (cD (cM (cA (cN 1) (cM (cN 2) (cH 0))) (cA (cN (-1)) (cM (cN 4) (cW (cV 1) 4)))) (cM (cA (cN 3) (cM (cN 2) (cH 0))) (cA (cA (cN 3) (cM (cN 5) (cV 1))) (cM (cN 2) (cW (cV 1) 4)))))))) (cD (cR (cD (cM (cM (cM (cA (cN 1) (cM (cN 2) (cH 0))) (cA (cN (-1)) (cM (cN 2) (cV 1)))) (cA (cN 1) (cM (cN 2) (cV 1)))) (cA (cA (cN 3) (cM (cN 5) (cV 1))) (cM (cN 2) (cW (cV 1) 4)))) (cA (cN 3) (cM (cN 2) (cH 0))))) (cA (cA (cA (cN 3) (cM (cN 11) (cV 1))) (cM (cN 12) (cW (cV 1) 4))) (cM (cN 4) (cW (cV 1) 6))))) (cD (cM (cM (cN 2) (cA (cN 1) (cH 0))) (cR (cD (cM (cM (cM (cA (cN 1) (cM (cN 2) (cH 0))) (cA (cN (-1)) (cM (cN 2) (cV 1)))) (cA (cN 1) (cM (cN 2) (cV 1)))) (cA (cA (cN 3) (cM (cN 5) (cV 1))) (cM (cN 2) (cW (cV 1) 4)))) (cA (cN 3) (cM (cN 2) (cH 0)))))) (cA (cA (cA (cN 3) (cM (cN 11) (cV 1))) (cM (cN 12) (cW (cV 1) 4))) (cM (cN 4) (cW (cV 1) 6))))) (cM (cR (cN 2)) (cR (cD (cM (cA (cA (cN 3) (cM (cN 5) (cH 0))) (cM (cN 2) (cW (cH 0) 4))) (cA (cA (cA (cN (-3)) (cV 1)) (cM (cN 8) (cW (cV 1) 4))) (cM (cN 4) (cW (cV 1) 6)))) (cA (cN 1) (cM (cN 2) (cV 1))))))).
Definition SPSU2T_e631 := (cD (cB (cN 1) (cV 1)) (cR (cD (cM (cM (cA (cN (-1)) (cV 1)) (cV 1)) (cA (cN (-1)) (cM (cN 2) (cV 1)))) (cA (cN 1) (cM (cN 2) (cV 1)))))).
Definition SPSU2T_e632 := (cD (cM (cQ (-1) 2) (cM (cA (cN 3) (cM (cN 2) (cH 0))) (cA (cN (-1)) (cV 1)))) (cR (cD (cM (cM (cM (cA (cA (cN 3) (cM (cN 5) (cH 0))) (cM (cN 2) (cW (cH 0) 4))) (cA (cN (-1)) (cV 1))) (cV 1)) (cA (cN (-1)) (cM (cN 2) (cV 1)))) (cA (cN 1) (cM (cN 2) (cV 1)))))).
Definition SPSU2T_e633 := (cD (cM (cQ (-1) 2) (cM (cA (cN 3) (cM (cN 2) (cH 0))) (cA (cN 1) (cV 1)))) (cR (cM (cM (cA (cA (cN 3) (cM (cN 5) (cH 0))) (cM (cN 2) (cW (cH 0) 4))) (cV 1)) (cA (cN 1) (cV 1))))).
Definition SPSU2T_e634 := (cO (cR (cD (cA (cN 1) (cM (cN 2) (cV 1))) (cA (cN (-1)) (cM (cN 2) (cV 1)))))).
Definition SPSU2T_e635 := (cD (cB (cN 1) (cV 1)) (cR (cD (cM (cM (cA (cN (-1)) (cV 1)) (cV 1)) (cA (cN (-2)) (cM (cN 4) (cV 1)))) (cA (cN 1) (cM (cN 2) (cV 1)))))).
Definition SPSU2T_e636 := (cD (cB (cR (cM (cV 1) (cA (cN 1) (cV 1)))) (cR (cM (cW (cV 1) 10) (cA (cN 1) (cV 1))))) (cM (cM (cV 1) (cR (cD (cA (cN (-2)) (cM (cN 4) (cV 1))) (cA (cN 1) (cM (cN 2) (cV 1)))))) (cA (cN (-1)) (cW (cV 1) 4)))).
Definition SPSU2T_e637 := (cO (cD (cA (cA (cN 3) (cM (cN 5) (cV 1))) (cM (cN 2) (cW (cV 1) 4))) (cM (cR (cN 6)) (cR (cM (cV 1) (cA (cA (cA (cN (-3)) (cV 1)) (cM (cN 8) (cW (cV 1) 4))) (cM (cN 4) (cW (cV 1) 6)))))))).
Definition SPSU2T_e638 := (cD (cB (cN (-3)) (cM (cN 2) (cH 0))) (cM (cN 2) (cR (cD (cM (cA (cA (cN 3) (cM (cN 5) (cH 0))) (cM (cN 2) (cW (cH 0) 4))) (cA (cN (-1)) (cM (cN 2) (cV 1)))) (cA (cN 1) (cM (cN 2) (cV 1))))))).
Definition SPSU2T_e639 := (cD (cM (cQ (-1) 2) (cM (cA (cN 3) (cM (cN 2) (cH 0))) (cA (cN (-1)) (cV 1)))) (cR (cD (cM (cM (cM (cA (cA (cN 3) (cM (cN 5) (cH 0))) (cM (cN 2) (cW (cH 0) 4))) (cA (cN (-1)) (cV 1))) (cV 1)) (cA (cN (-2)) (cM (cN 4) (cV 1)))) (cA (cN 1) (cM (cN 2) (cV 1)))))).
Definition SPSU2T_e640 := (cD (cM (cQ (-1) 2) (cM (cA (cN 3) (cM (cN 2) (cH 0))) (cA (cN 1) (cV 1)))) (cM (cR (cN 2)) (cR (cD (cM (cM (cA (cA (cN 3) (cM (cN 5) (cH 0))) (cM (cN 2) (cW (cH 0) 4))) (cV 1)) (cA (cA (cN (-1)) (cV 1)) (cM (cN 2) (cW (cV 1) 4)))) (cA (cN 1) (cM (cN 2) (cV 1))))))).
Definition SPSU2T_e641 := (cD (cM (cQ (-1) 2) (cM (cA (cN 3) (cM (cN 2) (cH 0))) (cA (cN 1) (cV 1)))) (cM (cR (cN 2)) (cR (cM (cM (cA (cA (cN 3) (cM (cN 5) (cH 0))) (cM (cN 2) (cW (cH 0) 4))) (cV 1)) (cA (cN 1) (cV 1)))))).
Definition SPSU2T_e642 := (cO (cD (cR (cD (cM (cM (cA (cA (cN 3) (cM (cN 5) (cH 0))) (cM (cN 2) (cW (cH 0) 4))) (cV 1)) (cA (cA (cN 3) (cM (cN 5) (cV 1))) (cM (cN 2) (cW (cV 1) 4)))) (cA (cN (-1)) (cM (cN 2) (cV 1))))) (cM (cR (cN 6)) (cA (cM (cN 2) (cV 1)) (cM (cM (cN 2) (cH 0)) (cV 1)))))).
Definition SPSU2T_e643 := (cD (cA (cN 3) (cM (cN 2) (cH 0))) (cM (cR (cN 3)) (cR (cD (cM (cA (cA (cN 3) (cM (cN 5) (cH 0))) (cM (cN 2) (cW (cH 0) 4))) (cA (cN (-1)) (cM (cN 2) (cV 1)))) (cA (cN 1) (cM (cN 2) (cV 1))))))).
Definition SPSU2T_e644 := (cD (cA (cN 2) (cH 0)) (cM (cR (cN 3)) (cR (cD (cM (cA (cA (cN 2) (cM (cN 3) (cH 0))) (cW (cH 0) 4)) (cA (cN (-1)) (cM (cN 2) (cV 1)))) (cA (cN 1) (cM (cN 2) (cV 1))))))).
Definition SPSU2T_e645 := (cO (cD (cR (cD (cM (cA (cN 1) (cM (cN 2) (cH 0))) (cA (cN 1) (cM (cN 2) (cV 1)))) (cM (cH 0) (cA (cN 3) (cM (cN 2) (cV 1)))))) (cR (cN 6)))).
Definition SPSU2T_e646 := (cR (cD (cA (cA (cA (cN 1) (cM (cN 2) (cH 0))) (cM (cN 2) (cV 1))) (cM (cM (cN 4) (cH 0)) (cV 1))) (cA (cM (cN 9) (cH 0)) (cM (cM (cN 6) (cH 0)) (cV 1))))).
Definition SPSU2T_e647 := (cR (cD (cA (cA (cA (cN 1) (cM (cN 2) (cH 0))) (cM (cN 2) (cV 1))) (cM (cM (cN 4) (cH 0)) (cV 1))) (cA (cM (cN 6) (cH 0)) (cM (cM (cN 4) (cH 0)) (cV 1))))).
Definition SPSU2T_e648 := (cO (cD (cR (cA (cN 2) (cD (cN 1) (cH 0)))) (cR (cN 2)))).
Definition SPSU2T_e649 := (cD (cB (cN (-2)) (cV 1)) (cM (cN 2) (cR (cD (cM (cH 0) (cA (cA (cN 2) (cM (cN 3) (cV 1))) (cW (cV 1) 4))) (cA (cN 1) (cM (cN 2) (cH 0))))))).
Definition SPSU2T_e650 := (cD (cM (cQ (-1) 2) (cA (cA (cN 10) (cM (cN 9) (cV 1))) (cM (cN 2) (cW (cV 1) 4)))) (cM (cR (cN 3)) (cR (cD (cM (cH 0) (cA (cA (cA (cA (cN 30) (cM (cN 77) (cV 1))) (cM (cN 71) (cW (cV 1) 4))) (cM (cN 28) (cW (cV 1) 6))) (cM (cN 4) (cW (cV 1) 8)))) (cA (cN 1) (cM (cN 2) (cH 0))))))).
Definition SPSU2T_e651 := (cD (cR (cA (cN 2) (cD (cN 1) (cH 0)))) (cN 2)).
Definition SPSU2T_e652 := (cD (cA (cN (-1)) (cV 1)) (cM (cN 2) (cR (cD (cM (cH 0) (cA (cN (-1)) (cW (cV 1) 4))) (cA (cN 1) (cM (cN 2) (cH 0))))))).
Definition SPSU2T_e653 := (cD (cA (cN 2) (cV 1)) (cM (cM (cN 2) (cR (cN 2))) (cR (cD (cM (cH 0) (cA (cA (cN 2) (cM (cN 3) (cV 1))) (cW (cV 1) 4))) (cA (cN 1) (cM (cN 2) (cH 0))))))).
Definition SPSU2T_e654 := (cD (cM (cM (cR (cQ 3 2)) (cA (cN 2) (cV 1))) (cA (cN (-1)) (cM (cN 2) (cV 1)))) (cM (cN 2) (cR (cD (cM (cH 0) (cA (cA (cA (cB (cN (-6)) (cV 1)) (cM (cN 17) (cW (cV 1) 4))) (cM (cN 16) (cW (cV 1) 6))) (cM (cN 4) (cW (cV 1) 8)))) (cA (cN 1) (cM (cN 2) (cH 0))))))).
Definition SPSU2T_e655 := (cD (cA (cA (cN 10) (cM (cN 9) (cV 1))) (cM (cN 2) (cW (cV 1) 4))) (cM (cM (cN 2) (cR (cN 6))) (cR (cD (cM (cM (cH 0) (cA (cN 3) (cM (cN 2) (cV 1)))) (cA (cA (cA (cN 10) (cM (cN 19) (cV 1))) (cM (cN 11) (cW (cV 1) 4))) (cM (cN 2) (cW (cV 1) 6)))) (cA (cN 1) (cM (cN 2) (cH 0))))))).
Definition SPSU2T_e656 := (cD (cM (cM (cV 1) (cA (cN 5) (cM (cN 2) (cV 1)))) (cR (cD (cA (cA (cA (cN 3) (cM (cN 6) (cH 0))) (cM (cN 3) (cV 1))) (cM (cM (cN 6) (cH 0)) (cV 1))) (cA (cA (cM (cM (cN 30) (cH 0)) (cV 1)) (cM (cM (cN 32) (cH 0)) (cW (cV 1) 4))) (cM (cM (cN 8) (cH 0)) (cW (cV 1) 6)))))) (cM (cN 2) (cA (cN 1) (cV 1)))).
Definition SPSU2T_e657 := (cD (cM (cR (cA (cN 2) (cD (cN 1) (cH 0)))) (cA (cA (cA (cA (cM (cN 5) (cR (cD (cA (cA (cN 3) (cM (cN 8) (cV 1))) (cM (cN 4) (cW (cV 1) 4))) (cA (cA (cN 3) (cM (cN 4) (cV 1))) (cW (cV 1) 4))))) (cM (cM (cN 6) (cV 1)) (cR (cD (cA (cA (cN 3) (cM (cN 8) (cV 1))) (cM (cN 4) (cW (cV 1) 4))) (cA (cA (cN 3) (cM (cN 4) (cV 1))) (cW (cV 1) 4)))))) (cM (cW (cV 1) 4) (cR (cD (cA (cA (cN 3) (cM (cN 8) (cV 1))) (cM (cN 4) (cW (cV 1) 4))) (cA (cA (cN 3) (cM (cN 4) (cV 1))) (cW (cV 1) 4)))))) (cM (cN 15) (cR (cD (cA (cN 1) (cM (cN 2) (cV 1))) (cA (cA (cA (cN 9) (cM (cN 18) (cV 1))) (cM (cN 11) (cW (cV 1) 4))) (cM (cN 2) (cW (cV 1) 6))))))) (cM (cM (cN 9) (cV 1)) (cR (cD (cA (cN 1) (cM (cN 2) (cV 1))) (cA (cA (cA (cN 9) (cM (cN 18) (cV 1))) (cM (cN 11) (cW (cV 1) 4))) (cM (cN 2) (cW (cV 1) 6)))))))) (cA (cA (cN 20) (cM (cN 18) (cV 1))) (cM (cN 4) (cW (cV 1) 4)))).
Definition SPSU2T_e658 := (cD (cM (cQ (-1) 2) (cV 1)) (cR (cD (cM (cM (cH 0) (cV 1)) (cA (cN 1) (cV 1))) (cA (cN 1) (cM (cN 2) (cH 0)))))).
Definition SPSU2T_e659 := (cM (cQ (-1) 2) (cM (cA (cN 2) (cV 1)) (cR (cD (cM (cA (cN 1) (cM (cN 2) (cH 0))) (cA (cN 1) (cM (cN 2) (cV 1)))) (cM (cH 0) (cA (cA (cA (cN 6) (cM (cN 13) (cV 1))) (cM (cN 9) (cW (cV 1) 4))) (cM (cN 2) (cW (cV 1) 6)))))))).
Definition SPSU2T_e660 := (cD (cM (cQ (-1) 2) (cA (cN 1) (cH 0))) (cR (cD (cM (cM (cH 0) (cA (cN 1) (cH 0))) (cA (cN 1) (cV 1))) (cV 1)))).
Definition SPSU2T_e661 := (cD (cM (cQ (-1) 2) (cM (cA (cN 1) (cH 0)) (cA (cN 2) (cV 1)))) (cR (cD (cM (cM (cH 0) (cA (cN 1) (cH 0))) (cA (cA (cA (cN 6) (cM (cN 13) (cV 1))) (cM (cN 9) (cW (cV 1) 4))) (cM (cN 2) (cW (cV 1) 6)))) (cA (cN 1) (cM (cN 2) (cV 1)))))).
Definition SPSU2T_e662 := (cD (cR (cA (cA (cN 3) (cM (cN 8) (cV 1))) (cM (cN 4) (cW (cV 1) 4)))) (cM (cR (cN 2)) (cA (cN 3) (cM (cN 2) (cV 1))))).
Definition SPSU2T_e663 := (cD (cN 1) (cM (cR (cN 2)) (cR (cD (cM (cH 0) (cA (cN 1) (cV 1))) (cA (cV 1) (cM (cM (cN 2) (cH 0)) (cV 1))))))).
Definition SPSU2T_e664 := (cD (cM (cA (cN 2) (cV 1)) (cR (cD (cM (cA (cN 1) (cM (cN 2) (cH 0))) (cA (cN 1) (cM (cN 2) (cV 1)))) (cM (cH 0) (cA (cA (cA (cN 6) (cM (cN 13) (cV 1))) (cM (cN 9) (cW (cV 1) 4))) (cM (cN 2) (cW (cV 1) 6))))))) (cR (cN 2))).
Definition SPSU2T_e665 := (cD (cM (cA (cN 1) (cH 0)) (cV 1)) (cM (cR (cN 2)) (cR (cM (cM (cM (cH 0) (cA (cN 1) (cH 0))) (cV 1)) (cA (cN 1) (cV 1)))))).
Definition SPSU2T_e666 := (cD (cM (cA (cN 1) (cH 0)) (cA (cN 2) (cV 1))) (cM (cR (cN 2)) (cR (cD (cM (cM (cH 0) (cA (cN 1) (cH 0))) (cA (cA (cA (cN 6) (cM (cN 13) (cV 1))) (cM (cN 9) (cW (cV 1) 4))) (cM (cN 2) (cW (cV 1) 6)))) (cA (cN 1) (cM (cN 2) (cV 1))))))).
Definition SPSU2T_e667 := (cD (cR (cA (cA (cN 3) (cM (cN 8) (cV 1))) (cM (cN 4) (cW (cV 1) 4)))) (cA (cN 3) (cM (cN 2) (cV 1)))).
Definition SPSU2T_e668 := (cD (cR (cA (cN 2) (cD (cN 1) (cH 0)))) (cR (cN 2))).
Definition SPSU2T_e669 := (cD (cA (cN 2) (cV 1)) (cM (cN 2) (cR (cD (cM (cH 0) (cA (cA (cN 2) (cM (cN 3) (cV 1))) (cW (cV 1) 4))) (cA (cN 1) (cM (cN 2) (cH 0))))))).
Definition SPSU2T_e670 := (cD (cA (cA (cN 10) (cM (cN 9) (cV 1))) (cM (cN 2) (cW (cV 1) 4))) (cM (cM (cN 2) (cR (cN 3))) (cR (cD (cM (cM (cH 0) (cA (cN 3) (cM (cN 2) (cV 1)))) (cA (cA (cA (cN 10) (cM (cN 19) (cV 1))) (cM (cN 11) (cW (cV 1) 4))) (cM (cN 2) (cW (cV 1) 6)))) (cA (cN 1) (cM (cN 2) (cH 0))))))).
Definition SPSU2T_e671 := (cD (cR (cA (cN 1) (cD (cN 1) (cH 0)))) (cR (cN 2))).
Definition SPSU2T_e672 := (cD (cM (cA (cN 1) (cH 0)) (cA (cN 2) (cV 1))) (cM (cN 2) (cR (cM (cM (cH 0) (cA (cN 1) (cH 0))) (cA (cA (cN 2) (cM (cN 3) (cV 1))) (cW (cV 1) 4)))))).
Definition SPSU2T_e673 := (cD (cM (cM (cR (cN 3)) (cV 1)) (cA (cA (cM (cN 9) (cR (cD (cM (cM (cH 0) (cV 1)) (cA (cN 1) (cM (cN 2) (cV 1)))) (cA (cA (cN 6) (cM (cN 7) (cV 1))) (cM (cN 2) (cW (cV 1) 4)))))) (cM (cN 2) (cR (cD (cM (cM (cH 0) (cW (cV 1) 6)) (cA (cN 1) (cM (cN 2) (cV 1)))) (cA (cA (cN 6) (cM (cN 7) (cV 1))) (cM (cN 2) (cW (cV 1) 4))))))) (cM (cN 10) (cR (cD (cA (cH 0) (cM (cM (cN 2) (cH 0)) (cV 1))) (cA (cA (cM (cN 6) (cV 1)) (cM (cN 7) (cW (cV 1) 4))) (cM (cN 2) (cW (cV 1) 6)))))))) (cM (cN 2) (cR (cM (cH 0) (cA (cA (cA (cA (cN 10) (cM (cN 39) (cV 1))) (cM (cN 49) (cW (cV 1) 4))) (cM (cN 24) (cW (cV 1) 6))) (cM (cN 4) (cW (cV 1) 8))))))).
Definition SPSU2T_e674 := (cD (cA (cA (cN 10) (cM (cN 9) (cV 1))) (cM (cN 2) (cW (cV 1) 4))) (cM (cM (cN 2) (cR (cN 3))) (cR (cD (cM (cM (cH 0) (cA (cN 3) (cM (cN 2) (cV 1)))) (cA (cA (cA (cN 10) (cM (cN 19) (cV 1))) (cM (cN 11) (cW (cV 1) 4))) (cM (cN 2) (cW (cV 1) 6)))) (cA (cN 1) (cH 0)))))).
Definition SPSU2T_e675 := (cD (cA (cA (cA (cA (cA (cR (cD (cM (cM (cM (cH 0) (cA (cN 2) (cV 1))) (cA (cN 1) (cM (cN 2) (cV 1)))) (cA (cN 3) (cM (cN 2) (cV 1)))) (cA (cN 5) (cM (cN 2) (cV 1))))) (cM (cV 1) (cR (cD (cM (cM (cM (cH 0) (cA (cN 2) (cV 1))) (cA (cN 1) (cM (cN 2) (cV 1)))) (cA (cN 3) (cM (cN 2) (cV 1)))) (cA (cN 5) (cM (cN 2) (cV 1))))))) (cM (cN 3) (cR (cD (cM (cH 0) (cA (cA (cN 3) (cM (cN 8) (cV 1))) (cM (cN 4) (cW (cV 1) 4)))) (cA (cA (cN 10) (cM (cN 9) (cV 1))) (cM (cN 2) (cW (cV 1) 4))))))) (cM (cM (cN 3) (cV 1)) (cR (cD (cM (cH 0) (cA (cA (cN 3) (cM (cN 8) (cV 1))) (cM (cN 4) (cW (cV 1) 4)))) (cA (cA (cN 10) (cM (cN 9) (cV 1))) (cM (cN 2) (cW (cV 1) 4))))))) (cM (cN 15) (cR (cD (cA (cH 0) (cM (cM (cN 2) (cH 0)) (cV 1))) (cA (cA (cA (cN 30) (cM (cN 47) (cV 1))) (cM (cN 24) (cW (cV 1) 4))) (cM (cN 4) (cW (cV 1) 6))))))) (cM (cM (cN 9) (cV 1)) (cR (cD (cA (cH 0) (cM (cM (cN 2) (cH 0)) (cV 1))) (cA (cA (cA (cN 30) (cM (cN 47) (cV 1))) (cM (cN 24) (cW (cV 1) 4))) (cM (cN 4) (cW (cV 1) 6))))))) (cM (cR (cN 2)) (cR (cM (cH 0) (cA (cA (cA (cA (cN 30) (cM (cN 67) (cV 1))) (cM (cN 52) (cW (cV 1) 4))) (cM (cN 17) (cW (cV 1) 6))) (cM (cN 2) (cW (cV 1) 8))))))).
Definition SPSU2T_e676 := (cD (cM (cA (cN (-1)) (cM (cN 2) (cH 0))) (cV 1)) (cM (cN 2) (cR (cM (cM (cM (cH 0) (cA (cN (-1)) (cM (cN 2) (cH 0)))) (cV 1)) (cA (cN 1) (cV 1)))))).
Definition SPSU2T_e677 := (cD (cM (cA (cN (-1)) (cM (cN 2) (cH 0))) (cA (cN 2) (cV 1))) (cM (cN 2) (cR (cD (cM (cM (cM (cH 0) (cA (cN (-1)) (cM (cN 2) (cH 0)))) (cA (cN 3) (cM (cN 2) (cV 1)))) (cA (cA (cN 2) (cM (cN 3) (cV 1))) (cW (cV 1) 4))) (cA (cN 1) (cM (cN 2) (cV 1))))))).
Definition SPSU2T_e678 := (cD (cM (cA (cN (-1)) (cM (cN 2) (cH 0))) (cV 1)) (cM (cM (cN 2) (cR (cN 2))) (cR (cM (cM (cM (cH 0) (cA (cN (-1)) (cM (cN 2) (cH 0)))) (cV 1)) (cA (cN 1) (cV 1)))))).
Definition SPSU2T_e679 := (cD (cM (cQ (-1) 2) (cM (cM (cA (cN (-1)) (cM (cN 2) (cH 0))) (cV 1)) (cA (cN (-1)) (cM (cN 2) (cV 1))))) (cM (cR (cN 6)) (cR (cM (cM (cM (cH 0) (cA (cN (-1)) (cM (cN 2) (cH 0)))) (cV 1)) (cA (cA (cA (cN (-3)) (cV 1)) (cM (cN 8) (cW (cV 1) 4))) (cM (cN 4) (cW (cV 1) 6))))))).
Definition SPSU2T_e680 := (cD (cM (cR (cQ 2 3)) (cA (cN 1) (cH 0))) (cR (cM (cH 0) (cA (cN 1) (cH 0))))).
Definition SPSU2T_e681 := (cD (cM (cA (cN (-1)) (cM (cN 2) (cH 0))) (cA (cN 2) (cV 1))) (cM (cM (cN 2) (cR (cN 2))) (cR (cD (cM (cM (cM (cH 0) (cA (cN (-1)) (cM (cN 2) (cH 0)))) (cA (cN 3) (cM (cN 2) (cV 1)))) (cA (cA (cN 2) (cM (cN 3) (cV 1))) (cW (cV 1) 4))) (cA (cN 1) (cM (cN 2) (cV 1))))))).
Definition SPSU2T_e682 := (cD (cM (cQ (-1) 2) (cM (cV 1) (cR (cM (cA (cN (-1)) (cM (cN 2) (cH 0))) (cA (cA (cN 1) (cM (cN 3) (cV 1))) (cM (cN 2) (cW (cV 1) 4))))))) (cM (cM (cR (cN 2)) (cA (cN 1) (cV 1))) (cR (cM (cM (cH 0) (cV 1)) (cA (cN 3) (cM (cN 2) (cV 1))))))).
Definition SPSU2T_e683 := (cD (cB (cN 1) (cM (cN 2) (cH 0))) (cM (cN 2) (cR (cD (cM (cM (cH 0) (cA (cN (-1)) (cM (cN 2) (cH 0)))) (cA (cN 3) (cM (cN 2) (cV 1)))) (cA (cN 1) (cM (cN 2) (cV 1))))))).
Definition SPSU2T_e684 := (cD (cV 1) (cM (cR (cN 2)) (cR (cM (cV 1) (cA (cN 1) (cV 1)))))).
Definition SPSU2T_e685 := (cD (cR (cA (cN 2) (cD (cN 3) (cH 0)))) (cR (cN 6))).
Definition SPSU2T_e686 := (cO (cD (cM (cV 1) (cA (cR (cD (cM (cV 1) (cA (cN 1) (cM (cN 2) (cV 1)))) (cA (cA (cN 3) (cM (cN 5) (cV 1))) (cM (cN 2) (cW (cV 1) 4))))) (cM (cN 2) (cR (cD (cA (cN 1) (cM (cN 2) (cV 1))) (cA (cA (cM (cN 3) (cV 1)) (cM (cN 5) (cW (cV 1) 4))) (cM (cN 2) (cW (cV 1) 6)))))))) (cM (cR (cN 2)) (cA (cN 2) (cV 1))))).
Definition SPSU2T_e687 := (cD (cB (cB (cB (cB (cB (cO (cR (cD (cM (cM (cM (cH 0) (cA (cN 2) (cV 1))) (cA (cN 1) (cM (cN 2) (cV 1)))) (cA (cN 3) (cM (cN 2) (cV 1)))) (cM (cA (cN 1) (cH 0)) (cA (cN 5) (cM (cN 2) (cV 1))))))) (cM (cA (cN 1) (cM (cN 2) (cH 0))) (cR (cD (cM (cM (cM (cH 0) (cA (cN 2) (cV 1))) (cA (cN 1) (cM (cN 2) (cV 1)))) (cA (cN 3) (cM (cN 2) (cV 1)))) (cM (cA (cN 1) (cH 0)) (cA (cN 5) (cM (cN 2) (cV 1)))))))) (cR (cD (cM (cH 0) (cA (cA (cN 3) (cM (cN 8) (cV 1))) (cM (cN 4) (cW (cV 1) 4)))) (cM (cA (cN 1) (cH 0)) (cA (cA (cN 10) (cM (cN 9) (cV 1))) (cM (cN 2) (cW (cV 1) 4))))))) (cM (cA (cN 1) (cM (cN 2) (cH 0))) (cR (cD (cM (cH 0) (cA (cA (cN 3) (cM (cN 8) (cV 1))) (cM (cN 4) (cW (cV 1) 4)))) (cM (cA (cN 1) (cH 0)) (cA (cA (cN 10) (cM (cN 9) (cV 1))) (cM (cN 2) (cW (cV 1) 4)))))))) (cD (cR (cD (cM (cM (cM (cH 0) (cA (cN 1) (cM (cN 2) (cV 1)))) (cA (cN 3) (cM (cN 2) (cV 1)))) (cA (cA (cN 10) (cM (cN 9) (cV 1))) (cM (cN 2) (cW (cV 1) 4)))) (cA (cN 1) (cH 0)))) (cA (cA (cA (cN 30) (cM (cN 47) (cV 1))) (cM (cN 24) (cW (cV 1) 4))) (cM (cN 4) (cW (cV 1) 6))))) (cD (cM (cA (cN 1) (cM (cN 2) (cH 0))) (cR (cD (cM (cM (cM (cH 0) (cA (cN 1) (cM (cN 2) (cV 1)))) (cA (cN 3) (cM (cN 2) (cV 1)))) (cA (cA (cN 10) (cM (cN 9) (cV 1))) (cM (cN 2) (cW (cV 1) 4)))) (cA (cN 1) (cH 0))))) (cA (cA (cA (cN 30) (cM (cN 47) (cV 1))) (cM (cN 24) (cW (cV 1) 4))) (cM (cN 4) (cW (cV 1) 6))))) (cM (cN 2) (cR (cM (cM (cH 0) (cA (cN 1) (cH 0))) (cA (cA (cN 10) (cM (cN 9) (cV 1))) (cM (cN 2) (cW (cV 1) 4))))))).
Definition SPSU2T_e688 := (cD (cA (cN (-1)) (cH 0)) (cM (cR (cN 3)) (cR (cD (cM (cM (cA (cN (-1)) (cH 0)) (cH 0)) (cA (cN 3) (cM (cN 2) (cV 1)))) (cA (cN 1) (cM (cN 2) (cV 1))))))).
Definition SPSU2T_e689 := (cD (cA (cN (-1)) (cM (cN 2) (cH 0))) (cM (cR (cN 3)) (cR (cD (cM (cM (cH 0) (cA (cN (-1)) (cM (cN 2) (cH 0)))) (cA (cN 3) (cM (cN 2) (cV 1)))) (cA (cN 1) (cM (cN 2) (cV 1))))))).
Definition SPSU2T_e690 := (cD (cR (cA (cN 2) (cD (cN 1) (cH 0)))) (cR (cN 6))).
Definition SPSU2T_e691 := (cO (cD (cR (cA (cN 2) (cD (cN 1) (cH 0)))) (cR (cN 3)))).
Definition SPSU2T_e692 := (cD (cB (cN 1) (cV 1)) (cM (cN 2) (cR (cD (cM (cM (cH 0) (cA (cN (-1)) (cV 1))) (cV 1)) (cA (cN 1) (cM (cN 2) (cH 0))))))).
Definition SPSU2T_e693 := (cD (cB (cB (cN 3) (cM (cN 4) (cV 1))) (cM (cN 4) (cW (cV 1) 4))) (cM (cM (cN 2) (cR (cN 3))) (cR (cD (cM (cM (cH 0) (cV 1)) (cA (cA (cA (cN (-3)) (cV 1)) (cM (cN 8) (cW (cV 1) 4))) (cM (cN 4) (cW (cV 1) 6)))) (cA (cN 1) (cM (cN 2) (cH 0))))))).
Definition SPSU2T_e694 := (cM (cQ (-1) 2) (cR (cD (cA (cA (cA (cN 2) (cM (cN 4) (cH 0))) (cV 1)) (cM (cM (cN 2) (cH 0)) (cV 1))) (cA (cH 0) (cM (cH 0) (cV 1)))))).
Definition SPSU2T_e695 := (cO (cD (cR (cD (cM (cA (cN 1) (cM (cN 2) (cH 0))) (cA (cN 1) (cV 1))) (cM (cH 0) (cV 1)))) (cR (cN 2)))).
Definition SPSU2T_e696 := (cD (cA (cN (-1)) (cV 1)) (cM (cM (cN 2) (cR (cN 2))) (cR (cD (cM (cM (cH 0) (cA (cN (-1)) (cV 1))) (cV 1)) (cA (cN 1) (cM (cN 2) (cH 0))))))).
Definition SPSU2T_e697 := (cD (cM (cQ (-1) 2) (cA (cN 3) (cV 1))) (cM (cR (cN 2)) (cR (cD (cM (cM (cH 0) (cV 1)) (cA (cN 1) (cV 1))) (cA (cN 1) (cM (cN 2) (cH 0))))))).
Definition SPSU2T_e698 := (cD (cA (cA (cN (-3)) (cM (cN 4) (cV 1))) (cM (cN 4) (cW (cV 1) 4))) (cM (cM (cN 2) (cR (cN 6))) (cR (cD (cM (cM (cH 0) (cV 1)) (cA (cA (cA (cN (-3)) (cV 1)) (cM (cN 8) (cW (cV 1) 4))) (cM (cN 4) (cW (cV 1) 6)))) (cA (cN 1) (cM (cN 2) (cH 0))))))).
Definition SPSU2T_e699 := (cD (cM (cN (-3)) (cA (cB (cA (cM (cN 4) (cR (cD (cM (cM (cH 0) (cV 1)) (cA (cN (-1)) (cM (cN 2) (cV 1)))) (cA (cA (cN 3) (cM (cN 5) (cV 1))) (cM (cN 2) (cW (cV 1) 4)))))) (cR (cD (cM (cH 0) (cV 1)) (cA (cA (cA (cN (-3)) (cV 1)) (cM (cN 8) (cW (cV 1) 4))) (cM (cN 4) (cW (cV 1) 6)))))) (cM (cM (cN 4) (cV 1)) (cR (cD (cM (cH 0) (cV 1)) (cA (cA (cA (cN (-3)) (cV 1)) (cM (cN 8) (cW (cV 1) 4))) (cM (cN 4) (cW (cV 1) 6))))))) (cM (cN 4) (cR (cD (cM (cH 0) (cW (cV 1) 10)) (cA (cA (cA (cN (-3)) (cV 1)) (cM (cN 8) (cW (cV 1) 4))) (cM (cN 4) (cW (cV 1) 6)))))))) (cM (cM (cM (cN 2) (cH 0)) (cV 1)) (cR (cD (cA (cA (cN (-6)) (cM (cN 8) (cV 1))) (cM (cN 8) (cW (cV 1) 4))) (cA (cN 1) (cM (cN 2) (cH 0))))))).
Definition SPSU2T_e700 := (cD (cR (cD (cM (cA (cN 1) (cM (cN 2) (cH 0))) (cA (cN 2) (cV 1))) (cM (cH 0) (cA (cN 1) (cV 1))))) (cM (cN 2) (cR (cN 2)))).
Definition SPSU2T_e701 := (cD (cB (cB (cM (cM (cW (cV 1) 4) (cA (cN 1) (cM (cN 2) (cV 1)))) (cR (cD (cM (cH 0) (cA (cN 1) (cV 1))) (cM (cV 1) (cA (cA (cN 6) (cM (cN 7) (cV 1))) (cM (cN 2) (cW (cV 1) 4))))))) (cM (cN 12) (cR (cD (cM (cH 0) (cV 1)) (cA (cA (cA (cN 6) (cM (cN 13) (cV 1))) (cM (cN 9) (cW (cV 1) 4))) (cM (cN 2) (cW (cV 1) 6))))))) (cM (cN 9) (cR (cD (cM (cH 0) (cW (cV 1) 6)) (cA (cA (cA (cN 6) (cM (cN 13) (cV 1))) (cM (cN 9) (cW (cV 1) 4))) (cM (cN 2) (cW (cV 1) 6))))))) (cM (cM (cM (cM (cN 2) (cR (cN 2))) (cH 0)) (cV 1)) (cR (cD (cA (cA (cN 6) (cM (cN 7) (cV 1))) (cM (cN 2) (cW (cV 1) 4))) (cA (cN 1) (cM (cN 2) (cH 0))))))).
Definition SPSU2T_e702 := (cD (cV 1) (cM (cR (cN 2)) (cR (cD (cM (cM (cH 0) (cV 1)) (cA (cN 1) (cV 1))) (cA (cN 1) (cM (cN 2) (cH 0))))))).
Definition SPSU2T_e703 := (cD (cR (cD (cM (cA (cN 1) (cM (cN 2) (cH 0))) (cA (cN 1) (cV 1))) (cM (cH 0) (cV 1)))) (cN 2)).
Definition SPSU2T_e704 := (cD (cN 1) (cM (cN 2) (cR (cD (cM (cM (cH 0) (cV 1)) (cA (cN 1) (cV 1))) (cA (cN 1) (cM (cN 2) (cH 0))))))).
Definition SPSU2T_e705 := (cM (cQ (-1) 2) (cR (cD (cA (cN (-1)) (cV 1)) (cV 1)))).
Definition SPSU2T_e706 := (cD (cA (cN 1) (cH 0)) (cM (cN 2) (cR (cD (cM (cM (cH 0) (cA (cN 1) (cH 0))) (cV 1)) (cA (cN 1) (cV 1)))))).
Definition SPSU2T_e707 := (cD (cM (cQ (-1) 2) (cM (cA (cN (-1)) (cM (cN 2) (cV 1))) (cA (cM (cN 3) (cR (cD (cM (cH 0) (cV 1)) (cA (cA (cA (cN 1) (cM (cN 2) (cH 0))) (cV 1)) (cM (cM (cN 2) (cH 0)) (cV 1)))))) (cM (cM (cN 2) (cW (cV 1) 4)) (cR (cD (cH 0) (cM (cA (cN 1) (cM (cN 2) (cH 0))) (cA (cV 1) (cW (cV 1) 4))))))))) (cM (cM (cR (cN 3)) (cV 1)) (cR (cD (cM (cH 0) (cA (cA (cN (-3)) (cM (cN 4) (cV 1))) (cM (cN 4) (cW (cV 1) 4)))) (cA (cN 1) (cM (cN 2) (cH 0))))))).
Definition SPSU2T_e708 := (cD (cA (cN 1) (cH 0)) (cM (cN 2) (cR (cM (cM (cM (cH 0) (cA (cN 1) (cH 0))) (cV 1)) (cA (cN 1) (cV 1)))))).
Definition SPSU2T_e709 := (cD (cM (cQ (-1) 2) (cM (cA (cN 1) (cH 0)) (cV 1))) (cR (cM (cM (cM (cH 0) (cA (cN 1) (cH 0))) (cV 1)) (cA (cN 1) (cV 1))))).
Definition SPSU2T_e710 := (cO (cD (cN 1) (cM (cR (cN 2)) (cR (cD (cM (cM (cH 0) (cV 1)) (cA (cN 1) (cV 1))) (cA (cN 1) (cM (cN 2) (cH 0)))))))).
Definition SPSU2T_e711 := (cO (cD (cA (cN 1) (cH 0)) (cM (cR (cN 2)) (cR (cD (cM (cM (cH 0) (cA (cN 1) (cH 0))) (cV 1)) (cA (cN 1) (cV 1))))))).
Definition SPSU2T_e712 := (cO (cD (cM (cA (cN (-1)) (cM (cN 2) (cV 1))) (cA (cM (cN 3) (cR (cD (cM (cH 0) (cV 1)) (cA (cA (cA (cN 1) (cM (cN 2) (cH 0))) (cV 1)) (cM (cM (cN 2) (cH 0)) (cV 1)))))) (cM (cM (cN 2) (cW (cV 1) 4)) (cR (cD (cH 0) (cM (cA (cN 1) (cM (cN 2) (cH 0))) (cA (cV 1) (cW (cV 1) 4)))))))) (cM (cM (cR (cN 6)) (cV 1)) (cR (cD (cM (cH 0) (cA (cA (cN (-3)) (cM (cN 4) (cV 1))) (cM (cN 4) (cW (cV 1) 4)))) (cA (cN 1) (cM (cN 2) (cH 0)))))))).
Definition SPSU2T_e713 := (cO (cD (cA (cN 1) (cH 0)) (cM (cR (cN 2)) (cR (cM (cM (cM (cH 0) (cA (cN 1) (cH 0))) (cV 1)) (cA (cN 1) (cV 1))))))).
Definition SPSU2T_e714 := (cD (cA (cN (-1)) (cV 1)) (cM (cN 2) (cR (cD (cM (cM (cH 0) (cA (cN (-1)) (cV 1))) (cV 1)) (cA (cN 1) (cM (cN 2) (cH 0))))))).
Definition SPSU2T_e715 := (cD (cA (cA (cN (-3)) (cM (cN 4) (cV 1))) (cM (cN 4) (cW (cV 1) 4))) (cM (cM (cN 2) (cR (cN 3))) (cR (cD (cM (cM (cH 0) (cV 1)) (cA (cA (cA (cN (-3)) (cV 1)) (cM (cN 8) (cW (cV 1) 4))) (cM (cN 4) (cW (cV 1) 6)))) (cA (cN 1) (cM (cN 2) (cH 0))))))).
Definition SPSU2T_e716 := (cD (cM (cA (cN 1) (cM (cN 2) (cV 1))) (cA (cA (cR (cD (cM (cA (cN (-1)) (cM (cN 2) (cH 0))) (cA (cN 1) (cV 1))) (cA (cN 3) (cM (cN 2) (cV 1))))) (cM (cN 2) (cR (cD (cA (cN (-1)) (cM (cN 2) (cH 0))) (cA (cA (cN 3) (cM (cN 5) (cV 1))) (cM (cN 2) (cW (cV 1) 4))))))) (cD (cM (cN 3) (cR (cD (cA (cN (-1)) (cM (cN 2) (cH 0))) (cA (cA (cN 3) (cM (cN 5) (cV 1))) (cM (cN 2) (cW (cV 1) 4)))))) (cA (cN 1) (cM (cN 2) (cV 1)))))) (cM (cN 2) (cR (cD (cM (cM (cH 0) (cA (cN (-1)) (cM (cN 2) (cH 0)))) (cA (cA (cN 6) (cM (cN 7) (cV 1))) (cM (cN 2) (cW (cV 1) 4)))) (cA (cN 1) (cM (cN 2) (cH 0))))))).
Definition SPSU2T_e717 := (cD (cM (cQ (-1) 2) (cA (cN 3) (cV 1))) (cR (cM (cV 1) (cA (cN 1) (cV 1))))).
Definition SPSU2T_e718 := (cD (cM (cA (cN 1) (cH 0)) (cA (cN (-1)) (cV 1))) (cM (cN 2) (cR (cM (cM (cM (cH 0) (cA (cN 1) (cH 0))) (cA (cN (-1)) (cV 1))) (cV 1))))).
Definition SPSU2T_e719 := (cD (cM (cN (-3)) (cA (cB (cA (cM (cN 4) (cR (cD (cM (cM (cH 0) (cV 1)) (cA (cN (-1)) (cM (cN 2) (cV 1)))) (cA (cA (cN 3) (cM (cN 5) (cV 1))) (cM (cN 2) (cW (cV 1) 4)))))) (cR (cD (cM (cH 0) (cV 1)) (cA (cA (cA (cN (-3)) (cV 1)) (cM (cN 8) (cW (cV 1) 4))) (cM (cN 4) (cW (cV 1) 6)))))) (cM (cM (cN 4) (cV 1)) (cR (cD (cM (cH 0) (cV 1)) (cA (cA (cA (cN (-3)) (cV 1)) (cM (cN 8) (cW (cV 1) 4))) (cM (cN 4) (cW (cV 1) 6))))))) (cM (cN 4) (cR (cD (cM (cH 0) (cW (cV 1) 10)) (cA (cA (cA (cN (-3)) (cV 1)) (cM (cN 8) (cW (cV 1) 4))) (cM (cN 4) (cW (cV 1) 6)))))))) (cM (cM (cN 2) (cV 1)) (cR (cM (cH 0) (cA (cA (cN (-3)) (cM (cN 4) (cV 1))) (cM (cN 4) (cW (cV 1) 4))))))).
Definition SPSU2T_e720 := (cD (cM (cM (cA (cN 1) (cH 0)) (cA (cN (-1)) (cM (cN 2) (cV 1)))) (cA (cN 3) (cM (cN 2) (cV 1)))) (cM (cM (cN 2) (cR (cN 3))) (cR (cM (cM (cM (cH 0) (cA (cN 1) (cH 0))) (cV 1)) (cA (cA (cA (cN (-3)) (cV 1)) (cM (cN 8) (cW (cV 1) 4))) (cM (cN 4) (cW (cV 1) 6))))))).
Definition SPSU2T_e721 := (cD (cB (cB (cM (cM (cV 1) (cA (cN 1) (cM (cN 2) (cV 1)))) (cR (cD (cM (cH 0) (cA (cN 1) (cV 1))) (cA (cA (cN 6) (cM (cN 7) (cV 1))) (cM (cN 2) (cW (cV 1) 4)))))) (cM (cN 12) (cR (cD (cH 0) (cA (cA (cA (cN 6) (cM (cN 13) (cV 1))) (cM (cN 9) (cW (cV 1) 4))) (cM (cN 2) (cW (cV 1) 6))))))) (cM (cM (cN 9) (cV 1)) (cR (cD (cH 0) (cA (cA (cA (cN 6) (cM (cN 13) (cV 1))) (cM (cN 9) (cW (cV 1) 4))) (cM (cN 2) (cW (cV 1) 6))))))) (cM (cN 2) (cR (cM (cM (cH 0) (cV 1)) (cA (cA (cN 6) (cM (cN 7) (cV 1))) (cM (cN 2) (cW (cV 1) 4))))))).
Definition SPSU2T_e722 := (cD (cM (cA (cN 1) (cH 0)) (cA (cN 2) (cV 1))) (cM (cN 2) (cR (cM (cM (cM (cH 0) (cA (cN 1) (cH 0))) (cA (cN 1) (cV 1))) (cA (cN 2) (cV 1)))))).
Definition SPSU2T_e723 := (cD (cB (cN 1) (cM (cN 2) (cH 0))) (cM (cN 2) (cR (cD (cM (cM (cH 0) (cA (cN (-1)) (cM (cN 2) (cH 0)))) (cV 1)) (cA (cN 1) (cV 1)))))).
Definition SPSU2T_e724 := (cD (cB (cN 1) (cM (cN 2) (cH 0))) (cM (cN 2) (cR (cM (cM (cM (cH 0) (cA (cN (-1)) (cM (cN 2) (cH 0)))) (cV 1)) (cA (cN 1) (cV 1)))))).
Definition SPSU2T_e725 := (cD (cM (cA (cN (-1)) (cM (cN 2) (cH 0))) (cB (cR (cD (cA (cN 1) (cM (cN 2) (cV 1))) (cM (cA (cN (-1)) (cM (cN 4) (cW (cH 0) 4))) (cW (cA (cN 3) (cM (cN 2) (cV 1))) 4)))) (cD (cN 1) (cM (cR (cM (cA (cN (-1)) (cM (cN 4) (cW (cH 0) 4))) (cA (cN 1) (cM (cN 2) (cV 1))))) (cA (cA (cN 3) (cM (cN 5) (cV 1))) (cM (cN 2) (cW (cV 1) 4))))))) (cM (cN 2) (cR (cD (cM (cH 0) (cV 1)) (cM (cA (cN 1) (cM (cN 2) (cH 0))) (cA (cA (cN 1) (cM (cN 3) (cV 1))) (cM (cN 2) (cW (cV 1) 4)))))))).
Definition SPSU2T_e726 := (cD (cB (cN 1) (cM (cN 2) (cH 0))) (cM (cM (cN 2) (cR (cN 2))) (cR (cD (cM (cM (cH 0) (cA (cN (-1)) (cM (cN 2) (cH 0)))) (cV 1)) (cA (cN 1) (cV 1)))))).
Definition SPSU2T_e727 := (cD (cR (cD (cM (cM (cA (cN (-1)) (cM (cN 2) (cH 0))) (cA (cN (-1)) (cV 1))) (cV 1)) (cH 0))) (cM (cM (cN 2) (cR (cN 2))) (cV 1))).
Definition SPSU2T_e728 := (cD (cB (cN 1) (cM (cN 2) (cH 0))) (cM (cM (cN 2) (cR (cN 2))) (cR (cM (cM (cM (cH 0) (cA (cN (-1)) (cM (cN 2) (cH 0)))) (cV 1)) (cA (cN 1) (cV 1)))))).
Definition SPSU2T_e729 := (cD (cM (cM (cA (cN (-1)) (cM (cN 2) (cH 0))) (cA (cN (-1)) (cM (cN 2) (cV 1)))) (cA (cN 3) (cM (cN 2) (cV 1)))) (cM (cM (cN 2) (cR (cN 6))) (cR (cM (cM (cM (cH 0) (cA (cN (-1)) (cM (cN 2) (cH 0)))) (cV 1)) (cA (cA (cA (cN (-3)) (cV 1)) (cM (cN 8) (cW (cV 1) 4))) (cM (cN 4) (cW (cV 1) 6))))))).
Definition SPSU2T_e730 := (cM (cR (cQ 2 3)) (cR (cA (cN 1) (cD (cN 1) (cH 0))))).
Definition SPSU2T_e731 := (cD (cM (cA (cN (-1)) (cM (cN 2) (cH 0))) (cB (cR (cD (cA (cN 1) (cM (cN 2) (cV 1))) (cM (cA (cN (-1)) (cM (cN 4) (cW (cH 0) 4))) (cW (cA (cN 3) (cM (cN 2) (cV 1))) 4)))) (cD (cN 1) (cM (cR (cM (cA (cN (-1)) (cM (cN 4) (cW (cH 0) 4))) (cA (cN 1) (cM (cN 2) (cV 1))))) (cA (cA (cN 3) (cM (cN 5) (cV 1))) (cM (cN 2) (cW (cV 1) 4))))))) (cM (cM (cN 2) (cR (cN 2))) (cR (cD (cM (cH 0) (cV 1)) (cM (cA (cN 1) (cM (cN 2) (cH 0))) (cA (cA (cN 1) (cM (cN 3) (cV 1))) (cM (cN 2) (cW (cV 1) 4)))))))).
Definition SPSU2T_e732 := (cD (cM (cM (cA (cN (-1)) (cM (cN 2) (cH 0))) (cR (cD (cA (cA (cA (cN 1) (cM (cN 2) (cH 0))) (cM (cN 2) (cV 1))) (cM (cM (cN 4) (cH 0)) (cV 1))) (cA (cA (cN 12) (cM (cN 14) (cV 1))) (cM (cN 4) (cW (cV 1) 4)))))) (cA (cA (cR (cD (cM (cH 0) (cA (cA (cN 1) (cM (cN 3) (cV 1))) (cM (cN 2) (cW (cV 1) 4)))) (cM (cA (cN (-1)) (cM (cN 4) (cW (cH 0) 4))) (cA (cN 3) (cM (cN 2) (cV 1)))))) (cM (cN 2) (cR (cD (cM (cH 0) (cA (cN 1) (cM (cN 2) (cV 1)))) (cM (cA (cN (-1)) (cM (cN 4) (cW (cH 0) 4))) (cA (cA (cN 3) (cM (cN 5) (cV 1))) (cM (cN 2) (cW (cV 1) 4)))))))) (cM (cN 3) (cR (cD (cH 0) (cM (cA (cN (-1)) (cM (cN 4) (cW (cH 0) 4))) (cA (cA (cA (cN 3) (cM (cN 11) (cV 1))) (cM (cN 12) (cW (cV 1) 4))) (cM (cN 4) (cW (cV 1) 6))))))))) (cM (cN 2) (cH 0))).
Definition SPSU2T_e733 := (cD (cA (cN 2) (cV 1)) (cM (cR (cN 2)) (cR (cA (cA (cN 2) (cM (cN 3) (cV 1))) (cW (cV 1) 4))))).
Definition SPSU2T_e734 := (cO (cD (cR (cD (cA (cN (-1)) (cH 0)) (cH 0))) (cR (cN 3)))).
Definition SPSU2T_e735 := (cO (cD (cR (cB (cN 2) (cD (cN 1) (cH 0)))) (cR (cN 3)))).
Definition SPSU2T_e736 := (cO (cD (cR (cD (cM (cA (cN 1) (cM (cN 2) (cH 0))) (cA (cN 1) (cM (cN 2) (cV 1)))) (cM (cH 0) (cA (cN (-1)) (cM (cN 2) (cV 1)))))) (cR (cN 6)))).
Definition SPSU2T_e737 := (cD (cR (cD (cM (cA (cN 1) (cM (cN 2) (cH 0))) (cA (cN 1) (cM (cN 2) (cV 1)))) (cM (cH 0) (cA (cN (-1)) (cM (cN 2) (cV 1)))))) (cR (cN 3))).
Definition SPSU2T_e738 := (cD (cR (cD (cM (cA (cN 1) (cM (cN 2) (cH 0))) (cA (cN 1) (cM (cN 2) (cV 1)))) (cM (cH 0) (cA (cN (-1)) (cM (cN 2) (cV 1)))))) (cR (cN 2))).
Definition SPSU2T_e739 := (cD (cB (cA (cN (-3)) (cM (cN 5) (cV 1))) (cM (cN 2) (cW (cV 1) 4))) (cM (cM (cN 2) (cR (cN 3))) (cR (cD (cM (cM (cM (cH 0) (cV 1)) (cA (cN (-1)) (cM (cN 2) (cV 1)))) (cA (cB (cN 3) (cM (cN 5) (cV 1))) (cM (cN 2) (cW (cV 1) 4)))) (cA (cN 1) (cM (cN 2) (cH 0))))))).
Definition SPSU2T_e740 := (cD (cM (cQ (-1) 2) (cA (cN (-1)) (cV 1))) (cR (cD (cM (cM (cH 0) (cA (cN (-1)) (cV 1))) (cV 1)) (cA (cN 1) (cM (cN 2) (cH 0)))))).
Definition SPSU2T_e741 := (cD (cB (cN 2) (cV 1)) (cM (cN 2) (cR (cD (cM (cM (cM (cH 0) (cA (cN (-2)) (cV 1))) (cV 1)) (cA (cN (-1)) (cM (cN 2) (cV 1)))) (cM (cA (cN 1) (cM (cN 2) (cH 0))) (cA (cN 1) (cM (cN 2) (cV 1)))))))).
Definition SPSU2T_e742 := (cD (cA (cB (cN 3) (cM (cN 5) (cV 1))) (cM (cN 2) (cW (cV 1) 4))) (cM (cM (cN 2) (cR (cN 6))) (cR (cD (cM (cM (cM (cH 0) (cV 1)) (cA (cN (-1)) (cM (cN 2) (cV 1)))) (cA (cB (cN 3) (cM (cN 5) (cV 1))) (cM (cN 2) (cW (cV 1) 4)))) (cA (cN 1) (cM (cN 2) (cH 0))))))).
Definition SPSU2T_e743 := (cD (cM (cM (cR (cQ 3 2)) (cB (cN 3) (cM (cN 2) (cV 1)))) (cR (cD (cM (cA (cN 1) (cM (cN 2) (cH 0))) (cA (cN 1) (cV 1))) (cM (cM (cH 0) (cV 1)) (cA (cB (cN 3) (cM (cN 8) (cV 1))) (cM (cN 4) (cW (cV 1) 4))))))) (cN 2)).
Definition SPSU2T_e744 := (cD (cM (cQ (-1) 2) (cM (cM (cR (cA (cQ 3 2) (cM (cN 3) (cH 0)))) (cA (cN (-1)) (cV 1))) (cA (cN 3) (cM (cN 2) (cV 1))))) (cR (cM (cM (cH 0) (cV 1)) (cA (cB (cN 3) (cM (cN 7) (cV 1))) (cM (cN 4) (cW (cV 1) 6)))))).
Definition SPSU2T_e745 := (cD (cM (cQ (-1) 2) (cM (cR (cD (cM (cA (cN 1) (cM (cN 2) (cH 0))) (cA (cN 1) (cM (cN 2) (cV 1)))) (cM (cV 1) (cA (cA (cA (cB (cN (-6)) (cV 1)) (cM (cN 17) (cW (cV 1) 4))) (cM (cN 16) (cW (cV 1) 6))) (cM (cN 4) (cW (cV 1) 8)))))) (cA (cM (cN 6) (cR (cD (cM (cH 0) (cA (cN (-1)) (cM (cN 2) (cV 1)))) (cA (cA (cA (cN 3) (cM (cN 11) (cV 1))) (cM (cN 12) (cW (cV 1) 4))) (cM (cN 4) (cW (cV 1) 6)))))) (cM (cV 1) (cA (cA (cM (cN 3) (cR (cD (cM (cH 0) (cA (cN (-1)) (cM (cN 4) (cW (cV 1) 4)))) (cA (cA (cN 3) (cM (cN 5) (cV 1))) (cM (cN 2) (cW (cV 1) 4)))))) (cR (cD (cM (cH 0) (cA (cA (cB (cN (-1)) (cV 1)) (cM (cN 4) (cW (cV 1) 4))) (cM (cN 4) (cW (cV 1) 6)))) (cA (cN 3) (cM (cN 2) (cV 1)))))) (cM (cN 9) (cR (cD (cM (cH 0) (cA (cN (-1)) (cM (cN 2) (cV 1)))) (cA (cA (cA (cN 3) (cM (cN 11) (cV 1))) (cM (cN 12) (cW (cV 1) 4))) (cM (cN 4) (cW (cV 1) 6))))))))))) (cH 0)).
Definition SPSU2T_e746 := (cD (cR (cD (cM (cM (cA (cN 1) (cM (cN 2) (cH 0))) (cA (cN (-1)) (cV 1))) (cA (cN 1) (cM (cN 2) (cV 1)))) (cM (cM (cH 0) (cV 1)) (cA (cN (-1)) (cM (cN 2) (cV 1)))))) (cN 2)).
Definition SPSU2T_e747 := (cD (cM (cA (cN 1) (cV 1)) (cR (cD (cA (cN 1) (cM (cN 2) (cH 0))) (cA (cM (cH 0) (cV 1)) (cM (cH 0) (cW (cV 1) 4)))))) (cN 2)).
Definition SPSU2T_e748 := (cD (cA (cN 1) (cV 1)) (cM (cN 2) (cR (cD (cM (cV 1) (cA (cA (cN (-1)) (cV 1)) (cM (cN 2) (cW (cV 1) 4)))) (cA (cN 1) (cM (cN 2) (cV 1))))))).
Definition SPSU2T_e749 := (cD (cA (cN 1) (cH 0)) (cM (cN 2) (cR (cD (cM (cM (cM (cH 0) (cA (cN 1) (cH 0))) (cV 1)) (cA (cN (-1)) (cM (cN 2) (cV 1)))) (cA (cB (cN (-1)) (cV 1)) (cM (cN 2) (cW (cV 1) 4))))))).
Definition SPSU2T_e750 := (cD (cM (cA (cN 1) (cH 0)) (cA (cN 1) (cV 1))) (cM (cN 2) (cR (cM (cM (cM (cH 0) (cA (cN 1) (cH 0))) (cV 1)) (cA (cN 1) (cV 1)))))).
Definition SPSU2T_e751 := (cD (cB (cN 1) (cV 1)) (cM (cR (cN 2)) (cR (cD (cM (cM (cM (cH 0) (cA (cN (-1)) (cV 1))) (cV 1)) (cA (cN (-1)) (cM (cN 2) (cV 1)))) (cM (cA (cN 1) (cM (cN 2) (cH 0))) (cA (cN 1) (cM (cN 2) (cV 1)))))))).
Definition SPSU2T_e752 := (cO (cD (cA (cN 1) (cV 1)) (cM (cR (cN 2)) (cR (cD (cM (cM (cH 0) (cV 1)) (cA (cN 1) (cV 1))) (cA (cN 1) (cM (cN 2) (cH 0)))))))).
Definition SPSU2T_e753 := (cD (cA (cN 1) (cV 1)) (cM (cR (cN 2)) (cR (cD (cM (cV 1) (cA (cA (cN (-1)) (cV 1)) (cM (cN 2) (cW (cV 1) 4)))) (cA (cN 1) (cM (cN 2) (cV 1))))))).
Definition SPSU2T_e754 := (cD (cB (cN (-1)) (cH 0)) (cM (cR (cN 2)) (cR (cD (cM (cM (cM (cH 0) (cA (cN 1) (cH 0))) (cV 1)) (cA (cN (-1)) (cM (cN 2) (cV 1)))) (cA (cB (cN (-1)) (cV 1)) (cM (cN 2) (cW (cV 1) 4))))))).
Definition SPSU2T_e755 := (cO (cD (cM (cA (cN 1) (cH 0)) (cA (cN 1) (cV 1))) (cM (cR (cN 2)) (cR (cM (cM (cM (cH 0) (cA (cN 1) (cH 0))) (cV 1)) (cA (cN 1) (cV 1))))))).
Definition SPSU2T_e756 := (cD (cA (cB (cN 3) (cM (cN 5) (cV 1))) (cM (cN 2) (cW (cV 1) 4))) (cM (cM (cN 2) (cR (cN 3))) (cR (cD (cM (cM (cM (cH 0) (cV 1)) (cA (cN (-1)) (cM (cN 2) (cV 1)))) (cA (cB (cN 3) (cM (cN 5) (cV 1))) (cM (cN 2) (cW (cV 1) 4)))) (cA (cN 1) (cM (cN 2) (cH 0))))))).
Definition SPSU2T_e757 := (cO (cD (cA (cN (-2)) (cV 1)) (cM (cR (cN 2)) (cR (cD (cM (cM (cA (cN (-2)) (cV 1)) (cV 1)) (cA (cN (-1)) (cM (cN 2) (cV 1)))) (cA (cN 1) (cM (cN 2) (cV 1)))))))).
Definition SPSU2T_e758 := (cD (cM (cA (cN 1) (cH 0)) (cA (cB (cN 3) (cM (cN 5) (cV 1))) (cM (cN 2) (cW (cV 1) 4)))) (cM (cM (cN 2) (cR (cN 3))) (cR (cM (cM (cM (cM (cH 0) (cA (cN 1) (cH 0))) (cV 1)) (cA (cN (-1)) (cM (cN 2) (cV 1)))) (cA (cB (cN 3) (cM (cN 5) (cV 1))) (cM (cN 2) (cW (cV 1) 4))))))).
Definition SPSU2T_e759 := (cD (cM (cQ (-1) 2) (cM (cM (cR (cN 3)) (cA (cN (-1)) (cV 1))) (cA (cN 3) (cM (cN 2) (cV 1))))) (cR (cM (cV 1) (cA (cB (cN 3) (cM (cN 7) (cV 1))) (cM (cN 4) (cW (cV 1) 6)))))).
Definition SPSU2T_e760 := (cO (cD (cR (cD (cA (cN 2) (cV 1)) (cV 1))) (cR (cN 2)))).
Definition SPSU2T_e761 := (cD (cA (cA (cA (cR (cD (cA (cN (-1)) (cM (cN 4) (cW (cV 1) 4))) (cM (cA (cA (cN 1) (cM (cN 3) (cH 0))) (cM (cN 2) (cW (cH 0) 4))) (cW (cA (cN 3) (cM (cN 2) (cV 1))) 4)))) (cR (cD (cA (cN (-1)) (cM (cN 4) (cW (cV 1) 4))) (cM (cA (cA (cN 1) (cM (cN 3) (cH 0))) (cM (cN 2) (cW (cH 0) 4))) (cW (cA (cA (cN 3) (cM (cN 5) (cV 1))) (cM (cN 2) (cW (cV 1) 4))) 4))))) (cD (cR (cD (cA (cN (-1)) (cM (cN 4) (cW (cV 1) 4))) (cA (cA (cN 1) (cM (cN 3) (cH 0))) (cM (cN 2) (cW (cH 0) 4))))) (cA (cA (cA (cN 3) (cM (cN 11) (cV 1))) (cM (cN 12) (cW (cV 1) 4))) (cM (cN 4) (cW (cV 1) 6))))) (cD (cM (cH 0) (cA (cA (cR (cD (cA (cN (-1)) (cM (cN 2) (cV 1))) (cM (cA (cA (cN 1) (cM (cN 3) (cH 0))) (cM (cN 2) (cW (cH 0) 4))) (cA (cN 1) (cM (cN 2) (cV 1)))))) (cM (cN 2) (cR (cD (cA (cN (-1)) (cM (cN 4) (cW (cV 1) 4))) (cA (cA (cN 1) (cM (cN 3) (cH 0))) (cM (cN 2) (cW (cH 0) 4))))))) (cM (cV 1) (cR (cD (cA (cN (-1)) (cM (cN 4) (cW (cV 1) 4))) (cA (cA (cN 1) (cM (cN 3) (cH 0))) (cM (cN 2) (cW (cH 0) 4)))))))) (cM (cA (cN 1) (cV 1)) (cA (cN 3) (cM (cN 2) (cV 1)))))) (cM (cR (cN 2)) (cR (cD (cM (cH 0) (cA (cN (-1)) (cM (cN 2) (cV 1)))) (cM (cA (cN 1) (cM (cN 2) (cH 0))) (cA (cN 1) (cM (cN 2) (cV 1)))))))).
Definition SPSU2T_e762 := (cD (cA (cB (cN (-1)) (cM (cM (cN 2) (cH 0)) (cA (cN (-1)) (cV 1)))) (cV 1)) (cM (cN 2) (cR (cD (cM (cM (cM (cM (cH 0) (cA (cN (-1)) (cM (cN 2) (cH 0)))) (cA (cN (-1)) (cV 1))) (cV 1)) (cA (cN (-1)) (cM (cN 2) (cV 1)))) (cA (cN 1) (cM (cN 2) (cV 1))))))).
Definition SPSU2T_e763 := (cD (cM (cQ (-1) 2) (cR (cD (cM (cM (cA (cN (-1)) (cM (cN 2) (cH 0))) (cV 1)) (cA (cN 1) (cV 1))) (cH 0)))) (cV 1)).
Definition SPSU2T_e764 := (cD (cB (cN 1) (cV 1)) (cR (cD (cM (cV 1) (cA (cB (cN 1) (cM (cN 3) (cV 1))) (cM (cN 2) (cW (cV 1) 4)))) (cA (cN 1) (cM (cN 2) (cV 1)))))).
Definition SPSU2T_e765 := (cD (cB (cN 1) (cM (cN 2) (cH 0))) (cM (cN 2) (cR (cD (cM (cM (cH 0) (cA (cN (-1)) (cM (cN 2) (cH 0)))) (cA (cN (-1)) (cM (cN 2) (cV 1)))) (cA (cN 1) (cM (cN 2) (cV 1))))))).
Definition SPSU2T_e766 := (cD (cA (cB (cN (-1)) (cM (cM (cN 2) (cH 0)) (cA (cN (-1)) (cV 1)))) (cV 1)) (cM (cM (cN 2) (cR (cN 2))) (cR (cD (cM (cM (cM (cM (cH 0) (cA (cN (-1)) (cM (cN 2) (cH 0)))) (cA (cN (-1)) (cV 1))) (cV 1)) (cA (cN (-1)) (cM (cN 2) (cV 1)))) (cA (cN 1) (cM (cN 2) (cV 1))))))).
Definition SPSU2T_e767 := (cD (cB (cN 1) (cM (cN 2) (cH 0))) (cM (cM (cN 2) (cR (cN 2))) (cR (cD (cM (cM (cM (cH 0) (cA (cN (-1)) (cM (cN 2) (cH 0)))) (cV 1)) (cA (cN (-1)) (cM (cN 2) (cV 1)))) (cA (cA (cN 1) (cM (cN 3) (cV 1))) (cM (cN 2) (cW (cV 1) 4))))))).
Definition SPSU2T_e768 := (cD (cM (cQ (-1) 2) (cR (cD (cM (cM (cA (cN (-1)) (cM (cN 2) (cH 0))) (cV 1)) (cA (cN 1) (cV 1))) (cH 0)))) (cM (cR (cN 2)) (cV 1))).
Definition SPSU2T_e769 := (cD (cM (cQ (-1) 2) (cM (cA (cN (-1)) (cM (cN 2) (cH 0))) (cA (cA (cN 3) (cM (cN 5) (cV 1))) (cM (cN 2) (cW (cV 1) 4))))) (cM (cR (cN 6)) (cR (cM (cM (cM (cH 0) (cA (cN (-1)) (cM (cN 2) (cH 0)))) (cV 1)) (cA (cA (cA (cN (-3)) (cV 1)) (cM (cN 8) (cW (cV 1) 4))) (cM (cN 4) (cW (cV 1) 6))))))).
Definition SPSU2T_e770 := (cO (cD (cA (cN (-1)) (cV 1)) (cM (cR (cN 2)) (cR (cD (cM (cV 1) (cA (cB (cN 1) (cM (cN 3) (cV 1))) (cM (cN 2) (cW (cV 1) 4)))) (cA (cN 1) (cM (cN 2) (cV 1)))))))).
Definition SPSU2T_e771 := (cO (cD (cA (cN 1) (cV 1)) (cM (cR (cN 2)) (cR (cD (cM (cV 1) (cA (cA (cN (-1)) (cV 1)) (cM (cN 2) (cW (cV 1) 4)))) (cA (cN 1) (cM (cN 2) (cV 1)))))))).
Definition SPSU2T_e772 := (cD (cA (cN (-1)) (cH 0)) (cM (cR (cN 3)) (cR (cD (cM (cM (cA (cN (-1)) (cH 0)) (cH 0)) (cA (cN (-1)) (cM (cN 2) (cV 1)))) (cA (cN 1) (cM (cN 2) (cV 1))))))).
Definition SPSU2T_e773 := (cD (cA (cN (-1)) (cM (cN 2) (cH 0))) (cM (cR (cN 3)) (cR (cD (cM (cM (cH 0) (cA (cN (-1)) (cM (cN 2) (cH 0)))) (cA (cN (-1)) (cM (cN 2) (cV 1)))) (cA (cN 1) (cM (cN 2) (cV 1))))))).
Definition SPSU2T_e774 := (cD (cN 1) (cR (cA (cA (cN 1) (cM (cN 3) (cH 0))) (cM (cN 2) (cW (cH 0) 4))))).
Definition SPSU2T_e775 := (cD (cA (cA (cD (cR (cD (cM (cH 0) (cA (cN 1) (cM (cN 2) (cH 0)))) (cA (cN 3) (cM (cN 2) (cH 0))))) (cA (cN 1) (cH 0))) (cM (cH 0) (cR (cD (cM (cH 0) (cA (cN 1) (cM (cN 2) (cH 0)))) (cM (cW (cA (cN 1) (cH 0)) 4) (cA (cN 3) (cM (cN 2) (cH 0)))))))) (cM (cN 2) (cR (cD (cH 0) (cA (cA (cN 3) (cM (cN 8) (cH 0))) (cM (cN 4) (cW (cH 0) 4))))))) (cR (cA (cN 1) (cH 0)))).
Definition SPSU2T_e776 := (cD (cA (cR (cD (cM (cH 0) (cA (cN 1) (cM (cN 2) (cH 0)))) (cA (cN 3) (cM (cN 2) (cH 0))))) (cM (cN 2) (cR (cD (cH 0) (cA (cA (cN 3) (cM (cN 8) (cH 0))) (cM (cN 4) (cW (cH 0) 4))))))) (cR (cA (cN 1) (cH 0)))).
Definition SPSU2T_e777 := (cD (cA (cN 3) (cM (cN 2) (cH 0))) (cR (cD (cM (cA (cN 1) (cH 0)) (cA (cA (cN 3) (cM (cN 8) (cH 0))) (cM (cN 4) (cW (cH 0) 4)))) (cH 0)))).
Definition SPSU2T_e778 := (cD (cM (cV 1) (cA (cA (cA (cD (cM (cM (cM (cM (cN 3) (cH 0)) (cW (cV 1) 4)) (cA (cN 1) (cV 1))) (cW (cA (cA (cN 6) (cM (cN 7) (cV 1))) (cM (cN 2) (cW (cV 1) 4))) 3)) (cR (cD (cA (cN (-1)) (cM (cN 2) (cH 0))) (cA (cN 1) (cM (cN 2) (cV 1)))))) (cD (cM (cM (cM (cM (cN 6) (cH 0)) (cV 1)) (cA (cN 1) (cV 1))) (cW (cA (cA (cN 6) (cM (cN 7) (cV 1))) (cM (cN 2) (cW (cV 1) 4))) 3)) (cR (cM (cA (cN (-1)) (cM (cN 2) (cH 0))) (cA (cN 1) (cM (cN 2) (cV 1))))))) (cD (cM (cM (cM (cM (cN 9) (cH 0)) (cW (cV 1) 4)) (cA (cN 1) (cV 1))) (cW (cA (cA (cN 6) (cM (cN 7) (cV 1))) (cM (cN 2) (cW (cV 1) 4))) 3)) (cR (cM (cA (cN (-1)) (cM (cN 2) (cH 0))) (cA (cN 1) (cM (cN 2) (cV 1))))))) (cR (cD (cM (cM (cM (cW (cH 0) 4) (cA (cN 1) (cM (cN 2) (cV 1)))) (cW (cA (cV 1) (cW (cV 1) 4)) 8)) (cW (cA (cA (cN 6) (cM (cN 7) (cV 1))) (cM (cN 2) (cW (cV 1) 4))) 6)) (cA (cN (-1)) (cM (cN 2) (cH 0))))))) (cR (cD (cM (cM (cM (cW (cH 0) 6) (cA (cN 1) (cM (cN 2) (cH 0)))) (cW (cA (cV 1) (cW (cV 1) 4)) 8)) (cW (cA (cA (cN 6) (cM (cN 7) (cV 1))) (cM (cN 2) (cW (cV 1) 4))) 10)) (cM (cM (cA (cN 1) (cH 0)) (cW (cA (cN (-1)) (cM (cN 2) (cH 0))) 4)) (cA (cN 1) (cM (cN 2) (cV 1))))))).
Definition SPSU2T_e779 := (cM (cR (cD (cA (cN 1) (cH 0)) (cM (cA (cN 1) (cM (cN 2) (cH 0))) (cA (cA (cA (cA (cN 30) (cM (cN 77) (cV 1))) (cM (cN 71) (cW (cV 1) 4))) (cM (cN 28) (cW (cV 1) 6))) (cM (cN 4) (cW (cV 1) 8)))))) (cA (cA (cA (cA (cM (cM (cN 2) (cA (cN 1) (cM (cN 2) (cV 1)))) (cR (cD (cM (cA (cN (-1)) (cM (cN 2) (cH 0))) (cA (cA (cN 3) (cM (cN 5) (cV 1))) (cM (cN 2) (cW (cV 1) 4)))) (cM (cH 0) (cA (cA (cN 10) (cM (cN 9) (cV 1))) (cM (cN 2) (cW (cV 1) 4))))))) (cM (cA (cN 1) (cM (cN 2) (cV 1))) (cR (cD (cM (cA (cN (-1)) (cM (cN 2) (cH 0))) (cA (cA (cA (cN 6) (cM (cN 13) (cV 1))) (cM (cN 9) (cW (cV 1) 4))) (cM (cN 2) (cW (cV 1) 6)))) (cM (cH 0) (cA (cN 5) (cM (cN 2) (cV 1)))))))) (cM (cM (cN 6) (cA (cN 1) (cM (cN 2) (cV 1)))) (cR (cD (cM (cA (cN (-1)) (cM (cN 2) (cH 0))) (cA (cN 1) (cV 1))) (cM (cH 0) (cA (cA (cA (cN 30) (cM (cN 47) (cV 1))) (cM (cN 24) (cW (cV 1) 4))) (cM (cN 4) (cW (cV 1) 6)))))))) (cM (cN 6) (cR (cD (cA (cN (-1)) (cM (cN 2) (cH 0))) (cM (cH 0) (cA (cA (cA (cA (cN 30) (cM (cN 77) (cV 1))) (cM (cN 71) (cW (cV 1) 4))) (cM (cN 28) (cW (cV 1) 6))) (cM (cN 4) (cW (cV 1) 8)))))))) (cM (cM (cN 6) (cA (cN 1) (cM (cN 2) (cV 1)))) (cR (cD (cA (cN (-1)) (cM (cN 2) (cH 0))) (cM (cH 0) (cA (cA (cA (cA (cN 30) (cM (cN 77) (cV 1))) (cM (cN 71) (cW (cV 1) 4))) (cM (cN 28) (cW (cV 1) 6))) (cM (cN 4) (cW (cV 1) 8))))))))).
Definition SPSU2T_e780 := (cD (cA (cA (cA (cA (cM (cN 6) (cA (cA (cR (cD (cM (cH 0) (cA (cN 1) (cM (cN 2) (cH 0)))) (cA (cN 3) (cM (cN 2) (cH 0))))) (cR (cD (cM (cW (cH 0) 6) (cA (cN 1) (cM (cN 2) (cH 0)))) (cA (cN 3) (cM (cN 2) (cH 0)))))) (cM (cN 2) (cR (cD (cH 0) (cA (cA (cN 3) (cM (cN 8) (cH 0))) (cM (cN 4) (cW (cH 0) 4)))))))) (cM (cM (cN 13) (cA (cR (cD (cM (cH 0) (cA (cN 1) (cM (cN 2) (cH 0)))) (cA (cN 3) (cM (cN 2) (cH 0))))) (cM (cN 2) (cR (cD (cH 0) (cA (cA (cN 3) (cM (cN 8) (cH 0))) (cM (cN 4) (cW (cH 0) 4)))))))) (cV 1))) (cM (cM (cN 9) (cA (cR (cD (cM (cH 0) (cA (cN 1) (cM (cN 2) (cH 0)))) (cA (cN 3) (cM (cN 2) (cH 0))))) (cM (cN 2) (cR (cD (cH 0) (cA (cA (cN 3) (cM (cN 8) (cH 0))) (cM (cN 4) (cW (cH 0) 4)))))))) (cW (cV 1) 4))) (cM (cM (cN 2) (cA (cR (cD (cM (cH 0) (cA (cN 1) (cM (cN 2) (cH 0)))) (cA (cN 3) (cM (cN 2) (cH 0))))) (cM (cN 2) (cR (cD (cH 0) (cA (cA (cN 3) (cM (cN 8) (cH 0))) (cM (cN 4) (cW (cH 0) 4)))))))) (cW (cV 1) 6))) (cM (cH 0) (cA (cA (cA (cM (cN 12) (cR (cD (cH 0) (cA (cA (cN 3) (cM (cN 8) (cH 0))) (cM (cN 4) (cW (cH 0) 4)))))) (cM (cM (cN 13) (cA (cR (cD (cM (cH 0) (cA (cN 1) (cM (cN 2) (cH 0)))) (cA (cN 3) (cM (cN 2) (cH 0))))) (cM (cN 2) (cR (cD (cH 0) (cA (cA (cN 3) (cM (cN 8) (cH 0))) (cM (cN 4) (cW (cH 0) 4)))))))) (cV 1))) (cM (cM (cN 9) (cA (cR (cD (cM (cH 0) (cA (cN 1) (cM (cN 2) (cH 0)))) (cA (cN 3) (cM (cN 2) (cH 0))))) (cM (cN 2) (cR (cD (cH 0) (cA (cA (cN 3) (cM (cN 8) (cH 0))) (cM (cN 4) (cW (cH 0) 4)))))))) (cW (cV 1) 4))) (cM (cM (cN 2) (cA (cR (cD (cM (cH 0) (cA (cN 1) (cM (cN 2) (cH 0)))) (cA (cN 3) (cM (cN 2) (cH 0))))) (cM (cN 2) (cR (cD (cH 0) (cA (cA (cN 3) (cM (cN 8) (cH 0))) (cM (cN 4) (cW (cH 0) 4)))))))) (cW (cV 1) 6))))) (cM (cM (cW (cA (cN 1) (cH 0)) 3) (cA (cN 1) (cV 1))) (cA (cA (cN 6) (cM (cN 7) (cV 1))) (cM (cN 2) (cW (cV 1) 4))))).
Definition SPSU2T_e781 := (cD (cB (cM (cA (cN (-1)) (cM (cN 2) (cH 0))) (cR (cD (cM (cH 0) (cA (cN 1) (cH 0))) (cA (cN 1) (cM (cN 2) (cH 0)))))) (cR (cM (cH 0) (cA (cA (cN 1) (cM (cN 3) (cH 0))) (cM (cN 2) (cW (cH 0) 4)))))) (cM (cM (cN 2) (cH 0)) (cR (cA (cN 1) (cH 0))))).
Definition SPSU2T_e782 := (cD (cR (cA (cN (-1)) (cW (cH 0) 4))) (cH 0)).
Definition SPSU2T_e783 := (cD (cR (cD (cA (cN (-1)) (cM (cN 2) (cH 0))) (cA (cN 1) (cM (cN 2) (cH 0))))) (cH 0)).
Definition SPSU2T_e784 := (cD (cA (cA (cR (cD (cM (cM (cA (cN (-1)) (cH 0)) (cA (cN 1) (cV 1))) (cW (cA (cN 1) (cM (cN 2) (cV 1))) 4)) (cM (cH 0) (cA (cN 3) (cM (cN 2) (cV 1)))))) (cR (cD (cA (cN (-1)) (cH 0)) (cM (cH 0) (cA (cA (cN 3) (cM (cN 5) (cV 1))) (cM (cN 2) (cW (cV 1) 4))))))) (cR (cD (cM (cA (cN (-1)) (cH 0)) (cW (cA (cN 1) (cM (cN 2) (cV 1))) 4)) (cM (cH 0) (cA (cA (cN 3) (cM (cN 5) (cV 1))) (cM (cN 2) (cW (cV 1) 4))))))) (cR (cD (cM (cH 0) (cA (cA (cN 3) (cM (cN 5) (cV 1))) (cM (cN 2) (cW (cV 1) 4)))) (cA (cN 1) (cH 0))))).
Definition SPSU2T_e785 := (cD (cA (cA (cR (cD (cM (cM (cA (cN (-1)) (cM (cN 2) (cH 0))) (cA (cN 1) (cV 1))) (cW (cA (cN 1) (cM (cN 2) (cV 1))) 4)) (cM (cA (cH 0) (cW (cH 0) 4)) (cA (cN 3) (cM (cN 2) (cV 1)))))) (cR (cD (cA (cN (-1)) (cM (cN 2) (cH 0))) (cM (cM (cH 0) (cA (cN 1) (cH 0))) (cA (cA (cN 3) (cM (cN 5) (cV 1))) (cM (cN 2) (cW (cV 1) 4))))))) (cR (cD (cM (cA (cN (-1)) (cM (cN 2) (cH 0))) (cW (cA (cN 1) (cM (cN 2) (cV 1))) 4)) (cM (cM (cH 0) (cA (cN 1) (cH 0))) (cA (cA (cN 3) (cM (cN 5) (cV 1))) (cM (cN 2) (cW (cV 1) 4))))))) (cR (cD (cM (cM (cH 0) (cA (cN 1) (cM (cN 2) (cH 0)))) (cA (cA (cN 3) (cM (cN 5) (cV 1))) (cM (cN 2) (cW (cV 1) 4)))) (cA (cN 1) (cH 0))))).
Definition SPSU2T_e786 := (cD (cA (cA (cN (-1)) (cH 0)) (cW (cH 0) 4)) (cM (cH 0) (cA (cN 1) (cH 0)))).
Definition SPSU2T_e787 := (cD (cN 1) (cA (cN 1) (cH 0))).
Definition SPSU2T_e788 := (cD (cB (cN (-3)) (cM (cN 2) (cH 0))) (cM (cA (cN 1) (cH 0)) (cR (cA (cA (cN 3) (cM (cN 8) (cH 0))) (cM (cN 4) (cW (cH 0) 4)))))).
Definition SPSU2T_e789 := (cM (cR (cA (cN 1) (cH 0))) (cA (cA (cM (cN 2) (cR (cD (cM (cH 0) (cW (cA (cN 1) (cM (cN 2) (cH 0))) 4)) (cM (cM (cW (cA (cN 1) (cH 0)) 6) (cA (cN 2) (cH 0))) (cW (cA (cN 3) (cM (cN 2) (cH 0))) 4))))) (cD (cM (cA (cN 1) (cM (cN 2) (cH 0))) (cR (cD (cH 0) (cA (cA (cN 2) (cM (cN 3) (cH 0))) (cW (cH 0) 4))))) (cA (cN 3) (cM (cN 2) (cH 0))))) (cD (cM (cN 3) (cR (cD (cH 0) (cA (cA (cN 2) (cM (cN 3) (cH 0))) (cW (cH 0) 4))))) (cA (cA (cN 3) (cM (cN 5) (cH 0))) (cM (cN 2) (cW (cH 0) 4)))))).
Definition SPSU2T_e790 := (cO (cD (cA (cA (cA (cA (cA (cA (cA (cA (cM (cM (cN 4) (cW (cH 0) 5)) (cW (cV 1) 3)) (cM (cM (cN 5) (cW (cH 0) 3)) (cW (cV 1) 5))) (cM (cN 3) (cR (cM (cH 0) (cV 1))))) (cM (cN 10) (cW (cM (cH 0) (cV 1)) 3))) (cM (cN 2) (cW (cM (cH 0) (cV 1)) 5))) (cM (cN 5) (cR (cM (cW (cH 0) 6) (cV 1))))) (cM (cN 2) (cR (cM (cW (cH 0) 10) (cV 1))))) (cM (cN 6) (cR (cM (cH 0) (cW (cV 1) 6))))) (cM (cN 3) (cR (cM (cH 0) (cW (cV 1) 10))))) (cM (cM (cW (cA (cN 1) (cH 0)) 3) (cR (cM (cM (cM (cH 0) (cA (cN 3) (cM (cN 2) (cH 0)))) (cA (cA (cN 1) (cM (cN 3) (cH 0))) (cM (cN 2) (cW (cH 0) 4)))) (cV 1)))) (cW (cA (cN 1) (cV 1)) 4)))).
Definition SPSU2T_e791 := (cD (cR (cM (cH 0) (cA (cN 2) (cH 0)))) (cA (cN 1) (cH 0))).
Definition SPSU2T_e792 := (cR (cD (cB (cA (cN 3) (cH 0)) (cM (cN 2) (cW (cH 0) 4))) (cB (cH 0) (cM (cN 2) (cW (cH 0) 4))))).
Definition SPSU2T_e793 := (cD (cM (cR (cN 3)) (cR (cD (cA (cN (-1)) (cH 0)) (cA (cN (-1)) (cM (cN 2) (cH 0)))))) (cH 0)).
Definition SPSU2T_e794 := (cO (cD (cR (cN 3)) (cR (cM (cH 0) (cA (cN (-1)) (cM (cN 2) (cH 0))))))).
Definition SPSU2T_e795 := (cD (cA (cA (cN (-4)) (cH 0)) (cM (cN 2) (cW (cH 0) 4))) (cR (cM (cM (cH 0) (cA (cN 1) (cH 0))) (cA (cN (-1)) (cM (cN 4) (cW (cH 0) 4)))))).
Definition SPSU2T_e796 := (cD (cA (cA (cB (cM (cN 3) (cR (cD (cM (cM (cH 0) (cA (cN 1) (cH 0))) (cA (cN 3) (cM (cN 2) (cH 0)))) (cA (cN (-1)) (cM (cN 4) (cW (cH 0) 4)))))) (cM (cM (cN 10) (cH 0)) (cR (cD (cM (cM (cH 0) (cA (cN 1) (cH 0))) (cA (cN 3) (cM (cN 2) (cH 0)))) (cA (cN (-1)) (cM (cN 4) (cW (cH 0) 4))))))) (cM (cM (cN 8) (cW (cH 0) 4)) (cR (cD (cM (cM (cH 0) (cA (cN 1) (cH 0))) (cA (cN 3) (cM (cN 2) (cH 0)))) (cA (cN (-1)) (cM (cN 4) (cW (cH 0) 4))))))) (cM (cM (cN 9) (cA (cN 1) (cH 0))) (cR (cD (cM (cH 0) (cA (cA (cN (-3)) (cM (cN 4) (cH 0))) (cM (cN 4) (cW (cH 0) 4)))) (cA (cA (cN 1) (cM (cN 3) (cH 0))) (cM (cN 2) (cW (cH 0) 4))))))) (cM (cM (cM (cN 2) (cH 0)) (cW (cA (cN 1) (cH 0)) 3)) (cA (cN 3) (cM (cN 2) (cH 0))))).
Definition SPSU2T_e797 := (cD (cB (cA (cA (cB (cB (cM (cN 3) (cR (cD (cM (cH 0) (cA (cN 3) (cM (cN 2) (cH 0)))) (cA (cN 1) (cM (cN 2) (cH 0)))))) (cM (cN 5) (cR (cD (cM (cW (cH 0) 6) (cA (cN 3) (cM (cN 2) (cH 0)))) (cA (cN 1) (cM (cN 2) (cH 0))))))) (cM (cN 4) (cR (cD (cM (cW (cH 0) 10) (cA (cN 3) (cM (cN 2) (cH 0)))) (cA (cN 1) (cM (cN 2) (cH 0))))))) (cM (cN 4) (cR (cD (cM (cW (cH 0) 14) (cA (cN 3) (cM (cN 2) (cH 0)))) (cA (cN 1) (cM (cN 2) (cH 0))))))) (cR (cM (cW (cH 0) 6) (cA (cA (cN 3) (cM (cN 8) (cH 0))) (cM (cN 4) (cW (cH 0) 4)))))) (cM (cN 2) (cR (cM (cW (cH 0) 10) (cA (cA (cN 3) (cM (cN 8) (cH 0))) (cM (cN 4) (cW (cH 0) 4))))))) (cM (cM (cH 0) (cA (cN 3) (cM (cN 2) (cH 0)))) (cR (cM (cH 0) (cA (cA (cN (-1)) (cH 0)) (cM (cN 2) (cW (cH 0) 4))))))).
Definition SPSU2T_e798 := (cD (cA (cA (cM (cN (-9)) (cR (cD (cA (cA (cN (-3)) (cM (cN 4) (cH 0))) (cM (cN 4) (cW (cH 0) 4))) (cA (cN 1) (cM (cN 2) (cH 0)))))) (cM (cH 0) (cB (cM (cN 6) (cR (cD (cA (cA (cN (-3)) (cM (cN 4) (cH 0))) (cM (cN 4) (cW (cH 0) 4))) (cA (cN 1) (cM (cN 2) (cH 0)))))) (cM (cN 3) (cR (cA (cA (cB (cN (-3)) (cM (cN 2) (cH 0))) (cM (cN 12) (cW (cH 0) 4))) (cM (cN 8) (cW (cH 0) 6)))))))) (cM (cM (cN 2) (cW (cH 0) 4)) (cA (cM (cN 8) (cR (cD (cA (cA (cN (-3)) (cM (cN 4) (cH 0))) (cM (cN 4) (cW (cH 0) 4))) (cA (cN 1) (cM (cN 2) (cH 0)))))) (cR (cA (cA (cB (cN (-3)) (cM (cN 2) (cH 0))) (cM (cN 12) (cW (cH 0) 4))) (cM (cN 8) (cW (cH 0) 6))))))) (cM (cW (cA (cN 3) (cM (cN 2) (cH 0))) 4) (cR (cM (cH 0) (cA (cA (cN (-1)) (cH 0)) (cM (cN 2) (cW (cH 0) 4))))))).
Definition SPSU2T_e799 := (cD (cR (cN 3)) (cR (cM (cA (cN 1) (cH 0)) (cA (cN 3) (cM (cN 2) (cH 0)))))).
Definition SPSU2T_e800 := (cD (cM (cQ (-1) 2) (cM (cM (cR (cN 3)) (cR (cD (cA (cA (cN (-1)) (cH 0)) (cM (cN 2) (cW (cH 0) 4))) (cA (cN 2) (cH 0))))) (cB (cA (cA (cM (cN 9) (cR (cD (cA (cA (cN 3) (cM (cN 5) (cH 0))) (cM (cN 2) (cW (cH 0) 4))) (cA (cN (-1)) (cM (cN 2) (cH 0)))))) (cM (cM (cN 20) (cH 0)) (cR (cD (cA (cA (cN 3) (cM (cN 5) (cH 0))) (cM (cN 2) (cW (cH 0) 4))) (cA (cN (-1)) (cM (cN 2) (cH 0))))))) (cM (cM (cN 4) (cW (cH 0) 4)) (cR (cD (cA (cA (cN 3) (cM (cN 5) (cH 0))) (cM (cN 2) (cW (cH 0) 4))) (cA (cN (-1)) (cM (cN 2) (cH 0))))))) (cM (cN 3) (cR (cA (cA (cA (cN (-3)) (cH 0)) (cM (cN 8) (cW (cH 0) 4))) (cM (cN 4) (cW (cH 0) 6)))))))) (cW (cA (cA (cN 3) (cM (cN 5) (cH 0))) (cM (cN 2) (cW (cH 0) 4))) 4)).
Definition SPSU2T_e801 := (cM (cR (cA (cN 1) (cH 0))) (cA (cA (cA (cM (cN 9) (cR (cD (cM (cH 0) (cW (cA (cN 1) (cM (cN 2) (cH 0))) 4)) (cM (cM (cW (cA (cN 3) (cM (cN 2) (cH 0))) 6) (cA (cN 5) (cM (cN 2) (cH 0)))) (cW (cA (cA (cN 2) (cM (cN 3) (cH 0))) (cW (cH 0) 4)) 4))))) (cD (cM (cA (cN 1) (cM (cN 2) (cH 0))) (cR (cD (cH 0) (cA (cA (cN 15) (cM (cN 16) (cH 0))) (cM (cN 4) (cW (cH 0) 4)))))) (cA (cN 2) (cH 0)))) (cD (cM (cM (cN 6) (cA (cN 1) (cM (cN 2) (cH 0)))) (cR (cD (cH 0) (cA (cA (cN 15) (cM (cN 16) (cH 0))) (cM (cN 4) (cW (cH 0) 4)))))) (cA (cA (cN 6) (cM (cN 7) (cH 0))) (cM (cN 2) (cW (cH 0) 4))))) (cD (cM (cN 12) (cR (cD (cH 0) (cA (cA (cN 15) (cM (cN 16) (cH 0))) (cM (cN 4) (cW (cH 0) 4)))))) (cA (cA (cA (cN 6) (cM (cN 13) (cH 0))) (cM (cN 9) (cW (cH 0) 4))) (cM (cN 2) (cW (cH 0) 6)))))).
Definition SPSU2T_e802 := (cD (cR (cD (cM (cH 0) (cA (cA (cN 3) (cM (cN 5) (cH 0))) (cM (cN 2) (cW (cH 0) 4)))) (cA (cN 1) (cM (cN 2) (cH 0))))) (cA (cN 1) (cH 0))).
Definition SPSU2T_e803 := (cD (cA (cA (cR (cD (cM (cM (cH 0) (cA (cN 1) (cV 1))) (cW (cA (cN 1) (cM (cN 2) (cV 1))) 4)) (cM (cA (cN 1) (cH 0)) (cA (cN 3) (cM (cN 2) (cV 1)))))) (cR (cD (cH 0) (cM (cA (cN 1) (cH 0)) (cA (cA (cN 3) (cM (cN 5) (cV 1))) (cM (cN 2) (cW (cV 1) 4))))))) (cR (cD (cM (cH 0) (cW (cA (cN 1) (cM (cN 2) (cV 1))) 4)) (cM (cA (cN 1) (cH 0)) (cA (cA (cN 3) (cM (cN 5) (cV 1))) (cM (cN 2) (cW (cV 1) 4))))))) (cR (cD (cM (cA (cN 1) (cM (cN 2) (cH 0))) (cA (cA (cN 3) (cM (cN 5) (cV 1))) (cM (cN 2) (cW (cV 1) 4)))) (cA (cN 3) (cM (cN 2) (cH 0)))))).
Definition SPSU2T_e804 := (cD (cA (cB (cA (cR (cD (cH 0) (cM (cA (cN 1) (cH 0)) (cA (cN (-1)) (cV 1))))) (cM (cN 2) (cR (cD (cM (cH 0) (cA (cN (-1)) (cV 1))) (cA (cN 1) (cH 0)))))) (cM (cM (cN 2) (cR (cD (cH 0) (cM (cA (cN 1) (cH 0)) (cA (cN (-1)) (cV 1)))))) (cV 1))) (cM (cR (cD (cH 0) (cM (cA (cN 1) (cH 0)) (cA (cN (-1)) (cV 1))))) (cW (cV 1) 4))) (cM (cR (cD (cM (cA (cN 1) (cM (cN 2) (cH 0))) (cA (cN (-1)) (cV 1))) (cA (cN 3) (cM (cN 2) (cH 0))))) (cA (cN 1) (cV 1)))).
Definition SPSU2T_e805 := (cD (cA (cB (cA (cA (cM (cN (-3)) (cR (cM (cM (cH 0) (cV 1)) (cA (cA (cN 3) (cM (cN 5) (cV 1))) (cM (cN 2) (cW (cV 1) 4)))))) (cM (cM (cN 12) (cW (cV 1) 4)) (cR (cM (cM (cH 0) (cV 1)) (cA (cA (cN 3) (cM (cN 5) (cV 1))) (cM (cN 2) (cW (cV 1) 4))))))) (cR (cM (cM (cH 0) (cW (cV 1) 6)) (cA (cA (cN 3) (cM (cN 5) (cV 1))) (cM (cN 2) (cW (cV 1) 4)))))) (cM (cN 4) (cR (cM (cM (cH 0) (cW (cV 1) 10)) (cA (cA (cN 3) (cM (cN 5) (cV 1))) (cM (cN 2) (cW (cV 1) 4))))))) (cM (cN 4) (cR (cM (cM (cH 0) (cW (cV 1) 14)) (cA (cA (cN 3) (cM (cN 5) (cV 1))) (cM (cN 2) (cW (cV 1) 4))))))) (cM (cM (cR (cD (cM (cM (cA (cN 1) (cH 0)) (cA (cN 1) (cM (cN 2) (cH 0)))) (cV 1)) (cA (cN 3) (cM (cN 2) (cH 0))))) (cA (cN (-1)) (cM (cN 2) (cV 1)))) (cW (cA (cA (cN 3) (cM (cN 5) (cV 1))) (cM (cN 2) (cW (cV 1) 4))) 3))).
Definition SPSU2T_e806 := (cD (cM (cR (cD (cA (cN 3) (cM (cN 2) (cH 0))) (cA (cA (cN 1) (cM (cN 3) (cH 0))) (cM (cN 2) (cW (cH 0) 4))))) (cA (cA (cA (cR (cM (cM (cM (cH 0) (cW (cA (cN 1) (cV 1)) 6)) (cW (cA (cV 1) (cM (cN 2) (cW (cV 1) 4))) 4)) (cA (cA (cN 6) (cM (cN 7) (cV 1))) (cM (cN 2) (cW (cV 1) 4))))) (cM (cN 6) (cR (cM (cH 0) (cA (cA (cA (cN 6) (cM (cN 13) (cV 1))) (cM (cN 9) (cW (cV 1) 4))) (cM (cN 2) (cW (cV 1) 6))))))) (cM (cM (cN 12) (cV 1)) (cR (cM (cH 0) (cA (cA (cA (cN 6) (cM (cN 13) (cV 1))) (cM (cN 9) (cW (cV 1) 4))) (cM (cN 2) (cW (cV 1) 6))))))) (cM (cM (cN 6) (cW (cV 1) 4)) (cR (cM (cH 0) (cA (cA (cA (cN 6) (cM (cN 13) (cV 1))) (cM (cN 9) (cW (cV 1) 4))) (cM (cN 2) (cW (cV 1) 6)))))))) (cW (cA (cA (cA (cN 6) (cM (cN 13) (cV 1))) (cM (cN 9) (cW (cV 1) 4))) (cM (cN 2) (cW (cV 1) 6))) 3)).
Definition SPSU2T_e807 := (cM (cR (cD (cA (cN 3) (cM (cN 2) (cH 0))) (cM (cA (cN 1) (cM (cN 2) (cH 0))) (cA (cA (cA (cA (cN 30) (cM (cN 77) (cV 1))) (cM (cN 71) (cW (cV 1) 4))) (cM (cN 28) (cW (cV 1) 6))) (cM (cN 4) (cW (cV 1) 8)))))) (cA (cA (cA (cA (cM (cM (cN 2) (cA (cN 1) (cM (cN 2) (cV 1)))) (cR (cD (cM (cH 0) (cA (cA (cN 3) (cM (cN 5) (cV 1))) (cM (cN 2) (cW (cV 1) 4)))) (cM (cA (cN 1) (cH 0)) (cA (cA (cN 10) (cM (cN 9) (cV 1))) (cM (cN 2) (cW (cV 1) 4))))))) (cM (cA (cN 1) (cM (cN 2) (cV 1))) (cR (cD (cM (cH 0) (cA (cA (cA (cN 6) (cM (cN 13) (cV 1))) (cM (cN 9) (cW (cV 1) 4))) (cM (cN 2) (cW (cV 1) 6)))) (cM (cA (cN 1) (cH 0)) (cA (cN 5) (cM (cN 2) (cV 1)))))))) (cM (cM (cN 6) (cA (cN 1) (cM (cN 2) (cV 1)))) (cR (cD (cM (cH 0) (cA (cN 1) (cV 1))) (cM (cA (cN 1) (cH 0)) (cA (cA (cA (cN 30) (cM (cN 47) (cV 1))) (cM (cN 24) (cW (cV 1) 4))) (cM (cN 4) (cW (cV 1) 6)))))))) (cM (cN 6) (cR (cD (cH 0) (cM (cA (cN 1) (cH 0)) (cA (cA (cA (cA (cN 30) (cM (cN 77) (cV 1))) (cM (cN 71) (cW (cV 1) 4))) (cM (cN 28) (cW (cV 1) 6))) (cM (cN 4) (cW (cV 1) 8)))))))) (cM (cM (cN 6) (cA (cN 1) (cM (cN 2) (cV 1)))) (cR (cD (cH 0) (cM (cA (cN 1) (cH 0)) (cA (cA (cA (cA (cN 30) (cM (cN 77) (cV 1))) (cM (cN 71) (cW (cV 1) 4))) (cM (cN 28) (cW (cV 1) 6))) (cM (cN 4) (cW (cV 1) 8))))))))).
Definition SPSU2T_e808 := (cD (cM (cM (cM (cA (cN 1) (cM (cN 2) (cH 0))) (cR (cD (cA (cA (cN 3) (cM (cN 5) (cH 0))) (cM (cN 2) (cW (cH 0) 4))) (cV 1)))) (cW (cA (cN 1) (cM (cN 2) (cV 1))) 3)) (cA (cB (cB (cB (cM (cN (-6)) (cR (cD (cV 1) (cM (cA (cA (cN 3) (cM (cN 8) (cH 0))) (cM (cN 4) (cW (cH 0) 4))) (cW (cA (cN 1) (cM (cN 2) (cV 1))) 6))))) (cM (cN 9) (cR (cD (cW (cV 1) 6) (cM (cA (cA (cN 3) (cM (cN 8) (cH 0))) (cM (cN 4) (cW (cH 0) 4))) (cW (cA (cN 1) (cM (cN 2) (cV 1))) 6)))))) (cM (cN 4) (cR (cD (cW (cV 1) 6) (cM (cA (cA (cN 3) (cM (cN 8) (cH 0))) (cM (cN 4) (cW (cH 0) 4))) (cA (cN 1) (cM (cN 2) (cV 1)))))))) (cR (cD (cW (cV 1) 10) (cM (cA (cA (cN 3) (cM (cN 8) (cH 0))) (cM (cN 4) (cW (cH 0) 4))) (cA (cN 1) (cM (cN 2) (cV 1))))))) (cM (cM (cN 2) (cH 0)) (cA (cA (cA (cM (cN 6) (cR (cD (cV 1) (cM (cM (cW (cA (cN 1) (cM (cN 2) (cH 0))) 6) (cA (cN 3) (cM (cN 2) (cH 0)))) (cW (cA (cN 1) (cM (cN 2) (cV 1))) 6))))) (cM (cN 9) (cR (cD (cW (cV 1) 6) (cM (cM (cW (cA (cN 1) (cM (cN 2) (cH 0))) 6) (cA (cN 3) (cM (cN 2) (cH 0)))) (cW (cA (cN 1) (cM (cN 2) (cV 1))) 6)))))) (cM (cN 4) (cR (cD (cW (cV 1) 6) (cM (cM (cW (cA (cN 1) (cM (cN 2) (cH 0))) 6) (cA (cN 3) (cM (cN 2) (cH 0)))) (cA (cN 1) (cM (cN 2) (cV 1)))))))) (cR (cD (cW (cV 1) 10) (cM (cM (cW (cA (cN 1) (cM (cN 2) (cH 0))) 6) (cA (cN 3) (cM (cN 2) (cH 0)))) (cA (cN 1) (cM (cN 2) (cV 1)))))))))) (cM (cM (cA (cN 1) (cH 0)) (cA (cN 1) (cV 1))) (cA (cA (cN 6) (cM (cN 7) (cV 1))) (cM (cN 2) (cW (cV 1) 4))))).
Definition SPSU2T_e809 := (cD (cR (cA (cA (cN (-3)) (cM (cN 4) (cH 0))) (cM (cN 4) (cW (cH 0) 4)))) (cA (cN 1) (cM (cN 2) (cH 0)))).
Definition SPSU2T_e810 := (cD (cA (cA (cR (cD (cM (cM (cM (cH 0) (cA (cN (-1)) (cM (cN 2) (cH 0)))) (cA (cN 1) (cV 1))) (cW (cA (cN 1) (cM (cN 2) (cV 1))) 4)) (cM (cA (cA (cN 1) (cM (cN 3) (cH 0))) (cM (cN 2) (cW (cH 0) 4))) (cA (cN 3) (cM (cN 2) (cV 1)))))) (cR (cD (cM (cH 0) (cA (cN (-1)) (cM (cN 2) (cH 0)))) (cM (cA (cA (cN 1) (cM (cN 3) (cH 0))) (cM (cN 2) (cW (cH 0) 4))) (cA (cA (cN 3) (cM (cN 5) (cV 1))) (cM (cN 2) (cW (cV 1) 4))))))) (cR (cD (cM (cM (cH 0) (cA (cN (-1)) (cM (cN 2) (cH 0)))) (cW (cA (cN 1) (cM (cN 2) (cV 1))) 4)) (cM (cA (cA (cN 1) (cM (cN 3) (cH 0))) (cM (cN 2) (cW (cH 0) 4))) (cA (cA (cN 3) (cM (cN 5) (cV 1))) (cM (cN 2) (cW (cV 1) 4))))))) (cR (cD (cM (cM (cH 0) (cA (cN 1) (cM (cN 2) (cH 0)))) (cA (cA (cN 3) (cM (cN 5) (cV 1))) (cM (cN 2) (cW (cV 1) 4)))) (cA (cA (cN 3) (cM (cN 5) (cH 0))) (cM (cN 2) (cW (cH 0) 4)))))).
Definition SPSU2T_e811 := (cO (cD (cR (cD (cA (cN 3) (cM (cN 2) (cH 0))) (cA (cN 1) (cM (cN 2) (cH 0))))) (cA (cN 1) (cH 0)))).
Definition SPSU2T_e812 := (cD (cA (cM (cN 2) (cR (cD (cH 0) (cA (cN 2) (cH 0))))) (cR (cD (cW (cH 0) 6) (cA (cN 2) (cH 0))))) (cA (cN 1) (cH 0))).
Definition SPSU2T_e813 := (cD (cN 1) (cA (cA (cN 1) (cM (cN 3) (cH 0))) (cM (cN 2) (cW (cH 0) 4)))).
Definition SPSU2T_e814 := (cO (cD (cN 1) (cA (cN 1) (cH 0)))).
Definition SPSU2T_e815 := (cD (cN 1) (cR (cD (cM (cH 0) (cA (cN 1) (cM (cN 2) (cH 0)))) (cA (cA (cN (-3)) (cH 0)) (cM (cN 2) (cW (cH 0) 4)))))).
Definition SPSU2T_e816 := (cO (cD (cR (cA (cA (cN 9) (cM (cN 15) (cH 0))) (cM (cN 6) (cW (cH 0) 4)))) (cM (cA (cN 1) (cH 0)) (cA (cN 1) (cM (cN 2) (cH 0)))))).
Definition SPSU2T_e817 := (cD (cR (cM (cM (cH 0) (cA (cN 3) (cM (cN 2) (cH 0)))) (cA (cA (cN (-2)) (cM (cN 3) (cH 0))) (cM (cN 2) (cW (cH 0) 4))))) (cA (cA (cN 1) (cM (cN 3) (cH 0))) (cM (cN 2) (cW (cH 0) 4)))).
Definition SPSU2T_e818 := (cD (cR (cN 3)) (cM (cR (cM (cH 0) (cA (cN 1) (cH 0)))) (cA (cN 1) (cM (cN 2) (cH 0))))).
Definition SPSU2T_e819 := (cD (cM (cN (-4)) (cR (cM (cM (cH 0) (cA (cN 2) (cH 0))) (cA (cA (cN 3) (cM (cN 5) (cH 0))) (cM (cN 2) (cW (cH 0) 4)))))) (cM (cA (cN 1) (cH 0)) (cA (cA (cN 3) (cM (cN 8) (cH 0))) (cM (cN 4) (cW (cH 0) 4))))).
Definition SPSU2T_e820 := (cD (cM (cA (cN 5) (cM (cN 2) (cH 0))) (cR (cD (cM (cH 0) (cA (cN 1) (cH 0))) (cA (cA (cN 15) (cM (cN 16) (cH 0))) (cM (cN 4) (cW (cH 0) 4)))))) (cA (cN 1) (cH 0))).
Definition SPSU2T_e821 := (cD (cM (cM (cR (cN 3)) (cR (cM (cH 0) (cA (cN 1) (cH 0))))) (cA (cB (cA (cA (cB (cR (cD (cM (cM (cW (cA (cN 2) (cH 0)) 4) (cA (cN 3) (cM (cN 2) (cH 0)))) (cW (cA (cA (cN 1) (cM (cN 3) (cH 0))) (cM (cN 2) (cW (cH 0) 4))) 6)) (cH 0))) (cM (cM (cM (cN 4) (cW (cA (cN 1) (cH 0)) 3)) (cR (cD (cM (cH 0) (cA (cN 1) (cM (cN 2) (cH 0)))) (cA (cN 3) (cM (cN 2) (cH 0)))))) (cA (cA (cN 2) (cM (cN 5) (cH 0))) (cM (cN 2) (cW (cH 0) 4))))) (cD (cM (cW (cA (cN 1) (cH 0)) 3) (cA (cA (cN 2) (cM (cN 5) (cH 0))) (cM (cN 2) (cW (cH 0) 4)))) (cR (cD (cM (cH 0) (cA (cN 3) (cM (cN 2) (cH 0)))) (cA (cN 1) (cM (cN 2) (cH 0))))))) (cM (cM (cN 3) (cA (cA (cN 2) (cM (cN 3) (cH 0))) (cW (cH 0) 4))) (cR (cD (cM (cM (cW (cB (cN 1) (cM (cN 2) (cH 0))) 4) (cH 0)) (cA (cN 1) (cM (cN 2) (cH 0)))) (cA (cA (cN 3) (cM (cN 5) (cH 0))) (cM (cN 2) (cW (cH 0) 4))))))) (cM (cM (cN 5) (cR (cD (cM (cH 0) (cA (cN 1) (cM (cN 2) (cH 0)))) (cA (cA (cN 3) (cM (cN 5) (cH 0))) (cM (cN 2) (cW (cH 0) 4)))))) (cA (cA (cA (cN 2) (cM (cN 7) (cH 0))) (cM (cN 7) (cW (cH 0) 4))) (cM (cN 2) (cW (cH 0) 6))))) (cM (cM (cM (cN 2) (cH 0)) (cR (cD (cM (cH 0) (cA (cN 1) (cM (cN 2) (cH 0)))) (cA (cA (cN 3) (cM (cN 5) (cH 0))) (cM (cN 2) (cW (cH 0) 4)))))) (cA (cA (cA (cN 2) (cM (cN 7) (cH 0))) (cM (cN 7) (cW (cH 0) 4))) (cM (cN 2) (cW (cH 0) 6)))))) (cM (cM (cN 2) (cA (cN 1) (cM (cN 2) (cH 0)))) (cW (cA (cA (cN 2) (cM (cN 3) (cH 0))) (cW (cH 0) 4)) 4))).
Definition SPSU2T_e822 := (cO (cD (cM (cM (cR (cN 3)) (cR (cA (cN 1) (cH 0)))) (cA (cA (cA (cB (cM (cN 7) (cR (cD (cA (cN 5) (cM (cN 2) (cH 0))) (cA (cN 3) (cM (cN 2) (cH 0)))))) (cM (cM (cN 4) (cW (cH 0) 6)) (cR (cD (cA (cN 5) (cM (cN 2) (cH 0))) (cA (cN 3) (cM (cN 2) (cH 0))))))) (cR (cA (cA (cN 15) (cM (cN 16) (cH 0))) (cM (cN 4) (cW (cH 0) 4))))) (cM (cM (cN 2) (cW (cH 0) 4)) (cA (cM (cN (-5)) (cR (cD (cA (cN 5) (cM (cN 2) (cH 0))) (cA (cN 3) (cM (cN 2) (cH 0)))))) (cR (cA (cA (cN 15) (cM (cN 16) (cH 0))) (cM (cN 4) (cW (cH 0) 4))))))) (cM (cH 0) (cA (cM (cN (-2)) (cR (cD (cA (cN 5) (cM (cN 2) (cH 0))) (cA (cN 3) (cM (cN 2) (cH 0)))))) (cM (cN 3) (cR (cA (cA (cN 15) (cM (cN 16) (cH 0))) (cM (cN 4) (cW (cH 0) 4))))))))) (cM (cW (cA (cN 5) (cM (cN 2) (cH 0))) 3) (cA (cA (cN 2) (cM (cN 3) (cH 0))) (cW (cH 0) 4))))).
Definition SPSU2T_e823 := (cD (cM (cR (cM (cA (cN 1) (cH 0)) (cA (cN 1) (cM (cN 2) (cH 0))))) (cA (cA (cA (cM (cN 15) (cR (cD (cA (cN 2) (cH 0)) (cA (cA (cN 1) (cM (cN 3) (cH 0))) (cM (cN 2) (cW (cH 0) 4)))))) (cM (cN 9) (cR (cD (cA (cA (cN 2) (cM (cN 5) (cH 0))) (cM (cN 2) (cW (cH 0) 4))) (cA (cN 1) (cH 0)))))) (cM (cN 6) (cR (cA (cA (cA (cN 2) (cM (cN 7) (cH 0))) (cM (cN 7) (cW (cH 0) 4))) (cM (cN 2) (cW (cH 0) 6)))))) (cM (cH 0) (cR (cA (cA (cA (cN 2) (cM (cN 7) (cH 0))) (cM (cN 7) (cW (cH 0) 4))) (cM (cN 2) (cW (cH 0) 6))))))) (cM (cW (cA (cN 2) (cH 0)) 3) (cA (cA (cN 15) (cM (cN 11) (cH 0))) (cM (cN 2) (cW (cH 0) 4))))).
Definition SPSU2T_e824 := (cD (cA (cR (cD (cA (cN (-1)) (cM (cN 2) (cH 0))) (cA (cN 1) (cM (cN 2) (cH 0))))) (cR (cA (cN (-1)) (cM (cN 4) (cW (cH 0) 4))))) (cM (cN 2) (cR (cM (cH 0) (cA (cN 1) (cH 0)))))).
Definition SPSU2T_e825 := (cD (cA (cA (cO (cR (cM (cH 0) (cA (cN 1) (cH 0))))) (cR (cM (cW (cH 0) 6) (cA (cN 1) (cH 0))))) (cM (cN 2) (cR (cM (cW (cH 0) 10) (cA (cN 1) (cH 0)))))) (cM (cM (cH 0) (cA (cN 1) (cH 0))) (cR (cA (cN (-1)) (cM (cN 4) (cW (cH 0) 4)))))).
Definition SPSU2T_e826 := (cD (cR (cM (cM (cH 0) (cA (cN 1) (cH 0))) (cA (cN (-1)) (cM (cN 4) (cW (cH 0) 4))))) (cM (cH 0) (cA (cN 1) (cM (cN 2) (cH 0))))).
Definition SPSU2T_e827 := (cD (cA (cA (cA (cD (cM (cM (cM (cM (cN 9) (cH 0)) (cW (cV 1) 5)) (cA (cN 1) (cV 1))) (cW (cA (cA (cN 6) (cM (cN 7) (cV 1))) (cM (cN 2) (cW (cV 1) 4))) 3)) (cR (cA (cN 1) (cM (cN 2) (cV 1))))) (cM (cM (cM (cM (cM (cN 3) (cH 0)) (cW (cV 1) 4)) (cA (cN 1) (cV 1))) (cR (cM (cV 1) (cA (cN 1) (cM (cN 2) (cV 1)))))) (cW (cA (cA (cN 6) (cM (cN 7) (cV 1))) (cM (cN 2) (cW (cV 1) 4))) 3))) (cD (cM (cM (cM (cN 6) (cH 0)) (cA (cN 1) (cV 1))) (cW (cM (cV 1) (cA (cA (cN 6) (cM (cN 7) (cV 1))) (cM (cN 2) (cW (cV 1) 4)))) 3)) (cR (cA (cN 1) (cM (cN 2) (cV 1)))))) (cM (cV 1) (cR (cM (cM (cM (cM (cW (cH 0) 4) (cW (cV 1) 6)) (cW (cA (cN 1) (cV 1)) 8)) (cA (cN 1) (cM (cN 2) (cV 1)))) (cW (cA (cA (cN 6) (cM (cN 7) (cV 1))) (cM (cN 2) (cW (cV 1) 4))) 6))))) (cR (cD (cM (cM (cM (cM (cW (cH 0) 6) (cA (cN 1) (cM (cN 2) (cH 0)))) (cW (cV 1) 6)) (cW (cA (cN 1) (cV 1)) 8)) (cW (cA (cA (cN 6) (cM (cN 7) (cV 1))) (cM (cN 2) (cW (cV 1) 4))) 10)) (cA (cN 1) (cM (cN 2) (cV 1)))))).
Definition SPSU2T_e828 := (cD (cM (cR (cD (cA (cN 1) (cM (cN 2) (cV 1))) (cA (cN 1) (cM (cN 2) (cH 0))))) (cA (cA (cA (cM (cM (cN 29) (cV 1)) (cR (cM (cH 0) (cA (cA (cN 5) (cM (cN 12) (cV 1))) (cM (cN 4) (cW (cV 1) 4)))))) (cM (cM (cN 13) (cW (cV 1) 4)) (cR (cM (cH 0) (cA (cA (cN 5) (cM (cN 12) (cV 1))) (cM (cN 4) (cW (cV 1) 4))))))) (cM (cM (cN 2) (cW (cV 1) 6)) (cR (cM (cH 0) (cA (cA (cN 5) (cM (cN 12) (cV 1))) (cM (cN 4) (cW (cV 1) 4))))))) (cM (cN 6) (cA (cR (cD (cM (cH 0) (cA (cN 5) (cM (cN 2) (cV 1)))) (cA (cN 1) (cM (cN 2) (cV 1))))) (cM (cN 4) (cR (cM (cH 0) (cA (cA (cN 5) (cM (cN 12) (cV 1))) (cM (cN 4) (cW (cV 1) 4)))))))))) (cM (cM (cH 0) (cW (cA (cN 5) (cM (cN 2) (cV 1))) 3)) (cA (cA (cA (cN 6) (cM (cN 13) (cV 1))) (cM (cN 9) (cW (cV 1) 4))) (cM (cN 2) (cW (cV 1) 6))))).
Definition SPSU2T_e829 := (cD (cA (cD (cN 1) (cR (cD (cM (cH 0) (cA (cA (cN 1) (cM (cN 3) (cH 0))) (cM (cN 2) (cW (cH 0) 4)))) (cA (cN (-1)) (cM (cN 2) (cH 0)))))) (cD (cN 1) (cR (cD (cM (cH 0) (cA (cN 1) (cH 0))) (cA (cN (-1)) (cM (cN 4) (cW (cH 0) 4))))))) (cN 2)).
Definition SPSU2T_e830 := (cD (cM (cA (cN (-1)) (cM (cN 2) (cH 0))) (cA (cR (cD (cM (cH 0) (cA (cA (cN 1) (cM (cN 3) (cH 0))) (cM (cN 2) (cW (cH 0) 4)))) (cA (cN (-1)) (cM (cN 2) (cH 0))))) (cR (cD (cM (cH 0) (cA (cN 1) (cH 0))) (cA (cN (-1)) (cM (cN 4) (cW (cH 0) 4))))))) (cM (cM (cN 2) (cH 0)) (cA (cN 1) (cH 0)))).
Definition SPSU2T_e831 := (cD (cA (cR (cD (cM (cH 0) (cA (cA (cN (-1)) (cH 0)) (cM (cN 2) (cW (cH 0) 4)))) (cA (cN 1) (cM (cN 2) (cH 0))))) (cR (cM (cH 0) (cA (cA (cB (cN (-1)) (cH 0)) (cM (cN 4) (cW (cH 0) 4))) (cM (cN 4) (cW (cH 0) 6)))))) (cA (cM (cN 2) (cH 0)) (cM (cN 2) (cW (cH 0) 4)))).
Definition SPSU2T_e832 := (cD (cN 1) (cA (cH 0) (cM (cN 2) (cW (cH 0) 4)))).
Definition SPSU2T_e833 := (cD (cA (cA (cR (cM (cM (cM (cH 0) (cA (cN 1) (cH 0))) (cA (cN (-1)) (cM (cN 2) (cH 0)))) (cA (cN 1) (cM (cN 2) (cH 0))))) (cR (cD (cM (cH 0) (cA (cN (-1)) (cM (cN 2) (cH 0)))) (cA (cA (cN 1) (cM (cN 3) (cH 0))) (cM (cN 2) (cW (cH 0) 4)))))) (cR (cD (cM (cH 0) (cA (cN (-1)) (cM (cN 4) (cW (cH 0) 4)))) (cA (cN 1) (cH 0))))) (cR (cM (cM (cH 0) (cA (cN 1) (cM (cN 2) (cH 0)))) (cA (cA (cN 3) (cM (cN 5) (cH 0))) (cM (cN 2) (cW (cH 0) 4)))))).
Definition SPSU2T_e834 := (cD (cA (cA (cR (cD (cM (cH 0) (cA (cN (-1)) (cM (cN 2) (cH 0)))) (cA (cA (cN 1) (cM (cN 3) (cH 0))) (cM (cN 2) (cW (cH 0) 4))))) (cR (cD (cM (cH 0) (cA (cN (-1)) (cM (cN 4) (cW (cH 0) 4)))) (cA (cN 1) (cH 0))))) (cR (cM (cH 0) (cA (cA (cB (cN (-1)) (cH 0)) (cM (cN 4) (cW (cH 0) 4))) (cM (cN 4) (cW (cH 0) 6)))))) (cR (cM (cM (cH 0) (cA (cN 1) (cM (cN 2) (cH 0)))) (cA (cA (cN 3) (cM (cN 5) (cH 0))) (cM (cN 2) (cW (cH 0) 4)))))).
Definition SPSU2T_e835 := (cD (cR (cN 3)) (cR (cM (cH 0) (cA (cN (-1)) (cM (cN 2) (cH 0)))))).
Definition SPSU2T_e836 := (cD (cR (cN 3)) (cM (cH 0) (cR (cA (cN (-1)) (cM (cN 4) (cW (cH 0) 4)))))).
Definition SPSU2T_e837 := (cD (cM (cN 2) (cA (cA (cB (cR (cO (cD (cA (cN 1) (cH 0)) (cB (cA (cN 1) (cH 0)) (cM (cN 2) (cW (cH 0) 4)))))) (cM (cM (cN 3) (cH 0)) (cR (cO (cD (cA (cN 1) (cH 0)) (cB (cA (cN 1) (cH 0)) (cM (cN 2) (cW (cH 0) 4)))))))) (cM (cM (cN 2) (cW (cH 0) 4)) (cR (cO (cD (cA (cN 1) (cH 0)) (cB (cA (cN 1) (cH 0)) (cM (cN 2) (cW (cH 0) 4)))))))) (cM (cN 3) (cR (cD (cA (cN (-1)) (cW (cH 0) 4)) (cA (cN 1) (cM (cN 2) (cH 0)))))))) (cM (cA (cN 1) (cH 0)) (cR (cM (cH 0) (cA (cN (-1)) (cM (cN 4) (cW (cH 0) 4))))))).
Definition SPSU2T_e838 := (cD (cA (cB (cA (cA (cO (cM (cH 0) (cR (cD (cM (cM (cA (cN (-1)) (cM (cN 2) (cH 0))) (cA (cN 1) (cM (cN 2) (cH 0)))) (cA (cA (cN 3) (cM (cN 5) (cH 0))) (cM (cN 2) (cW (cH 0) 4)))) (cA (cN (-1)) (cH 0)))))) (cM (cW (cH 0) 4) (cR (cD (cM (cM (cA (cN (-1)) (cM (cN 2) (cH 0))) (cA (cN 1) (cM (cN 2) (cH 0)))) (cA (cA (cN 3) (cM (cN 5) (cH 0))) (cM (cN 2) (cW (cH 0) 4)))) (cA (cN (-1)) (cH 0)))))) (cM (cN 3) (cR (cD (cM (cA (cB (cN 1) (cM (cN 3) (cH 0))) (cM (cN 2) (cW (cH 0) 4))) (cA (cA (cN 3) (cM (cN 5) (cH 0))) (cM (cN 2) (cW (cH 0) 4)))) (cA (cN 1) (cM (cN 2) (cH 0))))))) (cM (cM (cN 4) (cH 0)) (cR (cD (cA (cA (cA (cN (-3)) (cH 0)) (cM (cN 8) (cW (cH 0) 4))) (cM (cN 4) (cW (cH 0) 6))) (cA (cB (cN (-1)) (cH 0)) (cM (cN 2) (cW (cH 0) 4))))))) (cM (cM (cN 4) (cW (cH 0) 4)) (cR (cD (cA (cA (cA (cN (-3)) (cH 0)) (cM (cN 8) (cW (cH 0) 4))) (cM (cN 4) (cW (cH 0) 6))) (cA (cB (cN (-1)) (cH 0)) (cM (cN 2) (cW (cH 0) 4))))))) (cM (cM (cH 0) (cR (cA (cN 1) (cM (cN 2) (cH 0))))) (cA (cA (cN 3) (cM (cN 5) (cH 0))) (cM (cN 2) (cW (cH 0) 4))))).
Definition SPSU2T_e839 := (cD (cM (cR (cN 3)) (cA (cA (cM (cN 3) (cR (cD (cM (cH 0) (cA (cA (cN (-1)) (cH 0)) (cM (cN 2) (cW (cH 0) 4)))) (cA (cN 1) (cM (cN 2) (cH 0)))))) (cM (cM (cN 4) (cH 0)) (cR (cD (cM (cH 0) (cA (cA (cN (-1)) (cH 0)) (cM (cN 2) (cW (cH 0) 4)))) (cA (cN 1) (cM (cN 2) (cH 0))))))) (cR (cM (cW (cH 0) 6) (cA (cA (cB (cN (-1)) (cH 0)) (cM (cN 4) (cW (cH 0) 4))) (cM (cN 4) (cW (cH 0) 6))))))) (cM (cM (cM (cH 0) (cW (cA (cN 1) (cH 0)) 3)) (cR (cA (cN 1) (cM (cN 2) (cH 0))))) (cA (cN 3) (cM (cN 2) (cH 0))))).
Definition SPSU2T_e840 := (cD (cA (cA (cA (cM (cM (cN 3) (cA (cN 1) (cM (cN 2) (cH 0)))) (cR (cD (cM (cH 0) (cA (cA (cN (-1)) (cH 0)) (cM (cN 2) (cW (cH 0) 4)))) (cA (cN 3) (cM (cN 2) (cH 0)))))) (cM (cN 3) (cR (cD (cM (cH 0) (cA (cN (-1)) (cM (cN 2) (cH 0)))) (cA (cA (cN 3) (cM (cN 5) (cH 0))) (cM (cN 2) (cW (cH 0) 4))))))) (cM (cM (cN 3) (cA (cN 1) (cM (cN 2) (cH 0)))) (cR (cD (cM (cH 0) (cA (cN (-1)) (cM (cN 2) (cH 0)))) (cA (cA (cN 3) (cM (cN 5) (cH 0))) (cM (cN 2) (cW (cH 0) 4))))))) (cM (cA (cN 1) (cM (cN 2) (cH 0))) (cR (cM (cH 0) (cA (cA (cA (cN (-3)) (cH 0)) (cM (cN 8) (cW (cH 0) 4))) (cM (cN 4) (cW (cH 0) 6))))))) (cM (cM (cN 2) (cA (cN 1) (cH 0))) (cR (cM (cH 0) (cA (cA (cA (cN 6) (cM (cN 19) (cH 0))) (cM (cN 16) (cW (cH 0) 4))) (cM (cN 4) (cW (cH 0) 6))))))).
Definition SPSU2T_e841 := (cR (cD (cB (cN 3) (cM (cN 2) (cV 1))) (cB (cN 2) (cM (cN 4) (cV 1))))).
Definition SPSU2T_e842 := (cD (cB (cN 2) (cV 1)) (cR (cA (cB (cN 2) (cM (cN 3) (cV 1))) (cW (cV 1) 4)))).
Definition SPSU2T_e843 := (cA (cO (cD (cN 1) (cR (cD (cM (cA (cN 1) (cV 1)) (cA (cB (cN 1) (cM (cN 3) (cV 1))) (cM (cN 2) (cW (cV 1) 4)))) (cA (cN (-6)) (cM (cN 4) (cV 1))))))) (cM (cB (cN 1) (cV 1)) (cR (cD (cA (cN (-3)) (cM (cN 2) (cV 1))) (cA (cB (cB (cN 2) (cM (cN 4) (cV 1))) (cM (cN 2) (cW (cV 1) 4))) (cM (cN 4) (cW (cV 1) 6))))))).
Definition SPSU2T_e844 := (cM (cB (cN (-1)) (cV 1)) (cR (cD (cA (cN (-3)) (cM (cN 2) (cV 1))) (cA (cB (cB (cN 2) (cM (cN 4) (cV 1))) (cM (cN 2) (cW (cV 1) 4))) (cM (cN 4) (cW (cV 1) 6)))))).
Definition SPSU2T_e845 := (cB (cO (cD (cN 1) (cR (cM (cV 1) (cA (cN 1) (cV 1)))))) (cD (cW (cA (cN (-1)) (cV 1)) 3) (cM (cN 2) (cR (cM (cV 1) (cA (cN (-1)) (cW (cV 1) 4))))))).
Definition SPSU2T_e846 := (cD (cA (cO (cD (cN 1) (cR (cD (cM (cV 1) (cA (cN 1) (cM (cN 2) (cV 1)))) (cA (cB (cN 1) (cM (cN 3) (cV 1))) (cM (cN 2) (cW (cV 1) 4))))))) (cM (cA (cA (cN (-2)) (cV 1)) (cW (cV 1) 4)) (cR (cD (cB (cN 1) (cM (cN 2) (cV 1))) (cB (cA (cV 1) (cW (cV 1) 4)) (cM (cN 2) (cW (cV 1) 6))))))) (cM (cN 2) (cA (cN 1) (cV 1)))).
Definition SPSU2T_e847 := (cM (cQ (-1) 2) (cR (cA (cN 1) (cD (cN 1) (cV 1))))).
Definition SPSU2T_e848 := (cD (cA (cA (cA (cM (cN (-2)) (cR (cD (cB (cV 1) (cM (cN 2) (cW (cV 1) 4))) (cB (cA (cN 1) (cV 1)) (cM (cN 2) (cW (cV 1) 4)))))) (cM (cN 2) (cR (cD (cA (cB (cN 1) (cM (cN 3) (cV 1))) (cM (cN 2) (cW (cV 1) 4))) (cA (cV 1) (cM (cN 2) (cW (cV 1) 4))))))) (cR (cD (cB (cN 1) (cM (cN 2) (cV 1))) (cB (cA (cV 1) (cW (cV 1) 4)) (cM (cN 2) (cW (cV 1) 6)))))) (cR (cD (cB (cW (cV 1) 6) (cM (cN 2) (cW (cV 1) 8))) (cB (cA (cN 1) (cV 1)) (cM (cN 2) (cW (cV 1) 4)))))) (cM (cN 2) (cA (cN 1) (cV 1)))).
Definition SPSU2T_e849 := (cD (cA (cN 1) (cV 1)) (cM (cR (cN 2)) (cR (cA (cN (-1)) (cW (cV 1) 4))))).
Definition SPSU2T_e850 := (cD (cB (cN 3) (cV 1)) (cM (cN 2) (cR (cM (cA (cN (-1)) (cV 1)) (cV 1))))).
Definition SPSU2T_e851 := (cD (cM (cQ (-1) 2) (cM (cM (cR (cN 3)) (cA (cN (-1)) (cV 1))) (cR (cD (cM (cV 1) (cA (cN 3) (cM (cN 2) (cV 1)))) (cA (cB (cN (-1)) (cV 1)) (cM (cN 2) (cW (cV 1) 4))))))) (cV 1)).
Definition SPSU2T_e852 := (cB (cB (cA (cD (cM (cA (cN 1) (cM (cN 2) (cH 0))) (cR (cM (cA (cN (-1)) (cV 1)) (cV 1)))) (cM (cM (cA (cN 1) (cH 0)) (cV 1)) (cA (cN 1) (cV 1)))) (cD (cR (cD (cA (cN (-1)) (cV 1)) (cV 1))) (cA (cA (cA (cN 1) (cH 0)) (cV 1)) (cM (cH 0) (cV 1))))) (cD (cM (cA (cN 1) (cM (cN 2) (cH 0))) (cA (cA (cN (-7)) (cM (cN 2) (cV 1))) (cW (cV 1) 4))) (cM (cM (cM (cN 4) (cA (cN 1) (cH 0))) (cR (cM (cA (cN (-1)) (cV 1)) (cV 1)))) (cA (cN 1) (cV 1))))) (cD (cA (cA (cN (-7)) (cM (cN 2) (cV 1))) (cW (cV 1) 4)) (cM (cM (cN 4) (cR (cM (cM (cW (cA (cN 1) (cH 0)) 4) (cA (cN (-1)) (cV 1))) (cV 1)))) (cA (cN 1) (cV 1))))).
Definition SPSU2T_e853 := (cO (cD (cM (cR (cN 3)) (cR (cM (cV 1) (cA (cA (cB (cN (-3)) (cM (cN 5) (cV 1))) (cM (cN 4) (cW (cV 1) 4))) (cM (cN 4) (cW (cV 1) 6)))))) (cA (cM (cN 2) (cV 1)) (cM (cN 4) (cW (cV 1) 4))))).
Definition SPSU2T_e854 := (cD (cA (cA (cD (cM (cV 1) (cA (cN (-1)) (cM (cN 2) (cV 1)))) (cM (cA (cN 1) (cV 1)) (cR (cM (cV 1) (cA (cA (cA (cN (-3)) (cV 1)) (cM (cN 8) (cW (cV 1) 4))) (cM (cN 4) (cW (cV 1) 6))))))) (cD (cB (cB (cA (cN (-3)) (cM (cN 9) (cV 1))) (cM (cN 4) (cW (cV 1) 4))) (cM (cN 4) (cW (cV 1) 6))) (cM (cA (cN 1) (cV 1)) (cR (cM (cV 1) (cA (cA (cA (cN (-3)) (cV 1)) (cM (cN 8) (cW (cV 1) 4))) (cM (cN 4) (cW (cV 1) 6)))))))) (cM (cN 3) (cB (cA (cD (cN (-2)) (cM (cA (cN 1) (cV 1)) (cR (cD (cM (cV 1) (cA (cA (cN 3) (cM (cN 5) (cV 1))) (cM (cN 2) (cW (cV 1) 4)))) (cA (cN (-1)) (cM (cN 2) (cV 1))))))) (cR (cD (cV 1) (cM (cW (cA (cN 1) (cV 1)) 6) (cA (cA (cN (-3)) (cM (cN 4) (cV 1))) (cM (cN 4) (cW (cV 1) 4))))))) (cM (cN 2) (cR (cD (cW (cV 1) 6) (cM (cW (cA (cN 1) (cV 1)) 6) (cA (cA (cN (-3)) (cM (cN 4) (cV 1))) (cM (cN 4) (cW (cV 1) 4)))))))))) (cM (cN 2) (cR (cN 3)))).
Definition SPSU2T_e855 := (cD (cR (cM (cV 1) (cA (cA (cA (cN (-3)) (cV 1)) (cM (cN 8) (cW (cV 1) 4))) (cM (cN 4) (cW (cV 1) 6))))) (cM (cR (cN 3)) (cA (cA (cN 6) (cM (cN 10) (cV 1))) (cM (cN 4) (cW (cV 1) 4))))).
Definition SPSU2T_e856 := (cD (cA (cA (cB (cA (cA (cD (cM (cM (cM (cN (-3)) (cA (cN 1) (cM (cN 2) (cH 0)))) (cA (cN 2) (cV 1))) (cR (cD (cA (cN (-1)) (cM (cN 2) (cV 1))) (cM (cV 1) (cA (cN 3) (cM (cN 2) (cV 1))))))) (cM (cA (cN 1) (cH 0)) (cW (cA (cN 1) (cV 1)) 3))) (cD (cM (cV 1) (cA (cN (-1)) (cM (cN 2) (cV 1)))) (cM (cA (cA (cA (cN 1) (cH 0)) (cV 1)) (cM (cH 0) (cV 1))) (cR (cM (cV 1) (cA (cA (cA (cN (-3)) (cV 1)) (cM (cN 8) (cW (cV 1) 4))) (cM (cN 4) (cW (cV 1) 6)))))))) (cD (cM (cM (cA (cN 1) (cM (cN 2) (cH 0))) (cV 1)) (cA (cN (-1)) (cM (cN 2) (cV 1)))) (cM (cA (cA (cA (cN 1) (cH 0)) (cV 1)) (cM (cH 0) (cV 1))) (cR (cM (cV 1) (cA (cA (cA (cN (-3)) (cV 1)) (cM (cN 8) (cW (cV 1) 4))) (cM (cN 4) (cW (cV 1) 6)))))))) (cD (cM (cM (cA (cN 1) (cM (cN 2) (cH 0))) (cA (cN (-1)) (cM (cN 2) (cV 1)))) (cA (cA (cN (-3)) (cM (cN 3) (cV 1))) (cM (cN 2) (cW (cV 1) 4)))) (cM (cM (cA (cN 1) (cH 0)) (cA (cN 1) (cV 1))) (cR (cM (cV 1) (cA (cA (cA (cN (-3)) (cV 1)) (cM (cN 8) (cW (cV 1) 4))) (cM (cN 4) (cW (cV 1) 6)))))))) (cD (cB (cB (cA (cN (-3)) (cM (cN 9) (cV 1))) (cM (cN 4) (cW (cV 1) 4))) (cM (cN 4) (cW (cV 1) 6))) (cM (cM (cA (cN 1) (cH 0)) (cA (cN 1) (cV 1))) (cR (cM (cV 1) (cA (cA (cA (cN (-3)) (cV 1)) (cM (cN 8) (cW (cV 1) 4))) (cM (cN 4) (cW (cV 1) 6)))))))) (cD (cB (cB (cM (cM (cN 3) (cV 1)) (cR (cD (cM (cM (cA (cN 1) (cH 0)) (cV 1)) (cA (cA (cN 3) (cM (cN 5) (cV 1))) (cM (cN 2) (cW (cV 1) 4)))) (cA (cN (-1)) (cM (cN 2) (cV 1)))))) (cM (cM (cN 6) (cW (cV 1) 4)) (cR (cD (cM (cM (cA (cN 1) (cH 0)) (cV 1)) (cA (cA (cN 3) (cM (cN 5) (cV 1))) (cM (cN 2) (cW (cV 1) 4)))) (cA (cN (-1)) (cM (cN 2) (cV 1))))))) (cM (cN 6) (cR (cM (cM (cA (cN 1) (cH 0)) (cV 1)) (cA (cA (cA (cN (-3)) (cV 1)) (cM (cN 8) (cW (cV 1) 4))) (cM (cN 4) (cW (cV 1) 6))))))) (cM (cM (cM (cW (cA (cN 1) (cH 0)) 3) (cV 1)) (cW (cA (cN 1) (cV 1)) 4)) (cA (cN 3) (cM (cN 2) (cV 1)))))) (cM (cN 4) (cR (cN 3)))).
Definition SPSU2T_e857 := (cD (cM (cR (cN 3)) (cA (cA (cN (-3)) (cV 1)) (cM (cN 2) (cW (cV 1) 4)))) (cM (cN 2) (cR (cM (cV 1) (cA (cB (cN 3) (cM (cN 7) (cV 1))) (cM (cN 4) (cW (cV 1) 6))))))).
Definition SPSU2T_e858 := (cD (cM (cN 3) (cA (cA (cM (cN 3) (cR (cM (cV 1) (cA (cN 1) (cV 1))))) (cM (cN 5) (cR (cM (cW (cV 1) 6) (cA (cN 1) (cV 1)))))) (cM (cN 2) (cR (cM (cW (cV 1) 10) (cA (cN 1) (cV 1))))))) (cM (cM (cM (cN 2) (cV 1)) (cW (cA (cN 1) (cV 1)) 4)) (cA (cN 3) (cM (cN 2) (cV 1))))).
Definition SPSU2T_e859 := (cD (cM (cR (cN 3)) (cB (cA (cD (cM (cM (cN 3) (cA (cN 2) (cV 1))) (cA (cN (-1)) (cM (cN 2) (cV 1)))) (cR (cA (cA (cA (cB (cN (-6)) (cV 1)) (cM (cN 17) (cW (cV 1) 4))) (cM (cN 16) (cW (cV 1) 6))) (cM (cN 4) (cW (cV 1) 8))))) (cD (cM (cN 6) (cB (cB (cR (cD (cM (cH 0) (cW (cV 1) 6)) (cA (cN (-1)) (cM (cN 2) (cV 1))))) (cM (cN 2) (cR (cD (cM (cH 0) (cW (cV 1) 10)) (cA (cN (-1)) (cM (cN 2) (cV 1))))))) (cM (cN 2) (cR (cM (cM (cH 0) (cV 1)) (cA (cN (-1)) (cM (cN 2) (cV 1)))))))) (cR (cM (cM (cH 0) (cV 1)) (cA (cA (cA (cN 6) (cM (cN 13) (cV 1))) (cM (cN 9) (cW (cV 1) 4))) (cM (cN 2) (cW (cV 1) 6))))))) (cD (cM (cM (cV 1) (cA (cN (-1)) (cM (cN 2) (cV 1)))) (cA (cA (cR (cD (cM (cH 0) (cA (cA (cN 1) (cM (cN 3) (cV 1))) (cM (cN 2) (cW (cV 1) 4)))) (cA (cN 3) (cM (cN 2) (cV 1))))) (cM (cN 3) (cR (cD (cA (cH 0) (cM (cM (cN 2) (cH 0)) (cV 1))) (cA (cA (cN 3) (cM (cN 5) (cV 1))) (cM (cN 2) (cW (cV 1) 4))))))) (cM (cN 6) (cR (cD (cH 0) (cA (cA (cA (cN 3) (cM (cN 11) (cV 1))) (cM (cN 12) (cW (cV 1) 4))) (cM (cN 4) (cW (cV 1) 6)))))))) (cR (cD (cM (cH 0) (cA (cA (cN (-2)) (cM (cN 3) (cV 1))) (cM (cN 2) (cW (cV 1) 4)))) (cA (cN 1) (cM (cN 2) (cV 1)))))))) (cM (cN 2) (cA (cA (cN 3) (cM (cN 5) (cV 1))) (cM (cN 2) (cW (cV 1) 4))))).
Definition SPSU2T_e860 := (cD (cN 3) (cM (cN 2) (cR (cM (cV 1) (cA (cN 1) (cV 1)))))).
Definition SPSU2T_e861 := (cD (cM (cR (cN 3)) (cA (cB (cB (cB (cA (cD (cM (cM (cN 3) (cA (cN 2) (cV 1))) (cA (cN (-1)) (cM (cN 2) (cV 1)))) (cM (cM (cA (cN 1) (cH 0)) (cR (cA (cA (cN (-2)) (cM (cN 3) (cV 1))) (cM (cN 2) (cW (cV 1) 4))))) (cW (cA (cA (cN 3) (cM (cN 5) (cV 1))) (cM (cN 2) (cW (cV 1) 4))) 3))) (cD (cM (cM (cM (cN 3) (cA (cN 1) (cM (cN 2) (cH 0)))) (cA (cN 2) (cV 1))) (cA (cN (-1)) (cM (cN 2) (cV 1)))) (cM (cM (cA (cN 1) (cH 0)) (cR (cA (cA (cN (-2)) (cM (cN 3) (cV 1))) (cM (cN 2) (cW (cV 1) 4))))) (cW (cA (cA (cN 3) (cM (cN 5) (cV 1))) (cM (cN 2) (cW (cV 1) 4))) 3)))) (cD (cM (cN 6) (cA (cA (cN (-2)) (cM (cN 3) (cV 1))) (cM (cN 2) (cW (cV 1) 4)))) (cM (cM (cA (cN 1) (cH 0)) (cA (cA (cN 3) (cM (cN 5) (cV 1))) (cM (cN 2) (cW (cV 1) 4)))) (cR (cA (cA (cA (cB (cN (-6)) (cV 1)) (cM (cN 17) (cW (cV 1) 4))) (cM (cN 16) (cW (cV 1) 6))) (cM (cN 4) (cW (cV 1) 8))))))) (cD (cM (cV 1) (cA (cA (cA (cN (-10)) (cM (cN 11) (cV 1))) (cM (cN 16) (cW (cV 1) 4))) (cM (cN 4) (cW (cV 1) 6)))) (cM (cM (cM (cA (cN 1) (cH 0)) (cA (cN 1) (cV 1))) (cA (cN 3) (cM (cN 2) (cV 1)))) (cR (cA (cA (cA (cB (cN (-6)) (cV 1)) (cM (cN 17) (cW (cV 1) 4))) (cM (cN 16) (cW (cV 1) 6))) (cM (cN 4) (cW (cV 1) 8))))))) (cD (cM (cM (cA (cN 1) (cM (cN 2) (cH 0))) (cV 1)) (cA (cA (cA (cN (-10)) (cM (cN 11) (cV 1))) (cM (cN 16) (cW (cV 1) 4))) (cM (cN 4) (cW (cV 1) 6)))) (cM (cM (cA (cN 1) (cH 0)) (cA (cA (cN 3) (cM (cN 5) (cV 1))) (cM (cN 2) (cW (cV 1) 4)))) (cR (cA (cA (cA (cB (cN (-6)) (cV 1)) (cM (cN 17) (cW (cV 1) 4))) (cM (cN 16) (cW (cV 1) 6))) (cM (cN 4) (cW (cV 1) 8))))))) (cD (cM (cM (cN 6) (cR (cD (cA (cN 1) (cM (cN 2) (cH 0))) (cM (cM (cW (cA (cN 1) (cH 0)) 4) (cV 1)) (cA (cA (cA (cN 6) (cM (cN 13) (cV 1))) (cM (cN 9) (cW (cV 1) 4))) (cM (cN 2) (cW (cV 1) 6))))))) (cB (cB (cR (cD (cM (cA (cN 1) (cM (cN 2) (cH 0))) (cW (cV 1) 6)) (cA (cN (-1)) (cM (cN 2) (cV 1))))) (cM (cN 2) (cR (cD (cM (cA (cN 1) (cM (cN 2) (cH 0))) (cW (cV 1) 10)) (cA (cN (-1)) (cM (cN 2) (cV 1))))))) (cM (cN 2) (cR (cM (cM (cA (cN 1) (cM (cN 2) (cH 0))) (cV 1)) (cA (cN (-1)) (cM (cN 2) (cV 1)))))))) (cA (cA (cN 3) (cM (cN 5) (cV 1))) (cM (cN 2) (cW (cV 1) 4)))))) (cN 4)).
Definition SPSU2T_e862 := (cD (cA (cA (cN 6) (cM (cN 7) (cV 1))) (cM (cN 2) (cW (cV 1) 4))) (cM (cN 2) (cR (cA (cA (cA (cA (cN 6) (cM (cN 25) (cV 1))) (cM (cN 35) (cW (cV 1) 4))) (cM (cN 20) (cW (cV 1) 6))) (cM (cN 4) (cW (cV 1) 8)))))).
Definition SPSU2T_e863 := (cM (cQ (-1) 2) (cR (cD (cV 1) (cA (cN 1) (cV 1))))).
Definition SPSU2T_e864 := (cD (cA (cA (cA (cA (cA (cM (cM (cV 1) (cA (cN 2) (cV 1))) (cR (cD (cA (cN 1) (cM (cN 2) (cV 1))) (cM (cM (cW (cA (cN 1) (cH 0)) 4) (cW (cA (cN 1) (cV 1)) 6)) (cA (cA (cN 6) (cM (cN 7) (cV 1))) (cM (cN 2) (cW (cV 1) 4))))))) (cD (cM (cV 1) (cA (cN 2) (cV 1))) (cR (cD (cM (cM (cW (cA (cN 1) (cH 0)) 4) (cW (cA (cN 1) (cV 1)) 6)) (cA (cA (cN 6) (cM (cN 7) (cV 1))) (cM (cN 2) (cW (cV 1) 4)))) (cM (cW (cA (cN 1) (cM (cN 2) (cH 0))) 4) (cA (cN 1) (cM (cN 2) (cV 1)))))))) (cD (cM (cN 3) (cA (cN 2) (cV 1))) (cM (cA (cN 1) (cV 1)) (cR (cM (cW (cA (cN 1) (cH 0)) 4) (cA (cA (cA (cA (cN 6) (cM (cN 25) (cV 1))) (cM (cN 35) (cW (cV 1) 4))) (cM (cN 20) (cW (cV 1) 6))) (cM (cN 4) (cW (cV 1) 8)))))))) (cM (cM (cM (cN 2) (cR (cD (cA (cN 1) (cM (cN 2) (cH 0))) (cA (cN 1) (cH 0))))) (cV 1)) (cA (cR (cD (cM (cA (cN 1) (cM (cN 2) (cH 0))) (cA (cN 1) (cM (cN 2) (cV 1)))) (cM (cM (cA (cN 1) (cH 0)) (cW (cA (cN 1) (cV 1)) 6)) (cA (cA (cN 6) (cM (cN 7) (cV 1))) (cM (cN 2) (cW (cV 1) 4)))))) (cM (cN 3) (cR (cD (cA (cN 1) (cM (cN 2) (cH 0))) (cM (cM (cA (cN 1) (cH 0)) (cW (cA (cN 1) (cV 1)) 6)) (cA (cA (cA (cN 6) (cM (cN 19) (cV 1))) (cM (cN 16) (cW (cV 1) 4))) (cM (cN 4) (cW (cV 1) 6)))))))))) (cD (cM (cV 1) (cA (cM (cN 2) (cR (cD (cA (cN 1) (cM (cN 2) (cV 1))) (cM (cM (cA (cN 1) (cH 0)) (cW (cA (cN 1) (cV 1)) 6)) (cA (cA (cN 6) (cM (cN 7) (cV 1))) (cM (cN 2) (cW (cV 1) 4))))))) (cD (cN 6) (cM (cA (cN 1) (cV 1)) (cR (cM (cA (cN 1) (cH 0)) (cA (cA (cA (cA (cN 6) (cM (cN 25) (cV 1))) (cM (cN 35) (cW (cV 1) 4))) (cM (cN 20) (cW (cV 1) 6))) (cM (cN 4) (cW (cV 1) 8))))))))) (cR (cA (cN 1) (cH 0))))) (cM (cR (cD (cA (cN 1) (cM (cN 2) (cH 0))) (cA (cN 1) (cH 0)))) (cA (cD (cN 6) (cR (cD (cM (cM (cA (cN 1) (cH 0)) (cW (cA (cN 1) (cV 1)) 6)) (cA (cA (cA (cN 6) (cM (cN 19) (cV 1))) (cM (cN 16) (cW (cV 1) 4))) (cM (cN 4) (cW (cV 1) 6)))) (cA (cN 1) (cM (cN 2) (cH 0)))))) (cD (cM (cN 3) (cV 1)) (cM (cA (cN 1) (cV 1)) (cR (cD (cM (cA (cN 1) (cH 0)) (cA (cA (cA (cA (cN 6) (cM (cN 25) (cV 1))) (cM (cN 35) (cW (cV 1) 4))) (cM (cN 20) (cW (cV 1) 6))) (cM (cN 4) (cW (cV 1) 8)))) (cA (cN 1) (cM (cN 2) (cH 0)))))))))) (cN 4)).
Definition SPSU2T_e865 := (cD (cM (cR (cN 3)) (cA (cA (cD (cM (cM (cN (-3)) (cA (cN 2) (cV 1))) (cA (cN (-1)) (cM (cN 2) (cV 1)))) (cM (cA (cA (cN 3) (cM (cN 5) (cV 1))) (cM (cN 2) (cW (cV 1) 4))) (cR (cA (cA (cA (cB (cN (-2)) (cM (cN 3) (cV 1))) (cM (cN 7) (cW (cV 1) 4))) (cM (cN 12) (cW (cV 1) 6))) (cM (cN 4) (cW (cV 1) 8)))))) (cD (cM (cN 6) (cA (cA (cM (cN (-2)) (cR (cD (cM (cH 0) (cV 1)) (cA (cA (cA (cN 6) (cM (cN 19) (cV 1))) (cM (cN 16) (cW (cV 1) 4))) (cM (cN 4) (cW (cV 1) 6)))))) (cM (cN 3) (cR (cD (cM (cH 0) (cW (cV 1) 6)) (cA (cA (cA (cN 6) (cM (cN 19) (cV 1))) (cM (cN 16) (cW (cV 1) 4))) (cM (cN 4) (cW (cV 1) 6))))))) (cM (cN 2) (cR (cD (cM (cH 0) (cW (cV 1) 10)) (cA (cA (cA (cN 6) (cM (cN 19) (cV 1))) (cM (cN 16) (cW (cV 1) 4))) (cM (cN 4) (cW (cV 1) 6)))))))) (cM (cA (cN 1) (cV 1)) (cR (cM (cM (cH 0) (cV 1)) (cA (cA (cA (cN (-3)) (cV 1)) (cM (cN 8) (cW (cV 1) 4))) (cM (cN 4) (cW (cV 1) 6)))))))) (cD (cM (cV 1) (cA (cA (cA (cB (cO (cR (cD (cM (cM (cH 0) (cV 1)) (cA (cN 1) (cM (cN 2) (cV 1)))) (cA (cA (cN 6) (cM (cN 7) (cV 1))) (cM (cN 2) (cW (cV 1) 4)))))) (cD (cM (cN 3) (cR (cD (cM (cM (cH 0) (cV 1)) (cA (cN 1) (cM (cN 2) (cV 1)))) (cA (cA (cN 6) (cM (cN 7) (cV 1))) (cM (cN 2) (cW (cV 1) 4)))))) (cA (cN 1) (cV 1)))) (cD (cM (cM (cN 6) (cV 1)) (cR (cD (cM (cM (cH 0) (cV 1)) (cA (cN 1) (cM (cN 2) (cV 1)))) (cA (cA (cN 6) (cM (cN 7) (cV 1))) (cM (cN 2) (cW (cV 1) 4)))))) (cA (cN 1) (cV 1)))) (cM (cN 2) (cR (cD (cM (cM (cH 0) (cW (cV 1) 6)) (cA (cN 1) (cM (cN 2) (cV 1)))) (cA (cA (cN 6) (cM (cN 7) (cV 1))) (cM (cN 2) (cW (cV 1) 4))))))) (cM (cN 6) (cR (cD (cM (cM (cH 0) (cV 1)) (cW (cA (cN (-1)) (cM (cN 2) (cV 1))) 4)) (cM (cW (cA (cN 1) (cV 1)) 4) (cA (cA (cA (cN 6) (cM (cN 19) (cV 1))) (cM (cN 16) (cW (cV 1) 4))) (cM (cN 4) (cW (cV 1) 6))))))))) (cR (cM (cM (cH 0) (cV 1)) (cA (cA (cA (cN (-3)) (cV 1)) (cM (cN 8) (cW (cV 1) 4))) (cM (cN 4) (cW (cV 1) 6)))))))) (cN 2)).
Definition SPSU2T_e866 := (cD (cA (cN 4) (cV 1)) (cM (cN 2) (cR (cA (cA (cN 2) (cM (cN 3) (cV 1))) (cW (cV 1) 4))))).
Definition SPSU2T_e867 := (cD (cB (cA (cD (cM (cN 3) (cR (cD (cV 1) (cA (cN 2) (cV 1))))) (cA (cA (cN 3) (cM (cN 5) (cV 1))) (cM (cN 2) (cW (cV 1) 4)))) (cD (cM (cV 1) (cA (cN (-3)) (cM (cN 2) (cV 1)))) (cM (cR (cM (cV 1) (cA (cN 2) (cV 1)))) (cA (cA (cN 3) (cM (cN 5) (cV 1))) (cM (cN 2) (cW (cV 1) 4)))))) (cD (cM (cA (cN 1) (cM (cN 2) (cV 1))) (cA (cA (cA (cM (cN 30) (cR (cM (cV 1) (cA (cN 2) (cV 1))))) (cM (cN 37) (cR (cM (cW (cV 1) 6) (cA (cN 2) (cV 1)))))) (cM (cN 15) (cR (cM (cW (cV 1) 10) (cA (cN 2) (cV 1)))))) (cM (cN 2) (cR (cM (cW (cV 1) 14) (cA (cN 2) (cV 1))))))) (cM (cM (cM (cA (cN 1) (cV 1)) (cW (cA (cN 2) (cV 1)) 4)) (cA (cN 3) (cM (cN 2) (cV 1)))) (cA (cN 5) (cM (cN 2) (cV 1)))))) (cR (cN 2))).
Definition SPSU2T_e868 := (cA (cA (cA (cB (cB (cD (cM (cM (cN 3) (cR (cN 3))) (cA (cA (cN (-2)) (cM (cN 3) (cV 1))) (cM (cN 2) (cW (cV 1) 4)))) (cM (cM (cM (cM (cN 2) (cA (cN 1) (cH 0))) (cA (cN 1) (cV 1))) (cA (cN 3) (cM (cN 2) (cV 1)))) (cR (cA (cA (cA (cB (cN (-2)) (cM (cN 3) (cV 1))) (cM (cN 7) (cW (cV 1) 4))) (cM (cN 12) (cW (cV 1) 6))) (cM (cN 4) (cW (cV 1) 8)))))) (cD (cM (cM (cM (cN 3) (cR (cN 3))) (cA (cN 2) (cV 1))) (cA (cN (-1)) (cM (cN 2) (cV 1)))) (cM (cM (cM (cN 4) (cA (cN 1) (cH 0))) (cA (cA (cN 3) (cM (cN 5) (cV 1))) (cM (cN 2) (cW (cV 1) 4)))) (cR (cA (cA (cA (cB (cN (-2)) (cM (cN 3) (cV 1))) (cM (cN 7) (cW (cV 1) 4))) (cM (cN 12) (cW (cV 1) 6))) (cM (cN 4) (cW (cV 1) 8))))))) (cD (cM (cM (cM (cN 3) (cR (cD (cA (cN 1) (cM (cN 2) (cH 0))) (cA (cN 1) (cH 0))))) (cA (cN (-1)) (cM (cN 2) (cV 1)))) (cA (cD (cN 2) (cR (cD (cM (cM (cM (cM (cA (cN 1) (cH 0)) (cW (cA (cN 1) (cV 1)) 6)) (cA (cN 1) (cM (cN 2) (cV 1)))) (cW (cA (cN 3) (cM (cN 2) (cV 1))) 4)) (cA (cA (cN (-2)) (cM (cN 3) (cV 1))) (cM (cN 2) (cW (cV 1) 4)))) (cA (cN 3) (cM (cN 6) (cH 0)))))) (cD (cV 1) (cM (cR (cD (cM (cM (cA (cN 1) (cH 0)) (cA (cA (cN (-2)) (cM (cN 3) (cV 1))) (cM (cN 2) (cW (cV 1) 4)))) (cA (cA (cN 1) (cM (cN 3) (cV 1))) (cM (cN 2) (cW (cV 1) 4)))) (cA (cN 3) (cM (cN 6) (cH 0))))) (cA (cA (cN 3) (cM (cN 5) (cV 1))) (cM (cN 2) (cW (cV 1) 4))))))) (cN 4))) (cD (cM (cM (cV 1) (cR (cD (cA (cN 3) (cM (cN 6) (cH 0))) (cM (cM (cW (cA (cN 1) (cH 0)) 4) (cV 1)) (cA (cA (cA (cN (-3)) (cV 1)) (cM (cN 8) (cW (cV 1) 4))) (cM (cN 4) (cW (cV 1) 6))))))) (cA (cA (cA (cB (cO (cR (cD (cM (cM (cA (cN 1) (cM (cN 2) (cH 0))) (cV 1)) (cA (cN 1) (cM (cN 2) (cV 1)))) (cA (cA (cN 6) (cM (cN 7) (cV 1))) (cM (cN 2) (cW (cV 1) 4)))))) (cD (cM (cN 3) (cR (cD (cM (cM (cA (cN 1) (cM (cN 2) (cH 0))) (cV 1)) (cA (cN 1) (cM (cN 2) (cV 1)))) (cA (cA (cN 6) (cM (cN 7) (cV 1))) (cM (cN 2) (cW (cV 1) 4)))))) (cA (cN 1) (cV 1)))) (cD (cM (cM (cN 6) (cV 1)) (cR (cD (cM (cM (cA (cN 1) (cM (cN 2) (cH 0))) (cV 1)) (cA (cN 1) (cM (cN 2) (cV 1)))) (cA (cA (cN 6) (cM (cN 7) (cV 1))) (cM (cN 2) (cW (cV 1) 4)))))) (cA (cN 1) (cV 1)))) (cM (cN 2) (cR (cD (cM (cM (cA (cN 1) (cM (cN 2) (cH 0))) (cW (cV 1) 6)) (cA (cN 1) (cM (cN 2) (cV 1)))) (cA (cA (cN 6) (cM (cN 7) (cV 1))) (cM (cN 2) (cW (cV 1) 4))))))) (cM (cN 6) (cR (cD (cM (cM (cA (cN 1) (cM (cN 2) (cH 0))) (cV 1)) (cW (cA (cN (-1)) (cM (cN 2) (cV 1))) 4)) (cM (cW (cA (cN 1) (cV 1)) 4) (cA (cA (cA (cN 6) (cM (cN 19) (cV 1))) (cM (cN 16) (cW (cV 1) 4))) (cM (cN 4) (cW (cV 1) 6))))))))) (cN 4))) (cD (cM (cM (cN 3) (cR (cD (cA (cN 3) (cM (cN 6) (cH 0))) (cM (cM (cW (cA (cN 1) (cH 0)) 4) (cV 1)) (cA (cA (cA (cN (-3)) (cV 1)) (cM (cN 8) (cW (cV 1) 4))) (cM (cN 4) (cW (cV 1) 6))))))) (cB (cA (cM (cN 3) (cR (cD (cM (cA (cN 1) (cM (cN 2) (cH 0))) (cW (cV 1) 6)) (cA (cA (cA (cN 6) (cM (cN 19) (cV 1))) (cM (cN 16) (cW (cV 1) 4))) (cM (cN 4) (cW (cV 1) 6)))))) (cM (cN 2) (cR (cD (cM (cA (cN 1) (cM (cN 2) (cH 0))) (cW (cV 1) 10)) (cA (cA (cA (cN 6) (cM (cN 19) (cV 1))) (cM (cN 16) (cW (cV 1) 4))) (cM (cN 4) (cW (cV 1) 6))))))) (cM (cN 2) (cR (cD (cA (cV 1) (cM (cM (cN 2) (cH 0)) (cV 1))) (cA (cA (cA (cN 6) (cM (cN 19) (cV 1))) (cM (cN 16) (cW (cV 1) 4))) (cM (cN 4) (cW (cV 1) 6)))))))) (cM (cN 2) (cA (cN 1) (cV 1))))) (cD (cM (cM (cR (cN 3)) (cV 1)) (cA (cM (cA (cA (cB (cN (-10)) (cV 1)) (cM (cN 16) (cW (cV 1) 4))) (cM (cN 4) (cW (cV 1) 6))) (cR (cD (cV 1) (cA (cA (cA (cN 6) (cM (cN 19) (cV 1))) (cM (cN 16) (cW (cV 1) 4))) (cM (cN 4) (cW (cV 1) 6)))))) (cD (cM (cN 12) (cW (cV 1) 3)) (cR (cA (cA (cA (cN 6) (cM (cN 19) (cV 1))) (cM (cN 16) (cW (cV 1) 4))) (cM (cN 4) (cW (cV 1) 6))))))) (cM (cM (cM (cN 4) (cA (cN 1) (cH 0))) (cA (cN 1) (cV 1))) (cR (cM (cV 1) (cA (cA (cA (cN (-3)) (cV 1)) (cM (cN 8) (cW (cV 1) 4))) (cM (cN 4) (cW (cV 1) 6)))))))).
Definition SPSU2T_e869 := (cD (cM (cA (cN 4) (cV 1)) (cR (cA (cA (cN 2) (cM (cN 3) (cV 1))) (cW (cV 1) 4)))) (cM (cM (cN 2) (cA (cN 1) (cV 1))) (cA (cN 2) (cV 1)))).
Definition SPSU2T_e870 := (cD (cA (cB (cB (cA (cA (cD (cM (cN 3) (cV 1)) (cM (cM (cM (cA (cN 1) (cH 0)) (cA (cN 1) (cV 1))) (cR (cM (cV 1) (cA (cN 2) (cV 1))))) (cA (cN 3) (cM (cN 2) (cV 1))))) (cD (cM (cV 1) (cA (cN (-3)) (cM (cN 2) (cV 1)))) (cM (cM (cA (cN 1) (cH 0)) (cR (cM (cV 1) (cA (cN 2) (cV 1))))) (cA (cA (cN 3) (cM (cN 5) (cV 1))) (cM (cN 2) (cW (cV 1) 4)))))) (cD (cM (cM (cA (cN 1) (cM (cN 2) (cH 0))) (cV 1)) (cA (cN (-3)) (cM (cN 2) (cV 1)))) (cM (cM (cA (cN 1) (cH 0)) (cR (cM (cV 1) (cA (cN 2) (cV 1))))) (cA (cA (cN 3) (cM (cN 5) (cV 1))) (cM (cN 2) (cW (cV 1) 4)))))) (cD (cA (cA (cA (cD (cM (cM (cM (cN 3) (cA (cN 1) (cH 0))) (cW (cV 1) 4)) (cA (cN 1) (cM (cN 2) (cV 1)))) (cM (cW (cM (cM (cA (cN 1) (cH 0)) (cV 1)) (cA (cN 2) (cV 1))) 3) (cA (cN 5) (cM (cN 2) (cV 1))))) (cD (cM (cV 1) (cA (cN 1) (cM (cN 2) (cV 1)))) (cM (cR (cM (cM (cA (cN 1) (cH 0)) (cV 1)) (cA (cN 2) (cV 1)))) (cA (cN 5) (cM (cN 2) (cV 1)))))) (cD (cM (cM (cN 9) (cV 1)) (cA (cN 1) (cM (cN 2) (cV 1)))) (cM (cM (cR (cM (cA (cN 1) (cH 0)) (cV 1))) (cW (cA (cN 2) (cV 1)) 3)) (cA (cA (cN 15) (cM (cN 16) (cV 1))) (cM (cN 4) (cW (cV 1) 4)))))) (cM (cN 6) (cR (cD (cM (cV 1) (cW (cA (cN 1) (cM (cN 2) (cV 1))) 4)) (cM (cM (cA (cN 1) (cH 0)) (cW (cA (cN 2) (cV 1)) 6)) (cW (cA (cA (cA (cN 15) (cM (cN 31) (cV 1))) (cM (cN 20) (cW (cV 1) 4))) (cM (cN 4) (cW (cV 1) 6))) 4)))))) (cR (cA (cN 1) (cH 0))))) (cM (cR (cD (cA (cN 1) (cM (cN 2) (cH 0))) (cA (cN 1) (cH 0)))) (cA (cA (cA (cM (cM (cN 3) (cV 1)) (cR (cD (cM (cA (cN 1) (cM (cN 2) (cH 0))) (cW (cA (cN 1) (cM (cN 2) (cV 1))) 4)) (cM (cM (cM (cA (cN 1) (cH 0)) (cV 1)) (cW (cA (cN 2) (cV 1)) 6)) (cW (cA (cN 5) (cM (cN 2) (cV 1))) 4))))) (cD (cM (cV 1) (cA (cN 1) (cM (cN 2) (cV 1)))) (cM (cR (cD (cM (cM (cA (cN 1) (cH 0)) (cV 1)) (cA (cN 2) (cV 1))) (cA (cN 1) (cM (cN 2) (cH 0))))) (cA (cN 5) (cM (cN 2) (cV 1)))))) (cM (cM (cN 9) (cV 1)) (cR (cD (cM (cA (cN 1) (cM (cN 2) (cH 0))) (cW (cA (cN 1) (cM (cN 2) (cV 1))) 4)) (cM (cM (cM (cA (cN 1) (cH 0)) (cV 1)) (cW (cA (cN 2) (cV 1)) 6)) (cW (cA (cA (cN 15) (cM (cN 16) (cV 1))) (cM (cN 4) (cW (cV 1) 4))) 4)))))) (cM (cN 6) (cR (cD (cM (cM (cA (cN 1) (cM (cN 2) (cH 0))) (cV 1)) (cW (cA (cN 1) (cM (cN 2) (cV 1))) 4)) (cM (cM (cA (cN 1) (cH 0)) (cW (cA (cN 2) (cV 1)) 6)) (cW (cA (cA (cA (cN 15) (cM (cN 31) (cV 1))) (cM (cN 20) (cW (cV 1) 4))) (cM (cN 4) (cW (cV 1) 6))) 4)))))))) (cM (cM (cM (cN 3) (cR (cD (cA (cN 1) (cM (cN 2) (cH 0))) (cA (cN 1) (cH 0))))) (cV 1)) (cA (cA (cR (cD (cM (cA (cN 1) (cM (cN 2) (cH 0))) (cW (cA (cN 1) (cM (cN 2) (cV 1))) 4)) (cM (cM (cM (cA (cN 1) (cH 0)) (cV 1)) (cW (cA (cN 2) (cV 1)) 6)) (cW (cA (cA (cN 15) (cM (cN 16) (cV 1))) (cM (cN 4) (cW (cV 1) 4))) 4)))) (cD (cA (cN 3) (cM (cN 6) (cV 1))) (cM (cR (cD (cM (cM (cM (cA (cN 1) (cH 0)) (cV 1)) (cA (cN 2) (cV 1))) (cW (cA (cN 5) (cM (cN 2) (cV 1))) 4)) (cA (cN 1) (cM (cN 2) (cH 0))))) (cA (cA (cA (cN 6) (cM (cN 13) (cV 1))) (cM (cN 9) (cW (cV 1) 4))) (cM (cN 2) (cW (cV 1) 6)))))) (cD (cN 6) (cR (cD (cM (cM (cM (cA (cN 1) (cH 0)) (cV 1)) (cW (cA (cN 2) (cV 1)) 6)) (cW (cA (cA (cA (cN 15) (cM (cN 31) (cV 1))) (cM (cN 20) (cW (cV 1) 4))) (cM (cN 4) (cW (cV 1) 6))) 4)) (cA (cN 1) (cM (cN 2) (cH 0))))))))) (cM (cN 2) (cR (cN 2)))).
Definition SPSU2T_e871 := (cA (cA (cD (cM (cA (cN 1) (cM (cN 2) (cV 1))) (cA (cN 5) (cM (cN 2) (cV 1)))) (cM (cA (cN 3) (cM (cN 2) (cV 1))) (cR (cA (cA (cN 30) (cM (cN 32) (cV 1))) (cM (cN 8) (cW (cV 1) 4)))))) (cM (cR (cA (cQ 1 2) (cV 1))) (cA (cA (cD (cM (cN 4) (cR (cD (cA (cN 1) (cM (cN 2) (cV 1))) (cM (cW (cA (cN 3) (cM (cN 2) (cV 1))) 6) (cA (cN 5) (cM (cN 2) (cV 1))))))) (cA (cN 2) (cV 1))) (cD (cN 1) (cR (cD (cM (cW (cA (cN 2) (cV 1)) 4) (cA (cA (cN 15) (cM (cN 16) (cV 1))) (cM (cN 4) (cW (cV 1) 4)))) (cA (cN 1) (cM (cN 2) (cV 1))))))) (cD (cM (cN 3) (cR (cD (cA (cN 1) (cM (cN 2) (cV 1))) (cA (cA (cN 15) (cM (cN 16) (cV 1))) (cM (cN 4) (cW (cV 1) 4)))))) (cA (cA (cA (cN 6) (cM (cN 13) (cV 1))) (cM (cN 9) (cW (cV 1) 4))) (cM (cN 2) (cW (cV 1) 6))))))) (cM (cR (cA (cQ 1 2) (cV 1))) (cA (cA (cD (cN 1) (cR (cD (cM (cM (cW (cA (cN 2) (cV 1)) 4) (cW (cA (cN 3) (cM (cN 2) (cV 1))) 6)) (cA (cN 5) (cM (cN 2) (cV 1)))) (cA (cN 1) (cM (cN 2) (cV 1)))))) (cD (cN 3) (cR (cD (cM (cM (cW (cA (cN 3) (cM (cN 2) (cV 1))) 6) (cA (cN 5) (cM (cN 2) (cV 1)))) (cW (cA (cA (cN 2) (cM (cN 3) (cV 1))) (cW (cV 1) 4)) 4)) (cA (cN 1) (cM (cN 2) (cV 1))))))) (cD (cN 6) (cM (cA (cA (cA (cN 6) (cM (cN 13) (cV 1))) (cM (cN 9) (cW (cV 1) 4))) (cM (cN 2) (cW (cV 1) 6))) (cR (cA (cA (cA (cN 15) (cM (cN 46) (cV 1))) (cM (cN 36) (cW (cV 1) 4))) (cM (cN 8) (cW (cV 1) 6))))))))).
Definition SPSU2T_e872 := (cA (cA (cA (cA (cA (cD (cM (cA (cN 1) (cM (cN 2) (cV 1))) (cA (cN 5) (cM (cN 2) (cV 1)))) (cM (cM (cM (cN 2) (cA (cN 1) (cH 0))) (cA (cN 3) (cM (cN 2) (cV 1)))) (cR (cA (cA (cN 30) (cM (cN 32) (cV 1))) (cM (cN 8) (cW (cV 1) 4)))))) (cD (cM (cM (cA (cN 1) (cM (cN 2) (cH 0))) (cA (cN 1) (cM (cN 2) (cV 1)))) (cA (cN 5) (cM (cN 2) (cV 1)))) (cM (cM (cM (cN 2) (cA (cN 1) (cH 0))) (cA (cN 3) (cM (cN 2) (cV 1)))) (cR (cA (cA (cN 30) (cM (cN 32) (cV 1))) (cM (cN 8) (cW (cV 1) 4))))))) (cD (cM (cR (cA (cQ 1 2) (cV 1))) (cA (cA (cD (cM (cN 4) (cR (cD (cA (cN 1) (cM (cN 2) (cV 1))) (cM (cW (cA (cN 3) (cM (cN 2) (cV 1))) 6) (cA (cN 5) (cM (cN 2) (cV 1))))))) (cA (cN 2) (cV 1))) (cD (cN 1) (cR (cD (cM (cW (cA (cN 2) (cV 1)) 4) (cA (cA (cN 15) (cM (cN 16) (cV 1))) (cM (cN 4) (cW (cV 1) 4)))) (cA (cN 1) (cM (cN 2) (cV 1))))))) (cD (cM (cN 3) (cR (cD (cA (cN 1) (cM (cN 2) (cV 1))) (cA (cA (cN 15) (cM (cN 16) (cV 1))) (cM (cN 4) (cW (cV 1) 4)))))) (cA (cA (cA (cN 6) (cM (cN 13) (cV 1))) (cM (cN 9) (cW (cV 1) 4))) (cM (cN 2) (cW (cV 1) 6)))))) (cM (cN 2) (cA (cN 1) (cH 0))))) (cD (cM (cM (cA (cN 1) (cM (cN 2) (cH 0))) (cR (cA (cQ 1 2) (cV 1)))) (cA (cA (cD (cM (cN 4) (cR (cD (cA (cN 1) (cM (cN 2) (cV 1))) (cM (cW (cA (cN 3) (cM (cN 2) (cV 1))) 6) (cA (cN 5) (cM (cN 2) (cV 1))))))) (cA (cN 2) (cV 1))) (cD (cN 1) (cR (cD (cM (cW (cA (cN 2) (cV 1)) 4) (cA (cA (cN 15) (cM (cN 16) (cV 1))) (cM (cN 4) (cW (cV 1) 4)))) (cA (cN 1) (cM (cN 2) (cV 1))))))) (cD (cM (cN 3) (cR (cD (cA (cN 1) (cM (cN 2) (cV 1))) (cA (cA (cN 15) (cM (cN 16) (cV 1))) (cM (cN 4) (cW (cV 1) 4)))))) (cA (cA (cA (cN 6) (cM (cN 13) (cV 1))) (cM (cN 9) (cW (cV 1) 4))) (cM (cN 2) (cW (cV 1) 6)))))) (cM (cN 2) (cA (cN 1) (cH 0))))) (cD (cM (cR (cA (cN 1) (cM (cN 2) (cV 1)))) (cA (cA (cD (cN 1) (cR (cD (cM (cM (cW (cA (cN 2) (cV 1)) 4) (cW (cA (cN 3) (cM (cN 2) (cV 1))) 6)) (cA (cN 5) (cM (cN 2) (cV 1)))) (cA (cN 2) (cM (cN 4) (cV 1)))))) (cD (cN 3) (cR (cD (cM (cM (cM (cW (cA (cN 1) (cV 1)) 4) (cW (cA (cN 2) (cV 1)) 4)) (cW (cA (cN 3) (cM (cN 2) (cV 1))) 6)) (cA (cN 5) (cM (cN 2) (cV 1)))) (cA (cN 2) (cM (cN 4) (cV 1))))))) (cD (cN 6) (cM (cA (cA (cA (cN 6) (cM (cN 13) (cV 1))) (cM (cN 9) (cW (cV 1) 4))) (cM (cN 2) (cW (cV 1) 6))) (cR (cA (cA (cA (cQ 15 2) (cM (cN 23) (cV 1))) (cM (cN 18) (cW (cV 1) 4))) (cM (cN 4) (cW (cV 1) 6)))))))) (cM (cN 4) (cA (cN 1) (cH 0))))) (cD (cM (cM (cA (cN 1) (cM (cN 2) (cH 0))) (cR (cA (cN 1) (cM (cN 2) (cV 1))))) (cA (cA (cD (cN 1) (cR (cD (cM (cM (cW (cA (cN 2) (cV 1)) 4) (cW (cA (cN 3) (cM (cN 2) (cV 1))) 6)) (cA (cN 5) (cM (cN 2) (cV 1)))) (cA (cN 2) (cM (cN 4) (cV 1)))))) (cD (cN 3) (cR (cD (cM (cM (cM (cW (cA (cN 1) (cV 1)) 4) (cW (cA (cN 2) (cV 1)) 4)) (cW (cA (cN 3) (cM (cN 2) (cV 1))) 6)) (cA (cN 5) (cM (cN 2) (cV 1)))) (cA (cN 2) (cM (cN 4) (cV 1))))))) (cD (cN 6) (cM (cA (cA (cA (cN 6) (cM (cN 13) (cV 1))) (cM (cN 9) (cW (cV 1) 4))) (cM (cN 2) (cW (cV 1) 6))) (cR (cA (cA (cA (cQ 15 2) (cM (cN 23) (cV 1))) (cM (cN 18) (cW (cV 1) 4))) (cM (cN 4) (cW (cV 1) 6)))))))) (cM (cN 4) (cA (cN 1) (cH 0))))).
Definition SPSU2T_e873 := (cD (cM (cR (cA (cD (cV 1) (cN 2)) (cW (cV 1) 4))) (cB (cB (cA (cA (cA (cA (cM (cN 42) (cR (cD (cA (cA (cN 6) (cM (cN 7) (cV 1))) (cM (cN 2) (cW (cV 1) 4))) (cA (cA (cN 5) (cM (cN 12) (cV 1))) (cM (cN 4) (cW (cV 1) 4)))))) (cM (cM (cN 104) (cV 1)) (cR (cD (cA (cA (cN 6) (cM (cN 7) (cV 1))) (cM (cN 2) (cW (cV 1) 4))) (cA (cA (cN 5) (cM (cN 12) (cV 1))) (cM (cN 4) (cW (cV 1) 4))))))) (cM (cM (cN 77) (cW (cV 1) 4)) (cR (cD (cA (cA (cN 6) (cM (cN 7) (cV 1))) (cM (cN 2) (cW (cV 1) 4))) (cA (cA (cN 5) (cM (cN 12) (cV 1))) (cM (cN 4) (cW (cV 1) 4))))))) (cM (cM (cN 28) (cW (cV 1) 6)) (cR (cD (cA (cA (cN 6) (cM (cN 7) (cV 1))) (cM (cN 2) (cW (cV 1) 4))) (cA (cA (cN 5) (cM (cN 12) (cV 1))) (cM (cN 4) (cW (cV 1) 4))))))) (cM (cM (cN 4) (cW (cV 1) 8)) (cR (cD (cA (cA (cN 6) (cM (cN 7) (cV 1))) (cM (cN 2) (cW (cV 1) 4))) (cA (cA (cN 5) (cM (cN 12) (cV 1))) (cM (cN 4) (cW (cV 1) 4))))))) (cM (cN 12) (cR (cD (cA (cA (cA (cN 6) (cM (cN 19) (cV 1))) (cM (cN 16) (cW (cV 1) 4))) (cM (cN 4) (cW (cV 1) 6))) (cA (cN 5) (cM (cN 2) (cV 1))))))) (cM (cM (cN 3) (cV 1)) (cR (cD (cA (cA (cA (cN 6) (cM (cN 19) (cV 1))) (cM (cN 16) (cW (cV 1) 4))) (cM (cN 4) (cW (cV 1) 6))) (cA (cN 5) (cM (cN 2) (cV 1)))))))) (cM (cM (cA (cN 1) (cV 1)) (cW (cA (cN 2) (cV 1)) 4)) (cW (cA (cN 3) (cM (cN 2) (cV 1))) 4))).
Definition SPSU2T_e874 := (cD (cA (cN 3) (cV 1)) (cR (cA (cA (cN 6) (cM (cN 5) (cV 1))) (cW (cV 1) 4)))).
Definition SPSU2T_e875 := (cD (cA (cB (cB (cA (cA (cD (cM (cA (cN 1) (cM (cN 2) (cV 1))) (cA (cA (cA (cM (cN 24) (cR (cD (cM (cV 1) (cA (cN 1) (cV 1))) (cA (cN 5) (cM (cN 2) (cV 1)))))) (cM (cM (cN 13) (cV 1)) (cR (cD (cM (cV 1) (cA (cN 1) (cV 1))) (cA (cN 5) (cM (cN 2) (cV 1))))))) (cM (cN 2) (cR (cD (cM (cW (cV 1) 10) (cA (cN 1) (cV 1))) (cA (cN 5) (cM (cN 2) (cV 1))))))) (cM (cN 6) (cR (cD (cV 1) (cA (cA (cN 5) (cM (cN 7) (cV 1))) (cM (cN 2) (cW (cV 1) 4)))))))) (cM (cM (cM (cA (cN 1) (cH 0)) (cA (cN 2) (cV 1))) (cA (cN 3) (cM (cN 2) (cV 1)))) (cR (cA (cA (cA (cN 6) (cM (cN 13) (cV 1))) (cM (cN 9) (cW (cV 1) 4))) (cM (cN 2) (cW (cV 1) 6)))))) (cD (cA (cA (cO (cD (cM (cA (cN 1) (cM (cN 2) (cV 1))) (cR (cD (cM (cV 1) (cA (cN 1) (cV 1))) (cA (cN 5) (cM (cN 2) (cV 1)))))) (cA (cN 2) (cV 1)))) (cD (cM (cN 24) (cR (cD (cV 1) (cA (cA (cN 5) (cM (cN 7) (cV 1))) (cM (cN 2) (cW (cV 1) 4)))))) (cA (cA (cN 6) (cM (cN 7) (cV 1))) (cM (cN 2) (cW (cV 1) 4))))) (cD (cM (cM (cN 9) (cA (cN 1) (cM (cN 2) (cV 1)))) (cR (cD (cV 1) (cA (cA (cN 5) (cM (cN 7) (cV 1))) (cM (cN 2) (cW (cV 1) 4)))))) (cA (cA (cN 6) (cM (cN 7) (cV 1))) (cM (cN 2) (cW (cV 1) 4))))) (cR (cM (cW (cA (cN 1) (cH 0)) 4) (cA (cA (cA (cN 6) (cM (cN 13) (cV 1))) (cM (cN 9) (cW (cV 1) 4))) (cM (cN 2) (cW (cV 1) 6))))))) (cD (cM (cR (cD (cA (cN 1) (cM (cN 2) (cH 0))) (cA (cA (cA (cN 6) (cM (cN 13) (cV 1))) (cM (cN 9) (cW (cV 1) 4))) (cM (cN 2) (cW (cV 1) 6))))) (cA (cA (cO (cD (cM (cA (cN 1) (cM (cN 2) (cV 1))) (cR (cD (cM (cM (cA (cN 1) (cM (cN 2) (cH 0))) (cV 1)) (cA (cN 1) (cV 1))) (cA (cN 5) (cM (cN 2) (cV 1)))))) (cA (cN 2) (cV 1)))) (cD (cM (cN 24) (cR (cD (cA (cV 1) (cM (cM (cN 2) (cH 0)) (cV 1))) (cA (cA (cN 5) (cM (cN 7) (cV 1))) (cM (cN 2) (cW (cV 1) 4)))))) (cA (cA (cN 6) (cM (cN 7) (cV 1))) (cM (cN 2) (cW (cV 1) 4))))) (cD (cM (cM (cN 9) (cA (cN 1) (cM (cN 2) (cV 1)))) (cR (cD (cA (cV 1) (cM (cM (cN 2) (cH 0)) (cV 1))) (cA (cA (cN 5) (cM (cN 7) (cV 1))) (cM (cN 2) (cW (cV 1) 4)))))) (cA (cA (cN 6) (cM (cN 7) (cV 1))) (cM (cN 2) (cW (cV 1) 4)))))) (cA (cN 1) (cH 0)))) (cD (cM (cM (cM (cN 3) (cV 1)) (cR (cA (cN 1) (cM (cN 2) (cV 1))))) (cA (cA (cR (cD (cA (cN 1) (cM (cN 2) (cV 1))) (cM (cM (cV 1) (cA (cN 5) (cM (cN 2) (cV 1)))) (cW (cA (cA (cN 6) (cM (cN 7) (cV 1))) (cM (cN 2) (cW (cV 1) 4))) 6)))) (cD (cN 3) (cR (cD (cM (cM (cM (cV 1) (cW (cA (cN 1) (cV 1)) 4)) (cA (cN 5) (cM (cN 2) (cV 1)))) (cW (cA (cA (cN 6) (cM (cN 7) (cV 1))) (cM (cN 2) (cW (cV 1) 4))) 6)) (cA (cN 1) (cM (cN 2) (cV 1))))))) (cD (cN 6) (cM (cA (cA (cA (cN 6) (cM (cN 13) (cV 1))) (cM (cN 9) (cW (cV 1) 4))) (cM (cN 2) (cW (cV 1) 6))) (cR (cM (cV 1) (cA (cA (cA (cA (cN 30) (cM (cN 107) (cV 1))) (cM (cN 118) (cW (cV 1) 4))) (cM (cN 52) (cW (cV 1) 6))) (cM (cN 8) (cW (cV 1) 8))))))))) (cA (cN 1) (cH 0)))) (cD (cM (cM (cM (cM (cN 3) (cA (cN 1) (cM (cN 2) (cH 0)))) (cV 1)) (cR (cA (cN 1) (cM (cN 2) (cV 1))))) (cA (cA (cR (cD (cA (cN 1) (cM (cN 2) (cV 1))) (cM (cM (cV 1) (cA (cN 5) (cM (cN 2) (cV 1)))) (cW (cA (cA (cN 6) (cM (cN 7) (cV 1))) (cM (cN 2) (cW (cV 1) 4))) 6)))) (cD (cN 3) (cR (cD (cM (cM (cM (cV 1) (cW (cA (cN 1) (cV 1)) 4)) (cA (cN 5) (cM (cN 2) (cV 1)))) (cW (cA (cA (cN 6) (cM (cN 7) (cV 1))) (cM (cN 2) (cW (cV 1) 4))) 6)) (cA (cN 1) (cM (cN 2) (cV 1))))))) (cD (cN 6) (cM (cA (cA (cA (cN 6) (cM (cN 13) (cV 1))) (cM (cN 9) (cW (cV 1) 4))) (cM (cN 2) (cW (cV 1) 6))) (cR (cM (cV 1) (cA (cA (cA (cA (cN 30) (cM (cN 107) (cV 1))) (cM (cN 118) (cW (cV 1) 4))) (cM (cN 52) (cW (cV 1) 6))) (cM (cN 8) (cW (cV 1) 8))))))))) (cA (cN 1) (cH 0)))) (cD (cM (cM (cA (cN 1) (cM (cN 2) (cV 1))) (cR (cD (cA (cN 1) (cM (cN 2) (cH 0))) (cA (cA (cA (cN 6) (cM (cN 13) (cV 1))) (cM (cN 9) (cW (cV 1) 4))) (cM (cN 2) (cW (cV 1) 6)))))) (cA (cA (cM (cM (cN 13) (cV 1)) (cR (cD (cM (cM (cA (cN 1) (cM (cN 2) (cH 0))) (cV 1)) (cA (cN 1) (cV 1))) (cA (cN 5) (cM (cN 2) (cV 1)))))) (cM (cM (cN 2) (cW (cV 1) 4)) (cR (cD (cM (cM (cA (cN 1) (cM (cN 2) (cH 0))) (cV 1)) (cA (cN 1) (cV 1))) (cA (cN 5) (cM (cN 2) (cV 1))))))) (cM (cN 6) (cA (cM (cN 4) (cR (cD (cM (cM (cA (cN 1) (cM (cN 2) (cH 0))) (cV 1)) (cA (cN 1) (cV 1))) (cA (cN 5) (cM (cN 2) (cV 1)))))) (cR (cD (cA (cV 1) (cM (cM (cN 2) (cH 0)) (cV 1))) (cA (cA (cN 5) (cM (cN 7) (cV 1))) (cM (cN 2) (cW (cV 1) 4))))))))) (cM (cM (cA (cN 1) (cH 0)) (cA (cN 2) (cV 1))) (cA (cN 3) (cM (cN 2) (cV 1)))))) (cM (cN 2) (cR (cN 2)))).
Definition SPSU2T_e876 := (cB (cA (cA (cD (cM (cM (cA (cN 1) (cM (cN 2) (cH 0))) (cR (cD (cA (cN 3) (cV 1)) (cA (cN 2) (cV 1))))) (cA (cN 1) (cM (cN 2) (cV 1)))) (cM (cM (cA (cN 1) (cH 0)) (cA (cN 1) (cV 1))) (cA (cN 3) (cM (cN 2) (cV 1))))) (cD (cM (cA (cN 1) (cM (cN 2) (cV 1))) (cR (cA (cA (cN 6) (cM (cN 5) (cV 1))) (cW (cV 1) 4)))) (cM (cM (cM (cA (cN 1) (cH 0)) (cA (cN 1) (cV 1))) (cA (cN 2) (cV 1))) (cA (cN 3) (cM (cN 2) (cV 1)))))) (cD (cB (cB (cA (cD (cM (cA (cN 2) (cV 1)) (cA (cN 1) (cM (cN 2) (cV 1)))) (cR (cD (cM (cA (cN 3) (cV 1)) (cA (cN 5) (cM (cN 2) (cV 1)))) (cA (cA (cN 3) (cM (cN 5) (cV 1))) (cM (cN 2) (cW (cV 1) 4)))))) (cD (cM (cA (cN 1) (cV 1)) (cA (cN 1) (cM (cN 2) (cV 1)))) (cR (cD (cM (cM (cW (cA (cN 2) (cV 1)) 4) (cA (cN 3) (cV 1))) (cA (cN 5) (cM (cN 2) (cV 1)))) (cA (cA (cN 3) (cM (cN 5) (cV 1))) (cM (cN 2) (cW (cV 1) 4))))))) (cD (cM (cN 6) (cA (cN (-2)) (cV 1))) (cM (cA (cN 2) (cV 1)) (cR (cA (cA (cA (cA (cN 45) (cM (cN 108) (cV 1))) (cM (cN 91) (cW (cV 1) 4))) (cM (cN 32) (cW (cV 1) 6))) (cM (cN 4) (cW (cV 1) 8))))))) (cD (cM (cM (cN 3) (cA (cN (-1)) (cV 1))) (cA (cN 1) (cM (cN 2) (cV 1)))) (cM (cA (cN 2) (cV 1)) (cR (cA (cA (cA (cA (cN 45) (cM (cN 108) (cV 1))) (cM (cN 91) (cW (cV 1) 4))) (cM (cN 32) (cW (cV 1) 6))) (cM (cN 4) (cW (cV 1) 8))))))) (cM (cN 2) (cR (cM (cW (cA (cN 1) (cH 0)) 4) (cA (cA (cA (cA (cN 30) (cM (cN 77) (cV 1))) (cM (cN 71) (cW (cV 1) 4))) (cM (cN 28) (cW (cV 1) 6))) (cM (cN 4) (cW (cV 1) 8)))))))) (cD (cM (cA (cN 1) (cM (cN 2) (cH 0))) (cA (cA (cB (cO (cD (cM (cA (cN 2) (cV 1)) (cA (cN 1) (cM (cN 2) (cV 1)))) (cR (cD (cM (cA (cN 3) (cV 1)) (cA (cN 5) (cM (cN 2) (cV 1)))) (cA (cA (cN 3) (cM (cN 5) (cV 1))) (cM (cN 2) (cW (cV 1) 4))))))) (cD (cM (cA (cN 1) (cV 1)) (cA (cN 1) (cM (cN 2) (cV 1)))) (cR (cD (cM (cM (cW (cA (cN 2) (cV 1)) 4) (cA (cN 3) (cV 1))) (cA (cN 5) (cM (cN 2) (cV 1)))) (cA (cA (cN 3) (cM (cN 5) (cV 1))) (cM (cN 2) (cW (cV 1) 4))))))) (cD (cM (cN 6) (cA (cN (-2)) (cV 1))) (cM (cA (cN 2) (cV 1)) (cR (cA (cA (cA (cA (cN 45) (cM (cN 108) (cV 1))) (cM (cN 91) (cW (cV 1) 4))) (cM (cN 32) (cW (cV 1) 6))) (cM (cN 4) (cW (cV 1) 8))))))) (cD (cM (cM (cN 3) (cA (cN (-1)) (cV 1))) (cA (cN 1) (cM (cN 2) (cV 1)))) (cM (cA (cN 2) (cV 1)) (cR (cA (cA (cA (cA (cN 45) (cM (cN 108) (cV 1))) (cM (cN 91) (cW (cV 1) 4))) (cM (cN 32) (cW (cV 1) 6))) (cM (cN 4) (cW (cV 1) 8)))))))) (cM (cM (cN 2) (cA (cN 1) (cH 0))) (cR (cA (cA (cA (cA (cN 30) (cM (cN 77) (cV 1))) (cM (cN 71) (cW (cV 1) 4))) (cM (cN 28) (cW (cV 1) 6))) (cM (cN 4) (cW (cV 1) 8))))))).
Definition SPSU2T_e877 := (cR (cD (cB (cN 3) (cM (cN 2) (cV 1))) (cB (cN 1) (cM (cN 2) (cV 1))))).
Definition SPSU2T_e878 := (cD (cA (cO (cD (cN 1) (cR (cD (cM (cV 1) (cA (cN 1) (cM (cN 2) (cV 1)))) (cA (cB (cN 1) (cM (cN 3) (cV 1))) (cM (cN 2) (cW (cV 1) 4))))))) (cM (cA (cA (cN (-2)) (cV 1)) (cW (cV 1) 4)) (cR (cD (cB (cN 1) (cM (cN 2) (cV 1))) (cB (cA (cV 1) (cW (cV 1) 4)) (cM (cN 2) (cW (cV 1) 6))))))) (cM (cR (cN 2)) (cA (cN 1) (cV 1)))).
Definition SPSU2T_e879 := (cD (cA (cA (cA (cD (cB (cN (-1)) (cM (cN 2) (cH 0))) (cM (cA (cN 1) (cH 0)) (cR (cD (cM (cV 1) (cA (cN 1) (cM (cN 2) (cV 1)))) (cA (cB (cN 1) (cM (cN 3) (cV 1))) (cM (cN 2) (cW (cV 1) 4))))))) (cD (cB (cN 1) (cV 1)) (cM (cA (cN 1) (cH 0)) (cR (cD (cB (cA (cV 1) (cW (cV 1) 4)) (cM (cN 2) (cW (cV 1) 6))) (cB (cN 1) (cM (cN 2) (cV 1)))))))) (cD (cM (cA (cN (-1)) (cM (cN 2) (cV 1))) (cA (cA (cO (cM (cV 1) (cR (cD (cM (cM (cA (cN 1) (cH 0)) (cV 1)) (cA (cN 1) (cM (cN 2) (cV 1)))) (cA (cB (cN 1) (cM (cN 3) (cV 1))) (cM (cN 2) (cW (cV 1) 4))))))) (cM (cW (cV 1) 4) (cR (cD (cM (cM (cA (cN 1) (cH 0)) (cV 1)) (cA (cN 1) (cM (cN 2) (cV 1)))) (cA (cB (cN 1) (cM (cN 3) (cV 1))) (cM (cN 2) (cW (cV 1) 4))))))) (cM (cN 2) (cR (cD (cM (cM (cA (cN 1) (cH 0)) (cV 1)) (cA (cB (cN (-1)) (cV 1)) (cM (cN 2) (cW (cV 1) 4)))) (cA (cN (-1)) (cM (cN 2) (cV 1)))))))) (cM (cM (cW (cA (cN 1) (cH 0)) 3) (cV 1)) (cA (cN 1) (cM (cN 2) (cV 1)))))) (cD (cM (cA (cN 1) (cM (cN 2) (cH 0))) (cA (cA (cO (cR (cD (cB (cV 1) (cM (cN 2) (cW (cV 1) 4))) (cB (cA (cN 1) (cV 1)) (cM (cN 2) (cW (cV 1) 4)))))) (cM (cN 2) (cR (cD (cA (cB (cN 1) (cM (cN 3) (cV 1))) (cM (cN 2) (cW (cV 1) 4))) (cA (cV 1) (cM (cN 2) (cW (cV 1) 4))))))) (cR (cD (cB (cW (cV 1) 6) (cM (cN 2) (cW (cV 1) 8))) (cB (cA (cN 1) (cV 1)) (cM (cN 2) (cW (cV 1) 4))))))) (cA (cN 1) (cH 0)))) (cM (cM (cN 2) (cR (cN 2))) (cA (cN 1) (cV 1)))).
Definition SPSU2T_e880 := (cD (cA (cA (cD (cM (cV 1) (cA (cN (-1)) (cM (cN 2) (cV 1)))) (cM (cA (cN 1) (cV 1)) (cR (cM (cV 1) (cA (cA (cA (cN (-3)) (cV 1)) (cM (cN 8) (cW (cV 1) 4))) (cM (cN 4) (cW (cV 1) 6))))))) (cD (cB (cB (cA (cN (-3)) (cM (cN 9) (cV 1))) (cM (cN 4) (cW (cV 1) 4))) (cM (cN 4) (cW (cV 1) 6))) (cM (cA (cN 1) (cV 1)) (cR (cM (cV 1) (cA (cA (cA (cN (-3)) (cV 1)) (cM (cN 8) (cW (cV 1) 4))) (cM (cN 4) (cW (cV 1) 6)))))))) (cM (cN 3) (cB (cA (cD (cN (-2)) (cM (cA (cN 1) (cV 1)) (cR (cD (cM (cV 1) (cA (cA (cN 3) (cM (cN 5) (cV 1))) (cM (cN 2) (cW (cV 1) 4)))) (cA (cN (-1)) (cM (cN 2) (cV 1))))))) (cR (cD (cV 1) (cM (cW (cA (cN 1) (cV 1)) 6) (cA (cA (cN (-3)) (cM (cN 4) (cV 1))) (cM (cN 4) (cW (cV 1) 4))))))) (cM (cN 2) (cR (cD (cW (cV 1) 6) (cM (cW (cA (cN 1) (cV 1)) 6) (cA (cA (cN (-3)) (cM (cN 4) (cV 1))) (cM (cN 4) (cW (cV 1) 4)))))))))) (cR (cN 6))).
Definition SPSU2T_e881 := (cD (cR (cM (cV 1) (cA (cA (cA (cN (-3)) (cV 1)) (cM (cN 8) (cW (cV 1) 4))) (cM (cN 4) (cW (cV 1) 6))))) (cM (cR (cN 6)) (cA (cA (cN 3) (cM (cN 5) (cV 1))) (cM (cN 2) (cW (cV 1) 4))))).
Definition SPSU2T_e882 := (cD (cA (cA (cB (cA (cA (cD (cM (cM (cM (cN (-3)) (cA (cN 1) (cM (cN 2) (cH 0)))) (cA (cN 2) (cV 1))) (cR (cD (cA (cN (-1)) (cM (cN 2) (cV 1))) (cM (cV 1) (cA (cN 3) (cM (cN 2) (cV 1))))))) (cM (cA (cN 1) (cH 0)) (cW (cA (cN 1) (cV 1)) 3))) (cD (cM (cV 1) (cA (cN (-1)) (cM (cN 2) (cV 1)))) (cM (cA (cA (cA (cN 1) (cH 0)) (cV 1)) (cM (cH 0) (cV 1))) (cR (cM (cV 1) (cA (cA (cA (cN (-3)) (cV 1)) (cM (cN 8) (cW (cV 1) 4))) (cM (cN 4) (cW (cV 1) 6)))))))) (cD (cM (cM (cA (cN 1) (cM (cN 2) (cH 0))) (cV 1)) (cA (cN (-1)) (cM (cN 2) (cV 1)))) (cM (cA (cA (cA (cN 1) (cH 0)) (cV 1)) (cM (cH 0) (cV 1))) (cR (cM (cV 1) (cA (cA (cA (cN (-3)) (cV 1)) (cM (cN 8) (cW (cV 1) 4))) (cM (cN 4) (cW (cV 1) 6)))))))) (cD (cM (cM (cA (cN 1) (cM (cN 2) (cH 0))) (cA (cN (-1)) (cM (cN 2) (cV 1)))) (cA (cA (cN (-3)) (cM (cN 3) (cV 1))) (cM (cN 2) (cW (cV 1) 4)))) (cM (cM (cA (cN 1) (cH 0)) (cA (cN 1) (cV 1))) (cR (cM (cV 1) (cA (cA (cA (cN (-3)) (cV 1)) (cM (cN 8) (cW (cV 1) 4))) (cM (cN 4) (cW (cV 1) 6)))))))) (cD (cB (cB (cA (cN (-3)) (cM (cN 9) (cV 1))) (cM (cN 4) (cW (cV 1) 4))) (cM (cN 4) (cW (cV 1) 6))) (cM (cM (cA (cN 1) (cH 0)) (cA (cN 1) (cV 1))) (cR (cM (cV 1) (cA (cA (cA (cN (-3)) (cV 1)) (cM (cN 8) (cW (cV 1) 4))) (cM (cN 4) (cW (cV 1) 6)))))))) (cD (cB (cB (cM (cM (cN 3) (cV 1)) (cR (cD (cM (cM (cA (cN 1) (cH 0)) (cV 1)) (cA (cA (cN 3) (cM (cN 5) (cV 1))) (cM (cN 2) (cW (cV 1) 4)))) (cA (cN (-1)) (cM (cN 2) (cV 1)))))) (cM (cM (cN 6) (cW (cV 1) 4)) (cR (cD (cM (cM (cA (cN 1) (cH 0)) (cV 1)) (cA (cA (cN 3) (cM (cN 5) (cV 1))) (cM (cN 2) (cW (cV 1) 4)))) (cA (cN (-1)) (cM (cN 2) (cV 1))))))) (cM (cN 6) (cR (cM (cM (cA (cN 1) (cH 0)) (cV 1)) (cA (cA (cA (cN (-3)) (cV 1)) (cM (cN 8) (cW (cV 1) 4))) (cM (cN 4) (cW (cV 1) 6))))))) (cM (cM (cM (cW (cA (cN 1) (cH 0)) 3) (cV 1)) (cW (cA (cN 1) (cV 1)) 4)) (cA (cN 3) (cM (cN 2) (cV 1)))))) (cM (cN 2) (cR (cN 6)))).
Definition SPSU2T_e883 := (cD (cA (cA (cN 6) (cM (cN 7) (cV 1))) (cM (cN 2) (cW (cV 1) 4))) (cR (cA (cA (cA (cA (cN 12) (cM (cN 50) (cV 1))) (cM (cN 70) (cW (cV 1) 4))) (cM (cN 40) (cW (cV 1) 6))) (cM (cN 8) (cW (cV 1) 8))))).
Definition SPSU2T_e884 := (cO (cD (cN 1) (cR (cA (cN 2) (cD (cN 2) (cV 1)))))).
Definition SPSU2T_e885 := (cD (cA (cA (cA (cA (cA (cM (cM (cV 1) (cA (cN 2) (cV 1))) (cR (cD (cA (cN 1) (cM (cN 2) (cV 1))) (cM (cM (cW (cA (cN 1) (cH 0)) 4) (cW (cA (cN 1) (cV 1)) 6)) (cA (cA (cN 6) (cM (cN 7) (cV 1))) (cM (cN 2) (cW (cV 1) 4))))))) (cD (cM (cV 1) (cA (cN 2) (cV 1))) (cR (cD (cM (cM (cW (cA (cN 1) (cH 0)) 4) (cW (cA (cN 1) (cV 1)) 6)) (cA (cA (cN 6) (cM (cN 7) (cV 1))) (cM (cN 2) (cW (cV 1) 4)))) (cM (cW (cA (cN 1) (cM (cN 2) (cH 0))) 4) (cA (cN 1) (cM (cN 2) (cV 1)))))))) (cD (cM (cN 3) (cA (cN 2) (cV 1))) (cM (cM (cA (cN 1) (cH 0)) (cA (cN 1) (cV 1))) (cR (cA (cA (cA (cA (cN 6) (cM (cN 25) (cV 1))) (cM (cN 35) (cW (cV 1) 4))) (cM (cN 20) (cW (cV 1) 6))) (cM (cN 4) (cW (cV 1) 8))))))) (cD (cM (cM (cN 4) (cV 1)) (cA (cN 2) (cV 1))) (cM (cM (cA (cN 1) (cH 0)) (cA (cN 1) (cV 1))) (cR (cA (cA (cA (cA (cN 6) (cM (cN 25) (cV 1))) (cM (cN 35) (cW (cV 1) 4))) (cM (cN 20) (cW (cV 1) 6))) (cM (cN 4) (cW (cV 1) 8))))))) (cM (cM (cM (cN 2) (cR (cD (cA (cN 1) (cM (cN 2) (cH 0))) (cA (cN 1) (cH 0))))) (cV 1)) (cA (cR (cD (cM (cA (cN 1) (cM (cN 2) (cH 0))) (cA (cN 1) (cM (cN 2) (cV 1)))) (cM (cM (cA (cN 1) (cH 0)) (cW (cA (cN 1) (cV 1)) 6)) (cA (cA (cN 6) (cM (cN 7) (cV 1))) (cM (cN 2) (cW (cV 1) 4)))))) (cM (cN 3) (cR (cD (cA (cN 1) (cM (cN 2) (cH 0))) (cM (cM (cA (cN 1) (cH 0)) (cW (cA (cN 1) (cV 1)) 6)) (cA (cA (cA (cN 6) (cM (cN 19) (cV 1))) (cM (cN 16) (cW (cV 1) 4))) (cM (cN 4) (cW (cV 1) 6)))))))))) (cM (cR (cD (cA (cN 1) (cM (cN 2) (cH 0))) (cA (cN 1) (cH 0)))) (cA (cD (cN 6) (cR (cD (cM (cM (cA (cN 1) (cH 0)) (cW (cA (cN 1) (cV 1)) 6)) (cA (cA (cA (cN 6) (cM (cN 19) (cV 1))) (cM (cN 16) (cW (cV 1) 4))) (cM (cN 4) (cW (cV 1) 6)))) (cA (cN 1) (cM (cN 2) (cH 0)))))) (cD (cM (cN 3) (cV 1)) (cM (cA (cN 1) (cV 1)) (cR (cD (cM (cA (cN 1) (cH 0)) (cA (cA (cA (cA (cN 6) (cM (cN 25) (cV 1))) (cM (cN 35) (cW (cV 1) 4))) (cM (cN 20) (cW (cV 1) 6))) (cM (cN 4) (cW (cV 1) 8)))) (cA (cN 1) (cM (cN 2) (cH 0)))))))))) (cM (cN 2) (cR (cN 2)))).
Definition SPSU2T_e886 := (cA (cA (cD (cM (cA (cN 1) (cM (cN 2) (cV 1))) (cA (cN 5) (cM (cN 2) (cV 1)))) (cM (cA (cN 3) (cM (cN 2) (cV 1))) (cR (cA (cA (cN 15) (cM (cN 16) (cV 1))) (cM (cN 4) (cW (cV 1) 4)))))) (cM (cR (cA (cN 1) (cM (cN 2) (cV 1)))) (cA (cA (cD (cM (cN 4) (cR (cD (cA (cN 1) (cM (cN 2) (cV 1))) (cM (cW (cA (cN 3) (cM (cN 2) (cV 1))) 6) (cA (cN 5) (cM (cN 2) (cV 1))))))) (cA (cN 2) (cV 1))) (cD (cN 1) (cR (cD (cM (cW (cA (cN 2) (cV 1)) 4) (cA (cA (cN 15) (cM (cN 16) (cV 1))) (cM (cN 4) (cW (cV 1) 4)))) (cA (cN 1) (cM (cN 2) (cV 1))))))) (cD (cM (cN 3) (cR (cD (cA (cN 1) (cM (cN 2) (cV 1))) (cA (cA (cN 15) (cM (cN 16) (cV 1))) (cM (cN 4) (cW (cV 1) 4)))))) (cA (cA (cA (cN 6) (cM (cN 13) (cV 1))) (cM (cN 9) (cW (cV 1) 4))) (cM (cN 2) (cW (cV 1) 6))))))) (cM (cR (cA (cN 1) (cM (cN 2) (cV 1)))) (cA (cA (cD (cN 1) (cR (cD (cM (cM (cW (cA (cN 2) (cV 1)) 4) (cW (cA (cN 3) (cM (cN 2) (cV 1))) 6)) (cA (cN 5) (cM (cN 2) (cV 1)))) (cA (cN 1) (cM (cN 2) (cV 1)))))) (cD (cN 3) (cR (cD (cM (cM (cW (cA (cN 3) (cM (cN 2) (cV 1))) 6) (cA (cN 5) (cM (cN 2) (cV 1)))) (cW (cA (cA (cN 2) (cM (cN 3) (cV 1))) (cW (cV 1) 4)) 4)) (cA (cN 1) (cM (cN 2) (cV 1))))))) (cD (cN 6) (cM (cA (cA (cA (cN 6) (cM (cN 13) (cV 1))) (cM (cN 9) (cW (cV 1) 4))) (cM (cN 2) (cW (cV 1) 6))) (cR (cA (cA (cA (cN 15) (cM (cN 46) (cV 1))) (cM (cN 36) (cW (cV 1) 4))) (cM (cN 8) (cW (cV 1) 6))))))))).
Definition SPSU2T_e887 := (cD (cA (cA (cA (cA (cA (cD (cM (cA (cN 1) (cM (cN 2) (cV 1))) (cA (cN 5) (cM (cN 2) (cV 1)))) (cM (cA (cN 3) (cM (cN 2) (cV 1))) (cR (cA (cA (cN 15) (cM (cN 16) (cV 1))) (cM (cN 4) (cW (cV 1) 4)))))) (cD (cM (cM (cA (cN 1) (cM (cN 2) (cH 0))) (cA (cN 1) (cM (cN 2) (cV 1)))) (cA (cN 5) (cM (cN 2) (cV 1)))) (cM (cA (cN 3) (cM (cN 2) (cV 1))) (cR (cA (cA (cN 15) (cM (cN 16) (cV 1))) (cM (cN 4) (cW (cV 1) 4))))))) (cM (cR (cA (cN 1) (cM (cN 2) (cV 1)))) (cA (cA (cD (cM (cN 4) (cR (cD (cA (cN 1) (cM (cN 2) (cV 1))) (cM (cW (cA (cN 3) (cM (cN 2) (cV 1))) 6) (cA (cN 5) (cM (cN 2) (cV 1))))))) (cA (cN 2) (cV 1))) (cD (cN 1) (cR (cD (cM (cW (cA (cN 2) (cV 1)) 4) (cA (cA (cN 15) (cM (cN 16) (cV 1))) (cM (cN 4) (cW (cV 1) 4)))) (cA (cN 1) (cM (cN 2) (cV 1))))))) (cD (cM (cN 3) (cR (cD (cA (cN 1) (cM (cN 2) (cV 1))) (cA (cA (cN 15) (cM (cN 16) (cV 1))) (cM (cN 4) (cW (cV 1) 4)))))) (cA (cA (cA (cN 6) (cM (cN 13) (cV 1))) (cM (cN 9) (cW (cV 1) 4))) (cM (cN 2) (cW (cV 1) 6))))))) (cM (cM (cA (cN 1) (cM (cN 2) (cH 0))) (cR (cA (cN 1) (cM (cN 2) (cV 1))))) (cA (cA (cD (cM (cN 4) (cR (cD (cA (cN 1) (cM (cN 2) (cV 1))) (cM (cW (cA (cN 3) (cM (cN 2) (cV 1))) 6) (cA (cN 5) (cM (cN 2) (cV 1))))))) (cA (cN 2) (cV 1))) (cD (cN 1) (cR (cD (cM (cW (cA (cN 2) (cV 1)) 4) (cA (cA (cN 15) (cM (cN 16) (cV 1))) (cM (cN 4) (cW (cV 1) 4)))) (cA (cN 1) (cM (cN 2) (cV 1))))))) (cD (cM (cN 3) (cR (cD (cA (cN 1) (cM (cN 2) (cV 1))) (cA (cA (cN 15) (cM (cN 16) (cV 1))) (cM (cN 4) (cW (cV 1) 4)))))) (cA (cA (cA (cN 6) (cM (cN 13) (cV 1))) (cM (cN 9) (cW (cV 1) 4))) (cM (cN 2) (cW (cV 1) 6))))))) (cM (cR (cA (cN 1) (cM (cN 2) (cV 1)))) (cA (cA (cD (cN 1) (cR (cD (cM (cM (cW (cA (cN 2) (cV 1)) 4) (cW (cA (cN 3) (cM (cN 2) (cV 1))) 6)) (cA (cN 5) (cM (cN 2) (cV 1)))) (cA (cN 1) (cM (cN 2) (cV 1)))))) (cD (cN 3) (cR (cD (cM (cM (cW (cA (cN 3) (cM (cN 2) (cV 1))) 6) (cA (cN 5) (cM (cN 2) (cV 1)))) (cW (cA (cA (cN 2) (cM (cN 3) (cV 1))) (cW (cV 1) 4)) 4)) (cA (cN 1) (cM (cN 2) (cV 1))))))) (cD (cN 6) (cM (cA (cA (cA (cN 6) (cM (cN 13) (cV 1))) (cM (cN 9) (cW (cV 1) 4))) (cM (cN 2) (cW (cV 1) 6))) (cR (cA (cA (cA (cN 15) (cM (cN 46) (cV 1))) (cM (cN 36) (cW (cV 1) 4))) (cM (cN 8) (cW (cV 1) 6))))))))) (cM (cM (cA (cN 1) (cM (cN 2) (cH 0))) (cR (cA (cN 1) (cM (cN 2) (cV 1))))) (cA (cA (cD (cN 1) (cR (cD (cM (cM (cW (cA (cN 2) (cV 1)) 4) (cW (cA (cN 3) (cM (cN 2) (cV 1))) 6)) (cA (cN 5) (cM (cN 2) (cV 1)))) (cA (cN 1) (cM (cN 2) (cV 1)))))) (cD (cN 3) (cR (cD (cM (cM (cW (cA (cN 3) (cM (cN 2) (cV 1))) 6) (cA (cN 5) (cM (cN 2) (cV 1)))) (cW (cA (cA (cN 2) (cM (cN 3) (cV 1))) (cW (cV 1) 4)) 4)) (cA (cN 1) (cM (cN 2) (cV 1))))))) (cD (cN 6) (cM (cA (cA (cA (cN 6) (cM (cN 13) (cV 1))) (cM (cN 9) (cW (cV 1) 4))) (cM (cN 2) (cW (cV 1) 6))) (cR (cA (cA (cA (cN 15) (cM (cN 46) (cV 1))) (cM (cN 36) (cW (cV 1) 4))) (cM (cN 8) (cW (cV 1) 6))))))))) (cM (cN 2) (cA (cN 1) (cH 0)))).
Definition SPSU2T_e888 := (cM (cR (cQ 2 3)) (cR (cD (cM (cH 0) (cA (cN (-1)) (cM (cN 2) (cV 1)))) (cM (cA (cN 1) (cM (cN 2) (cH 0))) (cA (cN 1) (cM (cN 2) (cV 1))))))).
Definition SPSU2T_e889 := (cM (cR (cN 2)) (cR (cD (cH 0) (cA (cN 1) (cM (cN 2) (cH 0)))))).
Definition SPSU2T_e890 := (cM (cA (cN 1) (cV 1)) (cR (cD (cH 0) (cM (cA (cN 1) (cM (cN 2) (cH 0))) (cA (cV 1) (cW (cV 1) 4)))))).
Definition SPSU2T_e891 := (cA (cA (cD (cM (cN 2) (cR (cN 3))) (cR (cD (cM (cM (cM (cA (cN 1) (cM (cN 2) (cH 0))) (cV 1)) (cA (cN 1) (cM (cN 2) (cV 1)))) (cA (cA (cN 3) (cM (cN 5) (cV 1))) (cM (cN 2) (cW (cV 1) 4)))) (cH 0)))) (cD (cM (cV 1) (cA (cN (-1)) (cM (cN 2) (cV 1)))) (cM (cR (cN 3)) (cR (cD (cM (cM (cM (cA (cN 1) (cM (cN 2) (cH 0))) (cV 1)) (cA (cN 1) (cM (cN 2) (cV 1)))) (cA (cA (cN 3) (cM (cN 5) (cV 1))) (cM (cN 2) (cW (cV 1) 4)))) (cH 0)))))) (cD (cM (cR (cN 3)) (cW (cA (cN (-1)) (cM (cN 2) (cV 1))) 3)) (cR (cD (cM (cM (cM (cA (cN 1) (cM (cN 2) (cH 0))) (cV 1)) (cA (cN 1) (cM (cN 2) (cV 1)))) (cA (cA (cA (cN (-3)) (cV 1)) (cM (cN 8) (cW (cV 1) 4))) (cM (cN 4) (cW (cV 1) 6)))) (cH 0))))).
Definition SPSU2T_e892 := (cR (cD (cA (cN (-1)) (cV 1)) (cV 1))).
Definition SPSU2T_e893 := (cD (cA (cN 1) (cV 1)) (cR (cD (cM (cV 1) (cA (cA (cN 1) (cM (cN 3) (cV 1))) (cM (cN 2) (cW (cV 1) 4)))) (cA (cN (-1)) (cM (cN 2) (cV 1)))))).
Definition SPSU2T_e894 := (cD (cA (cN 1) (cH 0)) (cR (cD (cM (cA (cA (cN 1) (cM (cN 3) (cH 0))) (cM (cN 2) (cW (cH 0) 4))) (cV 1)) (cA (cN (-1)) (cV 1))))).
Definition SPSU2T_e895 := (cD (cM (cA (cN 1) (cH 0)) (cA (cN 1) (cV 1))) (cR (cD (cM (cM (cA (cA (cN 1) (cM (cN 3) (cH 0))) (cM (cN 2) (cW (cH 0) 4))) (cV 1)) (cA (cA (cN 1) (cM (cN 3) (cV 1))) (cM (cN 2) (cW (cV 1) 4)))) (cA (cN (-1)) (cM (cN 2) (cV 1)))))).
Definition SPSU2T_e896 := (cO (cM (cR (cN 2)) (cR (cD (cH 0) (cA (cN 3) (cM (cN 6) (cH 0))))))).
Definition SPSU2T_e897 := (cD (cA (cO (cR (cD (cM (cH 0) (cA (cN (-1)) (cV 1))) (cA (cV 1) (cM (cM (cN 2) (cH 0)) (cV 1)))))) (cM (cR (cD (cH 0) (cM (cM (cA (cN 1) (cM (cN 2) (cH 0))) (cA (cN (-1)) (cV 1))) (cV 1)))) (cA (cA (cN (-2)) (cV 1)) (cW (cV 1) 4)))) (cA (cN 1) (cV 1))).
Definition SPSU2T_e898 := (cD (cA (cA (cD (cB (cV 1) (cM (cN 2) (cW (cV 1) 4))) (cM (cA (cN 1) (cV 1)) (cR (cD (cM (cM (cA (cN 1) (cM (cN 2) (cH 0))) (cV 1)) (cA (cA (cA (cN (-3)) (cV 1)) (cM (cN 8) (cW (cV 1) 4))) (cM (cN 4) (cW (cV 1) 6)))) (cH 0))))) (cD (cA (cA (cB (cN 3) (cM (cN 9) (cV 1))) (cM (cN 4) (cW (cV 1) 4))) (cM (cN 4) (cW (cV 1) 6))) (cM (cA (cN 1) (cV 1)) (cR (cD (cM (cM (cA (cN 1) (cM (cN 2) (cH 0))) (cV 1)) (cA (cA (cA (cN (-3)) (cV 1)) (cM (cN 8) (cW (cV 1) 4))) (cM (cN 4) (cW (cV 1) 6)))) (cH 0)))))) (cM (cM (cN 3) (cR (cD (cH 0) (cA (cN 1) (cM (cN 2) (cH 0)))))) (cA (cB (cD (cN 2) (cM (cA (cN 1) (cV 1)) (cR (cD (cM (cV 1) (cA (cA (cN 3) (cM (cN 5) (cV 1))) (cM (cN 2) (cW (cV 1) 4)))) (cA (cN (-1)) (cM (cN 2) (cV 1))))))) (cR (cD (cV 1) (cM (cW (cA (cN 1) (cV 1)) 6) (cA (cA (cN (-3)) (cM (cN 4) (cV 1))) (cM (cN 4) (cW (cV 1) 4))))))) (cM (cN 2) (cR (cD (cW (cV 1) 6) (cM (cW (cA (cN 1) (cV 1)) 6) (cA (cA (cN (-3)) (cM (cN 4) (cV 1))) (cM (cN 4) (cW (cV 1) 4)))))))))) (cR (cN 3))).
Definition SPSU2T_e899 := (cA (cA (cD (cM (cM (cN 4) (cV 1)) (cR (cD (cM (cH 0) (cA (cA (cN 2) (cM (cN 3) (cV 1))) (cW (cV 1) 4))) (cA (cN 1) (cM (cN 2) (cH 0)))))) (cM (cW (cA (cN 1) (cV 1)) 4) (cA (cN 3) (cM (cN 2) (cV 1))))) (cD (cM (cM (cV 1) (cA (cN 1) (cM (cN 2) (cV 1)))) (cR (cD (cM (cH 0) (cA (cA (cN 2) (cM (cN 3) (cV 1))) (cW (cV 1) 4))) (cA (cN 1) (cM (cN 2) (cH 0)))))) (cM (cW (cA (cN 1) (cV 1)) 4) (cA (cN 3) (cM (cN 2) (cV 1)))))) (cD (cM (cM (cN 3) (cA (cN 2) (cV 1))) (cR (cD (cH 0) (cM (cA (cN 1) (cM (cN 2) (cH 0))) (cA (cA (cN 2) (cM (cN 3) (cV 1))) (cW (cV 1) 4)))))) (cA (cA (cN 3) (cM (cN 5) (cV 1))) (cM (cN 2) (cW (cV 1) 4))))).
Definition SPSU2T_e900 := (cO (cD (cR (cM (cV 1) (cA (cN 1) (cV 1)))) (cV 1))).
Definition SPSU2T_e901 := (cD (cB (cN (-1)) (cV 1)) (cR (cM (cV 1) (cW (cA (cN 1) (cV 1)) 6)))).
Definition SPSU2T_e902 := (cO (cD (cM (cA (cN 1) (cH 0)) (cA (cN 1) (cV 1))) (cR (cM (cM (cA (cA (cN 1) (cM (cN 3) (cH 0))) (cM (cN 2) (cW (cH 0) 4))) (cV 1)) (cA (cN 1) (cV 1)))))).
Definition SPSU2T_e903 := (cA (cA (cB (cM (cM (cN (-2)) (cH 0)) (cR (cD (cV 1) (cM (cA (cA (cN 1) (cM (cN 3) (cH 0))) (cM (cN 2) (cW (cH 0) 4))) (cW (cA (cN 1) (cV 1)) 6))))) (cD (cM (cN 2) (cV 1)) (cM (cR (cM (cM (cA (cN 1) (cH 0)) (cA (cN 1) (cM (cN 2) (cH 0)))) (cV 1))) (cW (cA (cN 1) (cV 1)) 3)))) (cD (cM (cH 0) (cA (cN (-1)) (cV 1))) (cM (cR (cM (cA (cA (cN 1) (cM (cN 3) (cH 0))) (cM (cN 2) (cW (cH 0) 4))) (cV 1))) (cW (cA (cN 1) (cV 1)) 3)))) (cD (cA (cN (-1)) (cV 1)) (cR (cM (cM (cA (cA (cN 1) (cM (cN 3) (cH 0))) (cM (cN 2) (cW (cH 0) 4))) (cV 1)) (cW (cA (cN 1) (cV 1)) 6))))).
Definition SPSU2T_e904 := (cD (cA (cA (cA (cR (cD (cV 1) (cM (cA (cA (cN 1) (cM (cN 3) (cH 0))) (cM (cN 2) (cW (cH 0) 4))) (cW (cA (cN 1) (cV 1)) 6)))) (cM (cH 0) (cR (cD (cV 1) (cM (cA (cA (cN 1) (cM (cN 3) (cH 0))) (cM (cN 2) (cW (cH 0) 4))) (cW (cA (cN 1) (cV 1)) 6)))))) (cD (cM (cA (cN 2) (cV 1)) (cA (cN 1) (cM (cN 2) (cV 1)))) (cM (cR (cD (cA (cA (cN 1) (cM (cN 3) (cH 0))) (cM (cN 2) (cW (cH 0) 4))) (cV 1))) (cW (cA (cN 1) (cV 1)) 3)))) (cD (cM (cM (cM (cH 0) (cR (cD (cV 1) (cA (cA (cN 1) (cM (cN 3) (cH 0))) (cM (cN 2) (cW (cH 0) 4)))))) (cA (cN 2) (cV 1))) (cA (cN 1) (cM (cN 2) (cV 1)))) (cW (cA (cN 1) (cV 1)) 3))) (cA (cN 3) (cM (cN 2) (cV 1)))).
Definition SPSU2T_e905 := (cD (cM (cR (cQ 2 3)) (cA (cA (cM (cN 2) (cR (cD (cA (cH 0) (cM (cM (cN 2) (cH 0)) (cV 1))) (cA (cA (cA (cN 3) (cM (cN 6) (cH 0))) (cM (cN 2) (cV 1))) (cM (cM (cN 4) (cH 0)) (cV 1)))))) (cM (cV 1) (cR (cD (cA (cH 0) (cM (cM (cN 2) (cH 0)) (cV 1))) (cA (cA (cA (cN 3) (cM (cN 6) (cH 0))) (cM (cN 2) (cV 1))) (cM (cM (cN 4) (cH 0)) (cV 1))))))) (cR (cD (cH 0) (cM (cA (cN 1) (cM (cN 2) (cH 0))) (cA (cA (cN 3) (cM (cN 8) (cV 1))) (cM (cN 4) (cW (cV 1) 4)))))))) (cA (cN 1) (cV 1))).
Definition SPSU2T_e906 := (cA (cA (cD (cM (cM (cM (cN (-4)) (cV 1)) (cA (cN 2) (cV 1))) (cA (cN (-1)) (cM (cN 2) (cV 1)))) (cM (cM (cR (cN 3)) (cA (cN 1) (cV 1))) (cR (cD (cM (cM (cM (cM (cA (cN 1) (cM (cN 2) (cH 0))) (cV 1)) (cA (cN 1) (cM (cN 2) (cV 1)))) (cW (cA (cN 3) (cM (cN 2) (cV 1))) 4)) (cA (cA (cN (-1)) (cV 1)) (cM (cN 2) (cW (cV 1) 4)))) (cH 0))))) (cD (cM (cV 1) (cA (cN (-1)) (cM (cN 2) (cV 1)))) (cM (cR (cN 3)) (cR (cD (cM (cM (cM (cM (cA (cN 1) (cM (cN 2) (cH 0))) (cV 1)) (cW (cA (cN 1) (cV 1)) 6)) (cW (cA (cN 3) (cM (cN 2) (cV 1))) 4)) (cA (cN (-1)) (cM (cN 4) (cW (cV 1) 4)))) (cH 0)))))) (cD (cM (cV 1) (cA (cA (cA (cN (-10)) (cM (cN 11) (cV 1))) (cM (cN 16) (cW (cV 1) 4))) (cM (cN 4) (cW (cV 1) 6)))) (cM (cM (cR (cN 3)) (cA (cN 1) (cV 1))) (cR (cD (cM (cM (cM (cM (cA (cN 1) (cM (cN 2) (cH 0))) (cV 1)) (cA (cN 1) (cM (cN 2) (cV 1)))) (cW (cA (cN 3) (cM (cN 2) (cV 1))) 4)) (cA (cA (cN (-1)) (cV 1)) (cM (cN 2) (cW (cV 1) 4)))) (cH 0)))))).
Definition SPSU2T_e907 := (cA (cA (cO (cD (cM (cV 1) (cR (cD (cM (cH 0) (cW (cA (cN 1) (cM (cN 2) (cV 1))) 4)) (cM (cW (cA (cN 1) (cV 1)) 6) (cA (cV 1) (cM (cM (cN 2) (cH 0)) (cV 1))))))) (cA (cN 3) (cM (cN 2) (cV 1))))) (cD (cM (cM (cV 1) (cR (cD (cH 0) (cM (cA (cN 1) (cM (cN 2) (cH 0))) (cA (cV 1) (cW (cV 1) 4)))))) (cA (cA (cN (-1)) (cM (cN 5) (cV 1))) (cM (cN 2) (cW (cV 1) 4)))) (cM (cA (cN 1) (cV 1)) (cA (cN 3) (cM (cN 2) (cV 1)))))) (cD (cM (cR (cD (cA (cH 0) (cM (cM (cN 2) (cH 0)) (cV 1))) (cA (cN 1) (cM (cN 2) (cH 0))))) (cA (cA (cM (cN 4) (cR (cD (cM (cV 1) (cA (cN 1) (cM (cN 2) (cV 1)))) (cA (cN 1) (cV 1))))) (cR (cD (cM (cW (cV 1) 6) (cA (cN 1) (cM (cN 2) (cV 1)))) (cA (cN 1) (cV 1))))) (cM (cN 6) (cR (cD (cV 1) (cA (cA (cN 1) (cM (cN 3) (cV 1))) (cM (cN 2) (cW (cV 1) 4)))))))) (cA (cA (cA (cN 6) (cM (cN 13) (cV 1))) (cM (cN 9) (cW (cV 1) 4))) (cM (cN 2) (cW (cV 1) 6))))).
Definition SPSU2T_e908 := (cO (cD (cA (cA (cM (cN 2) (cR (cD (cM (cV 1) (cA (cN 1) (cM (cN 2) (cV 1)))) (cA (cA (cN 3) (cM (cN 5) (cV 1))) (cM (cN 2) (cW (cV 1) 4)))))) (cR (cD (cM (cW (cV 1) 6) (cA (cN 1) (cM (cN 2) (cV 1)))) (cA (cA (cN 3) (cM (cN 5) (cV 1))) (cM (cN 2) (cW (cV 1) 4)))))) (cR (cD (cV 1) (cA (cA (cA (cN 3) (cM (cN 11) (cV 1))) (cM (cN 12) (cW (cV 1) 4))) (cM (cN 4) (cW (cV 1) 6)))))) (cA (cN 1) (cV 1)))).
Definition SPSU2T_e909 := (cD (cB (cN (-2)) (cV 1)) (cR (cA (cA (cN 2) (cM (cN 3) (cV 1))) (cW (cV 1) 4)))).
Definition SPSU2T_e910 := (cA (cB (cB (cB (cA (cD (cN (-2)) (cM (cA (cN 1) (cV 1)) (cR (cD (cM (cM (cM (cA (cN 1) (cH 0)) (cA (cN 1) (cM (cN 2) (cH 0)))) (cA (cN 3) (cM (cN 2) (cV 1)))) (cA (cA (cN 1) (cM (cN 3) (cV 1))) (cM (cN 2) (cW (cV 1) 4)))) (cV 1))))) (cD (cV 1) (cM (cA (cN 1) (cV 1)) (cR (cM (cM (cM (cM (cA (cN 1) (cH 0)) (cA (cN 1) (cM (cN 2) (cH 0)))) (cV 1)) (cA (cN 3) (cM (cN 2) (cV 1)))) (cA (cA (cN 1) (cM (cN 3) (cV 1))) (cM (cN 2) (cW (cV 1) 4)))))))) (cD (cM (cM (cM (cH 0) (cV 1)) (cA (cN 2) (cV 1))) (cR (cD (cA (cN 1) (cM (cN 2) (cV 1))) (cM (cM (cA (cA (cN 1) (cM (cN 3) (cH 0))) (cM (cN 2) (cW (cH 0) 4))) (cV 1)) (cA (cA (cN 3) (cM (cN 5) (cV 1))) (cM (cN 2) (cW (cV 1) 4))))))) (cA (cN 1) (cV 1)))) (cD (cM (cV 1) (cA (cN 2) (cV 1))) (cM (cA (cN 1) (cV 1)) (cR (cD (cM (cM (cM (cA (cN 1) (cH 0)) (cA (cN 1) (cM (cN 2) (cH 0)))) (cV 1)) (cA (cA (cN 3) (cM (cN 5) (cV 1))) (cM (cN 2) (cW (cV 1) 4)))) (cA (cN 1) (cM (cN 2) (cV 1)))))))) (cM (cM (cN 2) (cH 0)) (cR (cD (cV 1) (cM (cM (cA (cA (cN 1) (cM (cN 3) (cH 0))) (cM (cN 2) (cW (cH 0) 4))) (cW (cA (cN 1) (cV 1)) 6)) (cA (cA (cN 3) (cM (cN 8) (cV 1))) (cM (cN 4) (cW (cV 1) 4)))))))) (cD (cM (cH 0) (cV 1)) (cM (cW (cA (cN 1) (cV 1)) 3) (cR (cM (cM (cA (cA (cN 1) (cM (cN 3) (cH 0))) (cM (cN 2) (cW (cH 0) 4))) (cV 1)) (cA (cA (cN 3) (cM (cN 8) (cV 1))) (cM (cN 4) (cW (cV 1) 4)))))))).
Definition SPSU2T_e911 := (cB (cB (cA (cB (cD (cM (cM (cN (-2)) (cA (cN 2) (cV 1))) (cA (cN 1) (cM (cN 2) (cV 1)))) (cM (cM (cA (cN 1) (cV 1)) (cA (cN 3) (cM (cN 2) (cV 1)))) (cR (cM (cA (cA (cN 1) (cM (cN 3) (cH 0))) (cM (cN 2) (cW (cH 0) 4))) (cA (cA (cN 2) (cM (cN 3) (cV 1))) (cW (cV 1) 4)))))) (cD (cM (cM (cH 0) (cA (cN 2) (cV 1))) (cA (cN 1) (cM (cN 2) (cV 1)))) (cM (cM (cA (cN 1) (cV 1)) (cA (cN 3) (cM (cN 2) (cV 1)))) (cR (cM (cA (cA (cN 1) (cM (cN 3) (cH 0))) (cM (cN 2) (cW (cH 0) 4))) (cA (cA (cN 2) (cM (cN 3) (cV 1))) (cW (cV 1) 4))))))) (cD (cB (cB (cB (cN (-2)) (cM (cN 3) (cV 1))) (cM (cN 5) (cW (cV 1) 4))) (cM (cN 2) (cW (cV 1) 6))) (cM (cR (cM (cA (cA (cN 1) (cM (cN 3) (cH 0))) (cM (cN 2) (cW (cH 0) 4))) (cA (cA (cN 2) (cM (cN 3) (cV 1))) (cW (cV 1) 4)))) (cA (cA (cN 3) (cM (cN 5) (cV 1))) (cM (cN 2) (cW (cV 1) 4)))))) (cM (cM (cH 0) (cR (cD (cN 1) (cM (cM (cM (cA (cA (cN 1) (cM (cN 3) (cH 0))) (cM (cN 2) (cW (cH 0) 4))) (cW (cA (cN 1) (cV 1)) 6)) (cA (cN 2) (cV 1))) (cW (cA (cN 3) (cM (cN 2) (cV 1))) 4))))) (cA (cA (cA (cN 2) (cM (cN 3) (cV 1))) (cM (cN 5) (cW (cV 1) 4))) (cM (cN 2) (cW (cV 1) 6))))) (cM (cM (cH 0) (cR (cD (cA (cH 0) (cM (cM (cN 2) (cH 0)) (cV 1))) (cA (cN 1) (cM (cN 2) (cH 0)))))) (cA (cD (cN 1) (cR (cD (cM (cM (cM (cM (cH 0) (cA (cN 1) (cH 0))) (cA (cN 1) (cV 1))) (cA (cN 2) (cV 1))) (cW (cA (cN 3) (cM (cN 2) (cV 1))) 4)) (cA (cN 1) (cM (cN 2) (cV 1)))))) (cD (cN 1) (cM (cR (cD (cM (cM (cH 0) (cA (cN 1) (cH 0))) (cA (cA (cN 2) (cM (cN 3) (cV 1))) (cW (cV 1) 4))) (cA (cN 1) (cM (cN 2) (cV 1))))) (cA (cA (cN 3) (cM (cN 5) (cV 1))) (cM (cN 2) (cW (cV 1) 4)))))))).
Definition SPSU2T_e912 := (cO (cD (cA (cN 1) (cH 0)) (cM (cR (cN 3)) (cR (cD (cM (cA (cA (cN 1) (cM (cN 3) (cH 0))) (cM (cN 2) (cW (cH 0) 4))) (cA (cN 1) (cM (cN 2) (cV 1)))) (cA (cN (-2)) (cM (cN 4) (cV 1)))))))).
Definition SPSU2T_e913 := (cO (cD (cA (cN 1) (cH 0)) (cR (cA (cA (cQ 1 2) (cD (cM (cN 3) (cH 0)) (cN 2))) (cW (cH 0) 4))))).
Definition SPSU2T_e914 := (cB (cB (cB (cO (cD (cN 1) (cR (cD (cM (cM (cA (cN 1) (cH 0)) (cV 1)) (cA (cN 1) (cV 1))) (cA (cN 1) (cM (cN 2) (cH 0))))))) (cD (cN 1) (cR (cM (cM (cM (cA (cN 1) (cH 0)) (cA (cN 1) (cM (cN 2) (cH 0)))) (cV 1)) (cA (cN 1) (cV 1)))))) (cD (cW (cA (cN (-1)) (cV 1)) 3) (cM (cN 2) (cR (cM (cM (cA (cA (cN 1) (cM (cN 3) (cH 0))) (cM (cN 2) (cW (cH 0) 4))) (cV 1)) (cA (cN (-1)) (cW (cV 1) 4))))))) (cD (cM (cA (cN (-1)) (cV 1)) (cR (cD (cA (cN 1) (cM (cN 2) (cH 0))) (cM (cA (cN 1) (cH 0)) (cA (cV 1) (cW (cV 1) 4)))))) (cN 2))).
Definition SPSU2T_e915 := (cB (cB (cB (cB (cB (cD (cM (cQ (-1) 2) (cM (cV 1) (cA (cN (-1)) (cM (cN 2) (cV 1))))) (cM (cR (cN 3)) (cR (cD (cM (cM (cM (cA (cN 1) (cH 0)) (cV 1)) (cA (cN 1) (cM (cN 2) (cV 1)))) (cA (cA (cN 3) (cM (cN 5) (cV 1))) (cM (cN 2) (cW (cV 1) 4)))) (cA (cN 1) (cM (cN 2) (cH 0))))))) (cD (cR (cN 3)) (cR (cM (cM (cM (cM (cA (cN 1) (cH 0)) (cA (cN 1) (cM (cN 2) (cH 0)))) (cV 1)) (cA (cN 1) (cM (cN 2) (cV 1)))) (cA (cA (cN 3) (cM (cN 5) (cV 1))) (cM (cN 2) (cW (cV 1) 4))))))) (cD (cN 1) (cR (cD (cM (cM (cM (cA (cN 1) (cH 0)) (cV 1)) (cA (cN 1) (cM (cN 2) (cV 1)))) (cA (cA (cN 3) (cM (cN 5) (cV 1))) (cM (cN 2) (cW (cV 1) 4)))) (cA (cN 3) (cM (cN 6) (cH 0))))))) (cD (cM (cV 1) (cA (cN (-1)) (cM (cN 2) (cV 1)))) (cM (cM (cN 2) (cR (cN 3))) (cR (cM (cM (cM (cA (cA (cN 1) (cM (cN 3) (cH 0))) (cM (cN 2) (cW (cH 0) 4))) (cV 1)) (cA (cN 1) (cM (cN 2) (cV 1)))) (cA (cA (cN 3) (cM (cN 5) (cV 1))) (cM (cN 2) (cW (cV 1) 4)))))))) (cD (cM (cR (cN 3)) (cW (cA (cN (-1)) (cM (cN 2) (cV 1))) 3)) (cM (cN 2) (cR (cM (cM (cM (cM (cA (cN 1) (cH 0)) (cA (cN 1) (cM (cN 2) (cH 0)))) (cV 1)) (cA (cN 1) (cM (cN 2) (cV 1)))) (cA (cA (cA (cN (-3)) (cV 1)) (cM (cN 8) (cW (cV 1) 4))) (cM (cN 4) (cW (cV 1) 6)))))))) (cD (cW (cA (cN (-1)) (cM (cN 2) (cV 1))) 3) (cM (cN 2) (cR (cD (cM (cM (cM (cA (cN 1) (cH 0)) (cV 1)) (cA (cN 1) (cM (cN 2) (cV 1)))) (cA (cA (cA (cN (-3)) (cV 1)) (cM (cN 8) (cW (cV 1) 4))) (cM (cN 4) (cW (cV 1) 6)))) (cA (cN 3) (cM (cN 6) (cH 0)))))))).
Definition SPSU2T_e916 := (cD (cA (cR (cD (cM (cM (cH 0) (cA (cN 1) (cM (cN 2) (cH 0)))) (cA (cN (-1)) (cV 1))) (cV 1))) (cR (cD (cM (cH 0) (cA (cN (-1)) (cV 1))) (cA (cV 1) (cM (cM (cN 2) (cH 0)) (cV 1)))))) (cM (cN 2) (cA (cN 1) (cH 0)))).
Definition SPSU2T_e917 := (cD (cA (cA (cB (cO (cD (cM (cH 0) (cA (cN 1) (cH 0))) (cR (cD (cM (cM (cM (cH 0) (cA (cN 1) (cM (cN 2) (cH 0)))) (cV 1)) (cA (cA (cN 1) (cM (cN 3) (cV 1))) (cM (cN 2) (cW (cV 1) 4)))) (cA (cN (-1)) (cM (cN 2) (cV 1))))))) (cD (cM (cM (cH 0) (cA (cN 1) (cH 0))) (cV 1)) (cR (cD (cM (cM (cM (cH 0) (cA (cN 1) (cM (cN 2) (cH 0)))) (cV 1)) (cA (cA (cN 1) (cM (cN 3) (cV 1))) (cM (cN 2) (cW (cV 1) 4)))) (cA (cN (-1)) (cM (cN 2) (cV 1))))))) (cD (cM (cM (cA (cN 1) (cH 0)) (cV 1)) (cA (cR (cD (cM (cM (cH 0) (cA (cN 1) (cM (cN 2) (cH 0)))) (cA (cN (-1)) (cM (cN 2) (cV 1)))) (cM (cV 1) (cA (cN 1) (cV 1))))) (cM (cN 2) (cR (cD (cM (cH 0) (cA (cN (-1)) (cM (cN 2) (cV 1)))) (cM (cA (cN 1) (cM (cN 2) (cH 0))) (cA (cV 1) (cW (cV 1) 4)))))))) (cR (cA (cN 1) (cM (cN 2) (cV 1)))))) (cM (cR (cD (cA (cN (-1)) (cM (cN 2) (cV 1))) (cM (cV 1) (cW (cA (cN 1) (cM (cN 2) (cV 1))) 4)))) (cA (cA (cA (cR (cD (cM (cM (cH 0) (cA (cN 1) (cM (cN 2) (cH 0)))) (cA (cN 1) (cM (cN 2) (cV 1)))) (cA (cN 1) (cV 1)))) (cR (cD (cM (cM (cW (cH 0) 6) (cA (cN 1) (cM (cN 2) (cH 0)))) (cA (cN 1) (cM (cN 2) (cV 1)))) (cA (cN 1) (cV 1))))) (cM (cM (cN 2) (cA (cN 1) (cH 0))) (cR (cD (cH 0) (cM (cA (cN 1) (cM (cN 2) (cH 0))) (cA (cA (cN 1) (cM (cN 3) (cV 1))) (cM (cN 2) (cW (cV 1) 4)))))))) (cM (cM (cM (cN 4) (cA (cN 1) (cH 0))) (cV 1)) (cR (cD (cH 0) (cM (cA (cN 1) (cM (cN 2) (cH 0))) (cA (cA (cN 1) (cM (cN 3) (cV 1))) (cM (cN 2) (cW (cV 1) 4)))))))))) (cM (cN 2) (cW (cA (cN 1) (cH 0)) 4))).
Definition SPSU2T_e918 := (cD (cM (cR (cN 2)) (cA (cN 1) (cH 0))) (cR (cA (cA (cN 3) (cM (cN 9) (cH 0))) (cM (cN 6) (cW (cH 0) 4))))).
Definition SPSU2T_e919 := (cB (cA (cA (cD (cM (cQ (-1) 2) (cM (cR (cD (cA (cN 1) (cM (cN 2) (cH 0))) (cM (cM (cA (cN 1) (cH 0)) (cA (cN (-1)) (cV 1))) (cV 1)))) (cW (cV 1) 4))) (cA (cN 1) (cV 1))) (cD (cB (cN 1) (cM (cM (cN 2) (cH 0)) (cA (cN (-1)) (cV 1)))) (cM (cM (cN 2) (cR (cM (cM (cA (cA (cN 1) (cM (cN 3) (cH 0))) (cM (cN 2) (cW (cH 0) 4))) (cA (cN (-1)) (cV 1))) (cV 1)))) (cA (cN 1) (cV 1))))) (cD (cM (cR (cD (cA (cN 1) (cM (cN 2) (cH 0))) (cM (cM (cA (cN 1) (cH 0)) (cA (cN (-1)) (cV 1))) (cV 1)))) (cV 1)) (cA (cN 2) (cM (cN 2) (cV 1))))) (cD (cA (cB (cA (cA (cO (cR (cM (cM (cA (cN 1) (cH 0)) (cA (cN (-1)) (cV 1))) (cV 1)))) (cM (cM (cN 2) (cV 1)) (cR (cM (cM (cA (cN 1) (cH 0)) (cA (cN (-1)) (cV 1))) (cV 1))))) (cR (cD (cM (cA (cN 1) (cH 0)) (cW (cV 1) 6)) (cA (cN (-1)) (cV 1))))) (cM (cN 2) (cR (cD (cM (cA (cN 1) (cH 0)) (cW (cV 1) 10)) (cA (cN (-1)) (cV 1)))))) (cR (cD (cM (cA (cN 1) (cH 0)) (cW (cV 1) 14)) (cA (cN (-1)) (cV 1))))) (cM (cM (cM (cM (cM (cN 2) (cA (cN 1) (cH 0))) (cR (cA (cN 1) (cM (cN 2) (cH 0))))) (cA (cN (-1)) (cV 1))) (cV 1)) (cA (cN 1) (cV 1))))).
Definition SPSU2T_e920 := (cD (cA (cA (cA (cA (cA (cD (cM (cN (-3)) (cA (cN 2) (cV 1))) (cR (cD (cM (cM (cM (cA (cN 1) (cH 0)) (cV 1)) (cW (cA (cN 1) (cV 1)) 6)) (cA (cN 3) (cM (cN 2) (cV 1)))) (cM (cA (cN 1) (cM (cN 2) (cH 0))) (cA (cN (-1)) (cM (cN 2) (cV 1))))))) (cD (cM (cV 1) (cA (cN (-1)) (cM (cN 2) (cV 1)))) (cR (cD (cM (cM (cM (cA (cN 1) (cH 0)) (cV 1)) (cW (cA (cN 1) (cV 1)) 6)) (cA (cA (cN (-3)) (cM (cN 4) (cV 1))) (cM (cN 4) (cW (cV 1) 4)))) (cA (cN 1) (cM (cN 2) (cH 0))))))) (cD (cM (cV 1) (cA (cN (-1)) (cM (cN 2) (cV 1)))) (cR (cM (cM (cM (cA (cA (cN 1) (cM (cN 3) (cH 0))) (cM (cN 2) (cW (cH 0) 4))) (cV 1)) (cW (cA (cN 1) (cV 1)) 6)) (cA (cA (cN (-3)) (cM (cN 4) (cV 1))) (cM (cN 4) (cW (cV 1) 4))))))) (cD (cB (cB (cA (cN (-3)) (cM (cN 9) (cV 1))) (cM (cN 4) (cW (cV 1) 4))) (cM (cN 4) (cW (cV 1) 6))) (cM (cA (cN 1) (cV 1)) (cR (cD (cM (cM (cA (cN 1) (cH 0)) (cV 1)) (cA (cA (cA (cN (-3)) (cV 1)) (cM (cN 8) (cW (cV 1) 4))) (cM (cN 4) (cW (cV 1) 6)))) (cA (cN 1) (cM (cN 2) (cH 0)))))))) (cD (cB (cB (cA (cN (-3)) (cM (cN 9) (cV 1))) (cM (cN 4) (cW (cV 1) 4))) (cM (cN 4) (cW (cV 1) 6))) (cM (cA (cN 1) (cV 1)) (cR (cM (cM (cA (cA (cN 1) (cM (cN 3) (cH 0))) (cM (cN 2) (cW (cH 0) 4))) (cV 1)) (cA (cA (cA (cN (-3)) (cV 1)) (cM (cN 8) (cW (cV 1) 4))) (cM (cN 4) (cW (cV 1) 6)))))))) (cD (cM (cN 3) (cB (cA (cD (cN (-2)) (cM (cA (cN 1) (cV 1)) (cR (cD (cM (cM (cA (cN 1) (cH 0)) (cV 1)) (cA (cA (cN 3) (cM (cN 5) (cV 1))) (cM (cN 2) (cW (cV 1) 4)))) (cA (cN (-1)) (cM (cN 2) (cV 1))))))) (cD (cV 1) (cM (cW (cA (cN 1) (cV 1)) 3) (cR (cM (cM (cA (cN 1) (cH 0)) (cV 1)) (cA (cA (cN (-3)) (cM (cN 4) (cV 1))) (cM (cN 4) (cW (cV 1) 4)))))))) (cD (cM (cN 2) (cW (cV 1) 4)) (cM (cW (cA (cN 1) (cV 1)) 3) (cR (cM (cM (cA (cN 1) (cH 0)) (cV 1)) (cA (cA (cN (-3)) (cM (cN 4) (cV 1))) (cM (cN 4) (cW (cV 1) 4))))))))) (cR (cA (cN 1) (cM (cN 2) (cH 0)))))) (cM (cN 2) (cR (cN 3)))).
Definition SPSU2T_e921 := (cB (cA (cB (cB (cB (cD (cM (cM (cN (-2)) (cV 1)) (cR (cD (cM (cA (cN 1) (cM (cN 2) (cH 0))) (cA (cN 2) (cV 1))) (cM (cA (cN 1) (cH 0)) (cW (cA (cN 1) (cV 1)) 6))))) (cA (cN 3) (cM (cN 2) (cV 1)))) (cD (cM (cN 2) (cV 1)) (cM (cM (cW (cA (cN 1) (cV 1)) 4) (cA (cN 3) (cM (cN 2) (cV 1)))) (cR (cD (cM (cA (cN 1) (cH 0)) (cA (cN 1) (cM (cN 2) (cH 0)))) (cA (cA (cN 2) (cM (cN 3) (cV 1))) (cW (cV 1) 4))))))) (cD (cM (cV 1) (cA (cN 1) (cM (cN 2) (cV 1)))) (cM (cM (cM (cN 2) (cW (cA (cN 1) (cV 1)) 4)) (cA (cN 3) (cM (cN 2) (cV 1)))) (cR (cD (cM (cA (cN 1) (cH 0)) (cA (cN 1) (cM (cN 2) (cH 0)))) (cA (cA (cN 2) (cM (cN 3) (cV 1))) (cW (cV 1) 4))))))) (cD (cM (cN 3) (cA (cN 2) (cV 1))) (cM (cM (cM (cN 2) (cA (cN 1) (cV 1))) (cA (cN 3) (cM (cN 2) (cV 1)))) (cR (cM (cM (cA (cN 1) (cH 0)) (cA (cN 1) (cM (cN 2) (cH 0)))) (cA (cA (cN 2) (cM (cN 3) (cV 1))) (cW (cV 1) 4))))))) (cD (cB (cD (cM (cN (-3)) (cV 1)) (cM (cA (cN 1) (cV 1)) (cR (cD (cM (cM (cM (cA (cN 1) (cH 0)) (cA (cN 1) (cV 1))) (cA (cN 2) (cV 1))) (cW (cA (cN 3) (cM (cN 2) (cV 1))) 4)) (cA (cN 1) (cM (cN 2) (cH 0))))))) (cD (cN 6) (cR (cD (cM (cM (cM (cA (cN 1) (cH 0)) (cW (cA (cN 1) (cV 1)) 6)) (cA (cN 2) (cV 1))) (cW (cA (cN 3) (cM (cN 2) (cV 1))) 4)) (cA (cN 1) (cM (cN 2) (cH 0))))))) (cN 2))) (cD (cM (cV 1) (cA (cR (cD (cM (cA (cN 1) (cM (cN 2) (cH 0))) (cW (cA (cN 1) (cM (cN 2) (cV 1))) 4)) (cM (cM (cM (cA (cN 1) (cH 0)) (cW (cA (cN 1) (cV 1)) 6)) (cA (cN 2) (cV 1))) (cW (cA (cN 3) (cM (cN 2) (cV 1))) 4)))) (cD (cA (cN 1) (cM (cN 2) (cV 1))) (cM (cA (cN 3) (cM (cN 2) (cV 1))) (cR (cD (cM (cA (cN 1) (cH 0)) (cA (cA (cN 2) (cM (cN 3) (cV 1))) (cW (cV 1) 4))) (cA (cN 1) (cM (cN 2) (cH 0))))))))) (cN 2))).
Definition SPSU2T_e922 := (cD (cB (cB (cA (cD (cM (cH 0) (cA (cN 1) (cH 0))) (cR (cM (cM (cM (cH 0) (cA (cN 1) (cM (cN 2) (cH 0)))) (cV 1)) (cA (cN 1) (cV 1))))) (cD (cM (cM (cH 0) (cA (cN 1) (cH 0))) (cV 1)) (cR (cM (cM (cM (cH 0) (cA (cN 1) (cM (cN 2) (cH 0)))) (cV 1)) (cA (cN 1) (cV 1)))))) (cD (cA (cA (cA (cR (cM (cM (cH 0) (cA (cN 1) (cM (cN 2) (cH 0)))) (cA (cN 1) (cM (cN 2) (cV 1))))) (cR (cM (cM (cW (cH 0) 6) (cA (cN 1) (cM (cN 2) (cH 0)))) (cA (cN 1) (cM (cN 2) (cV 1)))))) (cM (cM (cN 2) (cA (cN 1) (cH 0))) (cR (cD (cH 0) (cA (cA (cA (cN 1) (cM (cN 2) (cH 0))) (cM (cN 2) (cV 1))) (cM (cM (cN 4) (cH 0)) (cV 1))))))) (cM (cM (cM (cN 4) (cA (cN 1) (cH 0))) (cV 1)) (cR (cD (cH 0) (cA (cA (cA (cN 1) (cM (cN 2) (cH 0))) (cM (cN 2) (cV 1))) (cM (cM (cN 4) (cH 0)) (cV 1))))))) (cR (cM (cV 1) (cA (cA (cN 1) (cM (cN 3) (cV 1))) (cM (cN 2) (cW (cV 1) 4))))))) (cM (cM (cA (cN 1) (cH 0)) (cV 1)) (cA (cM (cN 2) (cR (cD (cH 0) (cM (cA (cN 1) (cM (cN 2) (cH 0))) (cA (cV 1) (cW (cV 1) 4)))))) (cR (cD (cA (cH 0) (cM (cN 2) (cW (cH 0) 4))) (cA (cV 1) (cW (cV 1) 4))))))) (cM (cN 2) (cW (cA (cN 1) (cH 0)) 4))).
Definition SPSU2T_e923 := (cD (cA (cA (cD (cM (cM (cN (-2)) (cH 0)) (cA (cN 1) (cH 0))) (cM (cR (cM (cM (cH 0) (cA (cN 1) (cM (cN 2) (cH 0)))) (cV 1))) (cW (cA (cN 1) (cV 1)) 3))) (cD (cM (cM (cH 0) (cA (cN 5) (cM (cN 2) (cH 0)))) (cV 1)) (cM (cR (cM (cM (cH 0) (cA (cN 1) (cM (cN 2) (cH 0)))) (cV 1))) (cW (cA (cN 1) (cV 1)) 3)))) (cM (cV 1) (cB (cB (cB (cM (cN (-2)) (cR (cD (cM (cH 0) (cA (cN 1) (cM (cN 2) (cH 0)))) (cM (cV 1) (cW (cA (cN 1) (cV 1)) 6))))) (cD (cM (cN 2) (cR (cD (cH 0) (cA (cV 1) (cM (cM (cN 2) (cH 0)) (cV 1)))))) (cW (cA (cN 1) (cV 1)) 3))) (cD (cR (cM (cM (cM (cH 0) (cA (cN 1) (cM (cN 2) (cH 0)))) (cV 1)) (cA (cN 1) (cV 1)))) (cM (cW (cA (cN 1) (cV 1)) 4) (cA (cV 1) (cM (cM (cN 2) (cH 0)) (cV 1)))))) (cD (cM (cN 2) (cR (cD (cH 0) (cM (cA (cN 1) (cM (cN 2) (cH 0))) (cA (cV 1) (cW (cV 1) 4)))))) (cA (cN 1) (cV 1)))))) (cM (cN 2) (cA (cN 1) (cH 0)))).
Definition SPSU2T_e924 := (cA (cA (cB (cB (cA (cO (cD (cR (cD (cM (cH 0) (cV 1)) (cM (cA (cN 1) (cM (cN 2) (cH 0))) (cW (cA (cN 1) (cV 1)) 6)))) (cM (cA (cN 1) (cH 0)) (cA (cN 3) (cM (cN 2) (cV 1)))))) (cD (cM (cH 0) (cV 1)) (cM (cM (cM (cM (cN 2) (cA (cN 1) (cH 0))) (cA (cN 1) (cV 1))) (cR (cM (cM (cM (cH 0) (cA (cN 1) (cM (cN 2) (cH 0)))) (cV 1)) (cA (cN 1) (cV 1))))) (cA (cN 3) (cM (cN 2) (cV 1)))))) (cD (cM (cH 0) (cA (cR (cD (cM (cV 1) (cW (cA (cN 1) (cM (cN 2) (cV 1))) 4)) (cM (cM (cM (cH 0) (cW (cA (cN 1) (cH 0)) 4)) (cW (cA (cN 1) (cV 1)) 6)) (cW (cA (cN 3) (cM (cN 2) (cV 1))) 4)))) (cD (cM (cV 1) (cA (cN 1) (cM (cN 2) (cV 1)))) (cM (cM (cA (cN 1) (cH 0)) (cR (cM (cM (cH 0) (cV 1)) (cA (cN 1) (cV 1))))) (cA (cN 3) (cM (cN 2) (cV 1))))))) (cM (cN 2) (cR (cA (cN 1) (cM (cN 2) (cH 0))))))) (cD (cM (cV 1) (cA (cR (cD (cM (cH 0) (cA (cN 1) (cM (cN 2) (cH 0)))) (cM (cV 1) (cA (cN 3) (cM (cN 2) (cV 1)))))) (cM (cN 2) (cR (cD (cH 0) (cM (cA (cN 1) (cM (cN 2) (cH 0))) (cA (cM (cN 3) (cV 1)) (cM (cN 2) (cW (cV 1) 4))))))))) (cM (cM (cN 2) (cA (cA (cA (cN 1) (cH 0)) (cV 1)) (cM (cH 0) (cV 1)))) (cR (cA (cA (cN 3) (cM (cN 5) (cV 1))) (cM (cN 2) (cW (cV 1) 4))))))) (cD (cA (cA (cA (cR (cD (cM (cM (cH 0) (cA (cN 1) (cM (cN 2) (cH 0)))) (cA (cN 1) (cM (cN 2) (cV 1)))) (cA (cA (cN 3) (cM (cN 5) (cV 1))) (cM (cN 2) (cW (cV 1) 4))))) (cR (cD (cM (cM (cW (cH 0) 6) (cA (cN 1) (cM (cN 2) (cH 0)))) (cA (cN 1) (cM (cN 2) (cV 1)))) (cA (cA (cN 3) (cM (cN 5) (cV 1))) (cM (cN 2) (cW (cV 1) 4)))))) (cM (cM (cN 2) (cA (cN 1) (cH 0))) (cR (cD (cH 0) (cM (cA (cN 1) (cM (cN 2) (cH 0))) (cA (cA (cA (cN 3) (cM (cN 11) (cV 1))) (cM (cN 12) (cW (cV 1) 4))) (cM (cN 4) (cW (cV 1) 6)))))))) (cM (cM (cM (cN 4) (cA (cN 1) (cH 0))) (cV 1)) (cR (cD (cH 0) (cM (cA (cN 1) (cM (cN 2) (cH 0))) (cA (cA (cA (cN 3) (cM (cN 11) (cV 1))) (cM (cN 12) (cW (cV 1) 4))) (cM (cN 4) (cW (cV 1) 6)))))))) (cM (cW (cA (cN 1) (cH 0)) 4) (cR (cD (cM (cW (cA (cN 1) (cV 1)) 4) (cA (cA (cN 3) (cM (cN 8) (cV 1))) (cM (cN 4) (cW (cV 1) 4)))) (cV 1)))))) (cD (cA (cA (cA (cM (cW (cH 0) 4) (cR (cD (cM (cM (cA (cN 1) (cM (cN 2) (cH 0))) (cV 1)) (cW (cA (cN 1) (cM (cN 2) (cV 1))) 4)) (cM (cM (cM (cH 0) (cW (cA (cN 1) (cH 0)) 4)) (cW (cA (cN 1) (cV 1)) 6)) (cW (cA (cN 3) (cM (cN 2) (cV 1))) 4))))) (cD (cM (cM (cM (cW (cH 0) 3) (cV 1)) (cA (cN 1) (cM (cN 2) (cV 1)))) (cR (cD (cA (cN 1) (cM (cN 2) (cH 0))) (cA (cV 1) (cW (cV 1) 4))))) (cM (cA (cN 1) (cH 0)) (cA (cN 3) (cM (cN 2) (cV 1)))))) (cD (cA (cA (cA (cA (cM (cM (cN 2) (cA (cN 1) (cH 0))) (cR (cD (cM (cH 0) (cV 1)) (cM (cA (cN 1) (cM (cN 2) (cH 0))) (cW (cA (cN 1) (cV 1)) 6))))) (cM (cM (cN 4) (cA (cN 1) (cH 0))) (cR (cD (cM (cH 0) (cW (cV 1) 6)) (cM (cA (cN 1) (cM (cN 2) (cH 0))) (cW (cA (cN 1) (cV 1)) 6)))))) (cR (cD (cM (cM (cH 0) (cA (cN 1) (cM (cN 2) (cH 0)))) (cV 1)) (cA (cN 1) (cV 1))))) (cM (cN 2) (cR (cD (cM (cM (cH 0) (cA (cN 1) (cM (cN 2) (cH 0)))) (cW (cV 1) 6)) (cA (cN 1) (cV 1)))))) (cD (cM (cM (cN 2) (cV 1)) (cA (cN 1) (cM (cN 2) (cV 1)))) (cR (cD (cM (cM (cA (cN 1) (cM (cN 2) (cH 0))) (cV 1)) (cA (cN 1) (cV 1))) (cH 0))))) (cM (cA (cN 1) (cH 0)) (cA (cN 3) (cM (cN 2) (cV 1)))))) (cM (cH 0) (cA (cR (cD (cM (cM (cA (cN 1) (cM (cN 2) (cH 0))) (cV 1)) (cW (cA (cN 1) (cM (cN 2) (cV 1))) 4)) (cM (cM (cM (cH 0) (cW (cA (cN 1) (cH 0)) 4)) (cW (cA (cN 1) (cV 1)) 6)) (cW (cA (cN 3) (cM (cN 2) (cV 1))) 4)))) (cM (cM (cN 2) (cV 1)) (cR (cD (cM (cH 0) (cW (cA (cN 1) (cM (cN 2) (cV 1))) 4)) (cM (cM (cM (cW (cA (cN 1) (cH 0)) 4) (cA (cN 1) (cM (cN 2) (cH 0)))) (cW (cA (cN 3) (cM (cN 2) (cV 1))) 4)) (cA (cV 1) (cW (cV 1) 4))))))))) (cM (cN 2) (cA (cN 1) (cH 0))))).
Definition SPSU2T_e925 := (cO (cD (cA (cR (cA (cN 1) (cD (cN 1) (cV 1)))) (cR (cM (cV 1) (cA (cN 1) (cV 1))))) (cA (cN 1) (cV 1)))).
Definition SPSU2T_e926 := (cB (cO (cR (cD (cV 1) (cW (cA (cN 1) (cV 1)) 6)))) (cD (cN 1) (cM (cR (cV 1)) (cW (cA (cN 1) (cV 1)) 3)))).
Definition SPSU2T_e927 := (cA (cA (cB (cA (cD (cR (cD (cV 1) (cW (cA (cN 1) (cV 1)) 6))) (cM (cA (cN 1) (cH 0)) (cA (cN 3) (cM (cN 2) (cV 1))))) (cD (cM (cA (cN 1) (cM (cN 2) (cH 0))) (cR (cV 1))) (cM (cM (cM (cN 2) (cA (cN 1) (cH 0))) (cW (cA (cN 1) (cV 1)) 3)) (cA (cN 3) (cM (cN 2) (cV 1)))))) (cD (cN 1) (cM (cM (cM (cN 2) (cA (cN 1) (cH 0))) (cR (cA (cN 1) (cD (cN 1) (cV 1))))) (cA (cA (cN 3) (cM (cN 5) (cV 1))) (cM (cN 2) (cW (cV 1) 4)))))) (cD (cM (cA (cN 1) (cM (cN 2) (cV 1))) (cA (cM (cN 2) (cR (cM (cM (cA (cA (cN 3) (cM (cN 5) (cH 0))) (cM (cN 2) (cW (cH 0) 4))) (cV 1)) (cA (cN 3) (cM (cN 2) (cV 1)))))) (cR (cM (cM (cA (cA (cN 3) (cM (cN 5) (cH 0))) (cM (cN 2) (cW (cH 0) 4))) (cW (cV 1) 6)) (cA (cN 3) (cM (cN 2) (cV 1))))))) (cM (cM (cM (cM (cN 2) (cA (cN 1) (cH 0))) (cA (cN 1) (cV 1))) (cA (cN 3) (cM (cN 2) (cV 1)))) (cR (cM (cA (cA (cN 3) (cM (cN 5) (cH 0))) (cM (cN 2) (cW (cH 0) 4))) (cA (cA (cN 3) (cM (cN 5) (cV 1))) (cM (cN 2) (cW (cV 1) 4)))))))) (cD (cA (cA (cA (cD (cM (cA (cN 1) (cM (cN 2) (cH 0))) (cA (cN 1) (cM (cN 2) (cV 1)))) (cM (cA (cN 1) (cV 1)) (cR (cD (cM (cA (cA (cN 3) (cM (cN 5) (cH 0))) (cM (cN 2) (cW (cH 0) 4))) (cA (cN 3) (cM (cN 2) (cV 1)))) (cV 1))))) (cD (cM (cM (cM (cN 2) (cA (cN 1) (cM (cN 2) (cH 0)))) (cV 1)) (cA (cN 1) (cM (cN 2) (cV 1)))) (cR (cD (cM (cM (cA (cN 3) (cM (cN 2) (cH 0))) (cV 1)) (cA (cN 3) (cM (cN 2) (cV 1)))) (cA (cN 1) (cH 0)))))) (cD (cM (cM (cA (cN 1) (cM (cN 2) (cH 0))) (cV 1)) (cA (cN 1) (cM (cN 2) (cV 1)))) (cR (cM (cM (cA (cA (cN 3) (cM (cN 5) (cH 0))) (cM (cN 2) (cW (cH 0) 4))) (cV 1)) (cA (cN 3) (cM (cN 2) (cV 1))))))) (cD (cA (cN 2) (cM (cN 4) (cH 0))) (cR (cD (cM (cM (cA (cN 3) (cM (cN 2) (cH 0))) (cW (cA (cN 1) (cV 1)) 4)) (cA (cN 3) (cM (cN 2) (cV 1)))) (cM (cM (cA (cN 1) (cH 0)) (cV 1)) (cW (cA (cN 1) (cM (cN 2) (cV 1))) 4)))))) (cM (cN 2) (cR (cM (cA (cA (cN 3) (cM (cN 5) (cH 0))) (cM (cN 2) (cW (cH 0) 4))) (cA (cA (cN 3) (cM (cN 5) (cV 1))) (cM (cN 2) (cW (cV 1) 4)))))))).
Definition SPSU2T_e928 := (cO (cD (cM (cM (cR (cQ 2 3)) (cA (cN 1) (cH 0))) (cA (cN 3) (cM (cN 2) (cV 1)))) (cR (cM (cA (cA (cN 1) (cM (cN 3) (cH 0))) (cM (cN 2) (cW (cH 0) 4))) (cA (cA (cN 3) (cM (cN 8) (cV 1))) (cM (cN 4) (cW (cV 1) 4))))))).
Definition SPSU2T_e929 := (cD (cB (cB (cA (cA (cA (cD (cM (cM (cM (cN 4) (cV 1)) (cA (cN 2) (cV 1))) (cA (cN (-1)) (cM (cN 2) (cV 1)))) (cM (cM (cA (cN 1) (cV 1)) (cA (cN 1) (cM (cN 2) (cV 1)))) (cR (cD (cM (cM (cM (cA (cN 1) (cH 0)) (cV 1)) (cW (cA (cN 3) (cM (cN 2) (cV 1))) 4)) (cA (cA (cN (-1)) (cV 1)) (cM (cN 2) (cW (cV 1) 4)))) (cM (cA (cN 1) (cM (cN 2) (cH 0))) (cA (cN 1) (cM (cN 2) (cV 1)))))))) (cD (cB (cV 1) (cM (cN 2) (cW (cV 1) 4))) (cR (cD (cM (cM (cM (cM (cA (cN 1) (cH 0)) (cV 1)) (cW (cA (cN 1) (cV 1)) 6)) (cW (cA (cN 3) (cM (cN 2) (cV 1))) 4)) (cA (cN (-1)) (cM (cN 4) (cW (cV 1) 4)))) (cA (cN 1) (cM (cN 2) (cH 0))))))) (cD (cB (cV 1) (cM (cN 2) (cW (cV 1) 4))) (cR (cM (cM (cM (cM (cA (cA (cN 1) (cM (cN 3) (cH 0))) (cM (cN 2) (cW (cH 0) 4))) (cV 1)) (cW (cA (cN 1) (cV 1)) 6)) (cW (cA (cN 3) (cM (cN 2) (cV 1))) 4)) (cA (cN (-1)) (cM (cN 4) (cW (cV 1) 4))))))) (cD (cM (cM (cM (cN 4) (cV 1)) (cA (cN 2) (cV 1))) (cA (cN (-1)) (cM (cN 2) (cV 1)))) (cM (cM (cA (cN 1) (cV 1)) (cA (cN 3) (cM (cN 2) (cV 1)))) (cR (cM (cM (cA (cA (cN 1) (cM (cN 3) (cH 0))) (cM (cN 2) (cW (cH 0) 4))) (cV 1)) (cA (cA (cB (cN (-1)) (cV 1)) (cM (cN 4) (cW (cV 1) 4))) (cM (cN 4) (cW (cV 1) 6)))))))) (cD (cM (cV 1) (cA (cA (cA (cN (-10)) (cM (cN 11) (cV 1))) (cM (cN 16) (cW (cV 1) 4))) (cM (cN 4) (cW (cV 1) 6)))) (cM (cM (cA (cN 1) (cV 1)) (cA (cN 1) (cM (cN 2) (cV 1)))) (cR (cD (cM (cM (cM (cA (cN 1) (cH 0)) (cV 1)) (cW (cA (cN 3) (cM (cN 2) (cV 1))) 4)) (cA (cA (cN (-1)) (cV 1)) (cM (cN 2) (cW (cV 1) 4)))) (cM (cA (cN 1) (cM (cN 2) (cH 0))) (cA (cN 1) (cM (cN 2) (cV 1))))))))) (cD (cM (cV 1) (cA (cA (cA (cN (-10)) (cM (cN 11) (cV 1))) (cM (cN 16) (cW (cV 1) 4))) (cM (cN 4) (cW (cV 1) 6)))) (cM (cM (cA (cN 1) (cV 1)) (cA (cN 3) (cM (cN 2) (cV 1)))) (cR (cM (cM (cA (cA (cN 1) (cM (cN 3) (cH 0))) (cM (cN 2) (cW (cH 0) 4))) (cV 1)) (cA (cA (cB (cN (-1)) (cV 1)) (cM (cN 4) (cW (cV 1) 4))) (cM (cN 4) (cW (cV 1) 6)))))))) (cM (cN 2) (cR (cN 3)))).
Definition SPSU2T_e930 := (cD (cB (cB (cB (cA (cA (cD (cM (cV 1) (cA (cN 1) (cM (cN 2) (cV 1)))) (cM (cM (cR (cM (cA (cA (cN 1) (cM (cN 3) (cH 0))) (cM (cN 2) (cW (cH 0) 4))) (cV 1))) (cW (cA (cN 1) (cV 1)) 3)) (cA (cN 3) (cM (cN 2) (cV 1))))) (cD (cM (cV 1) (cR (cD (cM (cA (cN 1) (cM (cN 2) (cH 0))) (cW (cA (cN 1) (cM (cN 2) (cV 1))) 4)) (cM (cM (cA (cN 1) (cH 0)) (cV 1)) (cW (cA (cN 1) (cV 1)) 6))))) (cA (cN 3) (cM (cN 2) (cV 1))))) (cD (cM (cR (cD (cV 1) (cA (cA (cN 1) (cM (cN 3) (cH 0))) (cM (cN 2) (cW (cH 0) 4))))) (cB (cB (cN 1) (cM (cN 5) (cV 1))) (cM (cN 2) (cW (cV 1) 4)))) (cM (cW (cA (cN 1) (cV 1)) 3) (cA (cN 3) (cM (cN 2) (cV 1)))))) (cD (cM (cM (cV 1) (cR (cD (cA (cN 1) (cM (cN 2) (cH 0))) (cM (cA (cN 1) (cH 0)) (cA (cV 1) (cW (cV 1) 4)))))) (cA (cA (cN (-1)) (cM (cN 5) (cV 1))) (cM (cN 2) (cW (cV 1) 4)))) (cM (cA (cN 1) (cV 1)) (cA (cN 3) (cM (cN 2) (cV 1)))))) (cD (cA (cA (cM (cN 4) (cR (cD (cM (cV 1) (cA (cN 1) (cM (cN 2) (cV 1)))) (cA (cN 1) (cV 1))))) (cR (cD (cM (cW (cV 1) 6) (cA (cN 1) (cM (cN 2) (cV 1)))) (cA (cN 1) (cV 1))))) (cM (cN 6) (cR (cD (cV 1) (cA (cA (cN 1) (cM (cN 3) (cV 1))) (cM (cN 2) (cW (cV 1) 4))))))) (cM (cR (cD (cA (cA (cN 1) (cM (cN 3) (cH 0))) (cM (cN 2) (cW (cH 0) 4))) (cA (cN 1) (cM (cN 2) (cV 1))))) (cA (cA (cA (cN 6) (cM (cN 13) (cV 1))) (cM (cN 9) (cW (cV 1) 4))) (cM (cN 2) (cW (cV 1) 6)))))) (cD (cM (cR (cD (cM (cA (cN 1) (cM (cN 2) (cH 0))) (cA (cN 1) (cM (cN 2) (cV 1)))) (cA (cN 1) (cH 0)))) (cA (cA (cM (cN 4) (cR (cD (cM (cV 1) (cA (cN 1) (cM (cN 2) (cV 1)))) (cA (cN 1) (cV 1))))) (cR (cD (cM (cW (cV 1) 6) (cA (cN 1) (cM (cN 2) (cV 1)))) (cA (cN 1) (cV 1))))) (cM (cN 6) (cR (cD (cV 1) (cA (cA (cN 1) (cM (cN 3) (cV 1))) (cM (cN 2) (cW (cV 1) 4)))))))) (cA (cA (cA (cN 6) (cM (cN 13) (cV 1))) (cM (cN 9) (cW (cV 1) 4))) (cM (cN 2) (cW (cV 1) 6))))) (cN 2)).
Definition SPSU2T_e931 := (cB (cB (cA (cA (cB (cD (cH 0) (cM (cM (cA (cN 1) (cH 0)) (cA (cN 1) (cV 1))) (cR (cD (cM (cM (cM (cH 0) (cA (cN 1) (cM (cN 2) (cH 0)))) (cA (cN 3) (cM (cN 2) (cV 1)))) (cA (cA (cN 1) (cM (cN 3) (cV 1))) (cM (cN 2) (cW (cV 1) 4)))) (cV 1))))) (cD (cM (cH 0) (cV 1)) (cM (cM (cM (cN 2) (cA (cN 1) (cH 0))) (cA (cN 1) (cV 1))) (cR (cM (cM (cM (cM (cH 0) (cA (cN 1) (cM (cN 2) (cH 0)))) (cV 1)) (cA (cN 3) (cM (cN 2) (cV 1)))) (cA (cA (cN 1) (cM (cN 3) (cV 1))) (cM (cN 2) (cW (cV 1) 4)))))))) (cD (cM (cM (cH 0) (cV 1)) (cA (cN 2) (cV 1))) (cM (cM (cN 2) (cA (cN 1) (cV 1))) (cR (cD (cM (cM (cM (cM (cH 0) (cW (cA (cN 1) (cH 0)) 4)) (cA (cN 1) (cM (cN 2) (cH 0)))) (cV 1)) (cA (cA (cN 3) (cM (cN 5) (cV 1))) (cM (cN 2) (cW (cV 1) 4)))) (cA (cN 1) (cM (cN 2) (cV 1)))))))) (cD (cM (cV 1) (cA (cR (cD (cM (cM (cH 0) (cA (cN 1) (cM (cN 2) (cH 0)))) (cA (cN 1) (cM (cN 2) (cV 1)))) (cM (cV 1) (cA (cN 1) (cV 1))))) (cM (cN 2) (cR (cD (cM (cH 0) (cA (cN 1) (cM (cN 2) (cV 1)))) (cM (cA (cN 1) (cM (cN 2) (cH 0))) (cA (cV 1) (cW (cV 1) 4)))))))) (cM (cM (cM (cN 2) (cA (cN 1) (cH 0))) (cR (cA (cN 3) (cM (cN 2) (cV 1))))) (cA (cA (cN 1) (cM (cN 3) (cV 1))) (cM (cN 2) (cW (cV 1) 4)))))) (cD (cM (cR (cD (cV 1) (cM (cA (cN 3) (cM (cN 2) (cV 1))) (cW (cA (cA (cN 1) (cM (cN 3) (cV 1))) (cM (cN 2) (cW (cV 1) 4))) 4)))) (cA (cA (cA (cR (cD (cM (cM (cH 0) (cA (cN 1) (cM (cN 2) (cH 0)))) (cA (cN 1) (cM (cN 2) (cV 1)))) (cA (cN 1) (cV 1)))) (cR (cD (cM (cM (cW (cH 0) 6) (cA (cN 1) (cM (cN 2) (cH 0)))) (cA (cN 1) (cM (cN 2) (cV 1)))) (cA (cN 1) (cV 1))))) (cM (cM (cN 2) (cA (cN 1) (cH 0))) (cR (cD (cH 0) (cM (cA (cN 1) (cM (cN 2) (cH 0))) (cA (cA (cN 1) (cM (cN 3) (cV 1))) (cM (cN 2) (cW (cV 1) 4)))))))) (cM (cM (cM (cN 4) (cA (cN 1) (cH 0))) (cV 1)) (cR (cD (cH 0) (cM (cA (cN 1) (cM (cN 2) (cH 0))) (cA (cA (cN 1) (cM (cN 3) (cV 1))) (cM (cN 2) (cW (cV 1) 4))))))))) (cW (cA (cN 1) (cH 0)) 4))) (cD (cA (cA (cA (cA (cA (cA (cA (cM (cM (cN 2) (cA (cN 1) (cV 1))) (cR (cD (cM (cM (cH 0) (cV 1)) (cA (cN 1) (cM (cN 2) (cV 1)))) (cM (cA (cN 1) (cM (cN 2) (cH 0))) (cA (cA (cN 3) (cM (cN 5) (cV 1))) (cM (cN 2) (cW (cV 1) 4))))))) (cM (cM (cN 2) (cA (cN 1) (cV 1))) (cR (cD (cM (cM (cW (cH 0) 6) (cV 1)) (cA (cN 1) (cM (cN 2) (cV 1)))) (cM (cA (cN 1) (cM (cN 2) (cH 0))) (cA (cA (cN 3) (cM (cN 5) (cV 1))) (cM (cN 2) (cW (cV 1) 4)))))))) (cR (cD (cM (cM (cM (cH 0) (cA (cN 1) (cM (cN 2) (cH 0)))) (cV 1)) (cA (cN 1) (cM (cN 2) (cV 1)))) (cA (cA (cN 3) (cM (cN 5) (cV 1))) (cM (cN 2) (cW (cV 1) 4)))))) (cM (cA (cN 1) (cV 1)) (cR (cD (cM (cM (cM (cH 0) (cA (cN 1) (cM (cN 2) (cH 0)))) (cV 1)) (cA (cN 1) (cM (cN 2) (cV 1)))) (cA (cA (cN 3) (cM (cN 5) (cV 1))) (cM (cN 2) (cW (cV 1) 4))))))) (cR (cD (cM (cM (cM (cW (cH 0) 6) (cA (cN 1) (cM (cN 2) (cH 0)))) (cV 1)) (cA (cN 1) (cM (cN 2) (cV 1)))) (cA (cA (cN 3) (cM (cN 5) (cV 1))) (cM (cN 2) (cW (cV 1) 4)))))) (cM (cA (cN 1) (cV 1)) (cR (cD (cM (cM (cM (cW (cH 0) 6) (cA (cN 1) (cM (cN 2) (cH 0)))) (cV 1)) (cA (cN 1) (cM (cN 2) (cV 1)))) (cA (cA (cN 3) (cM (cN 5) (cV 1))) (cM (cN 2) (cW (cV 1) 4))))))) (cM (cM (cN 2) (cA (cN 1) (cH 0))) (cR (cD (cM (cH 0) (cV 1)) (cM (cA (cA (cA (cN 1) (cM (cN 2) (cH 0))) (cV 1)) (cM (cM (cN 2) (cH 0)) (cV 1))) (cA (cA (cN 3) (cM (cN 8) (cV 1))) (cM (cN 4) (cW (cV 1) 4)))))))) (cM (cM (cM (cN 4) (cA (cN 1) (cH 0))) (cV 1)) (cR (cD (cM (cH 0) (cV 1)) (cM (cA (cA (cA (cN 1) (cM (cN 2) (cH 0))) (cV 1)) (cM (cM (cN 2) (cH 0)) (cV 1))) (cA (cA (cN 3) (cM (cN 8) (cV 1))) (cM (cN 4) (cW (cV 1) 4)))))))) (cM (cM (cN 2) (cW (cA (cN 1) (cH 0)) 4)) (cA (cN 1) (cV 1))))).
Definition SPSU2T_e932 := (cD (cA (cA (cA (cB (cD (cM (cM (cH 0) (cA (cN 2) (cV 1))) (cA (cN 1) (cM (cN 2) (cV 1)))) (cM (cM (cM (cA (cN 1) (cH 0)) (cA (cN 1) (cV 1))) (cA (cN 3) (cM (cN 2) (cV 1)))) (cR (cM (cM (cH 0) (cA (cN 1) (cM (cN 2) (cH 0)))) (cA (cA (cN 2) (cM (cN 3) (cV 1))) (cW (cV 1) 4)))))) (cD (cM (cM (cA (cN 3) (cM (cN 2) (cH 0))) (cR (cM (cM (cH 0) (cA (cN 1) (cM (cN 2) (cH 0)))) (cA (cA (cN 2) (cM (cN 3) (cV 1))) (cW (cV 1) 4))))) (cA (cA (cN 1) (cV 1)) (cM (cN 2) (cW (cV 1) 4)))) (cM (cM (cM (cA (cN 1) (cH 0)) (cA (cN 1) (cM (cN 2) (cH 0)))) (cW (cA (cN 1) (cV 1)) 4)) (cA (cN 3) (cM (cN 2) (cV 1)))))) (cM (cM (cH 0) (cR (cD (cN 1) (cM (cM (cM (cM (cM (cH 0) (cW (cA (cN 1) (cH 0)) 4)) (cA (cN 1) (cM (cN 2) (cH 0)))) (cW (cA (cN 1) (cV 1)) 6)) (cA (cN 2) (cV 1))) (cW (cA (cN 3) (cM (cN 2) (cV 1))) 4))))) (cA (cA (cA (cN 2) (cM (cN 3) (cV 1))) (cM (cN 5) (cW (cV 1) 4))) (cM (cN 2) (cW (cV 1) 6))))) (cD (cM (cH 0) (cA (cD (cN 1) (cR (cD (cM (cM (cM (cH 0) (cA (cN 1) (cH 0))) (cW (cA (cN 3) (cM (cN 2) (cV 1))) 4)) (cA (cA (cN 2) (cM (cN 3) (cV 1))) (cW (cV 1) 4))) (cA (cN 1) (cM (cN 2) (cV 1)))))) (cD (cN 1) (cM (cR (cD (cM (cM (cH 0) (cA (cN 1) (cH 0))) (cA (cA (cN 2) (cM (cN 3) (cV 1))) (cW (cV 1) 4))) (cA (cN 1) (cM (cN 2) (cV 1))))) (cA (cA (cN 3) (cM (cN 5) (cV 1))) (cM (cN 2) (cW (cV 1) 4))))))) (cR (cD (cA (cA (cN 1) (cM (cN 3) (cH 0))) (cM (cN 2) (cW (cH 0) 4))) (cA (cN 1) (cM (cN 2) (cV 1))))))) (cD (cM (cM (cN 2) (cA (cN 1) (cM (cN 2) (cV 1)))) (cB (cB (cO (cD (cM (cH 0) (cA (cN 3) (cM (cN 2) (cH 0)))) (cM (cM (cW (cA (cN 1) (cV 1)) 4) (cA (cN 2) (cV 1))) (cR (cD (cM (cH 0) (cA (cN 1) (cM (cN 2) (cH 0)))) (cA (cA (cN 2) (cM (cN 3) (cV 1))) (cW (cV 1) 4))))))) (cD (cR (cD (cM (cW (cH 0) 6) (cA (cN 1) (cM (cN 2) (cH 0)))) (cA (cA (cN 2) (cM (cN 3) (cV 1))) (cW (cV 1) 4)))) (cA (cN 1) (cH 0)))) (cD (cA (cA (cM (cN 2) (cR (cD (cH 0) (cM (cA (cN 1) (cM (cN 2) (cH 0))) (cA (cA (cN 2) (cM (cN 3) (cV 1))) (cW (cV 1) 4)))))) (cM (cM (cN 2) (cH 0)) (cR (cD (cH 0) (cM (cA (cN 1) (cM (cN 2) (cH 0))) (cA (cA (cN 2) (cM (cN 3) (cV 1))) (cW (cV 1) 4))))))) (cR (cD (cM (cH 0) (cA (cN 1) (cM (cN 2) (cH 0)))) (cA (cA (cN 2) (cM (cN 3) (cV 1))) (cW (cV 1) 4))))) (cA (cN 1) (cH 0))))) (cM (cA (cN 1) (cH 0)) (cA (cN 3) (cM (cN 2) (cV 1)))))) (cN 2)).
Definition SPSU2T_e933 := (cD (cM (cQ (-1) 2) (cA (cA (cA (cB (cB (cA (cR (cD (cM (cV 1) (cA (cN 1) (cM (cN 2) (cV 1)))) (cM (cW (cA (cN 1) (cV 1)) 6) (cA (cN 3) (cM (cN 2) (cV 1)))))) (cR (cD (cM (cV 1) (cA (cN 1) (cM (cN 2) (cV 1)))) (cA (cA (cN 3) (cM (cN 5) (cV 1))) (cM (cN 2) (cW (cV 1) 4)))))) (cD (cR (cD (cM (cV 1) (cA (cN 1) (cM (cN 2) (cV 1)))) (cA (cA (cN 3) (cM (cN 5) (cV 1))) (cM (cN 2) (cW (cV 1) 4))))) (cA (cA (cN 1) (cM (cN 3) (cV 1))) (cM (cN 2) (cW (cV 1) 4))))) (cD (cM (cA (cN 1) (cM (cN 2) (cH 0))) (cV 1)) (cR (cM (cM (cV 1) (cW (cA (cN 1) (cV 1)) 6)) (cA (cA (cN 3) (cM (cN 8) (cV 1))) (cM (cN 4) (cW (cV 1) 4))))))) (cD (cN 2) (cM (cA (cN 1) (cV 1)) (cR (cA (cA (cA (cN 11) (cD (cN 3) (cV 1))) (cM (cN 12) (cV 1))) (cM (cN 4) (cW (cV 1) 4))))))) (cD (cA (cN 2) (cM (cN 4) (cH 0))) (cM (cA (cN 1) (cV 1)) (cR (cA (cA (cA (cN 11) (cD (cN 3) (cV 1))) (cM (cN 12) (cV 1))) (cM (cN 4) (cW (cV 1) 4))))))) (cM (cA (cN 1) (cM (cN 2) (cH 0))) (cA (cR (cD (cM (cV 1) (cA (cN 1) (cM (cN 2) (cV 1)))) (cM (cW (cA (cN 1) (cV 1)) 6) (cA (cN 3) (cM (cN 2) (cV 1)))))) (cR (cD (cM (cV 1) (cA (cN 1) (cM (cN 2) (cV 1)))) (cA (cA (cN 3) (cM (cN 5) (cV 1))) (cM (cN 2) (cW (cV 1) 4))))))))) (cA (cN 1) (cH 0))).
Definition SPSU2T_e934 := (cM (cN (-2)) (cR (cO (cD (cB (cH 0) (cM (cM (cN 2) (cH 0)) (cV 1))) (cA (cA (cA (cN 3) (cM (cN 6) (cH 0))) (cM (cN 6) (cV 1))) (cM (cM (cN 12) (cH 0)) (cV 1))))))).
Definition SPSU2T_e935 := (cO (cR (cD (cH 0) (cA (cN 1) (cM (cN 2) (cH 0)))))).
Definition SPSU2T_e936 := (cO (cD (cA (cN 1) (cV 1)) (cM (cR (cN 2)) (cR (cD (cM (cM (cA (cN 1) (cM (cN 2) (cH 0))) (cV 1)) (cA (cN 1) (cV 1))) (cH 0)))))).
Definition SPSU2T_e937 := (cB (cB (cO (cD (cR (cN 6)) (cR (cD (cM (cM (cM (cA (cN 1) (cM (cN 2) (cH 0))) (cV 1)) (cA (cN 1) (cM (cN 2) (cV 1)))) (cA (cA (cN 3) (cM (cN 5) (cV 1))) (cM (cN 2) (cW (cV 1) 4)))) (cH 0))))) (cD (cM (cV 1) (cA (cN (-1)) (cM (cN 2) (cV 1)))) (cM (cR (cN 6)) (cR (cD (cM (cM (cM (cA (cN 1) (cM (cN 2) (cH 0))) (cV 1)) (cA (cN 1) (cM (cN 2) (cV 1)))) (cA (cA (cN 3) (cM (cN 5) (cV 1))) (cM (cN 2) (cW (cV 1) 4)))) (cH 0)))))) (cD (cM (cR (cQ 3 2)) (cW (cA (cN (-1)) (cM (cN 2) (cV 1))) 3)) (cR (cD (cM (cM (cM (cA (cN 1) (cM (cN 2) (cH 0))) (cV 1)) (cA (cN 1) (cM (cN 2) (cV 1)))) (cA (cA (cA (cN (-3)) (cV 1)) (cM (cN 8) (cW (cV 1) 4))) (cM (cN 4) (cW (cV 1) 6)))) (cH 0))))).
Definition SPSU2T_e938 := (cD (cA (cN 1) (cV 1)) (cM (cR (cN 2)) (cR (cD (cM (cV 1) (cA (cA (cN 1) (cM (cN 3) (cV 1))) (cM (cN 2) (cW (cV 1) 4)))) (cA (cN (-1)) (cM (cN 2) (cV 1))))))).
Definition SPSU2T_e939 := (cD (cA (cN 1) (cH 0)) (cM (cR (cN 2)) (cR (cD (cM (cA (cA (cN 1) (cM (cN 3) (cH 0))) (cM (cN 2) (cW (cH 0) 4))) (cV 1)) (cA (cN (-1)) (cV 1)))))).
Definition SPSU2T_e940 := (cD (cM (cA (cN 1) (cH 0)) (cA (cN 1) (cV 1))) (cM (cR (cN 2)) (cR (cD (cM (cM (cA (cA (cN 1) (cM (cN 3) (cH 0))) (cM (cN 2) (cW (cH 0) 4))) (cV 1)) (cA (cA (cN 1) (cM (cN 3) (cV 1))) (cM (cN 2) (cW (cV 1) 4)))) (cA (cN (-1)) (cM (cN 2) (cV 1))))))).
Definition SPSU2T_e941 := (cD (cN 2) (cM (cR (cN 3)) (cR (cA (cN 2) (cD (cN 1) (cH 0)))))).
Definition SPSU2T_e942 := (cD (cB (cN 1) (cV 1)) (cM (cR (cN 2)) (cR (cD (cM (cM (cA (cN 1) (cM (cN 2) (cH 0))) (cA (cN (-1)) (cV 1))) (cV 1)) (cH 0))))).
Definition SPSU2T_e943 := (cD (cA (cA (cD (cM (cV 1) (cA (cN (-1)) (cM (cN 2) (cV 1)))) (cM (cA (cN 1) (cV 1)) (cR (cD (cM (cM (cA (cN 1) (cM (cN 2) (cH 0))) (cV 1)) (cA (cA (cA (cN (-3)) (cV 1)) (cM (cN 8) (cW (cV 1) 4))) (cM (cN 4) (cW (cV 1) 6)))) (cH 0))))) (cD (cB (cB (cA (cN (-3)) (cM (cN 9) (cV 1))) (cM (cN 4) (cW (cV 1) 4))) (cM (cN 4) (cW (cV 1) 6))) (cM (cA (cN 1) (cV 1)) (cR (cD (cM (cM (cA (cN 1) (cM (cN 2) (cH 0))) (cV 1)) (cA (cA (cA (cN (-3)) (cV 1)) (cM (cN 8) (cW (cV 1) 4))) (cM (cN 4) (cW (cV 1) 6)))) (cH 0)))))) (cM (cM (cN 3) (cR (cD (cH 0) (cA (cN 1) (cM (cN 2) (cH 0)))))) (cB (cA (cD (cN (-2)) (cM (cA (cN 1) (cV 1)) (cR (cD (cM (cV 1) (cA (cA (cN 3) (cM (cN 5) (cV 1))) (cM (cN 2) (cW (cV 1) 4)))) (cA (cN (-1)) (cM (cN 2) (cV 1))))))) (cR (cD (cV 1) (cM (cW (cA (cN 1) (cV 1)) 6) (cA (cA (cN (-3)) (cM (cN 4) (cV 1))) (cM (cN 4) (cW (cV 1) 4))))))) (cM (cN 2) (cR (cD (cW (cV 1) 6) (cM (cW (cA (cN 1) (cV 1)) 6) (cA (cA (cN (-3)) (cM (cN 4) (cV 1))) (cM (cN 4) (cW (cV 1) 4)))))))))) (cR (cN 6))).
Definition SPSU2T_e944 := (cO (cD (cA (cN 2) (cV 1)) (cM (cR (cN 2)) (cR (cD (cM (cA (cN 1) (cM (cN 2) (cH 0))) (cA (cA (cN 2) (cM (cN 3) (cV 1))) (cW (cV 1) 4))) (cH 0)))))).
Definition SPSU2T_e945 := (cO (cD (cA (cR (cD (cM (cA (cA (cN 1) (cM (cN 3) (cH 0))) (cM (cN 2) (cW (cH 0) 4))) (cA (cN 1) (cV 1))) (cV 1))) (cR (cM (cM (cA (cA (cN 1) (cM (cN 3) (cH 0))) (cM (cN 2) (cW (cH 0) 4))) (cV 1)) (cA (cN 1) (cV 1))))) (cM (cM (cR (cN 2)) (cA (cN 1) (cM (cN 2) (cH 0)))) (cA (cN 1) (cV 1))))).
Definition SPSU2T_e946 := (cO (cD (cA (cN 1) (cH 0)) (cM (cR (cN 2)) (cR (cM (cM (cA (cA (cN 1) (cM (cN 3) (cH 0))) (cM (cN 2) (cW (cH 0) 4))) (cV 1)) (cA (cN 1) (cV 1))))))).
Definition SPSU2T_e947 := (cD (cB (cA (cA (cA (cD (cM (cN 2) (cR (cD (cV 1) (cM (cA (cA (cN 1) (cM (cN 3) (cH 0))) (cM (cN 2) (cW (cH 0) 4))) (cW (cA (cN 1) (cV 1)) 6))))) (cA (cN 3) (cM (cN 2) (cV 1)))) (cD (cM (cH 0) (cR (cD (cV 1) (cM (cA (cA (cN 1) (cM (cN 3) (cH 0))) (cM (cN 2) (cW (cH 0) 4))) (cW (cA (cN 1) (cV 1)) 6))))) (cA (cN 3) (cM (cN 2) (cV 1))))) (cD (cM (cM (cR (cD (cV 1) (cA (cA (cN 1) (cM (cN 3) (cH 0))) (cM (cN 2) (cW (cH 0) 4))))) (cA (cN 2) (cV 1))) (cA (cN 1) (cM (cN 2) (cV 1)))) (cM (cW (cA (cN 1) (cV 1)) 3) (cA (cN 3) (cM (cN 2) (cV 1)))))) (cD (cM (cM (cM (cH 0) (cV 1)) (cA (cN 2) (cV 1))) (cA (cN 1) (cM (cN 2) (cV 1)))) (cM (cM (cA (cN 1) (cV 1)) (cR (cM (cM (cA (cA (cN 1) (cM (cN 3) (cH 0))) (cM (cN 2) (cW (cH 0) 4))) (cV 1)) (cA (cN 1) (cV 1))))) (cA (cN 3) (cM (cN 2) (cV 1)))))) (cD (cV 1) (cM (cA (cN 1) (cV 1)) (cR (cM (cM (cM (cA (cA (cN 1) (cM (cN 3) (cH 0))) (cM (cN 2) (cW (cH 0) 4))) (cV 1)) (cA (cN 1) (cV 1))) (cW (cA (cN 3) (cM (cN 2) (cV 1))) 4)))))) (cR (cN 2))).
Definition SPSU2T_e948 := (cD (cM (cN (-2)) (cA (cA (cM (cN 2) (cR (cD (cA (cH 0) (cM (cM (cN 2) (cH 0)) (cV 1))) (cA (cA (cA (cN 3) (cM (cN 6) (cH 0))) (cM (cN 2) (cV 1))) (cM (cM (cN 4) (cH 0)) (cV 1)))))) (cM (cV 1) (cR (cD (cA (cH 0) (cM (cM (cN 2) (cH 0)) (cV 1))) (cA (cA (cA (cN 3) (cM (cN 6) (cH 0))) (cM (cN 2) (cV 1))) (cM (cM (cN 4) (cH 0)) (cV 1))))))) (cR (cD (cH 0) (cM (cA (cN 1) (cM (cN 2) (cH 0))) (cA (cA (cN 3) (cM (cN 8) (cV 1))) (cM (cN 4) (cW (cV 1) 4)))))))) (cM (cR (cN 3)) (cA (cN 1) (cV 1)))).
Definition SPSU2T_e949 := (cD (cB (cA (cD (cB (cV 1) (cM (cN 2) (cW (cV 1) 4))) (cR (cD (cM (cM (cM (cM (cA (cN 1) (cM (cN 2) (cH 0))) (cV 1)) (cW (cA (cN 1) (cV 1)) 6)) (cW (cA (cN 3) (cM (cN 2) (cV 1))) 4)) (cA (cN (-1)) (cM (cN 4) (cW (cV 1) 4)))) (cH 0)))) (cD (cM (cM (cM (cM (cN 4) (cV 1)) (cA (cN 2) (cV 1))) (cA (cN (-1)) (cM (cN 2) (cV 1)))) (cR (cD (cH 0) (cM (cM (cM (cA (cN 1) (cM (cN 2) (cH 0))) (cV 1)) (cW (cA (cN 3) (cM (cN 2) (cV 1))) 4)) (cA (cA (cB (cN (-1)) (cV 1)) (cM (cN 4) (cW (cV 1) 4))) (cM (cN 4) (cW (cV 1) 6))))))) (cA (cN 1) (cV 1)))) (cD (cM (cV 1) (cA (cA (cA (cN (-10)) (cM (cN 11) (cV 1))) (cM (cN 16) (cW (cV 1) 4))) (cM (cN 4) (cW (cV 1) 6)))) (cM (cA (cN 1) (cV 1)) (cR (cD (cM (cM (cM (cA (cN 1) (cM (cN 2) (cH 0))) (cV 1)) (cW (cA (cN 3) (cM (cN 2) (cV 1))) 4)) (cA (cA (cB (cN (-1)) (cV 1)) (cM (cN 4) (cW (cV 1) 4))) (cM (cN 4) (cW (cV 1) 6)))) (cH 0)))))) (cR (cN 6))).
Definition SPSU2T_e950 := (cB (cB (cD (cM (cV 1) (cR (cD (cM (cH 0) (cW (cA (cN 1) (cM (cN 2) (cV 1))) 4)) (cM (cW (cA (cN 1) (cV 1)) 6) (cA (cV 1) (cM (cM (cN 2) (cH 0)) (cV 1))))))) (cM (cR (cN 2)) (cA (cN 3) (cM (cN 2) (cV 1))))) (cD (cM (cV 1) (cA (cA (cN (-1)) (cM (cN 5) (cV 1))) (cM (cN 2) (cW (cV 1) 4)))) (cM (cM (cM (cR (cN 2)) (cA (cN 1) (cV 1))) (cR (cD (cM (cM (cA (cN 1) (cM (cN 2) (cH 0))) (cV 1)) (cA (cN 1) (cV 1))) (cH 0)))) (cA (cN 3) (cM (cN 2) (cV 1)))))) (cD (cA (cA (cM (cN 4) (cR (cD (cM (cV 1) (cA (cN 1) (cM (cN 2) (cV 1)))) (cA (cN 1) (cV 1))))) (cR (cD (cM (cW (cV 1) 6) (cA (cN 1) (cM (cN 2) (cV 1)))) (cA (cN 1) (cV 1))))) (cM (cN 6) (cR (cD (cV 1) (cA (cA (cN 1) (cM (cN 3) (cV 1))) (cM (cN 2) (cW (cV 1) 4))))))) (cM (cR (cD (cA (cN 2) (cM (cN 4) (cH 0))) (cA (cH 0) (cM (cM (cN 2) (cH 0)) (cV 1))))) (cA (cA (cA (cN 6) (cM (cN 13) (cV 1))) (cM (cN 9) (cW (cV 1) 4))) (cM (cN 2) (cW (cV 1) 6)))))).
Definition SPSU2T_e951 := (cB (cB (cD (cV 1) (cM (cM (cR (cN 2)) (cA (cN 1) (cV 1))) (cR (cM (cM (cV 1) (cA (cN 3) (cM (cN 2) (cV 1)))) (cA (cA (cN 1) (cM (cN 3) (cV 1))) (cM (cN 2) (cW (cV 1) 4))))))) (cD (cN 1) (cM (cA (cN 1) (cV 1)) (cR (cA (cA (cA (cQ 11 2) (cD (cN 3) (cM (cN 2) (cV 1)))) (cM (cN 6) (cV 1))) (cM (cN 2) (cW (cV 1) 4))))))) (cD (cA (cA (cR (cD (cM (cV 1) (cA (cN 1) (cM (cN 2) (cV 1)))) (cA (cA (cN 3) (cM (cN 5) (cV 1))) (cM (cN 2) (cW (cV 1) 4))))) (cR (cD (cV 1) (cM (cW (cA (cN 1) (cV 1)) 6) (cA (cA (cN 3) (cM (cN 8) (cV 1))) (cM (cN 4) (cW (cV 1) 4))))))) (cM (cN 2) (cR (cD (cW (cV 1) 6) (cM (cW (cA (cN 1) (cV 1)) 6) (cA (cA (cN 3) (cM (cN 8) (cV 1))) (cM (cN 4) (cW (cV 1) 4)))))))) (cR (cN 2)))).
Definition SPSU2T_e952 := (cO (cD (cR (cA (cA (cN 2) (cM (cN 3) (cV 1))) (cW (cV 1) 4))) (cM (cR (cN 2)) (cA (cN 1) (cV 1))))).
Definition SPSU2T_e953 := (cB (cA (cB (cB (cA (cO (cD (cR (cN 2)) (cM (cA (cN 1) (cV 1)) (cR (cD (cM (cM (cM (cA (cN 1) (cH 0)) (cA (cN 1) (cM (cN 2) (cH 0)))) (cA (cN 3) (cM (cN 2) (cV 1)))) (cA (cA (cN 1) (cM (cN 3) (cV 1))) (cM (cN 2) (cW (cV 1) 4)))) (cV 1)))))) (cD (cV 1) (cM (cM (cR (cN 2)) (cA (cN 1) (cV 1))) (cR (cM (cM (cM (cM (cA (cN 1) (cH 0)) (cA (cN 1) (cM (cN 2) (cH 0)))) (cV 1)) (cA (cN 3) (cM (cN 2) (cV 1)))) (cA (cA (cN 1) (cM (cN 3) (cV 1))) (cM (cN 2) (cW (cV 1) 4)))))))) (cD (cM (cV 1) (cA (cN 2) (cV 1))) (cM (cM (cR (cN 2)) (cA (cN 1) (cV 1))) (cR (cD (cM (cM (cM (cA (cN 1) (cH 0)) (cA (cN 1) (cM (cN 2) (cH 0)))) (cV 1)) (cA (cA (cN 3) (cM (cN 5) (cV 1))) (cM (cN 2) (cW (cV 1) 4)))) (cA (cN 1) (cM (cN 2) (cV 1)))))))) (cD (cM (cM (cH 0) (cV 1)) (cA (cN 2) (cV 1))) (cM (cM (cR (cN 2)) (cA (cN 1) (cV 1))) (cR (cD (cM (cM (cA (cA (cN 1) (cM (cN 3) (cH 0))) (cM (cN 2) (cW (cH 0) 4))) (cV 1)) (cA (cA (cN 3) (cM (cN 5) (cV 1))) (cM (cN 2) (cW (cV 1) 4)))) (cA (cN 1) (cM (cN 2) (cV 1)))))))) (cD (cM (cH 0) (cV 1)) (cM (cA (cN 1) (cV 1)) (cR (cM (cM (cM (cA (cA (cN 1) (cM (cN 3) (cH 0))) (cM (cN 2) (cW (cH 0) 4))) (cV 1)) (cA (cN 3) (cM (cN 2) (cV 1)))) (cA (cA (cN 2) (cM (cN 6) (cV 1))) (cM (cN 4) (cW (cV 1) 4)))))))) (cM (cM (cR (cN 2)) (cH 0)) (cR (cD (cV 1) (cM (cM (cA (cA (cN 1) (cM (cN 3) (cH 0))) (cM (cN 2) (cW (cH 0) 4))) (cW (cA (cN 1) (cV 1)) 6)) (cA (cA (cN 3) (cM (cN 8) (cV 1))) (cM (cN 4) (cW (cV 1) 4)))))))).
Definition SPSU2T_e954 := (cO (cD (cR (cM (cA (cA (cN 1) (cM (cN 3) (cH 0))) (cM (cN 2) (cW (cH 0) 4))) (cA (cA (cN 2) (cM (cN 3) (cV 1))) (cW (cV 1) 4)))) (cM (cR (cN 2)) (cA (cA (cA (cN 1) (cM (cN 2) (cH 0))) (cV 1)) (cM (cM (cN 2) (cH 0)) (cV 1)))))).
Definition SPSU2T_e955 := (cD (cM (cN 2) (cA (cN 1) (cH 0))) (cM (cR (cN 3)) (cR (cD (cM (cA (cA (cN 1) (cM (cN 3) (cH 0))) (cM (cN 2) (cW (cH 0) 4))) (cA (cN 1) (cM (cN 2) (cV 1)))) (cA (cN (-1)) (cM (cN 2) (cV 1))))))).
Definition SPSU2T_e956 := (cD (cA (cN 1) (cH 0)) (cR (cA (cA (cN 1) (cM (cN 3) (cH 0))) (cM (cN 2) (cW (cH 0) 4))))).
Definition SPSU2T_e957 := (cD (cA (cR (cD (cM (cM (cA (cN 1) (cH 0)) (cV 1)) (cA (cN 1) (cV 1))) (cA (cN 1) (cM (cN 2) (cH 0))))) (cR (cM (cM (cA (cA (cN 1) (cM (cN 3) (cH 0))) (cM (cN 2) (cW (cH 0) 4))) (cV 1)) (cA (cN 1) (cV 1))))) (cM (cM (cM (cN 2) (cR (cN 2))) (cA (cN 1) (cH 0))) (cV 1))).
Definition SPSU2T_e958 := (cD (cM (cA (cN 1) (cH 0)) (cA (cA (cN 3) (cM (cN 5) (cV 1))) (cM (cN 2) (cW (cV 1) 4)))) (cM (cR (cN 6)) (cR (cM (cM (cA (cA (cN 1) (cM (cN 3) (cH 0))) (cM (cN 2) (cW (cH 0) 4))) (cV 1)) (cA (cA (cA (cN 3) (cM (cN 11) (cV 1))) (cM (cN 12) (cW (cV 1) 4))) (cM (cN 4) (cW (cV 1) 6))))))).
Definition SPSU2T_e959 := (cD (cA (cA (cA (cR (cD (cM (cM (cH 0) (cA (cN 1) (cM (cN 2) (cH 0)))) (cA (cN (-1)) (cV 1))) (cV 1))) (cR (cD (cM (cM (cW (cH 0) 6) (cA (cN 1) (cM (cN 2) (cH 0)))) (cA (cN (-1)) (cV 1))) (cV 1)))) (cR (cD (cM (cH 0) (cA (cN (-1)) (cV 1))) (cA (cV 1) (cM (cM (cN 2) (cH 0)) (cV 1)))))) (cM (cH 0) (cR (cD (cM (cH 0) (cA (cN (-1)) (cV 1))) (cA (cV 1) (cM (cM (cN 2) (cH 0)) (cV 1))))))) (cM (cM (cN 2) (cR (cN 2))) (cW (cA (cN 1) (cH 0)) 4))).
Definition SPSU2T_e960 := (cD (cA (cA (cB (cO (cD (cM (cH 0) (cA (cN 1) (cH 0))) (cR (cD (cM (cM (cM (cH 0) (cA (cN 1) (cM (cN 2) (cH 0)))) (cV 1)) (cA (cA (cN 1) (cM (cN 3) (cV 1))) (cM (cN 2) (cW (cV 1) 4)))) (cA (cN (-1)) (cM (cN 2) (cV 1))))))) (cD (cM (cM (cH 0) (cA (cN 1) (cH 0))) (cV 1)) (cR (cD (cM (cM (cM (cH 0) (cA (cN 1) (cM (cN 2) (cH 0)))) (cV 1)) (cA (cA (cN 1) (cM (cN 3) (cV 1))) (cM (cN 2) (cW (cV 1) 4)))) (cA (cN (-1)) (cM (cN 2) (cV 1))))))) (cD (cM (cM (cM (cA (cN 1) (cH 0)) (cV 1)) (cR (cA (cN (-1)) (cM (cN 2) (cV 1))))) (cA (cR (cD (cM (cM (cH 0) (cA (cN 1) (cM (cN 2) (cH 0)))) (cA (cN 1) (cM (cN 2) (cV 1)))) (cM (cV 1) (cA (cN 1) (cV 1))))) (cM (cN 2) (cR (cD (cM (cH 0) (cA (cN 1) (cM (cN 2) (cV 1)))) (cM (cA (cN 1) (cM (cN 2) (cH 0))) (cA (cV 1) (cW (cV 1) 4)))))))) (cA (cN 1) (cM (cN 2) (cV 1))))) (cM (cR (cD (cA (cN (-1)) (cM (cN 2) (cV 1))) (cM (cV 1) (cW (cA (cN 1) (cM (cN 2) (cV 1))) 4)))) (cA (cA (cA (cR (cD (cM (cM (cH 0) (cA (cN 1) (cM (cN 2) (cH 0)))) (cA (cN 1) (cM (cN 2) (cV 1)))) (cA (cN 1) (cV 1)))) (cR (cD (cM (cM (cW (cH 0) 6) (cA (cN 1) (cM (cN 2) (cH 0)))) (cA (cN 1) (cM (cN 2) (cV 1)))) (cA (cN 1) (cV 1))))) (cM (cM (cN 2) (cA (cN 1) (cH 0))) (cR (cD (cH 0) (cM (cA (cN 1) (cM (cN 2) (cH 0))) (cA (cA (cN 1) (cM (cN 3) (cV 1))) (cM (cN 2) (cW (cV 1) 4)))))))) (cM (cM (cM (cN 4) (cA (cN 1) (cH 0))) (cV 1)) (cR (cD (cH 0) (cM (cA (cN 1) (cM (cN 2) (cH 0))) (cA (cA (cN 1) (cM (cN 3) (cV 1))) (cM (cN 2) (cW (cV 1) 4)))))))))) (cM (cM (cN 2) (cR (cN 2))) (cW (cA (cN 1) (cH 0)) 4))).
Definition SPSU2T_e961 := (cD (cA (cA (cA (cR (cD (cM (cV 1) (cA (cN (-1)) (cM (cN 2) (cV 1)))) (cA (cA (cN 1) (cM (cN 3) (cV 1))) (cM (cN 2) (cW (cV 1) 4))))) (cD (cN 1) (cR (cD (cM (cV 1) (cA (cA (cN 1) (cM (cN 3) (cV 1))) (cM (cN 2) (cW (cV 1) 4)))) (cA (cN (-1)) (cM (cN 2) (cV 1))))))) (cD (cA (cN 1) (cM (cN 2) (cH 0))) (cR (cD (cM (cV 1) (cA (cA (cN 1) (cM (cN 3) (cV 1))) (cM (cN 2) (cW (cV 1) 4)))) (cA (cN (-1)) (cM (cN 2) (cV 1))))))) (cD (cM (cA (cN 1) (cM (cN 2) (cH 0))) (cV 1)) (cM (cA (cN 1) (cM (cN 2) (cV 1))) (cR (cD (cM (cV 1) (cA (cN 1) (cV 1))) (cA (cN (-1)) (cM (cN 4) (cW (cV 1) 4)))))))) (cM (cM (cN 2) (cR (cN 2))) (cA (cN 1) (cH 0)))).
Definition SPSU2T_e962 := (cD (cM (cN (-2)) (cA (cN 1) (cH 0))) (cR (cA (cA (cN 3) (cM (cN 9) (cH 0))) (cM (cN 6) (cW (cH 0) 4))))).
Definition SPSU2T_e963 := (cD (cA (cA (cA (cD (cB (cN 1) (cV 1)) (cM (cR (cM (cM (cA (cA (cN 1) (cM (cN 3) (cH 0))) (cM (cN 2) (cW (cH 0) 4))) (cA (cN (-1)) (cV 1))) (cV 1))) (cA (cN 1) (cV 1)))) (cD (cB (cN 1) (cV 1)) (cR (cD (cM (cM (cM (cA (cN 1) (cH 0)) (cA (cN (-1)) (cV 1))) (cV 1)) (cW (cA (cN 1) (cV 1)) 4)) (cA (cN 1) (cM (cN 2) (cH 0))))))) (cD (cA (cA (cO (cM (cV 1) (cR (cD (cM (cA (cN 1) (cH 0)) (cV 1)) (cA (cN (-1)) (cV 1)))))) (cM (cN 2) (cR (cM (cM (cA (cN 1) (cH 0)) (cA (cN (-1)) (cV 1))) (cV 1))))) (cR (cD (cM (cA (cN 1) (cH 0)) (cW (cV 1) 10)) (cA (cN (-1)) (cV 1))))) (cM (cM (cM (cA (cN 1) (cH 0)) (cR (cA (cN 1) (cM (cN 2) (cH 0))))) (cV 1)) (cA (cN 1) (cV 1))))) (cD (cA (cB (cM (cN 2) (cR (cD (cM (cA (cN 1) (cM (cN 2) (cH 0))) (cA (cN (-1)) (cV 1))) (cM (cA (cN 1) (cH 0)) (cV 1))))) (cM (cV 1) (cR (cD (cA (cN 1) (cM (cN 2) (cH 0))) (cM (cA (cN 1) (cH 0)) (cA (cO (cV 1)) (cW (cV 1) 4))))))) (cM (cW (cV 1) 4) (cR (cD (cA (cN 1) (cM (cN 2) (cH 0))) (cM (cA (cN 1) (cH 0)) (cA (cO (cV 1)) (cW (cV 1) 4))))))) (cA (cN 1) (cV 1)))) (cM (cN 2) (cR (cN 2)))).
Definition SPSU2T_e964 := (cD (cA (cA (cA (cA (cA (cD (cM (cN 3) (cA (cN 2) (cV 1))) (cR (cD (cM (cM (cM (cA (cN 1) (cH 0)) (cV 1)) (cW (cA (cN 1) (cV 1)) 6)) (cA (cN 3) (cM (cN 2) (cV 1)))) (cM (cA (cN 1) (cM (cN 2) (cH 0))) (cA (cN (-1)) (cM (cN 2) (cV 1))))))) (cD (cB (cV 1) (cM (cN 2) (cW (cV 1) 4))) (cR (cD (cM (cM (cM (cA (cN 1) (cH 0)) (cV 1)) (cW (cA (cN 1) (cV 1)) 6)) (cA (cA (cN (-3)) (cM (cN 4) (cV 1))) (cM (cN 4) (cW (cV 1) 4)))) (cA (cN 1) (cM (cN 2) (cH 0))))))) (cD (cB (cV 1) (cM (cN 2) (cW (cV 1) 4))) (cR (cM (cM (cM (cA (cA (cN 1) (cM (cN 3) (cH 0))) (cM (cN 2) (cW (cH 0) 4))) (cV 1)) (cW (cA (cN 1) (cV 1)) 6)) (cA (cA (cN (-3)) (cM (cN 4) (cV 1))) (cM (cN 4) (cW (cV 1) 4))))))) (cD (cA (cA (cB (cN 3) (cM (cN 9) (cV 1))) (cM (cN 4) (cW (cV 1) 4))) (cM (cN 4) (cW (cV 1) 6))) (cM (cA (cN 1) (cV 1)) (cR (cD (cM (cM (cA (cN 1) (cH 0)) (cV 1)) (cA (cA (cA (cN (-3)) (cV 1)) (cM (cN 8) (cW (cV 1) 4))) (cM (cN 4) (cW (cV 1) 6)))) (cA (cN 1) (cM (cN 2) (cH 0)))))))) (cD (cA (cA (cB (cN 3) (cM (cN 9) (cV 1))) (cM (cN 4) (cW (cV 1) 4))) (cM (cN 4) (cW (cV 1) 6))) (cM (cA (cN 1) (cV 1)) (cR (cM (cM (cA (cA (cN 1) (cM (cN 3) (cH 0))) (cM (cN 2) (cW (cH 0) 4))) (cV 1)) (cA (cA (cA (cN (-3)) (cV 1)) (cM (cN 8) (cW (cV 1) 4))) (cM (cN 4) (cW (cV 1) 6)))))))) (cD (cM (cN 3) (cA (cB (cD (cN 2) (cM (cA (cN 1) (cV 1)) (cR (cD (cM (cM (cA (cN 1) (cH 0)) (cV 1)) (cA (cA (cN 3) (cM (cN 5) (cV 1))) (cM (cN 2) (cW (cV 1) 4)))) (cA (cN (-1)) (cM (cN 2) (cV 1))))))) (cD (cV 1) (cM (cW (cA (cN 1) (cV 1)) 3) (cR (cM (cM (cA (cN 1) (cH 0)) (cV 1)) (cA (cA (cN (-3)) (cM (cN 4) (cV 1))) (cM (cN 4) (cW (cV 1) 4)))))))) (cD (cM (cN 2) (cW (cV 1) 4)) (cM (cW (cA (cN 1) (cV 1)) 3) (cR (cM (cM (cA (cN 1) (cH 0)) (cV 1)) (cA (cA (cN (-3)) (cM (cN 4) (cV 1))) (cM (cN 4) (cW (cV 1) 4))))))))) (cR (cA (cN 1) (cM (cN 2) (cH 0)))))) (cM (cN 2) (cR (cN 6)))).
Definition SPSU2T_e965 := (cD (cA (cA (cA (cA (cA (cA (cD (cM (cM (cN 4) (cV 1)) (cR (cD (cM (cA (cN 1) (cM (cN 2) (cH 0))) (cA (cN 2) (cV 1))) (cM (cA (cN 1) (cH 0)) (cW (cA (cN 1) (cV 1)) 6))))) (cA (cN 3) (cM (cN 2) (cV 1)))) (cD (cN 6) (cR (cD (cM (cM (cM (cA (cN 1) (cH 0)) (cW (cA (cN 1) (cV 1)) 6)) (cA (cN 2) (cV 1))) (cW (cA (cN 3) (cM (cN 2) (cV 1))) 4)) (cA (cN 1) (cM (cN 2) (cH 0))))))) (cD (cM (cN 4) (cV 1)) (cM (cM (cW (cA (cN 1) (cV 1)) 4) (cA (cN 3) (cM (cN 2) (cV 1)))) (cR (cD (cA (cA (cN 1) (cM (cN 3) (cH 0))) (cM (cN 2) (cW (cH 0) 4))) (cA (cA (cN 2) (cM (cN 3) (cV 1))) (cW (cV 1) 4))))))) (cD (cM (cM (cV 1) (cA (cN 2) (cV 1))) (cA (cN 1) (cM (cN 2) (cV 1)))) (cM (cM (cA (cN 1) (cV 1)) (cA (cN 3) (cM (cN 2) (cV 1)))) (cR (cD (cM (cA (cN 1) (cH 0)) (cA (cA (cN 2) (cM (cN 3) (cV 1))) (cW (cV 1) 4))) (cA (cN 1) (cM (cN 2) (cH 0)))))))) (cD (cM (cM (cV 1) (cA (cN 1) (cM (cN 2) (cV 1)))) (cR (cD (cA (cA (cN 2) (cM (cN 3) (cV 1))) (cW (cV 1) 4)) (cA (cA (cN 1) (cM (cN 3) (cH 0))) (cM (cN 2) (cW (cH 0) 4)))))) (cM (cW (cA (cN 1) (cV 1)) 4) (cA (cN 3) (cM (cN 2) (cV 1)))))) (cD (cM (cN 3) (cA (cN 2) (cV 1))) (cM (cM (cA (cN 1) (cV 1)) (cA (cN 3) (cM (cN 2) (cV 1)))) (cR (cM (cA (cA (cN 1) (cM (cN 3) (cH 0))) (cM (cN 2) (cW (cH 0) 4))) (cA (cA (cN 2) (cM (cN 3) (cV 1))) (cW (cV 1) 4))))))) (cD (cM (cN 3) (cV 1)) (cM (cA (cN 1) (cV 1)) (cR (cD (cM (cM (cA (cN 1) (cH 0)) (cW (cA (cN 3) (cM (cN 2) (cV 1))) 4)) (cA (cA (cN 2) (cM (cN 3) (cV 1))) (cW (cV 1) 4))) (cA (cN 1) (cM (cN 2) (cH 0)))))))) (cM (cN 2) (cR (cN 2)))).
Definition SPSU2T_e966 := (cD (cB (cB (cA (cD (cM (cH 0) (cA (cN 1) (cH 0))) (cR (cM (cM (cM (cH 0) (cA (cN 1) (cM (cN 2) (cH 0)))) (cV 1)) (cA (cN 1) (cV 1))))) (cD (cM (cM (cH 0) (cA (cN 1) (cH 0))) (cV 1)) (cR (cM (cM (cM (cH 0) (cA (cN 1) (cM (cN 2) (cH 0)))) (cV 1)) (cA (cN 1) (cV 1)))))) (cD (cA (cA (cA (cR (cM (cM (cH 0) (cA (cN 1) (cM (cN 2) (cH 0)))) (cA (cN 1) (cM (cN 2) (cV 1))))) (cR (cM (cM (cW (cH 0) 6) (cA (cN 1) (cM (cN 2) (cH 0)))) (cA (cN 1) (cM (cN 2) (cV 1)))))) (cM (cM (cN 2) (cA (cN 1) (cH 0))) (cR (cD (cH 0) (cA (cA (cA (cN 1) (cM (cN 2) (cH 0))) (cM (cN 2) (cV 1))) (cM (cM (cN 4) (cH 0)) (cV 1))))))) (cM (cM (cM (cN 4) (cA (cN 1) (cH 0))) (cV 1)) (cR (cD (cH 0) (cA (cA (cA (cN 1) (cM (cN 2) (cH 0))) (cM (cN 2) (cV 1))) (cM (cM (cN 4) (cH 0)) (cV 1))))))) (cR (cM (cV 1) (cA (cA (cN 1) (cM (cN 3) (cV 1))) (cM (cN 2) (cW (cV 1) 4))))))) (cM (cM (cA (cN 1) (cH 0)) (cV 1)) (cA (cM (cN 2) (cR (cD (cH 0) (cM (cA (cN 1) (cM (cN 2) (cH 0))) (cA (cV 1) (cW (cV 1) 4)))))) (cR (cD (cA (cH 0) (cM (cN 2) (cW (cH 0) 4))) (cA (cV 1) (cW (cV 1) 4))))))) (cM (cM (cN 2) (cR (cN 2))) (cW (cA (cN 1) (cH 0)) 4))).
Definition SPSU2T_e967 := (cD (cM (cQ (-1) 2) (cB (cA (cA (cA (cB (cA (cR (cD (cM (cH 0) (cA (cN 1) (cM (cN 2) (cH 0)))) (cM (cV 1) (cW (cA (cN 1) (cV 1)) 10)))) (cR (cD (cM (cM (cH 0) (cA (cN 1) (cM (cN 2) (cH 0)))) (cV 1)) (cW (cA (cN 1) (cV 1)) 10)))) (cM (cN 2) (cR (cD (cM (cH 0) (cW (cV 1) 6)) (cM (cA (cN 1) (cM (cN 2) (cH 0))) (cW (cA (cN 1) (cV 1)) 10)))))) (cM (cN 3) (cR (cD (cM (cH 0) (cV 1)) (cM (cA (cN 1) (cM (cN 2) (cH 0))) (cW (cA (cN 1) (cV 1)) 6)))))) (cR (cD (cM (cM (cH 0) (cA (cN 1) (cM (cN 2) (cH 0)))) (cV 1)) (cW (cA (cN 1) (cV 1)) 6)))) (cM (cN 2) (cR (cD (cH 0) (cM (cW (cA (cN 1) (cV 1)) 10) (cA (cV 1) (cM (cM (cN 2) (cH 0)) (cV 1)))))))) (cR (cD (cH 0) (cM (cW (cA (cN 1) (cV 1)) 6) (cA (cV 1) (cM (cM (cN 2) (cH 0)) (cV 1)))))))) (cM (cR (cN 2)) (cA (cN 1) (cH 0)))).
Definition SPSU2T_e968 := (cD (cA (cA (cB (cB (cA (cD (cM (cN (-2)) (cR (cD (cM (cH 0) (cV 1)) (cM (cA (cN 1) (cM (cN 2) (cH 0))) (cW (cA (cN 1) (cV 1)) 6))))) (cM (cA (cN 1) (cH 0)) (cA (cN 3) (cM (cN 2) (cV 1))))) (cD (cM (cH 0) (cV 1)) (cM (cM (cA (cN 1) (cH 0)) (cA (cN 1) (cV 1))) (cR (cM (cM (cM (cM (cH 0) (cA (cN 1) (cM (cN 2) (cH 0)))) (cV 1)) (cA (cN 1) (cV 1))) (cW (cA (cN 3) (cM (cN 2) (cV 1))) 4)))))) (cD (cM (cV 1) (cA (cM (cN 2) (cR (cD (cH 0) (cM (cM (cA (cN 1) (cM (cN 2) (cH 0))) (cV 1)) (cA (cN 3) (cM (cN 2) (cV 1))))))) (cR (cD (cM (cH 0) (cA (cN 1) (cM (cN 2) (cH 0)))) (cM (cV 1) (cA (cN 3) (cM (cN 2) (cV 1)))))))) (cM (cM (cA (cN 1) (cH 0)) (cA (cN 1) (cV 1))) (cR (cA (cA (cN 3) (cM (cN 5) (cV 1))) (cM (cN 2) (cW (cV 1) 4))))))) (cD (cM (cH 0) (cA (cR (cD (cM (cV 1) (cW (cA (cN 1) (cM (cN 2) (cV 1))) 4)) (cM (cM (cM (cH 0) (cW (cA (cN 1) (cH 0)) 4)) (cW (cA (cN 1) (cV 1)) 6)) (cW (cA (cN 3) (cM (cN 2) (cV 1))) 4)))) (cD (cM (cV 1) (cA (cN 1) (cM (cN 2) (cV 1)))) (cM (cM (cA (cN 1) (cH 0)) (cR (cM (cM (cH 0) (cV 1)) (cA (cN 1) (cV 1))))) (cA (cN 3) (cM (cN 2) (cV 1))))))) (cR (cA (cN 1) (cM (cN 2) (cH 0)))))) (cD (cM (cN 2) (cA (cA (cA (cR (cD (cM (cM (cH 0) (cA (cN 1) (cM (cN 2) (cH 0)))) (cA (cN 1) (cM (cN 2) (cV 1)))) (cA (cA (cN 3) (cM (cN 5) (cV 1))) (cM (cN 2) (cW (cV 1) 4))))) (cR (cD (cM (cM (cW (cH 0) 6) (cA (cN 1) (cM (cN 2) (cH 0)))) (cA (cN 1) (cM (cN 2) (cV 1)))) (cA (cA (cN 3) (cM (cN 5) (cV 1))) (cM (cN 2) (cW (cV 1) 4)))))) (cM (cM (cN 2) (cA (cN 1) (cH 0))) (cR (cD (cH 0) (cM (cA (cN 1) (cM (cN 2) (cH 0))) (cA (cA (cA (cN 3) (cM (cN 11) (cV 1))) (cM (cN 12) (cW (cV 1) 4))) (cM (cN 4) (cW (cV 1) 6)))))))) (cM (cM (cM (cN 4) (cA (cN 1) (cH 0))) (cV 1)) (cR (cD (cH 0) (cM (cA (cN 1) (cM (cN 2) (cH 0))) (cA (cA (cA (cN 3) (cM (cN 11) (cV 1))) (cM (cN 12) (cW (cV 1) 4))) (cM (cN 4) (cW (cV 1) 6))))))))) (cM (cW (cA (cN 1) (cH 0)) 4) (cR (cD (cM (cW (cA (cN 1) (cV 1)) 4) (cA (cA (cN 3) (cM (cN 8) (cV 1))) (cM (cN 4) (cW (cV 1) 4)))) (cV 1)))))) (cD (cA (cA (cA (cM (cW (cH 0) 4) (cR (cD (cM (cM (cA (cN 1) (cM (cN 2) (cH 0))) (cV 1)) (cW (cA (cN 1) (cM (cN 2) (cV 1))) 4)) (cM (cM (cM (cH 0) (cW (cA (cN 1) (cH 0)) 4)) (cW (cA (cN 1) (cV 1)) 6)) (cW (cA (cN 3) (cM (cN 2) (cV 1))) 4))))) (cD (cM (cM (cM (cW (cH 0) 3) (cV 1)) (cA (cN 1) (cM (cN 2) (cV 1)))) (cR (cD (cA (cN 1) (cM (cN 2) (cH 0))) (cA (cV 1) (cW (cV 1) 4))))) (cM (cA (cN 1) (cH 0)) (cA (cN 3) (cM (cN 2) (cV 1)))))) (cD (cA (cA (cA (cA (cM (cM (cN 2) (cA (cN 1) (cH 0))) (cR (cD (cM (cH 0) (cV 1)) (cM (cA (cN 1) (cM (cN 2) (cH 0))) (cW (cA (cN 1) (cV 1)) 6))))) (cM (cM (cN 4) (cA (cN 1) (cH 0))) (cR (cD (cM (cH 0) (cW (cV 1) 6)) (cM (cA (cN 1) (cM (cN 2) (cH 0))) (cW (cA (cN 1) (cV 1)) 6)))))) (cR (cD (cM (cM (cH 0) (cA (cN 1) (cM (cN 2) (cH 0)))) (cV 1)) (cA (cN 1) (cV 1))))) (cM (cN 2) (cR (cD (cM (cM (cH 0) (cA (cN 1) (cM (cN 2) (cH 0)))) (cW (cV 1) 6)) (cA (cN 1) (cV 1)))))) (cD (cM (cM (cN 2) (cV 1)) (cA (cN 1) (cM (cN 2) (cV 1)))) (cR (cD (cM (cM (cA (cN 1) (cM (cN 2) (cH 0))) (cV 1)) (cA (cN 1) (cV 1))) (cH 0))))) (cM (cA (cN 1) (cH 0)) (cA (cN 3) (cM (cN 2) (cV 1)))))) (cM (cH 0) (cA (cR (cD (cM (cM (cA (cN 1) (cM (cN 2) (cH 0))) (cV 1)) (cW (cA (cN 1) (cM (cN 2) (cV 1))) 4)) (cM (cM (cM (cH 0) (cW (cA (cN 1) (cH 0)) 4)) (cW (cA (cN 1) (cV 1)) 6)) (cW (cA (cN 3) (cM (cN 2) (cV 1))) 4)))) (cM (cM (cN 2) (cV 1)) (cR (cD (cM (cH 0) (cW (cA (cN 1) (cM (cN 2) (cV 1))) 4)) (cM (cM (cM (cW (cA (cN 1) (cH 0)) 4) (cA (cN 1) (cM (cN 2) (cH 0)))) (cW (cA (cN 3) (cM (cN 2) (cV 1))) 4)) (cA (cV 1) (cW (cV 1) 4))))))))) (cA (cN 1) (cH 0)))) (cM (cN 2) (cR (cN 2)))).
Definition SPSU2T_e969 := (cD (cA (cA (cA (cD (cR (cD (cV 1) (cW (cA (cN 1) (cV 1)) 6))) (cM (cA (cN 1) (cH 0)) (cA (cN 3) (cM (cN 2) (cV 1))))) (cD (cM (cA (cN 1) (cM (cN 2) (cH 0))) (cR (cV 1))) (cM (cM (cA (cN 1) (cH 0)) (cW (cA (cN 1) (cV 1)) 3)) (cA (cN 3) (cM (cN 2) (cV 1)))))) (cD (cM (cA (cN 1) (cM (cN 2) (cV 1))) (cA (cM (cN 2) (cR (cM (cM (cA (cA (cN 3) (cM (cN 5) (cH 0))) (cM (cN 2) (cW (cH 0) 4))) (cV 1)) (cA (cN 3) (cM (cN 2) (cV 1)))))) (cR (cM (cM (cA (cA (cN 3) (cM (cN 5) (cH 0))) (cM (cN 2) (cW (cH 0) 4))) (cW (cV 1) 6)) (cA (cN 3) (cM (cN 2) (cV 1))))))) (cM (cM (cM (cA (cN 1) (cH 0)) (cA (cN 1) (cV 1))) (cA (cN 3) (cM (cN 2) (cV 1)))) (cR (cM (cA (cA (cN 3) (cM (cN 5) (cH 0))) (cM (cN 2) (cW (cH 0) 4))) (cA (cA (cN 3) (cM (cN 5) (cV 1))) (cM (cN 2) (cW (cV 1) 4)))))))) (cD (cA (cA (cA (cD (cM (cA (cN 1) (cM (cN 2) (cH 0))) (cA (cN 1) (cM (cN 2) (cV 1)))) (cM (cA (cN 1) (cV 1)) (cR (cD (cM (cA (cA (cN 3) (cM (cN 5) (cH 0))) (cM (cN 2) (cW (cH 0) 4))) (cA (cN 3) (cM (cN 2) (cV 1)))) (cV 1))))) (cD (cM (cM (cM (cN 2) (cA (cN 1) (cM (cN 2) (cH 0)))) (cV 1)) (cA (cN 1) (cM (cN 2) (cV 1)))) (cR (cD (cM (cM (cA (cN 3) (cM (cN 2) (cH 0))) (cV 1)) (cA (cN 3) (cM (cN 2) (cV 1)))) (cA (cN 1) (cH 0)))))) (cD (cM (cM (cA (cN 1) (cM (cN 2) (cH 0))) (cV 1)) (cA (cN 1) (cM (cN 2) (cV 1)))) (cR (cM (cM (cA (cA (cN 3) (cM (cN 5) (cH 0))) (cM (cN 2) (cW (cH 0) 4))) (cV 1)) (cA (cN 3) (cM (cN 2) (cV 1))))))) (cD (cA (cN 2) (cM (cN 4) (cH 0))) (cR (cD (cM (cM (cA (cN 3) (cM (cN 2) (cH 0))) (cW (cA (cN 1) (cV 1)) 4)) (cA (cN 3) (cM (cN 2) (cV 1)))) (cM (cM (cA (cN 1) (cH 0)) (cV 1)) (cW (cA (cN 1) (cM (cN 2) (cV 1))) 4)))))) (cR (cM (cA (cA (cN 3) (cM (cN 5) (cH 0))) (cM (cN 2) (cW (cH 0) 4))) (cA (cA (cN 3) (cM (cN 5) (cV 1))) (cM (cN 2) (cW (cV 1) 4))))))) (cM (cN 2) (cR (cN 2)))).
Definition SPSU2T_e970 := (cD (cA (cA (cA (cA (cA (cR (cD (cM (cA (cN 1) (cM (cN 2) (cH 0))) (cA (cN 1) (cM (cN 2) (cV 1)))) (cM (cA (cN 1) (cH 0)) (cA (cN 3) (cM (cN 2) (cV 1)))))) (cD (cR (cD (cM (cA (cN 1) (cM (cN 2) (cH 0))) (cA (cN 1) (cM (cN 2) (cV 1)))) (cM (cA (cN 1) (cH 0)) (cA (cN 3) (cM (cN 2) (cV 1)))))) (cA (cN 1) (cV 1)))) (cD (cN 1) (cR (cD (cM (cA (cA (cN 1) (cM (cN 3) (cH 0))) (cM (cN 2) (cW (cH 0) 4))) (cA (cN 3) (cM (cN 2) (cV 1)))) (cA (cN 1) (cM (cN 2) (cV 1))))))) (cD (cN 1) (cR (cD (cM (cM (cA (cA (cN 1) (cM (cN 3) (cH 0))) (cM (cN 2) (cW (cH 0) 4))) (cW (cA (cN 1) (cV 1)) 4)) (cA (cN 3) (cM (cN 2) (cV 1)))) (cA (cN 1) (cM (cN 2) (cV 1))))))) (cD (cN 1) (cR (cD (cM (cM (cA (cN 1) (cH 0)) (cW (cA (cN 1) (cV 1)) 4)) (cA (cA (cN 3) (cM (cN 8) (cV 1))) (cM (cN 4) (cW (cV 1) 4)))) (cA (cN 1) (cM (cN 2) (cH 0))))))) (cD (cN 1) (cR (cM (cM (cA (cA (cN 1) (cM (cN 3) (cH 0))) (cM (cN 2) (cW (cH 0) 4))) (cW (cA (cN 1) (cV 1)) 4)) (cA (cA (cN 3) (cM (cN 8) (cV 1))) (cM (cN 4) (cW (cV 1) 4))))))) (cR (cN 3))).
Definition SPSU2T_e971 := (cD (cM (cV 1) (cA (cA (cB (cB (cA (cD (cA (cN (-1)) (cM (cN 2) (cV 1))) (cR (cD (cM (cM (cM (cM (cA (cN 1) (cH 0)) (cV 1)) (cW (cA (cN 1) (cV 1)) 6)) (cW (cA (cN 3) (cM (cN 2) (cV 1))) 4)) (cA (cN (-1)) (cM (cN 4) (cW (cV 1) 4)))) (cA (cN 1) (cM (cN 2) (cH 0)))))) (cD (cA (cN (-1)) (cM (cN 2) (cV 1))) (cR (cM (cM (cM (cM (cA (cA (cN 1) (cM (cN 3) (cH 0))) (cM (cN 2) (cW (cH 0) 4))) (cV 1)) (cW (cA (cN 1) (cV 1)) 6)) (cW (cA (cN 3) (cM (cN 2) (cV 1))) 4)) (cA (cN (-1)) (cM (cN 4) (cW (cV 1) 4))))))) (cD (cM (cM (cN 4) (cA (cN 2) (cV 1))) (cA (cN (-1)) (cM (cN 2) (cV 1)))) (cM (cM (cA (cN 1) (cV 1)) (cA (cN 3) (cM (cN 2) (cV 1)))) (cR (cD (cM (cM (cA (cN 1) (cH 0)) (cV 1)) (cA (cA (cB (cN (-1)) (cV 1)) (cM (cN 4) (cW (cV 1) 4))) (cM (cN 4) (cW (cV 1) 6)))) (cA (cN 1) (cM (cN 2) (cH 0)))))))) (cD (cM (cM (cN 4) (cA (cN 2) (cV 1))) (cA (cN (-1)) (cM (cN 2) (cV 1)))) (cM (cM (cA (cN 1) (cV 1)) (cA (cN 3) (cM (cN 2) (cV 1)))) (cR (cM (cM (cA (cA (cN 1) (cM (cN 3) (cH 0))) (cM (cN 2) (cW (cH 0) 4))) (cV 1)) (cA (cA (cB (cN (-1)) (cV 1)) (cM (cN 4) (cW (cV 1) 4))) (cM (cN 4) (cW (cV 1) 6)))))))) (cD (cA (cA (cA (cN (-10)) (cM (cN 11) (cV 1))) (cM (cN 16) (cW (cV 1) 4))) (cM (cN 4) (cW (cV 1) 6))) (cM (cM (cA (cN 1) (cV 1)) (cA (cN 1) (cM (cN 2) (cV 1)))) (cR (cD (cM (cM (cM (cA (cN 1) (cH 0)) (cV 1)) (cW (cA (cN 3) (cM (cN 2) (cV 1))) 4)) (cA (cA (cN (-1)) (cV 1)) (cM (cN 2) (cW (cV 1) 4)))) (cM (cA (cN 1) (cM (cN 2) (cH 0))) (cA (cN 1) (cM (cN 2) (cV 1))))))))) (cD (cA (cA (cA (cN (-10)) (cM (cN 11) (cV 1))) (cM (cN 16) (cW (cV 1) 4))) (cM (cN 4) (cW (cV 1) 6))) (cM (cM (cA (cN 1) (cV 1)) (cA (cN 3) (cM (cN 2) (cV 1)))) (cR (cM (cM (cA (cA (cN 1) (cM (cN 3) (cH 0))) (cM (cN 2) (cW (cH 0) 4))) (cV 1)) (cA (cA (cB (cN (-1)) (cV 1)) (cM (cN 4) (cW (cV 1) 4))) (cM (cN 4) (cW (cV 1) 6))))))))) (cM (cN 2) (cR (cN 6)))).
Definition SPSU2T_e972 := (cD (cA (cA (cA (cA (cB (cO (cD (cV 1) (cM (cR (cD (cM (cM (cA (cN 1) (cH 0)) (cV 1)) (cW (cA (cN 1) (cV 1)) 6)) (cM (cA (cN 1) (cM (cN 2) (cH 0))) (cW (cA (cN 1) (cM (cN 2) (cV 1))) 4)))) (cA (cN 3) (cM (cN 2) (cV 1)))))) (cD (cV 1) (cM (cR (cD (cM (cM (cA (cA (cN 1) (cM (cN 3) (cH 0))) (cM (cN 2) (cW (cH 0) 4))) (cV 1)) (cW (cA (cN 1) (cV 1)) 6)) (cW (cA (cN 1) (cM (cN 2) (cV 1))) 4))) (cA (cN 3) (cM (cN 2) (cV 1)))))) (cD (cM (cV 1) (cA (cA (cN (-1)) (cM (cN 5) (cV 1))) (cM (cN 2) (cW (cV 1) 4)))) (cM (cM (cA (cN 1) (cV 1)) (cR (cD (cM (cM (cA (cN 1) (cH 0)) (cV 1)) (cA (cN 1) (cV 1))) (cA (cN 1) (cM (cN 2) (cH 0)))))) (cA (cN 3) (cM (cN 2) (cV 1)))))) (cD (cM (cV 1) (cA (cA (cN (-1)) (cM (cN 5) (cV 1))) (cM (cN 2) (cW (cV 1) 4)))) (cM (cM (cA (cN 1) (cV 1)) (cR (cM (cM (cA (cA (cN 1) (cM (cN 3) (cH 0))) (cM (cN 2) (cW (cH 0) 4))) (cV 1)) (cA (cN 1) (cV 1))))) (cA (cN 3) (cM (cN 2) (cV 1)))))) (cD (cA (cA (cM (cN 4) (cR (cD (cM (cV 1) (cA (cN 1) (cM (cN 2) (cV 1)))) (cA (cN 1) (cV 1))))) (cR (cD (cM (cW (cV 1) 6) (cA (cN 1) (cM (cN 2) (cV 1)))) (cA (cN 1) (cV 1))))) (cM (cN 6) (cR (cD (cV 1) (cA (cA (cN 1) (cM (cN 3) (cV 1))) (cM (cN 2) (cW (cV 1) 4))))))) (cM (cR (cD (cA (cA (cN 1) (cM (cN 3) (cH 0))) (cM (cN 2) (cW (cH 0) 4))) (cA (cN 1) (cM (cN 2) (cV 1))))) (cA (cA (cA (cN 6) (cM (cN 13) (cV 1))) (cM (cN 9) (cW (cV 1) 4))) (cM (cN 2) (cW (cV 1) 6)))))) (cD (cA (cA (cM (cN 4) (cR (cD (cM (cV 1) (cA (cN 1) (cM (cN 2) (cV 1)))) (cA (cN 1) (cV 1))))) (cR (cD (cM (cW (cV 1) 6) (cA (cN 1) (cM (cN 2) (cV 1)))) (cA (cN 1) (cV 1))))) (cM (cN 6) (cR (cD (cV 1) (cA (cA (cN 1) (cM (cN 3) (cV 1))) (cM (cN 2) (cW (cV 1) 4))))))) (cM (cR (cD (cA (cN 1) (cH 0)) (cA (cA (cA (cN 1) (cM (cN 2) (cH 0))) (cM (cN 2) (cV 1))) (cM (cM (cN 4) (cH 0)) (cV 1))))) (cA (cA (cA (cN 6) (cM (cN 13) (cV 1))) (cM (cN 9) (cW (cV 1) 4))) (cM (cN 2) (cW (cV 1) 6)))))) (cM (cN 2) (cR (cN 2)))).
Definition SPSU2T_e973 := (cD (cB (cB (cA (cA (cB (cD (cM (cN 2) (cR (cD (cM (cH 0) (cV 1)) (cM (cA (cN 1) (cM (cN 2) (cH 0))) (cA (cA (cA (cN 3) (cM (cN 11) (cV 1))) (cM (cN 12) (cW (cV 1) 4))) (cM (cN 4) (cW (cV 1) 6))))))) (cA (cA (cA (cN 1) (cH 0)) (cV 1)) (cM (cH 0) (cV 1)))) (cD (cM (cH 0) (cV 1)) (cM (cM (cA (cN 1) (cH 0)) (cA (cN 1) (cV 1))) (cR (cM (cM (cM (cH 0) (cA (cN 1) (cM (cN 2) (cH 0)))) (cV 1)) (cA (cA (cA (cN 3) (cM (cN 11) (cV 1))) (cM (cN 12) (cW (cV 1) 4))) (cM (cN 4) (cW (cV 1) 6)))))))) (cD (cM (cM (cH 0) (cV 1)) (cA (cN 1) (cD (cN 1) (cA (cN 1) (cV 1))))) (cR (cD (cM (cM (cM (cM (cH 0) (cW (cA (cN 1) (cH 0)) 4)) (cA (cN 1) (cM (cN 2) (cH 0)))) (cV 1)) (cA (cA (cN 3) (cM (cN 5) (cV 1))) (cM (cN 2) (cW (cV 1) 4)))) (cA (cN 1) (cM (cN 2) (cV 1))))))) (cD (cM (cV 1) (cA (cR (cD (cM (cM (cH 0) (cA (cN 1) (cM (cN 2) (cH 0)))) (cA (cN 1) (cM (cN 2) (cV 1)))) (cM (cV 1) (cA (cN 1) (cV 1))))) (cM (cN 2) (cR (cD (cM (cH 0) (cA (cN 1) (cM (cN 2) (cV 1)))) (cM (cA (cN 1) (cM (cN 2) (cH 0))) (cA (cV 1) (cW (cV 1) 4)))))))) (cM (cM (cA (cN 1) (cH 0)) (cR (cA (cN 3) (cM (cN 2) (cV 1))))) (cA (cA (cN 1) (cM (cN 3) (cV 1))) (cM (cN 2) (cW (cV 1) 4)))))) (cD (cM (cN 2) (cA (cA (cA (cR (cD (cM (cM (cH 0) (cA (cN 1) (cM (cN 2) (cH 0)))) (cA (cN 1) (cM (cN 2) (cV 1)))) (cA (cN 1) (cV 1)))) (cR (cD (cM (cM (cW (cH 0) 6) (cA (cN 1) (cM (cN 2) (cH 0)))) (cA (cN 1) (cM (cN 2) (cV 1)))) (cA (cN 1) (cV 1))))) (cM (cM (cN 2) (cA (cN 1) (cH 0))) (cR (cD (cH 0) (cM (cA (cN 1) (cM (cN 2) (cH 0))) (cA (cA (cN 1) (cM (cN 3) (cV 1))) (cM (cN 2) (cW (cV 1) 4)))))))) (cM (cM (cM (cN 4) (cA (cN 1) (cH 0))) (cV 1)) (cR (cD (cH 0) (cM (cA (cN 1) (cM (cN 2) (cH 0))) (cA (cA (cN 1) (cM (cN 3) (cV 1))) (cM (cN 2) (cW (cV 1) 4))))))))) (cM (cW (cA (cN 1) (cH 0)) 4) (cR (cD (cM (cA (cN 3) (cM (cN 2) (cV 1))) (cW (cA (cA (cN 1) (cM (cN 3) (cV 1))) (cM (cN 2) (cW (cV 1) 4))) 4)) (cV 1)))))) (cD (cA (cA (cA (cA (cA (cA (cA (cM (cM (cN 2) (cA (cN 1) (cV 1))) (cR (cD (cM (cM (cH 0) (cV 1)) (cA (cN 1) (cM (cN 2) (cV 1)))) (cM (cA (cN 1) (cM (cN 2) (cH 0))) (cA (cA (cN 3) (cM (cN 5) (cV 1))) (cM (cN 2) (cW (cV 1) 4))))))) (cM (cM (cN 2) (cA (cN 1) (cV 1))) (cR (cD (cM (cM (cW (cH 0) 6) (cV 1)) (cA (cN 1) (cM (cN 2) (cV 1)))) (cM (cA (cN 1) (cM (cN 2) (cH 0))) (cA (cA (cN 3) (cM (cN 5) (cV 1))) (cM (cN 2) (cW (cV 1) 4)))))))) (cR (cD (cM (cM (cM (cH 0) (cA (cN 1) (cM (cN 2) (cH 0)))) (cV 1)) (cA (cN 1) (cM (cN 2) (cV 1)))) (cA (cA (cN 3) (cM (cN 5) (cV 1))) (cM (cN 2) (cW (cV 1) 4)))))) (cM (cA (cN 1) (cV 1)) (cR (cD (cM (cM (cM (cH 0) (cA (cN 1) (cM (cN 2) (cH 0)))) (cV 1)) (cA (cN 1) (cM (cN 2) (cV 1)))) (cA (cA (cN 3) (cM (cN 5) (cV 1))) (cM (cN 2) (cW (cV 1) 4))))))) (cR (cD (cM (cM (cM (cW (cH 0) 6) (cA (cN 1) (cM (cN 2) (cH 0)))) (cV 1)) (cA (cN 1) (cM (cN 2) (cV 1)))) (cA (cA (cN 3) (cM (cN 5) (cV 1))) (cM (cN 2) (cW (cV 1) 4)))))) (cM (cA (cN 1) (cV 1)) (cR (cD (cM (cM (cM (cW (cH 0) 6) (cA (cN 1) (cM (cN 2) (cH 0)))) (cV 1)) (cA (cN 1) (cM (cN 2) (cV 1)))) (cA (cA (cN 3) (cM (cN 5) (cV 1))) (cM (cN 2) (cW (cV 1) 4))))))) (cM (cM (cN 2) (cA (cN 1) (cH 0))) (cR (cD (cM (cH 0) (cV 1)) (cM (cA (cN 1) (cM (cN 2) (cH 0))) (cA (cA (cA (cN 3) (cM (cN 11) (cV 1))) (cM (cN 12) (cW (cV 1) 4))) (cM (cN 4) (cW (cV 1) 6)))))))) (cM (cM (cM (cN 4) (cA (cN 1) (cH 0))) (cV 1)) (cR (cD (cM (cH 0) (cV 1)) (cM (cA (cN 1) (cM (cN 2) (cH 0))) (cA (cA (cA (cN 3) (cM (cN 11) (cV 1))) (cM (cN 12) (cW (cV 1) 4))) (cM (cN 4) (cW (cV 1) 6)))))))) (cM (cW (cA (cN 1) (cH 0)) 4) (cA (cN 1) (cV 1))))) (cM (cN 2) (cR (cN 2)))).
Definition SPSU2T_e974 := (cD (cA (cA (cA (cA (cB (cD (cM (cM (cH 0) (cA (cN 2) (cV 1))) (cA (cN 1) (cM (cN 2) (cV 1)))) (cM (cM (cM (cA (cN 1) (cH 0)) (cA (cN 1) (cV 1))) (cA (cN 3) (cM (cN 2) (cV 1)))) (cR (cM (cM (cH 0) (cA (cN 1) (cM (cN 2) (cH 0)))) (cA (cA (cN 2) (cM (cN 3) (cV 1))) (cW (cV 1) 4)))))) (cD (cM (cM (cM (cH 0) (cA (cN 3) (cM (cN 2) (cH 0)))) (cA (cN 2) (cV 1))) (cA (cN 1) (cM (cN 2) (cV 1)))) (cM (cM (cM (cA (cN 1) (cH 0)) (cA (cN 1) (cV 1))) (cA (cN 3) (cM (cN 2) (cV 1)))) (cR (cM (cM (cH 0) (cA (cN 1) (cM (cN 2) (cH 0)))) (cA (cA (cN 2) (cM (cN 3) (cV 1))) (cW (cV 1) 4))))))) (cD (cM (cH 0) (cA (cA (cA (cN 2) (cM (cN 3) (cV 1))) (cM (cN 5) (cW (cV 1) 4))) (cM (cN 2) (cW (cV 1) 6)))) (cM (cM (cM (cA (cN 1) (cH 0)) (cW (cA (cN 1) (cV 1)) 3)) (cR (cM (cM (cH 0) (cA (cN 1) (cM (cN 2) (cH 0)))) (cA (cN 2) (cV 1))))) (cA (cN 3) (cM (cN 2) (cV 1)))))) (cD (cM (cA (cN 1) (cM (cN 2) (cV 1))) (cB (cB (cA (cD (cM (cA (cN (-1)) (cV 1)) (cR (cD (cM (cM (cH 0) (cA (cN 1) (cM (cN 2) (cH 0)))) (cA (cN 1) (cV 1))) (cA (cN 2) (cV 1))))) (cA (cN 1) (cV 1))) (cM (cM (cN 2) (cA (cN (-1)) (cV 1))) (cR (cD (cH 0) (cM (cA (cN 1) (cM (cN 2) (cH 0))) (cA (cA (cN 2) (cM (cN 3) (cV 1))) (cW (cV 1) 4))))))) (cM (cM (cM (cN 2) (cW (cA (cN 1) (cV 1)) 4)) (cA (cN 1) (cM (cN 2) (cV 1)))) (cR (cD (cH 0) (cM (cA (cN 1) (cM (cN 2) (cH 0))) (cA (cA (cN 2) (cM (cN 3) (cV 1))) (cW (cV 1) 4))))))) (cM (cM (cM (cH 0) (cW (cA (cN 1) (cV 1)) 4)) (cA (cN 1) (cM (cN 2) (cV 1)))) (cR (cD (cA (cN 1) (cM (cN 2) (cH 0))) (cM (cH 0) (cA (cA (cN 2) (cM (cN 3) (cV 1))) (cW (cV 1) 4)))))))) (cM (cA (cN 1) (cH 0)) (cA (cA (cA (cN 3) (cM (cN 11) (cV 1))) (cM (cN 12) (cW (cV 1) 4))) (cM (cN 4) (cW (cV 1) 6)))))) (cD (cM (cH 0) (cA (cD (cN 1) (cR (cD (cM (cM (cM (cH 0) (cA (cN 1) (cH 0))) (cW (cA (cN 3) (cM (cN 2) (cV 1))) 4)) (cA (cA (cN 2) (cM (cN 3) (cV 1))) (cW (cV 1) 4))) (cA (cN 1) (cM (cN 2) (cV 1)))))) (cD (cN 1) (cM (cR (cD (cM (cM (cH 0) (cA (cN 1) (cH 0))) (cA (cA (cN 2) (cM (cN 3) (cV 1))) (cW (cV 1) 4))) (cA (cN 1) (cM (cN 2) (cV 1))))) (cA (cA (cN 3) (cM (cN 5) (cV 1))) (cM (cN 2) (cW (cV 1) 4))))))) (cR (cD (cA (cA (cN 1) (cM (cN 3) (cH 0))) (cM (cN 2) (cW (cH 0) 4))) (cA (cN 1) (cM (cN 2) (cV 1))))))) (cD (cM (cA (cN 1) (cM (cN 2) (cV 1))) (cB (cB (cO (cD (cM (cH 0) (cA (cN 3) (cM (cN 2) (cH 0)))) (cM (cM (cW (cA (cN 1) (cV 1)) 4) (cA (cN 2) (cV 1))) (cR (cD (cM (cH 0) (cA (cN 1) (cM (cN 2) (cH 0)))) (cA (cA (cN 2) (cM (cN 3) (cV 1))) (cW (cV 1) 4))))))) (cD (cR (cD (cM (cW (cH 0) 6) (cA (cN 1) (cM (cN 2) (cH 0)))) (cA (cA (cN 2) (cM (cN 3) (cV 1))) (cW (cV 1) 4)))) (cA (cN 1) (cH 0)))) (cD (cA (cA (cM (cN 2) (cR (cD (cH 0) (cM (cA (cN 1) (cM (cN 2) (cH 0))) (cA (cA (cN 2) (cM (cN 3) (cV 1))) (cW (cV 1) 4)))))) (cM (cM (cN 2) (cH 0)) (cR (cD (cH 0) (cM (cA (cN 1) (cM (cN 2) (cH 0))) (cA (cA (cN 2) (cM (cN 3) (cV 1))) (cW (cV 1) 4))))))) (cR (cD (cM (cH 0) (cA (cN 1) (cM (cN 2) (cH 0)))) (cA (cA (cN 2) (cM (cN 3) (cV 1))) (cW (cV 1) 4))))) (cA (cN 1) (cH 0))))) (cM (cA (cN 1) (cH 0)) (cA (cN 3) (cM (cN 2) (cV 1)))))) (cM (cN 2) (cR (cN 2)))).
Definition SPSU2T_e975 := (cD (cB (cA (cB (cA (cA (cB (cO (cR (cD (cM (cV 1) (cA (cN 1) (cM (cN 2) (cV 1)))) (cM (cW (cA (cN 1) (cV 1)) 6) (cA (cN 3) (cM (cN 2) (cV 1))))))) (cR (cD (cM (cV 1) (cA (cN 1) (cM (cN 2) (cV 1)))) (cA (cA (cN 3) (cM (cN 5) (cV 1))) (cM (cN 2) (cW (cV 1) 4)))))) (cD (cM (cA (cN 1) (cM (cN 2) (cH 0))) (cR (cD (cM (cV 1) (cA (cA (cN 3) (cM (cN 5) (cV 1))) (cM (cN 2) (cW (cV 1) 4)))) (cA (cN 1) (cM (cN 2) (cV 1)))))) (cM (cW (cA (cN 1) (cV 1)) 4) (cA (cN 3) (cM (cN 2) (cV 1)))))) (cR (cD (cV 1) (cM (cW (cA (cN 1) (cV 1)) 6) (cA (cA (cN 3) (cM (cN 8) (cV 1))) (cM (cN 4) (cW (cV 1) 4))))))) (cD (cN 2) (cM (cA (cN 1) (cV 1)) (cR (cA (cA (cA (cN 11) (cD (cN 3) (cV 1))) (cM (cN 12) (cV 1))) (cM (cN 4) (cW (cV 1) 4))))))) (cD (cB (cN (-2)) (cM (cN 4) (cH 0))) (cM (cA (cN 1) (cV 1)) (cR (cA (cA (cA (cN 11) (cD (cN 3) (cV 1))) (cM (cN 12) (cV 1))) (cM (cN 4) (cW (cV 1) 4))))))) (cM (cA (cN 1) (cM (cN 2) (cH 0))) (cA (cR (cD (cM (cV 1) (cA (cN 1) (cM (cN 2) (cV 1)))) (cM (cW (cA (cN 1) (cV 1)) 6) (cA (cN 3) (cM (cN 2) (cV 1)))))) (cR (cD (cM (cV 1) (cA (cN 1) (cM (cN 2) (cV 1)))) (cA (cA (cN 3) (cM (cN 5) (cV 1))) (cM (cN 2) (cW (cV 1) 4)))))))) (cM (cM (cN 2) (cR (cN 2))) (cA (cN 1) (cH 0)))).
Definition SPSU2T_e976 := (cO (cD (cA (cN 2) (cV 1)) (cM (cR (cN 2)) (cR (cA (cA (cN 2) (cM (cN 3) (cV 1))) (cW (cV 1) 4)))))).
Definition SPSU2T_e977 := (cO (cM (cR (cN 2)) (cR (cD (cM (cH 0) (cA (cN (-1)) (cM (cN 2) (cV 1)))) (cM (cA (cN 1) (cM (cN 2) (cH 0))) (cA (cN 1) (cM (cN 2) (cV 1)))))))).
Definition SPSU2T_e978 := (cO (cD (cM (cR (cN 2)) (cA (cA (cM (cN 2) (cR (cD (cA (cH 0) (cM (cM (cN 2) (cH 0)) (cV 1))) (cA (cA (cA (cN 3) (cM (cN 6) (cH 0))) (cM (cN 2) (cV 1))) (cM (cM (cN 4) (cH 0)) (cV 1)))))) (cM (cV 1) (cR (cD (cA (cH 0) (cM (cM (cN 2) (cH 0)) (cV 1))) (cA (cA (cA (cN 3) (cM (cN 6) (cH 0))) (cM (cN 2) (cV 1))) (cM (cM (cN 4) (cH 0)) (cV 1))))))) (cR (cD (cH 0) (cM (cA (cN 1) (cM (cN 2) (cH 0))) (cA (cA (cN 3) (cM (cN 8) (cV 1))) (cM (cN 4) (cW (cV 1) 4)))))))) (cA (cN 1) (cV 1)))).
Definition SPSU2T_e979 := (cM (cA (cN 1) (cH 0)) (cR (cD (cA (cN (-2)) (cM (cN 4) (cV 1))) (cM (cA (cA (cN 1) (cM (cN 3) (cH 0))) (cM (cN 2) (cW (cH 0) 4))) (cA (cN 1) (cM (cN 2) (cV 1))))))).
Definition SPSU2T_e980 := (cD (cA (cA (cA (cA (cA (cR (cD (cM (cA (cN 1) (cM (cN 2) (cH 0))) (cA (cN 1) (cM (cN 2) (cV 1)))) (cM (cA (cN 1) (cH 0)) (cA (cN 3) (cM (cN 2) (cV 1)))))) (cD (cR (cD (cM (cA (cN 1) (cM (cN 2) (cH 0))) (cA (cN 1) (cM (cN 2) (cV 1)))) (cM (cA (cN 1) (cH 0)) (cA (cN 3) (cM (cN 2) (cV 1)))))) (cA (cN 1) (cV 1)))) (cD (cN 1) (cR (cD (cM (cA (cA (cN 1) (cM (cN 3) (cH 0))) (cM (cN 2) (cW (cH 0) 4))) (cA (cN 3) (cM (cN 2) (cV 1)))) (cA (cN 1) (cM (cN 2) (cV 1))))))) (cD (cN 1) (cR (cD (cM (cM (cA (cA (cN 1) (cM (cN 3) (cH 0))) (cM (cN 2) (cW (cH 0) 4))) (cW (cA (cN 1) (cV 1)) 4)) (cA (cN 3) (cM (cN 2) (cV 1)))) (cA (cN 1) (cM (cN 2) (cV 1))))))) (cD (cN 1) (cR (cD (cM (cM (cA (cN 1) (cH 0)) (cW (cA (cN 1) (cV 1)) 4)) (cA (cA (cN 3) (cM (cN 8) (cV 1))) (cM (cN 4) (cW (cV 1) 4)))) (cA (cN 1) (cM (cN 2) (cH 0))))))) (cD (cN 1) (cR (cM (cM (cA (cA (cN 1) (cM (cN 3) (cH 0))) (cM (cN 2) (cW (cH 0) 4))) (cW (cA (cN 1) (cV 1)) 4)) (cA (cA (cN 3) (cM (cN 8) (cV 1))) (cM (cN 4) (cW (cV 1) 4))))))) (cR (cN 2))).
Definition SPSU2T_e981 := (cM (cM (cR (cN 2)) (cA (cN (-2)) (cV 1))) (cR (cD (cH 0) (cM (cA (cN 1) (cM (cN 2) (cH 0))) (cA (cB (cN 2) (cM (cN 3) (cV 1))) (cW (cV 1) 4)))))).
Definition SPSU2T_e982 := (cM (cA (cN 1) (cV 1)) (cR (cD (cM (cH 0) (cA (cN (-3)) (cM (cN 2) (cV 1)))) (cM (cA (cN 1) (cM (cN 2) (cH 0))) (cA (cB (cB (cN 1) (cM (cN 2) (cV 1))) (cW (cV 1) 4)) (cM (cN 2) (cW (cV 1) 6))))))).
Definition SPSU2T_e983 := (cD (cA (cN 1) (cH 0)) (cR (cD (cM (cA (cA (cN 1) (cM (cN 3) (cH 0))) (cM (cN 2) (cW (cH 0) 4))) (cA (cN (-1)) (cM (cN 2) (cV 1)))) (cA (cN (-3)) (cM (cN 2) (cV 1)))))).
Definition SPSU2T_e984 := (cO (cM (cA (cN 1) (cV 1)) (cR (cD (cH 0) (cM (cA (cN 1) (cM (cN 2) (cH 0))) (cA (cN (-1)) (cW (cV 1) 4))))))).
Definition SPSU2T_e985 := (cD (cA (cN (-3)) (cV 1)) (cM (cR (cN 2)) (cR (cD (cM (cM (cA (cN 1) (cM (cN 2) (cH 0))) (cA (cN (-1)) (cV 1))) (cV 1)) (cH 0))))).
Definition SPSU2T_e986 := (cA (cA (cO (cD (cM (cR (cN 6)) (cA (cN (-1)) (cV 1))) (cM (cA (cN 1) (cV 1)) (cR (cD (cM (cM (cM (cA (cN 1) (cM (cN 2) (cH 0))) (cV 1)) (cA (cN 1) (cM (cN 2) (cV 1)))) (cA (cA (cN (-3)) (cV 1)) (cM (cN 2) (cW (cV 1) 4)))) (cH 0)))))) (cD (cM (cM (cR (cQ 3 2)) (cA (cA (cN (-7)) (cM (cN 5) (cV 1))) (cM (cN 2) (cW (cV 1) 4)))) (cR (cD (cH 0) (cM (cM (cA (cN 1) (cM (cN 2) (cH 0))) (cV 1)) (cA (cA (cB (cN (-3)) (cM (cN 5) (cV 1))) (cM (cN 4) (cW (cV 1) 4))) (cM (cN 4) (cW (cV 1) 6))))))) (cA (cN 1) (cV 1)))) (cM (cM (cM (cR (cN 3)) (cA (cN (-1)) (cM (cN 2) (cV 1)))) (cR (cD (cH 0) (cM (cM (cV 1) (cA (cA (cA (cN 2) (cM (cN 4) (cH 0))) (cM (cN 4) (cV 1))) (cM (cM (cN 8) (cH 0)) (cV 1)))) (cA (cA (cA (cN (-3)) (cV 1)) (cM (cN 8) (cW (cV 1) 4))) (cM (cN 4) (cW (cV 1) 6))))))) (cA (cA (cO (cM (cV 1) (cR (cD (cA (cN (-1)) (cM (cN 2) (cV 1))) (cA (cN (-1)) (cW (cV 1) 4)))))) (cM (cW (cV 1) 4) (cR (cD (cA (cN (-1)) (cM (cN 2) (cV 1))) (cA (cN (-1)) (cW (cV 1) 4)))))) (cM (cN 2) (cR (cD (cA (cB (cN 1) (cM (cN 3) (cV 1))) (cM (cN 2) (cW (cV 1) 4))) (cA (cN 1) (cV 1)))))))).
Definition SPSU2T_e987 := (cO (cD (cM (cA (cN 1) (cH 0)) (cA (cN 1) (cV 1))) (cM (cR (cN 2)) (cR (cM (cM (cA (cA (cN 1) (cM (cN 3) (cH 0))) (cM (cN 2) (cW (cH 0) 4))) (cV 1)) (cA (cN 1) (cV 1))))))).
Definition SPSU2T_e988 := (cA (cA (cB (cO (cD (cA (cN (-1)) (cV 1)) (cM (cM (cR (cN 2)) (cA (cN 1) (cV 1))) (cR (cD (cM (cM (cM (cM (cA (cN 1) (cH 0)) (cA (cN 1) (cM (cN 2) (cH 0)))) (cA (cN (-1)) (cV 1))) (cV 1)) (cA (cN 1) (cM (cN 2) (cV 1)))) (cA (cN (-1)) (cM (cN 2) (cV 1)))))))) (cD (cH 0) (cM (cM (cR (cN 2)) (cA (cN 1) (cV 1))) (cR (cD (cM (cM (cA (cA (cN 1) (cM (cN 3) (cH 0))) (cM (cN 2) (cW (cH 0) 4))) (cV 1)) (cA (cN 1) (cM (cN 2) (cV 1)))) (cA (cB (cN 1) (cM (cN 3) (cV 1))) (cM (cN 2) (cW (cV 1) 4)))))))) (cD (cM (cR (cD (cA (cN 1) (cM (cN 2) (cV 1))) (cA (cN 2) (cM (cN 4) (cH 0))))) (cA (cA (cO (cM (cV 1) (cR (cD (cA (cN (-1)) (cM (cN 2) (cV 1))) (cM (cM (cA (cN 1) (cH 0)) (cA (cN (-1)) (cV 1))) (cV 1)))))) (cM (cW (cV 1) 4) (cR (cD (cA (cN (-1)) (cM (cN 2) (cV 1))) (cM (cM (cA (cN 1) (cH 0)) (cA (cN (-1)) (cV 1))) (cV 1)))))) (cM (cN 2) (cR (cD (cA (cB (cN 1) (cM (cN 3) (cV 1))) (cM (cN 2) (cW (cV 1) 4))) (cA (cV 1) (cM (cH 0) (cV 1)))))))) (cA (cA (cN 1) (cM (cN 3) (cV 1))) (cM (cN 2) (cW (cV 1) 4))))) (cD (cM (cH 0) (cA (cA (cO (cR (cD (cM (cV 1) (cA (cN (-1)) (cM (cN 2) (cV 1)))) (cM (cA (cH 0) (cW (cH 0) 4)) (cA (cN (-1)) (cV 1)))))) (cR (cD (cM (cW (cV 1) 6) (cA (cN (-1)) (cM (cN 2) (cV 1)))) (cM (cA (cH 0) (cW (cH 0) 4)) (cA (cN (-1)) (cV 1)))))) (cM (cN 2) (cR (cD (cA (cB (cN 1) (cM (cN 3) (cV 1))) (cM (cN 2) (cW (cV 1) 4))) (cA (cM (cH 0) (cV 1)) (cM (cW (cH 0) 4) (cV 1)))))))) (cM (cR (cD (cA (cN 2) (cM (cN 4) (cH 0))) (cA (cH 0) (cM (cM (cN 2) (cH 0)) (cV 1))))) (cA (cA (cN 1) (cM (cN 3) (cV 1))) (cM (cN 2) (cW (cV 1) 4)))))).
Definition SPSU2T_e989 := (cO (cD (cM (cM (cM (cR (cQ 3 2)) (cH 0)) (cA (cN (-1)) (cV 1))) (cA (cN 3) (cM (cN 2) (cV 1)))) (cR (cM (cM (cM (cH 0) (cA (cN 1) (cM (cN 2) (cH 0)))) (cV 1)) (cA (cB (cN 3) (cM (cN 7) (cV 1))) (cM (cN 4) (cW (cV 1) 6))))))).
Definition SPSU2T_e990 := (cD (cA (cA (cD (cM (cM (cN (-3)) (cA (cN 2) (cV 1))) (cA (cN (-1)) (cM (cN 2) (cV 1)))) (cM (cR (cD (cM (cM (cA (cN 1) (cM (cN 2) (cH 0))) (cV 1)) (cA (cN 1) (cV 1))) (cH 0))) (cA (cA (cN 3) (cM (cN 5) (cV 1))) (cM (cN 2) (cW (cV 1) 4))))) (cD (cM (cN 3) (cA (cA (cB (cN (-7)) (cM (cN 6) (cV 1))) (cM (cN 3) (cW (cV 1) 4))) (cM (cN 2) (cW (cV 1) 6)))) (cR (cD (cM (cM (cM (cA (cN 1) (cM (cN 2) (cH 0))) (cV 1)) (cW (cA (cN 1) (cV 1)) 10)) (cW (cA (cN 3) (cM (cN 2) (cV 1))) 4)) (cH 0))))) (cD (cB (cB (cM (cN 6) (cR (cD (cM (cH 0) (cV 1)) (cA (cN 1) (cV 1))))) (cM (cN 9) (cR (cD (cM (cH 0) (cW (cV 1) 6)) (cA (cN 1) (cV 1)))))) (cM (cN 6) (cR (cD (cM (cH 0) (cW (cV 1) 10)) (cA (cN 1) (cV 1)))))) (cM (cM (cR (cA (cN 1) (cM (cN 2) (cH 0)))) (cV 1)) (cA (cA (cN 3) (cM (cN 5) (cV 1))) (cM (cN 2) (cW (cV 1) 4)))))) (cR (cN 2))).
Definition SPSU2T_e991 := (cM (cR (cQ 3 2)) (cA (cA (cD (cM (cM (cM (cN (-3)) (cA (cN 2) (cV 1))) (cA (cN (-1)) (cM (cN 2) (cV 1)))) (cR (cD (cH 0) (cM (cA (cN 1) (cM (cN 2) (cH 0))) (cA (cA (cN (-2)) (cM (cN 3) (cV 1))) (cM (cN 2) (cW (cV 1) 4))))))) (cW (cA (cA (cN 3) (cM (cN 5) (cV 1))) (cM (cN 2) (cW (cV 1) 4))) 3)) (cD (cM (cN 6) (cA (cA (cM (cN (-2)) (cR (cD (cM (cH 0) (cV 1)) (cA (cN 2) (cV 1))))) (cM (cN 3) (cR (cD (cM (cH 0) (cW (cV 1) 6)) (cA (cN 2) (cV 1)))))) (cM (cN 2) (cR (cD (cM (cH 0) (cW (cV 1) 10)) (cA (cN 2) (cV 1))))))) (cM (cA (cA (cN 3) (cM (cN 5) (cV 1))) (cM (cN 2) (cW (cV 1) 4))) (cR (cM (cM (cA (cN 1) (cM (cN 2) (cH 0))) (cV 1)) (cA (cA (cA (cN (-3)) (cV 1)) (cM (cN 8) (cW (cV 1) 4))) (cM (cN 4) (cW (cV 1) 6)))))))) (cD (cM (cV 1) (cA (cA (cA (cA (cM (cN (-30)) (cR (cD (cM (cH 0) (cV 1)) (cA (cN 2) (cV 1))))) (cM (cM (cN 13) (cV 1)) (cR (cD (cM (cH 0) (cV 1)) (cA (cN 2) (cV 1)))))) (cM (cN 70) (cR (cD (cM (cH 0) (cW (cV 1) 10)) (cA (cN 2) (cV 1)))))) (cM (cN 44) (cR (cD (cM (cH 0) (cW (cV 1) 14)) (cA (cN 2) (cV 1)))))) (cM (cN 8) (cR (cD (cM (cH 0) (cW (cV 1) 18)) (cA (cN 2) (cV 1))))))) (cM (cM (cA (cN 1) (cV 1)) (cW (cA (cN 3) (cM (cN 2) (cV 1))) 4)) (cR (cM (cM (cA (cN 1) (cM (cN 2) (cH 0))) (cV 1)) (cA (cA (cA (cN (-3)) (cV 1)) (cM (cN 8) (cW (cV 1) 4))) (cM (cN 4) (cW (cV 1) 6))))))))).
Definition SPSU2T_e992 := (cO (cD (cR (cM (cV 1) (cA (cA (cA (cN (-3)) (cV 1)) (cM (cN 8) (cW (cV 1) 4))) (cM (cN 4) (cW (cV 1) 6))))) (cM (cR (cN 6)) (cA (cV 1) (cW (cV 1) 4))))).
Definition SPSU2T_e993 := (cD (cB (cA (cR (cD (cM (cV 1) (cA (cN (-1)) (cM (cN 2) (cV 1)))) (cW (cA (cA (cN 3) (cM (cN 5) (cV 1))) (cM (cN 2) (cW (cV 1) 4))) 6))) (cD (cM (cA (cA (cN 10) (cM (cN 9) (cV 1))) (cM (cN 2) (cW (cV 1) 4))) (cR (cM (cV 1) (cA (cA (cA (cN (-3)) (cV 1)) (cM (cN 8) (cW (cV 1) 4))) (cM (cN 4) (cW (cV 1) 6)))))) (cM (cW (cA (cN 1) (cV 1)) 4) (cW (cA (cN 3) (cM (cN 2) (cV 1))) 4)))) (cD (cM (cN 4) (cA (cM (cN 2) (cR (cM (cV 1) (cA (cA (cA (cN (-3)) (cV 1)) (cM (cN 8) (cW (cV 1) 4))) (cM (cN 4) (cW (cV 1) 6)))))) (cR (cM (cW (cV 1) 6) (cA (cA (cA (cN (-3)) (cV 1)) (cM (cN 8) (cW (cV 1) 4))) (cM (cN 4) (cW (cV 1) 6))))))) (cW (cA (cA (cN 3) (cM (cN 5) (cV 1))) (cM (cN 2) (cW (cV 1) 4))) 4))) (cR (cN 6))).
Definition SPSU2T_e994 := (cD (cA (cR (cM (cM (cM (cH 0) (cA (cA (cN 1) (cM (cN 3) (cH 0))) (cM (cN 2) (cW (cH 0) 4)))) (cV 1)) (cA (cA (cA (cN (-3)) (cV 1)) (cM (cN 8) (cW (cV 1) 4))) (cM (cN 4) (cW (cV 1) 6))))) (cR (cM (cM (cM (cW (cH 0) 6) (cA (cA (cN 1) (cM (cN 3) (cH 0))) (cM (cN 2) (cW (cH 0) 4)))) (cV 1)) (cA (cA (cA (cN (-3)) (cV 1)) (cM (cN 8) (cW (cV 1) 4))) (cM (cN 4) (cW (cV 1) 6)))))) (cM (cM (cM (cM (cR (cN 6)) (cR (cH 0))) (cA (cA (cN 1) (cM (cN 3) (cH 0))) (cM (cN 2) (cW (cH 0) 4)))) (cV 1)) (cA (cN (-1)) (cM (cN 2) (cV 1))))).
Definition SPSU2T_e995 := (cD (cA (cB (cA (cB (cA (cD (cM (cV 1) (cA (cN (-1)) (cM (cN 2) (cV 1)))) (cM (cW (cA (cN 1) (cV 1)) 3) (cR (cM (cM (cA (cA (cN 1) (cM (cN 3) (cH 0))) (cM (cN 2) (cW (cH 0) 4))) (cV 1)) (cA (cA (cN (-3)) (cM (cN 4) (cV 1))) (cM (cN 4) (cW (cV 1) 4))))))) (cD (cM (cM (cH 0) (cV 1)) (cA (cN (-1)) (cM (cN 2) (cV 1)))) (cM (cW (cA (cN 1) (cV 1)) 3) (cR (cM (cM (cA (cA (cN 1) (cM (cN 3) (cH 0))) (cM (cN 2) (cW (cH 0) 4))) (cV 1)) (cA (cA (cN (-3)) (cM (cN 4) (cV 1))) (cM (cN 4) (cW (cV 1) 4)))))))) (cD (cM (cH 0) (cA (cA (cB (cN 3) (cM (cN 9) (cV 1))) (cM (cN 4) (cW (cV 1) 4))) (cM (cN 4) (cW (cV 1) 6)))) (cR (cM (cM (cM (cA (cA (cN 1) (cM (cN 3) (cH 0))) (cM (cN 2) (cW (cH 0) 4))) (cV 1)) (cW (cA (cN 1) (cV 1)) 6)) (cA (cA (cN (-3)) (cM (cN 4) (cV 1))) (cM (cN 4) (cW (cV 1) 4))))))) (cD (cB (cB (cN 6) (cM (cN 9) (cV 1))) (cM (cN 6) (cW (cV 1) 4))) (cM (cA (cN 1) (cV 1)) (cR (cM (cM (cA (cA (cN 1) (cM (cN 3) (cH 0))) (cM (cN 2) (cW (cH 0) 4))) (cV 1)) (cA (cA (cA (cN (-3)) (cV 1)) (cM (cN 8) (cW (cV 1) 4))) (cM (cN 4) (cW (cV 1) 6)))))))) (cD (cM (cM (cN 3) (cH 0)) (cA (cA (cN (-2)) (cM (cN 3) (cV 1))) (cM (cN 2) (cW (cV 1) 4)))) (cM (cA (cN 1) (cV 1)) (cR (cM (cM (cA (cA (cN 1) (cM (cN 3) (cH 0))) (cM (cN 2) (cW (cH 0) 4))) (cV 1)) (cA (cA (cA (cN (-3)) (cV 1)) (cM (cN 8) (cW (cV 1) 4))) (cM (cN 4) (cW (cV 1) 6)))))))) (cD (cB (cB (cA (cN (-3)) (cM (cN 9) (cV 1))) (cM (cN 4) (cW (cV 1) 4))) (cM (cN 4) (cW (cV 1) 6))) (cM (cA (cN 1) (cV 1)) (cR (cM (cM (cA (cA (cN 1) (cM (cN 3) (cH 0))) (cM (cN 2) (cW (cH 0) 4))) (cV 1)) (cA (cA (cA (cN (-3)) (cV 1)) (cM (cN 8) (cW (cV 1) 4))) (cM (cN 4) (cW (cV 1) 6)))))))) (cR (cN 6))).
Definition SPSU2T_e996 := (cD (cA (cA (cA (cA (cA (cR (cD (cM (cV 1) (cA (cN (-1)) (cM (cN 2) (cV 1)))) (cM (cA (cA (cN 1) (cM (cN 3) (cH 0))) (cM (cN 2) (cW (cH 0) 4))) (cW (cA (cA (cN 3) (cM (cN 5) (cV 1))) (cM (cN 2) (cW (cV 1) 4))) 6)))) (cM (cH 0) (cR (cD (cM (cV 1) (cA (cN (-1)) (cM (cN 2) (cV 1)))) (cM (cA (cA (cN 1) (cM (cN 3) (cH 0))) (cM (cN 2) (cW (cH 0) 4))) (cW (cA (cA (cN 3) (cM (cN 5) (cV 1))) (cM (cN 2) (cW (cV 1) 4))) 6)))))) (cD (cM (cM (cH 0) (cV 1)) (cA (cA (cA (cN (-10)) (cM (cN 11) (cV 1))) (cM (cN 16) (cW (cV 1) 4))) (cM (cN 4) (cW (cV 1) 6)))) (cM (cM (cA (cN 1) (cV 1)) (cA (cN 3) (cM (cN 2) (cV 1)))) (cR (cM (cM (cA (cA (cN 1) (cM (cN 3) (cH 0))) (cM (cN 2) (cW (cH 0) 4))) (cV 1)) (cA (cA (cA (cN (-3)) (cV 1)) (cM (cN 8) (cW (cV 1) 4))) (cM (cN 4) (cW (cV 1) 6)))))))) (cD (cM (cM (cV 1) (cA (cN (-1)) (cM (cN 2) (cV 1)))) (cA (cA (cM (cN 6) (cR (cD (cH 0) (cA (cN 1) (cM (cN 2) (cV 1)))))) (cM (cN 4) (cR (cA (cH 0) (cM (cM (cN 2) (cH 0)) (cV 1)))))) (cM (cV 1) (cR (cA (cH 0) (cM (cM (cN 2) (cH 0)) (cV 1))))))) (cM (cM (cA (cN 1) (cV 1)) (cA (cN 3) (cM (cN 2) (cV 1)))) (cR (cD (cM (cM (cM (cH 0) (cA (cA (cN 1) (cM (cN 3) (cH 0))) (cM (cN 2) (cW (cH 0) 4)))) (cV 1)) (cA (cA (cA (cN (-3)) (cV 1)) (cM (cN 8) (cW (cV 1) 4))) (cM (cN 4) (cW (cV 1) 6)))) (cA (cN 1) (cM (cN 2) (cV 1)))))))) (cD (cM (cM (cH 0) (cA (cN (-1)) (cM (cN 2) (cV 1)))) (cB (cM (cN (-6)) (cR (cD (cV 1) (cM (cM (cM (cH 0) (cA (cN 1) (cH 0))) (cA (cN (-1)) (cM (cN 2) (cV 1)))) (cW (cA (cA (cN 3) (cM (cN 5) (cV 1))) (cM (cN 2) (cW (cV 1) 4))) 6))))) (cD (cM (cM (cN 2) (cV 1)) (cA (cN 1) (cM (cN 2) (cV 1)))) (cM (cR (cM (cM (cM (cH 0) (cA (cN 1) (cH 0))) (cV 1)) (cA (cN (-1)) (cM (cN 2) (cV 1))))) (cW (cA (cA (cN 3) (cM (cN 5) (cV 1))) (cM (cN 2) (cW (cV 1) 4))) 3))))) (cR (cA (cN 2) (cD (cN 1) (cH 0)))))) (cD (cM (cA (cN (-1)) (cM (cN 2) (cV 1))) (cB (cM (cN (-6)) (cR (cD (cV 1) (cM (cW (cA (cA (cN 3) (cM (cN 5) (cV 1))) (cM (cN 2) (cW (cV 1) 4))) 6) (cA (cN (-1)) (cM (cN 4) (cW (cV 1) 4))))))) (cD (cM (cN 2) (cR (cD (cM (cV 1) (cA (cN 1) (cM (cN 2) (cV 1)))) (cA (cA (cA (cN (-3)) (cV 1)) (cM (cN 8) (cW (cV 1) 4))) (cM (cN 4) (cW (cV 1) 6)))))) (cA (cA (cN 3) (cM (cN 5) (cV 1))) (cM (cN 2) (cW (cV 1) 4)))))) (cR (cD (cA (cA (cN 1) (cM (cN 3) (cH 0))) (cM (cN 2) (cW (cH 0) 4))) (cA (cN 1) (cM (cN 2) (cV 1))))))) (cR (cN 6))).
Definition SPSU2T_e997 := (cM (cR (cQ 3 2)) (cB (cB (cD (cM (cM (cM (cN 3) (cH 0)) (cA (cN 2) (cV 1))) (cA (cN (-1)) (cM (cN 2) (cV 1)))) (cM (cA (cA (cN 3) (cM (cN 5) (cV 1))) (cM (cN 2) (cW (cV 1) 4))) (cR (cM (cM (cH 0) (cA (cN 1) (cM (cN 2) (cH 0)))) (cA (cA (cA (cB (cN (-2)) (cM (cN 3) (cV 1))) (cM (cN 7) (cW (cV 1) 4))) (cM (cN 12) (cW (cV 1) 6))) (cM (cN 4) (cW (cV 1) 8))))))) (cD (cM (cN 6) (cA (cB (cM (cN 2) (cR (cD (cM (cM (cH 0) (cV 1)) (cA (cN (-1)) (cM (cN 2) (cV 1)))) (cA (cA (cN 3) (cM (cN 8) (cV 1))) (cM (cN 4) (cW (cV 1) 4)))))) (cR (cD (cM (cH 0) (cW (cV 1) 6)) (cA (cA (cB (cN (-3)) (cM (cN 2) (cV 1))) (cM (cN 12) (cW (cV 1) 4))) (cM (cN 8) (cW (cV 1) 6)))))) (cM (cN 2) (cR (cD (cM (cH 0) (cW (cV 1) 10)) (cA (cA (cB (cN (-3)) (cM (cN 2) (cV 1))) (cM (cN 12) (cW (cV 1) 4))) (cM (cN 8) (cW (cV 1) 6)))))))) (cM (cA (cN 1) (cV 1)) (cR (cM (cM (cA (cN 1) (cM (cN 2) (cH 0))) (cV 1)) (cA (cA (cA (cN 6) (cM (cN 13) (cV 1))) (cM (cN 9) (cW (cV 1) 4))) (cM (cN 2) (cW (cV 1) 6)))))))) (cD (cM (cM (cV 1) (cA (cN (-1)) (cM (cN 2) (cV 1)))) (cA (cA (cM (cN 9) (cR (cD (cH 0) (cA (cN 1) (cV 1))))) (cR (cM (cH 0) (cA (cN 1) (cV 1))))) (cM (cM (cN 2) (cV 1)) (cA (cM (cN 3) (cR (cD (cH 0) (cA (cN 1) (cV 1))))) (cR (cM (cH 0) (cA (cN 1) (cV 1)))))))) (cM (cA (cA (cN 3) (cM (cN 5) (cV 1))) (cM (cN 2) (cW (cV 1) 4))) (cR (cM (cA (cN 1) (cM (cN 2) (cH 0))) (cA (cA (cB (cN (-2)) (cV 1)) (cM (cN 8) (cW (cV 1) 4))) (cM (cN 4) (cW (cV 1) 6))))))))).
Definition SPSU2T_e998 := (cD (cB (cB (cD (cM (cM (cM (cN (-3)) (cH 0)) (cW (cV 1) 3)) (cA (cN 5) (cM (cN 2) (cV 1)))) (cM (cA (cN 3) (cM (cN 2) (cV 1))) (cR (cM (cM (cM (cH 0) (cA (cN 1) (cM (cN 2) (cH 0)))) (cV 1)) (cA (cA (cN 2) (cM (cN 3) (cV 1))) (cW (cV 1) 4)))))) (cD (cM (cH 0) (cA (cA (cB (cN 12) (cM (cN 7) (cV 1))) (cW (cV 1) 4)) (cM (cN 2) (cW (cV 1) 6)))) (cR (cM (cM (cM (cH 0) (cA (cN 1) (cM (cN 2) (cH 0)))) (cW (cA (cN 3) (cM (cN 2) (cV 1))) 4)) (cA (cA (cN 2) (cM (cN 3) (cV 1))) (cW (cV 1) 4)))))) (cD (cM (cM (cN 3) (cV 1)) (cA (cA (cM (cN 4) (cR (cD (cM (cM (cH 0) (cV 1)) (cA (cN 1) (cM (cN 2) (cV 1)))) (cA (cN 3) (cM (cN 2) (cV 1)))))) (cM (cV 1) (cR (cD (cM (cM (cH 0) (cV 1)) (cA (cN 1) (cM (cN 2) (cV 1)))) (cA (cN 3) (cM (cN 2) (cV 1))))))) (cM (cN 6) (cR (cD (cM (cH 0) (cV 1)) (cA (cA (cN 3) (cM (cN 8) (cV 1))) (cM (cN 4) (cW (cV 1) 4)))))))) (cM (cA (cN 2) (cV 1)) (cR (cD (cM (cM (cA (cN 1) (cM (cN 2) (cH 0))) (cV 1)) (cA (cA (cA (cN 6) (cM (cN 13) (cV 1))) (cM (cN 9) (cW (cV 1) 4))) (cM (cN 2) (cW (cV 1) 6)))) (cA (cN 1) (cM (cN 2) (cV 1)))))))) (cM (cR (cN 2)) (cA (cN 1) (cV 1)))).
Definition SPSU2T_e999 := (cD (cM (cH 0) (cV 1)) (cR (cM (cM (cM (cH 0) (cA (cN 1) (cM (cN 2) (cH 0)))) (cV 1)) (cA (cN 2) (cV 1))))).
Definition SPSU2T_e1000 := (cD (cA (cA (cD (cM (cM (cN 3) (cA (cN 2) (cV 1))) (cR (cD (cA (cN 1) (cM (cN 2) (cV 1))) (cA (cA (cA (cN 6) (cM (cN 13) (cV 1))) (cM (cN 9) (cW (cV 1) 4))) (cM (cN 2) (cW (cV 1) 6)))))) (cA (cA (cN 1) (cM (cN 3) (cV 1))) (cM (cN 2) (cW (cV 1) 4)))) (cD (cM (cM (cN 2) (cV 1)) (cA (cA (cM (cN 3) (cR (cD (cM (cH 0) (cV 1)) (cW (cA (cN 1) (cM (cN 2) (cV 1))) 6)))) (cM (cN 6) (cR (cD (cM (cH 0) (cW (cV 1) 6)) (cW (cA (cN 1) (cM (cN 2) (cV 1))) 6))))) (cR (cM (cM (cH 0) (cV 1)) (cA (cN 1) (cM (cN 2) (cV 1))))))) (cM (cA (cN 1) (cV 1)) (cR (cM (cM (cM (cM (cH 0) (cV 1)) (cA (cN 1) (cV 1))) (cA (cN 2) (cV 1))) (cA (cN 3) (cM (cN 2) (cV 1)))))))) (cD (cM (cV 1) (cA (cA (cR (cD (cM (cH 0) (cV 1)) (cM (cW (cA (cN 1) (cV 1)) 4) (cA (cN 1) (cM (cN 2) (cV 1)))))) (cM (cM (cN 2) (cV 1)) (cR (cD (cM (cH 0) (cV 1)) (cM (cW (cA (cN 1) (cV 1)) 4) (cA (cN 1) (cM (cN 2) (cV 1)))))))) (cR (cM (cM (cH 0) (cV 1)) (cA (cN 1) (cM (cN 2) (cV 1))))))) (cR (cM (cM (cM (cM (cH 0) (cV 1)) (cA (cN 1) (cV 1))) (cA (cN 2) (cV 1))) (cA (cN 3) (cM (cN 2) (cV 1))))))) (cR (cN 2))).
Definition SPSU2T_e1001 := (cD (cA (cM (cN 3) (cR (cD (cM (cA (cA (cN 1) (cM (cN 3) (cH 0))) (cM (cN 2) (cW (cH 0) 4))) (cA (cA (cA (cN 6) (cM (cN 13) (cV 1))) (cM (cN 9) (cW (cV 1) 4))) (cM (cN 2) (cW (cV 1) 6)))) (cA (cN 1) (cM (cN 2) (cV 1)))))) (cM (cV 1) (cA (cM (cN 4) (cR (cD (cM (cA (cA (cN 1) (cM (cN 3) (cH 0))) (cM (cN 2) (cW (cH 0) 4))) (cA (cA (cA (cN 6) (cM (cN 13) (cV 1))) (cM (cN 9) (cW (cV 1) 4))) (cM (cN 2) (cW (cV 1) 6)))) (cA (cN 1) (cM (cN 2) (cV 1)))))) (cR (cM (cA (cA (cN 1) (cM (cN 3) (cH 0))) (cM (cN 2) (cW (cH 0) 4))) (cA (cA (cA (cA (cN 6) (cM (cN 25) (cV 1))) (cM (cN 35) (cW (cV 1) 4))) (cM (cN 20) (cW (cV 1) 6))) (cM (cN 4) (cW (cV 1) 8)))))))) (cM (cM (cM (cR (cN 2)) (cA (cN 1) (cM (cN 2) (cH 0)))) (cW (cA (cN 1) (cV 1)) 4)) (cA (cN 3) (cM (cN 2) (cV 1))))).
Definition SPSU2T_e1002 := (cD (cB (cB (cA (cB (cA (cD (cM (cV 1) (cA (cN 1) (cM (cN 2) (cV 1)))) (cM (cM (cA (cN 1) (cV 1)) (cR (cM (cM (cA (cA (cN 1) (cM (cN 3) (cH 0))) (cM (cN 2) (cW (cH 0) 4))) (cV 1)) (cA (cN 1) (cV 1))))) (cA (cN 3) (cM (cN 2) (cV 1))))) (cD (cM (cM (cH 0) (cV 1)) (cA (cN 1) (cM (cN 2) (cV 1)))) (cM (cM (cA (cN 1) (cV 1)) (cR (cM (cM (cA (cA (cN 1) (cM (cN 3) (cH 0))) (cM (cN 2) (cW (cH 0) 4))) (cV 1)) (cA (cN 1) (cV 1))))) (cA (cN 3) (cM (cN 2) (cV 1)))))) (cD (cM (cH 0) (cA (cN 5) (cM (cN 2) (cV 1)))) (cM (cM (cR (cD (cA (cA (cN 1) (cM (cN 3) (cH 0))) (cM (cN 2) (cW (cH 0) 4))) (cV 1))) (cW (cA (cN 1) (cV 1)) 3)) (cA (cN 3) (cM (cN 2) (cV 1)))))) (cD (cB (cB (cN 1) (cM (cN 5) (cV 1))) (cM (cN 2) (cW (cV 1) 4))) (cM (cM (cR (cD (cA (cA (cN 1) (cM (cN 3) (cH 0))) (cM (cN 2) (cW (cH 0) 4))) (cV 1))) (cW (cA (cN 1) (cV 1)) 3)) (cA (cN 3) (cM (cN 2) (cV 1)))))) (cD (cA (cA (cM (cN 4) (cR (cD (cM (cM (cH 0) (cV 1)) (cA (cN 1) (cM (cN 2) (cV 1)))) (cA (cA (cN 6) (cM (cN 7) (cV 1))) (cM (cN 2) (cW (cV 1) 4)))))) (cM (cV 1) (cR (cD (cM (cM (cH 0) (cV 1)) (cA (cN 1) (cM (cN 2) (cV 1)))) (cA (cA (cN 6) (cM (cN 7) (cV 1))) (cM (cN 2) (cW (cV 1) 4))))))) (cM (cN 6) (cR (cD (cM (cH 0) (cV 1)) (cA (cA (cA (cN 6) (cM (cN 19) (cV 1))) (cM (cN 16) (cW (cV 1) 4))) (cM (cN 4) (cW (cV 1) 6))))))) (cM (cA (cN 1) (cV 1)) (cR (cD (cM (cM (cH 0) (cA (cA (cN 1) (cM (cN 3) (cH 0))) (cM (cN 2) (cW (cH 0) 4)))) (cA (cA (cA (cN 6) (cM (cN 13) (cV 1))) (cM (cN 9) (cW (cV 1) 4))) (cM (cN 2) (cW (cV 1) 6)))) (cA (cN 1) (cM (cN 2) (cV 1)))))))) (cD (cM (cM (cH 0) (cV 1)) (cA (cA (cM (cA (cN 1) (cV 1)) (cR (cD (cA (cN 1) (cM (cN 2) (cV 1))) (cM (cA (cN 1) (cH 0)) (cA (cA (cN 6) (cM (cN 7) (cV 1))) (cM (cN 2) (cW (cV 1) 4))))))) (cD (cM (cN 2) (cV 1)) (cR (cD (cM (cM (cA (cN 1) (cH 0)) (cW (cA (cN 1) (cV 1)) 4)) (cA (cA (cN 6) (cM (cN 7) (cV 1))) (cM (cN 2) (cW (cV 1) 4)))) (cA (cN 1) (cM (cN 2) (cV 1))))))) (cD (cM (cN 3) (cA (cN (-1)) (cV 1))) (cM (cA (cN 1) (cV 1)) (cR (cM (cA (cN 1) (cH 0)) (cA (cA (cA (cN 6) (cM (cN 19) (cV 1))) (cM (cN 16) (cW (cV 1) 4))) (cM (cN 4) (cW (cV 1) 6))))))))) (cR (cD (cM (cM (cA (cN 1) (cM (cN 2) (cH 0))) (cV 1)) (cA (cA (cA (cN 6) (cM (cN 13) (cV 1))) (cM (cN 9) (cW (cV 1) 4))) (cM (cN 2) (cW (cV 1) 6)))) (cA (cN 1) (cM (cN 2) (cV 1))))))) (cR (cN 2))).
Definition SPSU2T_e1003 := (cA (cB (cD (cM (cM (cV 1) (cA (cA (cN (-15)) (cM (cN 4) (cV 1))) (cM (cN 4) (cW (cV 1) 4)))) (cR (cD (cH 0) (cM (cM (cA (cN 1) (cM (cN 2) (cH 0))) (cV 1)) (cA (cA (cA (cN 30) (cM (cN 47) (cV 1))) (cM (cN 24) (cW (cV 1) 4))) (cM (cN 4) (cW (cV 1) 6))))))) (cM (cA (cN 1) (cV 1)) (cA (cN 3) (cM (cN 2) (cV 1))))) (cM (cR (cD (cH 0) (cA (cN 1) (cM (cN 2) (cH 0))))) (cA (cA (cA (cM (cN 6) (cR (cD (cM (cV 1) (cW (cA (cN 1) (cM (cN 2) (cV 1))) 4)) (cM (cM (cW (cA (cN 1) (cV 1)) 4) (cA (cN 5) (cM (cN 2) (cV 1)))) (cW (cA (cA (cN 6) (cM (cN 7) (cV 1))) (cM (cN 2) (cW (cV 1) 4))) 6))))) (cD (cM (cM (cN 9) (cV 1)) (cA (cN 1) (cM (cN 2) (cV 1)))) (cM (cR (cM (cV 1) (cA (cN 5) (cM (cN 2) (cV 1))))) (cW (cA (cA (cN 6) (cM (cN 7) (cV 1))) (cM (cN 2) (cW (cV 1) 4))) 3)))) (cD (cM (cV 1) (cA (cN 1) (cM (cN 2) (cV 1)))) (cR (cM (cV 1) (cA (cA (cA (cN 30) (cM (cN 47) (cV 1))) (cM (cN 24) (cW (cV 1) 4))) (cM (cN 4) (cW (cV 1) 6))))))) (cD (cM (cM (cN 3) (cV 1)) (cA (cN 1) (cM (cN 2) (cV 1)))) (cM (cA (cN 2) (cV 1)) (cR (cM (cV 1) (cA (cA (cA (cN 30) (cM (cN 47) (cV 1))) (cM (cN 24) (cW (cV 1) 4))) (cM (cN 4) (cW (cV 1) 6)))))))))) (cD (cM (cM (cN 3) (cR (cD (cH 0) (cA (cN 1) (cM (cN 2) (cH 0)))))) (cA (cM (cM (cN 9) (cV 1)) (cR (cM (cV 1) (cA (cA (cA (cN 30) (cM (cN 47) (cV 1))) (cM (cN 24) (cW (cV 1) 4))) (cM (cN 4) (cW (cV 1) 6)))))) (cM (cN 2) (cA (cM (cN 5) (cR (cM (cV 1) (cA (cA (cA (cN 30) (cM (cN 47) (cV 1))) (cM (cN 24) (cW (cV 1) 4))) (cM (cN 4) (cW (cV 1) 6)))))) (cR (cM (cW (cV 1) 10) (cA (cA (cA (cN 30) (cM (cN 47) (cV 1))) (cM (cN 24) (cW (cV 1) 4))) (cM (cN 4) (cW (cV 1) 6))))))))) (cM (cM (cM (cA (cN 1) (cV 1)) (cW (cA (cN 2) (cV 1)) 4)) (cW (cA (cN 3) (cM (cN 2) (cV 1))) 4)) (cA (cN 5) (cM (cN 2) (cV 1)))))).
Definition SPSU2T_e1004 := (cO (cM (cM (cR (cN 2)) (cA (cN 3) (cV 1))) (cR (cD (cH 0) (cM (cA (cN 1) (cM (cN 2) (cH 0))) (cA (cA (cN 6) (cM (cN 5) (cV 1))) (cW (cV 1) 4))))))).
Definition SPSU2T_e1005 := (cA (cA (cD (cM (cA (cN 1) (cM (cN 2) (cV 1))) (cA (cN 5) (cM (cN 2) (cV 1)))) (cM (cA (cN 3) (cM (cN 2) (cV 1))) (cR (cA (cA (cN 15) (cM (cN 16) (cV 1))) (cM (cN 4) (cW (cV 1) 4)))))) (cM (cR (cA (cN 1) (cM (cN 2) (cV 1)))) (cA (cA (cD (cM (cN 4) (cR (cD (cA (cN 1) (cM (cN 2) (cV 1))) (cM (cW (cA (cN 3) (cM (cN 2) (cV 1))) 6) (cA (cN 5) (cM (cN 2) (cV 1))))))) (cA (cN 2) (cV 1))) (cD (cN 1) (cR (cD (cM (cW (cA (cN 2) (cV 1)) 4) (cA (cA (cN 15) (cM (cN 16) (cV 1))) (cM (cN 4) (cW (cV 1) 4)))) (cA (cN 1) (cM (cN 2) (cV 1))))))) (cD (cM (cN 3) (cR (cD (cA (cN 1) (cM (cN 2) (cV 1))) (cA (cA (cN 15) (cM (cN 16) (cV 1))) (cM (cN 4) (cW (cV 1) 4)))))) (cA (cA (cA (cN 6) (cM (cN 13) (cV 1))) (cM (cN 9) (cW (cV 1) 4))) (cM (cN 2) (cW (cV 1) 6))))))) (cD (cM (cR (cA (cN 2) (cM (cN 4) (cV 1)))) (cA (cA (cD (cN 1) (cR (cD (cM (cM (cW (cA (cN 2) (cV 1)) 4) (cW (cA (cN 3) (cM (cN 2) (cV 1))) 6)) (cA (cN 5) (cM (cN 2) (cV 1)))) (cA (cN 2) (cM (cN 4) (cV 1)))))) (cD (cN 3) (cR (cD (cM (cM (cM (cW (cA (cN 1) (cV 1)) 4) (cW (cA (cN 2) (cV 1)) 4)) (cW (cA (cN 3) (cM (cN 2) (cV 1))) 6)) (cA (cN 5) (cM (cN 2) (cV 1)))) (cA (cN 2) (cM (cN 4) (cV 1))))))) (cD (cN 6) (cM (cA (cA (cA (cN 6) (cM (cN 13) (cV 1))) (cM (cN 9) (cW (cV 1) 4))) (cM (cN 2) (cW (cV 1) 6))) (cR (cA (cA (cA (cQ 15 2) (cM (cN 23) (cV 1))) (cM (cN 18) (cW (cV 1) 4))) (cM (cN 4) (cW (cV 1) 6)))))))) (cN 2))).
Definition SPSU2T_e1006 := (cA (cA (cA (cA (cA (cD (cM (cA (cN 1) (cM (cN 2) (cV 1))) (cA (cN 5) (cM (cN 2) (cV 1)))) (cM (cA (cN 3) (cM (cN 2) (cV 1))) (cR (cM (cM (cA (cN 1) (cH 0)) (cA (cN 1) (cM (cN 2) (cH 0)))) (cA (cA (cN 15) (cM (cN 16) (cV 1))) (cM (cN 4) (cW (cV 1) 4))))))) (cD (cM (cH 0) (cA (cN 5) (cM (cN 2) (cV 1)))) (cM (cM (cA (cN 1) (cV 1)) (cA (cN 3) (cM (cN 2) (cV 1)))) (cR (cM (cA (cA (cN 1) (cM (cN 3) (cH 0))) (cM (cN 2) (cW (cH 0) 4))) (cA (cA (cN 15) (cM (cN 16) (cV 1))) (cM (cN 4) (cW (cV 1) 4)))))))) (cD (cM (cM (cH 0) (cA (cN 1) (cM (cN 2) (cV 1)))) (cA (cN 5) (cM (cN 2) (cV 1)))) (cM (cA (cN 3) (cM (cN 2) (cV 1))) (cR (cM (cA (cA (cN 1) (cM (cN 3) (cH 0))) (cM (cN 2) (cW (cH 0) 4))) (cA (cA (cN 15) (cM (cN 16) (cV 1))) (cM (cN 4) (cW (cV 1) 4)))))))) (cD (cM (cM (cH 0) (cA (cN 1) (cM (cN 2) (cV 1)))) (cA (cN 5) (cM (cN 2) (cV 1)))) (cM (cM (cA (cN 1) (cV 1)) (cA (cN 3) (cM (cN 2) (cV 1)))) (cR (cM (cA (cA (cN 1) (cM (cN 3) (cH 0))) (cM (cN 2) (cW (cH 0) 4))) (cA (cA (cN 15) (cM (cN 16) (cV 1))) (cM (cN 4) (cW (cV 1) 4)))))))) (cD (cA (cA (cD (cM (cN 4) (cR (cD (cA (cN 1) (cM (cN 2) (cV 1))) (cM (cW (cA (cN 3) (cM (cN 2) (cV 1))) 6) (cA (cN 5) (cM (cN 2) (cV 1))))))) (cA (cN 2) (cV 1))) (cD (cN 1) (cR (cD (cM (cW (cA (cN 2) (cV 1)) 4) (cA (cA (cN 15) (cM (cN 16) (cV 1))) (cM (cN 4) (cW (cV 1) 4)))) (cA (cN 1) (cM (cN 2) (cV 1))))))) (cD (cM (cN 3) (cR (cD (cA (cN 1) (cM (cN 2) (cV 1))) (cA (cA (cN 15) (cM (cN 16) (cV 1))) (cM (cN 4) (cW (cV 1) 4)))))) (cA (cA (cA (cN 6) (cM (cN 13) (cV 1))) (cM (cN 9) (cW (cV 1) 4))) (cM (cN 2) (cW (cV 1) 6))))) (cR (cD (cM (cA (cN 1) (cH 0)) (cA (cN 1) (cM (cN 2) (cH 0)))) (cA (cN 1) (cM (cN 2) (cV 1))))))) (cD (cA (cA (cD (cN 1) (cR (cD (cM (cM (cW (cA (cN 2) (cV 1)) 4) (cW (cA (cN 3) (cM (cN 2) (cV 1))) 6)) (cA (cN 5) (cM (cN 2) (cV 1)))) (cA (cN 1) (cM (cN 2) (cV 1)))))) (cD (cN 3) (cR (cD (cM (cM (cW (cA (cN 3) (cM (cN 2) (cV 1))) 6) (cA (cN 5) (cM (cN 2) (cV 1)))) (cW (cA (cA (cN 2) (cM (cN 3) (cV 1))) (cW (cV 1) 4)) 4)) (cA (cN 1) (cM (cN 2) (cV 1))))))) (cD (cN 6) (cM (cA (cA (cA (cN 6) (cM (cN 13) (cV 1))) (cM (cN 9) (cW (cV 1) 4))) (cM (cN 2) (cW (cV 1) 6))) (cR (cA (cA (cA (cN 15) (cM (cN 46) (cV 1))) (cM (cN 36) (cW (cV 1) 4))) (cM (cN 8) (cW (cV 1) 6))))))) (cR (cD (cM (cA (cN 1) (cH 0)) (cA (cN 1) (cM (cN 2) (cH 0)))) (cA (cN 1) (cM (cN 2) (cV 1))))))).
Definition SPSU2T_e1007 := (cD (cM (cB (cN 2) (cV 1)) (cA (cD (cN 1) (cR (cD (cM (cA (cN 1) (cH 0)) (cA (cB (cN 2) (cM (cN 3) (cV 1))) (cW (cV 1) 4))) (cA (cN 1) (cM (cN 2) (cH 0)))))) (cD (cN 1) (cR (cM (cA (cA (cN 1) (cM (cN 3) (cH 0))) (cM (cN 2) (cW (cH 0) 4))) (cA (cB (cN 2) (cM (cN 3) (cV 1))) (cW (cV 1) 4))))))) (cR (cN 2))).
Definition SPSU2T_e1008 := (cO (cD (cM (cA (cN 1) (cH 0)) (cA (cN 1) (cV 1))) (cR (cD (cM (cA (cA (cN 1) (cM (cN 3) (cH 0))) (cM (cN 2) (cW (cH 0) 4))) (cA (cB (cB (cN 1) (cM (cN 2) (cV 1))) (cW (cV 1) 4)) (cM (cN 2) (cW (cV 1) 6)))) (cA (cN (-3)) (cM (cN 2) (cV 1))))))).
Definition SPSU2T_e1009 := (cD (cA (cO (cR (cD (cM (cH 0) (cA (cN (-3)) (cM (cN 2) (cV 1)))) (cM (cA (cN 1) (cM (cN 2) (cH 0))) (cA (cN (-1)) (cM (cN 2) (cV 1))))))) (cM (cM (cR (cM (cA (cN (-1)) (cV 1)) (cV 1))) (cA (cN (-3)) (cM (cN 2) (cV 1)))) (cA (cM (cN 2) (cR (cD (cH 0) (cM (cM (cA (cN 1) (cM (cN 2) (cH 0))) (cV 1)) (cA (cB (cA (cN (-3)) (cM (cN 11) (cV 1))) (cM (cN 12) (cW (cV 1) 4))) (cM (cN 4) (cW (cV 1) 6))))))) (cR (cD (cM (cH 0) (cA (cN 1) (cM (cN 2) (cH 0)))) (cM (cV 1) (cA (cB (cA (cN (-3)) (cM (cN 11) (cV 1))) (cM (cN 12) (cW (cV 1) 4))) (cM (cN 4) (cW (cV 1) 6))))))))) (cM (cN 2) (cA (cN 1) (cH 0)))).
Definition SPSU2T_e1010 := (cR (cD (cA (cN (-3)) (cM (cN 2) (cV 1))) (cA (cN (-1)) (cM (cN 2) (cV 1))))).
Definition SPSU2T_e1011 := (cA (cA (cA (cD (cN 1) (cR (cM (cM (cM (cA (cN 1) (cH 0)) (cA (cN 1) (cM (cN 2) (cH 0)))) (cA (cN (-1)) (cV 1))) (cA (cN 1) (cV 1))))) (cD (cM (cA (cN (-1)) (cV 1)) (cR (cD (cA (cN 1) (cM (cN 2) (cH 0))) (cM (cA (cN 1) (cH 0)) (cA (cN (-1)) (cW (cV 1) 4)))))) (cN 2))) (cD (cN 1) (cR (cD (cM (cA (cN 1) (cH 0)) (cA (cN (-1)) (cW (cV 1) 4))) (cA (cN 1) (cM (cN 2) (cH 0))))))) (cD (cA (cN (-1)) (cV 1)) (cM (cN 2) (cR (cM (cM (cA (cN 1) (cH 0)) (cA (cN 1) (cM (cN 2) (cH 0)))) (cA (cN (-1)) (cW (cV 1) 4))))))).
Definition SPSU2T_e1012 := (cD (cB (cB (cA (cD (cM (cN 4) (cA (cN (-1)) (cV 1))) (cM (cR (cM (cM (cA (cA (cN 1) (cM (cN 3) (cH 0))) (cM (cN 2) (cW (cH 0) 4))) (cA (cN (-1)) (cV 1))) (cV 1))) (cA (cN 1) (cV 1)))) (cD (cM (cN 4) (cA (cN (-1)) (cV 1))) (cR (cD (cM (cM (cM (cA (cN 1) (cH 0)) (cA (cN (-1)) (cV 1))) (cV 1)) (cW (cA (cN 1) (cV 1)) 4)) (cA (cN 1) (cM (cN 2) (cH 0))))))) (cD (cM (cR (cD (cA (cN 1) (cM (cN 2) (cH 0))) (cM (cM (cA (cN 1) (cH 0)) (cA (cN (-1)) (cV 1))) (cV 1)))) (cA (cA (cN (-7)) (cM (cN 2) (cV 1))) (cW (cV 1) 4))) (cA (cN 1) (cV 1)))) (cD (cA (cA (cN (-7)) (cM (cN 2) (cV 1))) (cW (cV 1) 4)) (cM (cR (cM (cM (cA (cA (cN 1) (cM (cN 3) (cH 0))) (cM (cN 2) (cW (cH 0) 4))) (cA (cN (-1)) (cV 1))) (cV 1))) (cA (cN 1) (cV 1))))) (cM (cN 2) (cR (cN 2)))).
Definition SPSU2T_e1013 := (cD (cM (cR (cQ 3 2)) (cB (cB (cA (cA (cA (cD (cB (cB (cN 7) (cM (cN 5) (cV 1))) (cM (cN 2) (cW (cV 1) 4))) (cM (cA (cN 1) (cV 1)) (cR (cM (cM (cM (cA (cA (cN 1) (cM (cN 3) (cH 0))) (cM (cN 2) (cW (cH 0) 4))) (cV 1)) (cA (cN 1) (cM (cN 2) (cV 1)))) (cA (cA (cN (-3)) (cV 1)) (cM (cN 2) (cW (cV 1) 4))))))) (cD (cM (cB (cB (cN 7) (cM (cN 5) (cV 1))) (cM (cN 2) (cW (cV 1) 4))) (cR (cD (cA (cN 1) (cM (cN 2) (cH 0))) (cM (cM (cA (cN 1) (cH 0)) (cV 1)) (cA (cA (cB (cN (-3)) (cM (cN 5) (cV 1))) (cM (cN 4) (cW (cV 1) 4))) (cM (cN 4) (cW (cV 1) 6))))))) (cA (cN 1) (cV 1)))) (cM (cM (cN 2) (cA (cN (-1)) (cV 1))) (cR (cD (cA (cN 1) (cM (cN 2) (cH 0))) (cM (cM (cM (cA (cN 1) (cH 0)) (cV 1)) (cW (cA (cN 1) (cV 1)) 4)) (cA (cA (cB (cN (-3)) (cM (cN 5) (cV 1))) (cM (cN 4) (cW (cV 1) 4))) (cM (cN 4) (cW (cV 1) 6)))))))) (cD (cM (cN 2) (cA (cN (-1)) (cV 1))) (cM (cA (cN 1) (cV 1)) (cR (cM (cM (cA (cA (cN 1) (cM (cN 3) (cH 0))) (cM (cN 2) (cW (cH 0) 4))) (cV 1)) (cA (cA (cB (cN (-3)) (cM (cN 5) (cV 1))) (cM (cN 4) (cW (cV 1) 4))) (cM (cN 4) (cW (cV 1) 6)))))))) (cM (cM (cA (cN (-1)) (cM (cN 2) (cV 1))) (cR (cD (cA (cN 1) (cM (cN 2) (cH 0))) (cM (cM (cA (cN 1) (cH 0)) (cV 1)) (cA (cA (cA (cB (cN (-3)) (cM (cN 5) (cV 1))) (cM (cN 10) (cW (cV 1) 4))) (cM (cN 20) (cW (cV 1) 6))) (cM (cN 8) (cW (cV 1) 8))))))) (cA (cA (cO (cM (cV 1) (cR (cD (cA (cN (-1)) (cM (cN 2) (cV 1))) (cA (cN (-1)) (cW (cV 1) 4)))))) (cM (cW (cV 1) 4) (cR (cD (cA (cN (-1)) (cM (cN 2) (cV 1))) (cA (cN (-1)) (cW (cV 1) 4)))))) (cM (cN 2) (cR (cD (cA (cB (cN 1) (cM (cN 3) (cV 1))) (cM (cN 2) (cW (cV 1) 4))) (cA (cN 1) (cV 1)))))))) (cD (cM (cA (cN (-1)) (cM (cN 2) (cV 1))) (cA (cA (cO (cM (cV 1) (cR (cD (cA (cN (-1)) (cM (cN 2) (cV 1))) (cA (cN (-1)) (cW (cV 1) 4)))))) (cM (cW (cV 1) 4) (cR (cD (cA (cN (-1)) (cM (cN 2) (cV 1))) (cA (cN (-1)) (cW (cV 1) 4)))))) (cM (cN 2) (cR (cD (cA (cB (cN 1) (cM (cN 3) (cV 1))) (cM (cN 2) (cW (cV 1) 4))) (cA (cN 1) (cV 1))))))) (cR (cM (cM (cA (cA (cN 1) (cM (cN 3) (cH 0))) (cM (cN 2) (cW (cH 0) 4))) (cV 1)) (cA (cA (cA (cB (cN (-3)) (cM (cN 5) (cV 1))) (cM (cN 10) (cW (cV 1) 4))) (cM (cN 20) (cW (cV 1) 6))) (cM (cN 8) (cW (cV 1) 8)))))))) (cN 2)).
Definition SPSU2T_e1014 := (cO (cD (cM (cH 0) (cA (cA (cR (cD (cM (cV 1) (cA (cN 1) (cV 1))) (cA (cN 1) (cM (cN 2) (cV 1))))) (cM (cM (cN 2) (cV 1)) (cR (cD (cM (cV 1) (cA (cN 1) (cV 1))) (cA (cN 1) (cM (cN 2) (cV 1))))))) (cM (cH 0) (cR (cM (cV 1) (cA (cA (cN 1) (cM (cN 3) (cV 1))) (cM (cN 2) (cW (cV 1) 4)))))))) (cM (cM (cM (cR (cN 2)) (cA (cN 1) (cH 0))) (cV 1)) (cR (cM (cM (cH 0) (cA (cN 1) (cM (cN 2) (cH 0)))) (cA (cN 1) (cM (cN 2) (cV 1)))))))).
Definition SPSU2T_e1015 := (cD (cB (cA (cA (cA (cA (cA (cD (cM (cN 2) (cR (cD (cM (cM (cH 0) (cA (cN 1) (cM (cN 2) (cH 0)))) (cA (cB (cN 1) (cM (cN 3) (cV 1))) (cM (cN 2) (cW (cV 1) 4)))) (cM (cV 1) (cA (cN 1) (cM (cN 2) (cV 1))))))) (cA (cA (cA (cN 1) (cH 0)) (cV 1)) (cM (cH 0) (cV 1)))) (cD (cM (cM (cM (cN 2) (cA (cN (-1)) (cV 1))) (cV 1)) (cR (cD (cM (cH 0) (cA (cN (-1)) (cM (cN 2) (cV 1)))) (cM (cM (cA (cN 1) (cM (cN 2) (cH 0))) (cV 1)) (cA (cB (cN (-1)) (cV 1)) (cM (cN 2) (cW (cV 1) 4))))))) (cM (cA (cN 1) (cH 0)) (cA (cN 1) (cV 1))))) (cD (cM (cH 0) (cA (cN (-1)) (cV 1))) (cM (cM (cA (cN 1) (cH 0)) (cA (cN 1) (cV 1))) (cR (cD (cM (cM (cM (cH 0) (cA (cN 1) (cM (cN 2) (cH 0)))) (cV 1)) (cA (cB (cN (-1)) (cV 1)) (cM (cN 2) (cW (cV 1) 4)))) (cA (cN (-1)) (cM (cN 2) (cV 1)))))))) (cD (cM (cM (cH 0) (cA (cN (-1)) (cV 1))) (cV 1)) (cR (cD (cM (cM (cM (cM (cH 0) (cW (cA (cN 1) (cH 0)) 4)) (cV 1)) (cW (cA (cN 1) (cV 1)) 4)) (cA (cB (cN (-1)) (cV 1)) (cM (cN 2) (cW (cV 1) 4)))) (cM (cA (cN 1) (cM (cN 2) (cH 0))) (cA (cN (-1)) (cM (cN 2) (cV 1)))))))) (cD (cM (cN 4) (cR (cD (cM (cH 0) (cA (cB (cN 1) (cM (cN 3) (cV 1))) (cM (cN 2) (cW (cV 1) 4)))) (cM (cA (cN 1) (cM (cN 2) (cH 0))) (cA (cV 1) (cM (cN 2) (cW (cV 1) 4))))))) (cA (cA (cA (cN 1) (cH 0)) (cV 1)) (cM (cH 0) (cV 1))))) (cD (cM (cH 0) (cB (cB (cR (cD (cM (cV 1) (cA (cN (-1)) (cM (cN 2) (cV 1)))) (cM (cA (cH 0) (cW (cH 0) 4)) (cA (cN (-1)) (cV 1))))) (cR (cD (cM (cW (cV 1) 6) (cA (cN (-1)) (cM (cN 2) (cV 1)))) (cM (cA (cH 0) (cW (cH 0) 4)) (cA (cN (-1)) (cV 1)))))) (cM (cN 2) (cR (cD (cA (cB (cN 1) (cM (cN 3) (cV 1))) (cM (cN 2) (cW (cV 1) 4))) (cA (cM (cH 0) (cV 1)) (cM (cW (cH 0) 4) (cV 1)))))))) (cM (cR (cD (cA (cA (cN 1) (cM (cN 3) (cH 0))) (cM (cN 2) (cW (cH 0) 4))) (cA (cN 1) (cM (cN 2) (cV 1))))) (cA (cA (cN 1) (cM (cN 3) (cV 1))) (cM (cN 2) (cW (cV 1) 4)))))) (cD (cM (cM (cA (cN (-1)) (cV 1)) (cR (cD (cA (cN (-1)) (cM (cN 2) (cV 1))) (cM (cM (cV 1) (cW (cA (cN 1) (cM (cN 2) (cV 1))) 4)) (cA (cN (-1)) (cW (cV 1) 4)))))) (cA (cA (cA (cR (cD (cM (cM (cH 0) (cA (cN 1) (cM (cN 2) (cH 0)))) (cA (cN 1) (cM (cN 2) (cV 1)))) (cA (cN 1) (cV 1)))) (cR (cD (cM (cM (cW (cH 0) 6) (cA (cN 1) (cM (cN 2) (cH 0)))) (cA (cN 1) (cM (cN 2) (cV 1)))) (cA (cN 1) (cV 1))))) (cM (cM (cN 2) (cA (cN 1) (cH 0))) (cR (cD (cH 0) (cM (cA (cN 1) (cM (cN 2) (cH 0))) (cA (cA (cN 1) (cM (cN 3) (cV 1))) (cM (cN 2) (cW (cV 1) 4)))))))) (cM (cM (cM (cN 4) (cA (cN 1) (cH 0))) (cV 1)) (cR (cD (cH 0) (cM (cA (cN 1) (cM (cN 2) (cH 0))) (cA (cA (cN 1) (cM (cN 3) (cV 1))) (cM (cN 2) (cW (cV 1) 4))))))))) (cW (cA (cN 1) (cH 0)) 4))) (cM (cN 2) (cR (cN 2)))).
Definition SPSU2T_e1016 := (cD (cN 1) (cM (cR (cN 2)) (cR (cD (cM (cV 1) (cA (cN 1) (cM (cN 2) (cV 1)))) (cA (cB (cN 1) (cM (cN 3) (cV 1))) (cM (cN 2) (cW (cV 1) 4))))))).
Definition SPSU2T_e1017 := (cD (cM (cM (cR (cQ 3 2)) (cA (cN 1) (cH 0))) (cA (cA (cN (-3)) (cV 1)) (cM (cN 2) (cW (cV 1) 4)))) (cR (cM (cM (cA (cA (cN 1) (cM (cN 3) (cH 0))) (cM (cN 2) (cW (cH 0) 4))) (cV 1)) (cA (cB (cN 3) (cM (cN 7) (cV 1))) (cM (cN 4) (cW (cV 1) 6)))))).
Definition SPSU2T_e1018 := (cD (cM (cN 3) (cB (cA (cA (cA (cB (cO (cD (cA (cA (cN (-7)) (cV 1)) (cM (cN 2) (cW (cV 1) 4))) (cM (cM (cA (cN 1) (cV 1)) (cR (cD (cM (cM (cA (cN 1) (cH 0)) (cV 1)) (cA (cN 1) (cV 1))) (cA (cN 1) (cM (cN 2) (cH 0)))))) (cA (cN 3) (cM (cN 2) (cV 1)))))) (cD (cA (cA (cN (-7)) (cV 1)) (cM (cN 2) (cW (cV 1) 4))) (cM (cM (cA (cN 1) (cV 1)) (cR (cM (cM (cA (cA (cN 1) (cM (cN 3) (cH 0))) (cM (cN 2) (cW (cH 0) 4))) (cV 1)) (cA (cN 1) (cV 1))))) (cA (cN 3) (cM (cN 2) (cV 1)))))) (cD (cM (cA (cN 2) (cV 1)) (cA (cN (-1)) (cM (cN 2) (cV 1)))) (cM (cM (cV 1) (cR (cD (cM (cA (cA (cN 1) (cM (cN 3) (cH 0))) (cM (cN 2) (cW (cH 0) 4))) (cA (cN 1) (cV 1))) (cV 1)))) (cA (cA (cN 3) (cM (cN 5) (cV 1))) (cM (cN 2) (cW (cV 1) 4)))))) (cD (cM (cA (cN 2) (cV 1)) (cA (cN (-1)) (cM (cN 2) (cV 1)))) (cM (cR (cM (cM (cA (cA (cN 1) (cM (cN 3) (cH 0))) (cM (cN 2) (cW (cH 0) 4))) (cV 1)) (cA (cN 1) (cV 1)))) (cA (cA (cN 3) (cM (cN 5) (cV 1))) (cM (cN 2) (cW (cV 1) 4)))))) (cD (cB (cA (cM (cN 3) (cR (cD (cM (cA (cN 1) (cM (cN 2) (cH 0))) (cW (cV 1) 6)) (cA (cN 1) (cV 1))))) (cM (cN 2) (cR (cD (cM (cA (cN 1) (cM (cN 2) (cH 0))) (cW (cV 1) 10)) (cA (cN 1) (cV 1)))))) (cM (cN 2) (cR (cD (cA (cV 1) (cM (cM (cN 2) (cH 0)) (cV 1))) (cA (cN 1) (cV 1)))))) (cM (cM (cR (cA (cN 1) (cH 0))) (cV 1)) (cA (cA (cN 3) (cM (cN 5) (cV 1))) (cM (cN 2) (cW (cV 1) 4)))))) (cM (cA (cN (-1)) (cM (cN 2) (cV 1))) (cB (cA (cD (cN (-2)) (cR (cD (cM (cM (cM (cA (cN 1) (cH 0)) (cV 1)) (cW (cA (cN 1) (cV 1)) 6)) (cW (cA (cN 3) (cM (cN 2) (cV 1))) 4)) (cA (cN 1) (cM (cN 2) (cH 0)))))) (cD (cV 1) (cR (cD (cM (cM (cM (cA (cN 1) (cH 0)) (cV 1)) (cW (cA (cN 1) (cV 1)) 6)) (cW (cA (cA (cN (-3)) (cM (cN 4) (cV 1))) (cM (cN 4) (cW (cV 1) 4))) 4)) (cA (cN 1) (cM (cN 2) (cH 0))))))) (cD (cM (cN 2) (cR (cD (cA (cW (cV 1) 6) (cM (cM (cN 2) (cH 0)) (cW (cV 1) 6))) (cA (cA (cA (cN 1) (cH 0)) (cV 1)) (cM (cH 0) (cV 1)))))) (cA (cA (cA (cN (-3)) (cV 1)) (cM (cN 8) (cW (cV 1) 4))) (cM (cN 4) (cW (cV 1) 6)))))))) (cM (cN 2) (cR (cN 2)))).
Definition SPSU2T_e1019 := (cA (cB (cB (cB (cB (cD (cM (cM (cM (cN 3) (cR (cQ 3 2))) (cA (cN 2) (cV 1))) (cA (cN (-1)) (cM (cN 2) (cV 1)))) (cM (cM (cN 2) (cR (cM (cA (cA (cN 1) (cM (cN 3) (cH 0))) (cM (cN 2) (cW (cH 0) 4))) (cA (cA (cN (-2)) (cM (cN 3) (cV 1))) (cM (cN 2) (cW (cV 1) 4)))))) (cW (cA (cA (cN 3) (cM (cN 5) (cV 1))) (cM (cN 2) (cW (cV 1) 4))) 3))) (cD (cM (cM (cM (cR (cQ 3 2)) (cV 1)) (cA (cN (-1)) (cM (cN 2) (cV 1)))) (cA (cA (cN 10) (cM (cN 9) (cV 1))) (cM (cN 2) (cW (cV 1) 4)))) (cM (cM (cM (cN 2) (cA (cN 1) (cV 1))) (cA (cN 3) (cM (cN 2) (cV 1)))) (cR (cM (cM (cM (cA (cN 1) (cH 0)) (cA (cN 1) (cM (cN 2) (cH 0)))) (cA (cN 2) (cV 1))) (cA (cA (cA (cN (-3)) (cV 1)) (cM (cN 8) (cW (cV 1) 4))) (cM (cN 4) (cW (cV 1) 6)))))))) (cD (cM (cM (cN 3) (cR (cQ 3 2))) (cA (cA (cN (-2)) (cM (cN 3) (cV 1))) (cM (cN 2) (cW (cV 1) 4)))) (cM (cA (cA (cN 3) (cM (cN 5) (cV 1))) (cM (cN 2) (cW (cV 1) 4))) (cR (cM (cA (cA (cN 1) (cM (cN 3) (cH 0))) (cM (cN 2) (cW (cH 0) 4))) (cA (cA (cA (cB (cN (-6)) (cV 1)) (cM (cN 17) (cW (cV 1) 4))) (cM (cN 16) (cW (cV 1) 6))) (cM (cN 4) (cW (cV 1) 8)))))))) (cD (cM (cM (cR (cQ 3 2)) (cV 1)) (cB (cA (cA (cM (cN 11) (cR (cD (cM (cA (cN 1) (cM (cN 2) (cH 0))) (cW (cV 1) 6)) (cA (cN 2) (cV 1))))) (cM (cN 16) (cR (cD (cM (cA (cN 1) (cM (cN 2) (cH 0))) (cW (cV 1) 10)) (cA (cN 2) (cV 1)))))) (cM (cN 4) (cR (cD (cM (cA (cN 1) (cM (cN 2) (cH 0))) (cW (cV 1) 14)) (cA (cN 2) (cV 1)))))) (cM (cN 10) (cR (cD (cA (cV 1) (cM (cM (cN 2) (cH 0)) (cV 1))) (cA (cN 2) (cV 1))))))) (cM (cM (cM (cN 2) (cA (cN 1) (cV 1))) (cA (cN 3) (cM (cN 2) (cV 1)))) (cR (cM (cM (cA (cN 1) (cH 0)) (cV 1)) (cA (cA (cA (cN (-3)) (cV 1)) (cM (cN 8) (cW (cV 1) 4))) (cM (cN 4) (cW (cV 1) 6)))))))) (cD (cM (cM (cN 3) (cR (cQ 3 2))) (cB (cA (cM (cN 3) (cR (cD (cM (cA (cN 1) (cM (cN 2) (cH 0))) (cW (cV 1) 6)) (cA (cN 2) (cV 1))))) (cM (cN 2) (cR (cD (cM (cA (cN 1) (cM (cN 2) (cH 0))) (cW (cV 1) 10)) (cA (cN 2) (cV 1)))))) (cM (cN 2) (cR (cD (cA (cV 1) (cM (cM (cN 2) (cH 0)) (cV 1))) (cA (cN 2) (cV 1))))))) (cM (cA (cA (cN 3) (cM (cN 5) (cV 1))) (cM (cN 2) (cW (cV 1) 4))) (cR (cM (cM (cA (cN 1) (cH 0)) (cV 1)) (cA (cA (cA (cN (-3)) (cV 1)) (cM (cN 8) (cW (cV 1) 4))) (cM (cN 4) (cW (cV 1) 6)))))))) (cD (cM (cM (cN 3) (cA (cN (-1)) (cM (cN 2) (cV 1)))) (cA (cM (cN 2) (cR (cD (cA (cN 3) (cM (cN 6) (cH 0))) (cM (cM (cA (cN 1) (cH 0)) (cA (cA (cN (-2)) (cM (cN 3) (cV 1))) (cM (cN 2) (cW (cV 1) 4)))) (cW (cA (cA (cN 3) (cM (cN 5) (cV 1))) (cM (cN 2) (cW (cV 1) 4))) 6))))) (cD (cV 1) (cM (cR (cD (cM (cA (cN 1) (cH 0)) (cA (cA (cN (-2)) (cM (cN 3) (cV 1))) (cM (cN 2) (cW (cV 1) 4)))) (cA (cN 3) (cM (cN 6) (cH 0))))) (cW (cA (cA (cN 3) (cM (cN 5) (cV 1))) (cM (cN 2) (cW (cV 1) 4))) 3))))) (cM (cN 2) (cR (cN 2))))).
Definition SPSU2T_e1020 := (cA (cA (cB (cB (cB (cD (cM (cR (cQ 3 2)) (cA (cR (cD (cM (cH 0) (cA (cN 1) (cM (cN 2) (cH 0)))) (cA (cN 1) (cH 0)))) (cM (cN 2) (cR (cD (cH 0) (cA (cA (cN 1) (cM (cN 3) (cH 0))) (cM (cN 2) (cW (cH 0) 4)))))))) (cR (cM (cM (cA (cN 1) (cH 0)) (cV 1)) (cA (cA (cA (cN (-3)) (cV 1)) (cM (cN 8) (cW (cV 1) 4))) (cM (cN 4) (cW (cV 1) 6)))))) (cD (cM (cR (cQ 3 2)) (cH 0)) (cM (cA (cN 1) (cH 0)) (cR (cM (cM (cM (cH 0) (cA (cN 1) (cM (cN 2) (cH 0)))) (cV 1)) (cA (cA (cA (cN (-3)) (cV 1)) (cM (cN 8) (cW (cV 1) 4))) (cM (cN 4) (cW (cV 1) 6)))))))) (cD (cM (cM (cR (cQ 3 2)) (cH 0)) (cA (cN (-1)) (cM (cN 2) (cV 1)))) (cM (cM (cN 2) (cA (cN 1) (cH 0))) (cR (cM (cM (cM (cH 0) (cA (cN 1) (cM (cN 2) (cH 0)))) (cV 1)) (cA (cA (cA (cN (-3)) (cV 1)) (cM (cN 8) (cW (cV 1) 4))) (cM (cN 4) (cW (cV 1) 6)))))))) (cD (cM (cM (cH 0) (cV 1)) (cA (cN (-1)) (cM (cN 2) (cV 1)))) (cM (cM (cM (cN 2) (cR (cN 6))) (cA (cN 1) (cH 0))) (cR (cM (cM (cM (cH 0) (cA (cN 1) (cM (cN 2) (cH 0)))) (cV 1)) (cA (cA (cA (cN (-3)) (cV 1)) (cM (cN 8) (cW (cV 1) 4))) (cM (cN 4) (cW (cV 1) 6)))))))) (cD (cM (cM (cR (cQ 3 2)) (cA (cN (-1)) (cM (cN 2) (cV 1)))) (cA (cA (cA (cR (cM (cM (cH 0) (cA (cN 1) (cM (cN 2) (cH 0)))) (cA (cN 1) (cM (cN 2) (cV 1))))) (cR (cM (cM (cW (cH 0) 6) (cA (cN 1) (cM (cN 2) (cH 0)))) (cA (cN 1) (cM (cN 2) (cV 1)))))) (cM (cM (cN 2) (cA (cN 1) (cH 0))) (cR (cD (cH 0) (cA (cA (cA (cN 1) (cM (cN 2) (cH 0))) (cM (cN 2) (cV 1))) (cM (cM (cN 4) (cH 0)) (cV 1))))))) (cM (cM (cM (cN 4) (cA (cN 1) (cH 0))) (cV 1)) (cR (cD (cH 0) (cA (cA (cA (cN 1) (cM (cN 2) (cH 0))) (cM (cN 2) (cV 1))) (cM (cM (cN 4) (cH 0)) (cV 1)))))))) (cM (cM (cN 2) (cW (cA (cN 1) (cH 0)) 4)) (cR (cM (cV 1) (cA (cA (cA (cB (cN (-3)) (cM (cN 5) (cV 1))) (cM (cN 10) (cW (cV 1) 4))) (cM (cN 20) (cW (cV 1) 6))) (cM (cN 8) (cW (cV 1) 8)))))))) (cD (cM (cM (cV 1) (cA (cN (-1)) (cM (cN 2) (cV 1)))) (cA (cD (cM (cM (cN 2) (cR (cN 2))) (cR (cD (cH 0) (cM (cM (cA (cN 1) (cM (cN 2) (cH 0))) (cV 1)) (cA (cA (cA (cN (-3)) (cV 1)) (cM (cN 8) (cW (cV 1) 4))) (cM (cN 4) (cW (cV 1) 6))))))) (cA (cN 1) (cH 0))) (cM (cH 0) (cR (cD (cA (cN 2) (cM (cN 4) (cH 0))) (cM (cM (cM (cH 0) (cW (cA (cN 1) (cH 0)) 4)) (cV 1)) (cA (cA (cA (cN (-3)) (cV 1)) (cM (cN 8) (cW (cV 1) 4))) (cM (cN 4) (cW (cV 1) 6))))))))) (cM (cN 4) (cR (cN 3))))).
Definition SPSU2T_e1021 := (cA (cA (cA (cA (cB (cD (cM (cQ (-1) 2) (cM (cM (cH 0) (cV 1)) (cA (cN (-1)) (cM (cN 2) (cV 1))))) (cM (cM (cM (cR (cN 6)) (cA (cN 1) (cH 0))) (cW (cA (cN 1) (cV 1)) 3)) (cR (cM (cM (cM (cH 0) (cA (cN 1) (cM (cN 2) (cH 0)))) (cV 1)) (cA (cA (cN (-3)) (cM (cN 4) (cV 1))) (cM (cN 4) (cW (cV 1) 4))))))) (cD (cM (cM (cM (cR (cQ 3 2)) (cA (cR (cD (cM (cH 0) (cA (cN 1) (cM (cN 2) (cH 0)))) (cA (cN 1) (cH 0)))) (cM (cN 2) (cR (cD (cH 0) (cA (cA (cN 1) (cM (cN 3) (cH 0))) (cM (cN 2) (cW (cH 0) 4)))))))) (cA (cN 2) (cV 1))) (cA (cN (-1)) (cM (cN 2) (cV 1)))) (cM (cM (cN 2) (cA (cN 1) (cV 1))) (cR (cM (cM (cA (cN 1) (cH 0)) (cV 1)) (cA (cA (cA (cN (-3)) (cV 1)) (cM (cN 8) (cW (cV 1) 4))) (cM (cN 4) (cW (cV 1) 6)))))))) (cD (cM (cM (cR (cQ 3 2)) (cH 0)) (cA (cA (cN (-2)) (cM (cN 3) (cV 1))) (cM (cN 2) (cW (cV 1) 4)))) (cM (cM (cM (cN 2) (cA (cN 1) (cH 0))) (cA (cN 1) (cV 1))) (cR (cM (cM (cM (cH 0) (cA (cN 1) (cM (cN 2) (cH 0)))) (cV 1)) (cA (cA (cA (cN (-3)) (cV 1)) (cM (cN 8) (cW (cV 1) 4))) (cM (cN 4) (cW (cV 1) 6)))))))) (cD (cM (cH 0) (cA (cA (cB (cN 3) (cM (cN 9) (cV 1))) (cM (cN 4) (cW (cV 1) 4))) (cM (cN 4) (cW (cV 1) 6)))) (cM (cM (cM (cM (cN 2) (cR (cN 6))) (cA (cN 1) (cH 0))) (cA (cN 1) (cV 1))) (cR (cM (cM (cM (cH 0) (cA (cN 1) (cM (cN 2) (cH 0)))) (cV 1)) (cA (cA (cA (cN (-3)) (cV 1)) (cM (cN 8) (cW (cV 1) 4))) (cM (cN 4) (cW (cV 1) 6)))))))) (cD (cM (cM (cV 1) (cA (cN (-1)) (cM (cN 2) (cV 1)))) (cA (cM (cH 0) (cR (cD (cA (cN 2) (cM (cN 4) (cH 0))) (cM (cM (cM (cM (cH 0) (cW (cA (cN 1) (cH 0)) 4)) (cV 1)) (cW (cA (cN 1) (cV 1)) 4)) (cA (cA (cN (-3)) (cM (cN 4) (cV 1))) (cM (cN 4) (cW (cV 1) 4))))))) (cD (cM (cM (cN 2) (cR (cN 2))) (cR (cD (cH 0) (cM (cA (cN 1) (cM (cN 2) (cH 0))) (cA (cA (cM (cN (-3)) (cV 1)) (cM (cN 4) (cW (cV 1) 4))) (cM (cN 4) (cW (cV 1) 6))))))) (cA (cA (cA (cN 1) (cH 0)) (cV 1)) (cM (cH 0) (cV 1)))))) (cM (cM (cN 4) (cR (cN 3))) (cR (cA (cN 1) (cV 1)))))) (cD (cB (cB (cB (cM (cM (cM (cM (cN 2) (cH 0)) (cV 1)) (cB (cV 1) (cM (cN 2) (cW (cV 1) 4)))) (cR (cD (cA (cN 1) (cM (cN 2) (cH 0))) (cM (cM (cM (cM (cH 0) (cW (cA (cN 1) (cH 0)) 4)) (cV 1)) (cW (cA (cN 1) (cV 1)) 6)) (cA (cA (cN (-3)) (cM (cN 4) (cV 1))) (cM (cN 4) (cW (cV 1) 4))))))) (cD (cM (cM (cM (cN 3) (cH 0)) (cA (cN (-1)) (cV 1))) (cA (cN (-1)) (cM (cN 2) (cV 1)))) (cR (cD (cM (cM (cM (cM (cH 0) (cW (cA (cN 1) (cH 0)) 4)) (cV 1)) (cW (cA (cN 1) (cV 1)) 6)) (cA (cA (cN (-3)) (cM (cN 4) (cV 1))) (cM (cN 4) (cW (cV 1) 4)))) (cA (cN 1) (cM (cN 2) (cH 0))))))) (cD (cM (cM (cM (cN 6) (cA (cN (-1)) (cV 1))) (cA (cN (-1)) (cM (cN 2) (cV 1)))) (cR (cD (cH 0) (cM (cM (cA (cN 1) (cM (cN 2) (cH 0))) (cV 1)) (cA (cA (cA (cN (-3)) (cV 1)) (cM (cN 8) (cW (cV 1) 4))) (cM (cN 4) (cW (cV 1) 6))))))) (cM (cA (cN 1) (cH 0)) (cA (cN 1) (cV 1))))) (cD (cM (cM (cM (cN 4) (cV 1)) (cA (cN (-1)) (cM (cN 2) (cV 1)))) (cR (cD (cM (cH 0) (cV 1)) (cM (cA (cN 1) (cM (cN 2) (cH 0))) (cA (cA (cA (cN (-3)) (cV 1)) (cM (cN 8) (cW (cV 1) 4))) (cM (cN 4) (cW (cV 1) 6))))))) (cM (cA (cN 1) (cH 0)) (cA (cN 1) (cV 1))))) (cM (cN 2) (cR (cN 6))))).
Definition SPSU2T_e1022 := (cA (cA (cA (cA (cB (cD (cM (cQ (-1) 2) (cR (cD (cM (cM (cH 0) (cV 1)) (cA (cN (-1)) (cM (cN 2) (cV 1)))) (cM (cA (cN 1) (cM (cN 2) (cH 0))) (cW (cA (cA (cN 3) (cM (cN 5) (cV 1))) (cM (cN 2) (cW (cV 1) 4))) 6))))) (cM (cR (cN 6)) (cA (cN 1) (cH 0)))) (cD (cM (cM (cH 0) (cV 1)) (cA (cA (cA (cN (-10)) (cM (cN 11) (cV 1))) (cM (cN 16) (cW (cV 1) 4))) (cM (cN 4) (cW (cV 1) 6)))) (cM (cM (cM (cM (cM (cN 2) (cR (cN 6))) (cA (cN 1) (cH 0))) (cA (cN 1) (cV 1))) (cA (cN 3) (cM (cN 2) (cV 1)))) (cR (cM (cM (cM (cH 0) (cA (cN 1) (cM (cN 2) (cH 0)))) (cV 1)) (cA (cA (cA (cN (-3)) (cV 1)) (cM (cN 8) (cW (cV 1) 4))) (cM (cN 4) (cW (cV 1) 6)))))))) (cD (cA (cA (cB (cD (cM (cN (-6)) (cR (cD (cM (cM (cH 0) (cV 1)) (cA (cN (-1)) (cM (cN 2) (cV 1)))) (cM (cA (cN 1) (cM (cN 2) (cH 0))) (cW (cA (cA (cN 3) (cM (cN 5) (cV 1))) (cM (cN 2) (cW (cV 1) 4))) 6))))) (cA (cN 1) (cH 0))) (cD (cM (cN 3) (cR (cD (cM (cM (cM (cH 0) (cA (cN 1) (cM (cN 2) (cH 0)))) (cV 1)) (cA (cN (-1)) (cM (cN 2) (cV 1)))) (cW (cA (cA (cN 3) (cM (cN 5) (cV 1))) (cM (cN 2) (cW (cV 1) 4))) 6)))) (cA (cN 1) (cH 0)))) (cM (cM (cN 2) (cB (cV 1) (cM (cN 2) (cW (cV 1) 4)))) (cR (cD (cM (cH 0) (cW (cA (cN 1) (cM (cN 2) (cV 1))) 4)) (cM (cM (cM (cM (cW (cA (cN 1) (cH 0)) 4) (cA (cN 1) (cM (cN 2) (cH 0)))) (cV 1)) (cA (cN (-1)) (cM (cN 2) (cV 1)))) (cW (cA (cA (cN 3) (cM (cN 5) (cV 1))) (cM (cN 2) (cW (cV 1) 4))) 6)))))) (cM (cM (cH 0) (cB (cV 1) (cM (cN 2) (cW (cV 1) 4)))) (cR (cD (cM (cA (cN 1) (cM (cN 2) (cH 0))) (cW (cA (cN 1) (cM (cN 2) (cV 1))) 4)) (cM (cM (cM (cM (cH 0) (cW (cA (cN 1) (cH 0)) 4)) (cV 1)) (cA (cN (-1)) (cM (cN 2) (cV 1)))) (cW (cA (cA (cN 3) (cM (cN 5) (cV 1))) (cM (cN 2) (cW (cV 1) 4))) 6)))))) (cR (cN 6)))) (cD (cM (cM (cV 1) (cA (cN (-1)) (cM (cN 2) (cV 1)))) (cA (cM (cH 0) (cR (cD (cA (cN 2) (cM (cN 4) (cH 0))) (cM (cM (cM (cM (cH 0) (cW (cA (cN 1) (cH 0)) 4)) (cV 1)) (cA (cN (-1)) (cM (cN 2) (cV 1)))) (cW (cA (cA (cN 3) (cM (cN 5) (cV 1))) (cM (cN 2) (cW (cV 1) 4))) 4))))) (cD (cM (cM (cN 2) (cR (cN 2))) (cR (cD (cH 0) (cM (cM (cA (cN 1) (cM (cN 2) (cH 0))) (cV 1)) (cA (cN (-1)) (cM (cN 2) (cV 1))))))) (cM (cA (cN 1) (cH 0)) (cA (cA (cN 3) (cM (cN 5) (cV 1))) (cM (cN 2) (cW (cV 1) 4))))))) (cM (cN 4) (cR (cA (cA (cN 9) (cM (cN 15) (cV 1))) (cM (cN 6) (cW (cV 1) 4))))))) (cD (cA (cA (cA (cA (cB (cD (cM (cM (cM (cV 1) (cA (cN (-1)) (cM (cN 2) (cV 1)))) (cA (cN 1) (cM (cN 2) (cV 1)))) (cR (cD (cM (cH 0) (cA (cN 1) (cM (cN 2) (cH 0)))) (cM (cV 1) (cA (cA (cN (-1)) (cV 1)) (cM (cN 2) (cW (cV 1) 4))))))) (cM (cA (cN 1) (cH 0)) (cW (cA (cN 3) (cM (cN 2) (cV 1))) 3))) (cM (cM (cN 2) (cB (cV 1) (cM (cN 2) (cW (cV 1) 4)))) (cR (cD (cM (cH 0) (cW (cA (cN 1) (cM (cN 2) (cV 1))) 4)) (cM (cM (cM (cM (cW (cA (cN 1) (cH 0)) 4) (cA (cN 1) (cM (cN 2) (cH 0)))) (cV 1)) (cW (cA (cN 3) (cM (cN 2) (cV 1))) 6)) (cA (cA (cN (-1)) (cV 1)) (cM (cN 2) (cW (cV 1) 4)))))))) (cD (cM (cM (cN 3) (cR (cM (cM (cM (cH 0) (cA (cN 1) (cM (cN 2) (cH 0)))) (cV 1)) (cA (cN (-1)) (cM (cN 2) (cV 1)))))) (cA (cN 1) (cM (cN 2) (cV 1)))) (cM (cA (cN 1) (cH 0)) (cW (cA (cA (cN 3) (cM (cN 5) (cV 1))) (cM (cN 2) (cW (cV 1) 4))) 3)))) (cD (cM (cM (cM (cN 12) (cV 1)) (cA (cN (-1)) (cM (cN 2) (cV 1)))) (cR (cD (cH 0) (cM (cM (cM (cW (cA (cN 1) (cH 0)) 4) (cA (cN 1) (cM (cN 2) (cH 0)))) (cV 1)) (cA (cA (cA (cN (-3)) (cV 1)) (cM (cN 8) (cW (cV 1) 4))) (cM (cN 4) (cW (cV 1) 6))))))) (cA (cA (cN 3) (cM (cN 5) (cV 1))) (cM (cN 2) (cW (cV 1) 4))))) (cD (cM (cM (cM (cN 6) (cV 1)) (cA (cN (-1)) (cM (cN 2) (cV 1)))) (cR (cD (cM (cH 0) (cA (cN 1) (cM (cN 2) (cH 0)))) (cM (cV 1) (cA (cA (cA (cN (-3)) (cV 1)) (cM (cN 8) (cW (cV 1) 4))) (cM (cN 4) (cW (cV 1) 6))))))) (cM (cA (cN 1) (cH 0)) (cA (cA (cN 3) (cM (cN 5) (cV 1))) (cM (cN 2) (cW (cV 1) 4)))))) (cD (cM (cM (cM (cN 6) (cA (cN (-1)) (cM (cN 2) (cV 1)))) (cA (cN 1) (cM (cN 2) (cV 1)))) (cR (cD (cM (cH 0) (cV 1)) (cM (cA (cN 1) (cM (cN 2) (cH 0))) (cA (cA (cA (cN (-3)) (cV 1)) (cM (cN 8) (cW (cV 1) 4))) (cM (cN 4) (cW (cV 1) 6))))))) (cM (cA (cN 1) (cH 0)) (cA (cA (cN 3) (cM (cN 5) (cV 1))) (cM (cN 2) (cW (cV 1) 4)))))) (cM (cN 2) (cR (cN 6))))) (cD (cA (cM (cN 2) (cR (cM (cM (cH 0) (cV 1)) (cA (cA (cA (cN (-3)) (cV 1)) (cM (cN 8) (cW (cV 1) 4))) (cM (cN 4) (cW (cV 1) 6)))))) (cR (cM (cM (cH 0) (cW (cV 1) 6)) (cA (cA (cA (cN (-3)) (cV 1)) (cM (cN 8) (cW (cV 1) 4))) (cM (cN 4) (cW (cV 1) 6)))))) (cM (cM (cA (cN 1) (cH 0)) (cR (cA (cQ 3 2) (cM (cN 3) (cH 0))))) (cW (cA (cA (cN 3) (cM (cN 5) (cV 1))) (cM (cN 2) (cW (cV 1) 4))) 4)))).
Definition SPSU2T_e1023 := (cB (cA (cA (cA (cA (cD (cR (cQ 3 2)) (cM (cA (cN 1) (cH 0)) (cR (cM (cV 1) (cA (cA (cA (cN (-3)) (cV 1)) (cM (cN 8) (cW (cV 1) 4))) (cM (cN 4) (cW (cV 1) 6))))))) (cD (cM (cR (cQ 3 2)) (cA (cN 1) (cM (cN 2) (cH 0)))) (cM (cA (cN 1) (cH 0)) (cR (cM (cV 1) (cA (cA (cA (cN (-3)) (cV 1)) (cM (cN 8) (cW (cV 1) 4))) (cM (cN 4) (cW (cV 1) 6)))))))) (cD (cM (cR (cQ 3 2)) (cA (cN (-1)) (cM (cN 2) (cV 1)))) (cM (cM (cN 2) (cA (cN 1) (cH 0))) (cR (cM (cV 1) (cA (cA (cA (cN (-3)) (cV 1)) (cM (cN 8) (cW (cV 1) 4))) (cM (cN 4) (cW (cV 1) 6)))))))) (cD (cM (cM (cR (cQ 3 2)) (cA (cN 1) (cM (cN 2) (cH 0)))) (cA (cN (-1)) (cM (cN 2) (cV 1)))) (cM (cM (cN 2) (cA (cN 1) (cH 0))) (cR (cM (cV 1) (cA (cA (cA (cN (-3)) (cV 1)) (cM (cN 8) (cW (cV 1) 4))) (cM (cN 4) (cW (cV 1) 6)))))))) (cD (cM (cM (cA (cN 1) (cM (cN 2) (cH 0))) (cV 1)) (cA (cN (-1)) (cM (cN 2) (cV 1)))) (cM (cM (cM (cN 2) (cR (cN 6))) (cA (cN 1) (cH 0))) (cR (cM (cV 1) (cA (cA (cA (cN (-3)) (cV 1)) (cM (cN 8) (cW (cV 1) 4))) (cM (cN 4) (cW (cV 1) 6)))))))) (cD (cM (cM (cV 1) (cA (cN (-1)) (cM (cN 2) (cV 1)))) (cB (cO (cD (cA (cN 1) (cM (cN 2) (cH 0))) (cM (cA (cN 1) (cH 0)) (cR (cD (cM (cM (cW (cA (cN 3) (cM (cN 2) (cH 0))) 4) (cV 1)) (cA (cA (cA (cN (-3)) (cV 1)) (cM (cN 8) (cW (cV 1) 4))) (cM (cN 4) (cW (cV 1) 6)))) (cA (cN 2) (cM (cN 4) (cV 1)))))))) (cD (cN 2) (cR (cD (cM (cM (cM (cW (cA (cN 1) (cH 0)) 4) (cW (cA (cN 3) (cM (cN 2) (cH 0))) 4)) (cV 1)) (cA (cA (cA (cN (-3)) (cV 1)) (cM (cN 8) (cW (cV 1) 4))) (cM (cN 4) (cW (cV 1) 6)))) (cA (cN 2) (cM (cN 4) (cV 1)))))))) (cM (cN 4) (cR (cA (cN 3) (cM (cN 6) (cV 1))))))).
Definition SPSU2T_e1024 := (cO (cD (cA (cA (cA (cM (cN 3) (cR (cM (cM (cV 1) (cW (cA (cN 1) (cV 1)) 6)) (cA (cA (cN (-3)) (cM (cN 4) (cV 1))) (cM (cN 4) (cW (cV 1) 4)))))) (cM (cM (cN 2) (cW (cV 1) 4)) (cR (cM (cM (cV 1) (cW (cA (cN 1) (cV 1)) 6)) (cA (cA (cN (-3)) (cM (cN 4) (cV 1))) (cM (cN 4) (cW (cV 1) 4))))))) (cM (cM (cN 5) (cV 1)) (cR (cM (cV 1) (cA (cA (cA (cN (-3)) (cV 1)) (cM (cN 8) (cW (cV 1) 4))) (cM (cN 4) (cW (cV 1) 6))))))) (cM (cN 5) (cR (cM (cW (cV 1) 10) (cA (cA (cA (cN (-3)) (cV 1)) (cM (cN 8) (cW (cV 1) 4))) (cM (cN 4) (cW (cV 1) 6))))))) (cM (cM (cM (cR (cN 6)) (cV 1)) (cW (cA (cN 1) (cV 1)) 6)) (cA (cN 3) (cM (cN 2) (cV 1)))))).
Definition SPSU2T_e1025 := (cB (cA (cA (cA (cB (cD (cM (cA (cN 1) (cM (cN 2) (cH 0))) (cR (cM (cV 1) (cA (cN (-1)) (cM (cN 2) (cV 1)))))) (cM (cM (cM (cN 2) (cR (cN 6))) (cA (cN 1) (cH 0))) (cW (cA (cA (cN 3) (cM (cN 5) (cV 1))) (cM (cN 2) (cW (cV 1) 4))) 3))) (cD (cM (cM (cR (cQ 2 3)) (cA (cN 2) (cV 1))) (cR (cM (cV 1) (cA (cN (-1)) (cM (cN 2) (cV 1)))))) (cM (cA (cN 1) (cH 0)) (cW (cA (cA (cN 3) (cM (cN 5) (cV 1))) (cM (cN 2) (cW (cV 1) 4))) 3)))) (cD (cM (cA (cA (cN 10) (cM (cN 9) (cV 1))) (cM (cN 2) (cW (cV 1) 4))) (cR (cM (cV 1) (cA (cA (cA (cN (-3)) (cV 1)) (cM (cN 8) (cW (cV 1) 4))) (cM (cN 4) (cW (cV 1) 6)))))) (cM (cM (cM (cN 2) (cR (cN 6))) (cA (cN 1) (cH 0))) (cW (cA (cA (cN 3) (cM (cN 5) (cV 1))) (cM (cN 2) (cW (cV 1) 4))) 4)))) (cD (cM (cM (cA (cN 1) (cM (cN 2) (cH 0))) (cA (cA (cN 10) (cM (cN 9) (cV 1))) (cM (cN 2) (cW (cV 1) 4)))) (cR (cM (cV 1) (cA (cA (cA (cN (-3)) (cV 1)) (cM (cN 8) (cW (cV 1) 4))) (cM (cN 4) (cW (cV 1) 6)))))) (cM (cM (cM (cN 2) (cR (cN 6))) (cA (cN 1) (cH 0))) (cW (cA (cA (cN 3) (cM (cN 5) (cV 1))) (cM (cN 2) (cW (cV 1) 4))) 4)))) (cD (cM (cA (cN (-1)) (cM (cN 2) (cV 1))) (cB (cB (cB (cM (cM (cN (-6)) (cA (cN 1) (cM (cN 2) (cH 0)))) (cR (cD (cM (cA (cN 1) (cH 0)) (cV 1)) (cM (cM (cA (cN 3) (cM (cN 2) (cH 0))) (cA (cN (-1)) (cM (cN 2) (cV 1)))) (cW (cA (cA (cN 3) (cM (cN 5) (cV 1))) (cM (cN 2) (cW (cV 1) 4))) 4))))) (cM (cN 3) (cR (cD (cM (cW (cA (cN 1) (cM (cN 2) (cH 0))) 4) (cV 1)) (cM (cM (cA (cA (cN 3) (cM (cN 5) (cH 0))) (cM (cN 2) (cW (cH 0) 4))) (cA (cN (-1)) (cM (cN 2) (cV 1)))) (cW (cA (cA (cN 3) (cM (cN 5) (cV 1))) (cM (cN 2) (cW (cV 1) 4))) 4)))))) (cD (cM (cM (cM (cN 2) (cA (cN 1) (cM (cN 2) (cH 0)))) (cV 1)) (cA (cN 1) (cM (cN 2) (cV 1)))) (cM (cR (cD (cM (cM (cA (cN 3) (cM (cN 2) (cH 0))) (cV 1)) (cA (cN (-1)) (cM (cN 2) (cV 1)))) (cA (cN 1) (cH 0)))) (cA (cA (cN 3) (cM (cN 5) (cV 1))) (cM (cN 2) (cW (cV 1) 4)))))) (cD (cM (cM (cA (cN 1) (cM (cN 2) (cH 0))) (cV 1)) (cA (cN 1) (cM (cN 2) (cV 1)))) (cM (cR (cM (cM (cA (cA (cN 3) (cM (cN 5) (cH 0))) (cM (cN 2) (cW (cH 0) 4))) (cV 1)) (cA (cN (-1)) (cM (cN 2) (cV 1))))) (cA (cA (cN 3) (cM (cN 5) (cV 1))) (cM (cN 2) (cW (cV 1) 4))))))) (cM (cR (cN 6)) (cR (cM (cA (cA (cN 3) (cM (cN 5) (cH 0))) (cM (cN 2) (cW (cH 0) 4))) (cA (cA (cN 3) (cM (cN 5) (cV 1))) (cM (cN 2) (cW (cV 1) 4)))))))) (cD (cM (cM (cV 1) (cA (cN (-1)) (cM (cN 2) (cV 1)))) (cB (cO (cD (cA (cN 1) (cM (cN 2) (cH 0))) (cM (cA (cN 1) (cH 0)) (cR (cD (cM (cM (cW (cA (cN 3) (cM (cN 2) (cH 0))) 4) (cV 1)) (cA (cA (cA (cN (-3)) (cV 1)) (cM (cN 8) (cW (cV 1) 4))) (cM (cN 4) (cW (cV 1) 6)))) (cA (cN 2) (cM (cN 4) (cV 1)))))))) (cD (cN 2) (cR (cD (cM (cM (cM (cW (cA (cN 1) (cH 0)) 4) (cW (cA (cN 3) (cM (cN 2) (cH 0))) 4)) (cV 1)) (cA (cA (cA (cN (-3)) (cV 1)) (cM (cN 8) (cW (cV 1) 4))) (cM (cN 4) (cW (cV 1) 6)))) (cA (cN 2) (cM (cN 4) (cV 1)))))))) (cM (cM (cN 4) (cR (cN 3))) (cR (cM (cA (cN 1) (cM (cN 2) (cV 1))) (cW (cA (cA (cN 3) (cM (cN 5) (cV 1))) (cM (cN 2) (cW (cV 1) 4))) 4)))))).
Definition SPSU2T_e1026 := (cD (cM (cR (cQ 3 2)) (cA (cA (cB (cA (cB (cD (cM (cM (cV 1) (cA (cA (cA (cN (-10)) (cM (cN 11) (cV 1))) (cM (cN 16) (cW (cV 1) 4))) (cM (cN 4) (cW (cV 1) 6)))) (cR (cD (cA (cN 1) (cM (cN 2) (cH 0))) (cM (cA (cN 1) (cH 0)) (cA (cA (cA (cB (cN (-2)) (cM (cN 3) (cV 1))) (cM (cN 7) (cW (cV 1) 4))) (cM (cN 12) (cW (cV 1) 6))) (cM (cN 4) (cW (cV 1) 8))))))) (cM (cA (cN 1) (cV 1)) (cA (cN 3) (cM (cN 2) (cV 1))))) (cD (cM (cM (cN 3) (cA (cN 2) (cV 1))) (cA (cN (-1)) (cM (cN 2) (cV 1)))) (cM (cA (cA (cN 3) (cM (cN 5) (cV 1))) (cM (cN 2) (cW (cV 1) 4))) (cR (cD (cM (cA (cN 1) (cH 0)) (cA (cA (cA (cB (cN (-2)) (cM (cN 3) (cV 1))) (cM (cN 7) (cW (cV 1) 4))) (cM (cN 12) (cW (cV 1) 6))) (cM (cN 4) (cW (cV 1) 8)))) (cA (cN 1) (cM (cN 2) (cH 0)))))))) (cD (cM (cN 6) (cA (cA (cN (-2)) (cM (cN 3) (cV 1))) (cM (cN 2) (cW (cV 1) 4)))) (cM (cM (cA (cN 1) (cV 1)) (cA (cN 3) (cM (cN 2) (cV 1)))) (cR (cM (cA (cA (cN 1) (cM (cN 3) (cH 0))) (cM (cN 2) (cW (cH 0) 4))) (cA (cA (cA (cB (cN (-2)) (cM (cN 3) (cV 1))) (cM (cN 7) (cW (cV 1) 4))) (cM (cN 12) (cW (cV 1) 6))) (cM (cN 4) (cW (cV 1) 8)))))))) (cD (cM (cM (cN 3) (cA (cN 2) (cV 1))) (cA (cN (-1)) (cM (cN 2) (cV 1)))) (cM (cA (cA (cN 3) (cM (cN 5) (cV 1))) (cM (cN 2) (cW (cV 1) 4))) (cR (cM (cA (cA (cN 1) (cM (cN 3) (cH 0))) (cM (cN 2) (cW (cH 0) 4))) (cA (cA (cA (cB (cN (-2)) (cM (cN 3) (cV 1))) (cM (cN 7) (cW (cV 1) 4))) (cM (cN 12) (cW (cV 1) 6))) (cM (cN 4) (cW (cV 1) 8)))))))) (cD (cM (cV 1) (cA (cA (cA (cN (-10)) (cM (cN 11) (cV 1))) (cM (cN 16) (cW (cV 1) 4))) (cM (cN 4) (cW (cV 1) 6)))) (cM (cM (cA (cN 1) (cV 1)) (cA (cN 3) (cM (cN 2) (cV 1)))) (cR (cM (cA (cA (cN 1) (cM (cN 3) (cH 0))) (cM (cN 2) (cW (cH 0) 4))) (cA (cA (cA (cB (cN (-2)) (cM (cN 3) (cV 1))) (cM (cN 7) (cW (cV 1) 4))) (cM (cN 12) (cW (cV 1) 6))) (cM (cN 4) (cW (cV 1) 8)))))))) (cD (cM (cN 6) (cA (cB (cM (cN 2) (cR (cD (cM (cM (cA (cN 1) (cM (cN 2) (cH 0))) (cV 1)) (cA (cN (-1)) (cM (cN 2) (cV 1)))) (cA (cA (cN 3) (cM (cN 8) (cV 1))) (cM (cN 4) (cW (cV 1) 4)))))) (cR (cD (cM (cA (cN 1) (cM (cN 2) (cH 0))) (cW (cV 1) 6)) (cA (cA (cB (cN (-3)) (cM (cN 2) (cV 1))) (cM (cN 12) (cW (cV 1) 4))) (cM (cN 8) (cW (cV 1) 6)))))) (cM (cN 2) (cR (cD (cM (cA (cN 1) (cM (cN 2) (cH 0))) (cW (cV 1) 10)) (cA (cA (cB (cN (-3)) (cM (cN 2) (cV 1))) (cM (cN 12) (cW (cV 1) 4))) (cM (cN 8) (cW (cV 1) 6)))))))) (cM (cA (cN 1) (cV 1)) (cR (cM (cM (cA (cN 1) (cH 0)) (cV 1)) (cA (cA (cA (cN 6) (cM (cN 13) (cV 1))) (cM (cN 9) (cW (cV 1) 4))) (cM (cN 2) (cW (cV 1) 6))))))))) (cN 2)).
Definition SPSU2T_e1027 := (cD (cA (cA (cA (cA (cA (cD (cM (cM (cN 3) (cV 1)) (cA (cN 5) (cM (cN 2) (cV 1)))) (cM (cM (cA (cN 1) (cV 1)) (cA (cN 3) (cM (cN 2) (cV 1)))) (cR (cD (cM (cA (cN 1) (cH 0)) (cA (cA (cN 2) (cM (cN 3) (cV 1))) (cW (cV 1) 4))) (cA (cN 1) (cM (cN 2) (cH 0))))))) (cD (cM (cM (cN 3) (cV 1)) (cA (cN 5) (cM (cN 2) (cV 1)))) (cM (cM (cA (cN 1) (cV 1)) (cA (cN 3) (cM (cN 2) (cV 1)))) (cR (cM (cA (cA (cN 1) (cM (cN 3) (cH 0))) (cM (cN 2) (cW (cH 0) 4))) (cA (cA (cN 2) (cM (cN 3) (cV 1))) (cW (cV 1) 4))))))) (cD (cA (cA (cB (cN 12) (cM (cN 7) (cV 1))) (cW (cV 1) 4)) (cM (cN 2) (cW (cV 1) 6))) (cM (cM (cW (cA (cN 1) (cV 1)) 3) (cR (cM (cA (cA (cN 1) (cM (cN 3) (cH 0))) (cM (cN 2) (cW (cH 0) 4))) (cA (cN 2) (cV 1))))) (cA (cN 3) (cM (cN 2) (cV 1)))))) (cD (cA (cA (cB (cN 12) (cM (cN 7) (cV 1))) (cW (cV 1) 4)) (cM (cN 2) (cW (cV 1) 6))) (cM (cA (cN 1) (cV 1)) (cR (cD (cM (cM (cA (cN 1) (cH 0)) (cW (cA (cN 3) (cM (cN 2) (cV 1))) 4)) (cA (cA (cN 2) (cM (cN 3) (cV 1))) (cW (cV 1) 4))) (cA (cN 1) (cM (cN 2) (cH 0)))))))) (cD (cM (cM (cM (cN 3) (cV 1)) (cR (cD (cM (cA (cN 1) (cM (cN 2) (cH 0))) (cA (cN 1) (cM (cN 2) (cV 1)))) (cA (cN 1) (cH 0))))) (cA (cA (cM (cN 6) (cR (cD (cA (cA (cN 2) (cM (cN 3) (cV 1))) (cW (cV 1) 4)) (cA (cN 1) (cM (cN 2) (cV 1)))))) (cM (cN 4) (cR (cA (cA (cA (cN 2) (cM (cN 7) (cV 1))) (cM (cN 7) (cW (cV 1) 4))) (cM (cN 2) (cW (cV 1) 6)))))) (cM (cV 1) (cR (cA (cA (cA (cN 2) (cM (cN 7) (cV 1))) (cM (cN 7) (cW (cV 1) 4))) (cM (cN 2) (cW (cV 1) 6))))))) (cM (cM (cW (cA (cN 1) (cV 1)) 4) (cW (cA (cN 2) (cV 1)) 4)) (cA (cN 3) (cM (cN 2) (cV 1)))))) (cD (cM (cM (cM (cN 3) (cV 1)) (cR (cD (cA (cN 1) (cM (cN 2) (cV 1))) (cA (cA (cN 1) (cM (cN 3) (cH 0))) (cM (cN 2) (cW (cH 0) 4)))))) (cA (cA (cM (cN 6) (cR (cD (cA (cA (cN 2) (cM (cN 3) (cV 1))) (cW (cV 1) 4)) (cA (cN 1) (cM (cN 2) (cV 1)))))) (cM (cN 4) (cR (cA (cA (cA (cN 2) (cM (cN 7) (cV 1))) (cM (cN 7) (cW (cV 1) 4))) (cM (cN 2) (cW (cV 1) 6)))))) (cM (cV 1) (cR (cA (cA (cA (cN 2) (cM (cN 7) (cV 1))) (cM (cN 7) (cW (cV 1) 4))) (cM (cN 2) (cW (cV 1) 6))))))) (cM (cM (cW (cA (cN 1) (cV 1)) 4) (cW (cA (cN 2) (cV 1)) 4)) (cA (cN 3) (cM (cN 2) (cV 1)))))) (cM (cN 2) (cR (cN 2)))).
Definition SPSU2T_e1028 := (cA (cA (cA (cA (cB (cD (cM (cQ (-1) 2) (cM (cA (cN 1) (cM (cN 2) (cV 1))) (cA (cA (cA (cM (cN 9) (cR (cD (cM (cM (cA (cN 1) (cM (cN 2) (cH 0))) (cV 1)) (cA (cN 1) (cV 1))) (cA (cN 3) (cM (cN 2) (cV 1)))))) (cM (cN 6) (cR (cD (cA (cV 1) (cM (cM (cN 2) (cH 0)) (cV 1))) (cA (cA (cN 3) (cM (cN 5) (cV 1))) (cM (cN 2) (cW (cV 1) 4))))))) (cM (cN 5) (cR (cM (cM (cA (cN 1) (cM (cN 2) (cH 0))) (cV 1)) (cA (cA (cN 3) (cM (cN 5) (cV 1))) (cM (cN 2) (cW (cV 1) 4))))))) (cM (cV 1) (cR (cM (cM (cA (cN 1) (cM (cN 2) (cH 0))) (cV 1)) (cA (cA (cN 3) (cM (cN 5) (cV 1))) (cM (cN 2) (cW (cV 1) 4))))))))) (cM (cM (cA (cN 2) (cV 1)) (cA (cN 5) (cM (cN 2) (cV 1)))) (cR (cM (cA (cN 1) (cH 0)) (cA (cA (cA (cN 6) (cM (cN 13) (cV 1))) (cM (cN 9) (cW (cV 1) 4))) (cM (cN 2) (cW (cV 1) 6))))))) (cD (cM (cA (cN 1) (cM (cN 2) (cV 1))) (cA (cA (cA (cM (cN 9) (cR (cD (cM (cV 1) (cA (cN 1) (cV 1))) (cA (cN 3) (cM (cN 2) (cV 1)))))) (cM (cN 6) (cR (cD (cV 1) (cA (cA (cN 3) (cM (cN 5) (cV 1))) (cM (cN 2) (cW (cV 1) 4))))))) (cM (cN 5) (cR (cM (cV 1) (cA (cA (cN 3) (cM (cN 5) (cV 1))) (cM (cN 2) (cW (cV 1) 4))))))) (cR (cM (cW (cV 1) 6) (cA (cA (cN 3) (cM (cN 5) (cV 1))) (cM (cN 2) (cW (cV 1) 4))))))) (cM (cM (cM (cN 2) (cA (cN 2) (cV 1))) (cA (cN 5) (cM (cN 2) (cV 1)))) (cR (cM (cA (cA (cN 1) (cM (cN 3) (cH 0))) (cM (cN 2) (cW (cH 0) 4))) (cA (cA (cA (cN 6) (cM (cN 13) (cV 1))) (cM (cN 9) (cW (cV 1) 4))) (cM (cN 2) (cW (cV 1) 6)))))))) (cD (cM (cM (cN 3) (cV 1)) (cA (cA (cD (cN 3) (cR (cD (cM (cM (cM (cV 1) (cW (cA (cN 2) (cV 1)) 6)) (cW (cA (cN 5) (cM (cN 2) (cV 1))) 4)) (cW (cA (cA (cN 3) (cM (cN 5) (cV 1))) (cM (cN 2) (cW (cV 1) 4))) 4)) (cA (cN 1) (cM (cN 2) (cV 1)))))) (cR (cD (cA (cN 1) (cM (cN 2) (cV 1))) (cM (cM (cV 1) (cW (cA (cN 2) (cV 1)) 6)) (cW (cA (cA (cN 15) (cM (cN 16) (cV 1))) (cM (cN 4) (cW (cV 1) 4))) 4))))) (cD (cN 6) (cM (cM (cA (cN 5) (cM (cN 2) (cV 1))) (cR (cM (cV 1) (cA (cA (cN 2) (cM (cN 5) (cV 1))) (cM (cN 2) (cW (cV 1) 4)))))) (cA (cA (cA (cN 6) (cM (cN 13) (cV 1))) (cM (cN 9) (cW (cV 1) 4))) (cM (cN 2) (cW (cV 1) 6))))))) (cM (cN 2) (cR (cD (cM (cA (cN 1) (cH 0)) (cA (cN 1) (cM (cN 2) (cH 0)))) (cA (cN 1) (cM (cN 2) (cV 1)))))))) (cD (cM (cM (cM (cN 3) (cV 1)) (cR (cD (cM (cA (cN 1) (cM (cN 2) (cH 0))) (cA (cN 1) (cM (cN 2) (cV 1)))) (cA (cN 1) (cH 0))))) (cA (cA (cD (cN 3) (cR (cD (cM (cM (cM (cV 1) (cW (cA (cN 2) (cV 1)) 6)) (cW (cA (cN 5) (cM (cN 2) (cV 1))) 4)) (cW (cA (cA (cN 3) (cM (cN 5) (cV 1))) (cM (cN 2) (cW (cV 1) 4))) 4)) (cA (cN 1) (cM (cN 2) (cV 1)))))) (cR (cD (cA (cN 1) (cM (cN 2) (cV 1))) (cM (cM (cV 1) (cW (cA (cN 2) (cV 1)) 6)) (cW (cA (cA (cN 15) (cM (cN 16) (cV 1))) (cM (cN 4) (cW (cV 1) 4))) 4))))) (cD (cN 6) (cM (cM (cA (cN 5) (cM (cN 2) (cV 1))) (cR (cM (cV 1) (cA (cA (cN 2) (cM (cN 5) (cV 1))) (cM (cN 2) (cW (cV 1) 4)))))) (cA (cA (cA (cN 6) (cM (cN 13) (cV 1))) (cM (cN 9) (cW (cV 1) 4))) (cM (cN 2) (cW (cV 1) 6))))))) (cN 2))) (cD (cA (cA (cM (cN (-33)) (cR (cD (cV 1) (cA (cA (cN 3) (cM (cN 5) (cV 1))) (cM (cN 2) (cW (cV 1) 4)))))) (cR (cM (cV 1) (cA (cA (cN 3) (cM (cN 5) (cV 1))) (cM (cN 2) (cW (cV 1) 4)))))) (cM (cM (cN 2) (cV 1)) (cA (cM (cN (-9)) (cR (cD (cV 1) (cA (cA (cN 3) (cM (cN 5) (cV 1))) (cM (cN 2) (cW (cV 1) 4)))))) (cR (cM (cV 1) (cA (cA (cN 3) (cM (cN 5) (cV 1))) (cM (cN 2) (cW (cV 1) 4)))))))) (cM (cM (cN 2) (cA (cA (cN 10) (cM (cN 9) (cV 1))) (cM (cN 2) (cW (cV 1) 4)))) (cR (cM (cM (cA (cN 1) (cH 0)) (cA (cN 1) (cM (cN 2) (cH 0)))) (cA (cA (cA (cN 6) (cM (cN 13) (cV 1))) (cM (cN 9) (cW (cV 1) 4))) (cM (cN 2) (cW (cV 1) 6)))))))) (cD (cA (cA (cM (cN (-33)) (cR (cD (cA (cV 1) (cM (cM (cN 2) (cH 0)) (cV 1))) (cA (cA (cN 3) (cM (cN 5) (cV 1))) (cM (cN 2) (cW (cV 1) 4)))))) (cR (cM (cM (cA (cN 1) (cM (cN 2) (cH 0))) (cV 1)) (cA (cA (cN 3) (cM (cN 5) (cV 1))) (cM (cN 2) (cW (cV 1) 4)))))) (cM (cM (cN 2) (cV 1)) (cA (cM (cN (-9)) (cR (cD (cA (cV 1) (cM (cM (cN 2) (cH 0)) (cV 1))) (cA (cA (cN 3) (cM (cN 5) (cV 1))) (cM (cN 2) (cW (cV 1) 4)))))) (cR (cM (cM (cA (cN 1) (cM (cN 2) (cH 0))) (cV 1)) (cA (cA (cN 3) (cM (cN 5) (cV 1))) (cM (cN 2) (cW (cV 1) 4)))))))) (cM (cM (cN 2) (cA (cA (cN 10) (cM (cN 9) (cV 1))) (cM (cN 2) (cW (cV 1) 4)))) (cR (cM (cA (cN 1) (cH 0)) (cA (cA (cA (cN 6) (cM (cN 13) (cV 1))) (cM (cN 9) (cW (cV 1) 4))) (cM (cN 2) (cW (cV 1) 6)))))))).
Definition SPSU2T_e1029 := (cD (cA (cA (cA (cB (cB (cD (cM (cM (cM (cN (-4)) (cH 0)) (cV 1)) (cA (cN 2) (cV 1))) (cM (cA (cN 1) (cM (cN 2) (cV 1))) (cR (cD (cM (cM (cM (cM (cH 0) (cW (cA (cN 1) (cH 0)) 4)) (cA (cN 1) (cM (cN 2) (cH 0)))) (cW (cA (cN 1) (cV 1)) 6)) (cA (cA (cN 6) (cM (cN 7) (cV 1))) (cM (cN 2) (cW (cV 1) 4)))) (cA (cN 1) (cM (cN 2) (cV 1))))))) (cD (cM (cM (cM (cH 0) (cV 1)) (cA (cN 2) (cV 1))) (cR (cD (cA (cN 1) (cM (cN 2) (cV 1))) (cM (cM (cW (cA (cN 1) (cH 0)) 4) (cA (cH 0) (cM (cN 2) (cW (cH 0) 4)))) (cA (cA (cA (cN 6) (cM (cN 13) (cV 1))) (cM (cN 9) (cW (cV 1) 4))) (cM (cN 2) (cW (cV 1) 6))))))) (cA (cN 1) (cV 1)))) (cD (cM (cM (cN 3) (cH 0)) (cA (cN 2) (cV 1))) (cM (cA (cN 1) (cV 1)) (cR (cM (cM (cM (cH 0) (cW (cA (cN 1) (cH 0)) 4)) (cA (cN 1) (cM (cN 2) (cH 0)))) (cA (cA (cA (cA (cN 6) (cM (cN 25) (cV 1))) (cM (cN 35) (cW (cV 1) 4))) (cM (cN 20) (cW (cV 1) 6))) (cM (cN 4) (cW (cV 1) 8)))))))) (cD (cM (cM (cN 3) (cA (cN 2) (cV 1))) (cA (cR (cD (cM (cH 0) (cA (cN 1) (cM (cN 2) (cH 0)))) (cM (cA (cN 1) (cH 0)) (cA (cN 1) (cM (cN 2) (cV 1)))))) (cM (cN 2) (cR (cD (cH 0) (cM (cA (cA (cN 1) (cM (cN 3) (cH 0))) (cM (cN 2) (cW (cH 0) 4))) (cA (cN 1) (cM (cN 2) (cV 1))))))))) (cM (cA (cN 1) (cV 1)) (cR (cM (cA (cN 1) (cH 0)) (cA (cA (cA (cN 6) (cM (cN 13) (cV 1))) (cM (cN 9) (cW (cV 1) 4))) (cM (cN 2) (cW (cV 1) 6)))))))) (cD (cM (cV 1) (cA (cA (cA (cA (cA (cA (cA (cM (cM (cN 2) (cA (cN 1) (cV 1))) (cR (cD (cM (cH 0) (cA (cN 1) (cM (cN 2) (cV 1)))) (cM (cA (cN 1) (cM (cN 2) (cH 0))) (cA (cA (cA (cN 6) (cM (cN 13) (cV 1))) (cM (cN 9) (cW (cV 1) 4))) (cM (cN 2) (cW (cV 1) 6))))))) (cM (cM (cN 2) (cA (cN 1) (cV 1))) (cR (cD (cM (cW (cH 0) 6) (cA (cN 1) (cM (cN 2) (cV 1)))) (cM (cA (cN 1) (cM (cN 2) (cH 0))) (cA (cA (cA (cN 6) (cM (cN 13) (cV 1))) (cM (cN 9) (cW (cV 1) 4))) (cM (cN 2) (cW (cV 1) 6)))))))) (cR (cD (cM (cM (cH 0) (cA (cN 1) (cM (cN 2) (cH 0)))) (cA (cN 1) (cM (cN 2) (cV 1)))) (cA (cA (cA (cN 6) (cM (cN 13) (cV 1))) (cM (cN 9) (cW (cV 1) 4))) (cM (cN 2) (cW (cV 1) 6)))))) (cM (cA (cN 1) (cV 1)) (cR (cD (cM (cM (cH 0) (cA (cN 1) (cM (cN 2) (cH 0)))) (cA (cN 1) (cM (cN 2) (cV 1)))) (cA (cA (cA (cN 6) (cM (cN 13) (cV 1))) (cM (cN 9) (cW (cV 1) 4))) (cM (cN 2) (cW (cV 1) 6))))))) (cR (cD (cM (cM (cW (cH 0) 6) (cA (cN 1) (cM (cN 2) (cH 0)))) (cA (cN 1) (cM (cN 2) (cV 1)))) (cA (cA (cA (cN 6) (cM (cN 13) (cV 1))) (cM (cN 9) (cW (cV 1) 4))) (cM (cN 2) (cW (cV 1) 6)))))) (cM (cA (cN 1) (cV 1)) (cR (cD (cM (cM (cW (cH 0) 6) (cA (cN 1) (cM (cN 2) (cH 0)))) (cA (cN 1) (cM (cN 2) (cV 1)))) (cA (cA (cA (cN 6) (cM (cN 13) (cV 1))) (cM (cN 9) (cW (cV 1) 4))) (cM (cN 2) (cW (cV 1) 6))))))) (cM (cM (cN 2) (cA (cN 1) (cH 0))) (cR (cD (cH 0) (cM (cA (cN 1) (cM (cN 2) (cH 0))) (cA (cA (cA (cA (cN 6) (cM (cN 25) (cV 1))) (cM (cN 35) (cW (cV 1) 4))) (cM (cN 20) (cW (cV 1) 6))) (cM (cN 4) (cW (cV 1) 8)))))))) (cM (cM (cM (cN 4) (cA (cN 1) (cH 0))) (cV 1)) (cR (cD (cH 0) (cM (cA (cN 1) (cM (cN 2) (cH 0))) (cA (cA (cA (cA (cN 6) (cM (cN 25) (cV 1))) (cM (cN 35) (cW (cV 1) 4))) (cM (cN 20) (cW (cV 1) 6))) (cM (cN 4) (cW (cV 1) 8))))))))) (cM (cW (cA (cN 1) (cH 0)) 4) (cA (cN 1) (cV 1))))) (cD (cM (cM (cN 2) (cV 1)) (cA (cA (cA (cA (cA (cA (cA (cD (cM (cN 2) (cR (cD (cM (cH 0) (cA (cN 1) (cM (cN 2) (cV 1)))) (cM (cM (cA (cN 1) (cM (cN 2) (cH 0))) (cW (cA (cN 1) (cV 1)) 6)) (cA (cA (cN 6) (cM (cN 7) (cV 1))) (cM (cN 2) (cW (cV 1) 4))))))) (cA (cN 1) (cH 0))) (cD (cM (cN 2) (cR (cD (cM (cW (cH 0) 6) (cA (cN 1) (cM (cN 2) (cV 1)))) (cM (cM (cA (cN 1) (cM (cN 2) (cH 0))) (cW (cA (cN 1) (cV 1)) 6)) (cA (cA (cN 6) (cM (cN 7) (cV 1))) (cM (cN 2) (cW (cV 1) 4))))))) (cA (cN 1) (cH 0)))) (cD (cR (cD (cM (cM (cH 0) (cA (cN 1) (cM (cN 2) (cH 0)))) (cA (cN 1) (cM (cN 2) (cV 1)))) (cM (cW (cA (cN 1) (cV 1)) 6) (cA (cA (cN 6) (cM (cN 7) (cV 1))) (cM (cN 2) (cW (cV 1) 4)))))) (cA (cN 1) (cH 0)))) (cD (cR (cD (cM (cM (cW (cH 0) 6) (cA (cN 1) (cM (cN 2) (cH 0)))) (cA (cN 1) (cM (cN 2) (cV 1)))) (cM (cW (cA (cN 1) (cV 1)) 6) (cA (cA (cN 6) (cM (cN 7) (cV 1))) (cM (cN 2) (cW (cV 1) 4)))))) (cA (cN 1) (cH 0)))) (cD (cM (cN 3) (cR (cD (cM (cH 0) (cA (cN 1) (cM (cN 2) (cH 0)))) (cM (cW (cA (cN 1) (cV 1)) 6) (cA (cA (cA (cN 6) (cM (cN 19) (cV 1))) (cM (cN 16) (cW (cV 1) 4))) (cM (cN 4) (cW (cV 1) 6))))))) (cA (cN 1) (cH 0)))) (cD (cM (cN 3) (cR (cD (cM (cW (cH 0) 6) (cA (cN 1) (cM (cN 2) (cH 0)))) (cM (cW (cA (cN 1) (cV 1)) 6) (cA (cA (cA (cN 6) (cM (cN 19) (cV 1))) (cM (cN 16) (cW (cV 1) 4))) (cM (cN 4) (cW (cV 1) 6))))))) (cA (cN 1) (cH 0)))) (cD (cM (cN 6) (cR (cD (cH 0) (cM (cA (cN 1) (cM (cN 2) (cH 0))) (cA (cA (cA (cA (cN 6) (cM (cN 25) (cV 1))) (cM (cN 35) (cW (cV 1) 4))) (cM (cN 20) (cW (cV 1) 6))) (cM (cN 4) (cW (cV 1) 8))))))) (cA (cA (cN 1) (cM (cN 3) (cV 1))) (cM (cN 2) (cW (cV 1) 4))))) (cD (cM (cM (cN 12) (cV 1)) (cR (cD (cH 0) (cM (cA (cN 1) (cM (cN 2) (cH 0))) (cA (cA (cA (cA (cN 6) (cM (cN 25) (cV 1))) (cM (cN 35) (cW (cV 1) 4))) (cM (cN 20) (cW (cV 1) 6))) (cM (cN 4) (cW (cV 1) 8))))))) (cA (cA (cN 1) (cM (cN 3) (cV 1))) (cM (cN 2) (cW (cV 1) 4)))))) (cA (cN 1) (cH 0)))) (cM (cN 2) (cR (cN 2)))).
Definition SPSU2T_e1030 := (cD (cM (cV 1) (cB (cA (cB (cB (cA (cO (cD (cM (cA (cN 3) (cM (cN 2) (cH 0))) (cA (cN 5) (cM (cN 2) (cV 1)))) (cM (cM (cM (cA (cN 1) (cH 0)) (cA (cN 1) (cV 1))) (cR (cD (cM (cM (cA (cN 1) (cM (cN 2) (cH 0))) (cV 1)) (cA (cN 1) (cV 1))) (cH 0)))) (cA (cN 3) (cM (cN 2) (cV 1)))))) (cD (cM (cH 0) (cA (cN 5) (cM (cN 2) (cV 1)))) (cM (cM (cM (cA (cN 1) (cH 0)) (cA (cN 1) (cV 1))) (cR (cM (cM (cM (cH 0) (cA (cN 1) (cM (cN 2) (cH 0)))) (cV 1)) (cA (cN 1) (cV 1))))) (cA (cN 3) (cM (cN 2) (cV 1)))))) (cD (cM (cH 0) (cA (cN 1) (cM (cN 2) (cV 1)))) (cM (cM (cA (cN 1) (cH 0)) (cR (cM (cM (cM (cH 0) (cA (cN 1) (cM (cN 2) (cH 0)))) (cV 1)) (cA (cN 1) (cV 1))))) (cA (cA (cN 3) (cM (cN 5) (cV 1))) (cM (cN 2) (cW (cV 1) 4)))))) (cD (cB (cB (cB (cB (cB (cB (cB (cO (cD (cM (cR (cD (cM (cH 0) (cA (cN 1) (cM (cN 2) (cH 0)))) (cM (cM (cV 1) (cA (cN 1) (cV 1))) (cW (cA (cN 2) (cV 1)) 4)))) (cA (cN 1) (cM (cN 2) (cV 1)))) (cM (cA (cN 1) (cH 0)) (cA (cN 3) (cM (cN 2) (cV 1)))))) (cD (cM (cW (cH 0) 3) (cA (cN 1) (cM (cN 2) (cV 1)))) (cM (cM (cA (cN 1) (cH 0)) (cR (cD (cM (cM (cV 1) (cA (cN 1) (cV 1))) (cW (cA (cN 2) (cV 1)) 4)) (cA (cN 1) (cM (cN 2) (cH 0)))))) (cA (cN 3) (cM (cN 2) (cV 1)))))) (cD (cM (cN 2) (cR (cD (cH 0) (cM (cM (cA (cN 1) (cM (cN 2) (cH 0))) (cW (cA (cN 2) (cV 1)) 4)) (cA (cV 1) (cW (cV 1) 4)))))) (cA (cA (cN 3) (cM (cN 5) (cV 1))) (cM (cN 2) (cW (cV 1) 4))))) (cD (cM (cM (cN 4) (cV 1)) (cR (cD (cH 0) (cM (cM (cA (cN 1) (cM (cN 2) (cH 0))) (cW (cA (cN 2) (cV 1)) 4)) (cA (cV 1) (cW (cV 1) 4)))))) (cA (cA (cN 3) (cM (cN 5) (cV 1))) (cM (cN 2) (cW (cV 1) 4))))) (cM (cH 0) (cR (cD (cM (cA (cN 1) (cM (cN 2) (cH 0))) (cW (cA (cN 1) (cM (cN 2) (cV 1))) 4)) (cM (cM (cM (cM (cH 0) (cW (cA (cN 1) (cH 0)) 4)) (cV 1)) (cW (cA (cN 1) (cV 1)) 6)) (cW (cA (cA (cN 6) (cM (cN 7) (cV 1))) (cM (cN 2) (cW (cV 1) 4))) 4)))))) (cD (cM (cM (cR (cD (cA (cN 1) (cM (cN 2) (cH 0))) (cV 1))) (cW (cD (cH 0) (cA (cN 1) (cV 1))) 3)) (cA (cN 1) (cM (cN 2) (cV 1)))) (cM (cA (cN 1) (cH 0)) (cA (cA (cN 6) (cM (cN 7) (cV 1))) (cM (cN 2) (cW (cV 1) 4)))))) (cD (cM (cN 2) (cR (cD (cH 0) (cM (cA (cN 1) (cM (cN 2) (cH 0))) (cA (cV 1) (cW (cV 1) 4)))))) (cA (cA (cN 6) (cM (cN 7) (cV 1))) (cM (cN 2) (cW (cV 1) 4))))) (cD (cM (cM (cN 4) (cV 1)) (cR (cD (cH 0) (cM (cA (cN 1) (cM (cN 2) (cH 0))) (cA (cV 1) (cW (cV 1) 4)))))) (cA (cA (cN 6) (cM (cN 7) (cV 1))) (cM (cN 2) (cW (cV 1) 4))))) (cA (cN 1) (cH 0)))) (cD (cM (cH 0) (cA (cA (cD (cM (cN 3) (cA (cN (-1)) (cV 1))) (cM (cM (cA (cN 2) (cV 1)) (cR (cM (cM (cM (cH 0) (cA (cN 1) (cH 0))) (cV 1)) (cA (cA (cN 1) (cM (cN 3) (cV 1))) (cM (cN 2) (cW (cV 1) 4)))))) (cA (cA (cN 3) (cM (cN 5) (cV 1))) (cM (cN 2) (cW (cV 1) 4))))) (cM (cA (cN 1) (cV 1)) (cR (cD (cA (cN 1) (cM (cN 2) (cV 1))) (cM (cM (cM (cH 0) (cA (cN 1) (cH 0))) (cA (cV 1) (cW (cV 1) 4))) (cW (cA (cA (cN 6) (cM (cN 7) (cV 1))) (cM (cN 2) (cW (cV 1) 4))) 4)))))) (cD (cM (cN 2) (cR (cD (cM (cV 1) (cA (cN 1) (cM (cN 2) (cV 1)))) (cM (cA (cH 0) (cW (cH 0) 4)) (cA (cN 1) (cV 1)))))) (cA (cA (cA (cN 6) (cM (cN 13) (cV 1))) (cM (cN 9) (cW (cV 1) 4))) (cM (cN 2) (cW (cV 1) 6)))))) (cR (cD (cA (cA (cN 1) (cM (cN 3) (cH 0))) (cM (cN 2) (cW (cH 0) 4))) (cA (cN 1) (cM (cN 2) (cV 1))))))) (cD (cA (cA (cA (cA (cA (cA (cA (cA (cA (cA (cA (cD (cM (cM (cA (cN 1) (cV 1)) (cR (cD (cM (cH 0) (cA (cN 1) (cM (cN 2) (cH 0)))) (cM (cM (cV 1) (cA (cN 1) (cV 1))) (cW (cA (cN 2) (cV 1)) 4))))) (cA (cN 1) (cM (cN 2) (cV 1)))) (cM (cA (cN 1) (cH 0)) (cA (cN 3) (cM (cN 2) (cV 1))))) (cD (cM (cM (cW (cH 0) 3) (cR (cD (cM (cA (cN 1) (cM (cN 2) (cH 0))) (cA (cN 1) (cV 1))) (cV 1)))) (cA (cN 1) (cM (cN 2) (cV 1)))) (cM (cM (cA (cN 1) (cH 0)) (cA (cN 2) (cV 1))) (cA (cN 3) (cM (cN 2) (cV 1)))))) (cD (cM (cM (cN 2) (cA (cN 1) (cV 1))) (cR (cD (cH 0) (cM (cA (cN 1) (cM (cN 2) (cH 0))) (cA (cV 1) (cW (cV 1) 4)))))) (cM (cA (cN 2) (cV 1)) (cA (cN 3) (cM (cN 2) (cV 1)))))) (cD (cM (cM (cM (cN 4) (cV 1)) (cA (cN 1) (cV 1))) (cR (cD (cH 0) (cM (cA (cN 1) (cM (cN 2) (cH 0))) (cA (cV 1) (cW (cV 1) 4)))))) (cM (cA (cN 2) (cV 1)) (cA (cN 3) (cM (cN 2) (cV 1)))))) (cD (cM (cM (cM (cN 2) (cW (cH 0) 3)) (cR (cD (cM (cA (cN 1) (cM (cN 2) (cH 0))) (cV 1)) (cM (cA (cN 1) (cV 1)) (cW (cA (cN 2) (cV 1)) 4))))) (cA (cN 1) (cM (cN 2) (cV 1)))) (cM (cA (cN 1) (cH 0)) (cA (cA (cN 3) (cM (cN 5) (cV 1))) (cM (cN 2) (cW (cV 1) 4)))))) (cD (cM (cM (cN 2) (cR (cD (cM (cM (cH 0) (cA (cN 1) (cM (cN 2) (cH 0)))) (cV 1)) (cM (cA (cN 1) (cV 1)) (cW (cA (cN 2) (cV 1)) 4))))) (cA (cN 1) (cM (cN 2) (cV 1)))) (cM (cA (cN 1) (cH 0)) (cA (cA (cN 3) (cM (cN 5) (cV 1))) (cM (cN 2) (cW (cV 1) 4)))))) (cD (cM (cM (cN 3) (cH 0)) (cA (cN (-1)) (cV 1))) (cR (cD (cM (cM (cM (cM (cH 0) (cW (cA (cN 1) (cH 0)) 4)) (cV 1)) (cW (cA (cN 1) (cV 1)) 6)) (cW (cA (cA (cN 6) (cM (cN 7) (cV 1))) (cM (cN 2) (cW (cV 1) 4))) 4)) (cA (cN 1) (cM (cN 2) (cH 0))))))) (cD (cM (cM (cN 3) (cW (cH 0) 4)) (cA (cN (-1)) (cV 1))) (cR (cD (cM (cM (cM (cM (cH 0) (cW (cA (cN 1) (cH 0)) 4)) (cV 1)) (cW (cA (cN 1) (cV 1)) 6)) (cW (cA (cA (cN 6) (cM (cN 7) (cV 1))) (cM (cN 2) (cW (cV 1) 4))) 4)) (cA (cN 1) (cM (cN 2) (cH 0))))))) (cD (cM (cM (cN 4) (cV 1)) (cR (cD (cH 0) (cM (cA (cN 1) (cM (cN 2) (cH 0))) (cA (cV 1) (cW (cV 1) 4)))))) (cA (cA (cA (cN 6) (cM (cN 13) (cV 1))) (cM (cN 9) (cW (cV 1) 4))) (cM (cN 2) (cW (cV 1) 6))))) (cD (cM (cM (cN 8) (cW (cV 1) 4)) (cR (cD (cH 0) (cM (cA (cN 1) (cM (cN 2) (cH 0))) (cA (cV 1) (cW (cV 1) 4)))))) (cA (cA (cA (cN 6) (cM (cN 13) (cV 1))) (cM (cN 9) (cW (cV 1) 4))) (cM (cN 2) (cW (cV 1) 6))))) (cD (cM (cM (cN 6) (cA (cN (-1)) (cV 1))) (cR (cD (cH 0) (cM (cA (cN 1) (cM (cN 2) (cH 0))) (cA (cV 1) (cW (cV 1) 4)))))) (cM (cA (cN 2) (cV 1)) (cA (cA (cA (cN 3) (cM (cN 11) (cV 1))) (cM (cN 12) (cW (cV 1) 4))) (cM (cN 4) (cW (cV 1) 6)))))) (cD (cM (cM (cM (cN 12) (cA (cN (-1)) (cV 1))) (cV 1)) (cR (cD (cH 0) (cM (cA (cN 1) (cM (cN 2) (cH 0))) (cA (cV 1) (cW (cV 1) 4)))))) (cM (cA (cN 2) (cV 1)) (cA (cA (cA (cN 3) (cM (cN 11) (cV 1))) (cM (cN 12) (cW (cV 1) 4))) (cM (cN 4) (cW (cV 1) 6)))))) (cA (cN 1) (cH 0))))) (cM (cN 2) (cR (cN 2)))).
Definition SPSU2T_e1031 := (cD (cA (cA (cA (cA (cA (cA (cA (cA (cA (cA (cM (cM (cN 2) (cV 1)) (cR (cD (cM (cW (cA (cN 1) (cM (cN 2) (cH 0))) 4) (cA (cN 1) (cM (cN 2) (cV 1)))) (cM (cM (cW (cA (cN 3) (cM (cN 2) (cH 0))) 4) (cW (cA (cN 1) (cV 1)) 6)) (cA (cA (cN 6) (cM (cN 7) (cV 1))) (cM (cN 2) (cW (cV 1) 4))))))) (cM (cM (cN 2) (cV 1)) (cR (cD (cM (cW (cA (cN 1) (cM (cN 2) (cH 0))) 4) (cA (cN 1) (cM (cN 2) (cV 1)))) (cM (cM (cW (cA (cA (cN 3) (cM (cN 5) (cH 0))) (cM (cN 2) (cW (cH 0) 4))) 4) (cW (cA (cN 1) (cV 1)) 6)) (cA (cA (cN 6) (cM (cN 7) (cV 1))) (cM (cN 2) (cW (cV 1) 4)))))))) (cD (cM (cN 2) (cV 1)) (cR (cD (cM (cM (cW (cA (cA (cN 3) (cM (cN 5) (cH 0))) (cM (cN 2) (cW (cH 0) 4))) 4) (cW (cA (cN 1) (cV 1)) 6)) (cA (cA (cN 6) (cM (cN 7) (cV 1))) (cM (cN 2) (cW (cV 1) 4)))) (cA (cN 1) (cM (cN 2) (cV 1))))))) (cD (cM (cM (cM (cN 2) (cA (cN 1) (cM (cN 2) (cH 0)))) (cV 1)) (cR (cD (cA (cN 1) (cM (cN 2) (cV 1))) (cA (cA (cA (cN 6) (cM (cN 13) (cV 1))) (cM (cN 9) (cW (cV 1) 4))) (cM (cN 2) (cW (cV 1) 6)))))) (cA (cN 3) (cM (cN 2) (cH 0))))) (cD (cM (cM (cN 2) (cV 1)) (cR (cD (cA (cN 1) (cM (cN 2) (cV 1))) (cA (cA (cA (cN 6) (cM (cN 13) (cV 1))) (cM (cN 9) (cW (cV 1) 4))) (cM (cN 2) (cW (cV 1) 6)))))) (cA (cA (cN 3) (cM (cN 5) (cH 0))) (cM (cN 2) (cW (cH 0) 4))))) (cD (cM (cM (cA (cN 1) (cM (cN 2) (cH 0))) (cV 1)) (cR (cD (cA (cN 1) (cM (cN 2) (cV 1))) (cA (cA (cA (cN 6) (cM (cN 13) (cV 1))) (cM (cN 9) (cW (cV 1) 4))) (cM (cN 2) (cW (cV 1) 6)))))) (cA (cA (cN 3) (cM (cN 5) (cH 0))) (cM (cN 2) (cW (cH 0) 4))))) (cD (cM (cM (cN 4) (cV 1)) (cR (cD (cA (cA (cA (cN 6) (cM (cN 13) (cV 1))) (cM (cN 9) (cW (cV 1) 4))) (cM (cN 2) (cW (cV 1) 6))) (cA (cN 1) (cM (cN 2) (cV 1)))))) (cM (cM (cA (cN 1) (cH 0)) (cW (cA (cN 1) (cV 1)) 4)) (cA (cN 3) (cM (cN 2) (cV 1)))))) (cD (cM (cA (cN 1) (cM (cN 2) (cH 0))) (cV 1)) (cM (cA (cN 1) (cH 0)) (cR (cD (cM (cW (cA (cN 3) (cM (cN 2) (cH 0))) 4) (cA (cA (cA (cN 6) (cM (cN 13) (cV 1))) (cM (cN 9) (cW (cV 1) 4))) (cM (cN 2) (cW (cV 1) 6)))) (cA (cN 1) (cM (cN 2) (cV 1)))))))) (cD (cM (cN 3) (cA (cN 2) (cV 1))) (cM (cM (cA (cN 1) (cH 0)) (cA (cN 1) (cV 1))) (cR (cA (cA (cA (cA (cN 6) (cM (cN 25) (cV 1))) (cM (cN 35) (cW (cV 1) 4))) (cM (cN 20) (cW (cV 1) 6))) (cM (cN 4) (cW (cV 1) 8))))))) (cD (cM (cM (cN 3) (cA (cN 1) (cM (cN 2) (cH 0)))) (cA (cN 2) (cV 1))) (cM (cM (cA (cN 1) (cH 0)) (cA (cN 1) (cV 1))) (cR (cA (cA (cA (cA (cN 6) (cM (cN 25) (cV 1))) (cM (cN 35) (cW (cV 1) 4))) (cM (cN 20) (cW (cV 1) 6))) (cM (cN 4) (cW (cV 1) 8))))))) (cD (cM (cM (cM (cN 2) (cA (cN 1) (cM (cN 2) (cH 0)))) (cV 1)) (cA (cR (cM (cW (cA (cN 1) (cM (cN 2) (cV 1))) 6) (cA (cA (cA (cN 6) (cM (cN 13) (cV 1))) (cM (cN 9) (cW (cV 1) 4))) (cM (cN 2) (cW (cV 1) 6))))) (cM (cN 3) (cR (cA (cA (cA (cA (cN 6) (cM (cN 25) (cV 1))) (cM (cN 35) (cW (cV 1) 4))) (cM (cN 20) (cW (cV 1) 6))) (cM (cN 4) (cW (cV 1) 8))))))) (cM (cM (cA (cN 1) (cH 0)) (cW (cA (cN 1) (cV 1)) 4)) (cA (cA (cA (cN 6) (cM (cN 19) (cV 1))) (cM (cN 16) (cW (cV 1) 4))) (cM (cN 4) (cW (cV 1) 6)))))) (cM (cN 2) (cR (cN 2)))).
Definition SPSU2T_e1032 := (cD (cB (cA (cB (cA (cB (cD (cM (cW (cV 1) 4) (cA (cN 1) (cM (cN 2) (cV 1)))) (cM (cM (cA (cN 1) (cH 0)) (cW (cM (cV 1) (cA (cN 1) (cV 1))) 3)) (cA (cN 3) (cM (cN 2) (cV 1))))) (cD (cM (cM (cA (cN 1) (cM (cN 2) (cH 0))) (cR (cV 1))) (cA (cN 5) (cM (cN 2) (cV 1)))) (cM (cM (cA (cN 1) (cH 0)) (cW (cA (cN 1) (cV 1)) 3)) (cA (cN 3) (cM (cN 2) (cV 1)))))) (cD (cM (cR (cV 1)) (cB (cB (cN 1) (cM (cN 5) (cV 1))) (cM (cN 2) (cW (cV 1) 4)))) (cM (cM (cA (cN 1) (cH 0)) (cW (cA (cN 1) (cV 1)) 3)) (cA (cN 3) (cM (cN 2) (cV 1)))))) (cD (cM (cM (cA (cN 1) (cM (cN 2) (cH 0))) (cW (cV 1) 4)) (cA (cA (cN (-1)) (cM (cN 5) (cV 1))) (cM (cN 2) (cW (cV 1) 4)))) (cM (cM (cA (cN 1) (cH 0)) (cW (cM (cV 1) (cA (cN 1) (cV 1))) 3)) (cA (cN 3) (cM (cN 2) (cV 1)))))) (cD (cM (cM (cA (cN 1) (cM (cN 2) (cH 0))) (cA (cN 1) (cM (cN 2) (cV 1)))) (cA (cR (cD (cM (cM (cA (cN 3) (cM (cN 2) (cH 0))) (cV 1)) (cA (cN 3) (cM (cN 2) (cV 1)))) (cA (cN 1) (cH 0)))) (cM (cN 2) (cR (cM (cM (cA (cA (cN 3) (cM (cN 5) (cH 0))) (cM (cN 2) (cW (cH 0) 4))) (cV 1)) (cA (cN 3) (cM (cN 2) (cV 1)))))))) (cM (cM (cM (cA (cN 3) (cM (cN 2) (cH 0))) (cA (cN 1) (cV 1))) (cA (cN 3) (cM (cN 2) (cV 1)))) (cR (cM (cA (cA (cN 3) (cM (cN 5) (cH 0))) (cM (cN 2) (cW (cH 0) 4))) (cA (cA (cN 3) (cM (cN 5) (cV 1))) (cM (cN 2) (cW (cV 1) 4)))))))) (cD (cM (cV 1) (cA (cA (cM (cN 9) (cR (cD (cM (cA (cN 3) (cM (cN 2) (cH 0))) (cA (cN 2) (cV 1))) (cA (cN 1) (cV 1))))) (cR (cM (cA (cN 3) (cM (cN 2) (cH 0))) (cA (cA (cN 2) (cM (cN 3) (cV 1))) (cW (cV 1) 4))))) (cM (cM (cN 2) (cV 1)) (cA (cM (cN 3) (cR (cD (cM (cA (cN 3) (cM (cN 2) (cH 0))) (cA (cN 2) (cV 1))) (cA (cN 1) (cV 1))))) (cR (cM (cA (cN 3) (cM (cN 2) (cH 0))) (cA (cA (cN 2) (cM (cN 3) (cV 1))) (cW (cV 1) 4)))))))) (cM (cM (cM (cA (cN 1) (cH 0)) (cA (cN 2) (cV 1))) (cR (cM (cM (cA (cN 3) (cM (cN 2) (cH 0))) (cV 1)) (cA (cN 2) (cV 1))))) (cA (cA (cN 3) (cM (cN 5) (cV 1))) (cM (cN 2) (cW (cV 1) 4)))))) (cM (cN 2) (cR (cN 2)))).
Definition SPSU2T_e1033 := (cA (cB (cB (cB (cA (cD (cM (cN (-3)) (cV 1)) (cM (cM (cM (cM (cN 2) (cA (cN 1) (cV 1))) (cA (cN 2) (cV 1))) (cW (cA (cN 3) (cM (cN 2) (cV 1))) 4)) (cR (cD (cM (cM (cA (cN 1) (cH 0)) (cA (cN 1) (cM (cN 2) (cH 0)))) (cV 1)) (cA (cA (cA (cN 30) (cM (cN 47) (cV 1))) (cM (cN 24) (cW (cV 1) 4))) (cM (cN 4) (cW (cV 1) 6))))))) (cD (cM (cV 1) (cA (cA (cA (cN 15) (cM (cN 41) (cV 1))) (cM (cN 24) (cW (cV 1) 4))) (cM (cN 4) (cW (cV 1) 6)))) (cM (cM (cM (cN 2) (cA (cN 1) (cV 1))) (cA (cN 3) (cM (cN 2) (cV 1)))) (cR (cD (cM (cM (cA (cN 1) (cH 0)) (cV 1)) (cA (cA (cA (cN 30) (cM (cN 47) (cV 1))) (cM (cN 24) (cW (cV 1) 4))) (cM (cN 4) (cW (cV 1) 6)))) (cA (cN 1) (cM (cN 2) (cH 0)))))))) (cD (cM (cV 1) (cA (cA (cN (-15)) (cM (cN 4) (cV 1))) (cM (cN 4) (cW (cV 1) 4)))) (cM (cM (cM (cN 2) (cA (cN 1) (cV 1))) (cA (cN 3) (cM (cN 2) (cV 1)))) (cR (cM (cM (cA (cA (cN 1) (cM (cN 3) (cH 0))) (cM (cN 2) (cW (cH 0) 4))) (cV 1)) (cA (cA (cA (cN 30) (cM (cN 47) (cV 1))) (cM (cN 24) (cW (cV 1) 4))) (cM (cN 4) (cW (cV 1) 6)))))))) (cD (cM (cV 1) (cA (cA (cN (-15)) (cM (cN 4) (cV 1))) (cM (cN 4) (cW (cV 1) 4)))) (cM (cM (cN 2) (cA (cN 3) (cM (cN 2) (cV 1)))) (cR (cD (cM (cM (cM (cA (cN 1) (cH 0)) (cV 1)) (cW (cA (cN 1) (cV 1)) 4)) (cA (cA (cA (cN 30) (cM (cN 47) (cV 1))) (cM (cN 24) (cW (cV 1) 4))) (cM (cN 4) (cW (cV 1) 6)))) (cA (cN 1) (cM (cN 2) (cH 0)))))))) (cD (cM (cM (cN 3) (cV 1)) (cA (cA (cR (cD (cM (cA (cN 1) (cM (cN 2) (cH 0))) (cW (cA (cN 1) (cM (cN 2) (cV 1))) 4)) (cM (cM (cM (cA (cN 1) (cH 0)) (cV 1)) (cA (cN 5) (cM (cN 2) (cV 1)))) (cW (cA (cA (cN 6) (cM (cN 7) (cV 1))) (cM (cN 2) (cW (cV 1) 4))) 6)))) (cD (cN 6) (cR (cD (cM (cM (cM (cM (cA (cN 1) (cH 0)) (cV 1)) (cW (cA (cN 1) (cV 1)) 4)) (cA (cN 5) (cM (cN 2) (cV 1)))) (cW (cA (cA (cN 6) (cM (cN 7) (cV 1))) (cM (cN 2) (cW (cV 1) 4))) 6)) (cA (cN 1) (cM (cN 2) (cH 0))))))) (cD (cA (cN 3) (cM (cN 6) (cV 1))) (cM (cR (cD (cM (cM (cM (cA (cN 1) (cH 0)) (cV 1)) (cA (cN 5) (cM (cN 2) (cV 1)))) (cA (cA (cN 6) (cM (cN 7) (cV 1))) (cM (cN 2) (cW (cV 1) 4)))) (cA (cN 1) (cM (cN 2) (cH 0))))) (cA (cA (cA (cN 6) (cM (cN 13) (cV 1))) (cM (cN 9) (cW (cV 1) 4))) (cM (cN 2) (cW (cV 1) 6))))))) (cN 2))) (cD (cA (cA (cA (cM (cN 6) (cR (cD (cM (cV 1) (cW (cA (cN 1) (cM (cN 2) (cV 1))) 4)) (cM (cM (cM (cA (cN 1) (cH 0)) (cW (cA (cN 1) (cV 1)) 4)) (cA (cN 5) (cM (cN 2) (cV 1)))) (cW (cA (cA (cN 6) (cM (cN 7) (cV 1))) (cM (cN 2) (cW (cV 1) 4))) 6))))) (cD (cM (cM (cN 9) (cV 1)) (cA (cN 1) (cM (cN 2) (cV 1)))) (cM (cR (cM (cM (cA (cN 1) (cH 0)) (cV 1)) (cA (cN 5) (cM (cN 2) (cV 1))))) (cW (cA (cA (cN 6) (cM (cN 7) (cV 1))) (cM (cN 2) (cW (cV 1) 4))) 3)))) (cD (cM (cV 1) (cA (cN 1) (cM (cN 2) (cV 1)))) (cR (cM (cM (cA (cN 1) (cH 0)) (cV 1)) (cA (cA (cA (cN 30) (cM (cN 47) (cV 1))) (cM (cN 24) (cW (cV 1) 4))) (cM (cN 4) (cW (cV 1) 6))))))) (cD (cM (cM (cN 3) (cV 1)) (cA (cN 1) (cM (cN 2) (cV 1)))) (cM (cA (cN 2) (cV 1)) (cR (cM (cM (cA (cN 1) (cH 0)) (cV 1)) (cA (cA (cA (cN 30) (cM (cN 47) (cV 1))) (cM (cN 24) (cW (cV 1) 4))) (cM (cN 4) (cW (cV 1) 6)))))))) (cM (cN 2) (cR (cA (cN 1) (cM (cN 2) (cH 0))))))).
Definition SPSU2T_e1034 := (cA (cA (cA (cD (cM (cM (cR (cN 2)) (cR (cD (cM (cA (cN 1) (cM (cN 2) (cH 0))) (cA (cN 3) (cV 1))) (cM (cA (cN 1) (cH 0)) (cA (cN 2) (cV 1)))))) (cA (cN 1) (cM (cN 2) (cV 1)))) (cM (cA (cN 1) (cV 1)) (cA (cN 3) (cM (cN 2) (cV 1))))) (cD (cM (cM (cN 2) (cA (cN 1) (cM (cN 2) (cV 1)))) (cR (cD (cA (cA (cN 6) (cM (cN 5) (cV 1))) (cW (cV 1) 4)) (cA (cA (cN 2) (cM (cN 6) (cH 0))) (cM (cN 4) (cW (cH 0) 4)))))) (cM (cM (cA (cN 1) (cV 1)) (cA (cN 2) (cV 1))) (cA (cN 3) (cM (cN 2) (cV 1)))))) (cD (cB (cB (cA (cD (cM (cA (cN 2) (cV 1)) (cA (cN 1) (cM (cN 2) (cV 1)))) (cR (cD (cM (cA (cN 3) (cV 1)) (cA (cN 5) (cM (cN 2) (cV 1)))) (cA (cA (cN 3) (cM (cN 5) (cV 1))) (cM (cN 2) (cW (cV 1) 4)))))) (cD (cM (cA (cN 1) (cV 1)) (cA (cN 1) (cM (cN 2) (cV 1)))) (cR (cD (cM (cM (cW (cA (cN 2) (cV 1)) 4) (cA (cN 3) (cV 1))) (cA (cN 5) (cM (cN 2) (cV 1)))) (cA (cA (cN 3) (cM (cN 5) (cV 1))) (cM (cN 2) (cW (cV 1) 4))))))) (cD (cM (cN 6) (cA (cN (-2)) (cV 1))) (cM (cA (cN 2) (cV 1)) (cR (cA (cA (cA (cA (cN 45) (cM (cN 108) (cV 1))) (cM (cN 91) (cW (cV 1) 4))) (cM (cN 32) (cW (cV 1) 6))) (cM (cN 4) (cW (cV 1) 8))))))) (cD (cM (cM (cN 3) (cA (cN (-1)) (cV 1))) (cA (cN 1) (cM (cN 2) (cV 1)))) (cM (cA (cN 2) (cV 1)) (cR (cA (cA (cA (cA (cN 45) (cM (cN 108) (cV 1))) (cM (cN 91) (cW (cV 1) 4))) (cM (cN 32) (cW (cV 1) 6))) (cM (cN 4) (cW (cV 1) 8))))))) (cM (cR (cN 2)) (cR (cD (cM (cA (cN 1) (cH 0)) (cA (cA (cA (cA (cN 30) (cM (cN 77) (cV 1))) (cM (cN 71) (cW (cV 1) 4))) (cM (cN 28) (cW (cV 1) 6))) (cM (cN 4) (cW (cV 1) 8)))) (cA (cN 1) (cM (cN 2) (cH 0)))))))) (cD (cB (cB (cA (cD (cM (cA (cN 2) (cV 1)) (cA (cN 1) (cM (cN 2) (cV 1)))) (cR (cD (cM (cA (cN 3) (cV 1)) (cA (cN 5) (cM (cN 2) (cV 1)))) (cA (cA (cN 3) (cM (cN 5) (cV 1))) (cM (cN 2) (cW (cV 1) 4)))))) (cD (cM (cA (cN 1) (cV 1)) (cA (cN 1) (cM (cN 2) (cV 1)))) (cR (cD (cM (cM (cW (cA (cN 2) (cV 1)) 4) (cA (cN 3) (cV 1))) (cA (cN 5) (cM (cN 2) (cV 1)))) (cA (cA (cN 3) (cM (cN 5) (cV 1))) (cM (cN 2) (cW (cV 1) 4))))))) (cD (cM (cN 6) (cA (cN (-2)) (cV 1))) (cM (cA (cN 2) (cV 1)) (cR (cA (cA (cA (cA (cN 45) (cM (cN 108) (cV 1))) (cM (cN 91) (cW (cV 1) 4))) (cM (cN 32) (cW (cV 1) 6))) (cM (cN 4) (cW (cV 1) 8))))))) (cD (cM (cM (cN 3) (cA (cN (-1)) (cV 1))) (cA (cN 1) (cM (cN 2) (cV 1)))) (cM (cA (cN 2) (cV 1)) (cR (cA (cA (cA (cA (cN 45) (cM (cN 108) (cV 1))) (cM (cN 91) (cW (cV 1) 4))) (cM (cN 32) (cW (cV 1) 6))) (cM (cN 4) (cW (cV 1) 8))))))) (cM (cR (cN 2)) (cR (cM (cM (cA (cN 1) (cH 0)) (cA (cN 1) (cM (cN 2) (cH 0)))) (cA (cA (cA (cA (cN 30) (cM (cN 77) (cV 1))) (cM (cN 71) (cW (cV 1) 4))) (cM (cN 28) (cW (cV 1) 6))) (cM (cN 4) (cW (cV 1) 8)))))))).
Definition SPSU2T_e1035 := (cD (cA (cA (cA (cB (cB (cO (cD (cM (cM (cA (cN 1) (cH 0)) (cA (cN 1) (cM (cN 2) (cV 1)))) (cR (cD (cM (cH 0) (cA (cA (cN 15) (cM (cN 16) (cV 1))) (cM (cN 4) (cW (cV 1) 4)))) (cA (cN 1) (cM (cN 2) (cH 0)))))) (cW (cA (cN 3) (cM (cN 2) (cV 1))) 4))) (cD (cM (cM (cA (cN 1) (cH 0)) (cA (cN 1) (cM (cN 2) (cV 1)))) (cR (cD (cM (cH 0) (cA (cA (cN 15) (cM (cN 16) (cV 1))) (cM (cN 4) (cW (cV 1) 4)))) (cA (cN 1) (cM (cN 2) (cH 0)))))) (cM (cA (cN 1) (cV 1)) (cW (cA (cN 3) (cM (cN 2) (cV 1))) 4)))) (cD (cM (cM (cH 0) (cA (cN 1) (cH 0))) (cA (cN 5) (cM (cN 2) (cV 1)))) (cM (cM (cA (cN 1) (cV 1)) (cA (cN 3) (cM (cN 2) (cV 1)))) (cR (cM (cM (cH 0) (cA (cN 1) (cM (cN 2) (cH 0)))) (cA (cA (cN 15) (cM (cN 16) (cV 1))) (cM (cN 4) (cW (cV 1) 4)))))))) (cD (cM (cM (cA (cN 1) (cM (cN 2) (cV 1))) (cA (cN 5) (cM (cN 2) (cV 1)))) (cA (cA (cA (cM (cN 2) (cR (cD (cH 0) (cM (cA (cN 1) (cM (cN 2) (cH 0))) (cA (cN 5) (cM (cN 2) (cV 1))))))) (cM (cN 2) (cR (cD (cW (cH 0) 6) (cM (cA (cN 1) (cM (cN 2) (cH 0))) (cA (cN 5) (cM (cN 2) (cV 1)))))))) (cR (cD (cM (cH 0) (cA (cN 1) (cM (cN 2) (cH 0)))) (cA (cN 5) (cM (cN 2) (cV 1)))))) (cR (cD (cM (cW (cH 0) 6) (cA (cN 1) (cM (cN 2) (cH 0)))) (cA (cN 5) (cM (cN 2) (cV 1))))))) (cM (cA (cN 1) (cV 1)) (cW (cA (cN 3) (cM (cN 2) (cV 1))) 3)))) (cM (cA (cN 1) (cH 0)) (cA (cA (cA (cA (cA (cA (cA (cA (cA (cA (cA (cD (cM (cM (cA (cN 1) (cM (cN 2) (cV 1))) (cW (cD (cH 0) (cA (cN 3) (cM (cN 2) (cV 1)))) 3)) (cR (cD (cA (cN 1) (cM (cN 2) (cH 0))) (cA (cN 5) (cM (cN 2) (cV 1)))))) (cM (cA (cN 1) (cH 0)) (cA (cN 2) (cV 1)))) (cM (cH 0) (cR (cD (cM (cA (cN 1) (cM (cN 2) (cH 0))) (cW (cA (cN 1) (cM (cN 2) (cV 1))) 4)) (cM (cM (cM (cM (cH 0) (cW (cA (cN 1) (cH 0)) 4)) (cW (cA (cN 2) (cV 1)) 4)) (cW (cA (cN 3) (cM (cN 2) (cV 1))) 6)) (cA (cN 5) (cM (cN 2) (cV 1)))))))) (cD (cM (cM (cN 2) (cA (cN 1) (cM (cN 2) (cV 1)))) (cR (cD (cH 0) (cM (cA (cN 1) (cM (cN 2) (cH 0))) (cA (cA (cN 15) (cM (cN 16) (cV 1))) (cM (cN 4) (cW (cV 1) 4))))))) (cA (cN 1) (cH 0)))) (cD (cM (cM (cM (cN 2) (cH 0)) (cA (cN 1) (cM (cN 2) (cV 1)))) (cR (cD (cH 0) (cM (cA (cN 1) (cM (cN 2) (cH 0))) (cA (cA (cN 15) (cM (cN 16) (cV 1))) (cM (cN 4) (cW (cV 1) 4))))))) (cA (cN 1) (cH 0)))) (cD (cM (cN 2) (cR (cD (cH 0) (cM (cA (cN 1) (cM (cN 2) (cH 0))) (cA (cA (cN 15) (cM (cN 16) (cV 1))) (cM (cN 4) (cW (cV 1) 4))))))) (cA (cA (cN 6) (cM (cN 7) (cV 1))) (cM (cN 2) (cW (cV 1) 4))))) (cD (cM (cM (cN 4) (cV 1)) (cR (cD (cH 0) (cM (cA (cN 1) (cM (cN 2) (cH 0))) (cA (cA (cN 15) (cM (cN 16) (cV 1))) (cM (cN 4) (cW (cV 1) 4))))))) (cA (cA (cN 6) (cM (cN 7) (cV 1))) (cM (cN 2) (cW (cV 1) 4))))) (cD (cM (cM (cW (cH 0) 3) (cA (cN 1) (cM (cN 2) (cV 1)))) (cR (cD (cA (cN 1) (cM (cN 2) (cH 0))) (cA (cA (cN 15) (cM (cN 16) (cV 1))) (cM (cN 4) (cW (cV 1) 4)))))) (cA (cN 1) (cH 0)))) (cD (cM (cM (cW (cH 0) 3) (cA (cN 1) (cM (cN 2) (cV 1)))) (cR (cD (cA (cN 1) (cM (cN 2) (cH 0))) (cA (cA (cN 15) (cM (cN 16) (cV 1))) (cM (cN 4) (cW (cV 1) 4)))))) (cM (cA (cN 1) (cH 0)) (cA (cN 2) (cV 1))))) (cD (cM (cA (cN 1) (cM (cN 2) (cV 1))) (cR (cD (cM (cH 0) (cA (cN 1) (cM (cN 2) (cH 0)))) (cA (cA (cN 15) (cM (cN 16) (cV 1))) (cM (cN 4) (cW (cV 1) 4)))))) (cA (cN 1) (cH 0)))) (cD (cM (cA (cN 1) (cM (cN 2) (cV 1))) (cR (cD (cM (cH 0) (cA (cN 1) (cM (cN 2) (cH 0)))) (cA (cA (cN 15) (cM (cN 16) (cV 1))) (cM (cN 4) (cW (cV 1) 4)))))) (cM (cA (cN 1) (cH 0)) (cA (cN 2) (cV 1))))) (cD (cM (cM (cN 2) (cA (cN 1) (cM (cN 2) (cV 1)))) (cR (cD (cH 0) (cM (cM (cA (cN 1) (cM (cN 2) (cH 0))) (cW (cA (cN 2) (cV 1)) 4)) (cA (cA (cN 15) (cM (cN 16) (cV 1))) (cM (cN 4) (cW (cV 1) 4))))))) (cA (cN 1) (cH 0)))) (cD (cM (cM (cM (cN 2) (cH 0)) (cA (cN 1) (cM (cN 2) (cV 1)))) (cR (cD (cH 0) (cM (cM (cA (cN 1) (cM (cN 2) (cH 0))) (cW (cA (cN 2) (cV 1)) 4)) (cA (cA (cN 15) (cM (cN 16) (cV 1))) (cM (cN 4) (cW (cV 1) 4))))))) (cA (cN 1) (cH 0)))))) (cM (cA (cN 1) (cH 0)) (cA (cA (cA (cA (cA (cA (cA (cA (cA (cA (cA (cD (cM (cM (cA (cN 1) (cM (cN 2) (cV 1))) (cW (cD (cH 0) (cA (cN 3) (cM (cN 2) (cV 1)))) 3)) (cR (cD (cA (cN 1) (cM (cN 2) (cH 0))) (cA (cN 5) (cM (cN 2) (cV 1)))))) (cM (cA (cN 1) (cH 0)) (cA (cN 2) (cV 1)))) (cD (cM (cA (cN 1) (cM (cN 2) (cV 1))) (cR (cD (cM (cH 0) (cA (cN 1) (cM (cN 2) (cH 0)))) (cA (cN 5) (cM (cN 2) (cV 1)))))) (cM (cM (cA (cN 1) (cH 0)) (cA (cN 2) (cV 1))) (cW (cA (cN 3) (cM (cN 2) (cV 1))) 3)))) (cD (cM (cN 6) (cH 0)) (cR (cD (cM (cM (cM (cM (cH 0) (cW (cA (cN 1) (cH 0)) 4)) (cW (cA (cN 3) (cM (cN 2) (cV 1))) 6)) (cA (cN 5) (cM (cN 2) (cV 1)))) (cW (cA (cA (cN 2) (cM (cN 3) (cV 1))) (cW (cV 1) 4)) 4)) (cA (cN 1) (cM (cN 2) (cH 0))))))) (cD (cM (cN 12) (cR (cD (cH 0) (cM (cA (cN 1) (cM (cN 2) (cH 0))) (cA (cA (cN 15) (cM (cN 16) (cV 1))) (cM (cN 4) (cW (cV 1) 4))))))) (cM (cM (cA (cN 1) (cH 0)) (cA (cN 2) (cV 1))) (cA (cA (cN 3) (cM (cN 5) (cV 1))) (cM (cN 2) (cW (cV 1) 4)))))) (cD (cM (cM (cN 12) (cH 0)) (cR (cD (cH 0) (cM (cA (cN 1) (cM (cN 2) (cH 0))) (cA (cA (cN 15) (cM (cN 16) (cV 1))) (cM (cN 4) (cW (cV 1) 4))))))) (cM (cM (cA (cN 1) (cH 0)) (cA (cN 2) (cV 1))) (cA (cA (cN 3) (cM (cN 5) (cV 1))) (cM (cN 2) (cW (cV 1) 4)))))) (cD (cM (cM (cN 6) (cA (cN 1) (cM (cN 2) (cV 1)))) (cR (cD (cH 0) (cM (cA (cN 1) (cM (cN 2) (cH 0))) (cA (cA (cN 15) (cM (cN 16) (cV 1))) (cM (cN 4) (cW (cV 1) 4))))))) (cM (cM (cA (cN 1) (cH 0)) (cA (cN 2) (cV 1))) (cA (cA (cN 3) (cM (cN 5) (cV 1))) (cM (cN 2) (cW (cV 1) 4)))))) (cD (cM (cM (cM (cN 6) (cH 0)) (cA (cN 1) (cM (cN 2) (cV 1)))) (cR (cD (cH 0) (cM (cA (cN 1) (cM (cN 2) (cH 0))) (cA (cA (cN 15) (cM (cN 16) (cV 1))) (cM (cN 4) (cW (cV 1) 4))))))) (cM (cM (cA (cN 1) (cH 0)) (cA (cN 2) (cV 1))) (cA (cA (cN 3) (cM (cN 5) (cV 1))) (cM (cN 2) (cW (cV 1) 4)))))) (cD (cM (cN 2) (cR (cD (cH 0) (cM (cA (cN 1) (cM (cN 2) (cH 0))) (cA (cA (cN 15) (cM (cN 16) (cV 1))) (cM (cN 4) (cW (cV 1) 4))))))) (cA (cA (cN 6) (cM (cN 7) (cV 1))) (cM (cN 2) (cW (cV 1) 4))))) (cD (cM (cM (cN 4) (cV 1)) (cR (cD (cH 0) (cM (cA (cN 1) (cM (cN 2) (cH 0))) (cA (cA (cN 15) (cM (cN 16) (cV 1))) (cM (cN 4) (cW (cV 1) 4))))))) (cA (cA (cN 6) (cM (cN 7) (cV 1))) (cM (cN 2) (cW (cV 1) 4))))) (cD (cM (cM (cN 3) (cW (cH 0) 3)) (cA (cN 1) (cM (cN 2) (cV 1)))) (cM (cM (cA (cN 1) (cH 0)) (cA (cA (cN 3) (cM (cN 5) (cV 1))) (cM (cN 2) (cW (cV 1) 4)))) (cR (cD (cM (cW (cA (cN 2) (cV 1)) 4) (cA (cA (cN 15) (cM (cN 16) (cV 1))) (cM (cN 4) (cW (cV 1) 4)))) (cA (cN 1) (cM (cN 2) (cH 0)))))))) (cD (cN 6) (cM (cM (cA (cN 1) (cH 0)) (cA (cA (cN 3) (cM (cN 5) (cV 1))) (cM (cN 2) (cW (cV 1) 4)))) (cR (cD (cM (cW (cA (cN 2) (cV 1)) 4) (cA (cA (cN 15) (cM (cN 16) (cV 1))) (cM (cN 4) (cW (cV 1) 4)))) (cM (cW (cH 0) 6) (cA (cN 1) (cM (cN 2) (cH 0))))))))) (cD (cA (cN 3) (cM (cN 6) (cV 1))) (cM (cM (cA (cN 1) (cH 0)) (cA (cA (cN 3) (cM (cN 5) (cV 1))) (cM (cN 2) (cW (cV 1) 4)))) (cR (cD (cM (cW (cA (cN 2) (cV 1)) 4) (cA (cA (cN 15) (cM (cN 16) (cV 1))) (cM (cN 4) (cW (cV 1) 4)))) (cM (cH 0) (cA (cN 1) (cM (cN 2) (cH 0))))))))))) (cM (cN 2) (cW (cA (cN 1) (cH 0)) 4))).
Definition SPSU2T_e1036 := (cD (cA (cA (cA (cA (cA (cD (cM (cA (cN 1) (cM (cN 2) (cV 1))) (cR (cA (cN 5) (cM (cN 2) (cV 1))))) (cM (cA (cN 1) (cH 0)) (cW (cA (cN 3) (cM (cN 2) (cV 1))) 3))) (cD (cM (cM (cA (cN 1) (cM (cN 2) (cH 0))) (cA (cN 1) (cM (cN 2) (cV 1)))) (cR (cA (cN 5) (cM (cN 2) (cV 1))))) (cM (cA (cN 1) (cH 0)) (cW (cA (cN 3) (cM (cN 2) (cV 1))) 3)))) (cD (cA (cN 5) (cM (cN 2) (cV 1))) (cM (cM (cM (cA (cN 1) (cH 0)) (cA (cN 1) (cV 1))) (cA (cN 3) (cM (cN 2) (cV 1)))) (cR (cA (cA (cN 15) (cM (cN 16) (cV 1))) (cM (cN 4) (cW (cV 1) 4))))))) (cD (cA (cA (cA (cA (cA (cD (cM (cA (cN 1) (cM (cN 2) (cH 0))) (cA (cN 1) (cM (cN 2) (cV 1)))) (cR (cD (cM (cM (cA (cA (cN 3) (cM (cN 5) (cH 0))) (cM (cN 2) (cW (cH 0) 4))) (cW (cA (cN 2) (cV 1)) 4)) (cA (cN 5) (cM (cN 2) (cV 1)))) (cA (cN 1) (cV 1))))) (cD (cA (cN 2) (cM (cN 4) (cV 1))) (cM (cA (cN 2) (cV 1)) (cR (cD (cM (cA (cA (cN 3) (cM (cN 5) (cH 0))) (cM (cN 2) (cW (cH 0) 4))) (cA (cN 5) (cM (cN 2) (cV 1)))) (cA (cN 1) (cV 1))))))) (cM (cM (cN 8) (cA (cN 1) (cM (cN 2) (cV 1)))) (cR (cD (cA (cN 1) (cV 1)) (cM (cM (cA (cA (cN 3) (cM (cN 5) (cH 0))) (cM (cN 2) (cW (cH 0) 4))) (cA (cN 5) (cM (cN 2) (cV 1)))) (cW (cA (cA (cN 6) (cM (cN 7) (cV 1))) (cM (cN 2) (cW (cV 1) 4))) 4)))))) (cM (cM (cM (cN 4) (cA (cN 1) (cM (cN 2) (cH 0)))) (cA (cN 1) (cM (cN 2) (cV 1)))) (cR (cD (cA (cN 1) (cV 1)) (cM (cM (cA (cA (cN 3) (cM (cN 5) (cH 0))) (cM (cN 2) (cW (cH 0) 4))) (cA (cN 5) (cM (cN 2) (cV 1)))) (cW (cA (cA (cN 6) (cM (cN 7) (cV 1))) (cM (cN 2) (cW (cV 1) 4))) 4)))))) (cD (cM (cN 6) (cA (cN 1) (cM (cN 2) (cV 1)))) (cM (cR (cM (cA (cA (cN 3) (cM (cN 5) (cH 0))) (cM (cN 2) (cW (cH 0) 4))) (cA (cA (cN 5) (cM (cN 7) (cV 1))) (cM (cN 2) (cW (cV 1) 4))))) (cA (cA (cN 6) (cM (cN 7) (cV 1))) (cM (cN 2) (cW (cV 1) 4)))))) (cD (cM (cM (cN 3) (cA (cN 1) (cM (cN 2) (cH 0)))) (cA (cN 1) (cM (cN 2) (cV 1)))) (cM (cR (cM (cA (cA (cN 3) (cM (cN 5) (cH 0))) (cM (cN 2) (cW (cH 0) 4))) (cA (cA (cN 5) (cM (cN 7) (cV 1))) (cM (cN 2) (cW (cV 1) 4))))) (cA (cA (cN 6) (cM (cN 7) (cV 1))) (cM (cN 2) (cW (cV 1) 4)))))) (cR (cM (cA (cA (cN 3) (cM (cN 5) (cH 0))) (cM (cN 2) (cW (cH 0) 4))) (cA (cA (cN 3) (cM (cN 5) (cV 1))) (cM (cN 2) (cW (cV 1) 4))))))) (cD (cM (cA (cN 1) (cM (cN 2) (cH 0))) (cA (cA (cA (cA (cA (cD (cA (cN 1) (cM (cN 2) (cV 1))) (cR (cD (cM (cM (cA (cA (cN 3) (cM (cN 5) (cH 0))) (cM (cN 2) (cW (cH 0) 4))) (cW (cA (cN 2) (cV 1)) 4)) (cA (cN 5) (cM (cN 2) (cV 1)))) (cA (cN 1) (cV 1))))) (cD (cA (cN 2) (cM (cN 4) (cV 1))) (cR (cD (cM (cM (cA (cN 3) (cM (cN 2) (cH 0))) (cW (cA (cN 2) (cV 1)) 4)) (cA (cN 5) (cM (cN 2) (cV 1)))) (cM (cA (cN 1) (cH 0)) (cA (cN 1) (cV 1))))))) (cM (cM (cN 8) (cA (cN 1) (cM (cN 2) (cV 1)))) (cR (cD (cM (cA (cN 1) (cH 0)) (cA (cN 1) (cV 1))) (cM (cM (cA (cN 3) (cM (cN 2) (cH 0))) (cA (cN 5) (cM (cN 2) (cV 1)))) (cW (cA (cA (cN 6) (cM (cN 7) (cV 1))) (cM (cN 2) (cW (cV 1) 4))) 4)))))) (cM (cN 6) (cR (cD (cM (cA (cN 1) (cH 0)) (cW (cA (cN 1) (cM (cN 2) (cV 1))) 4)) (cM (cM (cA (cN 3) (cM (cN 2) (cH 0))) (cA (cA (cN 5) (cM (cN 7) (cV 1))) (cM (cN 2) (cW (cV 1) 4)))) (cW (cA (cA (cN 6) (cM (cN 7) (cV 1))) (cM (cN 2) (cW (cV 1) 4))) 4)))))) (cD (cA (cN 4) (cM (cN 8) (cV 1))) (cM (cR (cD (cM (cA (cA (cN 3) (cM (cN 5) (cH 0))) (cM (cN 2) (cW (cH 0) 4))) (cA (cN 5) (cM (cN 2) (cV 1)))) (cA (cN 1) (cV 1)))) (cA (cA (cN 6) (cM (cN 7) (cV 1))) (cM (cN 2) (cW (cV 1) 4)))))) (cD (cA (cN 3) (cM (cN 6) (cV 1))) (cM (cR (cM (cA (cA (cN 3) (cM (cN 5) (cH 0))) (cM (cN 2) (cW (cH 0) 4))) (cA (cA (cN 5) (cM (cN 7) (cV 1))) (cM (cN 2) (cW (cV 1) 4))))) (cA (cA (cN 6) (cM (cN 7) (cV 1))) (cM (cN 2) (cW (cV 1) 4))))))) (cR (cM (cA (cA (cN 3) (cM (cN 5) (cH 0))) (cM (cN 2) (cW (cH 0) 4))) (cA (cA (cN 3) (cM (cN 5) (cV 1))) (cM (cN 2) (cW (cV 1) 4))))))) (cD (cA (cA (cA (cA (cA (cA (cD (cM (cM (cN 12) (cA (cN 1) (cM (cN 2) (cH 0)))) (cR (cD (cA (cN 1) (cH 0)) (cM (cA (cN 3) (cM (cN 2) (cH 0))) (cA (cA (cN 5) (cM (cN 7) (cV 1))) (cM (cN 2) (cW (cV 1) 4))))))) (cA (cA (cN 6) (cM (cN 7) (cV 1))) (cM (cN 2) (cW (cV 1) 4)))) (cD (cM (cM (cM (cN 6) (cA (cN 1) (cM (cN 2) (cH 0)))) (cA (cN 1) (cM (cN 2) (cV 1)))) (cR (cD (cA (cN 1) (cH 0)) (cM (cA (cN 3) (cM (cN 2) (cH 0))) (cA (cA (cN 5) (cM (cN 7) (cV 1))) (cM (cN 2) (cW (cV 1) 4))))))) (cA (cA (cN 6) (cM (cN 7) (cV 1))) (cM (cN 2) (cW (cV 1) 4))))) (cD (cM (cN 6) (cA (cN 1) (cM (cN 2) (cH 0)))) (cM (cR (cM (cA (cA (cN 3) (cM (cN 5) (cH 0))) (cM (cN 2) (cW (cH 0) 4))) (cA (cA (cN 5) (cM (cN 7) (cV 1))) (cM (cN 2) (cW (cV 1) 4))))) (cA (cA (cN 6) (cM (cN 7) (cV 1))) (cM (cN 2) (cW (cV 1) 4)))))) (cD (cA (cN 3) (cM (cN 6) (cH 0))) (cM (cR (cM (cA (cA (cN 3) (cM (cN 5) (cH 0))) (cM (cN 2) (cW (cH 0) 4))) (cA (cA (cN 5) (cM (cN 7) (cV 1))) (cM (cN 2) (cW (cV 1) 4))))) (cA (cA (cN 6) (cM (cN 7) (cV 1))) (cM (cN 2) (cW (cV 1) 4)))))) (cD (cM (cM (cN 6) (cA (cN 1) (cM (cN 2) (cH 0)))) (cV 1)) (cM (cR (cM (cA (cA (cN 3) (cM (cN 5) (cH 0))) (cM (cN 2) (cW (cH 0) 4))) (cA (cA (cN 5) (cM (cN 7) (cV 1))) (cM (cN 2) (cW (cV 1) 4))))) (cA (cA (cN 6) (cM (cN 7) (cV 1))) (cM (cN 2) (cW (cV 1) 4)))))) (cD (cM (cM (cN 2) (cA (cN 1) (cM (cN 2) (cH 0)))) (cA (cN 1) (cM (cN 2) (cV 1)))) (cR (cD (cM (cM (cA (cN 3) (cM (cN 2) (cH 0))) (cA (cN 5) (cM (cN 2) (cV 1)))) (cW (cA (cA (cN 6) (cM (cN 7) (cV 1))) (cM (cN 2) (cW (cV 1) 4))) 4)) (cM (cA (cN 1) (cH 0)) (cA (cN 1) (cV 1))))))) (cD (cM (cA (cN 1) (cM (cN 2) (cH 0))) (cA (cN 1) (cM (cN 2) (cV 1)))) (cR (cD (cM (cM (cA (cA (cN 3) (cM (cN 5) (cH 0))) (cM (cN 2) (cW (cH 0) 4))) (cA (cN 5) (cM (cN 2) (cV 1)))) (cW (cA (cA (cN 6) (cM (cN 7) (cV 1))) (cM (cN 2) (cW (cV 1) 4))) 4)) (cA (cN 1) (cV 1)))))) (cR (cM (cA (cA (cN 3) (cM (cN 5) (cH 0))) (cM (cN 2) (cW (cH 0) 4))) (cA (cA (cN 3) (cM (cN 5) (cV 1))) (cM (cN 2) (cW (cV 1) 4))))))) (cN 2)).
Definition SPSU2T_e1037 := (cD (cR (cD (cM (cA (cN (-1)) (cM (cN 2) (cH 0))) (cA (cN (-1)) (cV 1))) (cM (cH 0) (cV 1)))) (cN 2)).
Definition SPSU2T_e1038 := (cD (cA (cN 1) (cV 1)) (cM (cN 2) (cR (cD (cM (cM (cH 0) (cV 1)) (cA (cA (cN 1) (cM (cN 3) (cV 1))) (cM (cN 2) (cW (cV 1) 4)))) (cM (cA (cN (-1)) (cM (cN 2) (cH 0))) (cA (cN (-1)) (cM (cN 2) (cV 1)))))))).
Definition SPSU2T_e1039 := (cR (cB (cN 1) (cD (cN 1) (cM (cN 2) (cH 0))))).
Definition SPSU2T_e1040 := (cD (cM (cA (cN 1) (cV 1)) (cR (cD (cA (cN (-1)) (cM (cN 2) (cH 0))) (cM (cH 0) (cA (cV 1) (cW (cV 1) 4)))))) (cN 2)).
Definition SPSU2T_e1041 := (cD (cM (cA (cA (cN 3) (cM (cN 5) (cV 1))) (cM (cN 2) (cW (cV 1) 4))) (cR (cD (cA (cN (-3)) (cM (cN 6) (cH 0))) (cM (cM (cH 0) (cV 1)) (cA (cA (cA (cN 3) (cM (cN 11) (cV 1))) (cM (cN 12) (cW (cV 1) 4))) (cM (cN 4) (cW (cV 1) 6))))))) (cN 6)).
Definition SPSU2T_e1042 := (cR (cD (cA (cN (-1)) (cM (cN 2) (cV 1))) (cA (cN 1) (cM (cN 2) (cV 1))))).
Definition SPSU2T_e1043 := (cD (cA (cN 1) (cH 0)) (cM (cR (cN 3)) (cR (cD (cM (cM (cH 0) (cA (cN 1) (cH 0))) (cA (cN 1) (cM (cN 2) (cV 1)))) (cA (cN (-1)) (cM (cN 2) (cV 1))))))).
Definition SPSU2T_e1044 := (cD (cB (cN (-1)) (cV 1)) (cM (cN 2) (cR (cD (cM (cM (cH 0) (cV 1)) (cA (cN 1) (cV 1))) (cA (cN (-1)) (cM (cN 2) (cH 0))))))).
Definition SPSU2T_e1045 := (cA (cO (cR (cD (cM (cA (cN (-1)) (cM (cN 2) (cH 0))) (cV 1)) (cM (cH 0) (cW (cA (cN 1) (cV 1)) 6))))) (cD (cA (cN (-1)) (cV 1)) (cM (cM (cN 2) (cA (cN 1) (cV 1))) (cR (cD (cM (cM (cH 0) (cV 1)) (cA (cN 1) (cV 1))) (cA (cN (-1)) (cM (cN 2) (cH 0)))))))).
Definition SPSU2T_e1046 := (cA (cB (cD (cR (cD (cM (cA (cN (-1)) (cM (cN 2) (cH 0))) (cV 1)) (cM (cH 0) (cW (cA (cN 1) (cV 1)) 6)))) (cA (cN 3) (cM (cN 2) (cV 1)))) (cD (cV 1) (cM (cM (cN 2) (cA (cN 1) (cV 1))) (cR (cD (cM (cM (cM (cH 0) (cV 1)) (cA (cN 1) (cV 1))) (cW (cA (cN 3) (cM (cN 2) (cV 1))) 4)) (cA (cN (-1)) (cM (cN 2) (cH 0)))))))) (cD (cM (cM (cR (cB (cN 2) (cD (cN 1) (cH 0)))) (cW (cV 1) 4)) (cA (cA (cN 2) (cM (cN 5) (cV 1))) (cM (cN 2) (cW (cV 1) 4)))) (cM (cM (cN 2) (cW (cM (cV 1) (cA (cN 1) (cV 1))) 3)) (cA (cN 3) (cM (cN 2) (cV 1)))))).
Definition SPSU2T_e1047 := (cD (cA (cN (-1)) (cV 1)) (cM (cN 2) (cR (cD (cM (cM (cH 0) (cA (cN (-1)) (cV 1))) (cV 1)) (cA (cN (-1)) (cM (cN 2) (cH 0))))))).
Definition SPSU2T_e1048 := (cA (cA (cD (cM (cQ (-1) 2) (cM (cV 1) (cA (cN (-1)) (cM (cN 2) (cV 1))))) (cM (cM (cR (cN 3)) (cW (cA (cN 1) (cV 1)) 3)) (cR (cD (cM (cM (cH 0) (cV 1)) (cA (cA (cN (-3)) (cM (cN 4) (cV 1))) (cM (cN 4) (cW (cV 1) 4)))) (cA (cN (-1)) (cM (cN 2) (cH 0))))))) (cD (cM (cR (cA (cN (-3)) (cM (cN 6) (cH 0)))) (cA (cA (cN (-2)) (cM (cN 3) (cV 1))) (cM (cN 2) (cW (cV 1) 4)))) (cM (cM (cN 2) (cA (cN 1) (cV 1))) (cR (cM (cM (cH 0) (cV 1)) (cA (cA (cA (cN (-3)) (cV 1)) (cM (cN 8) (cW (cV 1) 4))) (cM (cN 4) (cW (cV 1) 6)))))))) (cD (cA (cA (cB (cN 3) (cM (cN 9) (cV 1))) (cM (cN 4) (cW (cV 1) 4))) (cM (cN 4) (cW (cV 1) 6))) (cM (cM (cM (cN 2) (cR (cN 3))) (cA (cN 1) (cV 1))) (cR (cD (cM (cM (cH 0) (cV 1)) (cA (cA (cA (cN (-3)) (cV 1)) (cM (cN 8) (cW (cV 1) 4))) (cM (cN 4) (cW (cV 1) 6)))) (cA (cN (-1)) (cM (cN 2) (cH 0)))))))).
Definition SPSU2T_e1049 := (cA (cA (cD (cM (cM (cN 3) (cA (cN 2) (cV 1))) (cR (cD (cA (cN (-1)) (cM (cN 2) (cH 0))) (cM (cM (cH 0) (cW (cA (cN 3) (cM (cN 2) (cV 1))) 4)) (cA (cA (cN 2) (cM (cN 3) (cV 1))) (cW (cV 1) 4)))))) (cM (cN 2) (cA (cN 1) (cV 1)))) (cD (cM (cM (cM (cV 1) (cA (cN 2) (cV 1))) (cA (cN 1) (cM (cN 2) (cV 1)))) (cR (cD (cA (cN (-1)) (cM (cN 2) (cH 0))) (cM (cM (cH 0) (cW (cA (cN 3) (cM (cN 2) (cV 1))) 4)) (cA (cA (cN 2) (cM (cN 3) (cV 1))) (cW (cV 1) 4)))))) (cM (cN 2) (cA (cN 1) (cV 1))))) (cD (cM (cM (cN 2) (cV 1)) (cA (cA (cM (cN 2) (cR (cD (cM (cH 0) (cV 1)) (cA (cN 3) (cM (cN 2) (cV 1)))))) (cM (cN 5) (cR (cD (cM (cH 0) (cW (cV 1) 6)) (cA (cN 3) (cM (cN 2) (cV 1))))))) (cM (cN 2) (cR (cD (cM (cH 0) (cW (cV 1) 10)) (cA (cN 3) (cM (cN 2) (cV 1)))))))) (cM (cR (cD (cM (cM (cM (cM (cW (cH 0) 4) (cV 1)) (cA (cN 1) (cV 1))) (cA (cN 2) (cV 1))) (cA (cN 3) (cM (cN 2) (cV 1)))) (cA (cN (-1)) (cM (cN 2) (cH 0))))) (cA (cA (cN 1) (cM (cN 3) (cV 1))) (cM (cN 2) (cW (cV 1) 4)))))).
Definition SPSU2T_e1050 := (cO (cD (cR (cA (cN 1) (cD (cN 1) (cH 0)))) (cR (cN 3)))).
Definition SPSU2T_e1051 := (cB (cB (cD (cV 1) (cM (cM (cN 2) (cA (cN 1) (cV 1))) (cR (cD (cM (cM (cM (cH 0) (cV 1)) (cA (cN 3) (cM (cN 2) (cV 1)))) (cA (cA (cN 1) (cM (cN 3) (cV 1))) (cM (cN 2) (cW (cV 1) 4)))) (cA (cN (-1)) (cM (cN 2) (cH 0))))))) (cD (cR (cD (cM (cA (cN (-1)) (cM (cN 2) (cH 0))) (cV 1)) (cM (cH 0) (cA (cA (cA (cN 3) (cM (cN 11) (cV 1))) (cM (cN 12) (cW (cV 1) 4))) (cM (cN 4) (cW (cV 1) 6)))))) (cA (cN 1) (cV 1)))) (cD (cM (cR (cB (cN 2) (cD (cN 1) (cH 0)))) (cA (cA (cR (cD (cM (cV 1) (cA (cN 1) (cM (cN 2) (cV 1)))) (cA (cA (cN 3) (cM (cN 5) (cV 1))) (cM (cN 2) (cW (cV 1) 4))))) (cR (cD (cV 1) (cM (cW (cA (cN 1) (cV 1)) 6) (cA (cA (cN 3) (cM (cN 8) (cV 1))) (cM (cN 4) (cW (cV 1) 4))))))) (cM (cN 2) (cR (cD (cW (cV 1) 6) (cM (cW (cA (cN 1) (cV 1)) 6) (cA (cA (cN 3) (cM (cN 8) (cV 1))) (cM (cN 4) (cW (cV 1) 4))))))))) (cN 2))).
Definition SPSU2T_e1052 := (cO (cD (cR (cD (cM (cA (cN (-1)) (cM (cN 2) (cH 0))) (cA (cA (cN 2) (cM (cN 3) (cV 1))) (cW (cV 1) 4))) (cH 0))) (cA (cN 2) (cM (cN 2) (cV 1))))).
Definition SPSU2T_e1053 := (cD (cM (cA (cN (-1)) (cM (cN 2) (cV 1))) (cA (cA (cD (cM (cN (-4)) (cA (cN 2) (cV 1))) (cM (cA (cA (cN 3) (cM (cN 5) (cV 1))) (cM (cN 2) (cW (cV 1) 4))) (cR (cD (cM (cH 0) (cB (cB (cA (cN 1) (cV 1)) (cM (cN 4) (cW (cV 1) 4))) (cM (cN 4) (cW (cV 1) 6)))) (cB (cV 1) (cM (cM (cN 2) (cH 0)) (cV 1))))))) (cD (cV 1) (cM (cA (cA (cN 3) (cM (cN 5) (cV 1))) (cM (cN 2) (cW (cV 1) 4))) (cR (cD (cM (cM (cH 0) (cV 1)) (cA (cA (cB (cN (-1)) (cV 1)) (cM (cN 4) (cW (cV 1) 4))) (cM (cN 4) (cW (cV 1) 6)))) (cA (cN (-1)) (cM (cN 2) (cH 0)))))))) (cD (cM (cV 1) (cA (cA (cR (cD (cM (cH 0) (cA (cN 1) (cM (cN 2) (cV 1)))) (cA (cN 3) (cM (cN 2) (cV 1))))) (cM (cN 9) (cR (cD (cH 0) (cA (cA (cN 3) (cM (cN 8) (cV 1))) (cM (cN 4) (cW (cV 1) 4))))))) (cM (cV 1) (cA (cR (cD (cM (cH 0) (cA (cN 1) (cM (cN 2) (cV 1)))) (cA (cN 3) (cM (cN 2) (cV 1))))) (cM (cN 6) (cR (cD (cH 0) (cA (cA (cN 3) (cM (cN 8) (cV 1))) (cM (cN 4) (cW (cV 1) 4)))))))))) (cM (cA (cN 1) (cV 1)) (cR (cD (cM (cM (cW (cH 0) 4) (cV 1)) (cA (cA (cA (cN (-3)) (cV 1)) (cM (cN 8) (cW (cV 1) 4))) (cM (cN 4) (cW (cV 1) 6)))) (cA (cN (-1)) (cM (cN 2) (cH 0))))))))) (cM (cN 2) (cR (cN 3)))).
Definition SPSU2T_e1054 := (cA (cA (cD (cM (cQ (-1) 2) (cM (cV 1) (cA (cN 1) (cM (cN 2) (cV 1))))) (cM (cM (cA (cN 1) (cV 1)) (cR (cD (cM (cM (cH 0) (cV 1)) (cA (cN 1) (cV 1))) (cA (cN (-1)) (cM (cN 2) (cH 0)))))) (cA (cN 3) (cM (cN 2) (cV 1))))) (cD (cM (cV 1) (cA (cN 5) (cM (cN 2) (cV 1)))) (cM (cM (cM (cN 2) (cA (cN 1) (cV 1))) (cR (cD (cM (cM (cH 0) (cV 1)) (cA (cN 1) (cV 1))) (cA (cN (-1)) (cM (cN 2) (cH 0)))))) (cA (cN 3) (cM (cN 2) (cV 1)))))) (cD (cM (cM (cV 1) (cA (cN 1) (cM (cN 2) (cV 1)))) (cA (cA (cD (cM (cN 2) (cV 1)) (cR (cD (cM (cM (cW (cA (cN 1) (cV 1)) 4) (cA (cN 2) (cV 1))) (cA (cN 3) (cM (cN 2) (cV 1)))) (cH 0)))) (cD (cM (cN 3) (cA (cN (-1)) (cV 1))) (cR (cD (cM (cM (cM (cW (cA (cN 1) (cV 1)) 4) (cA (cN 2) (cV 1))) (cW (cA (cN 1) (cM (cN 2) (cV 1))) 4)) (cA (cN 3) (cM (cN 2) (cV 1)))) (cH 0))))) (cM (cA (cN 1) (cV 1)) (cR (cD (cH 0) (cA (cA (cN 6) (cM (cN 7) (cV 1))) (cM (cN 2) (cW (cV 1) 4)))))))) (cM (cN 2) (cR (cD (cM (cM (cM (cM (cW (cH 0) 4) (cV 1)) (cA (cN 1) (cV 1))) (cA (cN 2) (cV 1))) (cA (cN 3) (cM (cN 2) (cV 1)))) (cA (cN (-1)) (cM (cN 2) (cH 0)))))))).
Definition SPSU2T_e1055 := (cD (cA (cN 3) (cM (cN 2) (cV 1))) (cR (cA (cA (cN 3) (cM (cN 8) (cV 1))) (cM (cN 4) (cW (cV 1) 4))))).
Definition SPSU2T_e1056 := (cD (cA (cA (cM (cN 2) (cR (cD (cM (cA (cN 1) (cH 0)) (cA (cN 1) (cM (cN 2) (cV 1)))) (cM (cH 0) (cA (cN 3) (cM (cN 2) (cV 1))))))) (cM (cV 1) (cR (cD (cM (cA (cN 1) (cH 0)) (cA (cN 1) (cM (cN 2) (cV 1)))) (cM (cH 0) (cA (cN 3) (cM (cN 2) (cV 1)))))))) (cR (cD (cA (cN 1) (cH 0)) (cM (cH 0) (cA (cA (cN 3) (cM (cN 8) (cV 1))) (cM (cN 4) (cW (cV 1) 4))))))) (cM (cR (cN 3)) (cA (cN 1) (cV 1)))).
Definition SPSU2T_e1057 := (cD (cB (cN (-1)) (cH 0)) (cM (cN 2) (cR (cD (cM (cM (cH 0) (cA (cN 1) (cH 0))) (cV 1)) (cA (cN (-1)) (cV 1)))))).
Definition SPSU2T_e1058 := (cD (cM (cQ (-1) 2) (cM (cA (cN 1) (cH 0)) (cA (cN 1) (cV 1)))) (cR (cD (cM (cM (cM (cH 0) (cA (cN 1) (cH 0))) (cV 1)) (cA (cA (cN 1) (cM (cN 3) (cV 1))) (cM (cN 2) (cW (cV 1) 4)))) (cA (cN (-1)) (cM (cN 2) (cV 1)))))).
Definition SPSU2T_e1059 := (cD (cR (cD (cM (cH 0) (cA (cN (-1)) (cV 1))) (cM (cA (cN 1) (cH 0)) (cV 1)))) (cN 2)).
Definition SPSU2T_e1060 := (cA (cB (cB (cD (cM (cA (cN 3) (cM (cN 2) (cH 0))) (cV 1)) (cM (cM (cN 4) (cW (cA (cN 1) (cH 0)) 3)) (cR (cD (cM (cM (cV 1) (cA (cN 1) (cV 1))) (cA (cN 1) (cM (cN 2) (cV 1)))) (cM (cH 0) (cA (cN (-1)) (cM (cN 2) (cV 1)))))))) (cD (cH 0) (cM (cM (cN 4) (cW (cA (cN 1) (cH 0)) 3)) (cR (cD (cM (cM (cM (cH 0) (cV 1)) (cA (cN 1) (cV 1))) (cA (cN 1) (cM (cN 2) (cV 1)))) (cA (cN (-1)) (cM (cN 2) (cV 1)))))))) (cD (cM (cH 0) (cV 1)) (cM (cM (cN 4) (cW (cA (cN 1) (cH 0)) 3)) (cR (cD (cM (cM (cM (cH 0) (cV 1)) (cA (cN 1) (cV 1))) (cA (cN 1) (cM (cN 2) (cV 1)))) (cA (cN (-1)) (cM (cN 2) (cV 1)))))))) (cD (cM (cR (cD (cA (cN (-1)) (cM (cN 2) (cV 1))) (cM (cM (cV 1) (cA (cN 1) (cV 1))) (cW (cA (cN 1) (cM (cN 2) (cV 1))) 4)))) (cA (cA (cA (cM (cM (cW (cD (cH 0) (cA (cN 1) (cH 0))) 3) (cA (cN 1) (cM (cN 2) (cH 0)))) (cR (cA (cN 1) (cM (cN 2) (cV 1))))) (cD (cM (cA (cN 1) (cM (cN 2) (cH 0))) (cR (cA (cH 0) (cM (cM (cN 2) (cH 0)) (cV 1))))) (cW (cA (cN 1) (cH 0)) 3))) (cM (cN 2) (cR (cD (cH 0) (cA (cA (cA (cN 1) (cH 0)) (cM (cN 2) (cV 1))) (cM (cM (cN 2) (cH 0)) (cV 1))))))) (cM (cM (cN 4) (cV 1)) (cR (cD (cH 0) (cA (cA (cA (cN 1) (cH 0)) (cM (cN 2) (cV 1))) (cM (cM (cN 2) (cH 0)) (cV 1)))))))) (cM (cN 4) (cA (cN 1) (cH 0))))).
Definition SPSU2T_e1061 := (cO (cD (cR (cA (cN 1) (cD (cN 1) (cH 0)))) (cR (cN 2)))).
Definition SPSU2T_e1062 := (cD (cM (cQ (-1) 2) (cR (cD (cM (cM (cH 0) (cA (cN 1) (cH 0))) (cA (cN 1) (cV 1))) (cV 1)))) (cH 0)).
Definition SPSU2T_e1063 := (cD (cB (cB (cA (cB (cB (cM (cB (cN 1) (cM (cN 2) (cV 1))) (cR (cD (cM (cH 0) (cV 1)) (cM (cA (cN 1) (cH 0)) (cA (cA (cA (cN 3) (cM (cN 11) (cV 1))) (cM (cN 12) (cW (cV 1) 4))) (cM (cN 4) (cW (cV 1) 6))))))) (cD (cN 6) (cR (cM (cM (cM (cH 0) (cA (cN 1) (cH 0))) (cV 1)) (cA (cA (cA (cN 3) (cM (cN 11) (cV 1))) (cM (cN 12) (cW (cV 1) 4))) (cM (cN 4) (cW (cV 1) 6))))))) (cD (cM (cN 6) (cH 0)) (cR (cM (cM (cM (cH 0) (cA (cN 1) (cH 0))) (cV 1)) (cA (cA (cA (cN 3) (cM (cN 11) (cV 1))) (cM (cN 12) (cW (cV 1) 4))) (cM (cN 4) (cW (cV 1) 6))))))) (cD (cB (cV 1) (cM (cN 2) (cW (cV 1) 4))) (cR (cM (cM (cM (cH 0) (cA (cN 1) (cH 0))) (cV 1)) (cA (cA (cA (cN 3) (cM (cN 11) (cV 1))) (cM (cN 12) (cW (cV 1) 4))) (cM (cN 4) (cW (cV 1) 6))))))) (cM (cM (cN 3) (cW (cA (cN (-1)) (cM (cN 2) (cV 1))) 3)) (cR (cD (cH 0) (cM (cM (cA (cN 1) (cH 0)) (cV 1)) (cA (cA (cA (cB (cN (-3)) (cM (cN 5) (cV 1))) (cM (cN 10) (cW (cV 1) 4))) (cM (cN 20) (cW (cV 1) 6))) (cM (cN 8) (cW (cV 1) 8)))))))) (cD (cM (cN 3) (cW (cA (cN (-1)) (cM (cN 2) (cV 1))) 3)) (cR (cM (cM (cM (cH 0) (cA (cN 1) (cH 0))) (cV 1)) (cA (cA (cA (cB (cN (-3)) (cM (cN 5) (cV 1))) (cM (cN 10) (cW (cV 1) 4))) (cM (cN 20) (cW (cV 1) 6))) (cM (cN 8) (cW (cV 1) 8))))))) (cM (cN 2) (cR (cN 3)))).
Definition SPSU2T_e1064 := (cD (cN 1) (cR (cA (cN 2) (cD (cN 2) (cH 0))))).
Definition SPSU2T_e1065 := (cD (cM (cH 0) (cA (cA (cR (cD (cM (cV 1) (cA (cN 1) (cV 1))) (cA (cN 1) (cM (cN 2) (cV 1))))) (cM (cM (cN 2) (cV 1)) (cR (cD (cM (cV 1) (cA (cN 1) (cV 1))) (cA (cN 1) (cM (cN 2) (cV 1))))))) (cM (cH 0) (cR (cM (cV 1) (cA (cA (cN 1) (cM (cN 3) (cV 1))) (cM (cN 2) (cW (cV 1) 4)))))))) (cM (cM (cM (cN 2) (cW (cA (cN 1) (cH 0)) 3)) (cV 1)) (cR (cA (cH 0) (cM (cM (cN 2) (cH 0)) (cV 1)))))).
Definition SPSU2T_e1066 := (cD (cA (cB (cA (cB (cA (cM (cN (-6)) (cR (cD (cH 0) (cM (cM (cW (cA (cN 1) (cH 0)) 6) (cV 1)) (cA (cA (cA (cN 3) (cM (cN 11) (cV 1))) (cM (cN 12) (cW (cV 1) 4))) (cM (cN 4) (cW (cV 1) 6))))))) (cM (cM (cN 6) (cA (cN 3) (cM (cN 2) (cH 0)))) (cR (cD (cH 0) (cM (cM (cW (cA (cN 1) (cH 0)) 6) (cV 1)) (cA (cA (cA (cN 3) (cM (cN 11) (cV 1))) (cM (cN 12) (cW (cV 1) 4))) (cM (cN 4) (cW (cV 1) 6)))))))) (cD (cM (cM (cH 0) (cV 1)) (cA (cN (-1)) (cM (cN 2) (cV 1)))) (cM (cW (cA (cN 1) (cH 0)) 3) (cR (cM (cM (cH 0) (cV 1)) (cA (cA (cA (cN 3) (cM (cN 11) (cV 1))) (cM (cN 12) (cW (cV 1) 4))) (cM (cN 4) (cW (cV 1) 6)))))))) (cD (cM (cM (cM (cH 0) (cA (cN 3) (cM (cN 2) (cH 0)))) (cV 1)) (cA (cN (-1)) (cM (cN 2) (cV 1)))) (cR (cM (cM (cM (cH 0) (cW (cA (cN 1) (cH 0)) 6)) (cV 1)) (cA (cA (cA (cN 3) (cM (cN 11) (cV 1))) (cM (cN 12) (cW (cV 1) 4))) (cM (cN 4) (cW (cV 1) 6))))))) (cD (cM (cM (cN 3) (cH 0)) (cW (cD (cA (cN (-1)) (cM (cN 2) (cV 1))) (cA (cN 1) (cH 0))) 3)) (cR (cM (cM (cH 0) (cV 1)) (cA (cA (cA (cB (cN (-3)) (cM (cN 5) (cV 1))) (cM (cN 10) (cW (cV 1) 4))) (cM (cN 20) (cW (cV 1) 6))) (cM (cN 8) (cW (cV 1) 8))))))) (cD (cM (cM (cN 3) (cW (cA (cN (-1)) (cM (cN 2) (cV 1))) 3)) (cA (cA (cA (cM (cM (cW (cD (cH 0) (cA (cN 1) (cH 0))) 3) (cA (cN 1) (cM (cN 2) (cH 0)))) (cR (cA (cN 1) (cM (cN 2) (cV 1))))) (cD (cM (cA (cN 1) (cM (cN 2) (cH 0))) (cR (cA (cH 0) (cM (cM (cN 2) (cH 0)) (cV 1))))) (cW (cA (cN 1) (cH 0)) 3))) (cM (cN 2) (cR (cD (cH 0) (cA (cA (cA (cN 1) (cH 0)) (cM (cN 2) (cV 1))) (cM (cM (cN 2) (cH 0)) (cV 1))))))) (cM (cM (cN 4) (cV 1)) (cR (cD (cH 0) (cA (cA (cA (cN 1) (cH 0)) (cM (cN 2) (cV 1))) (cM (cM (cN 2) (cH 0)) (cV 1)))))))) (cM (cM (cA (cN 1) (cH 0)) (cA (cN 1) (cM (cN 2) (cV 1)))) (cR (cM (cV 1) (cA (cA (cA (cN (-3)) (cV 1)) (cM (cN 8) (cW (cV 1) 4))) (cM (cN 4) (cW (cV 1) 6)))))))) (cM (cN 4) (cR (cN 3)))).
Definition SPSU2T_e1067 := (cD (cB (cM (cA (cA (cN (-3)) (cM (cN 4) (cH 0))) (cM (cN 4) (cW (cH 0) 4))) (cR (cD (cA (cN (-1)) (cM (cN 2) (cV 1))) (cM (cM (cH 0) (cA (cN (-1)) (cM (cN 2) (cH 0)))) (cA (cN 1) (cM (cN 2) (cV 1))))))) (cR (cD (cM (cA (cN (-1)) (cM (cN 2) (cH 0))) (cA (cN (-1)) (cM (cN 2) (cV 1)))) (cA (cH 0) (cM (cM (cN 2) (cH 0)) (cV 1)))))) (cM (cM (cN 2) (cR (cN 3))) (cA (cN 1) (cH 0)))).
Definition SPSU2T_e1068 := (cA (cD (cR (cD (cM (cA (cN 3) (cM (cN 2) (cH 0))) (cA (cN (-1)) (cM (cN 2) (cV 1)))) (cM (cW (cA (cN 1) (cH 0)) 6) (cA (cN 1) (cM (cN 2) (cV 1)))))) (cR (cN 3))) (cD (cM (cH 0) (cR (cD (cM (cA (cA (cN 3) (cM (cN 5) (cH 0))) (cM (cN 2) (cW (cH 0) 4))) (cA (cN (-1)) (cM (cN 2) (cV 1)))) (cA (cN 3) (cM (cN 6) (cV 1)))))) (cW (cA (cN 1) (cH 0)) 4))).
Definition SPSU2T_e1069 := (cD (cA (cR (cD (cM (cA (cN 1) (cH 0)) (cA (cV 1) (cW (cV 1) 4))) (cH 0))) (cR (cM (cM (cH 0) (cA (cN 1) (cH 0))) (cA (cV 1) (cW (cV 1) 4))))) (cA (cM (cN 2) (cV 1)) (cM (cM (cN 2) (cH 0)) (cV 1)))).
Definition SPSU2T_e1070 := (cD (cA (cA (cA (cA (cR (cD (cM (cH 0) (cV 1)) (cM (cA (cN 1) (cH 0)) (cW (cA (cN 1) (cV 1)) 6)))) (cD (cM (cN 2) (cV 1)) (cM (cR (cM (cM (cH 0) (cA (cN 1) (cH 0))) (cV 1))) (cW (cA (cN 1) (cV 1)) 3)))) (cD (cM (cH 0) (cV 1)) (cM (cR (cM (cM (cH 0) (cA (cN 1) (cH 0))) (cV 1))) (cW (cA (cN 1) (cV 1)) 3)))) (cD (cM (cM (cM (cH 0) (cA (cN 1) (cH 0))) (cB (cN 1) (cV 1))) (cV 1)) (cW (cM (cM (cM (cH 0) (cA (cN 1) (cH 0))) (cV 1)) (cA (cN 1) (cV 1))) 3))) (cD (cM (cM (cM (cH 0) (cA (cN 1) (cH 0))) (cV 1)) (cB (cH 0) (cM (cH 0) (cV 1)))) (cW (cM (cM (cM (cH 0) (cA (cN 1) (cH 0))) (cV 1)) (cA (cN 1) (cV 1))) 3))) (cN 2)).
Definition SPSU2T_e1071 := (cD (cB (cO (cD (cA (cA (cA (cM (cN 3) (cR (cM (cM (cM (cH 0) (cA (cN 1) (cH 0))) (cV 1)) (cA (cN 1) (cV 1))))) (cM (cM (cN 5) (cV 1)) (cR (cM (cM (cM (cH 0) (cA (cN 1) (cH 0))) (cV 1)) (cA (cN 1) (cV 1)))))) (cM (cM (cN 2) (cW (cV 1) 4)) (cR (cM (cM (cM (cH 0) (cA (cN 1) (cH 0))) (cV 1)) (cA (cN 1) (cV 1)))))) (cR (cM (cM (cM (cW (cH 0) 6) (cA (cN 1) (cH 0))) (cV 1)) (cA (cN 1) (cV 1))))) (cM (cM (cM (cH 0) (cA (cN 1) (cH 0))) (cW (cA (cN 1) (cV 1)) 4)) (cA (cN 3) (cM (cN 2) (cV 1)))))) (cM (cM (cH 0) (cR (cA (cN 1) (cM (cN 2) (cV 1))))) (cA (cR (cD (cM (cV 1) (cA (cN 1) (cM (cN 2) (cV 1)))) (cM (cM (cM (cH 0) (cA (cN 1) (cH 0))) (cW (cA (cN 1) (cV 1)) 6)) (cW (cA (cN 3) (cM (cN 2) (cV 1))) 4)))) (cM (cV 1) (cR (cD (cA (cN 1) (cM (cN 2) (cV 1))) (cM (cM (cM (cH 0) (cA (cN 1) (cH 0))) (cW (cA (cN 3) (cM (cN 2) (cV 1))) 4)) (cA (cV 1) (cW (cV 1) 4))))))))) (cN 2)).
Definition SPSU2T_e1072 := (cD (cM (cQ (-1) 4) (cA (cM (cM (cM (cN 2) (cA (cN 1) (cH 0))) (cV 1)) (cR (cM (cM (cM (cH 0) (cW (cA (cN 1) (cH 0)) 6)) (cV 1)) (cA (cN 1) (cV 1))))) (cM (cN 2) (cA (cA (cR (cM (cM (cM (cH 0) (cA (cN 1) (cH 0))) (cV 1)) (cA (cN 1) (cV 1)))) (cM (cM (cN 2) (cH 0)) (cR (cM (cM (cM (cH 0) (cA (cN 1) (cH 0))) (cV 1)) (cA (cN 1) (cV 1)))))) (cR (cM (cM (cM (cW (cH 0) 10) (cA (cN 1) (cH 0))) (cV 1)) (cA (cN 1) (cV 1)))))))) (cM (cM (cW (cA (cN 1) (cH 0)) 6) (cV 1)) (cA (cN 1) (cV 1)))).
Definition SPSU2T_e1073 := (cD (cB (cA (cB (cM (cN 2) (cR (cD (cM (cH 0) (cV 1)) (cM (cW (cA (cN 1) (cH 0)) 6) (cW (cA (cN 1) (cV 1)) 6))))) (cD (cM (cM (cN 2) (cA (cN 3) (cM (cN 2) (cH 0)))) (cR (cM (cH 0) (cV 1)))) (cW (cM (cA (cN 1) (cH 0)) (cA (cN 1) (cV 1))) 3))) (cD (cM (cM (cM (cR (cH 0)) (cA (cN 3) (cM (cN 2) (cH 0)))) (cA (cN (-1)) (cV 1))) (cV 1)) (cW (cM (cM (cA (cN 1) (cH 0)) (cV 1)) (cA (cN 1) (cV 1))) 3))) (cD (cM (cA (cN (-1)) (cV 1)) (cV 1)) (cM (cH 0) (cW (cD (cM (cM (cA (cN 1) (cH 0)) (cV 1)) (cA (cN 1) (cV 1))) (cH 0)) 3)))) (cN 4)).
Definition SPSU2T_e1074 := (cA (cA (cB (cB (cB (cD (cM (cH 0) (cV 1)) (cM (cM (cM (cN 4) (cW (cA (cN 1) (cH 0)) 3)) (cA (cN 1) (cV 1))) (cR (cM (cM (cM (cH 0) (cV 1)) (cA (cN 1) (cV 1))) (cW (cA (cN 3) (cM (cN 2) (cV 1))) 4))))) (cD (cM (cM (cH 0) (cA (cN 3) (cM (cN 2) (cH 0)))) (cV 1)) (cM (cM (cN 4) (cW (cA (cN 1) (cH 0)) 3)) (cR (cM (cM (cM (cH 0) (cV 1)) (cW (cA (cN 1) (cV 1)) 6)) (cW (cA (cN 3) (cM (cN 2) (cV 1))) 4)))))) (cD (cR (cD (cM (cH 0) (cV 1)) (cM (cW (cA (cN 1) (cH 0)) 6) (cW (cA (cN 1) (cV 1)) 6)))) (cA (cN 6) (cM (cN 4) (cV 1))))) (cD (cM (cM (cH 0) (cR (cA (cN 1) (cM (cN 2) (cV 1))))) (cA (cR (cD (cM (cV 1) (cA (cN 1) (cM (cN 2) (cV 1)))) (cM (cM (cM (cH 0) (cA (cN 1) (cH 0))) (cW (cA (cN 1) (cV 1)) 6)) (cW (cA (cN 3) (cM (cN 2) (cV 1))) 4)))) (cM (cV 1) (cR (cD (cA (cN 1) (cM (cN 2) (cV 1))) (cM (cM (cM (cH 0) (cA (cN 1) (cH 0))) (cW (cA (cN 3) (cM (cN 2) (cV 1))) 4)) (cA (cV 1) (cW (cV 1) 4)))))))) (cM (cN 4) (cA (cN 1) (cH 0))))) (cD (cA (cA (cA (cA (cA (cA (cA (cD (cM (cN 2) (cR (cD (cM (cH 0) (cV 1)) (cM (cA (cN 1) (cH 0)) (cW (cA (cN 1) (cV 1)) 6))))) (cA (cN 3) (cM (cN 2) (cV 1)))) (cD (cM (cN 4) (cR (cD (cM (cH 0) (cW (cV 1) 6)) (cM (cA (cN 1) (cH 0)) (cW (cA (cN 1) (cV 1)) 6))))) (cA (cN 3) (cM (cN 2) (cV 1))))) (cD (cM (cM (cA (cN 1) (cM (cN 2) (cH 0))) (cR (cM (cH 0) (cV 1)))) (cA (cN 1) (cM (cN 2) (cV 1)))) (cM (cW (cM (cA (cN 1) (cH 0)) (cA (cN 1) (cV 1))) 3) (cA (cN 3) (cM (cN 2) (cV 1)))))) (cD (cM (cM (cM (cH 0) (cA (cN 1) (cM (cN 2) (cH 0)))) (cV 1)) (cA (cN 1) (cM (cN 2) (cV 1)))) (cM (cM (cW (cA (cN 1) (cH 0)) 3) (cR (cM (cM (cH 0) (cV 1)) (cA (cN 1) (cV 1))))) (cA (cN 3) (cM (cN 2) (cV 1)))))) (cD (cM (cM (cM (cW (cH 0) 4) (cA (cN 1) (cM (cN 2) (cH 0)))) (cV 1)) (cA (cN 1) (cM (cN 2) (cV 1)))) (cM (cM (cW (cA (cN 1) (cH 0)) 3) (cR (cM (cM (cH 0) (cV 1)) (cA (cN 1) (cV 1))))) (cA (cN 3) (cM (cN 2) (cV 1)))))) (cD (cM (cM (cM (cA (cN 1) (cM (cN 2) (cH 0))) (cR (cV 1))) (cA (cN 1) (cM (cN 2) (cV 1)))) (cW (cD (cH 0) (cA (cA (cA (cN 1) (cH 0)) (cV 1)) (cM (cH 0) (cV 1)))) 3)) (cA (cN 3) (cM (cN 2) (cV 1))))) (cM (cM (cN 2) (cV 1)) (cR (cD (cM (cH 0) (cW (cA (cN 1) (cM (cN 2) (cV 1))) 4)) (cM (cM (cW (cA (cN 1) (cH 0)) 6) (cW (cA (cN 3) (cM (cN 2) (cV 1))) 4)) (cA (cV 1) (cW (cV 1) 4))))))) (cM (cM (cM (cN 2) (cH 0)) (cV 1)) (cR (cD (cM (cH 0) (cW (cA (cN 1) (cM (cN 2) (cV 1))) 4)) (cM (cM (cW (cA (cN 1) (cH 0)) 6) (cW (cA (cN 3) (cM (cN 2) (cV 1))) 4)) (cA (cV 1) (cW (cV 1) 4))))))) (cM (cN 4) (cA (cN 1) (cH 0))))) (cD (cM (cR (cD (cV 1) (cM (cA (cN 1) (cM (cN 2) (cV 1))) (cW (cA (cA (cN 3) (cM (cN 5) (cV 1))) (cM (cN 2) (cW (cV 1) 4))) 4)))) (cA (cA (cA (cD (cM (cW (cD (cH 0) (cA (cN 1) (cH 0))) 3) (cA (cN 1) (cM (cN 2) (cH 0)))) (cR (cD (cA (cN 1) (cV 1)) (cA (cN 1) (cM (cN 2) (cV 1)))))) (cD (cH 0) (cR (cD (cM (cM (cH 0) (cW (cA (cN 1) (cH 0)) 6)) (cA (cN 1) (cV 1))) (cM (cW (cA (cN 1) (cM (cN 2) (cH 0))) 4) (cA (cN 1) (cM (cN 2) (cV 1)))))))) (cM (cN 2) (cR (cD (cH 0) (cM (cA (cN 1) (cH 0)) (cA (cA (cN 1) (cM (cN 3) (cV 1))) (cM (cN 2) (cW (cV 1) 4)))))))) (cM (cM (cN 4) (cV 1)) (cR (cD (cH 0) (cM (cA (cN 1) (cH 0)) (cA (cA (cN 1) (cM (cN 3) (cV 1))) (cM (cN 2) (cW (cV 1) 4))))))))) (cM (cN 2) (cA (cN 1) (cH 0))))).
Definition SPSU2T_e1075 := (cD (cM (cQ (-1) 2) (cR (cD (cM (cM (cH 0) (cA (cN 1) (cH 0))) (cA (cN (-1)) (cV 1))) (cV 1)))) (cH 0)).
Definition SPSU2T_e1076 := (cD (cA (cB (cA (cB (cA (cD (cM (cV 1) (cA (cN (-1)) (cM (cN 2) (cV 1)))) (cM (cW (cA (cN 1) (cV 1)) 3) (cR (cM (cM (cM (cH 0) (cA (cN 1) (cH 0))) (cV 1)) (cA (cA (cN (-3)) (cM (cN 4) (cV 1))) (cM (cN 4) (cW (cV 1) 4))))))) (cD (cM (cM (cH 0) (cV 1)) (cA (cN (-1)) (cM (cN 2) (cV 1)))) (cR (cM (cM (cM (cM (cH 0) (cA (cN 1) (cH 0))) (cV 1)) (cW (cA (cN 1) (cV 1)) 6)) (cA (cA (cN (-3)) (cM (cN 4) (cV 1))) (cM (cN 4) (cW (cV 1) 4))))))) (cD (cM (cH 0) (cA (cA (cB (cN 3) (cM (cN 9) (cV 1))) (cM (cN 4) (cW (cV 1) 4))) (cM (cN 4) (cW (cV 1) 6)))) (cR (cM (cM (cM (cM (cH 0) (cA (cN 1) (cH 0))) (cV 1)) (cW (cA (cN 1) (cV 1)) 6)) (cA (cA (cN (-3)) (cM (cN 4) (cV 1))) (cM (cN 4) (cW (cV 1) 4))))))) (cD (cB (cB (cN 6) (cM (cN 9) (cV 1))) (cM (cN 6) (cW (cV 1) 4))) (cM (cA (cN 1) (cV 1)) (cR (cM (cM (cM (cH 0) (cA (cN 1) (cH 0))) (cV 1)) (cA (cA (cA (cN (-3)) (cV 1)) (cM (cN 8) (cW (cV 1) 4))) (cM (cN 4) (cW (cV 1) 6)))))))) (cD (cM (cM (cN 3) (cH 0)) (cA (cA (cN (-2)) (cM (cN 3) (cV 1))) (cM (cN 2) (cW (cV 1) 4)))) (cM (cA (cN 1) (cV 1)) (cR (cM (cM (cM (cH 0) (cA (cN 1) (cH 0))) (cV 1)) (cA (cA (cA (cN (-3)) (cV 1)) (cM (cN 8) (cW (cV 1) 4))) (cM (cN 4) (cW (cV 1) 6)))))))) (cD (cB (cB (cA (cN (-3)) (cM (cN 9) (cV 1))) (cM (cN 4) (cW (cV 1) 4))) (cM (cN 4) (cW (cV 1) 6))) (cM (cA (cN 1) (cV 1)) (cR (cM (cM (cM (cH 0) (cA (cN 1) (cH 0))) (cV 1)) (cA (cA (cA (cN (-3)) (cV 1)) (cM (cN 8) (cW (cV 1) 4))) (cM (cN 4) (cW (cV 1) 6)))))))) (cM (cN 2) (cR (cN 3)))).
Definition SPSU2T_e1077 := (cA (cB (cB (cB (cB (cD (cM (cM (cN (-2)) (cV 1)) (cA (cN 2) (cV 1))) (cM (cM (cA (cN 1) (cV 1)) (cR (cM (cM (cM (cH 0) (cA (cN 1) (cH 0))) (cA (cN 1) (cV 1))) (cA (cN 2) (cV 1))))) (cA (cN 3) (cM (cN 2) (cV 1))))) (cD (cM (cM (cV 1) (cR (cD (cM (cH 0) (cA (cN 2) (cV 1))) (cA (cN 1) (cH 0))))) (cA (cN 1) (cM (cN 2) (cV 1)))) (cM (cM (cN 2) (cW (cA (cN 1) (cV 1)) 3)) (cA (cN 3) (cM (cN 2) (cV 1)))))) (cD (cM (cN 3) (cA (cN 2) (cV 1))) (cM (cM (cM (cN 2) (cA (cN 1) (cV 1))) (cA (cN 3) (cM (cN 2) (cV 1)))) (cR (cM (cM (cH 0) (cA (cN 1) (cH 0))) (cA (cA (cN 2) (cM (cN 3) (cV 1))) (cW (cV 1) 4))))))) (cD (cM (cM (cN 3) (cH 0)) (cA (cN 2) (cV 1))) (cM (cM (cM (cN 2) (cA (cN 1) (cV 1))) (cA (cN 3) (cM (cN 2) (cV 1)))) (cR (cM (cM (cH 0) (cA (cN 1) (cH 0))) (cA (cA (cN 2) (cM (cN 3) (cV 1))) (cW (cV 1) 4))))))) (cD (cM (cV 1) (cA (cM (cV 1) (cR (cD (cM (cH 0) (cA (cN 1) (cM (cN 2) (cV 1)))) (cM (cM (cA (cN 1) (cH 0)) (cV 1)) (cA (cN 3) (cM (cN 2) (cV 1))))))) (cR (cD (cM (cM (cH 0) (cV 1)) (cA (cN 1) (cM (cN 2) (cV 1)))) (cM (cM (cA (cN 1) (cH 0)) (cW (cA (cN 1) (cV 1)) 4)) (cA (cN 3) (cM (cN 2) (cV 1)))))))) (cM (cN 2) (cR (cD (cM (cM (cM (cM (cW (cH 0) 4) (cV 1)) (cA (cN 1) (cV 1))) (cA (cN 2) (cV 1))) (cA (cN 3) (cM (cN 2) (cV 1)))) (cA (cN 1) (cM (cN 2) (cV 1)))))))) (cD (cM (cM (cH 0) (cV 1)) (cB (cD (cM (cN (-2)) (cV 1)) (cR (cD (cM (cM (cM (cA (cN 1) (cH 0)) (cV 1)) (cW (cA (cN 1) (cV 1)) 4)) (cA (cN 3) (cM (cN 2) (cV 1)))) (cA (cN 1) (cM (cN 2) (cV 1)))))) (cD (cN 6) (cR (cD (cM (cM (cA (cN 1) (cH 0)) (cW (cA (cN 1) (cV 1)) 4)) (cA (cA (cN 3) (cM (cN 8) (cV 1))) (cM (cN 4) (cW (cV 1) 4)))) (cV 1)))))) (cM (cN 2) (cR (cD (cM (cM (cM (cM (cH 0) (cV 1)) (cA (cN 1) (cV 1))) (cA (cN 2) (cV 1))) (cA (cN 3) (cM (cN 2) (cV 1)))) (cA (cN 1) (cM (cN 2) (cV 1)))))))).
Definition SPSU2T_e1078 := (cB (cA (cA (cD (cM (cQ (-1) 4) (cM (cM (cM (cW (cH 0) 4) (cA (cN 3) (cM (cN 2) (cH 0)))) (cW (cA (cN (-1)) (cV 1)) 4)) (cV 1))) (cM (cW (cM (cM (cM (cH 0) (cA (cN 1) (cH 0))) (cA (cN (-1)) (cV 1))) (cV 1)) 3) (cA (cN 1) (cV 1)))) (cD (cR (cD (cM (cM (cH 0) (cA (cN (-1)) (cV 1))) (cV 1)) (cW (cA (cN 1) (cH 0)) 6))) (cM (cN 4) (cA (cV 1) (cW (cV 1) 4))))) (cD (cM (cA (cN 3) (cM (cN 2) (cH 0))) (cA (cM (cN 2) (cR (cD (cM (cH 0) (cA (cN (-1)) (cV 1))) (cM (cW (cA (cN 1) (cH 0)) 6) (cV 1))))) (cR (cD (cM (cM (cH 0) (cA (cN (-1)) (cV 1))) (cV 1)) (cW (cA (cN 1) (cH 0)) 6))))) (cM (cN 4) (cA (cN 1) (cV 1))))) (cD (cM (cM (cH 0) (cR (cA (cN 1) (cM (cN 2) (cV 1))))) (cA (cB (cD (cW (cV 1) 3) (cM (cA (cN 1) (cV 1)) (cR (cM (cM (cH 0) (cA (cN 1) (cH 0))) (cA (cB (cN (-1)) (cV 1)) (cM (cN 2) (cW (cV 1) 4))))))) (cD (cV 1) (cM (cA (cN 1) (cV 1)) (cR (cM (cM (cM (cH 0) (cA (cN 1) (cH 0))) (cV 1)) (cA (cB (cN (-1)) (cV 1)) (cM (cN 2) (cW (cV 1) 4)))))))) (cM (cN 2) (cR (cD (cA (cN (-1)) (cV 1)) (cM (cM (cM (cH 0) (cA (cN 1) (cH 0))) (cW (cA (cN 1) (cV 1)) 4)) (cA (cV 1) (cM (cN 2) (cW (cV 1) 4))))))))) (cM (cN 4) (cA (cN 1) (cH 0))))).
Definition SPSU2T_e1079 := (cD (cA (cB (cA (cA (cB (cD (cM (cM (cH 0) (cV 1)) (cA (cN (-1)) (cM (cN 2) (cV 1)))) (cM (cW (cM (cA (cN 1) (cH 0)) (cA (cN 1) (cV 1))) 3) (cR (cM (cM (cH 0) (cV 1)) (cA (cA (cN (-3)) (cM (cN 4) (cV 1))) (cM (cN 4) (cW (cV 1) 4))))))) (cD (cM (cH 0) (cA (cA (cB (cN 3) (cM (cN 9) (cV 1))) (cM (cN 4) (cW (cV 1) 4))) (cM (cN 4) (cW (cV 1) 6)))) (cM (cM (cW (cA (cN 1) (cH 0)) 3) (cA (cN 1) (cV 1))) (cR (cM (cM (cH 0) (cV 1)) (cA (cA (cA (cN (-3)) (cV 1)) (cM (cN 8) (cW (cV 1) 4))) (cM (cN 4) (cW (cV 1) 6)))))))) (cD (cB (cB (cN 6) (cM (cN 9) (cV 1))) (cM (cN 6) (cW (cV 1) 4))) (cM (cM (cA (cN 1) (cH 0)) (cA (cN 1) (cV 1))) (cR (cD (cM (cM (cA (cN 1) (cH 0)) (cV 1)) (cA (cA (cA (cN (-3)) (cV 1)) (cM (cN 8) (cW (cV 1) 4))) (cM (cN 4) (cW (cV 1) 6)))) (cH 0)))))) (cD (cM (cM (cN 3) (cA (cN 3) (cM (cN 2) (cH 0)))) (cA (cA (cN (-2)) (cM (cN 3) (cV 1))) (cM (cN 2) (cW (cV 1) 4)))) (cM (cM (cA (cN 1) (cH 0)) (cA (cN 1) (cV 1))) (cR (cD (cM (cM (cA (cN 1) (cH 0)) (cV 1)) (cA (cA (cA (cN (-3)) (cV 1)) (cM (cN 8) (cW (cV 1) 4))) (cM (cN 4) (cW (cV 1) 6)))) (cH 0)))))) (cD (cM (cM (cV 1) (cA (cN (-1)) (cM (cN 2) (cV 1)))) (cA (cM (cN 3) (cR (cD (cH 0) (cM (cM (cW (cA (cN 1) (cH 0)) 6) (cV 1)) (cA (cA (cN (-3)) (cM (cN 4) (cV 1))) (cM (cN 4) (cW (cV 1) 4))))))) (cD (cM (cN 2) (cW (cH 0) 4)) (cM (cW (cA (cN 1) (cH 0)) 3) (cR (cM (cM (cH 0) (cV 1)) (cA (cA (cN (-3)) (cM (cN 4) (cV 1))) (cM (cN 4) (cW (cV 1) 4))))))))) (cW (cA (cN 1) (cV 1)) 3))) (cM (cA (cN (-1)) (cM (cN 2) (cV 1))) (cA (cA (cA (cM (cM (cM (cN 2) (cA (cN 1) (cM (cN 2) (cH 0)))) (cW (cD (cV 1) (cA (cA (cA (cN 1) (cH 0)) (cV 1)) (cM (cH 0) (cV 1)))) 3)) (cR (cD (cH 0) (cA (cA (cN (-3)) (cM (cN 4) (cV 1))) (cM (cN 4) (cW (cV 1) 4)))))) (cD (cM (cN 4) (cR (cD (cM (cH 0) (cW (cV 1) 6)) (cM (cW (cA (cN 1) (cH 0)) 6) (cA (cA (cA (cN (-3)) (cV 1)) (cM (cN 8) (cW (cV 1) 4))) (cM (cN 4) (cW (cV 1) 6))))))) (cA (cN 1) (cV 1)))) (cD (cM (cN 6) (cA (cN (-1)) (cV 1))) (cM (cM (cW (cA (cN 1) (cH 0)) 3) (cA (cN 1) (cV 1))) (cR (cD (cM (cV 1) (cA (cA (cA (cN (-3)) (cV 1)) (cM (cN 8) (cW (cV 1) 4))) (cM (cN 4) (cW (cV 1) 6)))) (cH 0)))))) (cD (cM (cM (cM (cN 3) (cH 0)) (cA (cN 1) (cM (cN 2) (cH 0)))) (cA (cN (-1)) (cV 1))) (cM (cM (cW (cA (cN 1) (cH 0)) 3) (cA (cN 1) (cV 1))) (cR (cM (cM (cH 0) (cV 1)) (cA (cA (cA (cN (-3)) (cV 1)) (cM (cN 8) (cW (cV 1) 4))) (cM (cN 4) (cW (cV 1) 6)))))))))) (cM (cN 4) (cR (cN 3)))).
Definition SPSU2T_e1080 := (cD (cA (cB (cB (cB (cA (cD (cM (cM (cM (cN 4) (cW (cH 0) 4)) (cA (cN 3) (cM (cN 2) (cH 0)))) (cV 1)) (cM (cM (cW (cD (cM (cM (cH 0) (cA (cN 1) (cH 0))) (cA (cN 1) (cV 1))) (cA (cN 2) (cV 1))) 3) (cA (cN 2) (cV 1))) (cA (cN 3) (cM (cN 2) (cV 1))))) (cD (cM (cM (cM (cN 3) (cA (cN 3) (cM (cN 2) (cH 0)))) (cA (cN 2) (cV 1))) (cR (cD (cH 0) (cA (cA (cN 2) (cM (cN 3) (cV 1))) (cW (cV 1) 4))))) (cM (cM (cW (cA (cN 1) (cH 0)) 3) (cA (cN 1) (cV 1))) (cA (cN 3) (cM (cN 2) (cV 1)))))) (cD (cM (cM (cV 1) (cA (cN 1) (cM (cN 2) (cV 1)))) (cR (cM (cH 0) (cA (cA (cN 2) (cM (cN 3) (cV 1))) (cW (cV 1) 4))))) (cM (cM (cW (cA (cN 1) (cH 0)) 3) (cW (cA (cN 1) (cV 1)) 4)) (cA (cN 3) (cM (cN 2) (cV 1)))))) (cD (cM (cM (cN 3) (cH 0)) (cA (cN 2) (cV 1))) (cM (cA (cN 1) (cV 1)) (cR (cM (cM (cM (cH 0) (cW (cA (cN 1) (cH 0)) 6)) (cW (cA (cN 3) (cM (cN 2) (cV 1))) 4)) (cA (cA (cN 2) (cM (cN 3) (cV 1))) (cW (cV 1) 4))))))) (cD (cM (cM (cM (cM (cN 2) (cH 0)) (cV 1)) (cR (cA (cN 1) (cM (cN 2) (cV 1))))) (cA (cR (cD (cA (cN 1) (cM (cN 2) (cV 1))) (cM (cM (cM (cH 0) (cA (cN 1) (cH 0))) (cW (cA (cN 1) (cV 1)) 6)) (cA (cN 2) (cV 1))))) (cM (cN 3) (cR (cD (cN 1) (cM (cM (cM (cH 0) (cA (cN 1) (cH 0))) (cW (cA (cN 1) (cV 1)) 6)) (cA (cA (cN 2) (cM (cN 5) (cV 1))) (cM (cN 2) (cW (cV 1) 4))))))))) (cM (cA (cN 1) (cH 0)) (cA (cN 3) (cM (cN 2) (cV 1)))))) (cD (cM (cV 1) (cA (cA (cA (cA (cA (cA (cA (cD (cM (cM (cH 0) (cA (cN 1) (cM (cN 2) (cH 0)))) (cA (cN 1) (cM (cN 2) (cV 1)))) (cM (cM (cW (cM (cA (cN 1) (cH 0)) (cA (cN 1) (cV 1))) 3) (cR (cM (cH 0) (cA (cN 2) (cV 1))))) (cA (cN 3) (cM (cN 2) (cV 1))))) (cD (cM (cM (cW (cH 0) 4) (cA (cN 1) (cM (cN 2) (cH 0)))) (cA (cN 1) (cM (cN 2) (cV 1)))) (cM (cM (cW (cM (cA (cN 1) (cH 0)) (cA (cN 1) (cV 1))) 3) (cR (cM (cH 0) (cA (cN 2) (cV 1))))) (cA (cN 3) (cM (cN 2) (cV 1)))))) (cD (cM (cM (cN 2) (cA (cN 1) (cM (cN 2) (cV 1)))) (cR (cD (cH 0) (cA (cA (cN 2) (cM (cN 3) (cV 1))) (cW (cV 1) 4))))) (cM (cW (cA (cN 1) (cH 0)) 3) (cA (cN 3) (cM (cN 2) (cV 1)))))) (cD (cM (cM (cN 2) (cW (cD (cH 0) (cA (cN 1) (cH 0))) 3)) (cA (cN 1) (cM (cN 2) (cV 1)))) (cM (cA (cN 3) (cM (cN 2) (cV 1))) (cR (cA (cA (cN 2) (cM (cN 3) (cV 1))) (cW (cV 1) 4)))))) (cD (cM (cM (cH 0) (cA (cN 1) (cM (cN 2) (cH 0)))) (cA (cN 1) (cM (cN 2) (cV 1)))) (cM (cM (cW (cA (cN 1) (cH 0)) 3) (cA (cN 3) (cM (cN 2) (cV 1)))) (cR (cM (cH 0) (cA (cA (cN 2) (cM (cN 3) (cV 1))) (cW (cV 1) 4))))))) (cD (cM (cM (cW (cH 0) 4) (cA (cN 1) (cM (cN 2) (cH 0)))) (cA (cN 1) (cM (cN 2) (cV 1)))) (cM (cM (cW (cA (cN 1) (cH 0)) 3) (cA (cN 3) (cM (cN 2) (cV 1)))) (cR (cM (cH 0) (cA (cA (cN 2) (cM (cN 3) (cV 1))) (cW (cV 1) 4))))))) (cD (cM (cN 2) (cR (cD (cH 0) (cM (cA (cN 1) (cH 0)) (cA (cA (cN 2) (cM (cN 3) (cV 1))) (cW (cV 1) 4)))))) (cA (cA (cN 3) (cM (cN 5) (cV 1))) (cM (cN 2) (cW (cV 1) 4))))) (cD (cM (cM (cN 4) (cV 1)) (cR (cD (cH 0) (cM (cA (cN 1) (cH 0)) (cA (cA (cN 2) (cM (cN 3) (cV 1))) (cW (cV 1) 4)))))) (cA (cA (cN 3) (cM (cN 5) (cV 1))) (cM (cN 2) (cW (cV 1) 4)))))) (cA (cN 1) (cH 0)))) (cN 4)).
Definition SPSU2T_e1081 := (cD (cB (cO (cR (cD (cA (cN 3) (cM (cN 2) (cH 0))) (cW (cA (cN 1) (cH 0)) 6)))) (cD (cM (cH 0) (cR (cA (cA (cN 3) (cM (cN 5) (cH 0))) (cM (cN 2) (cW (cH 0) 4))))) (cW (cA (cN 1) (cH 0)) 4))) (cR (cN 3))).
Definition SPSU2T_e1082 := (cA (cB (cA (cA (cA (cD (cM (cQ (-1) 2) (cV 1)) (cM (cA (cN 1) (cV 1)) (cR (cM (cM (cM (cM (cH 0) (cA (cN 1) (cH 0))) (cV 1)) (cA (cN 3) (cM (cN 2) (cV 1)))) (cA (cA (cN 1) (cM (cN 3) (cV 1))) (cM (cN 2) (cW (cV 1) 4))))))) (cD (cA (cN 2) (cV 1)) (cM (cM (cN 2) (cA (cN 1) (cV 1))) (cR (cD (cM (cM (cH 0) (cA (cN 1) (cH 0))) (cA (cA (cN 3) (cM (cN 5) (cV 1))) (cM (cN 2) (cW (cV 1) 4)))) (cM (cV 1) (cA (cN 1) (cM (cN 2) (cV 1))))))))) (cR (cD (cM (cH 0) (cV 1)) (cM (cM (cA (cN 1) (cH 0)) (cW (cA (cN 1) (cV 1)) 6)) (cA (cA (cN 3) (cM (cN 8) (cV 1))) (cM (cN 4) (cW (cV 1) 4))))))) (cD (cR (cD (cV 1) (cM (cM (cH 0) (cA (cN 1) (cH 0))) (cA (cA (cA (cN 3) (cM (cN 11) (cV 1))) (cM (cN 12) (cW (cV 1) 4))) (cM (cN 4) (cW (cV 1) 6)))))) (cA (cN 1) (cV 1)))) (cD (cR (cD (cM (cH 0) (cV 1)) (cM (cA (cN 1) (cH 0)) (cA (cA (cA (cN 3) (cM (cN 11) (cV 1))) (cM (cN 12) (cW (cV 1) 4))) (cM (cN 4) (cW (cV 1) 6)))))) (cA (cN 2) (cM (cN 2) (cV 1))))) (cD (cM (cH 0) (cA (cR (cD (cM (cV 1) (cA (cN 1) (cM (cN 2) (cV 1)))) (cM (cM (cM (cH 0) (cA (cN 1) (cH 0))) (cW (cA (cN 1) (cV 1)) 6)) (cA (cN 3) (cM (cN 2) (cV 1)))))) (cM (cV 1) (cR (cD (cA (cN 1) (cM (cN 2) (cV 1))) (cM (cM (cM (cA (cH 0) (cW (cH 0) 4)) (cV 1)) (cA (cN 1) (cV 1))) (cA (cN 3) (cM (cN 2) (cV 1))))))))) (cN 2))).
Definition SPSU2T_e1083 := (cD (cB (cB (cA (cB (cA (cD (cM (cM (cH 0) (cA (cN 2) (cV 1))) (cR (cD (cA (cV 1) (cM (cN 2) (cW (cV 1) 4))) (cA (cM (cN 3) (cH 0)) (cM (cM (cN 2) (cH 0)) (cV 1)))))) (cW (cM (cA (cN 1) (cH 0)) (cA (cN 1) (cV 1))) 3)) (cD (cM (cN 2) (cR (cD (cM (cH 0) (cV 1)) (cM (cW (cA (cN 1) (cH 0)) 6) (cA (cA (cA (cN 3) (cM (cN 11) (cV 1))) (cM (cN 12) (cW (cV 1) 4))) (cM (cN 4) (cW (cV 1) 6))))))) (cA (cN 1) (cV 1)))) (cD (cM (cH 0) (cV 1)) (cM (cM (cW (cA (cN 1) (cH 0)) 3) (cA (cN 1) (cV 1))) (cR (cM (cM (cH 0) (cV 1)) (cA (cA (cA (cN 3) (cM (cN 11) (cV 1))) (cM (cN 12) (cW (cV 1) 4))) (cM (cN 4) (cW (cV 1) 6)))))))) (cD (cM (cM (cH 0) (cA (cN 3) (cM (cN 2) (cH 0)))) (cV 1)) (cM (cM (cW (cA (cN 1) (cH 0)) 3) (cA (cN 1) (cV 1))) (cR (cM (cM (cH 0) (cV 1)) (cA (cA (cA (cN 3) (cM (cN 11) (cV 1))) (cM (cN 12) (cW (cV 1) 4))) (cM (cN 4) (cW (cV 1) 6)))))))) (cD (cM (cM (cN 2) (cR (cV 1))) (cA (cA (cM (cN 2) (cR (cD (cM (cW (cH 0) 10) (cA (cN 1) (cM (cN 2) (cV 1)))) (cM (cW (cA (cN 1) (cH 0)) 6) (cA (cA (cN 3) (cM (cN 5) (cV 1))) (cM (cN 2) (cW (cV 1) 4))))))) (cD (cM (cH 0) (cA (cN 1) (cM (cN 3) (cH 0)))) (cM (cW (cA (cN 1) (cH 0)) 3) (cR (cD (cM (cH 0) (cA (cA (cN 3) (cM (cN 5) (cV 1))) (cM (cN 2) (cW (cV 1) 4)))) (cA (cN 1) (cM (cN 2) (cV 1)))))))) (cM (cM (cN 2) (cA (cN 1) (cM (cN 2) (cV 1)))) (cR (cD (cH 0) (cM (cA (cN 1) (cH 0)) (cA (cA (cA (cN 3) (cM (cN 11) (cV 1))) (cM (cN 12) (cW (cV 1) 4))) (cM (cN 4) (cW (cV 1) 6))))))))) (cM (cA (cN 1) (cH 0)) (cA (cA (cN 1) (cM (cN 3) (cV 1))) (cM (cN 2) (cW (cV 1) 4)))))) (cD (cA (cA (cA (cA (cA (cA (cA (cD (cH 0) (cR (cD (cM (cM (cM (cH 0) (cW (cA (cN 1) (cH 0)) 6)) (cW (cA (cN 1) (cV 1)) 6)) (cA (cN 3) (cM (cN 2) (cV 1)))) (cM (cM (cW (cA (cN 1) (cM (cN 2) (cH 0))) 4) (cV 1)) (cA (cN 1) (cM (cN 2) (cV 1))))))) (cD (cW (cH 0) 4) (cR (cD (cM (cM (cM (cH 0) (cW (cA (cN 1) (cH 0)) 6)) (cW (cA (cN 1) (cV 1)) 6)) (cA (cN 3) (cM (cN 2) (cV 1)))) (cM (cM (cW (cA (cN 1) (cM (cN 2) (cH 0))) 4) (cV 1)) (cA (cN 1) (cM (cN 2) (cV 1)))))))) (cM (cN 2) (cR (cD (cM (cM (cH 0) (cV 1)) (cA (cN 1) (cM (cN 2) (cV 1)))) (cM (cW (cA (cN 1) (cH 0)) 6) (cA (cA (cN 3) (cM (cN 5) (cV 1))) (cM (cN 2) (cW (cV 1) 4)))))))) (cM (cN 2) (cR (cD (cM (cM (cW (cH 0) 6) (cV 1)) (cA (cN 1) (cM (cN 2) (cV 1)))) (cM (cW (cA (cN 1) (cH 0)) 6) (cA (cA (cN 3) (cM (cN 5) (cV 1))) (cM (cN 2) (cW (cV 1) 4)))))))) (cD (cM (cH 0) (cV 1)) (cR (cD (cM (cM (cM (cH 0) (cW (cA (cN 1) (cH 0)) 6)) (cV 1)) (cA (cA (cN 3) (cM (cN 5) (cV 1))) (cM (cN 2) (cW (cV 1) 4)))) (cM (cW (cA (cN 1) (cM (cN 2) (cH 0))) 4) (cA (cN 1) (cM (cN 2) (cV 1)))))))) (cD (cM (cW (cD (cH 0) (cA (cN 1) (cH 0))) 3) (cA (cN 1) (cM (cN 2) (cH 0)))) (cR (cD (cA (cA (cN 3) (cM (cN 5) (cV 1))) (cM (cN 2) (cW (cV 1) 4))) (cA (cV 1) (cM (cN 2) (cW (cV 1) 4))))))) (cD (cM (cN 2) (cR (cD (cM (cH 0) (cV 1)) (cM (cA (cN 1) (cH 0)) (cA (cA (cA (cN 3) (cM (cN 11) (cV 1))) (cM (cN 12) (cW (cV 1) 4))) (cM (cN 4) (cW (cV 1) 6))))))) (cA (cN 1) (cV 1)))) (cD (cM (cM (cN 4) (cV 1)) (cR (cD (cM (cH 0) (cV 1)) (cM (cA (cN 1) (cH 0)) (cA (cA (cA (cN 3) (cM (cN 11) (cV 1))) (cM (cN 12) (cW (cV 1) 4))) (cM (cN 4) (cW (cV 1) 6))))))) (cA (cN 1) (cV 1)))) (cA (cN 1) (cH 0)))) (cN 4)).
Definition SPSU2T_e1084 := (cD (cA (cB (cB (cA (cA (cD (cM (cH 0) (cA (cN 2) (cV 1))) (cM (cM (cA (cN 1) (cV 1)) (cA (cN 3) (cM (cN 2) (cV 1)))) (cR (cD (cM (cM (cH 0) (cW (cA (cN 1) (cH 0)) 6)) (cA (cA (cN 2) (cM (cN 3) (cV 1))) (cW (cV 1) 4))) (cW (cA (cN 1) (cM (cN 2) (cV 1))) 4))))) (cD (cM (cR (cD (cH 0) (cA (cN 2) (cV 1)))) (cA (cA (cA (cN 2) (cM (cN 3) (cV 1))) (cM (cN 5) (cW (cV 1) 4))) (cM (cN 2) (cW (cV 1) 6)))) (cM (cW (cM (cA (cN 1) (cH 0)) (cA (cN 1) (cV 1))) 3) (cA (cN 3) (cM (cN 2) (cV 1)))))) (cD (cM (cA (cN 1) (cM (cN 2) (cV 1))) (cB (cB (cA (cD (cM (cM (cA (cN 1) (cM (cN 2) (cH 0))) (cA (cN (-1)) (cV 1))) (cR (cD (cM (cH 0) (cA (cN 1) (cV 1))) (cM (cA (cN 1) (cH 0)) (cA (cN 2) (cV 1)))))) (cA (cN 1) (cV 1))) (cM (cM (cN 2) (cA (cN (-1)) (cV 1))) (cR (cD (cH 0) (cM (cA (cN 1) (cH 0)) (cA (cA (cN 2) (cM (cN 3) (cV 1))) (cW (cV 1) 4))))))) (cM (cM (cM (cN 2) (cW (cA (cN 1) (cV 1)) 4)) (cA (cN 1) (cM (cN 2) (cV 1)))) (cR (cD (cH 0) (cM (cA (cN 1) (cH 0)) (cA (cA (cN 2) (cM (cN 3) (cV 1))) (cW (cV 1) 4))))))) (cD (cM (cM (cM (cH 0) (cA (cN 1) (cM (cN 2) (cH 0)))) (cW (cA (cN 1) (cV 1)) 4)) (cA (cN 1) (cM (cN 2) (cV 1)))) (cR (cM (cM (cH 0) (cA (cN 1) (cH 0))) (cA (cA (cN 2) (cM (cN 3) (cV 1))) (cW (cV 1) 4))))))) (cM (cA (cN 1) (cH 0)) (cA (cA (cA (cN 3) (cM (cN 11) (cV 1))) (cM (cN 12) (cW (cV 1) 4))) (cM (cN 4) (cW (cV 1) 6)))))) (cD (cM (cA (cN 1) (cM (cN 2) (cV 1))) (cA (cM (cN 3) (cR (cM (cM (cW (cH 0) 6) (cA (cN 1) (cH 0))) (cA (cA (cN 2) (cM (cN 3) (cV 1))) (cW (cV 1) 4))))) (cM (cN 2) (cR (cM (cM (cW (cH 0) 10) (cA (cN 1) (cH 0))) (cA (cA (cN 2) (cM (cN 3) (cV 1))) (cW (cV 1) 4))))))) (cM (cM (cM (cH 0) (cW (cA (cN 1) (cH 0)) 4)) (cW (cA (cN 1) (cV 1)) 4)) (cA (cN 3) (cM (cN 2) (cV 1)))))) (cD (cA (cA (cA (cA (cA (cA (cA (cD (cM (cM (cH 0) (cA (cN 1) (cM (cN 2) (cH 0)))) (cA (cN 1) (cM (cN 2) (cV 1)))) (cM (cM (cW (cM (cA (cN 1) (cH 0)) (cA (cN 1) (cV 1))) 3) (cR (cM (cH 0) (cA (cN 2) (cV 1))))) (cA (cN 3) (cM (cN 2) (cV 1))))) (cD (cM (cM (cW (cH 0) 4) (cA (cN 1) (cM (cN 2) (cH 0)))) (cA (cN 1) (cM (cN 2) (cV 1)))) (cM (cM (cW (cM (cA (cN 1) (cH 0)) (cA (cN 1) (cV 1))) 3) (cR (cM (cH 0) (cA (cN 2) (cV 1))))) (cA (cN 3) (cM (cN 2) (cV 1)))))) (cD (cM (cN 2) (cR (cD (cH 0) (cM (cA (cN 1) (cH 0)) (cA (cA (cN 2) (cM (cN 3) (cV 1))) (cW (cV 1) 4)))))) (cA (cN 3) (cM (cN 2) (cV 1))))) (cD (cM (cM (cN 4) (cV 1)) (cR (cD (cH 0) (cM (cA (cN 1) (cH 0)) (cA (cA (cN 2) (cM (cN 3) (cV 1))) (cW (cV 1) 4)))))) (cA (cN 3) (cM (cN 2) (cV 1))))) (cD (cM (cM (cH 0) (cA (cN 1) (cM (cN 2) (cH 0)))) (cA (cN 1) (cM (cN 2) (cV 1)))) (cM (cM (cW (cA (cN 1) (cH 0)) 3) (cA (cN 3) (cM (cN 2) (cV 1)))) (cR (cM (cH 0) (cA (cA (cN 2) (cM (cN 3) (cV 1))) (cW (cV 1) 4))))))) (cD (cM (cM (cW (cH 0) 4) (cA (cN 1) (cM (cN 2) (cH 0)))) (cA (cN 1) (cM (cN 2) (cV 1)))) (cM (cM (cW (cA (cN 1) (cH 0)) 3) (cA (cN 3) (cM (cN 2) (cV 1)))) (cR (cM (cH 0) (cA (cA (cN 2) (cM (cN 3) (cV 1))) (cW (cV 1) 4))))))) (cD (cN 2) (cM (cR (cD (cM (cA (cN 1) (cH 0)) (cA (cA (cN 2) (cM (cN 3) (cV 1))) (cW (cV 1) 4))) (cH 0))) (cA (cA (cN 3) (cM (cN 5) (cV 1))) (cM (cN 2) (cW (cV 1) 4)))))) (cD (cM (cN 4) (cV 1)) (cM (cR (cD (cM (cA (cN 1) (cH 0)) (cA (cA (cN 2) (cM (cN 3) (cV 1))) (cW (cV 1) 4))) (cH 0))) (cA (cA (cN 3) (cM (cN 5) (cV 1))) (cM (cN 2) (cW (cV 1) 4)))))) (cA (cN 1) (cH 0)))) (cD (cM (cM (cH 0) (cR (cA (cN 1) (cM (cN 2) (cV 1))))) (cA (cD (cN 1) (cR (cD (cM (cM (cM (cH 0) (cA (cN 1) (cH 0))) (cW (cA (cN 3) (cM (cN 2) (cV 1))) 4)) (cA (cA (cN 2) (cM (cN 3) (cV 1))) (cW (cV 1) 4))) (cA (cN 1) (cM (cN 2) (cV 1)))))) (cD (cN 1) (cM (cR (cD (cM (cM (cH 0) (cA (cN 1) (cH 0))) (cA (cA (cN 2) (cM (cN 3) (cV 1))) (cW (cV 1) 4))) (cA (cN 1) (cM (cN 2) (cV 1))))) (cA (cA (cN 3) (cM (cN 5) (cV 1))) (cM (cN 2) (cW (cV 1) 4))))))) (cA (cN 1) (cH 0)))) (cN 4)).
Definition SPSU2T_e1085 := (cD (cB (cB (cA (cB (cA (cD (cM (cM (cM (cN 4) (cV 1)) (cA (cN 2) (cV 1))) (cR (cD (cM (cM (cH 0) (cA (cN 1) (cH 0))) (cA (cA (cN (-1)) (cV 1)) (cM (cN 2) (cW (cV 1) 4)))) (cM (cV 1) (cA (cN 1) (cM (cN 2) (cV 1))))))) (cM (cM (cA (cN 1) (cH 0)) (cW (cA (cN 1) (cV 1)) 4)) (cA (cN 3) (cM (cN 2) (cV 1))))) (cD (cM (cM (cN 4) (cA (cN 2) (cV 1))) (cR (cD (cM (cM (cM (cH 0) (cA (cN 1) (cH 0))) (cV 1)) (cA (cA (cN (-1)) (cV 1)) (cM (cN 2) (cW (cV 1) 4)))) (cA (cN 1) (cM (cN 2) (cV 1)))))) (cM (cM (cM (cH 0) (cA (cN 1) (cH 0))) (cW (cA (cN 1) (cV 1)) 4)) (cA (cN 3) (cM (cN 2) (cV 1)))))) (cD (cM (cM (cH 0) (cV 1)) (cA (cN (-1)) (cM (cN 2) (cV 1)))) (cR (cM (cM (cM (cM (cM (cH 0) (cA (cN 1) (cH 0))) (cV 1)) (cW (cA (cN 1) (cV 1)) 6)) (cW (cA (cN 3) (cM (cN 2) (cV 1))) 4)) (cA (cN (-1)) (cM (cN 4) (cW (cV 1) 4))))))) (cD (cB (cV 1) (cM (cN 2) (cW (cV 1) 4))) (cM (cA (cA (cN 3) (cM (cN 5) (cV 1))) (cM (cN 2) (cW (cV 1) 4))) (cR (cM (cM (cM (cH 0) (cA (cN 1) (cH 0))) (cV 1)) (cA (cA (cB (cN (-1)) (cV 1)) (cM (cN 4) (cW (cV 1) 4))) (cM (cN 4) (cW (cV 1) 6)))))))) (cD (cM (cM (cM (cH 0) (cV 1)) (cA (cN (-1)) (cM (cN 2) (cV 1)))) (cA (cA (cN 10) (cM (cN 9) (cV 1))) (cM (cN 2) (cW (cV 1) 4)))) (cM (cM (cA (cN 1) (cV 1)) (cA (cN 3) (cM (cN 2) (cV 1)))) (cR (cM (cM (cM (cH 0) (cA (cN 1) (cH 0))) (cV 1)) (cA (cA (cB (cN (-1)) (cV 1)) (cM (cN 4) (cW (cV 1) 4))) (cM (cN 4) (cW (cV 1) 6)))))))) (cD (cM (cV 1) (cA (cA (cA (cN (-10)) (cM (cN 11) (cV 1))) (cM (cN 16) (cW (cV 1) 4))) (cM (cN 4) (cW (cV 1) 6)))) (cM (cM (cA (cN 1) (cV 1)) (cA (cN 3) (cM (cN 2) (cV 1)))) (cR (cM (cM (cM (cH 0) (cA (cN 1) (cH 0))) (cV 1)) (cA (cA (cB (cN (-1)) (cV 1)) (cM (cN 4) (cW (cV 1) 4))) (cM (cN 4) (cW (cV 1) 6)))))))) (cM (cN 2) (cR (cN 3)))).
Definition SPSU2T_e1086 := (cB (cA (cB (cB (cA (cD (cM (cV 1) (cA (cN 1) (cM (cN 2) (cV 1)))) (cM (cM (cM (cN 2) (cA (cN 1) (cV 1))) (cR (cM (cM (cM (cH 0) (cA (cN 1) (cH 0))) (cV 1)) (cA (cN 1) (cV 1))))) (cA (cN 3) (cM (cN 2) (cV 1))))) (cD (cM (cM (cH 0) (cV 1)) (cA (cN 1) (cM (cN 2) (cV 1)))) (cM (cM (cM (cN 2) (cA (cN 1) (cV 1))) (cR (cM (cM (cM (cH 0) (cA (cN 1) (cH 0))) (cV 1)) (cA (cN 1) (cV 1))))) (cA (cN 3) (cM (cN 2) (cV 1)))))) (cD (cM (cM (cH 0) (cV 1)) (cA (cN 5) (cM (cN 2) (cV 1)))) (cM (cM (cM (cN 2) (cA (cN 1) (cV 1))) (cR (cM (cM (cM (cH 0) (cA (cN 1) (cH 0))) (cV 1)) (cA (cN 1) (cV 1))))) (cA (cN 3) (cM (cN 2) (cV 1)))))) (cD (cM (cM (cV 1) (cA (cN 1) (cM (cN 2) (cV 1)))) (cA (cA (cD (cM (cN 2) (cV 1)) (cR (cD (cM (cM (cW (cA (cN 1) (cV 1)) 4) (cA (cN 2) (cV 1))) (cA (cN 3) (cM (cN 2) (cV 1)))) (cH 0)))) (cD (cM (cN 3) (cA (cN (-1)) (cV 1))) (cR (cD (cM (cM (cM (cW (cA (cN 1) (cV 1)) 4) (cA (cN 2) (cV 1))) (cW (cA (cN 1) (cM (cN 2) (cV 1))) 4)) (cA (cN 3) (cM (cN 2) (cV 1)))) (cH 0))))) (cM (cA (cN 1) (cV 1)) (cR (cD (cH 0) (cA (cA (cN 6) (cM (cN 7) (cV 1))) (cM (cN 2) (cW (cV 1) 4)))))))) (cM (cN 2) (cR (cM (cM (cM (cM (cM (cW (cH 0) 4) (cA (cN 1) (cH 0))) (cV 1)) (cA (cN 1) (cV 1))) (cA (cN 2) (cV 1))) (cA (cN 3) (cM (cN 2) (cV 1)))))))) (cD (cB (cB (cM (cN (-4)) (cR (cD (cM (cM (cH 0) (cV 1)) (cA (cN 1) (cM (cN 2) (cV 1)))) (cA (cA (cN 6) (cM (cN 7) (cV 1))) (cM (cN 2) (cW (cV 1) 4)))))) (cM (cV 1) (cR (cD (cM (cM (cH 0) (cV 1)) (cA (cN 1) (cM (cN 2) (cV 1)))) (cA (cA (cN 6) (cM (cN 7) (cV 1))) (cM (cN 2) (cW (cV 1) 4))))))) (cM (cN 6) (cR (cD (cM (cH 0) (cV 1)) (cA (cA (cA (cN 6) (cM (cN 19) (cV 1))) (cM (cN 16) (cW (cV 1) 4))) (cM (cN 4) (cW (cV 1) 6))))))) (cM (cM (cN 2) (cA (cN 1) (cV 1))) (cR (cD (cM (cM (cW (cH 0) 4) (cA (cN 1) (cH 0))) (cA (cA (cA (cN 6) (cM (cN 13) (cV 1))) (cM (cN 9) (cW (cV 1) 4))) (cM (cN 2) (cW (cV 1) 6)))) (cA (cN 1) (cM (cN 2) (cV 1)))))))) (cD (cM (cM (cH 0) (cV 1)) (cA (cA (cD (cM (cN 2) (cV 1)) (cR (cD (cM (cM (cM (cA (cN 1) (cH 0)) (cW (cA (cN 1) (cV 1)) 4)) (cA (cN 2) (cV 1))) (cA (cN 3) (cM (cN 2) (cV 1)))) (cA (cN 1) (cM (cN 2) (cV 1)))))) (cM (cA (cN 1) (cV 1)) (cR (cD (cA (cN 1) (cM (cN 2) (cV 1))) (cM (cA (cN 1) (cH 0)) (cA (cA (cN 6) (cM (cN 7) (cV 1))) (cM (cN 2) (cW (cV 1) 4)))))))) (cD (cM (cN 3) (cA (cN (-1)) (cV 1))) (cM (cA (cN 1) (cV 1)) (cR (cM (cA (cN 1) (cH 0)) (cA (cA (cA (cN 6) (cM (cN 19) (cV 1))) (cM (cN 16) (cW (cV 1) 4))) (cM (cN 4) (cW (cV 1) 6))))))))) (cM (cN 2) (cR (cD (cM (cM (cM (cM (cH 0) (cV 1)) (cA (cN 1) (cV 1))) (cA (cN 2) (cV 1))) (cA (cN 3) (cM (cN 2) (cV 1)))) (cA (cN 1) (cM (cN 2) (cV 1)))))))).
Definition SPSU2T_e1087 := (cO (cD (cA (cR (cA (cN 1) (cD (cN 1) (cH 0)))) (cR (cM (cH 0) (cA (cN 1) (cH 0))))) (cM (cR (cN 2)) (cA (cN 1) (cH 0))))).
Definition SPSU2T_e1088 := (cD (cA (cB (cA (cA (cA (cB (cA (cB (cB (cB (cA (cB (cB (cM (cM (cM (cN 3) (cH 0)) (cA (cN (-1)) (cM (cN 2) (cV 1)))) (cR (cD (cM (cM (cW (cA (cN 1) (cM (cN 2) (cH 0))) 4) (cV 1)) (cA (cN 1) (cM (cN 2) (cV 1)))) (cM (cM (cM (cM (cH 0) (cW (cA (cN 1) (cH 0)) 6)) (cW (cA (cN 1) (cV 1)) 6)) (cA (cN (-1)) (cM (cN 2) (cV 1)))) (cW (cA (cN 3) (cM (cN 2) (cV 1))) 4))))) (cD (cM (cM (cN 4) (cV 1)) (cA (cN (-1)) (cM (cN 2) (cV 1)))) (cR (cD (cM (cM (cM (cM (cW (cA (cN 1) (cH 0)) 6) (cV 1)) (cW (cA (cN 1) (cV 1)) 6)) (cA (cN (-1)) (cM (cN 2) (cV 1)))) (cW (cA (cN 3) (cM (cN 2) (cV 1))) 4)) (cA (cH 0) (cM (cM (cN 2) (cH 0)) (cV 1))))))) (cM (cM (cN 2) (cB (cV 1) (cM (cN 2) (cW (cV 1) 4)))) (cR (cD (cM (cH 0) (cA (cN 1) (cM (cN 2) (cV 1)))) (cM (cM (cM (cW (cA (cN 1) (cH 0)) 6) (cV 1)) (cW (cA (cN 3) (cM (cN 2) (cV 1))) 4)) (cA (cA (cN (-1)) (cV 1)) (cM (cN 2) (cW (cV 1) 4)))))))) (cD (cM (cA (cN 1) (cM (cN 2) (cH 0))) (cR (cM (cM (cM (cH 0) (cV 1)) (cA (cN 1) (cM (cN 2) (cV 1)))) (cA (cA (cN (-1)) (cV 1)) (cM (cN 2) (cW (cV 1) 4)))))) (cM (cM (cW (cA (cN 1) (cH 0)) 3) (cA (cN 1) (cV 1))) (cA (cN 3) (cM (cN 2) (cV 1)))))) (cD (cM (cN 12) (cR (cD (cM (cM (cH 0) (cV 1)) (cA (cN (-1)) (cM (cN 2) (cV 1)))) (cM (cW (cA (cN 1) (cH 0)) 6) (cA (cA (cN 1) (cM (cN 3) (cV 1))) (cM (cN 2) (cW (cV 1) 4))))))) (cA (cA (cN 3) (cM (cN 5) (cV 1))) (cM (cN 2) (cW (cV 1) 4))))) (cM (cM (cM (cN 6) (cH 0)) (cA (cN (-1)) (cM (cN 2) (cV 1)))) (cR (cD (cM (cW (cA (cN 1) (cM (cN 2) (cH 0))) 4) (cV 1)) (cM (cM (cM (cM (cH 0) (cW (cA (cN 1) (cH 0)) 6)) (cW (cA (cN 1) (cV 1)) 6)) (cW (cA (cN 3) (cM (cN 2) (cV 1))) 4)) (cA (cN (-1)) (cM (cN 4) (cW (cV 1) 4)))))))) (cD (cM (cM (cN 2) (cA (cN 1) (cM (cN 2) (cH 0)))) (cR (cD (cM (cM (cH 0) (cV 1)) (cA (cN (-1)) (cM (cN 4) (cW (cV 1) 4)))) (cA (cN 1) (cV 1))))) (cM (cW (cA (cN 1) (cH 0)) 3) (cA (cA (cN 3) (cM (cN 5) (cV 1))) (cM (cN 2) (cW (cV 1) 4)))))) (cD (cM (cM (cM (cN 6) (cA (cN (-1)) (cM (cN 2) (cV 1)))) (cA (cN 1) (cM (cN 2) (cV 1)))) (cR (cD (cM (cH 0) (cV 1)) (cM (cA (cN 1) (cH 0)) (cA (cA (cB (cN (-1)) (cV 1)) (cM (cN 4) (cW (cV 1) 4))) (cM (cN 4) (cW (cV 1) 6))))))) (cM (cA (cN 1) (cH 0)) (cA (cA (cN 3) (cM (cN 5) (cV 1))) (cM (cN 2) (cW (cV 1) 4)))))) (cD (cM (cM (cH 0) (cV 1)) (cA (cN (-1)) (cM (cN 2) (cV 1)))) (cM (cM (cW (cA (cN 1) (cH 0)) 3) (cA (cA (cN 3) (cM (cN 5) (cV 1))) (cM (cN 2) (cW (cV 1) 4)))) (cR (cM (cM (cH 0) (cV 1)) (cA (cA (cB (cN (-1)) (cV 1)) (cM (cN 4) (cW (cV 1) 4))) (cM (cN 4) (cW (cV 1) 6)))))))) (cD (cM (cM (cM (cH 0) (cA (cN 3) (cM (cN 2) (cH 0)))) (cV 1)) (cA (cN (-1)) (cM (cN 2) (cV 1)))) (cM (cM (cW (cA (cN 1) (cH 0)) 3) (cA (cA (cN 3) (cM (cN 5) (cV 1))) (cM (cN 2) (cW (cV 1) 4)))) (cR (cM (cM (cH 0) (cV 1)) (cA (cA (cB (cN (-1)) (cV 1)) (cM (cN 4) (cW (cV 1) 4))) (cM (cN 4) (cW (cV 1) 6)))))))) (cD (cM (cM (cM (cM (cN 6) (cH 0)) (cA (cN 1) (cM (cN 2) (cH 0)))) (cV 1)) (cA (cN (-1)) (cM (cN 2) (cV 1)))) (cM (cM (cM (cA (cN 1) (cH 0)) (cA (cN 1) (cV 1))) (cA (cN 3) (cM (cN 2) (cV 1)))) (cR (cM (cM (cM (cH 0) (cA (cN 1) (cH 0))) (cV 1)) (cA (cA (cB (cN (-1)) (cV 1)) (cM (cN 4) (cW (cV 1) 4))) (cM (cN 4) (cW (cV 1) 6)))))))) (cD (cM (cM (cN 12) (cV 1)) (cA (cN (-1)) (cM (cN 2) (cV 1)))) (cM (cM (cA (cN 1) (cH 0)) (cA (cN 1) (cV 1))) (cR (cD (cM (cM (cM (cA (cN 1) (cH 0)) (cV 1)) (cW (cA (cN 3) (cM (cN 2) (cV 1))) 4)) (cA (cA (cB (cN (-1)) (cV 1)) (cM (cN 4) (cW (cV 1) 4))) (cM (cN 4) (cW (cV 1) 6)))) (cH 0)))))) (cD (cM (cM (cM (cH 0) (cV 1)) (cA (cN (-1)) (cM (cN 2) (cV 1)))) (cA (cA (cN 10) (cM (cN 9) (cV 1))) (cM (cN 2) (cW (cV 1) 4)))) (cM (cA (cN 1) (cV 1)) (cR (cM (cM (cM (cM (cH 0) (cW (cA (cN 1) (cH 0)) 6)) (cV 1)) (cW (cA (cN 3) (cM (cN 2) (cV 1))) 4)) (cA (cA (cB (cN (-1)) (cV 1)) (cM (cN 4) (cW (cV 1) 4))) (cM (cN 4) (cW (cV 1) 6)))))))) (cD (cM (cM (cH 0) (cA (cN (-1)) (cM (cN 2) (cV 1)))) (cA (cD (cM (cN 2) (cV 1)) (cR (cD (cM (cM (cM (cM (cM (cH 0) (cW (cA (cN 1) (cH 0)) 4)) (cV 1)) (cW (cA (cN 1) (cV 1)) 6)) (cA (cN (-1)) (cM (cN 2) (cV 1)))) (cW (cA (cN 3) (cM (cN 2) (cV 1))) 4)) (cA (cN 1) (cM (cN 2) (cV 1)))))) (cD (cN 6) (cM (cM (cA (cN 1) (cH 0)) (cA (cA (cN 3) (cM (cN 5) (cV 1))) (cM (cN 2) (cW (cV 1) 4)))) (cR (cD (cM (cH 0) (cA (cA (cB (cN (-1)) (cV 1)) (cM (cN 4) (cW (cV 1) 4))) (cM (cN 4) (cW (cV 1) 6)))) (cV 1))))))) (cR (cA (cN 1) (cH 0))))) (cM (cN 4) (cR (cN 3)))).
Definition SPSU2T_e1089 := (cD (cB (cA (cB (cA (cB (cD (cM (cM (cW (cH 0) 4) (cW (cV 1) 4)) (cA (cN 1) (cM (cN 2) (cV 1)))) (cM (cW (cM (cM (cM (cH 0) (cA (cN 1) (cH 0))) (cV 1)) (cA (cN 1) (cV 1))) 3) (cA (cN 3) (cM (cN 2) (cV 1))))) (cD (cM (cM (cW (cH 0) 4) (cW (cV 1) 4)) (cA (cN 5) (cM (cN 2) (cV 1)))) (cM (cW (cM (cM (cM (cH 0) (cA (cN 1) (cH 0))) (cV 1)) (cA (cN 1) (cV 1))) 3) (cA (cN 3) (cM (cN 2) (cV 1)))))) (cD (cM (cM (cM (cW (cH 0) 4) (cA (cN 3) (cM (cN 2) (cH 0)))) (cW (cV 1) 4)) (cA (cA (cN (-1)) (cM (cN 5) (cV 1))) (cM (cN 2) (cW (cV 1) 4)))) (cM (cW (cM (cM (cM (cH 0) (cA (cN 1) (cH 0))) (cV 1)) (cA (cN 1) (cV 1))) 3) (cA (cN 3) (cM (cN 2) (cV 1)))))) (cD (cM (cA (cN 1) (cM (cN 2) (cV 1))) (cA (cM (cN 3) (cR (cM (cM (cM (cW (cH 0) 6) (cA (cN 1) (cH 0))) (cV 1)) (cA (cN 1) (cV 1))))) (cM (cN 2) (cR (cM (cM (cM (cW (cH 0) 10) (cA (cN 1) (cH 0))) (cV 1)) (cA (cN 1) (cV 1))))))) (cM (cM (cM (cH 0) (cW (cA (cN 1) (cH 0)) 4)) (cW (cA (cN 1) (cV 1)) 4)) (cA (cN 3) (cM (cN 2) (cV 1)))))) (cD (cM (cM (cV 1) (cA (cN 5) (cM (cN 2) (cV 1)))) (cA (cM (cN 3) (cR (cM (cH 0) (cA (cA (cN 6) (cM (cN 7) (cV 1))) (cM (cN 2) (cW (cV 1) 4)))))) (cM (cN 2) (cR (cM (cW (cH 0) 6) (cA (cA (cN 6) (cM (cN 7) (cV 1))) (cM (cN 2) (cW (cV 1) 4)))))))) (cM (cM (cA (cN 1) (cV 1)) (cA (cN 3) (cM (cN 2) (cV 1)))) (cR (cM (cM (cW (cA (cN 1) (cH 0)) 6) (cV 1)) (cA (cA (cA (cN 6) (cM (cN 13) (cV 1))) (cM (cN 9) (cW (cV 1) 4))) (cM (cN 2) (cW (cV 1) 6)))))))) (cD (cM (cM (cM (cH 0) (cV 1)) (cR (cA (cN 1) (cM (cN 2) (cV 1))))) (cA (cA (cD (cM (cN 3) (cA (cN (-1)) (cV 1))) (cM (cM (cA (cN 2) (cV 1)) (cR (cM (cM (cM (cH 0) (cA (cN 1) (cH 0))) (cV 1)) (cA (cA (cN 1) (cM (cN 3) (cV 1))) (cM (cN 2) (cW (cV 1) 4)))))) (cA (cA (cN 3) (cM (cN 5) (cV 1))) (cM (cN 2) (cW (cV 1) 4))))) (cM (cA (cN 1) (cV 1)) (cR (cD (cA (cN 1) (cM (cN 2) (cV 1))) (cM (cM (cM (cH 0) (cA (cN 1) (cH 0))) (cA (cV 1) (cW (cV 1) 4))) (cW (cA (cA (cN 6) (cM (cN 7) (cV 1))) (cM (cN 2) (cW (cV 1) 4))) 4)))))) (cD (cM (cN 2) (cR (cD (cM (cV 1) (cA (cN 1) (cM (cN 2) (cV 1)))) (cM (cA (cH 0) (cW (cH 0) 4)) (cA (cN 1) (cV 1)))))) (cA (cA (cA (cN 6) (cM (cN 13) (cV 1))) (cM (cN 9) (cW (cV 1) 4))) (cM (cN 2) (cW (cV 1) 6)))))) (cA (cN 1) (cH 0)))) (cN 4)).
Definition SPSU2T_e1090 := (cD (cA (cA (cA (cB (cA (cD (cB (cN 1) (cM (cN 2) (cH 0))) (cR (cD (cM (cM (cM (cH 0) (cW (cA (cN 1) (cH 0)) 4)) (cA (cN (-1)) (cM (cN 2) (cH 0)))) (cA (cN 3) (cM (cN 2) (cV 1)))) (cA (cN 1) (cM (cN 2) (cV 1)))))) (cD (cB (cN 1) (cM (cN 2) (cH 0))) (cR (cD (cM (cM (cM (cM (cH 0) (cW (cA (cN 1) (cH 0)) 4)) (cA (cN (-1)) (cM (cN 2) (cH 0)))) (cW (cA (cN 1) (cV 1)) 4)) (cA (cN 3) (cM (cN 2) (cV 1)))) (cA (cN 1) (cM (cN 2) (cV 1))))))) (cD (cR (cD (cA (cN (-1)) (cM (cN 2) (cH 0))) (cM (cH 0) (cA (cA (cN 3) (cM (cN 8) (cV 1))) (cM (cN 4) (cW (cV 1) 4)))))) (cA (cA (cA (cN 1) (cH 0)) (cV 1)) (cM (cH 0) (cV 1))))) (cD (cA (cA (cN (-3)) (cM (cN 4) (cH 0))) (cM (cN 4) (cW (cH 0) 4))) (cM (cA (cN 1) (cH 0)) (cR (cM (cM (cM (cH 0) (cA (cN (-1)) (cM (cN 2) (cH 0)))) (cW (cA (cN 1) (cV 1)) 4)) (cA (cA (cN 3) (cM (cN 8) (cV 1))) (cM (cN 4) (cW (cV 1) 4)))))))) (cD (cA (cB (cM (cN 3) (cR (cD (cM (cA (cN (-1)) (cM (cN 2) (cH 0))) (cA (cN 1) (cM (cN 2) (cV 1)))) (cM (cH 0) (cA (cN 3) (cM (cN 2) (cV 1))))))) (cM (cM (cN 2) (cH 0)) (cR (cD (cA (cN 1) (cM (cN 2) (cV 1))) (cM (cA (cO (cH 0)) (cM (cN 2) (cW (cH 0) 4))) (cA (cN 3) (cM (cN 2) (cV 1)))))))) (cM (cM (cN 4) (cW (cH 0) 4)) (cR (cD (cA (cN 1) (cM (cN 2) (cV 1))) (cM (cA (cO (cH 0)) (cM (cN 2) (cW (cH 0) 4))) (cA (cN 3) (cM (cN 2) (cV 1)))))))) (cA (cN 1) (cH 0)))) (cD (cA (cA (cM (cN (-2)) (cR (cD (cM (cH 0) (cA (cN 1) (cM (cN 2) (cV 1)))) (cM (cA (cN (-1)) (cM (cN 2) (cH 0))) (cA (cA (cN 3) (cM (cN 5) (cV 1))) (cM (cN 2) (cW (cV 1) 4))))))) (cM (cN 4) (cR (cD (cM (cW (cH 0) 6) (cA (cN 1) (cM (cN 2) (cV 1)))) (cM (cA (cN (-1)) (cM (cN 2) (cH 0))) (cA (cA (cN 3) (cM (cN 5) (cV 1))) (cM (cN 2) (cW (cV 1) 4)))))))) (cM (cN 3) (cR (cD (cM (cA (cN (-1)) (cM (cN 2) (cH 0))) (cA (cN 1) (cM (cN 2) (cV 1)))) (cM (cH 0) (cA (cA (cN 3) (cM (cN 5) (cV 1))) (cM (cN 2) (cW (cV 1) 4)))))))) (cM (cA (cN 1) (cH 0)) (cR (cA (cN 1) (cV 1)))))) (cM (cN 2) (cR (cN 3)))).
Definition SPSU2T_e1091 := (cD (cA (cA (cA (cA (cA (cR (cD (cM (cA (cN 3) (cM (cN 2) (cH 0))) (cA (cN 1) (cM (cN 2) (cV 1)))) (cM (cW (cA (cN 1) (cH 0)) 6) (cA (cN 3) (cM (cN 2) (cV 1)))))) (cM (cH 0) (cR (cD (cM (cA (cN 3) (cM (cN 2) (cH 0))) (cA (cN 1) (cM (cN 2) (cV 1)))) (cM (cW (cA (cN 1) (cH 0)) 6) (cA (cN 3) (cM (cN 2) (cV 1)))))))) (cD (cR (cD (cM (cA (cN 3) (cM (cN 2) (cH 0))) (cA (cN 1) (cM (cN 2) (cV 1)))) (cM (cW (cA (cN 1) (cH 0)) 6) (cA (cN 3) (cM (cN 2) (cV 1)))))) (cA (cN 1) (cV 1)))) (cD (cR (cD (cA (cN 3) (cM (cN 2) (cH 0))) (cM (cW (cA (cN 1) (cH 0)) 6) (cA (cA (cN 3) (cM (cN 8) (cV 1))) (cM (cN 4) (cW (cV 1) 4)))))) (cA (cN 1) (cV 1)))) (cD (cM (cH 0) (cA (cN 3) (cM (cN 2) (cH 0)))) (cM (cA (cN 1) (cH 0)) (cR (cM (cM (cA (cA (cN 3) (cM (cN 5) (cH 0))) (cM (cN 2) (cW (cH 0) 4))) (cW (cA (cN 1) (cV 1)) 4)) (cA (cA (cN 3) (cM (cN 8) (cV 1))) (cM (cN 4) (cW (cV 1) 4)))))))) (cD (cM (cH 0) (cA (cM (cN 2) (cR (cD (cA (cN 1) (cM (cN 2) (cV 1))) (cM (cM (cW (cA (cN 1) (cH 0)) 6) (cA (cN 3) (cM (cN 2) (cH 0)))) (cA (cA (cN 3) (cM (cN 5) (cV 1))) (cM (cN 2) (cW (cV 1) 4))))))) (cD (cA (cN 1) (cM (cN 2) (cH 0))) (cM (cW (cA (cN 1) (cH 0)) 3) (cR (cD (cM (cA (cN 3) (cM (cN 2) (cH 0))) (cA (cA (cN 3) (cM (cN 5) (cV 1))) (cM (cN 2) (cW (cV 1) 4)))) (cA (cN 1) (cM (cN 2) (cV 1))))))))) (cR (cA (cN 1) (cV 1))))) (cR (cN 3))).
Definition SPSU2T_e1092 := (cD (cB (cN (-3)) (cM (cN 2) (cH 0))) (cM (cN 2) (cR (cD (cM (cA (cA (cN 3) (cM (cN 5) (cH 0))) (cM (cN 2) (cW (cH 0) 4))) (cV 1)) (cA (cN (-1)) (cV 1)))))).
Definition SPSU2T_e1093 := (cB (cB (cB (cD (cM (cQ (-1) 4) (cM (cA (cN 3) (cM (cN 2) (cH 0))) (cV 1))) (cR (cD (cM (cM (cM (cM (cW (cA (cN 1) (cH 0)) 6) (cA (cN 3) (cM (cN 2) (cH 0)))) (cV 1)) (cA (cN 1) (cV 1))) (cA (cN 1) (cM (cN 2) (cV 1)))) (cM (cW (cA (cN 1) (cM (cN 2) (cH 0))) 4) (cA (cN (-1)) (cM (cN 2) (cV 1))))))) (cD (cM (cA (cN 1) (cM (cN 2) (cH 0))) (cA (cN 3) (cM (cN 2) (cH 0)))) (cM (cM (cN 4) (cA (cN 1) (cH 0))) (cR (cD (cM (cM (cM (cA (cA (cN 3) (cM (cN 5) (cH 0))) (cM (cN 2) (cW (cH 0) 4))) (cV 1)) (cA (cN 1) (cV 1))) (cA (cN 1) (cM (cN 2) (cV 1)))) (cA (cN (-1)) (cM (cN 2) (cV 1)))))))) (cD (cR (cD (cM (cA (cN 3) (cM (cN 2) (cH 0))) (cA (cN (-1)) (cM (cN 2) (cV 1)))) (cM (cM (cW (cA (cN 1) (cH 0)) 6) (cV 1)) (cA (cA (cN 1) (cM (cN 3) (cV 1))) (cM (cN 2) (cW (cV 1) 4)))))) (cN 4))) (cD (cR (cD (cM (cM (cA (cN 3) (cM (cN 2) (cH 0))) (cV 1)) (cA (cN (-1)) (cM (cN 4) (cW (cV 1) 4)))) (cM (cW (cA (cN 1) (cH 0)) 6) (cA (cN 1) (cV 1))))) (cA (cN 4) (cM (cN 8) (cV 1))))).
Definition SPSU2T_e1094 := (cD (cB (cN (-3)) (cM (cN 2) (cH 0))) (cR (cA (cA (cN 6) (cM (cN 10) (cH 0))) (cM (cN 4) (cW (cH 0) 4))))).
Definition SPSU2T_e1095 := (cD (cB (cB (cB (cM (cN (-2)) (cR (cD (cA (cN 3) (cM (cN 2) (cH 0))) (cM (cM (cW (cA (cN 1) (cH 0)) 6) (cV 1)) (cA (cN 1) (cV 1)))))) (cD (cM (cM (cN 2) (cA (cN 1) (cM (cN 2) (cH 0)))) (cA (cN 3) (cM (cN 2) (cH 0)))) (cM (cA (cN 1) (cH 0)) (cR (cM (cM (cA (cA (cN 3) (cM (cN 5) (cH 0))) (cM (cN 2) (cW (cH 0) 4))) (cV 1)) (cA (cN 1) (cV 1))))))) (cD (cM (cA (cN (-1)) (cV 1)) (cR (cD (cA (cN 3) (cM (cN 2) (cH 0))) (cA (cV 1) (cW (cV 1) 4))))) (cW (cA (cN 1) (cH 0)) 3))) (cD (cM (cM (cA (cN 1) (cM (cN 2) (cH 0))) (cA (cN (-1)) (cV 1))) (cR (cD (cA (cA (cN 3) (cM (cN 5) (cH 0))) (cM (cN 2) (cW (cH 0) 4))) (cA (cV 1) (cW (cV 1) 4))))) (cW (cA (cN 1) (cH 0)) 4))) (cN 4)).
Definition SPSU2T_e1096 := (cB (cB (cB (cB (cB (cD (cM (cQ (-1) 4) (cM (cR (cA (cN 9) (cM (cN 6) (cH 0)))) (cW (cA (cN (-1)) (cM (cN 2) (cV 1))) 3))) (cM (cW (cA (cN 1) (cH 0)) 3) (cR (cM (cM (cV 1) (cA (cN 1) (cM (cN 2) (cV 1)))) (cA (cA (cA (cN (-3)) (cV 1)) (cM (cN 8) (cW (cV 1) 4))) (cM (cN 4) (cW (cV 1) 6))))))) (cD (cM (cM (cM (cR (cN 3)) (cA (cN 1) (cM (cN 2) (cH 0)))) (cA (cN 3) (cM (cN 2) (cH 0)))) (cW (cA (cN (-1)) (cM (cN 2) (cV 1))) 3)) (cM (cM (cN 4) (cA (cN 1) (cH 0))) (cR (cM (cM (cM (cA (cA (cN 3) (cM (cN 5) (cH 0))) (cM (cN 2) (cW (cH 0) 4))) (cV 1)) (cA (cN 1) (cM (cN 2) (cV 1)))) (cA (cA (cA (cN (-3)) (cV 1)) (cM (cN 8) (cW (cV 1) 4))) (cM (cN 4) (cW (cV 1) 6)))))))) (cD (cR (cD (cA (cN 9) (cM (cN 6) (cH 0))) (cM (cM (cW (cA (cN 1) (cH 0)) 6) (cV 1)) (cA (cA (cA (cN 3) (cM (cN 11) (cV 1))) (cM (cN 12) (cW (cV 1) 4))) (cM (cN 4) (cW (cV 1) 6)))))) (cN 2))) (cD (cM (cA (cN 1) (cM (cN 2) (cH 0))) (cR (cD (cA (cN 9) (cM (cN 6) (cH 0))) (cM (cM (cW (cA (cN 1) (cH 0)) 6) (cV 1)) (cA (cA (cA (cN 3) (cM (cN 11) (cV 1))) (cM (cN 12) (cW (cV 1) 4))) (cM (cN 4) (cW (cV 1) 6))))))) (cN 2))) (cD (cM (cV 1) (cA (cN (-1)) (cM (cN 2) (cV 1)))) (cM (cM (cN 4) (cR (cN 3))) (cR (cD (cM (cM (cW (cA (cN 1) (cH 0)) 6) (cV 1)) (cA (cA (cA (cN 3) (cM (cN 11) (cV 1))) (cM (cN 12) (cW (cV 1) 4))) (cM (cN 4) (cW (cV 1) 6)))) (cA (cN 3) (cM (cN 2) (cH 0)))))))) (cD (cM (cM (cA (cA (cN 3) (cM (cN 8) (cH 0))) (cM (cN 4) (cW (cH 0) 4))) (cV 1)) (cA (cN (-1)) (cM (cN 2) (cV 1)))) (cM (cM (cM (cN 4) (cR (cN 3))) (cA (cN 1) (cH 0))) (cR (cM (cM (cA (cA (cN 3) (cM (cN 5) (cH 0))) (cM (cN 2) (cW (cH 0) 4))) (cV 1)) (cA (cA (cA (cN 3) (cM (cN 11) (cV 1))) (cM (cN 12) (cW (cV 1) 4))) (cM (cN 4) (cW (cV 1) 6)))))))).
Definition SPSU2T_e1097 := (cB (cD (cM (cA (cN 2) (cH 0)) (cR (cD (cM (cH 0) (cA (cN (-1)) (cM (cN 2) (cV 1)))) (cA (cN 3) (cM (cN 6) (cV 1)))))) (cW (cA (cN 1) (cH 0)) 3)) (cD (cM (cM (cH 0) (cR (cA (cN (-1)) (cM (cN 2) (cV 1))))) (cA (cD (cA (cN 1) (cM (cN 2) (cH 0))) (cM (cA (cA (cN 3) (cM (cN 5) (cH 0))) (cM (cN 2) (cW (cH 0) 4))) (cR (cD (cM (cH 0) (cA (cN 1) (cH 0))) (cA (cN 1) (cM (cN 2) (cV 1))))))) (cD (cN 2) (cR (cD (cM (cM (cH 0) (cW (cA (cN 1) (cH 0)) 6)) (cW (cA (cN 3) (cM (cN 2) (cH 0))) 4)) (cA (cN 1) (cM (cN 2) (cV 1)))))))) (cM (cR (cN 3)) (cA (cN 1) (cM (cN 2) (cV 1)))))).
Definition SPSU2T_e1098 := (cD (cA (cA (cA (cR (cD (cM (cA (cN 3) (cM (cN 2) (cH 0))) (cV 1)) (cM (cW (cA (cN 1) (cH 0)) 6) (cA (cN 1) (cV 1))))) (cD (cN 1) (cR (cD (cM (cM (cW (cA (cN 1) (cH 0)) 6) (cV 1)) (cA (cN 1) (cV 1))) (cA (cN 3) (cM (cN 2) (cH 0))))))) (cD (cM (cA (cN 3) (cM (cN 2) (cH 0))) (cV 1)) (cR (cD (cM (cM (cM (cW (cA (cN 1) (cH 0)) 6) (cA (cN 3) (cM (cN 2) (cH 0)))) (cV 1)) (cA (cN 1) (cV 1))) (cW (cA (cN 1) (cM (cN 2) (cH 0))) 4))))) (cD (cM (cA (cN 1) (cM (cN 2) (cH 0))) (cA (cN 3) (cM (cN 2) (cH 0)))) (cM (cA (cN 1) (cH 0)) (cR (cM (cM (cA (cA (cN 3) (cM (cN 5) (cH 0))) (cM (cN 2) (cW (cH 0) 4))) (cV 1)) (cA (cN 1) (cV 1))))))) (cN 4)).
Definition SPSU2T_e1099 := (cD (cB (cA (cB (cM (cN 2) (cR (cD (cM (cA (cN 3) (cM (cN 2) (cH 0))) (cV 1)) (cM (cW (cA (cN 1) (cH 0)) 6) (cW (cA (cN 1) (cV 1)) 6))))) (cD (cM (cM (cA (cN 1) (cM (cN 2) (cH 0))) (cA (cN (-1)) (cV 1))) (cR (cD (cA (cA (cN 3) (cM (cN 5) (cH 0))) (cM (cN 2) (cW (cH 0) 4))) (cV 1)))) (cM (cW (cA (cN 1) (cH 0)) 4) (cW (cA (cN 1) (cV 1)) 3)))) (cD (cM (cM (cN 2) (cA (cN 1) (cM (cN 2) (cH 0)))) (cR (cM (cA (cN 3) (cM (cN 2) (cH 0))) (cV 1)))) (cW (cM (cA (cN 1) (cH 0)) (cA (cN 1) (cV 1))) 3))) (cD (cM (cM (cR (cA (cN 3) (cM (cN 2) (cH 0)))) (cA (cN (-1)) (cV 1))) (cV 1)) (cW (cM (cM (cA (cN 1) (cH 0)) (cV 1)) (cA (cN 1) (cV 1))) 3))) (cN 4)).
Definition SPSU2T_e1100 := (cD (cA (cA (cA (cB (cB (cD (cM (cN (-2)) (cR (cD (cM (cA (cN 3) (cM (cN 2) (cH 0))) (cV 1)) (cM (cW (cA (cN 1) (cH 0)) 6) (cW (cA (cN 1) (cV 1)) 6))))) (cA (cN 3) (cM (cN 2) (cV 1)))) (cD (cM (cM (cM (cN 2) (cA (cN 1) (cM (cN 2) (cH 0)))) (cA (cN 3) (cM (cN 2) (cH 0)))) (cR (cD (cV 1) (cA (cA (cN 3) (cM (cN 5) (cH 0))) (cM (cN 2) (cW (cH 0) 4)))))) (cM (cM (cA (cN 1) (cH 0)) (cW (cA (cN 1) (cV 1)) 3)) (cA (cN 3) (cM (cN 2) (cV 1)))))) (cD (cM (cM (cR (cM (cM (cA (cA (cN 3) (cM (cN 5) (cH 0))) (cM (cN 2) (cW (cH 0) 4))) (cV 1)) (cA (cN 1) (cV 1)))) (cA (cN 2) (cV 1))) (cA (cN 1) (cM (cN 2) (cV 1)))) (cM (cM (cW (cA (cN 1) (cH 0)) 4) (cW (cA (cN 1) (cV 1)) 4)) (cA (cN 3) (cM (cN 2) (cV 1)))))) (cD (cM (cA (cN 3) (cM (cN 2) (cH 0))) (cV 1)) (cR (cD (cM (cM (cM (cM (cW (cA (cN 1) (cH 0)) 6) (cA (cN 3) (cM (cN 2) (cH 0)))) (cV 1)) (cW (cA (cN 1) (cV 1)) 6)) (cW (cA (cN 3) (cM (cN 2) (cV 1))) 4)) (cW (cA (cN 1) (cM (cN 2) (cH 0))) 4))))) (cD (cR (cD (cM (cA (cN 3) (cM (cN 2) (cH 0))) (cV 1)) (cM (cW (cA (cN 1) (cH 0)) 6) (cA (cN 1) (cV 1))))) (cA (cA (cN 3) (cM (cN 5) (cV 1))) (cM (cN 2) (cW (cV 1) 4))))) (cD (cM (cM (cA (cN 1) (cM (cN 2) (cH 0))) (cA (cN 1) (cM (cN 2) (cV 1)))) (cB (cO (cD (cV 1) (cM (cW (cA (cN 1) (cH 0)) 3) (cR (cM (cM (cA (cN 3) (cM (cN 2) (cH 0))) (cV 1)) (cA (cN 1) (cV 1))))))) (cD (cM (cV 1) (cA (cA (cN 5) (cM (cN 2) (cV 1))) (cM (cM (cN 2) (cH 0)) (cA (cN 2) (cV 1))))) (cM (cM (cA (cN 1) (cH 0)) (cA (cN 1) (cV 1))) (cR (cM (cM (cA (cA (cN 3) (cM (cN 5) (cH 0))) (cM (cN 2) (cW (cH 0) 4))) (cV 1)) (cA (cN 1) (cV 1)))))))) (cA (cN 3) (cM (cN 2) (cV 1))))) (cN 4)).
Definition SPSU2T_e1101 := (cB (cB (cA (cD (cM (cA (cN 1) (cM (cN 2) (cH 0))) (cA (cN 3) (cM (cN 2) (cH 0)))) (cM (cM (cM (cN 4) (cA (cN 1) (cH 0))) (cR (cD (cM (cA (cA (cN 3) (cM (cN 5) (cH 0))) (cM (cN 2) (cW (cH 0) 4))) (cV 1)) (cA (cN (-1)) (cV 1))))) (cA (cN 1) (cV 1)))) (cD (cR (cD (cM (cA (cN 3) (cM (cN 2) (cH 0))) (cA (cN (-1)) (cV 1))) (cM (cW (cA (cN 1) (cH 0)) 6) (cV 1)))) (cA (cN 4) (cM (cN 4) (cV 1))))) (cD (cA (cB (cA (cA (cA (cD (cA (cN 1) (cM (cN 2) (cH 0))) (cM (cR (cM (cA (cN 3) (cM (cN 2) (cH 0))) (cA (cN (-1)) (cV 1)))) (cW (cD (cA (cN 1) (cH 0)) (cV 1)) 3))) (cD (cB (cN (-1)) (cM (cN 2) (cH 0))) (cM (cW (cA (cN 1) (cH 0)) 3) (cR (cD (cM (cA (cN 3) (cM (cN 2) (cH 0))) (cA (cN (-1)) (cV 1))) (cV 1)))))) (cD (cM (cN 2) (cR (cD (cM (cW (cA (cN 1) (cM (cN 2) (cH 0))) 4) (cA (cN (-1)) (cV 1))) (cM (cA (cA (cN 3) (cM (cN 5) (cH 0))) (cM (cN 2) (cW (cH 0) 4))) (cV 1))))) (cA (cN 1) (cH 0)))) (cD (cA (cN 4) (cM (cN 8) (cH 0))) (cR (cD (cM (cA (cA (cN 3) (cM (cN 5) (cH 0))) (cM (cN 2) (cW (cH 0) 4))) (cV 1)) (cA (cN (-1)) (cV 1)))))) (cD (cM (cM (cN 2) (cA (cN 1) (cM (cN 2) (cH 0)))) (cV 1)) (cR (cM (cM (cA (cA (cN 3) (cM (cN 5) (cH 0))) (cM (cN 2) (cW (cH 0) 4))) (cA (cN (-1)) (cV 1))) (cV 1))))) (cD (cM (cM (cN 2) (cA (cN 1) (cM (cN 2) (cH 0)))) (cW (cV 1) 4)) (cR (cM (cM (cA (cA (cN 3) (cM (cN 5) (cH 0))) (cM (cN 2) (cW (cH 0) 4))) (cA (cN (-1)) (cV 1))) (cV 1))))) (cM (cN 4) (cA (cN 1) (cV 1))))) (cD (cA (cA (cO (cM (cV 1) (cR (cD (cM (cA (cN 3) (cM (cN 2) (cH 0))) (cV 1)) (cA (cN (-1)) (cV 1)))))) (cM (cN 2) (cR (cM (cM (cA (cN 3) (cM (cN 2) (cH 0))) (cA (cN (-1)) (cV 1))) (cV 1))))) (cR (cD (cM (cA (cN 3) (cM (cN 2) (cH 0))) (cW (cV 1) 10)) (cA (cN (-1)) (cV 1))))) (cM (cM (cM (cN 4) (cW (cA (cN 1) (cH 0)) 3)) (cV 1)) (cA (cN 1) (cV 1))))).
Definition SPSU2T_e1102 := (cD (cB (cB (cA (cA (cA (cD (cM (cV 1) (cA (cN (-1)) (cM (cN 2) (cV 1)))) (cR (cD (cM (cM (cM (cW (cA (cN 1) (cH 0)) 6) (cV 1)) (cW (cA (cN 1) (cV 1)) 6)) (cA (cA (cN (-3)) (cM (cN 4) (cV 1))) (cM (cN 4) (cW (cV 1) 4)))) (cA (cN 3) (cM (cN 2) (cH 0)))))) (cD (cM (cM (cA (cA (cN 3) (cM (cN 8) (cH 0))) (cM (cN 4) (cW (cH 0) 4))) (cV 1)) (cA (cN (-1)) (cM (cN 2) (cV 1)))) (cM (cA (cN 1) (cH 0)) (cR (cM (cM (cM (cA (cA (cN 3) (cM (cN 5) (cH 0))) (cM (cN 2) (cW (cH 0) 4))) (cV 1)) (cW (cA (cN 1) (cV 1)) 6)) (cA (cA (cN (-3)) (cM (cN 4) (cV 1))) (cM (cN 4) (cW (cV 1) 4)))))))) (cD (cB (cB (cA (cN (-3)) (cM (cN 9) (cV 1))) (cM (cN 4) (cW (cV 1) 4))) (cM (cN 4) (cW (cV 1) 6))) (cM (cM (cW (cA (cN 1) (cH 0)) 3) (cA (cN 1) (cV 1))) (cR (cD (cM (cV 1) (cA (cA (cA (cN (-3)) (cV 1)) (cM (cN 8) (cW (cV 1) 4))) (cM (cN 4) (cW (cV 1) 6)))) (cA (cN 3) (cM (cN 2) (cH 0)))))))) (cD (cB (cB (cN 6) (cM (cN 9) (cV 1))) (cM (cN 6) (cW (cV 1) 4))) (cM (cM (cA (cN 1) (cH 0)) (cA (cN 1) (cV 1))) (cR (cD (cM (cM (cA (cN 1) (cH 0)) (cV 1)) (cA (cA (cA (cN (-3)) (cV 1)) (cM (cN 8) (cW (cV 1) 4))) (cM (cN 4) (cW (cV 1) 6)))) (cA (cN 3) (cM (cN 2) (cH 0)))))))) (cD (cM (cM (cN 3) (cA (cN 1) (cM (cN 2) (cH 0)))) (cA (cA (cN (-2)) (cM (cN 3) (cV 1))) (cM (cN 2) (cW (cV 1) 4)))) (cM (cM (cA (cN 1) (cH 0)) (cA (cN 1) (cV 1))) (cR (cD (cM (cM (cA (cN 1) (cH 0)) (cV 1)) (cA (cA (cA (cN (-3)) (cV 1)) (cM (cN 8) (cW (cV 1) 4))) (cM (cN 4) (cW (cV 1) 6)))) (cA (cN 3) (cM (cN 2) (cH 0)))))))) (cM (cM (cA (cN 1) (cM (cN 2) (cH 0))) (cA (cN (-1)) (cM (cN 2) (cV 1)))) (cA (cA (cA (cD (cM (cN 2) (cW (cD (cV 1) (cA (cA (cA (cN 1) (cH 0)) (cV 1)) (cM (cH 0) (cV 1)))) 3)) (cR (cM (cA (cN 3) (cM (cN 2) (cH 0))) (cA (cA (cN (-3)) (cM (cN 4) (cV 1))) (cM (cN 4) (cW (cV 1) 4)))))) (cD (cM (cM (cN 4) (cV 1)) (cR (cD (cV 1) (cM (cA (cA (cN 3) (cM (cN 5) (cH 0))) (cM (cN 2) (cW (cH 0) 4))) (cA (cA (cA (cN (-3)) (cV 1)) (cM (cN 8) (cW (cV 1) 4))) (cM (cN 4) (cW (cV 1) 6))))))) (cA (cN 1) (cV 1)))) (cD (cM (cN 3) (cA (cN (-1)) (cV 1))) (cM (cM (cW (cA (cN 1) (cH 0)) 3) (cA (cN 1) (cV 1))) (cR (cM (cM (cA (cN 3) (cM (cN 2) (cH 0))) (cV 1)) (cA (cA (cA (cN (-3)) (cV 1)) (cM (cN 8) (cW (cV 1) 4))) (cM (cN 4) (cW (cV 1) 6)))))))) (cD (cM (cN 6) (cA (cN (-1)) (cV 1))) (cM (cA (cN 1) (cV 1)) (cR (cM (cM (cA (cA (cN 3) (cM (cN 5) (cH 0))) (cM (cN 2) (cW (cH 0) 4))) (cV 1)) (cA (cA (cA (cN (-3)) (cV 1)) (cM (cN 8) (cW (cV 1) 4))) (cM (cN 4) (cW (cV 1) 6)))))))))) (cM (cN 4) (cR (cN 3)))).
Definition SPSU2T_e1103 := (cD (cM (cQ (-1) 4) (cA (cA (cA (cA (cA (cD (cM (cM (cM (cN 4) (cA (cN 1) (cM (cN 2) (cH 0)))) (cV 1)) (cR (cM (cA (cA (cN 3) (cM (cN 5) (cH 0))) (cM (cN 2) (cW (cH 0) 4))) (cA (cN 2) (cV 1))))) (cM (cW (cA (cN 1) (cH 0)) 4) (cW (cA (cN 1) (cV 1)) 3))) (cD (cM (cM (cN 3) (cA (cN 2) (cV 1))) (cR (cD (cA (cN 3) (cM (cN 2) (cH 0))) (cA (cA (cN 2) (cM (cN 3) (cV 1))) (cW (cV 1) 4))))) (cM (cW (cA (cN 1) (cH 0)) 3) (cA (cN 1) (cV 1))))) (cD (cM (cM (cM (cN 3) (cA (cN 1) (cM (cN 2) (cH 0)))) (cA (cN 2) (cV 1))) (cR (cD (cA (cN 3) (cM (cN 2) (cH 0))) (cA (cA (cN 2) (cM (cN 3) (cV 1))) (cW (cV 1) 4))))) (cM (cW (cA (cN 1) (cH 0)) 3) (cA (cN 1) (cV 1))))) (cD (cM (cM (cN 4) (cV 1)) (cR (cM (cA (cA (cN 3) (cM (cN 5) (cH 0))) (cM (cN 2) (cW (cH 0) 4))) (cA (cA (cN 2) (cM (cN 3) (cV 1))) (cW (cV 1) 4))))) (cM (cW (cA (cN 1) (cH 0)) 4) (cW (cA (cN 1) (cV 1)) 4)))) (cD (cM (cM (cV 1) (cA (cN 1) (cM (cN 2) (cV 1)))) (cR (cM (cA (cA (cN 3) (cM (cN 5) (cH 0))) (cM (cN 2) (cW (cH 0) 4))) (cA (cA (cN 2) (cM (cN 3) (cV 1))) (cW (cV 1) 4))))) (cM (cW (cA (cN 1) (cH 0)) 4) (cW (cA (cN 1) (cV 1)) 4)))) (cM (cM (cM (cA (cN 1) (cM (cN 2) (cH 0))) (cV 1)) (cA (cN 1) (cM (cN 2) (cV 1)))) (cA (cA (cA (cD (cN 1) (cM (cW (cM (cA (cN 1) (cH 0)) (cA (cN 1) (cV 1))) 3) (cR (cM (cA (cN 3) (cM (cN 2) (cH 0))) (cA (cN 2) (cV 1)))))) (cD (cN 2) (cM (cW (cA (cN 1) (cV 1)) 3) (cR (cM (cA (cA (cN 3) (cM (cN 5) (cH 0))) (cM (cN 2) (cW (cH 0) 4))) (cA (cN 2) (cV 1))))))) (cD (cN 1) (cM (cW (cA (cN 1) (cH 0)) 3) (cR (cM (cA (cN 3) (cM (cN 2) (cH 0))) (cA (cA (cN 2) (cM (cN 3) (cV 1))) (cW (cV 1) 4))))))) (cD (cN 2) (cR (cM (cA (cA (cN 3) (cM (cN 5) (cH 0))) (cM (cN 2) (cW (cH 0) 4))) (cA (cA (cN 2) (cM (cN 3) (cV 1))) (cW (cV 1) 4))))))))) (cA (cN 3) (cM (cN 2) (cV 1)))).
Definition SPSU2T_e1104 := (cD (cB (cA (cA (cO (cD (cM (cR (cH 0)) (cA (cN 2) (cH 0))) (cW (cA (cN 1) (cH 0)) 3))) (cD (cM (cH 0) (cA (cA (cA (cM (cN 2) (cR (cD (cH 0) (cW (cA (cN 1) (cH 0)) 10)))) (cR (cD (cN 1) (cM (cH 0) (cW (cA (cN 1) (cH 0)) 6))))) (cM (cN 2) (cR (cD (cH 0) (cW (cA (cN 1) (cH 0)) 6))))) (cD (cN 2) (cM (cR (cH 0)) (cW (cA (cN 1) (cH 0)) 5))))) (cA (cN 3) (cM (cN 2) (cH 0))))) (cM (cR (cD (cH 0) (cW (cA (cN 1) (cH 0)) 6))) (cV 1))) (cD (cM (cM (cR (cH 0)) (cA (cN 2) (cH 0))) (cV 1)) (cW (cA (cN 1) (cH 0)) 3))) (cM (cR (cN 3)) (cA (cN 1) (cV 1)))).
Definition SPSU2T_e1105 := (cD (cA (cA (cB (cB (cA (cD (cM (cM (cA (cN 3) (cM (cN 2) (cH 0))) (cA (cN 2) (cV 1))) (cR (cD (cM (cV 1) (cA (cN 1) (cM (cN 2) (cV 1)))) (cM (cA (cA (cN 3) (cM (cN 5) (cH 0))) (cM (cN 2) (cW (cH 0) 4))) (cA (cA (cN 3) (cM (cN 5) (cV 1))) (cM (cN 2) (cW (cV 1) 4))))))) (cM (cA (cN 1) (cH 0)) (cA (cN 1) (cV 1)))) (cD (cM (cM (cM (cA (cN 1) (cM (cN 2) (cH 0))) (cA (cN 3) (cM (cN 2) (cH 0)))) (cA (cN 2) (cV 1))) (cR (cD (cM (cV 1) (cA (cN 1) (cM (cN 2) (cV 1)))) (cM (cA (cA (cN 3) (cM (cN 5) (cH 0))) (cM (cN 2) (cW (cH 0) 4))) (cA (cA (cN 3) (cM (cN 5) (cV 1))) (cM (cN 2) (cW (cV 1) 4))))))) (cM (cA (cN 1) (cH 0)) (cA (cN 1) (cV 1))))) (cD (cR (cD (cM (cM (cA (cA (cN 3) (cM (cN 5) (cH 0))) (cM (cN 2) (cW (cH 0) 4))) (cV 1)) (cA (cN 1) (cV 1))) (cA (cA (cN 3) (cM (cN 8) (cV 1))) (cM (cN 4) (cW (cV 1) 4))))) (cM (cW (cA (cN 1) (cH 0)) 4) (cW (cA (cN 1) (cV 1)) 4)))) (cD (cM (cA (cN 3) (cM (cN 2) (cH 0))) (cV 1)) (cR (cD (cM (cM (cM (cM (cW (cA (cN 1) (cH 0)) 6) (cA (cN 3) (cM (cN 2) (cH 0)))) (cV 1)) (cW (cA (cN 1) (cV 1)) 6)) (cA (cA (cN 3) (cM (cN 8) (cV 1))) (cM (cN 4) (cW (cV 1) 4)))) (cW (cA (cN 1) (cM (cN 2) (cH 0))) 4))))) (cD (cM (cN 2) (cR (cD (cM (cA (cN 3) (cM (cN 2) (cH 0))) (cV 1)) (cM (cW (cA (cN 1) (cH 0)) 6) (cA (cA (cA (cN 3) (cM (cN 11) (cV 1))) (cM (cN 12) (cW (cV 1) 4))) (cM (cN 4) (cW (cV 1) 6))))))) (cA (cN 1) (cV 1)))) (cD (cM (cM (cM (cN 2) (cA (cN 1) (cM (cN 2) (cH 0)))) (cA (cN 3) (cM (cN 2) (cH 0)))) (cR (cD (cV 1) (cM (cA (cA (cN 3) (cM (cN 5) (cH 0))) (cM (cN 2) (cW (cH 0) 4))) (cA (cA (cA (cN 3) (cM (cN 11) (cV 1))) (cM (cN 12) (cW (cV 1) 4))) (cM (cN 4) (cW (cV 1) 6))))))) (cM (cA (cN 1) (cH 0)) (cA (cN 1) (cV 1))))) (cN 4)).
Definition SPSU2T_e1106 := (cD (cA (cA (cA (cM (cM (cN 2) (cA (cN 1) (cM (cN 2) (cV 1)))) (cR (cM (cA (cA (cN 3) (cM (cN 5) (cH 0))) (cM (cN 2) (cW (cH 0) 4))) (cA (cA (cN 2) (cM (cN 3) (cV 1))) (cW (cV 1) 4))))) (cM (cM (cM (cN 2) (cA (cN 1) (cM (cN 2) (cH 0)))) (cA (cN 1) (cM (cN 2) (cV 1)))) (cR (cM (cA (cA (cN 3) (cM (cN 5) (cH 0))) (cM (cN 2) (cW (cH 0) 4))) (cA (cA (cN 2) (cM (cN 3) (cV 1))) (cW (cV 1) 4)))))) (cM (cM (cA (cN 1) (cM (cN 2) (cH 0))) (cR (cM (cA (cA (cN 3) (cM (cN 5) (cH 0))) (cM (cN 2) (cW (cH 0) 4))) (cA (cA (cN 2) (cM (cN 3) (cV 1))) (cW (cV 1) 4))))) (cA (cA (cN 1) (cV 1)) (cM (cN 2) (cW (cV 1) 4))))) (cM (cM (cA (cN 1) (cV 1)) (cR (cD (cM (cA (cN 1) (cH 0)) (cA (cN 3) (cM (cN 2) (cH 0)))) (cA (cA (cN 2) (cM (cN 3) (cV 1))) (cW (cV 1) 4))))) (cA (cA (cA (cN 2) (cM (cN 3) (cV 1))) (cM (cN 5) (cW (cV 1) 4))) (cM (cN 2) (cW (cV 1) 6))))) (cM (cM (cM (cN 4) (cW (cA (cN 1) (cH 0)) 4)) (cW (cA (cN 1) (cV 1)) 4)) (cA (cN 3) (cM (cN 2) (cV 1))))).
Definition SPSU2T_e1107 := (cD (cA (cA (cB (cB (cA (cO (cD (cM (cM (cA (cN 1) (cM (cN 2) (cH 0))) (cR (cD (cM (cM (cA (cN 3) (cM (cN 2) (cH 0))) (cV 1)) (cA (cN (-1)) (cM (cN 2) (cV 1)))) (cA (cA (cN 1) (cM (cN 3) (cV 1))) (cM (cN 2) (cW (cV 1) 4)))))) (cA (cA (cN 10) (cM (cN 9) (cV 1))) (cM (cN 2) (cW (cV 1) 4)))) (cM (cW (cA (cN 1) (cH 0)) 3) (cA (cA (cN 3) (cM (cN 5) (cV 1))) (cM (cN 2) (cW (cV 1) 4)))))) (cD (cB (cV 1) (cM (cN 2) (cW (cV 1) 4))) (cR (cD (cM (cM (cM (cM (cW (cA (cN 1) (cH 0)) 6) (cV 1)) (cW (cA (cN 1) (cV 1)) 6)) (cW (cA (cN 3) (cM (cN 2) (cV 1))) 4)) (cA (cN (-1)) (cM (cN 4) (cW (cV 1) 4)))) (cA (cN 3) (cM (cN 2) (cH 0))))))) (cD (cM (cM (cA (cA (cN 3) (cM (cN 8) (cH 0))) (cM (cN 4) (cW (cH 0) 4))) (cV 1)) (cA (cN (-1)) (cM (cN 2) (cV 1)))) (cM (cA (cN 1) (cH 0)) (cR (cM (cM (cM (cM (cA (cA (cN 3) (cM (cN 5) (cH 0))) (cM (cN 2) (cW (cH 0) 4))) (cV 1)) (cW (cA (cN 1) (cV 1)) 6)) (cW (cA (cN 3) (cM (cN 2) (cV 1))) 4)) (cA (cN (-1)) (cM (cN 4) (cW (cV 1) 4)))))))) (cD (cM (cR (cM (cM (cA (cN 3) (cM (cN 2) (cH 0))) (cV 1)) (cA (cN (-1)) (cM (cN 2) (cV 1))))) (cA (cA (cM (cN 6) (cR (cD (cM (cA (cN 1) (cH 0)) (cA (cN 1) (cV 1))) (cA (cN 1) (cM (cN 2) (cV 1)))))) (cR (cM (cM (cA (cN 1) (cH 0)) (cW (cA (cN 1) (cV 1)) 6)) (cA (cN 1) (cM (cN 2) (cV 1)))))) (cM (cN 3) (cR (cM (cA (cN 1) (cH 0)) (cA (cA (cN 1) (cM (cN 3) (cV 1))) (cM (cN 2) (cW (cV 1) 4)))))))) (cM (cM (cW (cA (cN 1) (cH 0)) 4) (cW (cA (cN 1) (cV 1)) 4)) (cA (cN 3) (cM (cN 2) (cV 1)))))) (cD (cM (cM (cM (cN 2) (cA (cN 3) (cM (cN 2) (cH 0)))) (cA (cN (-1)) (cM (cN 2) (cV 1)))) (cA (cR (cD (cM (cV 1) (cA (cN 1) (cM (cN 2) (cV 1)))) (cA (cA (cN (-3)) (cM (cN 4) (cV 1))) (cM (cN 4) (cW (cV 1) 4))))) (cM (cN 3) (cR (cD (cV 1) (cA (cA (cB (cN (-3)) (cM (cN 2) (cV 1))) (cM (cN 12) (cW (cV 1) 4))) (cM (cN 8) (cW (cV 1) 6)))))))) (cM (cM (cA (cN 1) (cH 0)) (cA (cN 1) (cV 1))) (cR (cM (cA (cA (cN 3) (cM (cN 5) (cH 0))) (cM (cN 2) (cW (cH 0) 4))) (cA (cA (cN 3) (cM (cN 5) (cV 1))) (cM (cN 2) (cW (cV 1) 4)))))))) (cD (cM (cM (cM (cM (cN 2) (cA (cN 1) (cM (cN 2) (cH 0)))) (cA (cN 3) (cM (cN 2) (cH 0)))) (cA (cN (-1)) (cM (cN 2) (cV 1)))) (cA (cR (cD (cM (cV 1) (cA (cN 1) (cM (cN 2) (cV 1)))) (cA (cA (cN (-3)) (cM (cN 4) (cV 1))) (cM (cN 4) (cW (cV 1) 4))))) (cM (cN 3) (cR (cD (cV 1) (cA (cA (cB (cN (-3)) (cM (cN 2) (cV 1))) (cM (cN 12) (cW (cV 1) 4))) (cM (cN 8) (cW (cV 1) 6)))))))) (cM (cM (cA (cN 1) (cH 0)) (cA (cN 1) (cV 1))) (cR (cM (cA (cA (cN 3) (cM (cN 5) (cH 0))) (cM (cN 2) (cW (cH 0) 4))) (cA (cA (cN 3) (cM (cN 5) (cV 1))) (cM (cN 2) (cW (cV 1) 4)))))))) (cM (cN 4) (cR (cN 3)))).
Definition SPSU2T_e1108 := (cD (cB (cB (cA (cB (cA (cD (cM (cR (cM (cM (cA (cA (cN 3) (cM (cN 5) (cH 0))) (cM (cN 2) (cW (cH 0) 4))) (cV 1)) (cA (cN 1) (cV 1)))) (cA (cN 1) (cM (cN 2) (cV 1)))) (cM (cW (cA (cN 1) (cV 1)) 4) (cA (cN 3) (cM (cN 2) (cV 1))))) (cD (cM (cM (cA (cN 1) (cM (cN 2) (cH 0))) (cR (cM (cM (cA (cA (cN 3) (cM (cN 5) (cH 0))) (cM (cN 2) (cW (cH 0) 4))) (cV 1)) (cA (cN 1) (cV 1))))) (cA (cN 1) (cM (cN 2) (cV 1)))) (cM (cW (cA (cN 1) (cV 1)) 4) (cA (cN 3) (cM (cN 2) (cV 1)))))) (cD (cM (cM (cA (cN 1) (cM (cN 2) (cH 0))) (cR (cM (cM (cA (cA (cN 3) (cM (cN 5) (cH 0))) (cM (cN 2) (cW (cH 0) 4))) (cV 1)) (cA (cN 1) (cV 1))))) (cA (cA (cN (-1)) (cM (cN 5) (cV 1))) (cM (cN 2) (cW (cV 1) 4)))) (cM (cW (cA (cN 1) (cV 1)) 4) (cA (cN 3) (cM (cN 2) (cV 1)))))) (cD (cM (cA (cN 1) (cH 0)) (cB (cB (cB (cB (cB (cM (cM (cM (cM (cN (-2)) (cA (cN 1) (cM (cN 2) (cH 0)))) (cV 1)) (cR (cD (cM (cA (cN 1) (cH 0)) (cA (cN 1) (cV 1))) (cA (cN 2) (cV 1))))) (cA (cN 1) (cM (cN 2) (cV 1)))) (cD (cM (cM (cA (cN 1) (cM (cN 2) (cH 0))) (cV 1)) (cA (cN 1) (cM (cN 2) (cV 1)))) (cR (cD (cM (cA (cN 1) (cH 0)) (cA (cN 2) (cV 1))) (cA (cN 1) (cV 1)))))) (cM (cM (cM (cN 12) (cA (cN 1) (cM (cN 2) (cH 0)))) (cV 1)) (cR (cD (cA (cN 1) (cH 0)) (cA (cA (cN 2) (cM (cN 3) (cV 1))) (cW (cV 1) 4)))))) (cM (cM (cM (cM (cN 6) (cA (cN 1) (cM (cN 2) (cH 0)))) (cV 1)) (cA (cN 1) (cM (cN 2) (cV 1)))) (cR (cD (cA (cN 1) (cH 0)) (cA (cA (cN 2) (cM (cN 3) (cV 1))) (cW (cV 1) 4)))))) (cD (cM (cM (cM (cN 3) (cA (cN 1) (cM (cN 2) (cH 0)))) (cV 1)) (cA (cN 1) (cM (cN 2) (cV 1)))) (cR (cM (cA (cN 1) (cH 0)) (cA (cA (cN 2) (cM (cN 3) (cV 1))) (cW (cV 1) 4)))))) (cD (cM (cN 6) (cA (cV 1) (cM (cM (cN 2) (cH 0)) (cV 1)))) (cR (cM (cA (cN 1) (cH 0)) (cA (cA (cN 2) (cM (cN 3) (cV 1))) (cW (cV 1) 4))))))) (cM (cR (cM (cM (cA (cN 3) (cM (cN 2) (cH 0))) (cV 1)) (cA (cN 2) (cV 1)))) (cA (cA (cN 3) (cM (cN 5) (cV 1))) (cM (cN 2) (cW (cV 1) 4)))))) (cD (cM (cR (cM (cA (cA (cN 3) (cM (cN 5) (cH 0))) (cM (cN 2) (cW (cH 0) 4))) (cA (cA (cN 3) (cM (cN 5) (cV 1))) (cM (cN 2) (cW (cV 1) 4))))) (cA (cA (cA (cM (cN (-2)) (cR (cM (cV 1) (cA (cA (cN 3) (cM (cN 5) (cV 1))) (cM (cN 2) (cW (cV 1) 4)))))) (cM (cM (cN 9) (cV 1)) (cR (cM (cV 1) (cA (cA (cN 3) (cM (cN 5) (cV 1))) (cM (cN 2) (cW (cV 1) 4))))))) (cM (cN 9) (cR (cM (cW (cV 1) 10) (cA (cA (cN 3) (cM (cN 5) (cV 1))) (cM (cN 2) (cW (cV 1) 4))))))) (cM (cN 2) (cR (cM (cW (cV 1) 14) (cA (cA (cN 3) (cM (cN 5) (cV 1))) (cM (cN 2) (cW (cV 1) 4)))))))) (cM (cM (cW (cA (cN 1) (cV 1)) 5) (cA (cN 2) (cV 1))) (cW (cA (cN 3) (cM (cN 2) (cV 1))) 4)))) (cD (cM (cR (cM (cA (cN 3) (cM (cN 2) (cH 0))) (cV 1))) (cA (cA (cM (cN 9) (cR (cD (cM (cA (cN 1) (cH 0)) (cA (cN 2) (cV 1))) (cA (cN 1) (cV 1))))) (cR (cM (cA (cN 1) (cH 0)) (cA (cA (cN 2) (cM (cN 3) (cV 1))) (cW (cV 1) 4))))) (cM (cM (cN 2) (cV 1)) (cA (cM (cN 3) (cR (cD (cM (cA (cN 1) (cH 0)) (cA (cN 2) (cV 1))) (cA (cN 1) (cV 1))))) (cR (cM (cA (cN 1) (cH 0)) (cA (cA (cN 2) (cM (cN 3) (cV 1))) (cW (cV 1) 4)))))))) (cM (cW (cA (cN 2) (cV 1)) 3) (cA (cA (cN 3) (cM (cN 5) (cV 1))) (cM (cN 2) (cW (cV 1) 4)))))) (cM (cN 4) (cW (cA (cN 1) (cH 0)) 4))).
Definition SPSU2T_e1109 := (cD (cB (cB (cB (cB (cB (cM (cN (-3)) (cR (cD (cM (cA (cA (cN 3) (cM (cN 5) (cH 0))) (cM (cN 2) (cW (cH 0) 4))) (cA (cN 3) (cM (cN 2) (cV 1)))) (cA (cN 1) (cV 1))))) (cM (cM (cN 3) (cV 1)) (cR (cD (cM (cA (cA (cN 3) (cM (cN 5) (cH 0))) (cM (cN 2) (cW (cH 0) 4))) (cA (cN 3) (cM (cN 2) (cV 1)))) (cA (cN 1) (cV 1)))))) (cM (cN 7) (cR (cM (cA (cA (cN 3) (cM (cN 5) (cH 0))) (cM (cN 2) (cW (cH 0) 4))) (cA (cA (cN 3) (cM (cN 5) (cV 1))) (cM (cN 2) (cW (cV 1) 4))))))) (cM (cM (cN 19) (cV 1)) (cR (cM (cA (cA (cN 3) (cM (cN 5) (cH 0))) (cM (cN 2) (cW (cH 0) 4))) (cA (cA (cN 3) (cM (cN 5) (cV 1))) (cM (cN 2) (cW (cV 1) 4))))))) (cM (cM (cN 11) (cW (cV 1) 4)) (cR (cM (cA (cA (cN 3) (cM (cN 5) (cH 0))) (cM (cN 2) (cW (cH 0) 4))) (cA (cA (cN 3) (cM (cN 5) (cV 1))) (cM (cN 2) (cW (cV 1) 4))))))) (cM (cM (cN 2) (cW (cV 1) 6)) (cR (cM (cA (cA (cN 3) (cM (cN 5) (cH 0))) (cM (cN 2) (cW (cH 0) 4))) (cA (cA (cN 3) (cM (cN 5) (cV 1))) (cM (cN 2) (cW (cV 1) 4))))))) (cM (cM (cM (cA (cN 1) (cH 0)) (cA (cN 1) (cV 1))) (cA (cA (cN 10) (cM (cN 9) (cV 1))) (cM (cN 2) (cW (cV 1) 4)))) (cR (cA (cA (cN 6) (cM (cN 10) (cV 1))) (cM (cN 4) (cW (cV 1) 4)))))).
Definition SPSU2T_e1110 := (cD (cB (cB (cB (cA (cA (cD (cM (cA (cN 2) (cH 0)) (cR (cD (cA (cH 0) (cM (cM (cN 2) (cH 0)) (cV 1))) (cA (cN 3) (cM (cN 2) (cV 1)))))) (cW (cA (cN 1) (cH 0)) 3)) (cD (cM (cA (cN 2) (cH 0)) (cR (cD (cA (cH 0) (cM (cM (cN 2) (cH 0)) (cV 1))) (cA (cN 3) (cM (cN 2) (cV 1)))))) (cM (cW (cA (cN 1) (cH 0)) 3) (cA (cN 1) (cV 1))))) (cD (cA (cN 2) (cH 0)) (cM (cW (cA (cN 1) (cH 0)) 3) (cR (cD (cM (cW (cA (cN 1) (cV 1)) 4) (cA (cA (cN 3) (cM (cN 8) (cV 1))) (cM (cN 4) (cW (cV 1) 4)))) (cH 0)))))) (cD (cM (cH 0) (cA (cD (cA (cN 1) (cM (cN 2) (cH 0))) (cM (cA (cA (cN 3) (cM (cN 5) (cH 0))) (cM (cN 2) (cW (cH 0) 4))) (cR (cD (cM (cH 0) (cA (cN 1) (cH 0))) (cA (cN 1) (cM (cN 2) (cV 1))))))) (cD (cN 2) (cR (cD (cM (cM (cH 0) (cW (cA (cN 1) (cH 0)) 6)) (cW (cA (cN 3) (cM (cN 2) (cH 0))) 4)) (cA (cN 1) (cM (cN 2) (cV 1)))))))) (cR (cA (cN 3) (cM (cN 2) (cV 1)))))) (cD (cM (cH 0) (cA (cD (cA (cN 1) (cM (cN 2) (cH 0))) (cM (cA (cA (cN 3) (cM (cN 5) (cH 0))) (cM (cN 2) (cW (cH 0) 4))) (cR (cD (cM (cH 0) (cA (cN 1) (cH 0))) (cA (cN 1) (cM (cN 2) (cV 1))))))) (cD (cN 2) (cR (cD (cM (cM (cH 0) (cW (cA (cN 1) (cH 0)) 6)) (cW (cA (cN 3) (cM (cN 2) (cH 0))) 4)) (cA (cN 1) (cM (cN 2) (cV 1)))))))) (cR (cM (cA (cN 3) (cM (cN 2) (cV 1))) (cW (cA (cA (cN 1) (cM (cN 3) (cV 1))) (cM (cN 2) (cW (cV 1) 4))) 4))))) (cD (cM (cH 0) (cA (cM (cN 3) (cR (cD (cA (cN 1) (cM (cN 2) (cV 1))) (cA (cM (cN 3) (cH 0)) (cM (cN 2) (cW (cH 0) 4)))))) (cM (cN 2) (cR (cD (cA (cH 0) (cM (cM (cN 2) (cH 0)) (cV 1))) (cA (cN 3) (cM (cN 2) (cH 0)))))))) (cM (cM (cA (cN 1) (cH 0)) (cA (cN 1) (cV 1))) (cR (cM (cA (cA (cN 3) (cM (cN 5) (cH 0))) (cM (cN 2) (cW (cH 0) 4))) (cA (cN 3) (cM (cN 2) (cV 1)))))))) (cR (cN 3))).
Definition SPSU2T_e1111 := (cD (cR (cA (cA (cN 3) (cM (cN 8) (cV 1))) (cM (cN 4) (cW (cV 1) 4)))) (cA (cN 1) (cM (cN 2) (cV 1)))).
Definition SPSU2T_e1112 := (cO (cD (cR (cD (cM (cA (cN (-1)) (cM (cN 2) (cH 0))) (cA (cN (-1)) (cV 1))) (cM (cH 0) (cV 1)))) (cR (cN 2)))).
Definition SPSU2T_e1113 := (cO (cD (cA (cN 1) (cV 1)) (cM (cR (cN 2)) (cR (cD (cM (cM (cH 0) (cV 1)) (cA (cA (cN 1) (cM (cN 3) (cV 1))) (cM (cN 2) (cW (cV 1) 4)))) (cM (cA (cN (-1)) (cM (cN 2) (cH 0))) (cA (cN (-1)) (cM (cN 2) (cV 1))))))))).
Definition SPSU2T_e1114 := (cD (cA (cN 1) (cV 1)) (cM (cR (cN 2)) (cR (cD (cM (cM (cH 0) (cV 1)) (cA (cN 1) (cV 1))) (cA (cN (-1)) (cM (cN 2) (cH 0))))))).
Definition SPSU2T_e1115 := (cD (cN 1) (cM (cR (cN 2)) (cR (cD (cM (cM (cH 0) (cV 1)) (cA (cN 1) (cV 1))) (cA (cN (-1)) (cM (cN 2) (cH 0))))))).
Definition SPSU2T_e1116 := (cD (cB (cA (cM (cN (-2)) (cR (cD (cM (cA (cN (-1)) (cM (cN 2) (cH 0))) (cV 1)) (cM (cH 0) (cW (cA (cN 1) (cV 1)) 6))))) (cD (cR (cD (cM (cM (cA (cN (-1)) (cM (cN 2) (cH 0))) (cV 1)) (cA (cN 1) (cV 1))) (cH 0))) (cW (cA (cN 1) (cV 1)) 4))) (cD (cM (cM (cR (cD (cM (cA (cN (-1)) (cM (cN 2) (cH 0))) (cV 1)) (cH 0))) (cA (cN 2) (cV 1))) (cA (cN 1) (cM (cN 2) (cV 1)))) (cW (cA (cN 1) (cV 1)) 3))) (cM (cR (cN 2)) (cA (cN 3) (cM (cN 2) (cV 1))))).
Definition SPSU2T_e1117 := (cD (cM (cV 1) (cA (cN 3) (cM (cN 2) (cV 1)))) (cM (cR (cN 2)) (cR (cD (cM (cM (cH 0) (cV 1)) (cA (cA (cA (cN 3) (cM (cN 11) (cV 1))) (cM (cN 12) (cW (cV 1) 4))) (cM (cN 4) (cW (cV 1) 6)))) (cA (cN (-1)) (cM (cN 2) (cH 0))))))).
Definition SPSU2T_e1118 := (cD (cA (cN 2) (cV 1)) (cM (cR (cN 2)) (cR (cD (cM (cH 0) (cA (cA (cN 2) (cM (cN 3) (cV 1))) (cW (cV 1) 4))) (cA (cN (-1)) (cM (cN 2) (cH 0))))))).
Definition SPSU2T_e1119 := (cD (cA (cN 1) (cH 0)) (cM (cR (cN 2)) (cR (cD (cM (cM (cH 0) (cA (cN 1) (cH 0))) (cV 1)) (cA (cN (-1)) (cV 1)))))).
Definition SPSU2T_e1120 := (cD (cR (cD (cM (cM (cA (cN 1) (cH 0)) (cV 1)) (cA (cA (cB (cN (-1)) (cV 1)) (cM (cN 4) (cW (cV 1) 4))) (cM (cN 4) (cW (cV 1) 6)))) (cH 0))) (cM (cR (cN 2)) (cA (cV 1) (cM (cN 2) (cW (cV 1) 4))))).
Definition SPSU2T_e1121 := (cO (cD (cA (cR (cD (cM (cH 0) (cA (cN (-1)) (cV 1))) (cM (cW (cA (cN 1) (cH 0)) 6) (cV 1)))) (cR (cD (cM (cW (cH 0) 6) (cA (cN (-1)) (cV 1))) (cM (cW (cA (cN 1) (cH 0)) 6) (cV 1))))) (cR (cN 2)))).
Definition SPSU2T_e1122 := (cD (cB (cB (cA (cR (cD (cM (cH 0) (cA (cN (-1)) (cM (cN 2) (cV 1)))) (cM (cM (cW (cA (cN 1) (cH 0)) 6) (cV 1)) (cA (cA (cN 1) (cM (cN 3) (cV 1))) (cM (cN 2) (cW (cV 1) 4)))))) (cR (cD (cM (cM (cH 0) (cV 1)) (cA (cN (-1)) (cM (cN 2) (cV 1)))) (cM (cW (cA (cN 1) (cH 0)) 6) (cA (cA (cN 1) (cM (cN 3) (cV 1))) (cM (cN 2) (cW (cV 1) 4))))))) (cD (cM (cA (cN 3) (cM (cN 2) (cH 0))) (cV 1)) (cM (cW (cA (cN 1) (cH 0)) 3) (cR (cO (cD (cM (cV 1) (cA (cA (cN 1) (cM (cN 3) (cV 1))) (cM (cN 2) (cW (cV 1) 4)))) (cB (cH 0) (cM (cM (cN 2) (cH 0)) (cV 1))))))))) (cD (cA (cA (cA (cM (cM (cW (cD (cH 0) (cA (cN 1) (cH 0))) 3) (cA (cN 1) (cM (cN 2) (cH 0)))) (cR (cA (cN 1) (cM (cN 2) (cV 1))))) (cD (cM (cA (cN 1) (cM (cN 2) (cH 0))) (cR (cA (cH 0) (cM (cM (cN 2) (cH 0)) (cV 1))))) (cW (cA (cN 1) (cH 0)) 3))) (cM (cN 2) (cR (cD (cH 0) (cA (cA (cA (cN 1) (cH 0)) (cM (cN 2) (cV 1))) (cM (cM (cN 2) (cH 0)) (cV 1))))))) (cM (cM (cN 4) (cV 1)) (cR (cD (cH 0) (cA (cA (cA (cN 1) (cH 0)) (cM (cN 2) (cV 1))) (cM (cM (cN 2) (cH 0)) (cV 1))))))) (cM (cA (cN 1) (cH 0)) (cR (cD (cM (cM (cV 1) (cA (cN 1) (cV 1))) (cW (cA (cN 1) (cM (cN 2) (cV 1))) 4)) (cA (cN (-1)) (cM (cN 2) (cV 1)))))))) (cM (cN 2) (cR (cN 2)))).
Definition SPSU2T_e1123 := (cO (cD (cA (cR (cD (cM (cM (cA (cN 1) (cH 0)) (cV 1)) (cA (cN 1) (cV 1))) (cH 0))) (cR (cM (cM (cM (cH 0) (cA (cN 1) (cH 0))) (cV 1)) (cA (cN 1) (cV 1))))) (cM (cM (cR (cN 2)) (cA (cN 1) (cH 0))) (cV 1)))).
Definition SPSU2T_e1124 := (cO (cD (cA (cA (cA (cA (cR (cD (cM (cM (cW (cH 0) 6) (cA (cN 1) (cH 0))) (cW (cV 1) 6)) (cA (cN 1) (cV 1)))) (cR (cD (cM (cM (cW (cH 0) 6) (cA (cN 1) (cH 0))) (cW (cV 1) 10)) (cA (cN 1) (cV 1))))) (cR (cM (cM (cM (cH 0) (cA (cN 1) (cH 0))) (cV 1)) (cA (cN 1) (cV 1))))) (cM (cV 1) (cR (cM (cM (cM (cH 0) (cA (cN 1) (cH 0))) (cV 1)) (cA (cN 1) (cV 1)))))) (cR (cM (cM (cM (cW (cH 0) 6) (cA (cN 1) (cH 0))) (cV 1)) (cA (cN 1) (cV 1))))) (cM (cM (cM (cM (cR (cN 2)) (cH 0)) (cA (cN 1) (cH 0))) (cV 1)) (cW (cA (cN 1) (cV 1)) 4)))).
Definition SPSU2T_e1125 := (cD (cA (cA (cB (cA (cD (cM (cN 2) (cR (cD (cV 1) (cM (cM (cH 0) (cA (cN 1) (cH 0))) (cW (cA (cN 1) (cV 1)) 6))))) (cA (cN 3) (cM (cN 2) (cV 1)))) (cD (cR (cD (cM (cH 0) (cV 1)) (cM (cA (cN 1) (cH 0)) (cW (cA (cN 1) (cV 1)) 6)))) (cA (cN 3) (cM (cN 2) (cV 1))))) (cD (cV 1) (cM (cM (cA (cN 1) (cV 1)) (cR (cM (cM (cM (cH 0) (cA (cN 1) (cH 0))) (cV 1)) (cA (cN 1) (cV 1))))) (cA (cN 3) (cM (cN 2) (cV 1)))))) (cD (cA (cR (cD (cM (cV 1) (cA (cN 1) (cM (cN 2) (cV 1)))) (cM (cA (cN 1) (cH 0)) (cW (cA (cN 1) (cV 1)) 6)))) (cM (cV 1) (cR (cD (cA (cN 1) (cM (cN 2) (cV 1))) (cM (cA (cN 1) (cH 0)) (cA (cV 1) (cW (cV 1) 4))))))) (cM (cR (cD (cH 0) (cA (cN 1) (cM (cN 2) (cV 1))))) (cA (cN 3) (cM (cN 2) (cV 1)))))) (cM (cM (cH 0) (cR (cA (cN 1) (cM (cN 2) (cV 1))))) (cA (cR (cD (cM (cV 1) (cA (cN 1) (cM (cN 2) (cV 1)))) (cM (cM (cM (cH 0) (cA (cN 1) (cH 0))) (cW (cA (cN 1) (cV 1)) 6)) (cW (cA (cN 3) (cM (cN 2) (cV 1))) 4)))) (cM (cV 1) (cR (cD (cA (cN 1) (cM (cN 2) (cV 1))) (cM (cM (cM (cH 0) (cA (cN 1) (cH 0))) (cW (cA (cN 3) (cM (cN 2) (cV 1))) 4)) (cA (cV 1) (cW (cV 1) 4))))))))) (cR (cN 2))).
Definition SPSU2T_e1126 := (cD (cA (cA (cB (cO (cD (cH 0) (cM (cW (cA (cN 1) (cH 0)) 3) (cR (cM (cM (cH 0) (cV 1)) (cA (cN 1) (cV 1))))))) (cD (cM (cH 0) (cV 1)) (cM (cW (cA (cN 1) (cH 0)) 3) (cR (cM (cM (cH 0) (cV 1)) (cA (cN 1) (cV 1))))))) (cD (cM (cM (cH 0) (cA (cN 3) (cM (cN 2) (cH 0)))) (cV 1)) (cM (cW (cA (cN 1) (cH 0)) 3) (cR (cM (cM (cH 0) (cV 1)) (cA (cN 1) (cV 1))))))) (cD (cA (cA (cA (cD (cM (cW (cD (cH 0) (cA (cN 1) (cH 0))) 3) (cA (cN 1) (cM (cN 2) (cH 0)))) (cR (cD (cA (cN 1) (cV 1)) (cA (cN 1) (cM (cN 2) (cV 1)))))) (cD (cH 0) (cR (cD (cM (cM (cH 0) (cW (cA (cN 1) (cH 0)) 6)) (cA (cN 1) (cV 1))) (cM (cW (cA (cN 1) (cM (cN 2) (cH 0))) 4) (cA (cN 1) (cM (cN 2) (cV 1)))))))) (cM (cN 2) (cR (cD (cH 0) (cM (cA (cN 1) (cH 0)) (cA (cA (cN 1) (cM (cN 3) (cV 1))) (cM (cN 2) (cW (cV 1) 4)))))))) (cM (cM (cN 4) (cV 1)) (cR (cD (cH 0) (cM (cA (cN 1) (cH 0)) (cA (cA (cN 1) (cM (cN 3) (cV 1))) (cM (cN 2) (cW (cV 1) 4)))))))) (cM (cA (cN 1) (cH 0)) (cR (cM (cV 1) (cA (cN 1) (cM (cN 2) (cV 1)))))))) (cM (cN 2) (cR (cN 2)))).
Definition SPSU2T_e1127 := (cD (cB (cA (cA (cM (cN (-2)) (cR (cD (cM (cH 0) (cV 1)) (cM (cW (cA (cN 1) (cH 0)) 6) (cW (cA (cN 1) (cV 1)) 6))))) (cD (cM (cM (cN 2) (cA (cN 3) (cM (cN 2) (cH 0)))) (cR (cM (cH 0) (cV 1)))) (cW (cM (cA (cN 1) (cH 0)) (cA (cN 1) (cV 1))) 3))) (cD (cM (cA (cN (-1)) (cV 1)) (cV 1)) (cM (cH 0) (cW (cD (cM (cM (cA (cN 1) (cH 0)) (cV 1)) (cA (cN 1) (cV 1))) (cH 0)) 3)))) (cD (cM (cM (cA (cN 3) (cM (cN 2) (cH 0))) (cA (cN (-1)) (cV 1))) (cV 1)) (cM (cH 0) (cW (cD (cM (cM (cA (cN 1) (cH 0)) (cV 1)) (cA (cN 1) (cV 1))) (cH 0)) 3)))) (cM (cN 2) (cR (cN 2)))).
Definition SPSU2T_e1128 := (cD (cB (cB (cA (cA (cB (cD (cM (cN 2) (cR (cD (cM (cH 0) (cV 1)) (cM (cW (cA (cN 1) (cH 0)) 6) (cW (cA (cN 1) (cV 1)) 6))))) (cA (cN 3) (cM (cN 2) (cV 1)))) (cD (cM (cW (cH 0) 4) (cW (cV 1) 4)) (cM (cW (cM (cM (cM (cH 0) (cA (cN 1) (cH 0))) (cV 1)) (cA (cN 1) (cV 1))) 3) (cA (cN 3) (cM (cN 2) (cV 1)))))) (cD (cM (cM (cH 0) (cA (cN 3) (cM (cN 2) (cH 0)))) (cV 1)) (cM (cW (cA (cN 1) (cH 0)) 3) (cR (cM (cM (cM (cH 0) (cV 1)) (cW (cA (cN 1) (cV 1)) 6)) (cW (cA (cN 3) (cM (cN 2) (cV 1))) 4)))))) (cD (cM (cM (cH 0) (cR (cA (cN 1) (cM (cN 2) (cV 1))))) (cA (cR (cD (cM (cV 1) (cA (cN 1) (cM (cN 2) (cV 1)))) (cM (cM (cM (cH 0) (cA (cN 1) (cH 0))) (cW (cA (cN 1) (cV 1)) 6)) (cW (cA (cN 3) (cM (cN 2) (cV 1))) 4)))) (cM (cV 1) (cR (cD (cA (cN 1) (cM (cN 2) (cV 1))) (cM (cM (cM (cH 0) (cA (cN 1) (cH 0))) (cW (cA (cN 3) (cM (cN 2) (cV 1))) 4)) (cA (cV 1) (cW (cV 1) 4)))))))) (cA (cN 1) (cH 0)))) (cD (cA (cA (cA (cA (cA (cA (cA (cD (cM (cN 2) (cR (cD (cM (cH 0) (cV 1)) (cM (cA (cN 1) (cH 0)) (cW (cA (cN 1) (cV 1)) 6))))) (cA (cN 3) (cM (cN 2) (cV 1)))) (cD (cM (cN 4) (cR (cD (cM (cH 0) (cW (cV 1) 6)) (cM (cA (cN 1) (cH 0)) (cW (cA (cN 1) (cV 1)) 6))))) (cA (cN 3) (cM (cN 2) (cV 1))))) (cD (cM (cM (cA (cN 1) (cM (cN 2) (cH 0))) (cR (cM (cH 0) (cV 1)))) (cA (cN 1) (cM (cN 2) (cV 1)))) (cM (cW (cM (cA (cN 1) (cH 0)) (cA (cN 1) (cV 1))) 3) (cA (cN 3) (cM (cN 2) (cV 1)))))) (cD (cM (cM (cM (cH 0) (cA (cN 1) (cM (cN 2) (cH 0)))) (cV 1)) (cA (cN 1) (cM (cN 2) (cV 1)))) (cM (cM (cW (cA (cN 1) (cH 0)) 3) (cR (cM (cM (cH 0) (cV 1)) (cA (cN 1) (cV 1))))) (cA (cN 3) (cM (cN 2) (cV 1)))))) (cD (cM (cM (cM (cW (cH 0) 4) (cA (cN 1) (cM (cN 2) (cH 0)))) (cV 1)) (cA (cN 1) (cM (cN 2) (cV 1)))) (cM (cM (cW (cA (cN 1) (cH 0)) 3) (cR (cM (cM (cH 0) (cV 1)) (cA (cN 1) (cV 1))))) (cA (cN 3) (cM (cN 2) (cV 1)))))) (cD (cM (cM (cM (cA (cN 1) (cM (cN 2) (cH 0))) (cR (cV 1))) (cA (cN 1) (cM (cN 2) (cV 1)))) (cW (cD (cH 0) (cA (cA (cA (cN 1) (cH 0)) (cV 1)) (cM (cH 0) (cV 1)))) 3)) (cA (cN 3) (cM (cN 2) (cV 1))))) (cM (cM (cN 2) (cV 1)) (cR (cD (cM (cH 0) (cW (cA (cN 1) (cM (cN 2) (cV 1))) 4)) (cM (cM (cW (cA (cN 1) (cH 0)) 6) (cW (cA (cN 3) (cM (cN 2) (cV 1))) 4)) (cA (cV 1) (cW (cV 1) 4))))))) (cM (cM (cM (cN 2) (cH 0)) (cV 1)) (cR (cD (cM (cH 0) (cW (cA (cN 1) (cM (cN 2) (cV 1))) 4)) (cM (cM (cW (cA (cN 1) (cH 0)) 6) (cW (cA (cN 3) (cM (cN 2) (cV 1))) 4)) (cA (cV 1) (cW (cV 1) 4))))))) (cA (cN 1) (cH 0)))) (cD (cM (cN 2) (cA (cA (cA (cD (cM (cW (cD (cH 0) (cA (cN 1) (cH 0))) 3) (cA (cN 1) (cM (cN 2) (cH 0)))) (cR (cD (cA (cN 1) (cV 1)) (cA (cN 1) (cM (cN 2) (cV 1)))))) (cD (cH 0) (cR (cD (cM (cM (cH 0) (cW (cA (cN 1) (cH 0)) 6)) (cA (cN 1) (cV 1))) (cM (cW (cA (cN 1) (cM (cN 2) (cH 0))) 4) (cA (cN 1) (cM (cN 2) (cV 1)))))))) (cM (cN 2) (cR (cD (cH 0) (cM (cA (cN 1) (cH 0)) (cA (cA (cN 1) (cM (cN 3) (cV 1))) (cM (cN 2) (cW (cV 1) 4)))))))) (cM (cM (cN 4) (cV 1)) (cR (cD (cH 0) (cM (cA (cN 1) (cH 0)) (cA (cA (cN 1) (cM (cN 3) (cV 1))) (cM (cN 2) (cW (cV 1) 4))))))))) (cM (cA (cN 1) (cH 0)) (cR (cD (cM (cA (cN 1) (cM (cN 2) (cV 1))) (cW (cA (cA (cN 3) (cM (cN 5) (cV 1))) (cM (cN 2) (cW (cV 1) 4))) 4)) (cV 1)))))) (cM (cN 2) (cR (cN 2)))).
Definition SPSU2T_e1129 := (cD (cB (cA (cA (cB (cB (cD (cN (-2)) (cM (cA (cN 1) (cV 1)) (cR (cD (cM (cM (cM (cH 0) (cA (cN 1) (cH 0))) (cA (cN 3) (cM (cN 2) (cV 1)))) (cA (cA (cN 1) (cM (cN 3) (cV 1))) (cM (cN 2) (cW (cV 1) 4)))) (cV 1))))) (cD (cA (cN 2) (cV 1)) (cM (cA (cN 1) (cV 1)) (cR (cD (cM (cM (cH 0) (cA (cN 1) (cH 0))) (cA (cA (cN 3) (cM (cN 5) (cV 1))) (cM (cN 2) (cW (cV 1) 4)))) (cM (cV 1) (cA (cN 1) (cM (cN 2) (cV 1))))))))) (cM (cN 2) (cR (cD (cM (cH 0) (cV 1)) (cM (cM (cA (cN 1) (cH 0)) (cW (cA (cN 1) (cV 1)) 6)) (cA (cA (cN 3) (cM (cN 8) (cV 1))) (cM (cN 4) (cW (cV 1) 4)))))))) (cD (cV 1) (cR (cD (cM (cM (cM (cA (cN 1) (cH 0)) (cV 1)) (cW (cA (cN 1) (cV 1)) 6)) (cA (cA (cN 3) (cM (cN 8) (cV 1))) (cM (cN 4) (cW (cV 1) 4)))) (cH 0))))) (cD (cV 1) (cM (cA (cN 1) (cV 1)) (cR (cM (cM (cM (cH 0) (cA (cN 1) (cH 0))) (cV 1)) (cA (cA (cA (cN 3) (cM (cN 11) (cV 1))) (cM (cN 12) (cW (cV 1) 4))) (cM (cN 4) (cW (cV 1) 6)))))))) (cM (cH 0) (cA (cR (cD (cM (cV 1) (cA (cN 1) (cM (cN 2) (cV 1)))) (cM (cM (cM (cH 0) (cA (cN 1) (cH 0))) (cW (cA (cN 1) (cV 1)) 6)) (cA (cN 3) (cM (cN 2) (cV 1)))))) (cM (cV 1) (cR (cD (cA (cN 1) (cM (cN 2) (cV 1))) (cM (cM (cM (cH 0) (cA (cN 1) (cH 0))) (cV 1)) (cA (cA (cN 3) (cM (cN 5) (cV 1))) (cM (cN 2) (cW (cV 1) 4)))))))))) (cR (cN 2))).
Definition SPSU2T_e1130 := (cD (cB (cA (cB (cB (cD (cM (cM (cN (-2)) (cA (cN 2) (cV 1))) (cA (cN 1) (cM (cN 2) (cV 1)))) (cM (cM (cA (cN 1) (cV 1)) (cA (cN 3) (cM (cN 2) (cV 1)))) (cR (cM (cM (cH 0) (cA (cN 1) (cH 0))) (cA (cA (cN 2) (cM (cN 3) (cV 1))) (cW (cV 1) 4)))))) (cD (cM (cM (cH 0) (cA (cN 2) (cV 1))) (cA (cN 1) (cM (cN 2) (cV 1)))) (cM (cM (cA (cN 1) (cV 1)) (cA (cN 3) (cM (cN 2) (cV 1)))) (cR (cM (cM (cH 0) (cA (cN 1) (cH 0))) (cA (cA (cN 2) (cM (cN 3) (cV 1))) (cW (cV 1) 4))))))) (cD (cA (cA (cA (cN 2) (cM (cN 3) (cV 1))) (cM (cN 5) (cW (cV 1) 4))) (cM (cN 2) (cW (cV 1) 6))) (cM (cM (cA (cN 1) (cV 1)) (cA (cN 3) (cM (cN 2) (cV 1)))) (cR (cM (cM (cH 0) (cA (cN 1) (cH 0))) (cA (cA (cN 2) (cM (cN 3) (cV 1))) (cW (cV 1) 4))))))) (cM (cM (cH 0) (cR (cA (cN 1) (cM (cN 2) (cV 1))))) (cA (cO (cM (cA (cN 1) (cV 1)) (cR (cD (cA (cN 1) (cM (cN 2) (cV 1))) (cM (cM (cM (cH 0) (cA (cN 1) (cH 0))) (cW (cA (cN 3) (cM (cN 2) (cV 1))) 4)) (cA (cA (cN 2) (cM (cN 3) (cV 1))) (cW (cV 1) 4))))))) (cD (cA (cN (-1)) (cV 1)) (cR (cM (cM (cM (cM (cH 0) (cA (cN 1) (cH 0))) (cW (cA (cN 1) (cV 1)) 6)) (cW (cA (cN 3) (cM (cN 2) (cV 1))) 4)) (cA (cA (cN 2) (cM (cN 5) (cV 1))) (cM (cN 2) (cW (cV 1) 4))))))))) (cM (cM (cH 0) (cR (cA (cN 1) (cM (cN 2) (cV 1))))) (cA (cD (cN 1) (cR (cD (cM (cM (cM (cH 0) (cA (cN 1) (cH 0))) (cW (cA (cN 3) (cM (cN 2) (cV 1))) 4)) (cA (cA (cN 2) (cM (cN 3) (cV 1))) (cW (cV 1) 4))) (cA (cN 1) (cM (cN 2) (cV 1)))))) (cD (cN 1) (cM (cR (cD (cM (cM (cH 0) (cA (cN 1) (cH 0))) (cA (cA (cN 2) (cM (cN 3) (cV 1))) (cW (cV 1) 4))) (cA (cN 1) (cM (cN 2) (cV 1))))) (cA (cA (cN 3) (cM (cN 5) (cV 1))) (cM (cN 2) (cW (cV 1) 4)))))))) (cR (cN 2))).
Definition SPSU2T_e1131 := (cD (cA (cA (cB (cA (cB (cO (cD (cM (cM (cH 0) (cA (cN 2) (cV 1))) (cR (cD (cA (cV 1) (cM (cN 2) (cW (cV 1) 4))) (cA (cM (cN 3) (cH 0)) (cM (cM (cN 2) (cH 0)) (cV 1)))))) (cW (cM (cA (cN 1) (cH 0)) (cA (cN 1) (cV 1))) 3))) (cD (cM (cN 2) (cR (cD (cM (cH 0) (cV 1)) (cM (cW (cA (cN 1) (cH 0)) 6) (cA (cA (cA (cN 3) (cM (cN 11) (cV 1))) (cM (cN 12) (cW (cV 1) 4))) (cM (cN 4) (cW (cV 1) 6))))))) (cA (cN 1) (cV 1)))) (cD (cM (cH 0) (cV 1)) (cM (cM (cW (cA (cN 1) (cH 0)) 3) (cA (cN 1) (cV 1))) (cR (cM (cM (cH 0) (cV 1)) (cA (cA (cA (cN 3) (cM (cN 11) (cV 1))) (cM (cN 12) (cW (cV 1) 4))) (cM (cN 4) (cW (cV 1) 6)))))))) (cD (cM (cM (cH 0) (cA (cN 3) (cM (cN 2) (cH 0)))) (cV 1)) (cM (cM (cW (cA (cN 1) (cH 0)) 3) (cA (cN 1) (cV 1))) (cR (cM (cM (cH 0) (cV 1)) (cA (cA (cA (cN 3) (cM (cN 11) (cV 1))) (cM (cN 12) (cW (cV 1) 4))) (cM (cN 4) (cW (cV 1) 6)))))))) (cD (cM (cM (cN 2) (cR (cV 1))) (cA (cA (cA (cD (cM (cW (cD (cH 0) (cA (cN 1) (cH 0))) 3) (cA (cN 1) (cM (cN 2) (cH 0)))) (cR (cD (cA (cA (cN 3) (cM (cN 5) (cV 1))) (cM (cN 2) (cW (cV 1) 4))) (cA (cN 1) (cM (cN 2) (cV 1)))))) (cD (cH 0) (cR (cD (cM (cM (cH 0) (cW (cA (cN 1) (cH 0)) 6)) (cA (cA (cN 3) (cM (cN 5) (cV 1))) (cM (cN 2) (cW (cV 1) 4)))) (cM (cW (cA (cN 1) (cM (cN 2) (cH 0))) 4) (cA (cN 1) (cM (cN 2) (cV 1)))))))) (cM (cN 2) (cR (cD (cH 0) (cM (cA (cN 1) (cH 0)) (cA (cA (cA (cN 3) (cM (cN 11) (cV 1))) (cM (cN 12) (cW (cV 1) 4))) (cM (cN 4) (cW (cV 1) 6)))))))) (cM (cM (cN 4) (cV 1)) (cR (cD (cH 0) (cM (cA (cN 1) (cH 0)) (cA (cA (cA (cN 3) (cM (cN 11) (cV 1))) (cM (cN 12) (cW (cV 1) 4))) (cM (cN 4) (cW (cV 1) 6))))))))) (cM (cA (cN 1) (cH 0)) (cA (cA (cN 1) (cM (cN 3) (cV 1))) (cM (cN 2) (cW (cV 1) 4)))))) (cD (cA (cA (cA (cA (cA (cA (cA (cD (cH 0) (cR (cD (cM (cM (cM (cH 0) (cW (cA (cN 1) (cH 0)) 6)) (cW (cA (cN 1) (cV 1)) 6)) (cA (cN 3) (cM (cN 2) (cV 1)))) (cM (cM (cW (cA (cN 1) (cM (cN 2) (cH 0))) 4) (cV 1)) (cA (cN 1) (cM (cN 2) (cV 1))))))) (cD (cW (cH 0) 4) (cR (cD (cM (cM (cM (cH 0) (cW (cA (cN 1) (cH 0)) 6)) (cW (cA (cN 1) (cV 1)) 6)) (cA (cN 3) (cM (cN 2) (cV 1)))) (cM (cM (cW (cA (cN 1) (cM (cN 2) (cH 0))) 4) (cV 1)) (cA (cN 1) (cM (cN 2) (cV 1)))))))) (cM (cN 2) (cR (cD (cM (cM (cH 0) (cV 1)) (cA (cN 1) (cM (cN 2) (cV 1)))) (cM (cW (cA (cN 1) (cH 0)) 6) (cA (cA (cN 3) (cM (cN 5) (cV 1))) (cM (cN 2) (cW (cV 1) 4)))))))) (cM (cN 2) (cR (cD (cM (cM (cW (cH 0) 6) (cV 1)) (cA (cN 1) (cM (cN 2) (cV 1)))) (cM (cW (cA (cN 1) (cH 0)) 6) (cA (cA (cN 3) (cM (cN 5) (cV 1))) (cM (cN 2) (cW (cV 1) 4)))))))) (cD (cM (cH 0) (cV 1)) (cR (cD (cM (cM (cM (cH 0) (cW (cA (cN 1) (cH 0)) 6)) (cV 1)) (cA (cA (cN 3) (cM (cN 5) (cV 1))) (cM (cN 2) (cW (cV 1) 4)))) (cM (cW (cA (cN 1) (cM (cN 2) (cH 0))) 4) (cA (cN 1) (cM (cN 2) (cV 1)))))))) (cD (cM (cW (cD (cH 0) (cA (cN 1) (cH 0))) 3) (cA (cN 1) (cM (cN 2) (cH 0)))) (cR (cD (cA (cA (cN 3) (cM (cN 5) (cV 1))) (cM (cN 2) (cW (cV 1) 4))) (cA (cV 1) (cM (cN 2) (cW (cV 1) 4))))))) (cD (cM (cN 2) (cR (cD (cM (cH 0) (cV 1)) (cM (cA (cN 1) (cH 0)) (cA (cA (cA (cN 3) (cM (cN 11) (cV 1))) (cM (cN 12) (cW (cV 1) 4))) (cM (cN 4) (cW (cV 1) 6))))))) (cA (cN 1) (cV 1)))) (cD (cM (cM (cN 4) (cV 1)) (cR (cD (cM (cH 0) (cV 1)) (cM (cA (cN 1) (cH 0)) (cA (cA (cA (cN 3) (cM (cN 11) (cV 1))) (cM (cN 12) (cW (cV 1) 4))) (cM (cN 4) (cW (cV 1) 6))))))) (cA (cN 1) (cV 1)))) (cA (cN 1) (cH 0)))) (cM (cN 2) (cR (cN 2)))).
Definition SPSU2T_e1132 := (cD (cB (cA (cA (cB (cO (cD (cM (cH 0) (cA (cN 2) (cV 1))) (cM (cM (cA (cN 1) (cV 1)) (cA (cN 3) (cM (cN 2) (cV 1)))) (cR (cD (cM (cM (cH 0) (cW (cA (cN 1) (cH 0)) 6)) (cA (cA (cN 2) (cM (cN 3) (cV 1))) (cW (cV 1) 4))) (cW (cA (cN 1) (cM (cN 2) (cV 1))) 4)))))) (cD (cM (cM (cW (cH 0) 4) (cW (cA (cN 2) (cV 1)) 4)) (cA (cA (cN 1) (cV 1)) (cM (cN 2) (cW (cV 1) 4)))) (cM (cA (cN 3) (cM (cN 2) (cV 1))) (cW (cM (cM (cH 0) (cA (cN 1) (cH 0))) (cA (cA (cN 2) (cM (cN 3) (cV 1))) (cW (cV 1) 4))) 3)))) (cD (cM (cA (cN 1) (cM (cN 2) (cV 1))) (cA (cA (cB (cO (cD (cM (cM (cA (cN 1) (cM (cN 2) (cH 0))) (cA (cN (-1)) (cV 1))) (cR (cD (cM (cH 0) (cA (cN 1) (cV 1))) (cM (cA (cN 1) (cH 0)) (cA (cN 2) (cV 1)))))) (cA (cN 1) (cV 1)))) (cM (cM (cN 2) (cA (cN (-1)) (cV 1))) (cR (cD (cH 0) (cM (cA (cN 1) (cH 0)) (cA (cA (cN 2) (cM (cN 3) (cV 1))) (cW (cV 1) 4))))))) (cM (cM (cM (cN 2) (cW (cA (cN 1) (cV 1)) 4)) (cA (cN 1) (cM (cN 2) (cV 1)))) (cR (cD (cH 0) (cM (cA (cN 1) (cH 0)) (cA (cA (cN 2) (cM (cN 3) (cV 1))) (cW (cV 1) 4))))))) (cD (cM (cM (cM (cH 0) (cA (cN 1) (cM (cN 2) (cH 0)))) (cW (cA (cN 1) (cV 1)) 4)) (cA (cN 1) (cM (cN 2) (cV 1)))) (cR (cM (cM (cH 0) (cA (cN 1) (cH 0))) (cA (cA (cN 2) (cM (cN 3) (cV 1))) (cW (cV 1) 4))))))) (cM (cA (cN 1) (cH 0)) (cA (cA (cA (cN 3) (cM (cN 11) (cV 1))) (cM (cN 12) (cW (cV 1) 4))) (cM (cN 4) (cW (cV 1) 6)))))) (cD (cM (cM (cN 2) (cA (cN 1) (cM (cN 2) (cV 1)))) (cA (cM (cN 3) (cR (cM (cM (cW (cH 0) 6) (cA (cN 1) (cH 0))) (cA (cA (cN 2) (cM (cN 3) (cV 1))) (cW (cV 1) 4))))) (cM (cN 2) (cR (cM (cM (cW (cH 0) 10) (cA (cN 1) (cH 0))) (cA (cA (cN 2) (cM (cN 3) (cV 1))) (cW (cV 1) 4))))))) (cM (cM (cM (cH 0) (cW (cA (cN 1) (cH 0)) 4)) (cW (cA (cN 1) (cV 1)) 4)) (cA (cN 3) (cM (cN 2) (cV 1)))))) (cD (cM (cM (cH 0) (cR (cA (cN 1) (cM (cN 2) (cV 1))))) (cA (cD (cN 1) (cR (cD (cM (cM (cM (cH 0) (cA (cN 1) (cH 0))) (cW (cA (cN 3) (cM (cN 2) (cV 1))) 4)) (cA (cA (cN 2) (cM (cN 3) (cV 1))) (cW (cV 1) 4))) (cA (cN 1) (cM (cN 2) (cV 1)))))) (cD (cN 1) (cM (cR (cD (cM (cM (cH 0) (cA (cN 1) (cH 0))) (cA (cA (cN 2) (cM (cN 3) (cV 1))) (cW (cV 1) 4))) (cA (cN 1) (cM (cN 2) (cV 1))))) (cA (cA (cN 3) (cM (cN 5) (cV 1))) (cM (cN 2) (cW (cV 1) 4))))))) (cA (cN 1) (cH 0)))) (cM (cN 2) (cR (cN 2)))).
Definition SPSU2T_e1133 := (cD (cA (cR (cD (cM (cA (cN 3) (cM (cN 2) (cH 0))) (cA (cN (-1)) (cV 1))) (cM (cW (cA (cN 1) (cH 0)) 6) (cV 1)))) (cD (cM (cM (cA (cN 1) (cM (cN 2) (cH 0))) (cA (cN 3) (cM (cN 2) (cH 0)))) (cR (cD (cA (cN (-1)) (cV 1)) (cM (cA (cA (cN 3) (cM (cN 5) (cH 0))) (cM (cN 2) (cW (cH 0) 4))) (cV 1))))) (cA (cN 1) (cH 0)))) (cM (cN 2) (cR (cN 2)))).
Definition SPSU2T_e1134 := (cA (cA (cA (cD (cM (cA (cN 3) (cM (cN 2) (cH 0))) (cV 1)) (cM (cM (cN 2) (cR (cN 2))) (cR (cD (cM (cM (cM (cM (cW (cA (cN 1) (cH 0)) 6) (cA (cN 3) (cM (cN 2) (cH 0)))) (cV 1)) (cA (cN 1) (cV 1))) (cA (cN 1) (cM (cN 2) (cV 1)))) (cM (cW (cA (cN 1) (cM (cN 2) (cH 0))) 4) (cA (cN (-1)) (cM (cN 2) (cV 1)))))))) (cD (cM (cA (cN 1) (cM (cN 2) (cH 0))) (cA (cN 3) (cM (cN 2) (cH 0)))) (cM (cM (cM (cN 2) (cR (cN 2))) (cA (cN 1) (cH 0))) (cR (cD (cM (cM (cM (cA (cA (cN 3) (cM (cN 5) (cH 0))) (cM (cN 2) (cW (cH 0) 4))) (cV 1)) (cA (cN 1) (cV 1))) (cA (cN 1) (cM (cN 2) (cV 1)))) (cA (cN (-1)) (cM (cN 2) (cV 1)))))))) (cD (cR (cD (cM (cA (cN 3) (cM (cN 2) (cH 0))) (cA (cN (-1)) (cM (cN 2) (cV 1)))) (cM (cM (cW (cA (cN 1) (cH 0)) 6) (cV 1)) (cA (cA (cN 1) (cM (cN 3) (cV 1))) (cM (cN 2) (cW (cV 1) 4)))))) (cM (cN 2) (cR (cN 2))))) (cD (cM (cM (cV 1) (cR (cA (cN (-1)) (cM (cN 2) (cV 1))))) (cA (cD (cN 1) (cM (cR (cN 2)) (cR (cD (cM (cM (cM (cW (cA (cN 1) (cH 0)) 6) (cA (cN 3) (cM (cN 2) (cH 0)))) (cV 1)) (cA (cN 1) (cV 1))) (cM (cW (cA (cN 1) (cM (cN 2) (cH 0))) 4) (cA (cN 1) (cM (cN 2) (cV 1)))))))) (cD (cN 1) (cR (cD (cM (cM (cM (cW (cA (cN 1) (cH 0)) 6) (cA (cN 3) (cM (cN 2) (cH 0)))) (cV 1)) (cA (cN 1) (cV 1))) (cA (cN 2) (cM (cN 4) (cV 1)))))))) (cM (cN 2) (cA (cN 1) (cM (cN 2) (cV 1)))))).
Definition SPSU2T_e1135 := (cD (cB (cB (cB (cO (cR (cD (cM (cA (cN 3) (cM (cN 2) (cH 0))) (cV 1)) (cM (cW (cA (cN 1) (cH 0)) 6) (cA (cN 1) (cV 1)))))) (cD (cN 1) (cR (cD (cM (cM (cW (cA (cN 1) (cH 0)) 6) (cV 1)) (cA (cN 1) (cV 1))) (cA (cN 3) (cM (cN 2) (cH 0))))))) (cD (cM (cA (cN 3) (cM (cN 2) (cH 0))) (cV 1)) (cR (cD (cM (cM (cM (cW (cA (cN 1) (cH 0)) 6) (cA (cN 3) (cM (cN 2) (cH 0)))) (cV 1)) (cA (cN 1) (cV 1))) (cW (cA (cN 1) (cM (cN 2) (cH 0))) 4))))) (cD (cM (cA (cN 1) (cM (cN 2) (cH 0))) (cA (cN 3) (cM (cN 2) (cH 0)))) (cM (cA (cN 1) (cH 0)) (cR (cM (cM (cA (cA (cN 3) (cM (cN 5) (cH 0))) (cM (cN 2) (cW (cH 0) 4))) (cV 1)) (cA (cN 1) (cV 1))))))) (cM (cN 2) (cR (cN 2)))).
Definition SPSU2T_e1136 := (cD (cA (cB (cA (cM (cN (-2)) (cR (cD (cM (cA (cN 3) (cM (cN 2) (cH 0))) (cV 1)) (cM (cW (cA (cN 1) (cH 0)) 6) (cW (cA (cN 1) (cV 1)) 6))))) (cD (cM (cM (cA (cN 1) (cM (cN 2) (cH 0))) (cA (cN (-1)) (cV 1))) (cR (cD (cA (cA (cN 3) (cM (cN 5) (cH 0))) (cM (cN 2) (cW (cH 0) 4))) (cV 1)))) (cM (cW (cA (cN 1) (cH 0)) 4) (cW (cA (cN 1) (cV 1)) 3)))) (cD (cM (cM (cN 2) (cA (cN 1) (cM (cN 2) (cH 0)))) (cR (cM (cA (cN 3) (cM (cN 2) (cH 0))) (cV 1)))) (cW (cM (cA (cN 1) (cH 0)) (cA (cN 1) (cV 1))) 3))) (cD (cM (cM (cR (cA (cN 3) (cM (cN 2) (cH 0)))) (cA (cN (-1)) (cV 1))) (cV 1)) (cW (cM (cM (cA (cN 1) (cH 0)) (cV 1)) (cA (cN 1) (cV 1))) 3))) (cM (cN 2) (cR (cN 2)))).
Definition SPSU2T_e1137 := (cD (cA (cB (cB (cA (cA (cD (cM (cN 2) (cR (cD (cM (cA (cN 3) (cM (cN 2) (cH 0))) (cV 1)) (cM (cW (cA (cN 1) (cH 0)) 6) (cW (cA (cN 1) (cV 1)) 6))))) (cA (cN 3) (cM (cN 2) (cV 1)))) (cD (cM (cM (cR (cM (cM (cA (cA (cN 3) (cM (cN 5) (cH 0))) (cM (cN 2) (cW (cH 0) 4))) (cV 1)) (cA (cN 1) (cV 1)))) (cA (cN 2) (cV 1))) (cA (cN 1) (cM (cN 2) (cV 1)))) (cM (cM (cW (cA (cN 1) (cH 0)) 4) (cW (cA (cN 1) (cV 1)) 4)) (cA (cN 3) (cM (cN 2) (cV 1)))))) (cD (cM (cM (cN 2) (cA (cN 1) (cM (cN 2) (cH 0)))) (cA (cN 3) (cM (cN 2) (cH 0)))) (cM (cM (cA (cN 1) (cH 0)) (cA (cN 1) (cV 1))) (cR (cD (cM (cM (cA (cA (cN 3) (cM (cN 5) (cH 0))) (cM (cN 2) (cW (cH 0) 4))) (cA (cN 1) (cV 1))) (cW (cA (cN 3) (cM (cN 2) (cV 1))) 4)) (cV 1)))))) (cD (cM (cA (cN 3) (cM (cN 2) (cH 0))) (cV 1)) (cR (cD (cM (cM (cM (cM (cW (cA (cN 1) (cH 0)) 6) (cA (cN 3) (cM (cN 2) (cH 0)))) (cV 1)) (cW (cA (cN 1) (cV 1)) 6)) (cW (cA (cN 3) (cM (cN 2) (cV 1))) 4)) (cW (cA (cN 1) (cM (cN 2) (cH 0))) 4))))) (cD (cR (cD (cM (cA (cN 3) (cM (cN 2) (cH 0))) (cV 1)) (cM (cW (cA (cN 1) (cH 0)) 6) (cA (cN 1) (cV 1))))) (cA (cA (cN 3) (cM (cN 5) (cV 1))) (cM (cN 2) (cW (cV 1) 4))))) (cD (cM (cM (cA (cN 1) (cM (cN 2) (cH 0))) (cA (cN 1) (cM (cN 2) (cV 1)))) (cA (cD (cV 1) (cM (cW (cA (cN 1) (cH 0)) 3) (cR (cM (cM (cA (cN 3) (cM (cN 2) (cH 0))) (cV 1)) (cA (cN 1) (cV 1)))))) (cD (cM (cV 1) (cA (cA (cN 2) (cD (cN 2) (cA (cN 1) (cV 1)))) (cD (cN 1) (cA (cA (cA (cN 1) (cH 0)) (cV 1)) (cM (cH 0) (cV 1)))))) (cR (cM (cM (cA (cA (cN 3) (cM (cN 5) (cH 0))) (cM (cN 2) (cW (cH 0) 4))) (cV 1)) (cA (cN 1) (cV 1))))))) (cA (cN 3) (cM (cN 2) (cV 1))))) (cM (cN 2) (cR (cN 2)))).
Definition SPSU2T_e1138 := (cD (cB (cB (cA (cA (cB (cO (cD (cM (cM (cA (cN 3) (cM (cN 2) (cH 0))) (cA (cN 2) (cV 1))) (cR (cD (cM (cV 1) (cA (cN 1) (cM (cN 2) (cV 1)))) (cM (cA (cA (cN 3) (cM (cN 5) (cH 0))) (cM (cN 2) (cW (cH 0) 4))) (cA (cA (cN 3) (cM (cN 5) (cV 1))) (cM (cN 2) (cW (cV 1) 4))))))) (cM (cA (cN 1) (cH 0)) (cA (cN 1) (cV 1))))) (cD (cM (cM (cM (cA (cN 1) (cM (cN 2) (cH 0))) (cA (cN 3) (cM (cN 2) (cH 0)))) (cA (cN 2) (cV 1))) (cR (cD (cM (cV 1) (cA (cN 1) (cM (cN 2) (cV 1)))) (cM (cA (cA (cN 3) (cM (cN 5) (cH 0))) (cM (cN 2) (cW (cH 0) 4))) (cA (cA (cN 3) (cM (cN 5) (cV 1))) (cM (cN 2) (cW (cV 1) 4))))))) (cM (cA (cN 1) (cH 0)) (cA (cN 1) (cV 1))))) (cD (cR (cD (cM (cM (cA (cA (cN 3) (cM (cN 5) (cH 0))) (cM (cN 2) (cW (cH 0) 4))) (cV 1)) (cA (cN 1) (cV 1))) (cA (cA (cN 3) (cM (cN 8) (cV 1))) (cM (cN 4) (cW (cV 1) 4))))) (cM (cW (cA (cN 1) (cH 0)) 4) (cW (cA (cN 1) (cV 1)) 4)))) (cD (cM (cA (cN 3) (cM (cN 2) (cH 0))) (cV 1)) (cR (cD (cM (cM (cM (cM (cW (cA (cN 1) (cH 0)) 6) (cA (cN 3) (cM (cN 2) (cH 0)))) (cV 1)) (cW (cA (cN 1) (cV 1)) 6)) (cA (cA (cN 3) (cM (cN 8) (cV 1))) (cM (cN 4) (cW (cV 1) 4)))) (cW (cA (cN 1) (cM (cN 2) (cH 0))) 4))))) (cD (cM (cN 2) (cR (cD (cM (cA (cN 3) (cM (cN 2) (cH 0))) (cV 1)) (cM (cW (cA (cN 1) (cH 0)) 6) (cA (cA (cA (cN 3) (cM (cN 11) (cV 1))) (cM (cN 12) (cW (cV 1) 4))) (cM (cN 4) (cW (cV 1) 6))))))) (cA (cN 1) (cV 1)))) (cD (cM (cM (cN 2) (cA (cN 1) (cM (cN 2) (cH 0)))) (cA (cN 3) (cM (cN 2) (cH 0)))) (cM (cM (cA (cN 1) (cH 0)) (cA (cN 1) (cV 1))) (cR (cD (cM (cA (cA (cN 3) (cM (cN 5) (cH 0))) (cM (cN 2) (cW (cH 0) 4))) (cA (cA (cA (cN 3) (cM (cN 11) (cV 1))) (cM (cN 12) (cW (cV 1) 4))) (cM (cN 4) (cW (cV 1) 6)))) (cV 1)))))) (cM (cN 2) (cR (cN 2)))).
Definition SPSU2T_e1139 := (cD (cM (cQ (-1) 2) (cA (cA (cA (cM (cM (cN 2) (cA (cN 1) (cM (cN 2) (cV 1)))) (cR (cM (cA (cA (cN 3) (cM (cN 5) (cH 0))) (cM (cN 2) (cW (cH 0) 4))) (cA (cA (cN 2) (cM (cN 3) (cV 1))) (cW (cV 1) 4))))) (cM (cM (cM (cN 2) (cA (cN 1) (cM (cN 2) (cH 0)))) (cA (cN 1) (cM (cN 2) (cV 1)))) (cR (cM (cA (cA (cN 3) (cM (cN 5) (cH 0))) (cM (cN 2) (cW (cH 0) 4))) (cA (cA (cN 2) (cM (cN 3) (cV 1))) (cW (cV 1) 4)))))) (cM (cM (cA (cN 1) (cM (cN 2) (cH 0))) (cR (cM (cA (cA (cN 3) (cM (cN 5) (cH 0))) (cM (cN 2) (cW (cH 0) 4))) (cA (cA (cN 2) (cM (cN 3) (cV 1))) (cW (cV 1) 4))))) (cA (cA (cN 1) (cV 1)) (cM (cN 2) (cW (cV 1) 4))))) (cM (cM (cA (cN 1) (cV 1)) (cR (cD (cM (cA (cN 1) (cH 0)) (cA (cN 3) (cM (cN 2) (cH 0)))) (cA (cA (cN 2) (cM (cN 3) (cV 1))) (cW (cV 1) 4))))) (cA (cA (cA (cN 2) (cM (cN 3) (cV 1))) (cM (cN 5) (cW (cV 1) 4))) (cM (cN 2) (cW (cV 1) 6)))))) (cM (cM (cM (cR (cN 2)) (cW (cA (cN 1) (cH 0)) 4)) (cW (cA (cN 1) (cV 1)) 4)) (cA (cN 3) (cM (cN 2) (cV 1))))).
Definition SPSU2T_e1140 := (cO (cM (cR (cN 2)) (cR (cD (cA (cN (-1)) (cH 0)) (cA (cN (-1)) (cM (cN 2) (cH 0))))))).
Definition SPSU2T_e1141 := (cD (cM (cR (cQ 2 3)) (cA (cN 1) (cH 0))) (cR (cA (cA (cN (-1)) (cH 0)) (cM (cN 2) (cW (cH 0) 4))))).
Definition SPSU2T_e1142 := (cD (cB (cN 1) (cM (cN 2) (cH 0))) (cR (cA (cQ (-3) 2) (cM (cN 6) (cW (cH 0) 4))))).
Definition SPSU2T_e1143 := (cD (cM (cR (cQ 2 3)) (cB (cB (cA (cA (cO (cR (cM (cH 0) (cA (cN 1) (cV 1))))) (cR (cM (cW (cH 0) 6) (cA (cN 1) (cV 1))))) (cM (cN 6) (cR (cM (cW (cH 0) 10) (cA (cN 1) (cV 1)))))) (cM (cN 4) (cR (cM (cW (cH 0) 14) (cA (cN 1) (cV 1)))))) (cM (cN 8) (cR (cM (cW (cH 0) 18) (cA (cN 1) (cV 1))))))) (cM (cM (cA (cN 1) (cH 0)) (cW (cA (cN (-1)) (cM (cN 4) (cW (cH 0) 4))) 3)) (cR (cM (cH 0) (cA (cN 1) (cV 1)))))).
Definition SPSU2T_e1144 := (cD (cA (cN 3) (cM (cN 2) (cH 0))) (cR (cA (cA (cQ 9 2) (cM (cN 12) (cH 0))) (cM (cN 6) (cW (cH 0) 4))))).
Definition SPSU2T_e1145 := (cD (cM (cR (cQ 2 3)) (cA (cA (cM (cM (cM (cN 2) (cW (cH 0) 4)) (cR (cD (cA (cN 1) (cM (cN 2) (cH 0))) (cA (cN 3) (cM (cN 2) (cH 0)))))) (cV 1)) (cM (cM (cN 3) (cR (cD (cA (cN 1) (cM (cN 2) (cH 0))) (cA (cN 3) (cM (cN 2) (cH 0)))))) (cA (cN 1) (cV 1)))) (cM (cH 0) (cA (cA (cM (cN 2) (cR (cD (cA (cN 1) (cM (cN 2) (cH 0))) (cA (cN 3) (cM (cN 2) (cH 0)))))) (cR (cA (cA (cN 3) (cM (cN 8) (cH 0))) (cM (cN 4) (cW (cH 0) 4))))) (cM (cM (cN 5) (cR (cD (cA (cN 1) (cM (cN 2) (cH 0))) (cA (cN 3) (cM (cN 2) (cH 0)))))) (cV 1)))))) (cM (cM (cA (cN 1) (cH 0)) (cA (cN 1) (cM (cN 2) (cH 0)))) (cA (cN 1) (cV 1)))).
Definition SPSU2T_e1146 := (cO (cD (cA (cA (cM (cN 2) (cR (cM (cW (cH 0) 10) (cA (cN 1) (cM (cN 2) (cV 1)))))) (cM (cN 3) (cR (cA (cH 0) (cM (cM (cN 2) (cH 0)) (cV 1)))))) (cM (cM (cN 5) (cH 0)) (cR (cA (cH 0) (cM (cM (cN 2) (cH 0)) (cV 1)))))) (cM (cM (cA (cN 1) (cH 0)) (cW (cA (cN 3) (cM (cN 2) (cH 0))) 3)) (cR (cA (cQ 3 2) (cM (cN 3) (cV 1))))))).
Definition SPSU2T_e1147 := (cO (cM (cR (cN 2)) (cR (cD (cH 0) (cA (cN 9) (cM (cN 6) (cH 0))))))).
Definition SPSU2T_e1148 := (cM (cR (cQ 2 3)) (cB (cA (cA (cB (cA (cO (cD (cM (cM (cA (cN 2) (cH 0)) (cR (cD (cH 0) (cA (cN 3) (cM (cN 2) (cH 0)))))) (cA (cN 1) (cM (cN 2) (cV 1)))) (cM (cA (cN 1) (cH 0)) (cA (cN 3) (cM (cN 2) (cV 1)))))) (cD (cM (cH 0) (cA (cN 1) (cM (cN 2) (cV 1)))) (cM (cM (cA (cN 1) (cH 0)) (cR (cM (cH 0) (cA (cN 3) (cM (cN 2) (cH 0)))))) (cA (cN 3) (cM (cN 2) (cV 1)))))) (cD (cM (cA (cN 2) (cH 0)) (cR (cD (cH 0) (cA (cN 3) (cM (cN 2) (cH 0)))))) (cM (cA (cN 1) (cH 0)) (cA (cA (cN 3) (cM (cN 5) (cV 1))) (cM (cN 2) (cW (cV 1) 4)))))) (cD (cR (cM (cH 0) (cA (cN 3) (cM (cN 2) (cH 0))))) (cM (cA (cA (cN 3) (cM (cN 5) (cH 0))) (cM (cN 2) (cW (cH 0) 4))) (cA (cA (cN 3) (cM (cN 5) (cV 1))) (cM (cN 2) (cW (cV 1) 4)))))) (cD (cM (cH 0) (cA (cN 1) (cM (cN 2) (cV 1)))) (cM (cM (cA (cN 1) (cH 0)) (cR (cM (cH 0) (cA (cN 3) (cM (cN 2) (cH 0)))))) (cA (cA (cN 3) (cM (cN 5) (cV 1))) (cM (cN 2) (cW (cV 1) 4)))))) (cD (cM (cR (cD (cA (cN 1) (cM (cN 2) (cV 1))) (cM (cA (cA (cN 3) (cM (cN 5) (cH 0))) (cM (cN 2) (cW (cH 0) 4))) (cW (cA (cA (cN 3) (cM (cN 5) (cV 1))) (cM (cN 2) (cW (cV 1) 4))) 4)))) (cA (cA (cM (cA (cN 1) (cM (cN 2) (cH 0))) (cR (cM (cM (cH 0) (cA (cN 1) (cH 0))) (cA (cN 1) (cM (cN 2) (cV 1)))))) (cM (cN 5) (cR (cD (cA (cH 0) (cM (cM (cN 2) (cH 0)) (cV 1))) (cA (cN 1) (cH 0)))))) (cM (cM (cN 4) (cH 0)) (cR (cD (cA (cH 0) (cM (cM (cN 2) (cH 0)) (cV 1))) (cA (cN 1) (cH 0))))))) (cA (cN 3) (cM (cN 2) (cH 0)))))).
Definition SPSU2T_e1149 := (cA (cD (cA (cA (cM (cR (cN 2)) (cR (cD (cM (cW (cA (cN 1) (cM (cN 2) (cH 0))) 4) (cA (cN 1) (cM (cN 2) (cV 1)))) (cM (cM (cW (cA (cN 1) (cH 0)) 4) (cA (cN 2) (cH 0))) (cW (cA (cN 3) (cM (cN 2) (cH 0))) 6))))) (cM (cA (cN 1) (cM (cN 2) (cH 0))) (cR (cD (cA (cN 2) (cM (cN 4) (cV 1))) (cA (cA (cN 6) (cM (cN 7) (cH 0))) (cM (cN 2) (cW (cH 0) 4))))))) (cD (cM (cM (cN 2) (cA (cN 1) (cM (cN 2) (cH 0)))) (cR (cD (cA (cN 2) (cM (cN 4) (cV 1))) (cA (cA (cN 6) (cM (cN 7) (cH 0))) (cM (cN 2) (cW (cH 0) 4)))))) (cA (cN 3) (cM (cN 2) (cH 0))))) (cM (cN 2) (cR (cA (cN 1) (cM (cN 2) (cV 1)))))) (cD (cA (cA (cD (cN 3) (cR (cD (cM (cM (cW (cA (cN 1) (cH 0)) 4) (cA (cN 2) (cH 0))) (cW (cA (cN 3) (cM (cN 2) (cH 0))) 6)) (cA (cN 2) (cM (cN 4) (cV 1)))))) (cD (cM (cA (cN 1) (cM (cN 2) (cH 0))) (cR (cD (cA (cN 2) (cM (cN 4) (cV 1))) (cA (cN 2) (cH 0))))) (cW (cA (cN 3) (cM (cN 2) (cH 0))) 3))) (cD (cM (cM (cN 2) (cA (cN 1) (cM (cN 2) (cH 0)))) (cR (cD (cA (cN 2) (cM (cN 4) (cV 1))) (cA (cA (cN 6) (cM (cN 7) (cH 0))) (cM (cN 2) (cW (cH 0) 4)))))) (cA (cA (cN 3) (cM (cN 5) (cH 0))) (cM (cN 2) (cW (cH 0) 4))))) (cM (cN 2) (cR (cA (cN 1) (cM (cN 2) (cV 1))))))).
Definition SPSU2T_e1150 := (cA (cA (cA (cD (cM (cR (cA (cA (cN 3) (cD (cM (cN 7) (cH 0)) (cN 2))) (cW (cH 0) 4))) (cV 1)) (cM (cM (cA (cN 1) (cH 0)) (cA (cN 3) (cM (cN 2) (cH 0)))) (cA (cN 1) (cV 1)))) (cD (cM (cV 1) (cA (cA (cR (cD (cW (cA (cN 1) (cM (cN 2) (cH 0))) 4) (cM (cM (cM (cM (cW (cA (cN 1) (cH 0)) 4) (cA (cN 2) (cH 0))) (cW (cA (cN 3) (cM (cN 2) (cH 0))) 6)) (cV 1)) (cA (cN 1) (cV 1))))) (cD (cM (cM (cN 2) (cA (cN 1) (cM (cN 2) (cH 0)))) (cR (cD (cN 1) (cM (cM (cA (cA (cN 6) (cM (cN 7) (cH 0))) (cM (cN 2) (cW (cH 0) 4))) (cV 1)) (cA (cN 1) (cV 1)))))) (cA (cN 3) (cM (cN 2) (cH 0))))) (cD (cA (cN 1) (cM (cN 2) (cH 0))) (cR (cM (cM (cA (cA (cN 6) (cM (cN 7) (cH 0))) (cM (cN 2) (cW (cH 0) 4))) (cV 1)) (cA (cN 1) (cV 1))))))) (cR (cA (cN 2) (cD (cN 2) (cV 1)))))) (cD (cA (cA (cM (cR (cN 2)) (cR (cD (cM (cW (cA (cN 1) (cM (cN 2) (cH 0))) 4) (cA (cN 1) (cM (cN 2) (cV 1)))) (cM (cM (cW (cA (cN 1) (cH 0)) 4) (cA (cN 2) (cH 0))) (cW (cA (cN 3) (cM (cN 2) (cH 0))) 6))))) (cM (cA (cN 1) (cM (cN 2) (cH 0))) (cR (cD (cA (cN 2) (cM (cN 4) (cV 1))) (cA (cA (cN 6) (cM (cN 7) (cH 0))) (cM (cN 2) (cW (cH 0) 4))))))) (cD (cM (cM (cN 2) (cA (cN 1) (cM (cN 2) (cH 0)))) (cR (cD (cA (cN 2) (cM (cN 4) (cV 1))) (cA (cA (cN 6) (cM (cN 7) (cH 0))) (cM (cN 2) (cW (cH 0) 4)))))) (cA (cN 3) (cM (cN 2) (cH 0))))) (cM (cN 2) (cR (cM (cW (cA (cN 1) (cV 1)) 4) (cA (cN 1) (cM (cN 2) (cV 1)))))))) (cD (cA (cA (cD (cN 3) (cR (cD (cM (cM (cW (cA (cN 1) (cH 0)) 4) (cA (cN 2) (cH 0))) (cW (cA (cN 3) (cM (cN 2) (cH 0))) 6)) (cA (cN 2) (cM (cN 4) (cV 1)))))) (cD (cM (cA (cN 1) (cM (cN 2) (cH 0))) (cR (cD (cA (cN 2) (cM (cN 4) (cV 1))) (cA (cN 2) (cH 0))))) (cW (cA (cN 3) (cM (cN 2) (cH 0))) 3))) (cD (cM (cM (cN 2) (cA (cN 1) (cM (cN 2) (cH 0)))) (cR (cD (cA (cN 2) (cM (cN 4) (cV 1))) (cA (cA (cN 6) (cM (cN 7) (cH 0))) (cM (cN 2) (cW (cH 0) 4)))))) (cA (cA (cN 3) (cM (cN 5) (cH 0))) (cM (cN 2) (cW (cH 0) 4))))) (cM (cN 2) (cR (cM (cW (cA (cN 1) (cV 1)) 4) (cA (cN 1) (cM (cN 2) (cV 1)))))))).
Definition SPSU2T_e1151 := (cA (cA (cA (cA (cA (cD (cM (cA (cA (cN 2) (cM (cN 5) (cH 0))) (cM (cN 2) (cW (cH 0) 4))) (cA (cN 1) (cM (cN 2) (cV 1)))) (cM (cM (cM (cR (cN 2)) (cA (cN 1) (cH 0))) (cR (cA (cA (cN 6) (cM (cN 7) (cH 0))) (cM (cN 2) (cW (cH 0) 4))))) (cA (cA (cN 3) (cM (cN 5) (cV 1))) (cM (cN 2) (cW (cV 1) 4))))) (cD (cM (cR (cA (cN 1) (cM (cN 2) (cV 1)))) (cA (cA (cM (cR (cN 2)) (cR (cD (cM (cW (cA (cN 1) (cM (cN 2) (cH 0))) 4) (cA (cN 1) (cM (cN 2) (cV 1)))) (cM (cM (cW (cA (cN 1) (cH 0)) 4) (cA (cN 2) (cH 0))) (cW (cA (cN 3) (cM (cN 2) (cH 0))) 6))))) (cM (cA (cN 1) (cM (cN 2) (cH 0))) (cR (cD (cA (cN 2) (cM (cN 4) (cV 1))) (cA (cA (cN 6) (cM (cN 7) (cH 0))) (cM (cN 2) (cW (cH 0) 4))))))) (cD (cM (cM (cN 2) (cA (cN 1) (cM (cN 2) (cH 0)))) (cR (cD (cA (cN 2) (cM (cN 4) (cV 1))) (cA (cA (cN 6) (cM (cN 7) (cH 0))) (cM (cN 2) (cW (cH 0) 4)))))) (cA (cN 3) (cM (cN 2) (cH 0)))))) (cM (cN 2) (cA (cN 3) (cM (cN 2) (cV 1)))))) (cD (cA (cA (cM (cR (cN 2)) (cR (cD (cM (cW (cA (cN 1) (cM (cN 2) (cH 0))) 4) (cA (cN 1) (cM (cN 2) (cV 1)))) (cM (cM (cW (cA (cN 1) (cH 0)) 4) (cA (cN 2) (cH 0))) (cW (cA (cN 3) (cM (cN 2) (cH 0))) 6))))) (cM (cA (cN 1) (cM (cN 2) (cH 0))) (cR (cD (cA (cN 2) (cM (cN 4) (cV 1))) (cA (cA (cN 6) (cM (cN 7) (cH 0))) (cM (cN 2) (cW (cH 0) 4))))))) (cD (cM (cM (cN 2) (cA (cN 1) (cM (cN 2) (cH 0)))) (cR (cD (cA (cN 2) (cM (cN 4) (cV 1))) (cA (cA (cN 6) (cM (cN 7) (cH 0))) (cM (cN 2) (cW (cH 0) 4)))))) (cA (cN 3) (cM (cN 2) (cH 0))))) (cM (cN 2) (cR (cM (cA (cN 1) (cM (cN 2) (cV 1))) (cW (cA (cA (cN 3) (cM (cN 5) (cV 1))) (cM (cN 2) (cW (cV 1) 4))) 4)))))) (cD (cM (cR (cA (cN 1) (cM (cN 2) (cV 1)))) (cA (cA (cD (cN 3) (cR (cD (cM (cM (cW (cA (cN 1) (cH 0)) 4) (cA (cN 2) (cH 0))) (cW (cA (cN 3) (cM (cN 2) (cH 0))) 6)) (cA (cN 2) (cM (cN 4) (cV 1)))))) (cD (cM (cA (cN 1) (cM (cN 2) (cH 0))) (cR (cD (cA (cN 2) (cM (cN 4) (cV 1))) (cA (cN 2) (cH 0))))) (cW (cA (cN 3) (cM (cN 2) (cH 0))) 3))) (cD (cM (cM (cN 2) (cA (cN 1) (cM (cN 2) (cH 0)))) (cR (cD (cA (cN 2) (cM (cN 4) (cV 1))) (cA (cA (cN 6) (cM (cN 7) (cH 0))) (cM (cN 2) (cW (cH 0) 4)))))) (cA (cA (cN 3) (cM (cN 5) (cH 0))) (cM (cN 2) (cW (cH 0) 4)))))) (cM (cN 2) (cA (cN 3) (cM (cN 2) (cV 1)))))) (cD (cA (cA (cD (cN 3) (cR (cD (cM (cM (cW (cA (cN 1) (cH 0)) 4) (cA (cN 2) (cH 0))) (cW (cA (cN 3) (cM (cN 2) (cH 0))) 6)) (cA (cN 2) (cM (cN 4) (cV 1)))))) (cD (cM (cA (cN 1) (cM (cN 2) (cH 0))) (cR (cD (cA (cN 2) (cM (cN 4) (cV 1))) (cA (cN 2) (cH 0))))) (cW (cA (cN 3) (cM (cN 2) (cH 0))) 3))) (cD (cM (cM (cN 2) (cA (cN 1) (cM (cN 2) (cH 0)))) (cR (cD (cA (cN 2) (cM (cN 4) (cV 1))) (cA (cA (cN 6) (cM (cN 7) (cH 0))) (cM (cN 2) (cW (cH 0) 4)))))) (cA (cA (cN 3) (cM (cN 5) (cH 0))) (cM (cN 2) (cW (cH 0) 4))))) (cM (cN 2) (cR (cM (cA (cN 1) (cM (cN 2) (cV 1))) (cW (cA (cA (cN 3) (cM (cN 5) (cV 1))) (cM (cN 2) (cW (cV 1) 4))) 4)))))) (cD (cM (cR (cD (cA (cN 2) (cM (cN 4) (cV 1))) (cA (cA (cN 3) (cM (cN 5) (cH 0))) (cM (cN 2) (cW (cH 0) 4))))) (cA (cA (cR (cD (cM (cA (cN 1) (cH 0)) (cA (cN 1) (cM (cN 2) (cV 1)))) (cA (cN 2) (cH 0)))) (cM (cN 5) (cR (cD (cA (cN 1) (cM (cN 2) (cV 1))) (cA (cA (cN 2) (cM (cN 3) (cH 0))) (cW (cH 0) 4)))))) (cM (cM (cN 2) (cH 0)) (cA (cR (cD (cM (cA (cN 1) (cH 0)) (cA (cN 1) (cM (cN 2) (cV 1)))) (cA (cN 2) (cH 0)))) (cM (cN 2) (cR (cD (cA (cN 1) (cM (cN 2) (cV 1))) (cA (cA (cN 2) (cM (cN 3) (cH 0))) (cW (cH 0) 4))))))))) (cM (cM (cN 2) (cA (cN 3) (cM (cN 2) (cH 0)))) (cA (cA (cN 3) (cM (cN 5) (cV 1))) (cM (cN 2) (cW (cV 1) 4)))))).
Definition SPSU2T_e1152 := (cD (cM (cQ (-1) 2) (cN 1)) (cR (cN 3))).
Definition SPSU2T_e1153 := (cD (cM (cV 1) (cA (cN (-1)) (cM (cN 2) (cV 1)))) (cM (cM (cN 3) (cR (cN 2))) (cR (cM (cV 1) (cA (cA (cA (cN (-3)) (cV 1)) (cM (cN 8) (cW (cV 1) 4))) (cM (cN 4) (cW (cV 1) 6))))))).
Definition SPSU2T_e1154 := (cD (cB (cV 1) (cM (cN 2) (cW (cV 1) 4))) (cM (cM (cN 3) (cR (cN 2))) (cR (cM (cV 1) (cA (cA (cA (cN (-3)) (cV 1)) (cM (cN 8) (cW (cV 1) 4))) (cM (cN 4) (cW (cV 1) 6))))))).
Definition SPSU2T_e1155 := (cD (cM (cQ (-1) 6) (cB (cA (cN 18) (cV 1)) (cM (cN 2) (cW (cV 1) 4)))) (cA (cA (cN 3) (cM (cN 5) (cV 1))) (cM (cN 2) (cW (cV 1) 4)))).
Definition SPSU2T_e1156 := (cD (cA (cN (-3)) (cM (cN 2) (cV 1))) (cA (cA (cN 6) (cM (cN 10) (cV 1))) (cM (cN 4) (cW (cV 1) 4)))).
Definition SPSU2T_e1157 := (cO (cD (cA (cA (cN 1) (cV 1)) (cM (cN 2) (cW (cV 1) 4))) (cA (cA (cN 6) (cM (cN 10) (cV 1))) (cM (cN 4) (cW (cV 1) 4))))).
Definition SPSU2T_e1158 := (cD (cN 1) (cM (cN 2) (cR (cN 2)))).
Definition SPSU2T_e1159 := (cD (cA (cN (-1)) (cV 1)) (cM (cM (cN 2) (cR (cN 2))) (cR (cA (cN (-1)) (cW (cV 1) 4))))).
Definition SPSU2T_e1160 := (cD (cN 1) (cM (cR (cN 2)) (cA (cN 2) (cM (cN 2) (cV 1))))).
Definition SPSU2T_e1161 := (cD (cM (cR (cQ 3 2)) (cA (cN (-1)) (cM (cN 2) (cV 1)))) (cM (cM (cN 2) (cA (cN 1) (cV 1))) (cR (cA (cA (cN (-3)) (cM (cN 4) (cV 1))) (cM (cN 4) (cW (cV 1) 4)))))).
Definition SPSU2T_e1162 := (cD (cA (cA (cN 2) (cM (cN 3) (cV 1))) (cM (cN 2) (cW (cV 1) 4))) (cM (cM (cN 2) (cR (cN 2))) (cA (cA (cN 3) (cM (cN 5) (cV 1))) (cM (cN 2) (cW (cV 1) 4))))).
Definition SPSU2T_e1163 := (cD (cM (cB (cN 1) (cM (cN 2) (cV 1))) (cR (cM (cV 1) (cA (cN 2) (cV 1))))) (cM (cM (cN 2) (cR (cN 2))) (cA (cA (cN 3) (cM (cN 5) (cV 1))) (cM (cN 2) (cW (cV 1) 4))))).
Definition SPSU2T_e1164 := (cD (cM (cQ (-1) 2) (cN 1)) (cR (cN 2))).
Definition SPSU2T_e1165 := (cD (cM (cQ (-1) 2) (cN 1)) (cM (cR (cN 2)) (cA (cN 1) (cV 1)))).
Definition SPSU2T_e1166 := (cD (cM (cQ (-1) 2) (cA (cA (cN 2) (cM (cN 3) (cV 1))) (cM (cN 2) (cW (cV 1) 4)))) (cM (cR (cN 2)) (cA (cA (cN 3) (cM (cN 5) (cV 1))) (cM (cN 2) (cW (cV 1) 4))))).
Definition SPSU2T_e1167 := (cD (cV 1) (cA (cN 2) (cM (cN 2) (cV 1)))).
Definition SPSU2T_e1168 := (cD (cA (cN 1) (cM (cN 2) (cV 1))) (cA (cA (cN 6) (cM (cN 10) (cV 1))) (cM (cN 4) (cW (cV 1) 4)))).
Definition SPSU2T_e1169 := (cD (cV 1) (cM (cR (cN 3)) (cA (cN 1) (cV 1)))).
Definition SPSU2T_e1170 := (cD (cA (cN 1) (cM (cN 2) (cV 1))) (cM (cR (cN 3)) (cA (cA (cN 3) (cM (cN 5) (cV 1))) (cM (cN 2) (cW (cV 1) 4))))).
Definition SPSU2T_e1171 := (cO (cD (cM (cR (cQ 2 3)) (cV 1)) (cA (cN 1) (cV 1)))).
Definition SPSU2T_e1172 := (cO (cD (cM (cR (cQ 2 3)) (cA (cN 1) (cM (cN 2) (cV 1)))) (cA (cA (cN 3) (cM (cN 5) (cV 1))) (cM (cN 2) (cW (cV 1) 4))))).
Definition SPSU2T_e1173 := (cO (cD (cV 1) (cA (cN 1) (cV 1)))).
Definition SPSU2T_e1174 := (cO (cD (cA (cN 1) (cM (cN 2) (cV 1))) (cA (cA (cN 3) (cM (cN 5) (cV 1))) (cM (cN 2) (cW (cV 1) 4))))).
Definition SPSU2T_e1175 := (cO (cD (cA (cN (-1)) (cV 1)) (cM (cR (cN 2)) (cR (cM (cV 1) (cA (cN 1) (cV 1))))))).
Definition SPSU2T_e1176 := (cO (cD (cA (cN (-1)) (cV 1)) (cM (cR (cN 2)) (cR (cD (cM (cM (cM (cA (cN (-1)) (cV 1)) (cV 1)) (cW (cA (cN 1) (cV 1)) 4)) (cA (cN 1) (cM (cN 2) (cV 1)))) (cA (cN (-1)) (cM (cN 2) (cV 1)))))))).
Definition SPSU2T_e1177 := (cO (cD (cM (cA (cN (-1)) (cV 1)) (cR (cD (cB (cN 1) (cM (cN 2) (cV 1))) (cB (cA (cV 1) (cW (cV 1) 4)) (cM (cN 2) (cW (cV 1) 6)))))) (cM (cR (cN 2)) (cA (cN 1) (cV 1))))).
Definition SPSU2T_e1178 := (cD (cM (cR (cQ 3 2)) (cA (cN (-1)) (cM (cN 2) (cV 1)))) (cR (cM (cV 1) (cA (cA (cA (cN (-3)) (cV 1)) (cM (cN 8) (cW (cV 1) 4))) (cM (cN 4) (cW (cV 1) 6)))))).
Definition SPSU2T_e1179 := (cO (cD (cA (cA (cB (cN 3) (cM (cN 9) (cV 1))) (cM (cN 4) (cW (cV 1) 4))) (cM (cN 4) (cW (cV 1) 6))) (cM (cM (cR (cN 6)) (cA (cN 1) (cV 1))) (cR (cM (cV 1) (cA (cA (cA (cN (-3)) (cV 1)) (cM (cN 8) (cW (cV 1) 4))) (cM (cN 4) (cW (cV 1) 6)))))))).
Definition SPSU2T_e1180 := (cD (cM (cM (cM (cM (cN (-2)) (cR (cQ 2 3))) (cV 1)) (cA (cN 2) (cV 1))) (cA (cN (-1)) (cM (cN 2) (cV 1)))) (cM (cA (cA (cN 3) (cM (cN 5) (cV 1))) (cM (cN 2) (cW (cV 1) 4))) (cR (cM (cV 1) (cA (cA (cA (cN (-3)) (cV 1)) (cM (cN 8) (cW (cV 1) 4))) (cM (cN 4) (cW (cV 1) 6))))))).
Definition SPSU2T_e1181 := (cD (cM (cM (cR (cN 2)) (cV 1)) (cA (cR (cD (cA (cH 0) (cM (cM (cN 2) (cH 0)) (cV 1))) (cA (cA (cN 6) (cM (cN 7) (cV 1))) (cM (cN 2) (cW (cV 1) 4))))) (cM (cN 3) (cR (cD (cH 0) (cA (cA (cA (cN 6) (cM (cN 19) (cV 1))) (cM (cN 16) (cW (cV 1) 4))) (cM (cN 4) (cW (cV 1) 6)))))))) (cM (cR (cH 0)) (cW (cA (cN 1) (cV 1)) 3))).
Definition SPSU2T_e1182 := (cO (cD (cM (cV 1) (cA (cA (cD (cM (cA (cN 1) (cV 1)) (cA (cN 1) (cM (cN 2) (cV 1)))) (cM (cA (cN 2) (cV 1)) (cR (cD (cM (cV 1) (cA (cN 3) (cM (cN 2) (cV 1)))) (cH 0))))) (cD (cA (cN 2) (cM (cN 4) (cV 1))) (cR (cD (cM (cA (cN 3) (cM (cN 2) (cV 1))) (cW (cA (cA (cN 2) (cM (cN 3) (cV 1))) (cW (cV 1) 4)) 4)) (cM (cH 0) (cV 1)))))) (cD (cM (cN 3) (cA (cN (-1)) (cV 1))) (cR (cD (cM (cM (cV 1) (cA (cN 3) (cM (cN 2) (cV 1)))) (cW (cA (cA (cN 2) (cM (cN 3) (cV 1))) (cW (cV 1) 4)) 4)) (cH 0)))))) (cM (cR (cN 2)) (cR (cM (cH 0) (cA (cA (cN 3) (cM (cN 5) (cV 1))) (cM (cN 2) (cW (cV 1) 4)))))))).
Definition SPSU2T_e1183 := (cD (cM (cM (cM (cN 2) (cR (cN 2))) (cV 1)) (cA (cN 2) (cV 1))) (cM (cW (cA (cN 1) (cV 1)) 3) (cR (cA (cA (cA (cN 6) (cM (cN 19) (cV 1))) (cM (cN 16) (cW (cV 1) 4))) (cM (cN 4) (cW (cV 1) 6)))))).
Definition SPSU2T_e1184 := (cO (cD (cA (cA (cA (cM (cN (-2)) (cR (cM (cV 1) (cA (cA (cN 3) (cM (cN 5) (cV 1))) (cM (cN 2) (cW (cV 1) 4)))))) (cM (cM (cN 9) (cV 1)) (cR (cM (cV 1) (cA (cA (cN 3) (cM (cN 5) (cV 1))) (cM (cN 2) (cW (cV 1) 4))))))) (cM (cN 9) (cR (cM (cW (cV 1) 10) (cA (cA (cN 3) (cM (cN 5) (cV 1))) (cM (cN 2) (cW (cV 1) 4))))))) (cM (cN 2) (cR (cM (cW (cV 1) 14) (cA (cA (cN 3) (cM (cN 5) (cV 1))) (cM (cN 2) (cW (cV 1) 4))))))) (cM (cM (cM (cR (cN 2)) (cW (cA (cN 1) (cV 1)) 4)) (cA (cN 2) (cV 1))) (cW (cA (cN 3) (cM (cN 2) (cV 1))) 3)))).
Definition SPSU2T_e1185 := (cD (cM (cA (cN 1) (cM (cN 2) (cV 1))) (cA (cA (cM (cN 7) (cR (cD (cM (cH 0) (cA (cN 1) (cV 1))) (cA (cN 5) (cM (cN 2) (cV 1)))))) (cM (cM (cN 2) (cV 1)) (cR (cD (cM (cH 0) (cA (cN 1) (cV 1))) (cA (cN 5) (cM (cN 2) (cV 1))))))) (cM (cN 3) (cR (cD (cH 0) (cA (cA (cN 5) (cM (cN 7) (cV 1))) (cM (cN 2) (cW (cV 1) 4)))))))) (cM (cM (cA (cN 2) (cV 1)) (cA (cN 3) (cM (cN 2) (cV 1)))) (cR (cM (cH 0) (cA (cA (cN 3) (cM (cN 5) (cV 1))) (cM (cN 2) (cW (cV 1) 4))))))).
Definition SPSU2T_e1186 := (cD (cM (cA (cN 1) (cM (cN 2) (cV 1))) (cR (cA (cN 5) (cM (cN 2) (cV 1))))) (cM (cA (cN 1) (cV 1)) (cW (cA (cN 3) (cM (cN 2) (cV 1))) 3))).
Definition SPSU2T_e1187 := (cO (cR (cD (cA (cN (-2)) (cV 1)) (cA (cN (-1)) (cV 1))))).
Definition SPSU2T_e1188 := (cO (cR (cD (cA (cN (-6)) (cM (cN 4) (cV 1))) (cA (cB (cB (cN 1) (cM (cN 2) (cV 1))) (cW (cV 1) 4)) (cM (cN 2) (cW (cV 1) 6)))))).
Definition SPSU2T_e1189 := (cD (cA (cN (-1)) (cV 1)) (cM (cN 2) (cR (cM (cV 1) (cA (cN 1) (cV 1)))))).
Definition SPSU2T_e1190 := (cD (cA (cN (-1)) (cV 1)) (cM (cN 2) (cR (cD (cM (cM (cM (cA (cN (-1)) (cV 1)) (cV 1)) (cW (cA (cN 1) (cV 1)) 4)) (cA (cN 1) (cM (cN 2) (cV 1)))) (cA (cN (-1)) (cM (cN 2) (cV 1))))))).
Definition SPSU2T_e1191 := (cD (cM (cA (cN (-1)) (cV 1)) (cR (cD (cB (cN 1) (cM (cN 2) (cV 1))) (cB (cA (cV 1) (cW (cV 1) 4)) (cM (cN 2) (cW (cV 1) 6)))))) (cM (cN 2) (cA (cN 1) (cV 1)))).
Definition SPSU2T_e1192 := (cD (cR (cN 2)) (cR (cA (cN (-1)) (cW (cV 1) 4)))).
Definition SPSU2T_e1193 := (cD (cO (cA (cA (cN (-7)) (cM (cN 2) (cV 1))) (cW (cV 1) 4))) (cM (cM (cN 2) (cR (cM (cA (cN (-1)) (cV 1)) (cV 1)))) (cA (cN 1) (cV 1)))).
Definition SPSU2T_e1194 := (cD (cO (cM (cR (cN 3)) (cA (cA (cN (-7)) (cM (cN 5) (cV 1))) (cM (cN 2) (cW (cV 1) 4))))) (cM (cM (cN 2) (cA (cN 1) (cV 1))) (cR (cM (cV 1) (cA (cA (cB (cN (-3)) (cM (cN 5) (cV 1))) (cM (cN 4) (cW (cV 1) 4))) (cM (cN 4) (cW (cV 1) 6))))))).
Definition SPSU2T_e1195 := (cD (cB (cB (cN 7) (cM (cN 2) (cV 1))) (cW (cV 1) 4)) (cM (cM (cN 2) (cR (cM (cA (cN (-1)) (cV 1)) (cV 1)))) (cA (cN 1) (cV 1)))).
Definition SPSU2T_e1196 := (cD (cM (cR (cN 3)) (cB (cN 1) (cM (cN 2) (cV 1)))) (cM (cN 2) (cR (cM (cV 1) (cA (cA (cA (cN (-3)) (cV 1)) (cM (cN 8) (cW (cV 1) 4))) (cM (cN 4) (cW (cV 1) 6))))))).
Definition SPSU2T_e1197 := (cD (cA (cA (cB (cN 3) (cM (cN 9) (cV 1))) (cM (cN 4) (cW (cV 1) 4))) (cM (cN 4) (cW (cV 1) 6))) (cM (cM (cM (cN 2) (cV 1)) (cA (cN 1) (cV 1))) (cR (cA (cA (cB (cN 3) (cD (cN 9) (cV 1))) (cM (cN 24) (cV 1))) (cM (cN 12) (cW (cV 1) 4)))))).
Definition SPSU2T_e1198 := (cD (cM (cM (cM (cN 2) (cV 1)) (cA (cN 2) (cV 1))) (cA (cN (-1)) (cM (cN 2) (cV 1)))) (cM (cM (cR (cN 3)) (cA (cA (cN 3) (cM (cN 5) (cV 1))) (cM (cN 2) (cW (cV 1) 4)))) (cR (cM (cV 1) (cA (cA (cA (cN (-3)) (cV 1)) (cM (cN 8) (cW (cV 1) 4))) (cM (cN 4) (cW (cV 1) 6))))))).
Definition SPSU2T_e1199 := (cD (cM (cR (cN 3)) (cA (cA (cN (-7)) (cM (cN 5) (cV 1))) (cM (cN 2) (cW (cV 1) 4)))) (cM (cM (cN 2) (cA (cN 1) (cV 1))) (cR (cM (cV 1) (cA (cB (cN 3) (cM (cN 7) (cV 1))) (cM (cN 4) (cW (cV 1) 6))))))).
Definition SPSU2T_e1200 := (cD (cM (cM (cN (-3)) (cV 1)) (cA (cA (cN (-7)) (cV 1)) (cM (cN 2) (cW (cV 1) 4)))) (cM (cM (cN 2) (cW (cM (cV 1) (cA (cN 1) (cV 1))) 3)) (cA (cN 3) (cM (cN 2) (cV 1))))).
Definition SPSU2T_e1201 := (cD (cM (cM (cN (-3)) (cR (cN 3))) (cA (cA (cN (-2)) (cM (cN 3) (cV 1))) (cM (cN 2) (cW (cV 1) 4)))) (cM (cA (cA (cN 3) (cM (cN 5) (cV 1))) (cM (cN 2) (cW (cV 1) 4))) (cR (cA (cA (cA (cB (cN (-6)) (cV 1)) (cM (cN 17) (cW (cV 1) 4))) (cM (cN 16) (cW (cV 1) 6))) (cM (cN 4) (cW (cV 1) 8)))))).
Definition SPSU2T_e1202 := (cO (cM (cV 1) (cA (cR (cD (cA (cN 1) (cM (cN 2) (cV 1))) (cM (cW (cA (cN 1) (cV 1)) 6) (cA (cA (cN 6) (cM (cN 7) (cV 1))) (cM (cN 2) (cW (cV 1) 4)))))) (cD (cN 3) (cM (cW (cA (cN 1) (cV 1)) 3) (cR (cA (cA (cA (cN 6) (cM (cN 19) (cV 1))) (cM (cN 16) (cW (cV 1) 4))) (cM (cN 4) (cW (cV 1) 6))))))))).
Definition SPSU2T_e1203 := (cD (cM (cV 1) (cA (cA (cD (cM (cA (cN 1) (cV 1)) (cA (cN 1) (cM (cN 2) (cV 1)))) (cM (cA (cN 2) (cV 1)) (cR (cD (cM (cV 1) (cA (cN 3) (cM (cN 2) (cV 1)))) (cH 0))))) (cD (cA (cN 2) (cM (cN 4) (cV 1))) (cR (cD (cM (cA (cN 3) (cM (cN 2) (cV 1))) (cW (cA (cA (cN 2) (cM (cN 3) (cV 1))) (cW (cV 1) 4)) 4)) (cM (cH 0) (cV 1)))))) (cD (cM (cN 3) (cA (cN (-1)) (cV 1))) (cR (cD (cM (cM (cV 1) (cA (cN 3) (cM (cN 2) (cV 1)))) (cW (cA (cA (cN 2) (cM (cN 3) (cV 1))) (cW (cV 1) 4)) 4)) (cH 0)))))) (cM (cN 2) (cR (cM (cH 0) (cA (cA (cN 3) (cM (cN 5) (cV 1))) (cM (cN 2) (cW (cV 1) 4))))))).
Definition SPSU2T_e1204 := (cD (cM (cM (cN (-2)) (cV 1)) (cA (cN 2) (cV 1))) (cM (cW (cA (cN 1) (cV 1)) 3) (cR (cA (cA (cA (cN 6) (cM (cN 19) (cV 1))) (cM (cN 16) (cW (cV 1) 4))) (cM (cN 4) (cW (cV 1) 6)))))).
Definition SPSU2T_e1205 := (cD (cA (cA (cA (cM (cN (-2)) (cR (cM (cV 1) (cA (cA (cN 3) (cM (cN 5) (cV 1))) (cM (cN 2) (cW (cV 1) 4)))))) (cM (cM (cN 9) (cV 1)) (cR (cM (cV 1) (cA (cA (cN 3) (cM (cN 5) (cV 1))) (cM (cN 2) (cW (cV 1) 4))))))) (cM (cN 9) (cR (cM (cW (cV 1) 10) (cA (cA (cN 3) (cM (cN 5) (cV 1))) (cM (cN 2) (cW (cV 1) 4))))))) (cM (cN 2) (cR (cM (cW (cV 1) 14) (cA (cA (cN 3) (cM (cN 5) (cV 1))) (cM (cN 2) (cW (cV 1) 4))))))) (cM (cM (cM (cN 2) (cW (cA (cN 1) (cV 1)) 4)) (cA (cN 2) (cV 1))) (cW (cA (cN 3) (cM (cN 2) (cV 1))) 3))).
Definition SPSU2T_e1206 := (cD (cM (cM (cM (cN 3) (cR (cN 3))) (cA (cN 2) (cV 1))) (cA (cN (-1)) (cM (cN 2) (cV 1)))) (cM (cM (cA (cN 1) (cV 1)) (cA (cN 3) (cM (cN 2) (cV 1)))) (cR (cA (cA (cA (cB (cN (-2)) (cM (cN 3) (cV 1))) (cM (cN 7) (cW (cV 1) 4))) (cM (cN 12) (cW (cV 1) 6))) (cM (cN 4) (cW (cV 1) 8)))))).
Definition SPSU2T_e1207 := (cD (cA (cA (cB (cN 12) (cM (cN 7) (cV 1))) (cW (cV 1) 4)) (cM (cN 2) (cW (cV 1) 6))) (cM (cM (cM (cN 2) (cW (cA (cN 1) (cV 1)) 3)) (cR (cA (cN 2) (cV 1)))) (cA (cN 3) (cM (cN 2) (cV 1))))).
Definition SPSU2T_e1208 := (cD (cM (cV 1) (cA (cN (-3)) (cM (cN 2) (cV 1)))) (cM (cM (cR (cN 2)) (cR (cM (cV 1) (cA (cN 2) (cV 1))))) (cA (cA (cN 3) (cM (cN 5) (cV 1))) (cM (cN 2) (cW (cV 1) 4))))).
Definition SPSU2T_e1209 := (cO (cD (cM (cA (cN 1) (cM (cN 2) (cV 1))) (cA (cA (cM (cN 7) (cR (cD (cM (cH 0) (cA (cN 1) (cV 1))) (cA (cN 5) (cM (cN 2) (cV 1)))))) (cM (cM (cN 2) (cV 1)) (cR (cD (cM (cH 0) (cA (cN 1) (cV 1))) (cA (cN 5) (cM (cN 2) (cV 1))))))) (cM (cN 3) (cR (cD (cH 0) (cA (cA (cN 5) (cM (cN 7) (cV 1))) (cM (cN 2) (cW (cV 1) 4)))))))) (cM (cM (cM (cR (cN 2)) (cA (cN 2) (cV 1))) (cA (cN 3) (cM (cN 2) (cV 1)))) (cR (cM (cH 0) (cA (cA (cN 3) (cM (cN 5) (cV 1))) (cM (cN 2) (cW (cV 1) 4)))))))).
Definition SPSU2T_e1210 := (cO (cD (cM (cA (cN 1) (cM (cN 2) (cV 1))) (cR (cA (cN 5) (cM (cN 2) (cV 1))))) (cM (cM (cR (cN 2)) (cA (cN 1) (cV 1))) (cW (cA (cN 3) (cM (cN 2) (cV 1))) 3)))).
Definition SPSU2T_e1211 := (cO (cD (cM (cV 1) (cA (cA (cN (-15)) (cM (cN 4) (cV 1))) (cM (cN 4) (cW (cV 1) 4)))) (cM (cM (cR (cN 2)) (cA (cN 3) (cM (cN 2) (cV 1)))) (cR (cM (cM (cV 1) (cW (cA (cN 1) (cV 1)) 4)) (cA (cA (cA (cN 30) (cM (cN 47) (cV 1))) (cM (cN 24) (cW (cV 1) 4))) (cM (cN 4) (cW (cV 1) 6)))))))).
Definition SPSU2T_e1212 := (cD (cA (cB (cA (cD (cM (cA (cN 2) (cV 1)) (cA (cN 1) (cM (cN 2) (cV 1)))) (cR (cD (cM (cA (cN 3) (cV 1)) (cA (cN 5) (cM (cN 2) (cV 1)))) (cA (cA (cN 3) (cM (cN 5) (cV 1))) (cM (cN 2) (cW (cV 1) 4)))))) (cD (cM (cA (cN 1) (cV 1)) (cA (cN 1) (cM (cN 2) (cV 1)))) (cR (cD (cM (cM (cW (cA (cN 2) (cV 1)) 4) (cA (cN 3) (cV 1))) (cA (cN 5) (cM (cN 2) (cV 1)))) (cA (cA (cN 3) (cM (cN 5) (cV 1))) (cM (cN 2) (cW (cV 1) 4))))))) (cD (cM (cN 6) (cA (cN (-2)) (cV 1))) (cM (cA (cN 2) (cV 1)) (cR (cA (cA (cA (cA (cN 45) (cM (cN 108) (cV 1))) (cM (cN 91) (cW (cV 1) 4))) (cM (cN 32) (cW (cV 1) 6))) (cM (cN 4) (cW (cV 1) 8))))))) (cD (cB (cA (cN 3) (cM (cN 3) (cV 1))) (cM (cN 6) (cW (cV 1) 4))) (cM (cA (cN 2) (cV 1)) (cR (cA (cA (cA (cA (cN 45) (cM (cN 108) (cV 1))) (cM (cN 91) (cW (cV 1) 4))) (cM (cN 32) (cW (cV 1) 6))) (cM (cN 4) (cW (cV 1) 8))))))) (cR (cA (cA (cA (cA (cN 30) (cM (cN 77) (cV 1))) (cM (cN 71) (cW (cV 1) 4))) (cM (cN 28) (cW (cV 1) 6))) (cM (cN 4) (cW (cV 1) 8))))).
Definition SPSU2T_e1213 := (cD (cA (cA (cB (cB (cM (cN (-3)) (cR (cD (cM (cV 1) (cA (cN 1) (cV 1))) (cA (cN 5) (cM (cN 2) (cV 1)))))) (cM (cM (cN 8) (cV 1)) (cR (cD (cM (cV 1) (cA (cN 1) (cV 1))) (cA (cN 5) (cM (cN 2) (cV 1))))))) (cM (cN 4) (cR (cD (cM (cW (cV 1) 10) (cA (cN 1) (cV 1))) (cA (cN 5) (cM (cN 2) (cV 1))))))) (cM (cN 33) (cR (cD (cV 1) (cA (cA (cN 5) (cM (cN 7) (cV 1))) (cM (cN 2) (cW (cV 1) 4))))))) (cM (cM (cN 18) (cV 1)) (cR (cD (cV 1) (cA (cA (cN 5) (cM (cN 7) (cV 1))) (cM (cN 2) (cW (cV 1) 4))))))) (cM (cM (cM (cR (cN 2)) (cA (cN 2) (cV 1))) (cA (cN 3) (cM (cN 2) (cV 1)))) (cR (cA (cA (cA (cN 6) (cM (cN 13) (cV 1))) (cM (cN 9) (cW (cV 1) 4))) (cM (cN 2) (cW (cV 1) 6)))))).
Definition SPSU2T_e1214 := (cD (cA (cA (cA (cN 3) (cM (cN 4) (cV 1))) (cM (cN 7) (cW (cV 1) 4))) (cM (cN 2) (cW (cV 1) 6))) (cM (cR (cA (cA (cN 6) (cM (cN 5) (cV 1))) (cW (cV 1) 4))) (cA (cA (cN 3) (cM (cN 5) (cV 1))) (cM (cN 2) (cW (cV 1) 4))))).
Definition SPSU2T_e1215 := (cD (cB (cN 1) (cM (cN 2) (cV 1))) (cM (cV 1) (cR (cA (cA (cB (cN (-2)) (cD (cN 2) (cV 1))) (cM (cN 8) (cV 1))) (cM (cN 8) (cW (cV 1) 4)))))).
Definition SPSU2T_e1216 := (cO (cD (cA (cN 1) (cH 0)) (cM (cR (cN 2)) (cR (cD (cM (cA (cA (cN 1) (cM (cN 3) (cH 0))) (cM (cN 2) (cW (cH 0) 4))) (cV 1)) (cA (cN (-1)) (cV 1))))))).
Definition SPSU2T_e1217 := (cD (cM (cB (cN 1) (cM (cN 2) (cV 1))) (cA (cD (cN 1) (cR (cM (cM (cA (cA (cN 1) (cM (cN 3) (cH 0))) (cM (cN 2) (cW (cH 0) 4))) (cV 1)) (cA (cA (cB (cN (-1)) (cV 1)) (cM (cN 4) (cW (cV 1) 4))) (cM (cN 4) (cW (cV 1) 6)))))) (cD (cW (cH 0) 3) (cR (cM (cM (cM (cH 0) (cA (cA (cN 1) (cM (cN 3) (cH 0))) (cM (cN 2) (cW (cH 0) 4)))) (cV 1)) (cA (cA (cB (cN (-1)) (cV 1)) (cM (cN 4) (cW (cV 1) 4))) (cM (cN 4) (cW (cV 1) 6)))))))) (cR (cN 2))).
Definition SPSU2T_e1218 := (cD (cN 1) (cM (cR (cN 2)) (cR (cM (cV 1) (cA (cN 1) (cV 1)))))).
Definition SPSU2T_e1219 := (cO (cD (cA (cN (-1)) (cV 1)) (cM (cR (cN 2)) (cR (cM (cV 1) (cW (cA (cN 1) (cV 1)) 6)))))).
Definition SPSU2T_e1220 := (cO (cD (cM (cR (cN 2)) (cR (cD (cV 1) (cW (cA (cN 1) (cV 1)) 6)))) (cA (cN 3) (cM (cN 2) (cV 1))))).
Definition SPSU2T_e1221 := (cD (cA (cD (cN 1) (cR (cM (cM (cA (cA (cN 1) (cM (cN 3) (cH 0))) (cM (cN 2) (cW (cH 0) 4))) (cV 1)) (cA (cN 1) (cV 1))))) (cD (cW (cH 0) 3) (cR (cM (cM (cM (cH 0) (cA (cA (cN 1) (cM (cN 3) (cH 0))) (cM (cN 2) (cW (cH 0) 4)))) (cV 1)) (cA (cN 1) (cV 1)))))) (cR (cN 2))).
Definition SPSU2T_e1222 := (cD (cM (cA (cN (-1)) (cV 1)) (cB (cO (cD (cN 1) (cR (cM (cM (cA (cA (cN 1) (cM (cN 3) (cH 0))) (cM (cN 2) (cW (cH 0) 4))) (cV 1)) (cW (cA (cN 1) (cV 1)) 6))))) (cD (cW (cH 0) 3) (cR (cM (cM (cM (cH 0) (cA (cA (cN 1) (cM (cN 3) (cH 0))) (cM (cN 2) (cW (cH 0) 4)))) (cV 1)) (cW (cA (cN 1) (cV 1)) 6)))))) (cR (cN 2))).
Definition SPSU2T_e1223 := (cO (cD (cM (cM (cR (cN 2)) (cA (cN 1) (cH 0))) (cV 1)) (cM (cM (cA (cN 1) (cV 1)) (cR (cM (cM (cA (cA (cN 1) (cM (cN 3) (cH 0))) (cM (cN 2) (cW (cH 0) 4))) (cV 1)) (cA (cN 1) (cV 1))))) (cA (cN 3) (cM (cN 2) (cV 1)))))).
Definition SPSU2T_e1224 := (cD (cM (cR (cN 2)) (cV 1)) (cM (cA (cN 1) (cV 1)) (cR (cM (cM (cV 1) (cA (cN 3) (cM (cN 2) (cV 1)))) (cA (cA (cN 1) (cM (cN 3) (cV 1))) (cM (cN 2) (cW (cV 1) 4))))))).
Definition SPSU2T_e1225 := (cD (cA (cA (cA (cN 2) (cM (cN 3) (cV 1))) (cM (cN 5) (cW (cV 1) 4))) (cM (cN 2) (cW (cV 1) 6))) (cM (cM (cR (cN 2)) (cR (cA (cA (cN 2) (cM (cN 3) (cV 1))) (cW (cV 1) 4)))) (cA (cA (cN 3) (cM (cN 5) (cV 1))) (cM (cN 2) (cW (cV 1) 4))))).
Definition SPSU2T_e1226 := (cD (cM (cM (cR (cN 2)) (cA (cN 1) (cH 0))) (cV 1)) (cM (cA (cN 1) (cV 1)) (cR (cM (cM (cA (cA (cN 1) (cM (cN 3) (cH 0))) (cM (cN 2) (cW (cH 0) 4))) (cV 1)) (cA (cA (cA (cN 3) (cM (cN 11) (cV 1))) (cM (cN 12) (cW (cV 1) 4))) (cM (cN 4) (cW (cV 1) 6))))))).
Definition SPSU2T_e1227 := (cB (cD (cA (cA (cA (cN 2) (cM (cN 3) (cV 1))) (cM (cN 5) (cW (cV 1) 4))) (cM (cN 2) (cW (cV 1) 6))) (cM (cM (cR (cN 2)) (cR (cM (cM (cA (cN 1) (cH 0)) (cA (cN 1) (cM (cN 2) (cH 0)))) (cA (cA (cN 2) (cM (cN 3) (cV 1))) (cW (cV 1) 4))))) (cA (cA (cN 3) (cM (cN 5) (cV 1))) (cM (cN 2) (cW (cV 1) 4))))) (cD (cM (cW (cH 0) 4) (cA (cO (cD (cM (cW (cA (cN 1) (cV 1)) 3) (cA (cN 1) (cM (cN 2) (cV 1)))) (cR (cM (cM (cM (cH 0) (cA (cN 1) (cH 0))) (cA (cN 3) (cM (cN 2) (cV 1)))) (cA (cA (cN 2) (cM (cN 3) (cV 1))) (cW (cV 1) 4)))))) (cD (cA (cN (-1)) (cV 1)) (cR (cM (cM (cM (cH 0) (cA (cN 1) (cH 0))) (cW (cA (cN 1) (cV 1)) 4)) (cA (cA (cN 6) (cM (cN 7) (cV 1))) (cM (cN 2) (cW (cV 1) 4)))))))) (cM (cR (cN 2)) (cR (cM (cM (cH 0) (cA (cN 1) (cM (cN 2) (cH 0)))) (cA (cA (cN 3) (cM (cN 5) (cV 1))) (cM (cN 2) (cW (cV 1) 4)))))))).
Definition SPSU2T_e1228 := (cD (cO (cA (cR (cD (cM (cM (cH 0) (cA (cN 1) (cM (cN 2) (cH 0)))) (cA (cN (-1)) (cV 1))) (cV 1))) (cR (cD (cM (cH 0) (cA (cN (-1)) (cV 1))) (cA (cV 1) (cM (cM (cN 2) (cH 0)) (cV 1))))))) (cM (cM (cN 2) (cR (cN 2))) (cA (cN 1) (cH 0)))).
Definition SPSU2T_e1229 := (cO (cD (cR (cD (cM (cH 0) (cA (cA (cB (cN (-1)) (cV 1)) (cM (cN 4) (cW (cV 1) 4))) (cM (cN 4) (cW (cV 1) 6)))) (cA (cV 1) (cM (cM (cN 2) (cH 0)) (cV 1))))) (cM (cR (cN 2)) (cA (cA (cN 1) (cM (cN 3) (cV 1))) (cM (cN 2) (cW (cV 1) 4)))))).
Definition SPSU2T_e1230 := (cD (cB (cN 1) (cM (cN 2) (cV 1))) (cM (cR (cN 2)) (cR (cM (cV 1) (cA (cA (cB (cN (-1)) (cV 1)) (cM (cN 4) (cW (cV 1) 4))) (cM (cN 4) (cW (cV 1) 6))))))).
Definition SPSU2T_e1231 := (cD (cN 1) (cM (cR (cN 2)) (cR (cD (cM (cM (cA (cN 1) (cM (cN 2) (cH 0))) (cV 1)) (cA (cN 1) (cV 1))) (cH 0))))).
Definition SPSU2T_e1232 := (cD (cM (cA (cN (-1)) (cV 1)) (cB (cD (cH 0) (cR (cM (cM (cM (cM (cH 0) (cW (cA (cN 1) (cH 0)) 4)) (cA (cN 1) (cM (cN 2) (cH 0)))) (cV 1)) (cW (cA (cN 1) (cV 1)) 6)))) (cD (cA (cM (cN 2) (cR (cD (cM (cH 0) (cV 1)) (cA (cN 1) (cM (cN 2) (cH 0)))))) (cR (cM (cM (cH 0) (cA (cN 1) (cM (cN 2) (cH 0)))) (cV 1)))) (cM (cM (cA (cN 1) (cH 0)) (cV 1)) (cW (cA (cN 1) (cV 1)) 3))))) (cM (cN 2) (cR (cN 2)))).
Definition SPSU2T_e1233 := (cO (cD (cM (cM (cR (cN 2)) (cH 0)) (cV 1)) (cM (cM (cA (cN 1) (cV 1)) (cR (cM (cM (cM (cH 0) (cA (cN 1) (cM (cN 2) (cH 0)))) (cV 1)) (cA (cN 1) (cV 1))))) (cA (cN 3) (cM (cN 2) (cV 1)))))).
Definition SPSU2T_e1234 := (cD (cM (cH 0) (cA (cO (cD (cN 1) (cR (cD (cM (cM (cM (cM (cH 0) (cW (cA (cN 1) (cH 0)) 4)) (cA (cN 1) (cM (cN 2) (cH 0)))) (cW (cA (cN 1) (cV 1)) 6)) (cA (cA (cN 3) (cM (cN 8) (cV 1))) (cM (cN 4) (cW (cV 1) 4)))) (cV 1))))) (cD (cA (cM (cN 2) (cR (cD (cV 1) (cA (cN 1) (cM (cN 2) (cH 0)))))) (cR (cA (cV 1) (cM (cM (cN 2) (cH 0)) (cV 1))))) (cM (cM (cA (cN 1) (cH 0)) (cA (cN 1) (cV 1))) (cR (cM (cH 0) (cA (cA (cA (cN 3) (cM (cN 11) (cV 1))) (cM (cN 12) (cW (cV 1) 4))) (cM (cN 4) (cW (cV 1) 6))))))))) (cR (cN 2))).
Definition SPSU2T_e1235 := (cD (cB (cD (cM (cA (cA (cA (cN 2) (cM (cN 3) (cV 1))) (cM (cN 5) (cW (cV 1) 4))) (cM (cN 2) (cW (cV 1) 6))) (cA (cM (cN 2) (cR (cD (cH 0) (cM (cA (cN 1) (cM (cN 2) (cH 0))) (cA (cA (cN 2) (cM (cN 3) (cV 1))) (cW (cV 1) 4)))))) (cR (cD (cM (cH 0) (cA (cN 1) (cM (cN 2) (cH 0)))) (cA (cA (cN 2) (cM (cN 3) (cV 1))) (cW (cV 1) 4)))))) (cM (cA (cN 1) (cH 0)) (cA (cA (cN 3) (cM (cN 5) (cV 1))) (cM (cN 2) (cW (cV 1) 4))))) (cD (cM (cH 0) (cA (cD (cB (cN 1) (cV 1)) (cR (cM (cM (cM (cH 0) (cA (cN 1) (cH 0))) (cW (cA (cN 1) (cV 1)) 4)) (cA (cA (cN 6) (cM (cN 7) (cV 1))) (cM (cN 2) (cW (cV 1) 4)))))) (cD (cM (cW (cA (cN 1) (cV 1)) 3) (cA (cN 1) (cM (cN 2) (cV 1)))) (cR (cM (cM (cH 0) (cA (cN 1) (cH 0))) (cA (cA (cA (cN 6) (cM (cN 13) (cV 1))) (cM (cN 9) (cW (cV 1) 4))) (cM (cN 2) (cW (cV 1) 6)))))))) (cR (cM (cA (cA (cN 1) (cM (cN 3) (cH 0))) (cM (cN 2) (cW (cH 0) 4))) (cA (cA (cN 3) (cM (cN 5) (cV 1))) (cM (cN 2) (cW (cV 1) 4))))))) (cM (cN 2) (cR (cN 2)))).
Definition SPSU2T_e1236 := (cD (cM (cR (cN 2)) (cV 1)) (cM (cA (cN 1) (cV 1)) (cR (cM (cV 1) (cA (cA (cA (cN 3) (cM (cN 11) (cV 1))) (cM (cN 12) (cW (cV 1) 4))) (cM (cN 4) (cW (cV 1) 6))))))).
Definition SPSU2T_e1237 := (cD (cM (cR (cA (cA (cN 2) (cM (cN 3) (cV 1))) (cW (cV 1) 4))) (cA (cA (cN 1) (cV 1)) (cM (cN 2) (cW (cV 1) 4)))) (cM (cM (cR (cN 2)) (cW (cA (cN 1) (cV 1)) 4)) (cA (cN 3) (cM (cN 2) (cV 1))))).
Definition SPSU2T_e1238 := (cD (cA (cN (-1)) (cM (cN 2) (cV 1))) (cR (cM (cV 1) (cA (cA (cB (cN (-1)) (cV 1)) (cM (cN 4) (cW (cV 1) 4))) (cM (cN 4) (cW (cV 1) 6)))))).
Definition SPSU2T_e1239 := (cM (cA (cN (-1)) (cM (cN 2) (cV 1))) (cA (cD (cN 1) (cR (cM (cM (cA (cA (cN 1) (cM (cN 3) (cH 0))) (cM (cN 2) (cW (cH 0) 4))) (cV 1)) (cA (cA (cB (cN (-1)) (cV 1)) (cM (cN 4) (cW (cV 1) 4))) (cM (cN 4) (cW (cV 1) 6)))))) (cD (cW (cH 0) 3) (cR (cM (cM (cM (cH 0) (cA (cA (cN 1) (cM (cN 3) (cH 0))) (cM (cN 2) (cW (cH 0) 4)))) (cV 1)) (cA (cA (cB (cN (-1)) (cV 1)) (cM (cN 4) (cW (cV 1) 4))) (cM (cN 4) (cW (cV 1) 6)))))))).
Definition SPSU2T_e1240 := (cD (cA (cN (-1)) (cV 1)) (cR (cM (cV 1) (cW (cA (cN 1) (cV 1)) 6)))).
Definition SPSU2T_e1241 := (cD (cM (cN 2) (cR (cD (cV 1) (cW (cA (cN 1) (cV 1)) 6)))) (cA (cN 3) (cM (cN 2) (cV 1)))).
Definition SPSU2T_e1242 := (cO (cD (cA (cN 1) (cH 0)) (cR (cM (cM (cA (cA (cN 1) (cM (cN 3) (cH 0))) (cM (cN 2) (cW (cH 0) 4))) (cV 1)) (cA (cN 1) (cV 1)))))).
Definition SPSU2T_e1243 := (cM (cA (cN (-1)) (cV 1)) (cA (cD (cN 1) (cR (cM (cM (cA (cA (cN 1) (cM (cN 3) (cH 0))) (cM (cN 2) (cW (cH 0) 4))) (cV 1)) (cW (cA (cN 1) (cV 1)) 6)))) (cD (cW (cH 0) 3) (cR (cM (cM (cM (cH 0) (cA (cA (cN 1) (cM (cN 3) (cH 0))) (cM (cN 2) (cW (cH 0) 4)))) (cV 1)) (cW (cA (cN 1) (cV 1)) 6)))))).
Definition SPSU2T_e1244 := (cD (cM (cM (cN 2) (cA (cN 1) (cH 0))) (cV 1)) (cM (cM (cA (cN 1) (cV 1)) (cR (cM (cM (cA (cA (cN 1) (cM (cN 3) (cH 0))) (cM (cN 2) (cW (cH 0) 4))) (cV 1)) (cA (cN 1) (cV 1))))) (cA (cN 3) (cM (cN 2) (cV 1))))).
Definition SPSU2T_e1245 := (cD (cM (cN (-2)) (cV 1)) (cM (cA (cN 1) (cV 1)) (cR (cM (cM (cV 1) (cA (cN 3) (cM (cN 2) (cV 1)))) (cA (cA (cN 1) (cM (cN 3) (cV 1))) (cM (cN 2) (cW (cV 1) 4))))))).
Definition SPSU2T_e1246 := (cO (cD (cA (cA (cA (cN 2) (cM (cN 3) (cV 1))) (cM (cN 5) (cW (cV 1) 4))) (cM (cN 2) (cW (cV 1) 6))) (cM (cR (cA (cA (cN 2) (cM (cN 3) (cV 1))) (cW (cV 1) 4))) (cA (cA (cN 3) (cM (cN 5) (cV 1))) (cM (cN 2) (cW (cV 1) 4)))))).
Definition SPSU2T_e1247 := (cD (cM (cM (cN (-2)) (cA (cN 1) (cH 0))) (cV 1)) (cM (cA (cN 1) (cV 1)) (cR (cM (cM (cA (cA (cN 1) (cM (cN 3) (cH 0))) (cM (cN 2) (cW (cH 0) 4))) (cV 1)) (cA (cA (cA (cN 3) (cM (cN 11) (cV 1))) (cM (cN 12) (cW (cV 1) 4))) (cM (cN 4) (cW (cV 1) 6))))))).
Definition SPSU2T_e1248 := (cB (cD (cB (cB (cB (cN (-2)) (cM (cN 3) (cV 1))) (cM (cN 5) (cW (cV 1) 4))) (cM (cN 2) (cW (cV 1) 6))) (cM (cR (cM (cM (cA (cN 1) (cH 0)) (cA (cN 1) (cM (cN 2) (cH 0)))) (cA (cA (cN 2) (cM (cN 3) (cV 1))) (cW (cV 1) 4)))) (cA (cA (cN 3) (cM (cN 5) (cV 1))) (cM (cN 2) (cW (cV 1) 4))))) (cD (cM (cW (cH 0) 4) (cA (cD (cM (cW (cA (cN 1) (cV 1)) 3) (cA (cN 1) (cM (cN 2) (cV 1)))) (cR (cM (cM (cM (cH 0) (cA (cN 1) (cH 0))) (cA (cN 3) (cM (cN 2) (cV 1)))) (cA (cA (cN 2) (cM (cN 3) (cV 1))) (cW (cV 1) 4))))) (cD (cB (cN 1) (cV 1)) (cR (cM (cM (cM (cH 0) (cA (cN 1) (cH 0))) (cW (cA (cN 1) (cV 1)) 4)) (cA (cA (cN 6) (cM (cN 7) (cV 1))) (cM (cN 2) (cW (cV 1) 4)))))))) (cR (cM (cM (cH 0) (cA (cN 1) (cM (cN 2) (cH 0)))) (cA (cA (cN 3) (cM (cN 5) (cV 1))) (cM (cN 2) (cW (cV 1) 4))))))).
Definition SPSU2T_e1249 := (cD (cR (cD (cM (cH 0) (cA (cA (cB (cN (-1)) (cV 1)) (cM (cN 4) (cW (cV 1) 4))) (cM (cN 4) (cW (cV 1) 6)))) (cA (cV 1) (cM (cM (cN 2) (cH 0)) (cV 1))))) (cA (cA (cN 1) (cM (cN 3) (cV 1))) (cM (cN 2) (cW (cV 1) 4)))).
Definition SPSU2T_e1250 := (cO (cR (cD (cH 0) (cM (cA (cN 1) (cM (cN 2) (cH 0))) (cA (cV 1) (cW (cV 1) 4)))))).
Definition SPSU2T_e1251 := (cD (cM (cA (cN (-1)) (cV 1)) (cA (cO (cD (cH 0) (cR (cM (cM (cM (cM (cH 0) (cW (cA (cN 1) (cH 0)) 4)) (cA (cN 1) (cM (cN 2) (cH 0)))) (cV 1)) (cW (cA (cN 1) (cV 1)) 6))))) (cD (cA (cM (cN 2) (cR (cD (cM (cH 0) (cV 1)) (cA (cN 1) (cM (cN 2) (cH 0)))))) (cR (cM (cM (cH 0) (cA (cN 1) (cM (cN 2) (cH 0)))) (cV 1)))) (cM (cM (cA (cN 1) (cH 0)) (cV 1)) (cW (cA (cN 1) (cV 1)) 3))))) (cN 2)).
Definition SPSU2T_e1252 := (cD (cM (cM (cN 2) (cH 0)) (cV 1)) (cM (cM (cA (cN 1) (cV 1)) (cR (cM (cM (cM (cH 0) (cA (cN 1) (cM (cN 2) (cH 0)))) (cV 1)) (cA (cN 1) (cV 1))))) (cA (cN 3) (cM (cN 2) (cV 1))))).
Definition SPSU2T_e1253 := (cB (cD (cH 0) (cR (cD (cM (cM (cM (cM (cH 0) (cW (cA (cN 1) (cH 0)) 4)) (cA (cN 1) (cM (cN 2) (cH 0)))) (cW (cA (cN 1) (cV 1)) 6)) (cA (cA (cN 3) (cM (cN 8) (cV 1))) (cM (cN 4) (cW (cV 1) 4)))) (cV 1)))) (cD (cM (cH 0) (cA (cM (cN 2) (cR (cD (cV 1) (cA (cN 1) (cM (cN 2) (cH 0)))))) (cR (cA (cV 1) (cM (cM (cN 2) (cH 0)) (cV 1)))))) (cM (cM (cA (cN 1) (cH 0)) (cA (cN 1) (cV 1))) (cR (cM (cM (cH 0) (cA (cN 3) (cM (cN 2) (cV 1)))) (cA (cA (cN 1) (cM (cN 3) (cV 1))) (cM (cN 2) (cW (cV 1) 4)))))))).
Definition SPSU2T_e1254 := (cB (cD (cO (cM (cA (cA (cA (cN 2) (cM (cN 3) (cV 1))) (cM (cN 5) (cW (cV 1) 4))) (cM (cN 2) (cW (cV 1) 6))) (cA (cM (cN 2) (cR (cD (cH 0) (cM (cA (cN 1) (cM (cN 2) (cH 0))) (cA (cA (cN 2) (cM (cN 3) (cV 1))) (cW (cV 1) 4)))))) (cR (cD (cM (cH 0) (cA (cN 1) (cM (cN 2) (cH 0)))) (cA (cA (cN 2) (cM (cN 3) (cV 1))) (cW (cV 1) 4))))))) (cM (cM (cN 2) (cA (cN 1) (cH 0))) (cA (cA (cN 3) (cM (cN 5) (cV 1))) (cM (cN 2) (cW (cV 1) 4))))) (cD (cM (cH 0) (cA (cO (cD (cM (cW (cA (cN 1) (cV 1)) 3) (cA (cN 1) (cM (cN 2) (cV 1)))) (cR (cM (cM (cM (cH 0) (cA (cN 1) (cH 0))) (cA (cN 3) (cM (cN 2) (cV 1)))) (cA (cA (cN 2) (cM (cN 3) (cV 1))) (cW (cV 1) 4)))))) (cD (cA (cN (-1)) (cV 1)) (cR (cM (cM (cM (cH 0) (cA (cN 1) (cH 0))) (cW (cA (cN 1) (cV 1)) 4)) (cA (cA (cN 6) (cM (cN 7) (cV 1))) (cM (cN 2) (cW (cV 1) 4)))))))) (cM (cN 2) (cR (cM (cM (cA (cN 1) (cH 0)) (cA (cN 1) (cM (cN 2) (cH 0)))) (cA (cA (cN 3) (cM (cN 5) (cV 1))) (cM (cN 2) (cW (cV 1) 4)))))))).
Definition SPSU2T_e1255 := (cD (cM (cN (-2)) (cV 1)) (cM (cA (cN 1) (cV 1)) (cR (cM (cV 1) (cA (cA (cA (cN 3) (cM (cN 11) (cV 1))) (cM (cN 12) (cW (cV 1) 4))) (cM (cN 4) (cW (cV 1) 6))))))).
Definition SPSU2T_e1256 := (cD (cB (cB (cB (cN (-2)) (cM (cN 3) (cV 1))) (cM (cN 5) (cW (cV 1) 4))) (cM (cN 2) (cW (cV 1) 6))) (cM (cR (cA (cA (cN 2) (cM (cN 3) (cV 1))) (cW (cV 1) 4))) (cA (cA (cN 3) (cM (cN 5) (cV 1))) (cM (cN 2) (cW (cV 1) 4))))).
Definition SPSU2T_e1257 := (cO (cD (cM (cA (cN (-1)) (cV 1)) (cA (cN (-1)) (cM (cN 2) (cV 1)))) (cM (cM (cV 1) (cA (cN 1) (cV 1))) (cR (cA (cB (cA (cN (-2)) (cD (cN 2) (cV 1))) (cM (cN 8) (cV 1))) (cM (cN 8) (cW (cV 1) 4))))))).
Definition SPSU2T_e1258 := (cD (cB (cO (cD (cM (cW (cH 0) 3) (cA (cN (-1)) (cV 1))) (cR (cM (cM (cM (cH 0) (cA (cA (cN 1) (cM (cN 3) (cH 0))) (cM (cN 2) (cW (cH 0) 4)))) (cV 1)) (cA (cN 1) (cV 1)))))) (cD (cW (cA (cN (-1)) (cV 1)) 3) (cR (cM (cM (cA (cA (cN 1) (cM (cN 3) (cH 0))) (cM (cN 2) (cW (cH 0) 4))) (cV 1)) (cA (cN (-1)) (cW (cV 1) 4)))))) (cR (cN 2))).
Definition SPSU2T_e1259 := (cD (cB (cD (cB (cA (cN (-1)) (cM (cN 3) (cV 1))) (cM (cN 2) (cW (cV 1) 4))) (cR (cM (cM (cA (cA (cN 1) (cM (cN 3) (cH 0))) (cM (cN 2) (cW (cH 0) 4))) (cV 1)) (cA (cB (cB (cN 1) (cV 1)) (cM (cN 4) (cW (cV 1) 4))) (cM (cN 4) (cW (cV 1) 6)))))) (cD (cM (cM (cW (cH 0) 3) (cA (cN (-1)) (cV 1))) (cA (cN (-1)) (cM (cN 2) (cV 1)))) (cR (cM (cM (cM (cH 0) (cA (cA (cN 1) (cM (cN 3) (cH 0))) (cM (cN 2) (cW (cH 0) 4)))) (cV 1)) (cA (cB (cB (cN 1) (cV 1)) (cM (cN 4) (cW (cV 1) 4))) (cM (cN 4) (cW (cV 1) 6))))))) (cM (cR (cN 2)) (cA (cN 1) (cV 1)))).
Definition SPSU2T_e1260 := (cD (cM (cM (cM (cN (-2)) (cR (cQ 2 3))) (cR (cD (cA (cN (-1)) (cM (cN 2) (cV 1))) (cH 0)))) (cA (cM (cN 2) (cR (cD (cM (cH 0) (cV 1)) (cA (cA (cN 3) (cM (cN 5) (cV 1))) (cM (cN 2) (cW (cV 1) 4)))))) (cR (cD (cM (cH 0) (cW (cV 1) 6)) (cA (cA (cN 3) (cM (cN 5) (cV 1))) (cM (cN 2) (cW (cV 1) 4))))))) (cA (cA (cN 3) (cM (cN 5) (cV 1))) (cM (cN 2) (cW (cV 1) 4)))).
Definition SPSU2T_e1261 := (cD (cM (cM (cR (cQ 3 2)) (cA (cN 1) (cH 0))) (cA (cN (-1)) (cM (cN 2) (cV 1)))) (cR (cM (cM (cA (cA (cN 1) (cM (cN 3) (cH 0))) (cM (cN 2) (cW (cH 0) 4))) (cV 1)) (cA (cA (cA (cN (-3)) (cV 1)) (cM (cN 8) (cW (cV 1) 4))) (cM (cN 4) (cW (cV 1) 6)))))).
Definition SPSU2T_e1262 := (cO (cD (cM (cA (cN 1) (cH 0)) (cA (cA (cB (cN 3) (cM (cN 9) (cV 1))) (cM (cN 4) (cW (cV 1) 4))) (cM (cN 4) (cW (cV 1) 6)))) (cM (cM (cR (cN 6)) (cA (cN 1) (cV 1))) (cR (cM (cM (cA (cA (cN 1) (cM (cN 3) (cH 0))) (cM (cN 2) (cW (cH 0) 4))) (cV 1)) (cA (cA (cA (cN (-3)) (cV 1)) (cM (cN 8) (cW (cV 1) 4))) (cM (cN 4) (cW (cV 1) 6)))))))).
Definition SPSU2T_e1263 := (cD (cM (cM (cM (cM (cN (-2)) (cR (cQ 2 3))) (cA (cN 1) (cH 0))) (cV 1)) (cA (cA (cN (-2)) (cM (cN 3) (cV 1))) (cM (cN 2) (cW (cV 1) 4)))) (cM (cA (cA (cN 3) (cM (cN 5) (cV 1))) (cM (cN 2) (cW (cV 1) 4))) (cR (cM (cM (cA (cA (cN 1) (cM (cN 3) (cH 0))) (cM (cN 2) (cW (cH 0) 4))) (cV 1)) (cA (cA (cA (cN (-3)) (cV 1)) (cM (cN 8) (cW (cV 1) 4))) (cM (cN 4) (cW (cV 1) 6))))))).
Definition SPSU2T_e1264 := (cD (cM (cM (cM (cN 2) (cR (cN 2))) (cV 1)) (cA (cN 2) (cV 1))) (cM (cA (cN 1) (cV 1)) (cR (cA (cA (cA (cA (cN 6) (cM (cN 25) (cV 1))) (cM (cN 35) (cW (cV 1) 4))) (cM (cN 20) (cW (cV 1) 6))) (cM (cN 4) (cW (cV 1) 8)))))).
Definition SPSU2T_e1265 := (cD (cB (cB (cN 1) (cM (cN 5) (cV 1))) (cM (cN 2) (cW (cV 1) 4))) (cM (cR (cA (cN 2) (cD (cN 2) (cV 1)))) (cA (cA (cN 3) (cM (cN 5) (cV 1))) (cM (cN 2) (cW (cV 1) 4))))).
Definition SPSU2T_e1266 := (cD (cM (cM (cM (cM (cN 2) (cR (cN 2))) (cA (cN 1) (cH 0))) (cV 1)) (cA (cN 2) (cV 1))) (cM (cA (cN 1) (cV 1)) (cR (cM (cA (cA (cN 1) (cM (cN 3) (cH 0))) (cM (cN 2) (cW (cH 0) 4))) (cA (cA (cA (cA (cN 6) (cM (cN 25) (cV 1))) (cM (cN 35) (cW (cV 1) 4))) (cM (cN 20) (cW (cV 1) 6))) (cM (cN 4) (cW (cV 1) 8))))))).
Definition SPSU2T_e1267 := (cB (cO (cD (cM (cV 1) (cA (cA (cN (-1)) (cM (cN 5) (cV 1))) (cM (cN 2) (cW (cV 1) 4)))) (cM (cM (cR (cN 2)) (cR (cM (cM (cA (cA (cN 1) (cM (cN 3) (cH 0))) (cM (cN 2) (cW (cH 0) 4))) (cV 1)) (cA (cN 1) (cV 1))))) (cA (cA (cN 3) (cM (cN 5) (cV 1))) (cM (cN 2) (cW (cV 1) 4)))))) (cD (cM (cM (cW (cH 0) 4) (cV 1)) (cA (cA (cD (cM (cW (cA (cN 1) (cV 1)) 3) (cA (cN 1) (cM (cN 2) (cV 1)))) (cR (cM (cM (cM (cH 0) (cA (cN 1) (cH 0))) (cA (cN 3) (cM (cN 2) (cV 1)))) (cA (cA (cN 2) (cM (cN 3) (cV 1))) (cW (cV 1) 4))))) (cD (cM (cM (cN 2) (cV 1)) (cA (cN 1) (cM (cN 2) (cV 1)))) (cM (cA (cN 1) (cV 1)) (cR (cM (cM (cH 0) (cA (cN 1) (cH 0))) (cA (cA (cN 6) (cM (cN 7) (cV 1))) (cM (cN 2) (cW (cV 1) 4)))))))) (cD (cM (cN 3) (cA (cN (-1)) (cV 1))) (cR (cM (cM (cM (cH 0) (cA (cN 1) (cH 0))) (cW (cA (cN 1) (cV 1)) 4)) (cA (cA (cN 6) (cM (cN 7) (cV 1))) (cM (cN 2) (cW (cV 1) 4)))))))) (cM (cR (cN 2)) (cR (cM (cM (cM (cH 0) (cA (cN 1) (cM (cN 2) (cH 0)))) (cV 1)) (cA (cA (cA (cN 6) (cM (cN 13) (cV 1))) (cM (cN 9) (cW (cV 1) 4))) (cM (cN 2) (cW (cV 1) 6)))))))).
Definition SPSU2T_e1268 := (cD (cM (cA (cN 1) (cM (cN 2) (cV 1))) (cA (cA (cM (cN 7) (cR (cD (cA (cN 2) (cV 1)) (cA (cN 3) (cM (cN 2) (cV 1)))))) (cR (cA (cA (cN 6) (cM (cN 7) (cV 1))) (cM (cN 2) (cW (cV 1) 4))))) (cM (cV 1) (cA (cM (cN 4) (cR (cD (cA (cN 2) (cV 1)) (cA (cN 3) (cM (cN 2) (cV 1)))))) (cR (cA (cA (cN 6) (cM (cN 7) (cV 1))) (cM (cN 2) (cW (cV 1) 4)))))))) (cM (cM (cW (cA (cN 2) (cV 1)) 3) (cR (cA (cN 5) (cM (cN 2) (cV 1))))) (cA (cA (cN 3) (cM (cN 5) (cV 1))) (cM (cN 2) (cW (cV 1) 4))))).
Definition SPSU2T_e1269 := (cA (cD (cM (cW (cH 0) 4) (cA (cA (cD (cA (cN 1) (cM (cN 2) (cV 1))) (cR (cD (cM (cM (cH 0) (cA (cN 1) (cH 0))) (cA (cN 2) (cV 1))) (cA (cN 1) (cV 1))))) (cD (cA (cN 4) (cM (cN 8) (cV 1))) (cR (cD (cM (cM (cM (cH 0) (cA (cN 1) (cH 0))) (cA (cN 2) (cV 1))) (cW (cA (cN 3) (cM (cN 2) (cV 1))) 4)) (cA (cN 1) (cV 1)))))) (cD (cA (cN 3) (cM (cN 6) (cV 1))) (cM (cA (cN 3) (cM (cN 2) (cV 1))) (cR (cM (cM (cH 0) (cA (cN 1) (cH 0))) (cA (cA (cN 2) (cM (cN 3) (cV 1))) (cW (cV 1) 4)))))))) (cR (cM (cM (cH 0) (cA (cN 1) (cM (cN 2) (cH 0)))) (cA (cA (cA (cA (cN 30) (cM (cN 77) (cV 1))) (cM (cN 71) (cW (cV 1) 4))) (cM (cN 28) (cW (cV 1) 6))) (cM (cN 4) (cW (cV 1) 8)))))) (cD (cM (cA (cN 1) (cM (cN 2) (cV 1))) (cA (cA (cM (cN 7) (cR (cD (cA (cN 2) (cV 1)) (cA (cN 3) (cM (cN 2) (cV 1)))))) (cR (cA (cA (cN 6) (cM (cN 7) (cV 1))) (cM (cN 2) (cW (cV 1) 4))))) (cM (cV 1) (cA (cM (cN 4) (cR (cD (cA (cN 2) (cV 1)) (cA (cN 3) (cM (cN 2) (cV 1)))))) (cR (cA (cA (cN 6) (cM (cN 7) (cV 1))) (cM (cN 2) (cW (cV 1) 4)))))))) (cM (cR (cM (cM (cA (cA (cN 1) (cM (cN 3) (cH 0))) (cM (cN 2) (cW (cH 0) 4))) (cW (cA (cN 2) (cV 1)) 6)) (cA (cN 5) (cM (cN 2) (cV 1))))) (cA (cA (cN 3) (cM (cN 5) (cV 1))) (cM (cN 2) (cW (cV 1) 4)))))).
Definition SPSU2T_e1270 := (cD (cB (cD (cM (cH 0) (cA (cN (-1)) (cV 1))) (cR (cM (cM (cM (cH 0) (cA (cN 1) (cM (cN 2) (cH 0)))) (cV 1)) (cA (cN 1) (cV 1))))) (cD (cM (cA (cM (cN 2) (cR (cD (cH 0) (cA (cN 1) (cM (cN 2) (cH 0)))))) (cR (cM (cH 0) (cA (cN 1) (cM (cN 2) (cH 0)))))) (cW (cA (cN (-1)) (cV 1)) 3)) (cR (cM (cV 1) (cA (cN (-1)) (cW (cV 1) 4)))))) (cM (cM (cN 2) (cR (cN 2))) (cA (cN 1) (cH 0)))).
Definition SPSU2T_e1271 := (cO (cD (cR (cD (cA (cB (cB (cH 0) (cM (cH 0) (cV 1))) (cM (cM (cN 4) (cH 0)) (cW (cV 1) 4))) (cM (cM (cN 4) (cH 0)) (cW (cV 1) 6))) (cA (cM (cN 2) (cV 1)) (cM (cM (cN 4) (cH 0)) (cV 1))))) (cM (cA (cN 1) (cV 1)) (cA (cN 1) (cM (cN 2) (cV 1)))))).
Definition SPSU2T_e1272 := (cO (cD (cW (cA (cN (-1)) (cV 1)) 3) (cM (cR (cN 2)) (cR (cM (cV 1) (cA (cN (-1)) (cW (cV 1) 4))))))).
Definition SPSU2T_e1273 := (cO (cD (cM (cA (cN (-1)) (cV 1)) (cA (cN (-1)) (cM (cN 2) (cV 1)))) (cM (cM (cR (cN 2)) (cA (cN 1) (cV 1))) (cR (cM (cV 1) (cA (cB (cB (cN 1) (cV 1)) (cM (cN 4) (cW (cV 1) 4))) (cM (cN 4) (cW (cV 1) 6)))))))).
Definition SPSU2T_e1274 := (cD (cM (cM (cR (cQ 3 2)) (cH 0)) (cA (cN (-1)) (cM (cN 2) (cV 1)))) (cR (cM (cM (cM (cH 0) (cA (cN 1) (cM (cN 2) (cH 0)))) (cV 1)) (cA (cA (cA (cN (-3)) (cV 1)) (cM (cN 8) (cW (cV 1) 4))) (cM (cN 4) (cW (cV 1) 6)))))).
Definition SPSU2T_e1275 := (cO (cD (cM (cM (cH 0) (cA (cN (-1)) (cM (cN 2) (cV 1)))) (cA (cA (cN (-3)) (cM (cN 3) (cV 1))) (cM (cN 2) (cW (cV 1) 4)))) (cM (cM (cM (cR (cN 6)) (cV 1)) (cA (cN 1) (cV 1))) (cR (cD (cM (cM (cH 0) (cA (cN 1) (cM (cN 2) (cH 0)))) (cA (cA (cA (cN (-3)) (cV 1)) (cM (cN 8) (cW (cV 1) 4))) (cM (cN 4) (cW (cV 1) 6)))) (cV 1)))))).
Definition SPSU2T_e1276 := (cD (cM (cM (cM (cM (cN (-2)) (cR (cQ 2 3))) (cH 0)) (cV 1)) (cA (cA (cN (-2)) (cM (cN 3) (cV 1))) (cM (cN 2) (cW (cV 1) 4)))) (cM (cA (cA (cN 3) (cM (cN 5) (cV 1))) (cM (cN 2) (cW (cV 1) 4))) (cR (cM (cM (cM (cH 0) (cA (cN 1) (cM (cN 2) (cH 0)))) (cV 1)) (cA (cA (cA (cN (-3)) (cV 1)) (cM (cN 8) (cW (cV 1) 4))) (cM (cN 4) (cW (cV 1) 6))))))).
Definition SPSU2T_e1277 := (cD (cM (cR (cN 3)) (cR (cD (cM (cV 1) (cA (cN (-1)) (cM (cN 2) (cV 1)))) (cA (cA (cN 6) (cM (cN 10) (cV 1))) (cM (cN 4) (cW (cV 1) 4)))))) (cV 1)).
Definition SPSU2T_e1278 := (cD (cM (cM (cM (cM (cN 2) (cR (cN 2))) (cH 0)) (cV 1)) (cA (cN 2) (cV 1))) (cM (cA (cN 1) (cV 1)) (cR (cM (cM (cH 0) (cA (cN 1) (cM (cN 2) (cH 0)))) (cA (cA (cA (cA (cN 6) (cM (cN 25) (cV 1))) (cM (cN 35) (cW (cV 1) 4))) (cM (cN 20) (cW (cV 1) 6))) (cM (cN 4) (cW (cV 1) 8))))))).
Definition SPSU2T_e1279 := (cA (cD (cO (cM (cM (cV 1) (cA (cA (cA (cN (-2)) (cM (cN 9) (cV 1))) (cM (cN 9) (cW (cV 1) 4))) (cM (cN 2) (cW (cV 1) 6)))) (cA (cM (cN 2) (cR (cD (cH 0) (cM (cA (cN 1) (cM (cN 2) (cH 0))) (cA (cA (cN 2) (cM (cN 3) (cV 1))) (cW (cV 1) 4)))))) (cR (cD (cM (cH 0) (cA (cN 1) (cM (cN 2) (cH 0)))) (cA (cA (cN 2) (cM (cN 3) (cV 1))) (cW (cV 1) 4))))))) (cM (cM (cM (cM (cN 2) (cR (cN 2))) (cA (cN 1) (cH 0))) (cR (cM (cV 1) (cA (cN 2) (cV 1))))) (cA (cA (cN 3) (cM (cN 5) (cV 1))) (cM (cN 2) (cW (cV 1) 4))))) (cD (cM (cM (cH 0) (cV 1)) (cA (cA (cD (cM (cW (cA (cN 1) (cV 1)) 3) (cA (cN 1) (cM (cN 2) (cV 1)))) (cR (cM (cM (cM (cH 0) (cA (cN 1) (cH 0))) (cA (cN 3) (cM (cN 2) (cV 1)))) (cA (cA (cN 2) (cM (cN 3) (cV 1))) (cW (cV 1) 4))))) (cD (cM (cM (cN 2) (cV 1)) (cA (cN 1) (cM (cN 2) (cV 1)))) (cM (cA (cN 1) (cV 1)) (cR (cM (cM (cH 0) (cA (cN 1) (cH 0))) (cA (cA (cN 6) (cM (cN 7) (cV 1))) (cM (cN 2) (cW (cV 1) 4)))))))) (cD (cM (cN 3) (cA (cN (-1)) (cV 1))) (cR (cM (cM (cM (cH 0) (cA (cN 1) (cH 0))) (cW (cA (cN 1) (cV 1)) 4)) (cA (cA (cN 6) (cM (cN 7) (cV 1))) (cM (cN 2) (cW (cV 1) 4)))))))) (cM (cM (cN 2) (cR (cN 2))) (cR (cM (cM (cM (cA (cN 1) (cH 0)) (cA (cN 1) (cM (cN 2) (cH 0)))) (cV 1)) (cA (cA (cA (cN 6) (cM (cN 13) (cV 1))) (cM (cN 9) (cW (cV 1) 4))) (cM (cN 2) (cW (cV 1) 6)))))))).
Definition SPSU2T_e1280 := (cD (cA (cD (cM (cM (cN 2) (cV 1)) (cA (cN 2) (cV 1))) (cR (cA (cA (cA (cA (cN 6) (cM (cN 25) (cV 1))) (cM (cN 35) (cW (cV 1) 4))) (cM (cN 20) (cW (cV 1) 6))) (cM (cN 4) (cW (cV 1) 8))))) (cD (cM (cA (cA (cN 3) (cM (cN 8) (cH 0))) (cM (cN 4) (cW (cH 0) 4))) (cA (cR (cD (cM (cV 1) (cA (cN 1) (cM (cN 2) (cV 1)))) (cM (cA (cN 3) (cM (cN 2) (cH 0))) (cA (cN 1) (cV 1))))) (cM (cN 3) (cR (cD (cV 1) (cM (cA (cN 3) (cM (cN 2) (cH 0))) (cA (cA (cN 1) (cM (cN 3) (cV 1))) (cM (cN 2) (cW (cV 1) 4))))))))) (cR (cD (cM (cA (cN 3) (cM (cN 2) (cH 0))) (cA (cA (cN 6) (cM (cN 7) (cV 1))) (cM (cN 2) (cW (cV 1) 4)))) (cV 1))))) (cM (cM (cR (cN 2)) (cA (cN 1) (cH 0))) (cA (cN 1) (cV 1)))).
Definition SPSU2T_e1281 := (cA (cD (cO (cM (cH 0) (cA (cA (cD (cA (cN 1) (cM (cN 2) (cV 1))) (cR (cD (cM (cM (cH 0) (cA (cN 1) (cH 0))) (cA (cN 2) (cV 1))) (cA (cN 1) (cV 1))))) (cD (cA (cN 4) (cM (cN 8) (cV 1))) (cR (cD (cM (cM (cM (cH 0) (cA (cN 1) (cH 0))) (cA (cN 2) (cV 1))) (cW (cA (cN 3) (cM (cN 2) (cV 1))) 4)) (cA (cN 1) (cV 1)))))) (cD (cA (cN 3) (cM (cN 6) (cV 1))) (cM (cA (cN 3) (cM (cN 2) (cV 1))) (cR (cM (cM (cH 0) (cA (cN 1) (cH 0))) (cA (cA (cN 2) (cM (cN 3) (cV 1))) (cW (cV 1) 4))))))))) (cM (cN 2) (cR (cM (cM (cA (cN 1) (cH 0)) (cA (cN 1) (cM (cN 2) (cH 0)))) (cA (cA (cA (cA (cN 30) (cM (cN 77) (cV 1))) (cM (cN 71) (cW (cV 1) 4))) (cM (cN 28) (cW (cV 1) 6))) (cM (cN 4) (cW (cV 1) 8))))))) (cD (cA (cA (cA (cA (cA (cD (cM (cM (cN 2) (cH 0)) (cA (cA (cN 1) (cM (cN 3) (cV 1))) (cM (cN 2) (cW (cV 1) 4)))) (cR (cD (cM (cA (cN 1) (cM (cN 2) (cH 0))) (cA (cN 2) (cV 1))) (cA (cN 3) (cM (cN 2) (cV 1)))))) (cM (cM (cH 0) (cR (cD (cM (cA (cN 1) (cM (cN 2) (cH 0))) (cA (cN 3) (cM (cN 2) (cV 1)))) (cA (cN 2) (cV 1))))) (cA (cA (cN 1) (cM (cN 3) (cV 1))) (cM (cN 2) (cW (cV 1) 4))))) (cM (cM (cM (cN 3) (cH 0)) (cA (cN 1) (cM (cN 2) (cV 1)))) (cR (cD (cA (cN 1) (cM (cN 2) (cH 0))) (cA (cA (cN 6) (cM (cN 7) (cV 1))) (cM (cN 2) (cW (cV 1) 4))))))) (cM (cM (cM (cM (cN 4) (cH 0)) (cA (cN 1) (cV 1))) (cA (cN 1) (cM (cN 2) (cV 1)))) (cR (cD (cA (cN 1) (cM (cN 2) (cH 0))) (cA (cA (cN 6) (cM (cN 7) (cV 1))) (cM (cN 2) (cW (cV 1) 4))))))) (cD (cM (cM (cM (cN 8) (cH 0)) (cA (cN 1) (cV 1))) (cA (cN 1) (cM (cN 2) (cV 1)))) (cR (cM (cA (cN 1) (cM (cN 2) (cH 0))) (cA (cA (cN 6) (cM (cN 7) (cV 1))) (cM (cN 2) (cW (cV 1) 4))))))) (cD (cM (cN 6) (cA (cH 0) (cM (cM (cN 2) (cH 0)) (cV 1)))) (cR (cM (cA (cN 1) (cM (cN 2) (cH 0))) (cA (cA (cN 6) (cM (cN 7) (cV 1))) (cM (cN 2) (cW (cV 1) 4))))))) (cM (cM (cM (cN 2) (cA (cN 1) (cH 0))) (cA (cA (cN 3) (cM (cN 5) (cV 1))) (cM (cN 2) (cW (cV 1) 4)))) (cR (cM (cH 0) (cA (cA (cN 10) (cM (cN 9) (cV 1))) (cM (cN 2) (cW (cV 1) 4)))))))).
Definition SPSU2T_e1282 := (cD (cV 1) (cA (cN 1) (cV 1))).
Definition SPSU2T_e1283 := (cD (cM (cR (cA (cN 1) (cD (cN 1) (cH 0)))) (cV 1)) (cM (cR (cN 3)) (cA (cN 1) (cV 1)))).
Definition SPSU2T_e1284 := (cO (cD (cR (cD (cA (cN 1) (cM (cN 2) (cV 1))) (cA (cN 3) (cM (cN 2) (cV 1))))) (cA (cN 1) (cV 1)))).
Definition SPSU2T_e1285 := (cB (cD (cB (cN 1) (cM (cN 2) (cH 0))) (cM (cM (cM (cN 2) (cR (cN 3))) (cA (cN 1) (cV 1))) (cR (cD (cM (cM (cH 0) (cA (cN 1) (cH 0))) (cA (cN 3) (cM (cN 2) (cV 1)))) (cA (cN 1) (cM (cN 2) (cV 1))))))) (cD (cR (cD (cA (cN 3) (cM (cN 6) (cV 1))) (cM (cM (cM (cH 0) (cA (cN 1) (cH 0))) (cW (cA (cN 1) (cV 1)) 4)) (cA (cN 3) (cM (cN 2) (cV 1)))))) (cN 2))).
Definition SPSU2T_e1286 := (cD (cM (cR (cB (cN 2) (cD (cN 1) (cH 0)))) (cV 1)) (cM (cR (cN 3)) (cA (cN 1) (cV 1)))).
Definition SPSU2T_e1287 := (cD (cM (cR (cD (cA (cN 9) (cM (cN 6) (cH 0))) (cA (cN 1) (cH 0)))) (cV 1)) (cM (cN 3) (cA (cN 1) (cV 1)))).
Definition SPSU2T_e1288 := (cD (cA (cD (cA (cN (-1)) (cM (cN 2) (cH 0))) (cM (cA (cN 1) (cH 0)) (cR (cD (cM (cM (cH 0) (cA (cN (-1)) (cM (cN 2) (cH 0)))) (cA (cN 3) (cM (cN 2) (cV 1)))) (cA (cN 1) (cM (cN 2) (cV 1))))))) (cD (cB (cA (cM (cN (-3)) (cR (cD (cM (cA (cN (-1)) (cM (cN 2) (cH 0))) (cA (cN 1) (cM (cN 2) (cV 1)))) (cA (cN 1) (cH 0))))) (cM (cM (cN 2) (cH 0)) (cR (cD (cA (cN 1) (cM (cN 2) (cV 1))) (cA (cA (cN (-1)) (cH 0)) (cM (cN 2) (cW (cH 0) 4))))))) (cM (cM (cN 4) (cW (cH 0) 4)) (cR (cD (cA (cN 1) (cM (cN 2) (cV 1))) (cA (cA (cN (-1)) (cH 0)) (cM (cN 2) (cW (cH 0) 4))))))) (cR (cM (cM (cH 0) (cA (cN 1) (cH 0))) (cA (cN 3) (cM (cN 2) (cV 1))))))) (cM (cM (cN 2) (cR (cN 3))) (cA (cN 1) (cV 1)))).
Definition SPSU2T_e1289 := (cO (cD (cR (cD (cM (cA (cN 3) (cM (cN 2) (cH 0))) (cA (cN 1) (cM (cN 2) (cV 1)))) (cM (cA (cN 1) (cH 0)) (cA (cN 3) (cM (cN 2) (cV 1)))))) (cM (cR (cN 3)) (cA (cN 1) (cV 1))))).
Definition SPSU2T_e1290 := (cD (cV 1) (cM (cR (cA (cN 3) (cD (cN 3) (cH 0)))) (cA (cN 1) (cV 1)))).
Definition SPSU2T_e1291 := (cO (cD (cH 0) (cM (cM (cR (cN 3)) (cA (cN 1) (cV 1))) (cR (cD (cM (cM (cH 0) (cA (cN 1) (cH 0))) (cA (cN 3) (cM (cN 2) (cV 1)))) (cA (cN 1) (cM (cN 2) (cV 1)))))))).

(** /repo/c++/symmetry/nrg-recalc-SPSU2T.hpp recalc_doublet, spsu2t/spsu2t-doubletp-1.dat *)
Definition spsu2t_t0 : ten_table := mk_ten "doublet" [ShLin 0%nat 1 1; ShLin 1%nat 1 (-1)] [1; 2; 1] [
  (1, 1, [ShLin 0%nat 1 0; ShLin 1%nat 1 0], [ShLin 0%nat 1 1; ShLin 1%nat 1 (-1)], Some (cN 1));
  (2, 2, [ShLin 0%nat 1 0; ShLin 1%nat 1 0], [ShLin 0%nat 1 1; ShLin 1%nat 1 (-1)], Some (cN 1));
  (3, 3, [ShLin 0%nat 1 0; ShLin 1%nat 1 0], [ShLin 0%nat 1 1; ShLin 1%nat 1 (-1)], Some (cN 1));
  (4, 4, [ShLin 0%nat 1 0; ShLin 1%nat 1 0], [ShLin 0%nat 1 1; ShLin 1%nat 1 (-1)], Some (cN 1));
  (5, 5, [ShLin 0%nat 1 0; ShLin 1%nat 1 (-2)], [ShLin 0%nat 1 1; ShLin 1%nat 1 (-3)], Some (cN 1));
  (5, 6, [ShLin 0%nat 1 0; ShLin 1%nat 1 (-2)], [ShLin 0%nat 1 1; ShLin 1%nat 1 (-2)], Some SPSU2T_e0);
  (5, 7, [ShLin 0%nat 1 0; ShLin 1%nat 1 (-2)], [ShLin 0%nat 1 1; ShLin 1%nat 1 (-1)], Some SPSU2T_e1);
  (6, 6, [ShLin 0%nat 1 0; ShLin 1%nat 1 (-1)], [ShLin 0%nat 1 1; ShLin 1%nat 1 (-2)], Some SPSU2T_e2);
  (6, 7, [ShLin 0%nat 1 0; ShLin 1%nat 1 (-1)], [ShLin 0%nat 1 1; ShLin 1%nat 1 (-1)], Some SPSU2T_e3);
  (6, 8, [ShLin 0%nat 1 0; ShLin 1%nat 1 (-1)], [ShLin 0%nat 1 1; ShLin 1%nat 1 0], Some SPSU2T_e4);
  (7, 7, [ShLin 0%nat 1 0; ShLin 1%nat 1 0], [ShLin 0%nat 1 1; ShLin 1%nat 1 (-1)], Some SPSU2T_e5);
  (7, 8, [ShLin 0%nat 1 0; ShLin 1%nat 1 0], [ShLin 0%nat 1 1; ShLin 1%nat 1 0], Some SPSU2T_e6);
  (7, 9, [ShLin 0%nat 1 0; ShLin 1%nat 1 0], [ShLin 0%nat 1 1; ShLin 1%nat 1 1], Some SPSU2T_e7);
  (8, 8, [ShLin 0%nat 1 0; ShLin 1%nat 1 1], [ShLin 0%nat 1 1; ShLin 1%nat 1 0], Some SPSU2T_e8);
  (8, 9, [ShLin 0%nat 1 0; ShLin 1%nat 1 1], [ShLin 0%nat 1 1; ShLin 1%nat 1 1], Some SPSU2T_e9);
  (9, 9, [ShLin 0%nat 1 0; ShLin 1%nat 1 2], [ShLin 0%nat 1 1; ShLin 1%nat 1 1], Some SPSU2T_e10);
  (10, 10, [ShLin 0%nat 1 0; ShLin 1%nat 1 (-2)], [ShLin 0%nat 1 1; ShLin 1%nat 1 (-3)], Some (cN 1));
  (10, 11, [ShLin 0%nat 1 0; ShLin 1%nat 1 (-2)], [ShLin 0%nat 1 1; ShLin 1%nat 1 (-2)], Some SPSU2T_e0);
  (10, 12, [ShLin 0%nat 1 0; ShLin 1%nat 1 (-2)], [ShLin 0%nat 1 1; ShLin 1%nat 1 (-1)], Some SPSU2T_e1);
  (11, 11, [ShLin 0%nat 1 0; ShLin 1%nat 1 (-1)], [ShLin 0%nat 1 1; ShLin 1%nat 1 (-2)], Some SPSU2T_e2);
  (11, 12, [ShLin 0%nat 1 0; ShLin 1%nat 1 (-1)], [ShLin 0%nat 1 1; ShLin 1%nat 1 (-1)], Some SPSU2T_e3);
  (11, 13, [ShLin 0%nat 1 0; ShLin 1%nat 1 (-1)], [ShLin 0%nat 1 1; ShLin 1%nat 1 0], Some SPSU2T_e4);
  (12, 12, [ShLin 0%nat 1 0; ShLin 1%nat 1 0], [ShLin 0%nat 1 1; ShLin 1%nat 1 (-1)], Some SPSU2T_e5);
  (12, 13, [ShLin 0%nat 1 0; ShLin 1%nat 1 0], [ShLin 0%nat 1 1; ShLin 1%nat 1 0], Some SPSU2T_e6);
  (12, 14, [ShLin 0%nat 1 0; ShLin 1%nat 1 0], [ShLin 0%nat 1 1; ShLin 1%nat 1 1], Some SPSU2T_e7);
  (13, 13, [ShLin 0%nat 1 0; ShLin 1%nat 1 1], [ShLin 0%nat 1 1; ShLin 1%nat 1 0], Some SPSU2T_e8);
  (13, 14, [ShLin 0%nat 1 0; ShLin 1%nat 1 1], [ShLin 0%nat 1 1; ShLin 1%nat 1 1], Some SPSU2T_e9);
  (14, 14, [ShLin 0%nat 1 0; ShLin 1%nat 1 2], [ShLin 0%nat 1 1; ShLin 1%nat 1 1], Some SPSU2T_e10);
  (15, 15, [ShLin 0%nat 1 (-1); ShLin 1%nat 1 (-1)], [ShLin 0%nat 1 0; ShLin 1%nat 1 (-2)], Some SPSU2T_e11);
  (15, 16, [ShLin 0%nat 1 (-1); ShLin 1%nat 1 (-1)], [ShLin 0%nat 1 0; ShLin 1%nat 1 (-1)], Some SPSU2T_e12);
  (15, 17, [ShLin 0%nat 1 (-1); ShLin 1%nat 1 (-1)], [ShLin 0%nat 1 0; ShLin 1%nat 1 0], Some SPSU2T_e13);
  (16, 16, [ShLin 0%nat 1 (-1); ShLin 1%nat 1 0], [ShLin 0%nat 1 0; ShLin 1%nat 1 (-1)], Some SPSU2T_e14);
  (16, 17, [ShLin 0%nat 1 (-1); ShLin 1%nat 1 0], [ShLin 0%nat 1 0; ShLin 1%nat 1 0], Some SPSU2T_e15);
  (17, 17, [ShLin 0%nat 1 (-1); ShLin 1%nat 1 1], [ShLin 0%nat 1 0; ShLin 1%nat 1 0], Some SPSU2T_e16);
  (18, 15, [ShLin 0%nat 1 1; ShLin 1%nat 1 (-1)], [ShLin 0%nat 1 0; ShLin 1%nat 1 (-2)], Some SPSU2T_e17);
  (18, 16, [ShLin 0%nat 1 1; ShLin 1%nat 1 (-1)], [ShLin 0%nat 1 0; ShLin 1%nat 1 (-1)], Some SPSU2T_e18);
  (18, 17, [ShLin 0%nat 1 1; ShLin 1%nat 1 (-1)], [ShLin 0%nat 1 0; ShLin 1%nat 1 0], Some SPSU2T_e19);
  (18, 18, [ShLin 0%nat 1 1; ShLin 1%nat 1 (-1)], [ShLin 0%nat 1 2; ShLin 1%nat 1 (-2)], Some (cN (-1)));
  (18, 19, [ShLin 0%nat 1 1; ShLin 1%nat 1 (-1)], [ShLin 0%nat 1 2; ShLin 1%nat 1 (-1)], Some (cO (cD (cN 1) (cV 1))));
  (18, 20, [ShLin 0%nat 1 1; ShLin 1%nat 1 (-1)], [ShLin 0%nat 1 2; ShLin 1%nat 1 0], Some SPSU2T_e20);
  (19, 16, [ShLin 0%nat 1 1; ShLin 1%nat 1 0], [ShLin 0%nat 1 0; ShLin 1%nat 1 (-1)], Some SPSU2T_e21);
  (19, 17, [ShLin 0%nat 1 1; ShLin 1%nat 1 0], [ShLin 0%nat 1 0; ShLin 1%nat 1 0], Some SPSU2T_e22);
  (19, 19, [ShLin 0%nat 1 1; ShLin 1%nat 1 0], [ShLin 0%nat 1 2; ShLin 1%nat 1 (-1)], Some SPSU2T_e23);
  (19, 20, [ShLin 0%nat 1 1; ShLin 1%nat 1 0], [ShLin 0%nat 1 2; ShLin 1%nat 1 0], Some SPSU2T_e24);
  (20, 17, [ShLin 0%nat 1 1; ShLin 1%nat 1 1], [ShLin 0%nat 1 0; ShLin 1%nat 1 0], Some SPSU2T_e25);
  (20, 20, [ShLin 0%nat 1 1; ShLin 1%nat 1 1], [ShLin 0%nat 1 2; ShLin 1%nat 1 0], Some SPSU2T_e26);
  (21, 21, [ShLin 0%nat 1 (-1); ShLin 1%nat 1 (-1)], [ShLin 0%nat 1 0; ShLin 1%nat 1 (-2)], Some SPSU2T_e11);
  (21, 22, [ShLin 0%nat 1 (-1); ShLin 1%nat 1 (-1)], [ShLin 0%nat 1 0; ShLin 1%nat 1 (-1)], Some SPSU2T_e12);
  (21, 23, [ShLin 0%nat 1 (-1); ShLin 1%nat 1 (-1)], [ShLin 0%nat 1 0; ShLin 1%nat 1 0], Some SPSU2T_e13);
  (22, 22, [ShLin 0%nat 1 (-1); ShLin 1%nat 1 0], [ShLin 0%nat 1 0; ShLin 1%nat 1 (-1)], Some SPSU2T_e14);
  (22, 23, [ShLin 0%nat 1 (-1); ShLin 1%nat 1 0], [ShLin 0%nat 1 0; ShLin 1%nat 1 0], Some SPSU2T_e15);
  (23, 23, [ShLin 0%nat 1 (-1); ShLin 1%nat 1 1], [ShLin 0%nat 1 0; ShLin 1%nat 1 0], Some SPSU2T_e16);
  (24, 21, [ShLin 0%nat 1 1; ShLin 1%nat 1 (-1)], [ShLin 0%nat 1 0; ShLin 1%nat 1 (-2)], Some SPSU2T_e17);
  (24, 22, [ShLin 0%nat 1 1; ShLin 1%nat 1 (-1)], [ShLin 0%nat 1 0; ShLin 1%nat 1 (-1)], Some SPSU2T_e18);
  (24, 23, [ShLin 0%nat 1 1; ShLin 1%nat 1 (-1)], [ShLin 0%nat 1 0; ShLin 1%nat 1 0], Some SPSU2T_e19);
  (24, 24, [ShLin 0%nat 1 1; ShLin 1%nat 1 (-1)], [ShLin 0%nat 1 2; ShLin 1%nat 1 (-2)], Some (cN (-1)));
  (24, 25, [ShLin 0%nat 1 1; ShLin 1%nat 1 (-1)], [ShLin 0%nat 1 2; ShLin 1%nat 1 (-1)], Some (cO (cD (cN 1) (cV 1))));
  (24, 26, [ShLin 0%nat 1 1; ShLin 1%nat 1 (-1)], [ShLin 0%nat 1 2; ShLin 1%nat 1 0], Some SPSU2T_e20);
  (25, 22, [ShLin 0%nat 1 1; ShLin 1%nat 1 0], [ShLin 0%nat 1 0; ShLin 1%nat 1 (-1)], Some SPSU2T_e21);
  (25, 23, [ShLin 0%nat 1 1; ShLin 1%nat 1 0], [ShLin 0%nat 1 0; ShLin 1%nat 1 0], Some SPSU2T_e27);
  (25, 25, [ShLin 0%nat 1 1; ShLin 1%nat 1 0], [ShLin 0%nat 1 2; ShLin 1%nat 1 (-1)], Some SPSU2T_e23);
  (25, 26, [ShLin 0%nat 1 1; ShLin 1%nat 1 0], [ShLin 0%nat 1 2; ShLin 1%nat 1 0], Some SPSU2T_e24);
  (26, 23, [ShLin 0%nat 1 1; ShLin 1%nat 1 1], [ShLin 0%nat 1 0; ShLin 1%nat 1 0], Some SPSU2T_e28);
  (26, 26, [ShLin 0%nat 1 1; ShLin 1%nat 1 1], [ShLin 0%nat 1 2; ShLin 1%nat 1 0], Some SPSU2T_e29);
  (27, 27, [ShLin 0%nat 1 (-1); ShLin 1%nat 1 (-1)], [ShLin 0%nat 1 0; ShLin 1%nat 1 (-2)], Some SPSU2T_e11);
  (27, 28, [ShLin 0%nat 1 (-1); ShLin 1%nat 1 (-1)], [ShLin 0%nat 1 0; ShLin 1%nat 1 (-1)], Some SPSU2T_e12);
  (27, 29, [ShLin 0%nat 1 (-1); ShLin 1%nat 1 (-1)], [ShLin 0%nat 1 0; ShLin 1%nat 1 0], Some SPSU2T_e13);
  (28, 28, [ShLin 0%nat 1 (-1); ShLin 1%nat 1 0], [ShLin 0%nat 1 0; ShLin 1%nat 1 (-1)], Some SPSU2T_e14);
  (28, 29, [ShLin 0%nat 1 (-1); ShLin 1%nat 1 0], [ShLin 0%nat 1 0; ShLin 1%nat 1 0], Some SPSU2T_e15);
  (29, 29, [ShLin 0%nat 1 (-1); ShLin 1%nat 1 1], [ShLin 0%nat 1 0; ShLin 1%nat 1 0], Some SPSU2T_e16);
  (30, 27, [ShLin 0%nat 1 1; ShLin 1%nat 1 (-1)], [ShLin 0%nat 1 0; ShLin 1%nat 1 (-2)], Some SPSU2T_e17);
  (30, 28, [ShLin 0%nat 1 1; ShLin 1%nat 1 (-1)], [ShLin 0%nat 1 0; ShLin 1%nat 1 (-1)], Some SPSU2T_e18);
  (30, 29, [ShLin 0%nat 1 1; ShLin 1%nat 1 (-1)], [ShLin 0%nat 1 0; ShLin 1%nat 1 0], Some SPSU2T_e19);
  (30, 30, [ShLin 0%nat 1 1; ShLin 1%nat 1 (-1)], [ShLin 0%nat 1 2; ShLin 1%nat 1 (-2)], Some (cN (-1)));
  (30, 31, [ShLin 0%nat 1 1; ShLin 1%nat 1 (-1)], [ShLin 0%nat 1 2; ShLin 1%nat 1 (-1)], Some (cO (cD (cN 1) (cV 1))));
  (30, 32, [ShLin 0%nat 1 1; ShLin 1%nat 1 (-1)], [ShLin 0%nat 1 2; ShLin 1%nat 1 0], Some SPSU2T_e20);
  (31, 28, [ShLin 0%nat 1 1; ShLin 1%nat 1 0], [ShLin 0%nat 1 0; ShLin 1%nat 1 (-1)], Some SPSU2T_e21);
  (31, 29, [ShLin 0%nat 1 1; ShLin 1%nat 1 0], [ShLin 0%nat 1 0; ShLin 1%nat 1 0], Some SPSU2T_e22);
  (31, 31, [ShLin 0%nat 1 1; ShLin 1%nat 1 0], [ShLin 0%nat 1 2; ShLin 1%nat 1 (-1)], Some SPSU2T_e23);
  (31, 32, [ShLin 0%nat 1 1; ShLin 1%nat 1 0], [ShLin 0%nat 1 2; ShLin 1%nat 1 0], Some SPSU2T_e24);
  (32, 29, [ShLin 0%nat 1 1; ShLin 1%nat 1 1], [ShLin 0%nat 1 0; ShLin 1%nat 1 0], Some SPSU2T_e25);
  (32, 32, [ShLin 0%nat 1 1; ShLin 1%nat 1 1], [ShLin 0%nat 1 2; ShLin 1%nat 1 0], Some SPSU2T_e26);
  (33, 33, [ShLin 0%nat 1 (-1); ShLin 1%nat 1 (-2)], [ShLin 0%nat 1 0; ShLin 1%nat 1 (-3)], Some SPSU2T_e11);
  (33, 34, [ShLin 0%nat 1 (-1); ShLin 1%nat 1 (-2)], [ShLin 0%nat 1 0; ShLin 1%nat 1 (-2)], Some SPSU2T_e30);
  (33, 35, [ShLin 0%nat 1 (-1); ShLin 1%nat 1 (-2)], [ShLin 0%nat 1 0; ShLin 1%nat 1 (-1)], Some SPSU2T_e31);
  (34, 34, [ShLin 0%nat 1 (-1); ShLin 1%nat 1 (-1)], [ShLin 0%nat 1 0; ShLin 1%nat 1 (-2)], Some SPSU2T_e32);
  (34, 35, [ShLin 0%nat 1 (-1); ShLin 1%nat 1 (-1)], [ShLin 0%nat 1 0; ShLin 1%nat 1 (-1)], Some SPSU2T_e33);
  (34, 36, [ShLin 0%nat 1 (-1); ShLin 1%nat 1 (-1)], [ShLin 0%nat 1 0; ShLin 1%nat 1 0], Some SPSU2T_e34);
  (35, 35, [ShLin 0%nat 1 (-1); ShLin 1%nat 1 0], [ShLin 0%nat 1 0; ShLin 1%nat 1 (-1)], Some SPSU2T_e35);
  (35, 36, [ShLin 0%nat 1 (-1); ShLin 1%nat 1 0], [ShLin 0%nat 1 0; ShLin 1%nat 1 0], Some SPSU2T_e36);
  (35, 37, [ShLin 0%nat 1 (-1); ShLin 1%nat 1 0], [ShLin 0%nat 1 0; ShLin 1%nat 1 1], Some SPSU2T_e37);
  (36, 36, [ShLin 0%nat 1 (-1); ShLin 1%nat 1 1], [ShLin 0%nat 1 0; ShLin 1%nat 1 0], Some SPSU2T_e38);
  (36, 37, [ShLin 0%nat 1 (-1); ShLin 1%nat 1 1], [ShLin 0%nat 1 0; ShLin 1%nat 1 1], Some SPSU2T_e39);
  (37, 37, [ShLin 0%nat 1 (-1); ShLin 1%nat 1 2], [ShLin 0%nat 1 0; ShLin 1%nat 1 1], Some SPSU2T_e40);
  (38, 33, [ShLin 0%nat 1 1; ShLin 1%nat 1 (-2)], [ShLin 0%nat 1 0; ShLin 1%nat 1 (-3)], Some SPSU2T_e17);
  (38, 34, [ShLin 0%nat 1 1; ShLin 1%nat 1 (-2)], [ShLin 0%nat 1 0; ShLin 1%nat 1 (-2)], Some SPSU2T_e41);
  (38, 35, [ShLin 0%nat 1 1; ShLin 1%nat 1 (-2)], [ShLin 0%nat 1 0; ShLin 1%nat 1 (-1)], Some SPSU2T_e42);
  (38, 38, [ShLin 0%nat 1 1; ShLin 1%nat 1 (-2)], [ShLin 0%nat 1 2; ShLin 1%nat 1 (-3)], Some (cN (-1)));
  (38, 39, [ShLin 0%nat 1 1; ShLin 1%nat 1 (-2)], [ShLin 0%nat 1 2; ShLin 1%nat 1 (-2)], Some SPSU2T_e43);
  (38, 40, [ShLin 0%nat 1 1; ShLin 1%nat 1 (-2)], [ShLin 0%nat 1 2; ShLin 1%nat 1 (-1)], Some SPSU2T_e44);
  (39, 34, [ShLin 0%nat 1 1; ShLin 1%nat 1 (-1)], [ShLin 0%nat 1 0; ShLin 1%nat 1 (-2)], Some SPSU2T_e45);
  (39, 35, [ShLin 0%nat 1 1; ShLin 1%nat 1 (-1)], [ShLin 0%nat 1 0; ShLin 1%nat 1 (-1)], Some SPSU2T_e46);
  (39, 36, [ShLin 0%nat 1 1; ShLin 1%nat 1 (-1)], [ShLin 0%nat 1 0; ShLin 1%nat 1 0], Some SPSU2T_e47);
  (39, 39, [ShLin 0%nat 1 1; ShLin 1%nat 1 (-1)], [ShLin 0%nat 1 2; ShLin 1%nat 1 (-2)], Some SPSU2T_e48);
  (39, 40, [ShLin 0%nat 1 1; ShLin 1%nat 1 (-1)], [ShLin 0%nat 1 2; ShLin 1%nat 1 (-1)], Some SPSU2T_e49);
  (39, 41, [ShLin 0%nat 1 1; ShLin 1%nat 1 (-1)], [ShLin 0%nat 1 2; ShLin 1%nat 1 0], Some SPSU2T_e50);
  (40, 35, [ShLin 0%nat 1 1; ShLin 1%nat 1 0], [ShLin 0%nat 1 0; ShLin 1%nat 1 (-1)], Some SPSU2T_e51);
  (40, 36, [ShLin 0%nat 1 1; ShLin 1%nat 1 0], [ShLin 0%nat 1 0; ShLin 1%nat 1 0], Some SPSU2T_e52);
  (40, 37, [ShLin 0%nat 1 1; ShLin 1%nat 1 0], [ShLin 0%nat 1 0; ShLin 1%nat 1 1], Some SPSU2T_e53);
  (40, 40, [ShLin 0%nat 1 1; ShLin 1%nat 1 0], [ShLin 0%nat 1 2; ShLin 1%nat 1 (-1)], Some SPSU2T_e54);
  (40, 41, [ShLin 0%nat 1 1; ShLin 1%nat 1 0], [ShLin 0%nat 1 2; ShLin 1%nat 1 0], Some SPSU2T_e55);
  (40, 42, [ShLin 0%nat 1 1; ShLin 1%nat 1 0], [ShLin 0%nat 1 2; ShLin 1%nat 1 1], Some SPSU2T_e56);
  (41, 36, [ShLin 0%nat 1 1; ShLin 1%nat 1 1], [ShLin 0%nat 1 0; ShLin 1%nat 1 0], Some SPSU2T_e57);
  (41, 37, [ShLin 0%nat 1 1; ShLin 1%nat 1 1], [ShLin 0%nat 1 0; ShLin 1%nat 1 1], Some SPSU2T_e58);
  (41, 41, [ShLin 0%nat 1 1; ShLin 1%nat 1 1], [ShLin 0%nat 1 2; ShLin 1%nat 1 0], Some SPSU2T_e59);
  (41, 42, [ShLin 0%nat 1 1; ShLin 1%nat 1 1], [ShLin 0%nat 1 2; ShLin 1%nat 1 1], Some SPSU2T_e60);
  (42, 37, [ShLin 0%nat 1 1; ShLin 1%nat 1 2], [ShLin 0%nat 1 0; ShLin 1%nat 1 1], Some SPSU2T_e61);
  (42, 42, [ShLin 0%nat 1 1; ShLin 1%nat 1 2], [ShLin 0%nat 1 2; ShLin 1%nat 1 1], Some SPSU2T_e62);
  (43, 43, [ShLin 0%nat 1 (-2); ShLin 1%nat 1 (-1)], [ShLin 0%nat 1 (-1); ShLin 1%nat 1 (-2)], Some SPSU2T_e63);
  (43, 44, [ShLin 0%nat 1 (-2); ShLin 1%nat 1 (-1)], [ShLin 0%nat 1 (-1); ShLin 1%nat 1 (-1)], Some SPSU2T_e64);
  (43, 45, [ShLin 0%nat 1 (-2); ShLin 1%nat 1 (-1)], [ShLin 0%nat 1 (-1); ShLin 1%nat 1 0], Some SPSU2T_e65);
  (44, 44, [ShLin 0%nat 1 (-2); ShLin 1%nat 1 0], [ShLin 0%nat 1 (-1); ShLin 1%nat 1 (-1)], Some SPSU2T_e66);
  (44, 45, [ShLin 0%nat 1 (-2); ShLin 1%nat 1 0], [ShLin 0%nat 1 (-1); ShLin 1%nat 1 0], Some SPSU2T_e67);
  (45, 45, [ShLin 0%nat 1 (-2); ShLin 1%nat 1 1], [ShLin 0%nat 1 (-1); ShLin 1%nat 1 0], Some SPSU2T_e68);
  (46, 43, [ShLin 0%nat 1 0; ShLin 1%nat 1 (-1)], [ShLin 0%nat 1 (-1); ShLin 1%nat 1 (-2)], Some SPSU2T_e69);
  (46, 44, [ShLin 0%nat 1 0; ShLin 1%nat 1 (-1)], [ShLin 0%nat 1 (-1); ShLin 1%nat 1 (-1)], Some SPSU2T_e70);
  (46, 45, [ShLin 0%nat 1 0; ShLin 1%nat 1 (-1)], [ShLin 0%nat 1 (-1); ShLin 1%nat 1 0], Some SPSU2T_e71);
  (46, 46, [ShLin 0%nat 1 0; ShLin 1%nat 1 (-1)], [ShLin 0%nat 1 1; ShLin 1%nat 1 (-2)], Some SPSU2T_e72);
  (46, 47, [ShLin 0%nat 1 0; ShLin 1%nat 1 (-1)], [ShLin 0%nat 1 1; ShLin 1%nat 1 (-1)], Some SPSU2T_e73);
  (46, 48, [ShLin 0%nat 1 0; ShLin 1%nat 1 (-1)], [ShLin 0%nat 1 1; ShLin 1%nat 1 0], Some SPSU2T_e74);
  (47, 44, [ShLin 0%nat 1 0; ShLin 1%nat 1 0], [ShLin 0%nat 1 (-1); ShLin 1%nat 1 (-1)], Some SPSU2T_e75);
  (47, 45, [ShLin 0%nat 1 0; ShLin 1%nat 1 0], [ShLin 0%nat 1 (-1); ShLin 1%nat 1 0], Some SPSU2T_e76);
  (47, 47, [ShLin 0%nat 1 0; ShLin 1%nat 1 0], [ShLin 0%nat 1 1; ShLin 1%nat 1 (-1)], Some SPSU2T_e77);
  (47, 48, [ShLin 0%nat 1 0; ShLin 1%nat 1 0], [ShLin 0%nat 1 1; ShLin 1%nat 1 0], Some SPSU2T_e78);
  (48, 45, [ShLin 0%nat 1 0; ShLin 1%nat 1 1], [ShLin 0%nat 1 (-1); ShLin 1%nat 1 0], Some SPSU2T_e79);
  (48, 48, [ShLin 0%nat 1 0; ShLin 1%nat 1 1], [ShLin 0%nat 1 1; ShLin 1%nat 1 0], Some SPSU2T_e80);
  (49, 46, [ShLin 0%nat 1 2; ShLin 1%nat 1 (-1)], [ShLin 0%nat 1 1; ShLin 1%nat 1 (-2)], Some SPSU2T_e81);
  (49, 47, [ShLin 0%nat 1 2; ShLin 1%nat 1 (-1)], [ShLin 0%nat 1 1; ShLin 1%nat 1 (-1)], Some SPSU2T_e82);
  (49, 48, [ShLin 0%nat 1 2; ShLin 1%nat 1 (-1)], [ShLin 0%nat 1 1; ShLin 1%nat 1 0], Some SPSU2T_e83);
  (49, 49, [ShLin 0%nat 1 2; ShLin 1%nat 1 (-1)], [ShLin 0%nat 1 3; ShLin 1%nat 1 (-2)], Some (cN 1));
  (49, 50, [ShLin 0%nat 1 2; ShLin 1%nat 1 (-1)], [ShLin 0%nat 1 3; ShLin 1%nat 1 (-1)], Some (cD (cN 1) (cV 1)));
  (49, 51, [ShLin 0%nat 1 2; ShLin 1%nat 1 (-1)], [ShLin 0%nat 1 3; ShLin 1%nat 1 0], Some SPSU2T_e84);
  (50, 47, [ShLin 0%nat 1 2; ShLin 1%nat 1 0], [ShLin 0%nat 1 1; ShLin 1%nat 1 (-1)], Some SPSU2T_e85);
  (50, 48, [ShLin 0%nat 1 2; ShLin 1%nat 1 0], [ShLin 0%nat 1 1; ShLin 1%nat 1 0], Some SPSU2T_e86);
  (50, 50, [ShLin 0%nat 1 2; ShLin 1%nat 1 0], [ShLin 0%nat 1 3; ShLin 1%nat 1 (-1)], Some SPSU2T_e87);
  (50, 51, [ShLin 0%nat 1 2; ShLin 1%nat 1 0], [ShLin 0%nat 1 3; ShLin 1%nat 1 0], Some SPSU2T_e88);
  (51, 48, [ShLin 0%nat 1 2; ShLin 1%nat 1 1], [ShLin 0%nat 1 1; ShLin 1%nat 1 0], Some SPSU2T_e89);
  (51, 51, [ShLin 0%nat 1 2; ShLin 1%nat 1 1], [ShLin 0%nat 1 3; ShLin 1%nat 1 0], Some SPSU2T_e90);
  (52, 52, [ShLin 0%nat 1 (-2); ShLin 1%nat 1 (-1)], [ShLin 0%nat 1 (-1); ShLin 1%nat 1 (-2)], Some SPSU2T_e63);
  (52, 53, [ShLin 0%nat 1 (-2); ShLin 1%nat 1 (-1)], [ShLin 0%nat 1 (-1); ShLin 1%nat 1 (-1)], Some SPSU2T_e64);
  (52, 54, [ShLin 0%nat 1 (-2); ShLin 1%nat 1 (-1)], [ShLin 0%nat 1 (-1); ShLin 1%nat 1 0], Some SPSU2T_e65);
  (53, 53, [ShLin 0%nat 1 (-2); ShLin 1%nat 1 0], [ShLin 0%nat 1 (-1); ShLin 1%nat 1 (-1)], Some SPSU2T_e66);
  (53, 54, [ShLin 0%nat 1 (-2); ShLin 1%nat 1 0], [ShLin 0%nat 1 (-1); ShLin 1%nat 1 0], Some SPSU2T_e67);
  (54, 54, [ShLin 0%nat 1 (-2); ShLin 1%nat 1 1], [ShLin 0%nat 1 (-1); ShLin 1%nat 1 0], Some SPSU2T_e68);
  (55, 52, [ShLin 0%nat 1 0; ShLin 1%nat 1 (-1)], [ShLin 0%nat 1 (-1); ShLin 1%nat 1 (-2)], Some SPSU2T_e69);
  (55, 53, [ShLin 0%nat 1 0; ShLin 1%nat 1 (-1)], [ShLin 0%nat 1 (-1); ShLin 1%nat 1 (-1)], Some SPSU2T_e70);
  (55, 54, [ShLin 0%nat 1 0; ShLin 1%nat 1 (-1)], [ShLin 0%nat 1 (-1); ShLin 1%nat 1 0], Some SPSU2T_e71);
  (55, 55, [ShLin 0%nat 1 0; ShLin 1%nat 1 (-1)], [ShLin 0%nat 1 1; ShLin 1%nat 1 (-2)], Some SPSU2T_e72);
  (55, 56, [ShLin 0%nat 1 0; ShLin 1%nat 1 (-1)], [ShLin 0%nat 1 1; ShLin 1%nat 1 (-1)], Some SPSU2T_e73);
  (55, 57, [ShLin 0%nat 1 0; ShLin 1%nat 1 (-1)], [ShLin 0%nat 1 1; ShLin 1%nat 1 0], Some SPSU2T_e74);
  (56, 53, [ShLin 0%nat 1 0; ShLin 1%nat 1 0], [ShLin 0%nat 1 (-1); ShLin 1%nat 1 (-1)], Some SPSU2T_e75);
  (56, 54, [ShLin 0%nat 1 0; ShLin 1%nat 1 0], [ShLin 0%nat 1 (-1); ShLin 1%nat 1 0], Some SPSU2T_e76);
  (56, 56, [ShLin 0%nat 1 0; ShLin 1%nat 1 0], [ShLin 0%nat 1 1; ShLin 1%nat 1 (-1)], Some SPSU2T_e77);
  (56, 57, [ShLin 0%nat 1 0; ShLin 1%nat 1 0], [ShLin 0%nat 1 1; ShLin 1%nat 1 0], Some SPSU2T_e78);
  (57, 54, [ShLin 0%nat 1 0; ShLin 1%nat 1 1], [ShLin 0%nat 1 (-1); ShLin 1%nat 1 0], Some SPSU2T_e79);
  (57, 57, [ShLin 0%nat 1 0; ShLin 1%nat 1 1], [ShLin 0%nat 1 1; ShLin 1%nat 1 0], Some SPSU2T_e80);
  (58, 55, [ShLin 0%nat 1 2; ShLin 1%nat 1 (-1)], [ShLin 0%nat 1 1; ShLin 1%nat 1 (-2)], Some SPSU2T_e81);
  (58, 56, [ShLin 0%nat 1 2; ShLin 1%nat 1 (-1)], [ShLin 0%nat 1 1; ShLin 1%nat 1 (-1)], Some SPSU2T_e82);
  (58, 57, [ShLin 0%nat 1 2; ShLin 1%nat 1 (-1)], [ShLin 0%nat 1 1; ShLin 1%nat 1 0], Some SPSU2T_e83);
  (58, 58, [ShLin 0%nat 1 2; ShLin 1%nat 1 (-1)], [ShLin 0%nat 1 3; ShLin 1%nat 1 (-2)], Some (cN 1));
  (58, 59, [ShLin 0%nat 1 2; ShLin 1%nat 1 (-1)], [ShLin 0%nat 1 3; ShLin 1%nat 1 (-1)], Some (cD (cN 1) (cV 1)));
  (58, 60, [ShLin 0%nat 1 2; ShLin 1%nat 1 (-1)], [ShLin 0%nat 1 3; ShLin 1%nat 1 0], Some SPSU2T_e84);
  (59, 56, [ShLin 0%nat 1 2; ShLin 1%nat 1 0], [ShLin 0%nat 1 1; ShLin 1%nat 1 (-1)], Some SPSU2T_e85);
  (59, 57, [ShLin 0%nat 1 2; ShLin 1%nat 1 0], [ShLin 0%nat 1 1; ShLin 1%nat 1 0], Some SPSU2T_e86);
  (59, 59, [ShLin 0%nat 1 2; ShLin 1%nat 1 0], [ShLin 0%nat 1 3; ShLin 1%nat 1 (-1)], Some SPSU2T_e87);
  (59, 60, [ShLin 0%nat 1 2; ShLin 1%nat 1 0], [ShLin 0%nat 1 3; ShLin 1%nat 1 0], Some SPSU2T_e88);
  (60, 57, [ShLin 0%nat 1 2; ShLin 1%nat 1 1], [ShLin 0%nat 1 1; ShLin 1%nat 1 0], Some SPSU2T_e89);
  (60, 60, [ShLin 0%nat 1 2; ShLin 1%nat 1 1], [ShLin 0%nat 1 3; ShLin 1%nat 1 0], Some SPSU2T_e90);
  (61, 61, [ShLin 0%nat 1 (-3); ShLin 1%nat 1 0], [ShLin 0%nat 1 (-2); ShLin 1%nat 1 (-1)], Some SPSU2T_e91);
  (62, 61, [ShLin 0%nat 1 (-1); ShLin 1%nat 1 0], [ShLin 0%nat 1 (-2); ShLin 1%nat 1 (-1)], Some SPSU2T_e92);
  (62, 62, [ShLin 0%nat 1 (-1); ShLin 1%nat 1 0], [ShLin 0%nat 1 0; ShLin 1%nat 1 (-1)], Some SPSU2T_e93);
  (63, 62, [ShLin 0%nat 1 1; ShLin 1%nat 1 0], [ShLin 0%nat 1 0; ShLin 1%nat 1 (-1)], Some SPSU2T_e94);
  (63, 63, [ShLin 0%nat 1 1; ShLin 1%nat 1 0], [ShLin 0%nat 1 2; ShLin 1%nat 1 (-1)], Some SPSU2T_e95);
  (64, 63, [ShLin 0%nat 1 3; ShLin 1%nat 1 0], [ShLin 0%nat 1 2; ShLin 1%nat 1 (-1)], Some SPSU2T_e96);
  (64, 64, [ShLin 0%nat 1 3; ShLin 1%nat 1 0], [ShLin 0%nat 1 4; ShLin 1%nat 1 (-1)], Some (cN (-1)))].
(** /repo/c++/symmetry/nrg-recalc-SPSU2T.hpp recalc_doublet, spsu2t/spsu2t-doubletm-1.dat *)
Definition spsu2t_t1 : ten_table := mk_ten "doublet" [ShLin 0%nat 1 (-1); ShLin 1%nat 1 (-1)] [1; 2; 1] [
  (1, 1, [ShLin 0%nat 1 0; ShLin 1%nat 1 0], [ShLin 0%nat 1 (-1); ShLin 1%nat 1 (-1)], Some (cN 1));
  (2, 2, [ShLin 0%nat 1 0; ShLin 1%nat 1 0], [ShLin 0%nat 1 (-1); ShLin 1%nat 1 (-1)], Some (cN 1));
  (3, 3, [ShLin 0%nat 1 0; ShLin 1%nat 1 0], [ShLin 0%nat 1 (-1); ShLin 1%nat 1 (-1)], Some (cN 1));
  (4, 4, [ShLin 0%nat 1 0; ShLin 1%nat 1 0], [ShLin 0%nat 1 (-1); ShLin 1%nat 1 (-1)], Some (cN 1));
  (5, 5, [ShLin 0%nat 1 0; ShLin 1%nat 1 (-2)], [ShLin 0%nat 1 (-1); ShLin 1%nat 1 (-3)], Some (cN 1));
  (5, 6, [ShLin 0%nat 1 0; ShLin 1%nat 1 (-2)], [ShLin 0%nat 1 (-1); ShLin 1%nat 1 (-2)], Some SPSU2T_e0);
  (5, 7, [ShLin 0%nat 1 0; ShLin 1%nat 1 (-2)], [ShLin 0%nat 1 (-1); ShLin 1%nat 1 (-1)], Some SPSU2T_e1);
  (6, 6, [ShLin 0%nat 1 0; ShLin 1%nat 1 (-1)], [ShLin 0%nat 1 (-1); ShLin 1%nat 1 (-2)], Some SPSU2T_e2);
  (6, 7, [ShLin 0%nat 1 0; ShLin 1%nat 1 (-1)], [ShLin 0%nat 1 (-1); ShLin 1%nat 1 (-1)], Some SPSU2T_e3);
  (6, 8, [ShLin 0%nat 1 0; ShLin 1%nat 1 (-1)], [ShLin 0%nat 1 (-1); ShLin 1%nat 1 0], Some SPSU2T_e4);
  (7, 7, [ShLin 0%nat 1 0; ShLin 1%nat 1 0], [ShLin 0%nat 1 (-1); ShLin 1%nat 1 (-1)], Some SPSU2T_e5);
  (7, 8, [ShLin 0%nat 1 0; ShLin 1%nat 1 0], [ShLin 0%nat 1 (-1); ShLin 1%nat 1 0], Some SPSU2T_e6);
  (7, 9, [ShLin 0%nat 1 0; ShLin 1%nat 1 0], [ShLin 0%nat 1 (-1); ShLin 1%nat 1 1], Some SPSU2T_e7);
  (8, 8, [ShLin 0%nat 1 0; ShLin 1%nat 1 1], [ShLin 0%nat 1 (-1); ShLin 1%nat 1 0], Some SPSU2T_e8);
  (8, 9, [ShLin 0%nat 1 0; ShLin 1%nat 1 1], [ShLin 0%nat 1 (-1); ShLin 1%nat 1 1], Some SPSU2T_e9);
  (9, 9, [ShLin 0%nat 1 0; ShLin 1%nat 1 2], [ShLin 0%nat 1 (-1); ShLin 1%nat 1 1], Some SPSU2T_e10);
  (10, 10, [ShLin 0%nat 1 0; ShLin 1%nat 1 (-2)], [ShLin 0%nat 1 (-1); ShLin 1%nat 1 (-3)], Some (cN 1));
  (10, 11, [ShLin 0%nat 1 0; ShLin 1%nat 1 (-2)], [ShLin 0%nat 1 (-1); ShLin 1%nat 1 (-2)], Some SPSU2T_e0);
  (10, 12, [ShLin 0%nat 1 0; ShLin 1%nat 1 (-2)], [ShLin 0%nat 1 (-1); ShLin 1%nat 1 (-1)], Some SPSU2T_e1);
  (11, 11, [ShLin 0%nat 1 0; ShLin 1%nat 1 (-1)], [ShLin 0%nat 1 (-1); ShLin 1%nat 1 (-2)], Some SPSU2T_e2);
  (11, 12, [ShLin 0%nat 1 0; ShLin 1%nat 1 (-1)], [ShLin 0%nat 1 (-1); ShLin 1%nat 1 (-1)], Some SPSU2T_e3);
  (11, 13, [ShLin 0%nat 1 0; ShLin 1%nat 1 (-1)], [ShLin 0%nat 1 (-1); ShLin 1%nat 1 0], Some SPSU2T_e4);
  (12, 12, [ShLin 0%nat 1 0; ShLin 1%nat 1 0], [ShLin 0%nat 1 (-1); ShLin 1%nat 1 (-1)], Some SPSU2T_e5);
  (12, 13, [ShLin 0%nat 1 0; ShLin 1%nat 1 0], [ShLin 0%nat 1 (-1); ShLin 1%nat 1 0], Some SPSU2T_e6);
  (12, 14, [ShLin 0%nat 1 0; ShLin 1%nat 1 0], [ShLin 0%nat 1 (-1); ShLin 1%nat 1 1], Some SPSU2T_e7);
  (13, 13, [ShLin 0%nat 1 0; ShLin 1%nat 1 1], [ShLin 0%nat 1 (-1); ShLin 1%nat 1 0], Some SPSU2T_e8);
  (13, 14, [ShLin 0%nat 1 0; ShLin 1%nat 1 1], [ShLin 0%nat 1 (-1); ShLin 1%nat 1 1], Some SPSU2T_e9);
  (14, 14, [ShLin 0%nat 1 0; ShLin 1%nat 1 2], [ShLin 0%nat 1 (-1); ShLin 1%nat 1 1], Some SPSU2T_e10);
  (15, 15, [ShLin 0%nat 1 (-1); ShLin 1%nat 1 (-1)], [ShLin 0%nat 1 (-2); ShLin 1%nat 1 (-2)], Some (cN (-1)));
  (15, 16, [ShLin 0%nat 1 (-1); ShLin 1%nat 1 (-1)], [ShLin 0%nat 1 (-2); ShLin 1%nat 1 (-1)], Some (cO (cD (cN 1) (cV 1))));
  (15, 17, [ShLin 0%nat 1 (-1); ShLin 1%nat 1 (-1)], [ShLin 0%nat 1 (-2); ShLin 1%nat 1 0], Some SPSU2T_e20);
  (15, 18, [ShLin 0%nat 1 (-1); ShLin 1%nat 1 (-1)], [ShLin 0%nat 1 0; ShLin 1%nat 1 (-2)], Some SPSU2T_e97);
  (15, 19, [ShLin 0%nat 1 (-1); ShLin 1%nat 1 (-1)], [ShLin 0%nat 1 0; ShLin 1%nat 1 (-1)], Some SPSU2T_e98);
  (15, 20, [ShLin 0%nat 1 (-1); ShLin 1%nat 1 (-1)], [ShLin 0%nat 1 0; ShLin 1%nat 1 0], Some SPSU2T_e99);
  (16, 16, [ShLin 0%nat 1 (-1); ShLin 1%nat 1 0], [ShLin 0%nat 1 (-2); ShLin 1%nat 1 (-1)], Some SPSU2T_e100);
  (16, 17, [ShLin 0%nat 1 (-1); ShLin 1%nat 1 0], [ShLin 0%nat 1 (-2); ShLin 1%nat 1 0], Some SPSU2T_e24);
  (16, 19, [ShLin 0%nat 1 (-1); ShLin 1%nat 1 0], [ShLin 0%nat 1 0; ShLin 1%nat 1 (-1)], Some SPSU2T_e101);
  (16, 20, [ShLin 0%nat 1 (-1); ShLin 1%nat 1 0], [ShLin 0%nat 1 0; ShLin 1%nat 1 0], Some SPSU2T_e102);
  (17, 17, [ShLin 0%nat 1 (-1); ShLin 1%nat 1 1], [ShLin 0%nat 1 (-2); ShLin 1%nat 1 0], Some SPSU2T_e103);
  (17, 20, [ShLin 0%nat 1 (-1); ShLin 1%nat 1 1], [ShLin 0%nat 1 0; ShLin 1%nat 1 0], Some SPSU2T_e104);
  (18, 18, [ShLin 0%nat 1 1; ShLin 1%nat 1 (-1)], [ShLin 0%nat 1 0; ShLin 1%nat 1 (-2)], Some SPSU2T_e11);
  (18, 19, [ShLin 0%nat 1 1; ShLin 1%nat 1 (-1)], [ShLin 0%nat 1 0; ShLin 1%nat 1 (-1)], Some SPSU2T_e12);
  (18, 20, [ShLin 0%nat 1 1; ShLin 1%nat 1 (-1)], [ShLin 0%nat 1 0; ShLin 1%nat 1 0], Some SPSU2T_e13);
  (19, 19, [ShLin 0%nat 1 1; ShLin 1%nat 1 0], [ShLin 0%nat 1 0; ShLin 1%nat 1 (-1)], Some SPSU2T_e105);
  (19, 20, [ShLin 0%nat 1 1; ShLin 1%nat 1 0], [ShLin 0%nat 1 0; ShLin 1%nat 1 0], Some SPSU2T_e106);
  (20, 20, [ShLin 0%nat 1 1; ShLin 1%nat 1 1], [ShLin 0%nat 1 0; ShLin 1%nat 1 0], Some SPSU2T_e107);
  (21, 21, [ShLin 0%nat 1 (-1); ShLin 1%nat 1 (-1)], [ShLin 0%nat 1 (-2); ShLin 1%nat 1 (-2)], Some (cN (-1)));
  (21, 22, [ShLin 0%nat 1 (-1); ShLin 1%nat 1 (-1)], [ShLin 0%nat 1 (-2); ShLin 1%nat 1 (-1)], Some (cO (cD (cN 1) (cV 1))));
  (21, 23, [ShLin 0%nat 1 (-1); ShLin 1%nat 1 (-1)], [ShLin 0%nat 1 (-2); ShLin 1%nat 1 0], Some SPSU2T_e20);
  (21, 24, [ShLin 0%nat 1 (-1); ShLin 1%nat 1 (-1)], [ShLin 0%nat 1 0; ShLin 1%nat 1 (-2)], Some SPSU2T_e97);
  (21, 25, [ShLin 0%nat 1 (-1); ShLin 1%nat 1 (-1)], [ShLin 0%nat 1 0; ShLin 1%nat 1 (-1)], Some SPSU2T_e98);
  (21, 26, [ShLin 0%nat 1 (-1); ShLin 1%nat 1 (-1)], [ShLin 0%nat 1 0; ShLin 1%nat 1 0], Some SPSU2T_e99);
  (22, 22, [ShLin 0%nat 1 (-1); ShLin 1%nat 1 0], [ShLin 0%nat 1 (-2); ShLin 1%nat 1 (-1)], Some SPSU2T_e100);
  (22, 23, [ShLin 0%nat 1 (-1); ShLin 1%nat 1 0], [ShLin 0%nat 1 (-2); ShLin 1%nat 1 0], Some SPSU2T_e24);
  (22, 25, [ShLin 0%nat 1 (-1); ShLin 1%nat 1 0], [ShLin 0%nat 1 0; ShLin 1%nat 1 (-1)], Some SPSU2T_e101);
  (22, 26, [ShLin 0%nat 1 (-1); ShLin 1%nat 1 0], [ShLin 0%nat 1 0; ShLin 1%nat 1 0], Some SPSU2T_e102);
  (23, 23, [ShLin 0%nat 1 (-1); ShLin 1%nat 1 1], [ShLin 0%nat 1 (-2); ShLin 1%nat 1 0], Some SPSU2T_e103);
  (23, 26, [ShLin 0%nat 1 (-1); ShLin 1%nat 1 1], [ShLin 0%nat 1 0; ShLin 1%nat 1 0], Some SPSU2T_e104);
  (24, 24, [ShLin 0%nat 1 1; ShLin 1%nat 1 (-1)], [ShLin 0%nat 1 0; ShLin 1%nat 1 (-2)], Some SPSU2T_e11);
  (24, 25, [ShLin 0%nat 1 1; ShLin 1%nat 1 (-1)], [ShLin 0%nat 1 0; ShLin 1%nat 1 (-1)], Some SPSU2T_e12);
  (24, 26, [ShLin 0%nat 1 1; ShLin 1%nat 1 (-1)], [ShLin 0%nat 1 0; ShLin 1%nat 1 0], Some SPSU2T_e13);
  (25, 25, [ShLin 0%nat 1 1; ShLin 1%nat 1 0], [ShLin 0%nat 1 0; ShLin 1%nat 1 (-1)], Some SPSU2T_e105);
  (25, 26, [ShLin 0%nat 1 1; ShLin 1%nat 1 0], [ShLin 0%nat 1 0; ShLin 1%nat 1 0], Some SPSU2T_e106);
  (26, 26, [ShLin 0%nat 1 1; ShLin 1%nat 1 1], [ShLin 0%nat 1 0; ShLin 1%nat 1 0], Some SPSU2T_e108);
  (27, 27, [ShLin 0%nat 1 (-1); ShLin 1%nat 1 (-1)], [ShLin 0%nat 1 (-2); ShLin 1%nat 1 (-2)], Some (cN (-1)));
  (27, 28, [ShLin 0%nat 1 (-1); ShLin 1%nat 1 (-1)], [ShLin 0%nat 1 (-2); ShLin 1%nat 1 (-1)], Some (cO (cD (cN 1) (cV 1))));
  (27, 29, [ShLin 0%nat 1 (-1); ShLin 1%nat 1 (-1)], [ShLin 0%nat 1 (-2); ShLin 1%nat 1 0], Some SPSU2T_e20);
  (27, 30, [ShLin 0%nat 1 (-1); ShLin 1%nat 1 (-1)], [ShLin 0%nat 1 0; ShLin 1%nat 1 (-2)], Some SPSU2T_e97);
  (27, 31, [ShLin 0%nat 1 (-1); ShLin 1%nat 1 (-1)], [ShLin 0%nat 1 0; ShLin 1%nat 1 (-1)], Some SPSU2T_e98);
  (27, 32, [ShLin 0%nat 1 (-1); ShLin 1%nat 1 (-1)], [ShLin 0%nat 1 0; ShLin 1%nat 1 0], Some SPSU2T_e99);
  (28, 28, [ShLin 0%nat 1 (-1); ShLin 1%nat 1 0], [ShLin 0%nat 1 (-2); ShLin 1%nat 1 (-1)], Some SPSU2T_e100);
  (28, 29, [ShLin 0%nat 1 (-1); ShLin 1%nat 1 0], [ShLin 0%nat 1 (-2); ShLin 1%nat 1 0], Some SPSU2T_e24);
  (28, 31, [ShLin 0%nat 1 (-1); ShLin 1%nat 1 0], [ShLin 0%nat 1 0; ShLin 1%nat 1 (-1)], Some SPSU2T_e101);
  (28, 32, [ShLin 0%nat 1 (-1); ShLin 1%nat 1 0], [ShLin 0%nat 1 0; ShLin 1%nat 1 0], Some SPSU2T_e102);
  (29, 29, [ShLin 0%nat 1 (-1); ShLin 1%nat 1 1], [ShLin 0%nat 1 (-2); ShLin 1%nat 1 0], Some SPSU2T_e103);
  (29, 32, [ShLin 0%nat 1 (-1); ShLin 1%nat 1 1], [ShLin 0%nat 1 0; ShLin 1%nat 1 0], Some SPSU2T_e104);
  (30, 30, [ShLin 0%nat 1 1; ShLin 1%nat 1 (-1)], [ShLin 0%nat 1 0; ShLin 1%nat 1 (-2)], Some SPSU2T_e11);
  (30, 31, [ShLin 0%nat 1 1; ShLin 1%nat 1 (-1)], [ShLin 0%nat 1 0; ShLin 1%nat 1 (-1)], Some SPSU2T_e12);
  (30, 32, [ShLin 0%nat 1 1; ShLin 1%nat 1 (-1)], [ShLin 0%nat 1 0; ShLin 1%nat 1 0], Some SPSU2T_e13);
  (31, 31, [ShLin 0%nat 1 1; ShLin 1%nat 1 0], [ShLin 0%nat 1 0; ShLin 1%nat 1 (-1)], Some SPSU2T_e105);
  (31, 32, [ShLin 0%nat 1 1; ShLin 1%nat 1 0], [ShLin 0%nat 1 0; ShLin 1%nat 1 0], Some SPSU2T_e106);
  (32, 32, [ShLin 0%nat 1 1; ShLin 1%nat 1 1], [ShLin 0%nat 1 0; ShLin 1%nat 1 0], Some SPSU2T_e107);
  (33, 33, [ShLin 0%nat 1 (-1); ShLin 1%nat 1 (-2)], [ShLin 0%nat 1 (-2); ShLin 1%nat 1 (-3)], Some (cN (-1)));
  (33, 34, [ShLin 0%nat 1 (-1); ShLin 1%nat 1 (-2)], [ShLin 0%nat 1 (-2); ShLin 1%nat 1 (-2)], Some SPSU2T_e43);
  (33, 35, [ShLin 0%nat 1 (-1); ShLin 1%nat 1 (-2)], [ShLin 0%nat 1 (-2); ShLin 1%nat 1 (-1)], Some SPSU2T_e109);
  (33, 38, [ShLin 0%nat 1 (-1); ShLin 1%nat 1 (-2)], [ShLin 0%nat 1 0; ShLin 1%nat 1 (-3)], Some SPSU2T_e97);
  (33, 39, [ShLin 0%nat 1 (-1); ShLin 1%nat 1 (-2)], [ShLin 0%nat 1 0; ShLin 1%nat 1 (-2)], Some SPSU2T_e110);
  (33, 40, [ShLin 0%nat 1 (-1); ShLin 1%nat 1 (-2)], [ShLin 0%nat 1 0; ShLin 1%nat 1 (-1)], Some SPSU2T_e111);
  (34, 34, [ShLin 0%nat 1 (-1); ShLin 1%nat 1 (-1)], [ShLin 0%nat 1 (-2); ShLin 1%nat 1 (-2)], Some SPSU2T_e112);
  (34, 35, [ShLin 0%nat 1 (-1); ShLin 1%nat 1 (-1)], [ShLin 0%nat 1 (-2); ShLin 1%nat 1 (-1)], Some SPSU2T_e113);
  (34, 36, [ShLin 0%nat 1 (-1); ShLin 1%nat 1 (-1)], [ShLin 0%nat 1 (-2); ShLin 1%nat 1 0], Some SPSU2T_e50);
  (34, 39, [ShLin 0%nat 1 (-1); ShLin 1%nat 1 (-1)], [ShLin 0%nat 1 0; ShLin 1%nat 1 (-2)], Some SPSU2T_e114);
  (34, 40, [ShLin 0%nat 1 (-1); ShLin 1%nat 1 (-1)], [ShLin 0%nat 1 0; ShLin 1%nat 1 (-1)], Some SPSU2T_e115);
  (34, 41, [ShLin 0%nat 1 (-1); ShLin 1%nat 1 (-1)], [ShLin 0%nat 1 0; ShLin 1%nat 1 0], Some SPSU2T_e116);
  (35, 35, [ShLin 0%nat 1 (-1); ShLin 1%nat 1 0], [ShLin 0%nat 1 (-2); ShLin 1%nat 1 (-1)], Some SPSU2T_e117);
  (35, 36, [ShLin 0%nat 1 (-1); ShLin 1%nat 1 0], [ShLin 0%nat 1 (-2); ShLin 1%nat 1 0], Some SPSU2T_e118);
  (35, 37, [ShLin 0%nat 1 (-1); ShLin 1%nat 1 0], [ShLin 0%nat 1 (-2); ShLin 1%nat 1 1], Some SPSU2T_e119);
  (35, 40, [ShLin 0%nat 1 (-1); ShLin 1%nat 1 0], [ShLin 0%nat 1 0; ShLin 1%nat 1 (-1)], Some SPSU2T_e120);
  (35, 41, [ShLin 0%nat 1 (-1); ShLin 1%nat 1 0], [ShLin 0%nat 1 0; ShLin 1%nat 1 0], Some SPSU2T_e121);
  (35, 42, [ShLin 0%nat 1 (-1); ShLin 1%nat 1 0], [ShLin 0%nat 1 0; ShLin 1%nat 1 1], Some SPSU2T_e122);
  (36, 36, [ShLin 0%nat 1 (-1); ShLin 1%nat 1 1], [ShLin 0%nat 1 (-2); ShLin 1%nat 1 0], Some SPSU2T_e123);
  (36, 37, [ShLin 0%nat 1 (-1); ShLin 1%nat 1 1], [ShLin 0%nat 1 (-2); ShLin 1%nat 1 1], Some SPSU2T_e124);
  (36, 41, [ShLin 0%nat 1 (-1); ShLin 1%nat 1 1], [ShLin 0%nat 1 0; ShLin 1%nat 1 0], Some SPSU2T_e125);
  (36, 42, [ShLin 0%nat 1 (-1); ShLin 1%nat 1 1], [ShLin 0%nat 1 0; ShLin 1%nat 1 1], Some SPSU2T_e126);
  (37, 37, [ShLin 0%nat 1 (-1); ShLin 1%nat 1 2], [ShLin 0%nat 1 (-2); ShLin 1%nat 1 1], Some SPSU2T_e127);
  (37, 42, [ShLin 0%nat 1 (-1); ShLin 1%nat 1 2], [ShLin 0%nat 1 0; ShLin 1%nat 1 1], Some SPSU2T_e128);
  (38, 38, [ShLin 0%nat 1 1; ShLin 1%nat 1 (-2)], [ShLin 0%nat 1 0; ShLin 1%nat 1 (-3)], Some SPSU2T_e11);
  (38, 39, [ShLin 0%nat 1 1; ShLin 1%nat 1 (-2)], [ShLin 0%nat 1 0; ShLin 1%nat 1 (-2)], Some SPSU2T_e30);
  (38, 40, [ShLin 0%nat 1 1; ShLin 1%nat 1 (-2)], [ShLin 0%nat 1 0; ShLin 1%nat 1 (-1)], Some SPSU2T_e129);
  (39, 39, [ShLin 0%nat 1 1; ShLin 1%nat 1 (-1)], [ShLin 0%nat 1 0; ShLin 1%nat 1 (-2)], Some SPSU2T_e130);
  (39, 40, [ShLin 0%nat 1 1; ShLin 1%nat 1 (-1)], [ShLin 0%nat 1 0; ShLin 1%nat 1 (-1)], Some SPSU2T_e131);
  (39, 41, [ShLin 0%nat 1 1; ShLin 1%nat 1 (-1)], [ShLin 0%nat 1 0; ShLin 1%nat 1 0], Some SPSU2T_e34);
  (40, 40, [ShLin 0%nat 1 1; ShLin 1%nat 1 0], [ShLin 0%nat 1 0; ShLin 1%nat 1 (-1)], Some SPSU2T_e132);
  (40, 41, [ShLin 0%nat 1 1; ShLin 1%nat 1 0], [ShLin 0%nat 1 0; ShLin 1%nat 1 0], Some SPSU2T_e133);
  (40, 42, [ShLin 0%nat 1 1; ShLin 1%nat 1 0], [ShLin 0%nat 1 0; ShLin 1%nat 1 1], Some SPSU2T_e134);
  (41, 41, [ShLin 0%nat 1 1; ShLin 1%nat 1 1], [ShLin 0%nat 1 0; ShLin 1%nat 1 0], Some SPSU2T_e135);
  (41, 42, [ShLin 0%nat 1 1; ShLin 1%nat 1 1], [ShLin 0%nat 1 0; ShLin 1%nat 1 1], Some SPSU2T_e136);
  (42, 42, [ShLin 0%nat 1 1; ShLin 1%nat 1 2], [ShLin 0%nat 1 0; ShLin 1%nat 1 1], Some SPSU2T_e137);
  (43, 43, [ShLin 0%nat 1 (-2); ShLin 1%nat 1 (-1)], [ShLin 0%nat 1 (-3); ShLin 1%nat 1 (-2)], Some (cN 1));
  (43, 44, [ShLin 0%nat 1 (-2); ShLin 1%nat 1 (-1)], [ShLin 0%nat 1 (-3); ShLin 1%nat 1 (-1)], Some (cD (cN 1) (cV 1)));
  (43, 45, [ShLin 0%nat 1 (-2); ShLin 1%nat 1 (-1)], [ShLin 0%nat 1 (-3); ShLin 1%nat 1 0], Some SPSU2T_e84);
  (43, 46, [ShLin 0%nat 1 (-2); ShLin 1%nat 1 (-1)], [ShLin 0%nat 1 (-1); ShLin 1%nat 1 (-2)], Some SPSU2T_e138);
  (43, 47, [ShLin 0%nat 1 (-2); ShLin 1%nat 1 (-1)], [ShLin 0%nat 1 (-1); ShLin 1%nat 1 (-1)], Some SPSU2T_e139);
  (43, 48, [ShLin 0%nat 1 (-2); ShLin 1%nat 1 (-1)], [ShLin 0%nat 1 (-1); ShLin 1%nat 1 0], Some SPSU2T_e140);
  (44, 44, [ShLin 0%nat 1 (-2); ShLin 1%nat 1 0], [ShLin 0%nat 1 (-3); ShLin 1%nat 1 (-1)], Some SPSU2T_e87);
  (44, 45, [ShLin 0%nat 1 (-2); ShLin 1%nat 1 0], [ShLin 0%nat 1 (-3); ShLin 1%nat 1 0], Some SPSU2T_e88);
  (44, 47, [ShLin 0%nat 1 (-2); ShLin 1%nat 1 0], [ShLin 0%nat 1 (-1); ShLin 1%nat 1 (-1)], Some SPSU2T_e141);
  (44, 48, [ShLin 0%nat 1 (-2); ShLin 1%nat 1 0], [ShLin 0%nat 1 (-1); ShLin 1%nat 1 0], Some SPSU2T_e142);
  (45, 45, [ShLin 0%nat 1 (-2); ShLin 1%nat 1 1], [ShLin 0%nat 1 (-3); ShLin 1%nat 1 0], Some SPSU2T_e143);
  (45, 48, [ShLin 0%nat 1 (-2); ShLin 1%nat 1 1], [ShLin 0%nat 1 (-1); ShLin 1%nat 1 0], Some SPSU2T_e144);
  (46, 46, [ShLin 0%nat 1 0; ShLin 1%nat 1 (-1)], [ShLin 0%nat 1 (-1); ShLin 1%nat 1 (-2)], Some SPSU2T_e145);
  (46, 47, [ShLin 0%nat 1 0; ShLin 1%nat 1 (-1)], [ShLin 0%nat 1 (-1); ShLin 1%nat 1 (-1)], Some SPSU2T_e146);
  (46, 48, [ShLin 0%nat 1 0; ShLin 1%nat 1 (-1)], [ShLin 0%nat 1 (-1); ShLin 1%nat 1 0], Some SPSU2T_e147);
  (46, 49, [ShLin 0%nat 1 0; ShLin 1%nat 1 (-1)], [ShLin 0%nat 1 1; ShLin 1%nat 1 (-2)], Some SPSU2T_e148);
  (46, 50, [ShLin 0%nat 1 0; ShLin 1%nat 1 (-1)], [ShLin 0%nat 1 1; ShLin 1%nat 1 (-1)], Some SPSU2T_e149);
  (46, 51, [ShLin 0%nat 1 0; ShLin 1%nat 1 (-1)], [ShLin 0%nat 1 1; ShLin 1%nat 1 0], Some SPSU2T_e150);
  (47, 47, [ShLin 0%nat 1 0; ShLin 1%nat 1 0], [ShLin 0%nat 1 (-1); ShLin 1%nat 1 (-1)], Some SPSU2T_e151);
  (47, 48, [ShLin 0%nat 1 0; ShLin 1%nat 1 0], [ShLin 0%nat 1 (-1); ShLin 1%nat 1 0], Some SPSU2T_e152);
  (47, 50, [ShLin 0%nat 1 0; ShLin 1%nat 1 0], [ShLin 0%nat 1 1; ShLin 1%nat 1 (-1)], Some SPSU2T_e153);
  (47, 51, [ShLin 0%nat 1 0; ShLin 1%nat 1 0], [ShLin 0%nat 1 1; ShLin 1%nat 1 0], Some SPSU2T_e154);
  (48, 48, [ShLin 0%nat 1 0; ShLin 1%nat 1 1], [ShLin 0%nat 1 (-1); ShLin 1%nat 1 0], Some SPSU2T_e155);
  (48, 51, [ShLin 0%nat 1 0; ShLin 1%nat 1 1], [ShLin 0%nat 1 1; ShLin 1%nat 1 0], Some SPSU2T_e156);
  (49, 49, [ShLin 0%nat 1 2; ShLin 1%nat 1 (-1)], [ShLin 0%nat 1 1; ShLin 1%nat 1 (-2)], Some SPSU2T_e157);
  (49, 50, [ShLin 0%nat 1 2; ShLin 1%nat 1 (-1)], [ShLin 0%nat 1 1; ShLin 1%nat 1 (-1)], Some SPSU2T_e158);
  (49, 51, [ShLin 0%nat 1 2; ShLin 1%nat 1 (-1)], [ShLin 0%nat 1 1; ShLin 1%nat 1 0], Some SPSU2T_e159);
  (50, 50, [ShLin 0%nat 1 2; ShLin 1%nat 1 0], [ShLin 0%nat 1 1; ShLin 1%nat 1 (-1)], Some SPSU2T_e160);
  (50, 51, [ShLin 0%nat 1 2; ShLin 1%nat 1 0], [ShLin 0%nat 1 1; ShLin 1%nat 1 0], Some SPSU2T_e161);
  (51, 51, [ShLin 0%nat 1 2; ShLin 1%nat 1 1], [ShLin 0%nat 1 1; ShLin 1%nat 1 0], Some SPSU2T_e162);
  (52, 52, [ShLin 0%nat 1 (-2); ShLin 1%nat 1 (-1)], [ShLin 0%nat 1 (-3); ShLin 1%nat 1 (-2)], Some (cN 1));
  (52, 53, [ShLin 0%nat 1 (-2); ShLin 1%nat 1 (-1)], [ShLin 0%nat 1 (-3); ShLin 1%nat 1 (-1)], Some (cD (cN 1) (cV 1)));
  (52, 54, [ShLin 0%nat 1 (-2); ShLin 1%nat 1 (-1)], [ShLin 0%nat 1 (-3); ShLin 1%nat 1 0], Some SPSU2T_e84);
  (52, 55, [ShLin 0%nat 1 (-2); ShLin 1%nat 1 (-1)], [ShLin 0%nat 1 (-1); ShLin 1%nat 1 (-2)], Some SPSU2T_e138);
  (52, 56, [ShLin 0%nat 1 (-2); ShLin 1%nat 1 (-1)], [ShLin 0%nat 1 (-1); ShLin 1%nat 1 (-1)], Some SPSU2T_e139);
  (52, 57, [ShLin 0%nat 1 (-2); ShLin 1%nat 1 (-1)], [ShLin 0%nat 1 (-1); ShLin 1%nat 1 0], Some SPSU2T_e140);
  (53, 53, [ShLin 0%nat 1 (-2); ShLin 1%nat 1 0], [ShLin 0%nat 1 (-3); ShLin 1%nat 1 (-1)], Some SPSU2T_e87);
  (53, 54, [ShLin 0%nat 1 (-2); ShLin 1%nat 1 0], [ShLin 0%nat 1 (-3); ShLin 1%nat 1 0], Some SPSU2T_e88);
  (53, 56, [ShLin 0%nat 1 (-2); ShLin 1%nat 1 0], [ShLin 0%nat 1 (-1); ShLin 1%nat 1 (-1)], Some SPSU2T_e141);
  (53, 57, [ShLin 0%nat 1 (-2); ShLin 1%nat 1 0], [ShLin 0%nat 1 (-1); ShLin 1%nat 1 0], Some SPSU2T_e142);
  (54, 54, [ShLin 0%nat 1 (-2); ShLin 1%nat 1 1], [ShLin 0%nat 1 (-3); ShLin 1%nat 1 0], Some SPSU2T_e143);
  (54, 57, [ShLin 0%nat 1 (-2); ShLin 1%nat 1 1], [ShLin 0%nat 1 (-1); ShLin 1%nat 1 0], Some SPSU2T_e144);
  (55, 55, [ShLin 0%nat 1 0; ShLin 1%nat 1 (-1)], [ShLin 0%nat 1 (-1); ShLin 1%nat 1 (-2)], Some SPSU2T_e145);
  (55, 56, [ShLin 0%nat 1 0; ShLin 1%nat 1 (-1)], [ShLin 0%nat 1 (-1); ShLin 1%nat 1 (-1)], Some SPSU2T_e146);
  (55, 57, [ShLin 0%nat 1 0; ShLin 1%nat 1 (-1)], [ShLin 0%nat 1 (-1); ShLin 1%nat 1 0], Some SPSU2T_e147);
  (55, 58, [ShLin 0%nat 1 0; ShLin 1%nat 1 (-1)], [ShLin 0%nat 1 1; ShLin 1%nat 1 (-2)], Some SPSU2T_e148);
  (55, 59, [ShLin 0%nat 1 0; ShLin 1%nat 1 (-1)], [ShLin 0%nat 1 1; ShLin 1%nat 1 (-1)], Some SPSU2T_e149);
  (55, 60, [ShLin 0%nat 1 0; ShLin 1%nat 1 (-1)], [ShLin 0%nat 1 1; ShLin 1%nat 1 0], Some SPSU2T_e150);
  (56, 56, [ShLin 0%nat 1 0; ShLin 1%nat 1 0], [ShLin 0%nat 1 (-1); ShLin 1%nat 1 (-1)], Some SPSU2T_e151);
  (56, 57, [ShLin 0%nat 1 0; ShLin 1%nat 1 0], [ShLin 0%nat 1 (-1); ShLin 1%nat 1 0], Some SPSU2T_e152);
  (56, 59, [ShLin 0%nat 1 0; ShLin 1%nat 1 0], [ShLin 0%nat 1 1; ShLin 1%nat 1 (-1)], Some SPSU2T_e153);
  (56, 60, [ShLin 0%nat 1 0; ShLin 1%nat 1 0], [ShLin 0%nat 1 1; ShLin 1%nat 1 0], Some SPSU2T_e154);
  (57, 57, [ShLin 0%nat 1 0; ShLin 1%nat 1 1], [ShLin 0%nat 1 (-1); ShLin 1%nat 1 0], Some SPSU2T_e155);
  (57, 60, [ShLin 0%nat 1 0; ShLin 1%nat 1 1], [ShLin 0%nat 1 1; ShLin 1%nat 1 0], Some SPSU2T_e156);
  (58, 58, [ShLin 0%nat 1 2; ShLin 1%nat 1 (-1)], [ShLin 0%nat 1 1; ShLin 1%nat 1 (-2)], Some SPSU2T_e157);
  (58, 59, [ShLin 0%nat 1 2; ShLin 1%nat 1 (-1)], [ShLin 0%nat 1 1; ShLin 1%nat 1 (-1)], Some SPSU2T_e158);
  (58, 60, [ShLin 0%nat 1 2; ShLin 1%nat 1 (-1)], [ShLin 0%nat 1 1; ShLin 1%nat 1 0], Some SPSU2T_e159);
  (59, 59, [ShLin 0%nat 1 2; ShLin 1%nat 1 0], [ShLin 0%nat 1 1; ShLin 1%nat 1 (-1)], Some SPSU2T_e160);
  (59, 60, [ShLin 0%nat 1 2; ShLin 1%nat 1 0], [ShLin 0%nat 1 1; ShLin 1%nat 1 0], Some SPSU2T_e161);
  (60, 60, [ShLin 0%nat 1 2; ShLin 1%nat 1 1], [ShLin 0%nat 1 1; ShLin 1%nat 1 0], Some SPSU2T_e162);
  (61, 61, [ShLin 0%nat 1 (-3); ShLin 1%nat 1 0], [ShLin 0%nat 1 (-4); ShLin 1%nat 1 (-1)], Some (cN (-1)));
  (61, 62, [ShLin 0%nat 1 (-3); ShLin 1%nat 1 0], [ShLin 0%nat 1 (-2); ShLin 1%nat 1 (-1)], Some SPSU2T_e163);
  (62, 62, [ShLin 0%nat 1 (-1); ShLin 1%nat 1 0], [ShLin 0%nat 1 (-2); ShLin 1%nat 1 (-1)], Some SPSU2T_e164);
  (62, 63, [ShLin 0%nat 1 (-1); ShLin 1%nat 1 0], [ShLin 0%nat 1 0; ShLin 1%nat 1 (-1)], Some SPSU2T_e165);
  (63, 63, [ShLin 0%nat 1 1; ShLin 1%nat 1 0], [ShLin 0%nat 1 0; ShLin 1%nat 1 (-1)], Some SPSU2T_e93);
  (63, 64, [ShLin 0%nat 1 1; ShLin 1%nat 1 0], [ShLin 0%nat 1 2; ShLin 1%nat 1 (-1)], Some SPSU2T_e166);
  (64, 64, [ShLin 0%nat 1 3; ShLin 1%nat 1 0], [ShLin 0%nat 1 2; ShLin 1%nat 1 (-1)], Some SPSU2T_e167)].
(** /repo/c++/symmetry/nrg-recalc-SPSU2T.hpp recalc_doublet, spsu2t/spsu2t-doubletp0.dat *)
Definition spsu2t_t2 : ten_table := mk_ten "doublet" [ShLin 0%nat 1 1; ShLin 1%nat 1 0] [1; 2; 1] [
  (1, 1, [ShLin 0%nat 1 0; ShLin 1%nat 1 0], [ShLin 0%nat 1 1; ShLin 1%nat 1 0], Some (cN 1));
  (2, 2, [ShLin 0%nat 1 0; ShLin 1%nat 1 0], [ShLin 0%nat 1 1; ShLin 1%nat 1 0], Some (cN 1));
  (3, 3, [ShLin 0%nat 1 0; ShLin 1%nat 1 0], [ShLin 0%nat 1 1; ShLin 1%nat 1 0], Some (cN 1));
  (4, 4, [ShLin 0%nat 1 0; ShLin 1%nat 1 0], [ShLin 0%nat 1 1; ShLin 1%nat 1 0], Some (cN 1));
  (5, 5, [ShLin 0%nat 1 0; ShLin 1%nat 1 (-2)], [ShLin 0%nat 1 1; ShLin 1%nat 1 (-2)], Some SPSU2T_e2);
  (5, 6, [ShLin 0%nat 1 0; ShLin 1%nat 1 (-2)], [ShLin 0%nat 1 1; ShLin 1%nat 1 (-1)], Some SPSU2T_e168);
  (6, 5, [ShLin 0%nat 1 0; ShLin 1%nat 1 (-1)], [ShLin 0%nat 1 1; ShLin 1%nat 1 (-2)], Some SPSU2T_e43);
  (6, 6, [ShLin 0%nat 1 0; ShLin 1%nat 1 (-1)], [ShLin 0%nat 1 1; ShLin 1%nat 1 (-1)], Some SPSU2T_e169);
  (6, 7, [ShLin 0%nat 1 0; ShLin 1%nat 1 (-1)], [ShLin 0%nat 1 1; ShLin 1%nat 1 0], Some SPSU2T_e170);
  (7, 6, [ShLin 0%nat 1 0; ShLin 1%nat 1 0], [ShLin 0%nat 1 1; ShLin 1%nat 1 (-1)], Some SPSU2T_e171);
  (7, 7, [ShLin 0%nat 1 0; ShLin 1%nat 1 0], [ShLin 0%nat 1 1; ShLin 1%nat 1 0], Some SPSU2T_e172);
  (7, 8, [ShLin 0%nat 1 0; ShLin 1%nat 1 0], [ShLin 0%nat 1 1; ShLin 1%nat 1 1], Some SPSU2T_e173);
  (8, 7, [ShLin 0%nat 1 0; ShLin 1%nat 1 1], [ShLin 0%nat 1 1; ShLin 1%nat 1 0], Some SPSU2T_e174);
  (8, 8, [ShLin 0%nat 1 0; ShLin 1%nat 1 1], [ShLin 0%nat 1 1; ShLin 1%nat 1 1], Some SPSU2T_e175);
  (8, 9, [ShLin 0%nat 1 0; ShLin 1%nat 1 1], [ShLin 0%nat 1 1; ShLin 1%nat 1 2], Some SPSU2T_e176);
  (9, 8, [ShLin 0%nat 1 0; ShLin 1%nat 1 2], [ShLin 0%nat 1 1; ShLin 1%nat 1 1], Some SPSU2T_e177);
  (9, 9, [ShLin 0%nat 1 0; ShLin 1%nat 1 2], [ShLin 0%nat 1 1; ShLin 1%nat 1 2], Some SPSU2T_e178);
  (10, 10, [ShLin 0%nat 1 0; ShLin 1%nat 1 (-2)], [ShLin 0%nat 1 1; ShLin 1%nat 1 (-2)], Some SPSU2T_e2);
  (10, 11, [ShLin 0%nat 1 0; ShLin 1%nat 1 (-2)], [ShLin 0%nat 1 1; ShLin 1%nat 1 (-1)], Some SPSU2T_e168);
  (11, 10, [ShLin 0%nat 1 0; ShLin 1%nat 1 (-1)], [ShLin 0%nat 1 1; ShLin 1%nat 1 (-2)], Some SPSU2T_e43);
  (11, 11, [ShLin 0%nat 1 0; ShLin 1%nat 1 (-1)], [ShLin 0%nat 1 1; ShLin 1%nat 1 (-1)], Some SPSU2T_e169);
  (11, 12, [ShLin 0%nat 1 0; ShLin 1%nat 1 (-1)], [ShLin 0%nat 1 1; ShLin 1%nat 1 0], Some SPSU2T_e170);
  (12, 11, [ShLin 0%nat 1 0; ShLin 1%nat 1 0], [ShLin 0%nat 1 1; ShLin 1%nat 1 (-1)], Some SPSU2T_e171);
  (12, 12, [ShLin 0%nat 1 0; ShLin 1%nat 1 0], [ShLin 0%nat 1 1; ShLin 1%nat 1 0], Some SPSU2T_e172);
  (12, 13, [ShLin 0%nat 1 0; ShLin 1%nat 1 0], [ShLin 0%nat 1 1; ShLin 1%nat 1 1], Some SPSU2T_e173);
  (13, 12, [ShLin 0%nat 1 0; ShLin 1%nat 1 1], [ShLin 0%nat 1 1; ShLin 1%nat 1 0], Some SPSU2T_e174);
  (13, 13, [ShLin 0%nat 1 0; ShLin 1%nat 1 1], [ShLin 0%nat 1 1; ShLin 1%nat 1 1], Some SPSU2T_e175);
  (13, 14, [ShLin 0%nat 1 0; ShLin 1%nat 1 1], [ShLin 0%nat 1 1; ShLin 1%nat 1 2], Some SPSU2T_e176);
  (14, 13, [ShLin 0%nat 1 0; ShLin 1%nat 1 2], [ShLin 0%nat 1 1; ShLin 1%nat 1 1], Some SPSU2T_e177);
  (14, 14, [ShLin 0%nat 1 0; ShLin 1%nat 1 2], [ShLin 0%nat 1 1; ShLin 1%nat 1 2], Some SPSU2T_e178);
  (15, 15, [ShLin 0%nat 1 (-1); ShLin 1%nat 1 (-1)], [ShLin 0%nat 1 0; ShLin 1%nat 1 (-1)], Some SPSU2T_e105);
  (15, 16, [ShLin 0%nat 1 (-1); ShLin 1%nat 1 (-1)], [ShLin 0%nat 1 0; ShLin 1%nat 1 0], Some SPSU2T_e106);
  (16, 15, [ShLin 0%nat 1 (-1); ShLin 1%nat 1 0], [ShLin 0%nat 1 0; ShLin 1%nat 1 (-1)], Some SPSU2T_e179);
  (16, 16, [ShLin 0%nat 1 (-1); ShLin 1%nat 1 0], [ShLin 0%nat 1 0; ShLin 1%nat 1 0], Some SPSU2T_e180);
  (16, 17, [ShLin 0%nat 1 (-1); ShLin 1%nat 1 0], [ShLin 0%nat 1 0; ShLin 1%nat 1 1], Some SPSU2T_e181);
  (17, 16, [ShLin 0%nat 1 (-1); ShLin 1%nat 1 1], [ShLin 0%nat 1 0; ShLin 1%nat 1 0], Some SPSU2T_e182);
  (17, 17, [ShLin 0%nat 1 (-1); ShLin 1%nat 1 1], [ShLin 0%nat 1 0; ShLin 1%nat 1 1], Some SPSU2T_e183);
  (18, 15, [ShLin 0%nat 1 1; ShLin 1%nat 1 (-1)], [ShLin 0%nat 1 0; ShLin 1%nat 1 (-1)], Some SPSU2T_e21);
  (18, 16, [ShLin 0%nat 1 1; ShLin 1%nat 1 (-1)], [ShLin 0%nat 1 0; ShLin 1%nat 1 0], Some SPSU2T_e22);
  (18, 18, [ShLin 0%nat 1 1; ShLin 1%nat 1 (-1)], [ShLin 0%nat 1 2; ShLin 1%nat 1 (-1)], Some SPSU2T_e23);
  (18, 19, [ShLin 0%nat 1 1; ShLin 1%nat 1 (-1)], [ShLin 0%nat 1 2; ShLin 1%nat 1 0], Some SPSU2T_e24);
  (19, 15, [ShLin 0%nat 1 1; ShLin 1%nat 1 0], [ShLin 0%nat 1 0; ShLin 1%nat 1 (-1)], Some SPSU2T_e184);
  (19, 16, [ShLin 0%nat 1 1; ShLin 1%nat 1 0], [ShLin 0%nat 1 0; ShLin 1%nat 1 0], Some SPSU2T_e185);
  (19, 17, [ShLin 0%nat 1 1; ShLin 1%nat 1 0], [ShLin 0%nat 1 0; ShLin 1%nat 1 1], Some SPSU2T_e186);
  (19, 18, [ShLin 0%nat 1 1; ShLin 1%nat 1 0], [ShLin 0%nat 1 2; ShLin 1%nat 1 (-1)], Some (cD (cN 1) (cV 1)));
  (19, 19, [ShLin 0%nat 1 1; ShLin 1%nat 1 0], [ShLin 0%nat 1 2; ShLin 1%nat 1 0], Some SPSU2T_e187);
  (19, 20, [ShLin 0%nat 1 1; ShLin 1%nat 1 0], [ShLin 0%nat 1 2; ShLin 1%nat 1 1], Some SPSU2T_e188);
  (20, 16, [ShLin 0%nat 1 1; ShLin 1%nat 1 1], [ShLin 0%nat 1 0; ShLin 1%nat 1 0], Some SPSU2T_e189);
  (20, 17, [ShLin 0%nat 1 1; ShLin 1%nat 1 1], [ShLin 0%nat 1 0; ShLin 1%nat 1 1], Some SPSU2T_e190);
  (20, 19, [ShLin 0%nat 1 1; ShLin 1%nat 1 1], [ShLin 0%nat 1 2; ShLin 1%nat 1 0], Some SPSU2T_e191);
  (20, 20, [ShLin 0%nat 1 1; ShLin 1%nat 1 1], [ShLin 0%nat 1 2; ShLin 1%nat 1 1], Some SPSU2T_e192);
  (21, 21, [ShLin 0%nat 1 (-1); ShLin 1%nat 1 (-1)], [ShLin 0%nat 1 0; ShLin 1%nat 1 (-1)], Some SPSU2T_e105);
  (21, 22, [ShLin 0%nat 1 (-1); ShLin 1%nat 1 (-1)], [ShLin 0%nat 1 0; ShLin 1%nat 1 0], Some SPSU2T_e106);
  (22, 21, [ShLin 0%nat 1 (-1); ShLin 1%nat 1 0], [ShLin 0%nat 1 0; ShLin 1%nat 1 (-1)], Some SPSU2T_e179);
  (22, 22, [ShLin 0%nat 1 (-1); ShLin 1%nat 1 0], [ShLin 0%nat 1 0; ShLin 1%nat 1 0], Some SPSU2T_e180);
  (22, 23, [ShLin 0%nat 1 (-1); ShLin 1%nat 1 0], [ShLin 0%nat 1 0; ShLin 1%nat 1 1], Some SPSU2T_e181);
  (23, 22, [ShLin 0%nat 1 (-1); ShLin 1%nat 1 1], [ShLin 0%nat 1 0; ShLin 1%nat 1 0], Some SPSU2T_e193);
  (23, 23, [ShLin 0%nat 1 (-1); ShLin 1%nat 1 1], [ShLin 0%nat 1 0; ShLin 1%nat 1 1], Some SPSU2T_e183);
  (24, 21, [ShLin 0%nat 1 1; ShLin 1%nat 1 (-1)], [ShLin 0%nat 1 0; ShLin 1%nat 1 (-1)], Some SPSU2T_e21);
  (24, 22, [ShLin 0%nat 1 1; ShLin 1%nat 1 (-1)], [ShLin 0%nat 1 0; ShLin 1%nat 1 0], Some SPSU2T_e22);
  (24, 24, [ShLin 0%nat 1 1; ShLin 1%nat 1 (-1)], [ShLin 0%nat 1 2; ShLin 1%nat 1 (-1)], Some SPSU2T_e23);
  (24, 25, [ShLin 0%nat 1 1; ShLin 1%nat 1 (-1)], [ShLin 0%nat 1 2; ShLin 1%nat 1 0], Some SPSU2T_e24);
  (25, 21, [ShLin 0%nat 1 1; ShLin 1%nat 1 0], [ShLin 0%nat 1 0; ShLin 1%nat 1 (-1)], Some SPSU2T_e184);
  (25, 22, [ShLin 0%nat 1 1; ShLin 1%nat 1 0], [ShLin 0%nat 1 0; ShLin 1%nat 1 0], Some SPSU2T_e185);
  (25, 23, [ShLin 0%nat 1 1; ShLin 1%nat 1 0], [ShLin 0%nat 1 0; ShLin 1%nat 1 1], Some SPSU2T_e186);
  (25, 24, [ShLin 0%nat 1 1; ShLin 1%nat 1 0], [ShLin 0%nat 1 2; ShLin 1%nat 1 (-1)], Some (cD (cN 1) (cV 1)));
  (25, 25, [ShLin 0%nat 1 1; ShLin 1%nat 1 0], [ShLin 0%nat 1 2; ShLin 1%nat 1 0], Some SPSU2T_e194);
  (25, 26, [ShLin 0%nat 1 1; ShLin 1%nat 1 0], [ShLin 0%nat 1 2; ShLin 1%nat 1 1], Some SPSU2T_e188);
  (26, 22, [ShLin 0%nat 1 1; ShLin 1%nat 1 1], [ShLin 0%nat 1 0; ShLin 1%nat 1 0], Some SPSU2T_e189);
  (26, 23, [ShLin 0%nat 1 1; ShLin 1%nat 1 1], [ShLin 0%nat 1 0; ShLin 1%nat 1 1], Some SPSU2T_e190);
  (26, 25, [ShLin 0%nat 1 1; ShLin 1%nat 1 1], [ShLin 0%nat 1 2; ShLin 1%nat 1 0], Some SPSU2T_e195);
  (26, 26, [ShLin 0%nat 1 1; ShLin 1%nat 1 1], [ShLin 0%nat 1 2; ShLin 1%nat 1 1], Some SPSU2T_e196);
  (27, 27, [ShLin 0%nat 1 (-1); ShLin 1%nat 1 (-1)], [ShLin 0%nat 1 0; ShLin 1%nat 1 (-1)], Some SPSU2T_e105);
  (27, 28, [ShLin 0%nat 1 (-1); ShLin 1%nat 1 (-1)], [ShLin 0%nat 1 0; ShLin 1%nat 1 0], Some SPSU2T_e106);
  (28, 27, [ShLin 0%nat 1 (-1); ShLin 1%nat 1 0], [ShLin 0%nat 1 0; ShLin 1%nat 1 (-1)], Some SPSU2T_e179);
  (28, 28, [ShLin 0%nat 1 (-1); ShLin 1%nat 1 0], [ShLin 0%nat 1 0; ShLin 1%nat 1 0], Some SPSU2T_e180);
  (28, 29, [ShLin 0%nat 1 (-1); ShLin 1%nat 1 0], [ShLin 0%nat 1 0; ShLin 1%nat 1 1], Some SPSU2T_e181);
  (29, 28, [ShLin 0%nat 1 (-1); ShLin 1%nat 1 1], [ShLin 0%nat 1 0; ShLin 1%nat 1 0], Some SPSU2T_e182);
  (29, 29, [ShLin 0%nat 1 (-1); ShLin 1%nat 1 1], [ShLin 0%nat 1 0; ShLin 1%nat 1 1], Some SPSU2T_e183);
  (30, 27, [ShLin 0%nat 1 1; ShLin 1%nat 1 (-1)], [ShLin 0%nat 1 0; ShLin 1%nat 1 (-1)], Some SPSU2T_e21);
  (30, 28, [ShLin 0%nat 1 1; ShLin 1%nat 1 (-1)], [ShLin 0%nat 1 0; ShLin 1%nat 1 0], Some SPSU2T_e22);
  (30, 30, [ShLin 0%nat 1 1; ShLin 1%nat 1 (-1)], [ShLin 0%nat 1 2; ShLin 1%nat 1 (-1)], Some SPSU2T_e23);
  (30, 31, [ShLin 0%nat 1 1; ShLin 1%nat 1 (-1)], [ShLin 0%nat 1 2; ShLin 1%nat 1 0], Some SPSU2T_e24);
  (31, 27, [ShLin 0%nat 1 1; ShLin 1%nat 1 0], [ShLin 0%nat 1 0; ShLin 1%nat 1 (-1)], Some SPSU2T_e184);
  (31, 28, [ShLin 0%nat 1 1; ShLin 1%nat 1 0], [ShLin 0%nat 1 0; ShLin 1%nat 1 0], Some SPSU2T_e185);
  (31, 29, [ShLin 0%nat 1 1; ShLin 1%nat 1 0], [ShLin 0%nat 1 0; ShLin 1%nat 1 1], Some SPSU2T_e186);
  (31, 30, [ShLin 0%nat 1 1; ShLin 1%nat 1 0], [ShLin 0%nat 1 2; ShLin 1%nat 1 (-1)], Some (cD (cN 1) (cV 1)));
  (31, 31, [ShLin 0%nat 1 1; ShLin 1%nat 1 0], [ShLin 0%nat 1 2; ShLin 1%nat 1 0], Some SPSU2T_e187);
  (31, 32, [ShLin 0%nat 1 1; ShLin 1%nat 1 0], [ShLin 0%nat 1 2; ShLin 1%nat 1 1], Some SPSU2T_e188);
  (32, 28, [ShLin 0%nat 1 1; ShLin 1%nat 1 1], [ShLin 0%nat 1 0; ShLin 1%nat 1 0], Some SPSU2T_e189);
  (32, 29, [ShLin 0%nat 1 1; ShLin 1%nat 1 1], [ShLin 0%nat 1 0; ShLin 1%nat 1 1], Some SPSU2T_e190);
  (32, 31, [ShLin 0%nat 1 1; ShLin 1%nat 1 1], [ShLin 0%nat 1 2; ShLin 1%nat 1 0], Some SPSU2T_e191);
  (32, 32, [ShLin 0%nat 1 1; ShLin 1%nat 1 1], [ShLin 0%nat 1 2; ShLin 1%nat 1 1], Some SPSU2T_e192);
  (33, 33, [ShLin 0%nat 1 (-1); ShLin 1%nat 1 (-2)], [ShLin 0%nat 1 0; ShLin 1%nat 1 (-2)], Some SPSU2T_e197);
  (33, 34, [ShLin 0%nat 1 (-1); ShLin 1%nat 1 (-2)], [ShLin 0%nat 1 0; ShLin 1%nat 1 (-1)], Some SPSU2T_e198);
  (34, 33, [ShLin 0%nat 1 (-1); ShLin 1%nat 1 (-1)], [ShLin 0%nat 1 0; ShLin 1%nat 1 (-2)], Some SPSU2T_e199);
  (34, 34, [ShLin 0%nat 1 (-1); ShLin 1%nat 1 (-1)], [ShLin 0%nat 1 0; ShLin 1%nat 1 (-1)], Some SPSU2T_e200);
  (34, 35, [ShLin 0%nat 1 (-1); ShLin 1%nat 1 (-1)], [ShLin 0%nat 1 0; ShLin 1%nat 1 0], Some SPSU2T_e201);
  (35, 34, [ShLin 0%nat 1 (-1); ShLin 1%nat 1 0], [ShLin 0%nat 1 0; ShLin 1%nat 1 (-1)], Some SPSU2T_e202);
  (35, 35, [ShLin 0%nat 1 (-1); ShLin 1%nat 1 0], [ShLin 0%nat 1 0; ShLin 1%nat 1 0], Some SPSU2T_e203);
  (35, 36, [ShLin 0%nat 1 (-1); ShLin 1%nat 1 0], [ShLin 0%nat 1 0; ShLin 1%nat 1 1], Some SPSU2T_e204);
  (36, 35, [ShLin 0%nat 1 (-1); ShLin 1%nat 1 1], [ShLin 0%nat 1 0; ShLin 1%nat 1 0], Some SPSU2T_e205);
  (36, 36, [ShLin 0%nat 1 (-1); ShLin 1%nat 1 1], [ShLin 0%nat 1 0; ShLin 1%nat 1 1], Some SPSU2T_e206);
  (36, 37, [ShLin 0%nat 1 (-1); ShLin 1%nat 1 1], [ShLin 0%nat 1 0; ShLin 1%nat 1 2], Some SPSU2T_e207);
  (37, 36, [ShLin 0%nat 1 (-1); ShLin 1%nat 1 2], [ShLin 0%nat 1 0; ShLin 1%nat 1 1], Some SPSU2T_e208);
  (37, 37, [ShLin 0%nat 1 (-1); ShLin 1%nat 1 2], [ShLin 0%nat 1 0; ShLin 1%nat 1 2], Some SPSU2T_e209);
  (38, 33, [ShLin 0%nat 1 1; ShLin 1%nat 1 (-2)], [ShLin 0%nat 1 0; ShLin 1%nat 1 (-2)], Some SPSU2T_e210);
  (38, 34, [ShLin 0%nat 1 1; ShLin 1%nat 1 (-2)], [ShLin 0%nat 1 0; ShLin 1%nat 1 (-1)], Some SPSU2T_e211);
  (38, 38, [ShLin 0%nat 1 1; ShLin 1%nat 1 (-2)], [ShLin 0%nat 1 2; ShLin 1%nat 1 (-2)], Some SPSU2T_e112);
  (38, 39, [ShLin 0%nat 1 1; ShLin 1%nat 1 (-2)], [ShLin 0%nat 1 2; ShLin 1%nat 1 (-1)], Some SPSU2T_e212);
  (39, 33, [ShLin 0%nat 1 1; ShLin 1%nat 1 (-1)], [ShLin 0%nat 1 0; ShLin 1%nat 1 (-2)], Some SPSU2T_e110);
  (39, 34, [ShLin 0%nat 1 1; ShLin 1%nat 1 (-1)], [ShLin 0%nat 1 0; ShLin 1%nat 1 (-1)], Some SPSU2T_e213);
  (39, 35, [ShLin 0%nat 1 1; ShLin 1%nat 1 (-1)], [ShLin 0%nat 1 0; ShLin 1%nat 1 0], Some SPSU2T_e214);
  (39, 38, [ShLin 0%nat 1 1; ShLin 1%nat 1 (-1)], [ShLin 0%nat 1 2; ShLin 1%nat 1 (-2)], Some SPSU2T_e0);
  (39, 39, [ShLin 0%nat 1 1; ShLin 1%nat 1 (-1)], [ShLin 0%nat 1 2; ShLin 1%nat 1 (-1)], Some SPSU2T_e215);
  (39, 40, [ShLin 0%nat 1 1; ShLin 1%nat 1 (-1)], [ShLin 0%nat 1 2; ShLin 1%nat 1 0], Some SPSU2T_e216);
  (40, 34, [ShLin 0%nat 1 1; ShLin 1%nat 1 0], [ShLin 0%nat 1 0; ShLin 1%nat 1 (-1)], Some SPSU2T_e217);
  (40, 35, [ShLin 0%nat 1 1; ShLin 1%nat 1 0], [ShLin 0%nat 1 0; ShLin 1%nat 1 0], Some SPSU2T_e218);
  (40, 36, [ShLin 0%nat 1 1; ShLin 1%nat 1 0], [ShLin 0%nat 1 0; ShLin 1%nat 1 1], Some SPSU2T_e219);
  (40, 39, [ShLin 0%nat 1 1; ShLin 1%nat 1 0], [ShLin 0%nat 1 2; ShLin 1%nat 1 (-1)], Some SPSU2T_e220);
  (40, 40, [ShLin 0%nat 1 1; ShLin 1%nat 1 0], [ShLin 0%nat 1 2; ShLin 1%nat 1 0], Some SPSU2T_e221);
  (40, 41, [ShLin 0%nat 1 1; ShLin 1%nat 1 0], [ShLin 0%nat 1 2; ShLin 1%nat 1 1], Some SPSU2T_e222);
  (41, 35, [ShLin 0%nat 1 1; ShLin 1%nat 1 1], [ShLin 0%nat 1 0; ShLin 1%nat 1 0], Some SPSU2T_e223);
  (41, 36, [ShLin 0%nat 1 1; ShLin 1%nat 1 1], [ShLin 0%nat 1 0; ShLin 1%nat 1 1], Some SPSU2T_e224);
  (41, 37, [ShLin 0%nat 1 1; ShLin 1%nat 1 1], [ShLin 0%nat 1 0; ShLin 1%nat 1 2], Some SPSU2T_e225);
  (41, 40, [ShLin 0%nat 1 1; ShLin 1%nat 1 1], [ShLin 0%nat 1 2; ShLin 1%nat 1 0], Some SPSU2T_e226);
  (41, 41, [ShLin 0%nat 1 1; ShLin 1%nat 1 1], [ShLin 0%nat 1 2; ShLin 1%nat 1 1], Some SPSU2T_e227);
  (41, 42, [ShLin 0%nat 1 1; ShLin 1%nat 1 1], [ShLin 0%nat 1 2; ShLin 1%nat 1 2], Some SPSU2T_e228);
  (42, 36, [ShLin 0%nat 1 1; ShLin 1%nat 1 2], [ShLin 0%nat 1 0; ShLin 1%nat 1 1], Some SPSU2T_e229);
  (42, 37, [ShLin 0%nat 1 1; ShLin 1%nat 1 2], [ShLin 0%nat 1 0; ShLin 1%nat 1 2], Some SPSU2T_e230);
  (42, 41, [ShLin 0%nat 1 1; ShLin 1%nat 1 2], [ShLin 0%nat 1 2; ShLin 1%nat 1 1], Some SPSU2T_e231);
  (42, 42, [ShLin 0%nat 1 1; ShLin 1%nat 1 2], [ShLin 0%nat 1 2; ShLin 1%nat 1 2], Some SPSU2T_e232);
  (43, 43, [ShLin 0%nat 1 (-2); ShLin 1%nat 1 (-1)], [ShLin 0%nat 1 (-1); ShLin 1%nat 1 (-1)], Some SPSU2T_e233);
  (43, 44, [ShLin 0%nat 1 (-2); ShLin 1%nat 1 (-1)], [ShLin 0%nat 1 (-1); ShLin 1%nat 1 0], Some SPSU2T_e234);
  (44, 43, [ShLin 0%nat 1 (-2); ShLin 1%nat 1 0], [ShLin 0%nat 1 (-1); ShLin 1%nat 1 (-1)], Some SPSU2T_e235);
  (44, 44, [ShLin 0%nat 1 (-2); ShLin 1%nat 1 0], [ShLin 0%nat 1 (-1); ShLin 1%nat 1 0], Some SPSU2T_e236);
  (44, 45, [ShLin 0%nat 1 (-2); ShLin 1%nat 1 0], [ShLin 0%nat 1 (-1); ShLin 1%nat 1 1], Some SPSU2T_e237);
  (45, 44, [ShLin 0%nat 1 (-2); ShLin 1%nat 1 1], [ShLin 0%nat 1 (-1); ShLin 1%nat 1 0], Some SPSU2T_e238);
  (45, 45, [ShLin 0%nat 1 (-2); ShLin 1%nat 1 1], [ShLin 0%nat 1 (-1); ShLin 1%nat 1 1], Some SPSU2T_e239);
  (46, 43, [ShLin 0%nat 1 0; ShLin 1%nat 1 (-1)], [ShLin 0%nat 1 (-1); ShLin 1%nat 1 (-1)], Some SPSU2T_e240);
  (46, 44, [ShLin 0%nat 1 0; ShLin 1%nat 1 (-1)], [ShLin 0%nat 1 (-1); ShLin 1%nat 1 0], Some SPSU2T_e241);
  (46, 46, [ShLin 0%nat 1 0; ShLin 1%nat 1 (-1)], [ShLin 0%nat 1 1; ShLin 1%nat 1 (-1)], Some SPSU2T_e242);
  (46, 47, [ShLin 0%nat 1 0; ShLin 1%nat 1 (-1)], [ShLin 0%nat 1 1; ShLin 1%nat 1 0], Some SPSU2T_e243);
  (47, 43, [ShLin 0%nat 1 0; ShLin 1%nat 1 0], [ShLin 0%nat 1 (-1); ShLin 1%nat 1 (-1)], Some SPSU2T_e139);
  (47, 44, [ShLin 0%nat 1 0; ShLin 1%nat 1 0], [ShLin 0%nat 1 (-1); ShLin 1%nat 1 0], Some SPSU2T_e244);
  (47, 45, [ShLin 0%nat 1 0; ShLin 1%nat 1 0], [ShLin 0%nat 1 (-1); ShLin 1%nat 1 1], Some SPSU2T_e245);
  (47, 46, [ShLin 0%nat 1 0; ShLin 1%nat 1 0], [ShLin 0%nat 1 1; ShLin 1%nat 1 (-1)], Some SPSU2T_e246);
  (47, 47, [ShLin 0%nat 1 0; ShLin 1%nat 1 0], [ShLin 0%nat 1 1; ShLin 1%nat 1 0], Some SPSU2T_e247);
  (47, 48, [ShLin 0%nat 1 0; ShLin 1%nat 1 0], [ShLin 0%nat 1 1; ShLin 1%nat 1 1], Some SPSU2T_e248);
  (48, 44, [ShLin 0%nat 1 0; ShLin 1%nat 1 1], [ShLin 0%nat 1 (-1); ShLin 1%nat 1 0], Some SPSU2T_e249);
  (48, 45, [ShLin 0%nat 1 0; ShLin 1%nat 1 1], [ShLin 0%nat 1 (-1); ShLin 1%nat 1 1], Some SPSU2T_e250);
  (48, 47, [ShLin 0%nat 1 0; ShLin 1%nat 1 1], [ShLin 0%nat 1 1; ShLin 1%nat 1 0], Some SPSU2T_e251);
  (48, 48, [ShLin 0%nat 1 0; ShLin 1%nat 1 1], [ShLin 0%nat 1 1; ShLin 1%nat 1 1], Some SPSU2T_e252);
  (49, 46, [ShLin 0%nat 1 2; ShLin 1%nat 1 (-1)], [ShLin 0%nat 1 1; ShLin 1%nat 1 (-1)], Some SPSU2T_e253);
  (49, 47, [ShLin 0%nat 1 2; ShLin 1%nat 1 (-1)], [ShLin 0%nat 1 1; ShLin 1%nat 1 0], Some SPSU2T_e86);
  (49, 49, [ShLin 0%nat 1 2; ShLin 1%nat 1 (-1)], [ShLin 0%nat 1 3; ShLin 1%nat 1 (-1)], Some SPSU2T_e87);
  (49, 50, [ShLin 0%nat 1 2; ShLin 1%nat 1 (-1)], [ShLin 0%nat 1 3; ShLin 1%nat 1 0], Some SPSU2T_e88);
  (50, 46, [ShLin 0%nat 1 2; ShLin 1%nat 1 0], [ShLin 0%nat 1 1; ShLin 1%nat 1 (-1)], Some SPSU2T_e149);
  (50, 47, [ShLin 0%nat 1 2; ShLin 1%nat 1 0], [ShLin 0%nat 1 1; ShLin 1%nat 1 0], Some SPSU2T_e254);
  (50, 48, [ShLin 0%nat 1 2; ShLin 1%nat 1 0], [ShLin 0%nat 1 1; ShLin 1%nat 1 1], Some SPSU2T_e255);
  (50, 49, [ShLin 0%nat 1 2; ShLin 1%nat 1 0], [ShLin 0%nat 1 3; ShLin 1%nat 1 (-1)], Some (cO (cD (cN 1) (cV 1))));
  (50, 50, [ShLin 0%nat 1 2; ShLin 1%nat 1 0], [ShLin 0%nat 1 3; ShLin 1%nat 1 0], Some SPSU2T_e256);
  (50, 51, [ShLin 0%nat 1 2; ShLin 1%nat 1 0], [ShLin 0%nat 1 3; ShLin 1%nat 1 1], Some SPSU2T_e257);
  (51, 47, [ShLin 0%nat 1 2; ShLin 1%nat 1 1], [ShLin 0%nat 1 1; ShLin 1%nat 1 0], Some SPSU2T_e258);
  (51, 48, [ShLin 0%nat 1 2; ShLin 1%nat 1 1], [ShLin 0%nat 1 1; ShLin 1%nat 1 1], Some SPSU2T_e259);
  (51, 50, [ShLin 0%nat 1 2; ShLin 1%nat 1 1], [ShLin 0%nat 1 3; ShLin 1%nat 1 0], Some SPSU2T_e260);
  (51, 51, [ShLin 0%nat 1 2; ShLin 1%nat 1 1], [ShLin 0%nat 1 3; ShLin 1%nat 1 1], Some SPSU2T_e261);
  (52, 52, [ShLin 0%nat 1 (-2); ShLin 1%nat 1 (-1)], [ShLin 0%nat 1 (-1); ShLin 1%nat 1 (-1)], Some SPSU2T_e233);
  (52, 53, [ShLin 0%nat 1 (-2); ShLin 1%nat 1 (-1)], [ShLin 0%nat 1 (-1); ShLin 1%nat 1 0], Some SPSU2T_e234);
  (53, 52, [ShLin 0%nat 1 (-2); ShLin 1%nat 1 0], [ShLin 0%nat 1 (-1); ShLin 1%nat 1 (-1)], Some SPSU2T_e235);
  (53, 53, [ShLin 0%nat 1 (-2); ShLin 1%nat 1 0], [ShLin 0%nat 1 (-1); ShLin 1%nat 1 0], Some SPSU2T_e236);
  (53, 54, [ShLin 0%nat 1 (-2); ShLin 1%nat 1 0], [ShLin 0%nat 1 (-1); ShLin 1%nat 1 1], Some SPSU2T_e237);
  (54, 53, [ShLin 0%nat 1 (-2); ShLin 1%nat 1 1], [ShLin 0%nat 1 (-1); ShLin 1%nat 1 0], Some SPSU2T_e238);
  (54, 54, [ShLin 0%nat 1 (-2); ShLin 1%nat 1 1], [ShLin 0%nat 1 (-1); ShLin 1%nat 1 1], Some SPSU2T_e239);
  (55, 52, [ShLin 0%nat 1 0; ShLin 1%nat 1 (-1)], [ShLin 0%nat 1 (-1); ShLin 1%nat 1 (-1)], Some SPSU2T_e240);
  (55, 53, [ShLin 0%nat 1 0; ShLin 1%nat 1 (-1)], [ShLin 0%nat 1 (-1); ShLin 1%nat 1 0], Some SPSU2T_e241);
  (55, 55, [ShLin 0%nat 1 0; ShLin 1%nat 1 (-1)], [ShLin 0%nat 1 1; ShLin 1%nat 1 (-1)], Some SPSU2T_e242);
  (55, 56, [ShLin 0%nat 1 0; ShLin 1%nat 1 (-1)], [ShLin 0%nat 1 1; ShLin 1%nat 1 0], Some SPSU2T_e243);
  (56, 52, [ShLin 0%nat 1 0; ShLin 1%nat 1 0], [ShLin 0%nat 1 (-1); ShLin 1%nat 1 (-1)], Some SPSU2T_e139);
  (56, 53, [ShLin 0%nat 1 0; ShLin 1%nat 1 0], [ShLin 0%nat 1 (-1); ShLin 1%nat 1 0], Some SPSU2T_e244);
  (56, 54, [ShLin 0%nat 1 0; ShLin 1%nat 1 0], [ShLin 0%nat 1 (-1); ShLin 1%nat 1 1], Some SPSU2T_e245);
  (56, 55, [ShLin 0%nat 1 0; ShLin 1%nat 1 0], [ShLin 0%nat 1 1; ShLin 1%nat 1 (-1)], Some SPSU2T_e246);
  (56, 56, [ShLin 0%nat 1 0; ShLin 1%nat 1 0], [ShLin 0%nat 1 1; ShLin 1%nat 1 0], Some SPSU2T_e247);
  (56, 57, [ShLin 0%nat 1 0; ShLin 1%nat 1 0], [ShLin 0%nat 1 1; ShLin 1%nat 1 1], Some SPSU2T_e248);
  (57, 53, [ShLin 0%nat 1 0; ShLin 1%nat 1 1], [ShLin 0%nat 1 (-1); ShLin 1%nat 1 0], Some SPSU2T_e249);
  (57, 54, [ShLin 0%nat 1 0; ShLin 1%nat 1 1], [ShLin 0%nat 1 (-1); ShLin 1%nat 1 1], Some SPSU2T_e250);
  (57, 56, [ShLin 0%nat 1 0; ShLin 1%nat 1 1], [ShLin 0%nat 1 1; ShLin 1%nat 1 0], Some SPSU2T_e251);
  (57, 57, [ShLin 0%nat 1 0; ShLin 1%nat 1 1], [ShLin 0%nat 1 1; ShLin 1%nat 1 1], Some SPSU2T_e252);
  (58, 55, [ShLin 0%nat 1 2; ShLin 1%nat 1 (-1)], [ShLin 0%nat 1 1; ShLin 1%nat 1 (-1)], Some SPSU2T_e253);
  (58, 56, [ShLin 0%nat 1 2; ShLin 1%nat 1 (-1)], [ShLin 0%nat 1 1; ShLin 1%nat 1 0], Some SPSU2T_e86);
  (58, 58, [ShLin 0%nat 1 2; ShLin 1%nat 1 (-1)], [ShLin 0%nat 1 3; ShLin 1%nat 1 (-1)], Some SPSU2T_e87);
  (58, 59, [ShLin 0%nat 1 2; ShLin 1%nat 1 (-1)], [ShLin 0%nat 1 3; ShLin 1%nat 1 0], Some SPSU2T_e88);
  (59, 55, [ShLin 0%nat 1 2; ShLin 1%nat 1 0], [ShLin 0%nat 1 1; ShLin 1%nat 1 (-1)], Some SPSU2T_e149);
  (59, 56, [ShLin 0%nat 1 2; ShLin 1%nat 1 0], [ShLin 0%nat 1 1; ShLin 1%nat 1 0], Some SPSU2T_e254);
  (59, 57, [ShLin 0%nat 1 2; ShLin 1%nat 1 0], [ShLin 0%nat 1 1; ShLin 1%nat 1 1], Some SPSU2T_e255);
  (59, 58, [ShLin 0%nat 1 2; ShLin 1%nat 1 0], [ShLin 0%nat 1 3; ShLin 1%nat 1 (-1)], Some (cO (cD (cN 1) (cV 1))));
  (59, 59, [ShLin 0%nat 1 2; ShLin 1%nat 1 0], [ShLin 0%nat 1 3; ShLin 1%nat 1 0], Some SPSU2T_e256);
  (59, 60, [ShLin 0%nat 1 2; ShLin 1%nat 1 0], [ShLin 0%nat 1 3; ShLin 1%nat 1 1], Some SPSU2T_e257);
  (60, 56, [ShLin 0%nat 1 2; ShLin 1%nat 1 1], [ShLin 0%nat 1 1; ShLin 1%nat 1 0], Some SPSU2T_e258);
  (60, 57, [ShLin 0%nat 1 2; ShLin 1%nat 1 1], [ShLin 0%nat 1 1; ShLin 1%nat 1 1], Some SPSU2T_e259);
  (60, 59, [ShLin 0%nat 1 2; ShLin 1%nat 1 1], [ShLin 0%nat 1 3; ShLin 1%nat 1 0], Some SPSU2T_e260);
  (60, 60, [ShLin 0%nat 1 2; ShLin 1%nat 1 1], [ShLin 0%nat 1 3; ShLin 1%nat 1 1], Some SPSU2T_e261);
  (61, 61, [ShLin 0%nat 1 (-3); ShLin 1%nat 1 0], [ShLin 0%nat 1 (-2); ShLin 1%nat 1 0], Some SPSU2T_e91);
  (62, 61, [ShLin 0%nat 1 (-1); ShLin 1%nat 1 0], [ShLin 0%nat 1 (-2); ShLin 1%nat 1 0], Some SPSU2T_e92);
  (62, 62, [ShLin 0%nat 1 (-1); ShLin 1%nat 1 0], [ShLin 0%nat 1 0; ShLin 1%nat 1 0], Some SPSU2T_e93);
  (63, 62, [ShLin 0%nat 1 1; ShLin 1%nat 1 0], [ShLin 0%nat 1 0; ShLin 1%nat 1 0], Some SPSU2T_e94);
  (63, 63, [ShLin 0%nat 1 1; ShLin 1%nat 1 0], [ShLin 0%nat 1 2; ShLin 1%nat 1 0], Some SPSU2T_e95);
  (64, 63, [ShLin 0%nat 1 3; ShLin 1%nat 1 0], [ShLin 0%nat 1 2; ShLin 1%nat 1 0], Some SPSU2T_e96);
  (64, 64, [ShLin 0%nat 1 3; ShLin 1%nat 1 0], [ShLin 0%nat 1 4; ShLin 1%nat 1 0], Some (cN (-1)))].
(** /repo/c++/symmetry/nrg-recalc-SPSU2T.hpp recalc_doublet, spsu2t/spsu2t-doubletm0.dat *)
Definition spsu2t_t3 : ten_table := mk_ten "doublet" [ShLin 0%nat 1 (-1); ShLin 1%nat 1 0] [1; 2; 1] [
  (1, 1, [ShLin 0%nat 1 0; ShLin 1%nat 1 0], [ShLin 0%nat 1 (-1); ShLin 1%nat 1 0], Some (cN 1));
  (2, 2, [ShLin 0%nat 1 0; ShLin 1%nat 1 0], [ShLin 0%nat 1 (-1); ShLin 1%nat 1 0], Some (cN 1));
  (3, 3, [ShLin 0%nat 1 0; ShLin 1%nat 1 0], [ShLin 0%nat 1 (-1); ShLin 1%nat 1 0], Some (cN 1));
  (4, 4, [ShLin 0%nat 1 0; ShLin 1%nat 1 0], [ShLin 0%nat 1 (-1); ShLin 1%nat 1 0], Some (cN 1));
  (5, 5, [ShLin 0%nat 1 0; ShLin 1%nat 1 (-2)], [ShLin 0%nat 1 (-1); ShLin 1%nat 1 (-2)], Some SPSU2T_e2);
  (5, 6, [ShLin 0%nat 1 0; ShLin 1%nat 1 (-2)], [ShLin 0%nat 1 (-1); ShLin 1%nat 1 (-1)], Some SPSU2T_e168);
  (6, 5, [ShLin 0%nat 1 0; ShLin 1%nat 1 (-1)], [ShLin 0%nat 1 (-1); ShLin 1%nat 1 (-2)], Some SPSU2T_e43);
  (6, 6, [ShLin 0%nat 1 0; ShLin 1%nat 1 (-1)], [ShLin 0%nat 1 (-1); ShLin 1%nat 1 (-1)], Some SPSU2T_e169);
  (6, 7, [ShLin 0%nat 1 0; ShLin 1%nat 1 (-1)], [ShLin 0%nat 1 (-1); ShLin 1%nat 1 0], Some SPSU2T_e170);
  (7, 6, [ShLin 0%nat 1 0; ShLin 1%nat 1 0], [ShLin 0%nat 1 (-1); ShLin 1%nat 1 (-1)], Some SPSU2T_e171);
  (7, 7, [ShLin 0%nat 1 0; ShLin 1%nat 1 0], [ShLin 0%nat 1 (-1); ShLin 1%nat 1 0], Some SPSU2T_e172);
  (7, 8, [ShLin 0%nat 1 0; ShLin 1%nat 1 0], [ShLin 0%nat 1 (-1); ShLin 1%nat 1 1], Some SPSU2T_e173);
  (8, 7, [ShLin 0%nat 1 0; ShLin 1%nat 1 1], [ShLin 0%nat 1 (-1); ShLin 1%nat 1 0], Some SPSU2T_e174);
  (8, 8, [ShLin 0%nat 1 0; ShLin 1%nat 1 1], [ShLin 0%nat 1 (-1); ShLin 1%nat 1 1], Some SPSU2T_e175);
  (8, 9, [ShLin 0%nat 1 0; ShLin 1%nat 1 1], [ShLin 0%nat 1 (-1); ShLin 1%nat 1 2], Some SPSU2T_e176);
  (9, 8, [ShLin 0%nat 1 0; ShLin 1%nat 1 2], [ShLin 0%nat 1 (-1); ShLin 1%nat 1 1], Some SPSU2T_e177);
  (9, 9, [ShLin 0%nat 1 0; ShLin 1%nat 1 2], [ShLin 0%nat 1 (-1); ShLin 1%nat 1 2], Some SPSU2T_e178);
  (10, 10, [ShLin 0%nat 1 0; ShLin 1%nat 1 (-2)], [ShLin 0%nat 1 (-1); ShLin 1%nat 1 (-2)], Some SPSU2T_e2);
  (10, 11, [ShLin 0%nat 1 0; ShLin 1%nat 1 (-2)], [ShLin 0%nat 1 (-1); ShLin 1%nat 1 (-1)], Some SPSU2T_e168);
  (11, 10, [ShLin 0%nat 1 0; ShLin 1%nat 1 (-1)], [ShLin 0%nat 1 (-1); ShLin 1%nat 1 (-2)], Some SPSU2T_e43);
  (11, 11, [ShLin 0%nat 1 0; ShLin 1%nat 1 (-1)], [ShLin 0%nat 1 (-1); ShLin 1%nat 1 (-1)], Some SPSU2T_e169);
  (11, 12, [ShLin 0%nat 1 0; ShLin 1%nat 1 (-1)], [ShLin 0%nat 1 (-1); ShLin 1%nat 1 0], Some SPSU2T_e170);
  (12, 11, [ShLin 0%nat 1 0; ShLin 1%nat 1 0], [ShLin 0%nat 1 (-1); ShLin 1%nat 1 (-1)], Some SPSU2T_e171);
  (12, 12, [ShLin 0%nat 1 0; ShLin 1%nat 1 0], [ShLin 0%nat 1 (-1); ShLin 1%nat 1 0], Some SPSU2T_e172);
  (12, 13, [ShLin 0%nat 1 0; ShLin 1%nat 1 0], [ShLin 0%nat 1 (-1); ShLin 1%nat 1 1], Some SPSU2T_e173);
  (13, 12, [ShLin 0%nat 1 0; ShLin 1%nat 1 1], [ShLin 0%nat 1 (-1); ShLin 1%nat 1 0], Some SPSU2T_e174);
  (13, 13, [ShLin 0%nat 1 0; ShLin 1%nat 1 1], [ShLin 0%nat 1 (-1); ShLin 1%nat 1 1], Some SPSU2T_e175);
  (13, 14, [ShLin 0%nat 1 0; ShLin 1%nat 1 1], [ShLin 0%nat 1 (-1); ShLin 1%nat 1 2], Some SPSU2T_e176);
  (14, 13, [ShLin 0%nat 1 0; ShLin 1%nat 1 2], [ShLin 0%nat 1 (-1); ShLin 1%nat 1 1], Some SPSU2T_e177);
  (14, 14, [ShLin 0%nat 1 0; ShLin 1%nat 1 2], [ShLin 0%nat 1 (-1); ShLin 1%nat 1 2], Some SPSU2T_e178);
  (15, 15, [ShLin 0%nat 1 (-1); ShLin 1%nat 1 (-1)], [ShLin 0%nat 1 (-2); ShLin 1%nat 1 (-1)], Some SPSU2T_e23);
  (15, 16, [ShLin 0%nat 1 (-1); ShLin 1%nat 1 (-1)], [ShLin 0%nat 1 (-2); ShLin 1%nat 1 0], Some SPSU2T_e24);
  (15, 18, [ShLin 0%nat 1 (-1); ShLin 1%nat 1 (-1)], [ShLin 0%nat 1 0; ShLin 1%nat 1 (-1)], Some SPSU2T_e101);
  (15, 19, [ShLin 0%nat 1 (-1); ShLin 1%nat 1 (-1)], [ShLin 0%nat 1 0; ShLin 1%nat 1 0], Some SPSU2T_e102);
  (16, 15, [ShLin 0%nat 1 (-1); ShLin 1%nat 1 0], [ShLin 0%nat 1 (-2); ShLin 1%nat 1 (-1)], Some (cD (cN 1) (cV 1)));
  (16, 16, [ShLin 0%nat 1 (-1); ShLin 1%nat 1 0], [ShLin 0%nat 1 (-2); ShLin 1%nat 1 0], Some SPSU2T_e194);
  (16, 17, [ShLin 0%nat 1 (-1); ShLin 1%nat 1 0], [ShLin 0%nat 1 (-2); ShLin 1%nat 1 1], Some SPSU2T_e188);
  (16, 18, [ShLin 0%nat 1 (-1); ShLin 1%nat 1 0], [ShLin 0%nat 1 0; ShLin 1%nat 1 (-1)], Some SPSU2T_e18);
  (16, 19, [ShLin 0%nat 1 (-1); ShLin 1%nat 1 0], [ShLin 0%nat 1 0; ShLin 1%nat 1 0], Some SPSU2T_e262);
  (16, 20, [ShLin 0%nat 1 (-1); ShLin 1%nat 1 0], [ShLin 0%nat 1 0; ShLin 1%nat 1 1], Some SPSU2T_e263);
  (17, 16, [ShLin 0%nat 1 (-1); ShLin 1%nat 1 1], [ShLin 0%nat 1 (-2); ShLin 1%nat 1 0], Some SPSU2T_e264);
  (17, 17, [ShLin 0%nat 1 (-1); ShLin 1%nat 1 1], [ShLin 0%nat 1 (-2); ShLin 1%nat 1 1], Some SPSU2T_e265);
  (17, 19, [ShLin 0%nat 1 (-1); ShLin 1%nat 1 1], [ShLin 0%nat 1 0; ShLin 1%nat 1 0], Some SPSU2T_e266);
  (17, 20, [ShLin 0%nat 1 (-1); ShLin 1%nat 1 1], [ShLin 0%nat 1 0; ShLin 1%nat 1 1], Some SPSU2T_e267);
  (18, 18, [ShLin 0%nat 1 1; ShLin 1%nat 1 (-1)], [ShLin 0%nat 1 0; ShLin 1%nat 1 (-1)], Some SPSU2T_e105);
  (18, 19, [ShLin 0%nat 1 1; ShLin 1%nat 1 (-1)], [ShLin 0%nat 1 0; ShLin 1%nat 1 0], Some SPSU2T_e106);
  (19, 18, [ShLin 0%nat 1 1; ShLin 1%nat 1 0], [ShLin 0%nat 1 0; ShLin 1%nat 1 (-1)], Some SPSU2T_e268);
  (19, 19, [ShLin 0%nat 1 1; ShLin 1%nat 1 0], [ShLin 0%nat 1 0; ShLin 1%nat 1 0], Some SPSU2T_e180);
  (19, 20, [ShLin 0%nat 1 1; ShLin 1%nat 1 0], [ShLin 0%nat 1 0; ShLin 1%nat 1 1], Some SPSU2T_e269);
  (20, 19, [ShLin 0%nat 1 1; ShLin 1%nat 1 1], [ShLin 0%nat 1 0; ShLin 1%nat 1 0], Some SPSU2T_e270);
  (20, 20, [ShLin 0%nat 1 1; ShLin 1%nat 1 1], [ShLin 0%nat 1 0; ShLin 1%nat 1 1], Some SPSU2T_e271);
  (21, 21, [ShLin 0%nat 1 (-1); ShLin 1%nat 1 (-1)], [ShLin 0%nat 1 (-2); ShLin 1%nat 1 (-1)], Some SPSU2T_e23);
  (21, 22, [ShLin 0%nat 1 (-1); ShLin 1%nat 1 (-1)], [ShLin 0%nat 1 (-2); ShLin 1%nat 1 0], Some SPSU2T_e24);
  (21, 24, [ShLin 0%nat 1 (-1); ShLin 1%nat 1 (-1)], [ShLin 0%nat 1 0; ShLin 1%nat 1 (-1)], Some SPSU2T_e101);
  (21, 25, [ShLin 0%nat 1 (-1); ShLin 1%nat 1 (-1)], [ShLin 0%nat 1 0; ShLin 1%nat 1 0], Some SPSU2T_e102);
  (22, 21, [ShLin 0%nat 1 (-1); ShLin 1%nat 1 0], [ShLin 0%nat 1 (-2); ShLin 1%nat 1 (-1)], Some (cD (cN 1) (cV 1)));
  (22, 22, [ShLin 0%nat 1 (-1); ShLin 1%nat 1 0], [ShLin 0%nat 1 (-2); ShLin 1%nat 1 0], Some SPSU2T_e194);
  (22, 23, [ShLin 0%nat 1 (-1); ShLin 1%nat 1 0], [ShLin 0%nat 1 (-2); ShLin 1%nat 1 1], Some SPSU2T_e188);
  (22, 24, [ShLin 0%nat 1 (-1); ShLin 1%nat 1 0], [ShLin 0%nat 1 0; ShLin 1%nat 1 (-1)], Some SPSU2T_e18);
  (22, 25, [ShLin 0%nat 1 (-1); ShLin 1%nat 1 0], [ShLin 0%nat 1 0; ShLin 1%nat 1 0], Some SPSU2T_e262);
  (22, 26, [ShLin 0%nat 1 (-1); ShLin 1%nat 1 0], [ShLin 0%nat 1 0; ShLin 1%nat 1 1], Some SPSU2T_e263);
  (23, 22, [ShLin 0%nat 1 (-1); ShLin 1%nat 1 1], [ShLin 0%nat 1 (-2); ShLin 1%nat 1 0], Some SPSU2T_e264);
  (23, 23, [ShLin 0%nat 1 (-1); ShLin 1%nat 1 1], [ShLin 0%nat 1 (-2); ShLin 1%nat 1 1], Some SPSU2T_e272);
  (23, 25, [ShLin 0%nat 1 (-1); ShLin 1%nat 1 1], [ShLin 0%nat 1 0; ShLin 1%nat 1 0], Some SPSU2T_e266);
  (23, 26, [ShLin 0%nat 1 (-1); ShLin 1%nat 1 1], [ShLin 0%nat 1 0; ShLin 1%nat 1 1], Some SPSU2T_e267);
  (24, 24, [ShLin 0%nat 1 1; ShLin 1%nat 1 (-1)], [ShLin 0%nat 1 0; ShLin 1%nat 1 (-1)], Some SPSU2T_e105);
  (24, 25, [ShLin 0%nat 1 1; ShLin 1%nat 1 (-1)], [ShLin 0%nat 1 0; ShLin 1%nat 1 0], Some SPSU2T_e106);
  (25, 24, [ShLin 0%nat 1 1; ShLin 1%nat 1 0], [ShLin 0%nat 1 0; ShLin 1%nat 1 (-1)], Some SPSU2T_e268);
  (25, 25, [ShLin 0%nat 1 1; ShLin 1%nat 1 0], [ShLin 0%nat 1 0; ShLin 1%nat 1 0], Some SPSU2T_e180);
  (25, 26, [ShLin 0%nat 1 1; ShLin 1%nat 1 0], [ShLin 0%nat 1 0; ShLin 1%nat 1 1], Some SPSU2T_e269);
  (26, 25, [ShLin 0%nat 1 1; ShLin 1%nat 1 1], [ShLin 0%nat 1 0; ShLin 1%nat 1 0], Some SPSU2T_e270);
  (26, 26, [ShLin 0%nat 1 1; ShLin 1%nat 1 1], [ShLin 0%nat 1 0; ShLin 1%nat 1 1], Some SPSU2T_e273);
  (27, 27, [ShLin 0%nat 1 (-1); ShLin 1%nat 1 (-1)], [ShLin 0%nat 1 (-2); ShLin 1%nat 1 (-1)], Some SPSU2T_e23);
  (27, 28, [ShLin 0%nat 1 (-1); ShLin 1%nat 1 (-1)], [ShLin 0%nat 1 (-2); ShLin 1%nat 1 0], Some SPSU2T_e24);
  (27, 30, [ShLin 0%nat 1 (-1); ShLin 1%nat 1 (-1)], [ShLin 0%nat 1 0; ShLin 1%nat 1 (-1)], Some SPSU2T_e101);
  (27, 31, [ShLin 0%nat 1 (-1); ShLin 1%nat 1 (-1)], [ShLin 0%nat 1 0; ShLin 1%nat 1 0], Some SPSU2T_e102);
  (28, 27, [ShLin 0%nat 1 (-1); ShLin 1%nat 1 0], [ShLin 0%nat 1 (-2); ShLin 1%nat 1 (-1)], Some (cD (cN 1) (cV 1)));
  (28, 28, [ShLin 0%nat 1 (-1); ShLin 1%nat 1 0], [ShLin 0%nat 1 (-2); ShLin 1%nat 1 0], Some SPSU2T_e194);
  (28, 29, [ShLin 0%nat 1 (-1); ShLin 1%nat 1 0], [ShLin 0%nat 1 (-2); ShLin 1%nat 1 1], Some SPSU2T_e188);
  (28, 30, [ShLin 0%nat 1 (-1); ShLin 1%nat 1 0], [ShLin 0%nat 1 0; ShLin 1%nat 1 (-1)], Some SPSU2T_e18);
  (28, 31, [ShLin 0%nat 1 (-1); ShLin 1%nat 1 0], [ShLin 0%nat 1 0; ShLin 1%nat 1 0], Some SPSU2T_e262);
  (28, 32, [ShLin 0%nat 1 (-1); ShLin 1%nat 1 0], [ShLin 0%nat 1 0; ShLin 1%nat 1 1], Some SPSU2T_e263);
  (29, 28, [ShLin 0%nat 1 (-1); ShLin 1%nat 1 1], [ShLin 0%nat 1 (-2); ShLin 1%nat 1 0], Some SPSU2T_e264);
  (29, 29, [ShLin 0%nat 1 (-1); ShLin 1%nat 1 1], [ShLin 0%nat 1 (-2); ShLin 1%nat 1 1], Some SPSU2T_e265);
  (29, 31, [ShLin 0%nat 1 (-1); ShLin 1%nat 1 1], [ShLin 0%nat 1 0; ShLin 1%nat 1 0], Some SPSU2T_e266);
  (29, 32, [ShLin 0%nat 1 (-1); ShLin 1%nat 1 1], [ShLin 0%nat 1 0; ShLin 1%nat 1 1], Some SPSU2T_e267);
  (30, 30, [ShLin 0%nat 1 1; ShLin 1%nat 1 (-1)], [ShLin 0%nat 1 0; ShLin 1%nat 1 (-1)], Some SPSU2T_e105);
  (30, 31, [ShLin 0%nat 1 1; ShLin 1%nat 1 (-1)], [ShLin 0%nat 1 0; ShLin 1%nat 1 0], Some SPSU2T_e106);
  (31, 30, [ShLin 0%nat 1 1; ShLin 1%nat 1 0], [ShLin 0%nat 1 0; ShLin 1%nat 1 (-1)], Some SPSU2T_e268);
  (31, 31, [ShLin 0%nat 1 1; ShLin 1%nat 1 0], [ShLin 0%nat 1 0; ShLin 1%nat 1 0], Some SPSU2T_e180);
  (31, 32, [ShLin 0%nat 1 1; ShLin 1%nat 1 0], [ShLin 0%nat 1 0; ShLin 1%nat 1 1], Some SPSU2T_e269);
  (32, 31, [ShLin 0%nat 1 1; ShLin 1%nat 1 1], [ShLin 0%nat 1 0; ShLin 1%nat 1 0], Some SPSU2T_e270);
  (32, 32, [ShLin 0%nat 1 1; ShLin 1%nat 1 1], [ShLin 0%nat 1 0; ShLin 1%nat 1 1], Some SPSU2T_e271);
  (33, 33, [ShLin 0%nat 1 (-1); ShLin 1%nat 1 (-2)], [ShLin 0%nat 1 (-2); ShLin 1%nat 1 (-2)], Some SPSU2T_e112);
  (33, 34, [ShLin 0%nat 1 (-1); ShLin 1%nat 1 (-2)], [ShLin 0%nat 1 (-2); ShLin 1%nat 1 (-1)], Some SPSU2T_e212);
  (33, 38, [ShLin 0%nat 1 (-1); ShLin 1%nat 1 (-2)], [ShLin 0%nat 1 0; ShLin 1%nat 1 (-2)], Some SPSU2T_e274);
  (33, 39, [ShLin 0%nat 1 (-1); ShLin 1%nat 1 (-2)], [ShLin 0%nat 1 0; ShLin 1%nat 1 (-1)], Some SPSU2T_e275);
  (34, 33, [ShLin 0%nat 1 (-1); ShLin 1%nat 1 (-1)], [ShLin 0%nat 1 (-2); ShLin 1%nat 1 (-2)], Some SPSU2T_e0);
  (34, 34, [ShLin 0%nat 1 (-1); ShLin 1%nat 1 (-1)], [ShLin 0%nat 1 (-2); ShLin 1%nat 1 (-1)], Some SPSU2T_e215);
  (34, 35, [ShLin 0%nat 1 (-1); ShLin 1%nat 1 (-1)], [ShLin 0%nat 1 (-2); ShLin 1%nat 1 0], Some SPSU2T_e216);
  (34, 38, [ShLin 0%nat 1 (-1); ShLin 1%nat 1 (-1)], [ShLin 0%nat 1 0; ShLin 1%nat 1 (-2)], Some SPSU2T_e41);
  (34, 39, [ShLin 0%nat 1 (-1); ShLin 1%nat 1 (-1)], [ShLin 0%nat 1 0; ShLin 1%nat 1 (-1)], Some SPSU2T_e276);
  (34, 40, [ShLin 0%nat 1 (-1); ShLin 1%nat 1 (-1)], [ShLin 0%nat 1 0; ShLin 1%nat 1 0], Some SPSU2T_e277);
  (35, 34, [ShLin 0%nat 1 (-1); ShLin 1%nat 1 0], [ShLin 0%nat 1 (-2); ShLin 1%nat 1 (-1)], Some SPSU2T_e278);
  (35, 35, [ShLin 0%nat 1 (-1); ShLin 1%nat 1 0], [ShLin 0%nat 1 (-2); ShLin 1%nat 1 0], Some SPSU2T_e221);
  (35, 36, [ShLin 0%nat 1 (-1); ShLin 1%nat 1 0], [ShLin 0%nat 1 (-2); ShLin 1%nat 1 1], Some SPSU2T_e279);
  (35, 39, [ShLin 0%nat 1 (-1); ShLin 1%nat 1 0], [ShLin 0%nat 1 0; ShLin 1%nat 1 (-1)], Some SPSU2T_e280);
  (35, 40, [ShLin 0%nat 1 (-1); ShLin 1%nat 1 0], [ShLin 0%nat 1 0; ShLin 1%nat 1 0], Some SPSU2T_e281);
  (35, 41, [ShLin 0%nat 1 (-1); ShLin 1%nat 1 0], [ShLin 0%nat 1 0; ShLin 1%nat 1 1], Some SPSU2T_e282);
  (36, 35, [ShLin 0%nat 1 (-1); ShLin 1%nat 1 1], [ShLin 0%nat 1 (-2); ShLin 1%nat 1 0], Some SPSU2T_e283);
  (36, 36, [ShLin 0%nat 1 (-1); ShLin 1%nat 1 1], [ShLin 0%nat 1 (-2); ShLin 1%nat 1 1], Some SPSU2T_e284);
  (36, 37, [ShLin 0%nat 1 (-1); ShLin 1%nat 1 1], [ShLin 0%nat 1 (-2); ShLin 1%nat 1 2], Some SPSU2T_e285);
  (36, 40, [ShLin 0%nat 1 (-1); ShLin 1%nat 1 1], [ShLin 0%nat 1 0; ShLin 1%nat 1 0], Some SPSU2T_e286);
  (36, 41, [ShLin 0%nat 1 (-1); ShLin 1%nat 1 1], [ShLin 0%nat 1 0; ShLin 1%nat 1 1], Some SPSU2T_e287);
  (36, 42, [ShLin 0%nat 1 (-1); ShLin 1%nat 1 1], [ShLin 0%nat 1 0; ShLin 1%nat 1 2], Some SPSU2T_e288);
  (37, 36, [ShLin 0%nat 1 (-1); ShLin 1%nat 1 2], [ShLin 0%nat 1 (-2); ShLin 1%nat 1 1], Some SPSU2T_e289);
  (37, 37, [ShLin 0%nat 1 (-1); ShLin 1%nat 1 2], [ShLin 0%nat 1 (-2); ShLin 1%nat 1 2], Some SPSU2T_e290);
  (37, 41, [ShLin 0%nat 1 (-1); ShLin 1%nat 1 2], [ShLin 0%nat 1 0; ShLin 1%nat 1 1], Some SPSU2T_e291);
  (37, 42, [ShLin 0%nat 1 (-1); ShLin 1%nat 1 2], [ShLin 0%nat 1 0; ShLin 1%nat 1 2], Some SPSU2T_e292);
  (38, 38, [ShLin 0%nat 1 1; ShLin 1%nat 1 (-2)], [ShLin 0%nat 1 0; ShLin 1%nat 1 (-2)], Some SPSU2T_e293);
  (38, 39, [ShLin 0%nat 1 1; ShLin 1%nat 1 (-2)], [ShLin 0%nat 1 0; ShLin 1%nat 1 (-1)], Some SPSU2T_e294);
  (39, 38, [ShLin 0%nat 1 1; ShLin 1%nat 1 (-1)], [ShLin 0%nat 1 0; ShLin 1%nat 1 (-2)], Some SPSU2T_e295);
  (39, 39, [ShLin 0%nat 1 1; ShLin 1%nat 1 (-1)], [ShLin 0%nat 1 0; ShLin 1%nat 1 (-1)], Some SPSU2T_e296);
  (39, 40, [ShLin 0%nat 1 1; ShLin 1%nat 1 (-1)], [ShLin 0%nat 1 0; ShLin 1%nat 1 0], Some SPSU2T_e297);
  (40, 39, [ShLin 0%nat 1 1; ShLin 1%nat 1 0], [ShLin 0%nat 1 0; ShLin 1%nat 1 (-1)], Some SPSU2T_e298);
  (40, 40, [ShLin 0%nat 1 1; ShLin 1%nat 1 0], [ShLin 0%nat 1 0; ShLin 1%nat 1 0], Some SPSU2T_e299);
  (40, 41, [ShLin 0%nat 1 1; ShLin 1%nat 1 0], [ShLin 0%nat 1 0; ShLin 1%nat 1 1], Some SPSU2T_e300);
  (41, 40, [ShLin 0%nat 1 1; ShLin 1%nat 1 1], [ShLin 0%nat 1 0; ShLin 1%nat 1 0], Some SPSU2T_e301);
  (41, 41, [ShLin 0%nat 1 1; ShLin 1%nat 1 1], [ShLin 0%nat 1 0; ShLin 1%nat 1 1], Some SPSU2T_e302);
  (41, 42, [ShLin 0%nat 1 1; ShLin 1%nat 1 1], [ShLin 0%nat 1 0; ShLin 1%nat 1 2], Some SPSU2T_e303);
  (42, 41, [ShLin 0%nat 1 1; ShLin 1%nat 1 2], [ShLin 0%nat 1 0; ShLin 1%nat 1 1], Some SPSU2T_e304);
  (42, 42, [ShLin 0%nat 1 1; ShLin 1%nat 1 2], [ShLin 0%nat 1 0; ShLin 1%nat 1 2], Some SPSU2T_e305);
  (43, 43, [ShLin 0%nat 1 (-2); ShLin 1%nat 1 (-1)], [ShLin 0%nat 1 (-3); ShLin 1%nat 1 (-1)], Some SPSU2T_e87);
  (43, 44, [ShLin 0%nat 1 (-2); ShLin 1%nat 1 (-1)], [ShLin 0%nat 1 (-3); ShLin 1%nat 1 0], Some SPSU2T_e88);
  (43, 46, [ShLin 0%nat 1 (-2); ShLin 1%nat 1 (-1)], [ShLin 0%nat 1 (-1); ShLin 1%nat 1 (-1)], Some SPSU2T_e306);
  (43, 47, [ShLin 0%nat 1 (-2); ShLin 1%nat 1 (-1)], [ShLin 0%nat 1 (-1); ShLin 1%nat 1 0], Some SPSU2T_e307);
  (44, 43, [ShLin 0%nat 1 (-2); ShLin 1%nat 1 0], [ShLin 0%nat 1 (-3); ShLin 1%nat 1 (-1)], Some (cO (cD (cN 1) (cV 1))));
  (44, 44, [ShLin 0%nat 1 (-2); ShLin 1%nat 1 0], [ShLin 0%nat 1 (-3); ShLin 1%nat 1 0], Some SPSU2T_e256);
  (44, 45, [ShLin 0%nat 1 (-2); ShLin 1%nat 1 0], [ShLin 0%nat 1 (-3); ShLin 1%nat 1 1], Some SPSU2T_e257);
  (44, 46, [ShLin 0%nat 1 (-2); ShLin 1%nat 1 0], [ShLin 0%nat 1 (-1); ShLin 1%nat 1 (-1)], Some SPSU2T_e70);
  (44, 47, [ShLin 0%nat 1 (-2); ShLin 1%nat 1 0], [ShLin 0%nat 1 (-1); ShLin 1%nat 1 0], Some SPSU2T_e308);
  (44, 48, [ShLin 0%nat 1 (-2); ShLin 1%nat 1 0], [ShLin 0%nat 1 (-1); ShLin 1%nat 1 1], Some SPSU2T_e309);
  (45, 44, [ShLin 0%nat 1 (-2); ShLin 1%nat 1 1], [ShLin 0%nat 1 (-3); ShLin 1%nat 1 0], Some SPSU2T_e260);
  (45, 45, [ShLin 0%nat 1 (-2); ShLin 1%nat 1 1], [ShLin 0%nat 1 (-3); ShLin 1%nat 1 1], Some SPSU2T_e310);
  (45, 47, [ShLin 0%nat 1 (-2); ShLin 1%nat 1 1], [ShLin 0%nat 1 (-1); ShLin 1%nat 1 0], Some SPSU2T_e311);
  (45, 48, [ShLin 0%nat 1 (-2); ShLin 1%nat 1 1], [ShLin 0%nat 1 (-1); ShLin 1%nat 1 1], Some SPSU2T_e312);
  (46, 46, [ShLin 0%nat 1 0; ShLin 1%nat 1 (-1)], [ShLin 0%nat 1 (-1); ShLin 1%nat 1 (-1)], Some SPSU2T_e313);
  (46, 47, [ShLin 0%nat 1 0; ShLin 1%nat 1 (-1)], [ShLin 0%nat 1 (-1); ShLin 1%nat 1 0], Some SPSU2T_e314);
  (46, 49, [ShLin 0%nat 1 0; ShLin 1%nat 1 (-1)], [ShLin 0%nat 1 1; ShLin 1%nat 1 (-1)], Some SPSU2T_e315);
  (46, 50, [ShLin 0%nat 1 0; ShLin 1%nat 1 (-1)], [ShLin 0%nat 1 1; ShLin 1%nat 1 0], Some SPSU2T_e316);
  (47, 46, [ShLin 0%nat 1 0; ShLin 1%nat 1 0], [ShLin 0%nat 1 (-1); ShLin 1%nat 1 (-1)], Some SPSU2T_e317);
  (47, 47, [ShLin 0%nat 1 0; ShLin 1%nat 1 0], [ShLin 0%nat 1 (-1); ShLin 1%nat 1 0], Some SPSU2T_e318);
  (47, 48, [ShLin 0%nat 1 0; ShLin 1%nat 1 0], [ShLin 0%nat 1 (-1); ShLin 1%nat 1 1], Some SPSU2T_e319);
  (47, 49, [ShLin 0%nat 1 0; ShLin 1%nat 1 0], [ShLin 0%nat 1 1; ShLin 1%nat 1 (-1)], Some SPSU2T_e82);
  (47, 50, [ShLin 0%nat 1 0; ShLin 1%nat 1 0], [ShLin 0%nat 1 1; ShLin 1%nat 1 0], Some SPSU2T_e320);
  (47, 51, [ShLin 0%nat 1 0; ShLin 1%nat 1 0], [ShLin 0%nat 1 1; ShLin 1%nat 1 1], Some SPSU2T_e321);
  (48, 47, [ShLin 0%nat 1 0; ShLin 1%nat 1 1], [ShLin 0%nat 1 (-1); ShLin 1%nat 1 0], Some SPSU2T_e322);
  (48, 48, [ShLin 0%nat 1 0; ShLin 1%nat 1 1], [ShLin 0%nat 1 (-1); ShLin 1%nat 1 1], Some SPSU2T_e323);
  (48, 50, [ShLin 0%nat 1 0; ShLin 1%nat 1 1], [ShLin 0%nat 1 1; ShLin 1%nat 1 0], Some SPSU2T_e324);
  (48, 51, [ShLin 0%nat 1 0; ShLin 1%nat 1 1], [ShLin 0%nat 1 1; ShLin 1%nat 1 1], Some SPSU2T_e325);
  (49, 49, [ShLin 0%nat 1 2; ShLin 1%nat 1 (-1)], [ShLin 0%nat 1 1; ShLin 1%nat 1 (-1)], Some SPSU2T_e326);
  (49, 50, [ShLin 0%nat 1 2; ShLin 1%nat 1 (-1)], [ShLin 0%nat 1 1; ShLin 1%nat 1 0], Some SPSU2T_e327);
  (50, 49, [ShLin 0%nat 1 2; ShLin 1%nat 1 0], [ShLin 0%nat 1 1; ShLin 1%nat 1 (-1)], Some SPSU2T_e328);
  (50, 50, [ShLin 0%nat 1 2; ShLin 1%nat 1 0], [ShLin 0%nat 1 1; ShLin 1%nat 1 0], Some SPSU2T_e329);
  (50, 51, [ShLin 0%nat 1 2; ShLin 1%nat 1 0], [ShLin 0%nat 1 1; ShLin 1%nat 1 1], Some SPSU2T_e330);
  (51, 50, [ShLin 0%nat 1 2; ShLin 1%nat 1 1], [ShLin 0%nat 1 1; ShLin 1%nat 1 0], Some SPSU2T_e331);
  (51, 51, [ShLin 0%nat 1 2; ShLin 1%nat 1 1], [ShLin 0%nat 1 1; ShLin 1%nat 1 1], Some SPSU2T_e332);
  (52, 52, [ShLin 0%nat 1 (-2); ShLin 1%nat 1 (-1)], [ShLin 0%nat 1 (-3); ShLin 1%nat 1 (-1)], Some SPSU2T_e87);
  (52, 53, [ShLin 0%nat 1 (-2); ShLin 1%nat 1 (-1)], [ShLin 0%nat 1 (-3); ShLin 1%nat 1 0], Some SPSU2T_e88);
  (52, 55, [ShLin 0%nat 1 (-2); ShLin 1%nat 1 (-1)], [ShLin 0%nat 1 (-1); ShLin 1%nat 1 (-1)], Some SPSU2T_e306);
  (52, 56, [ShLin 0%nat 1 (-2); ShLin 1%nat 1 (-1)], [ShLin 0%nat 1 (-1); ShLin 1%nat 1 0], Some SPSU2T_e307);
  (53, 52, [ShLin 0%nat 1 (-2); ShLin 1%nat 1 0], [ShLin 0%nat 1 (-3); ShLin 1%nat 1 (-1)], Some (cO (cD (cN 1) (cV 1))));
  (53, 53, [ShLin 0%nat 1 (-2); ShLin 1%nat 1 0], [ShLin 0%nat 1 (-3); ShLin 1%nat 1 0], Some SPSU2T_e256);
  (53, 54, [ShLin 0%nat 1 (-2); ShLin 1%nat 1 0], [ShLin 0%nat 1 (-3); ShLin 1%nat 1 1], Some SPSU2T_e257);
  (53, 55, [ShLin 0%nat 1 (-2); ShLin 1%nat 1 0], [ShLin 0%nat 1 (-1); ShLin 1%nat 1 (-1)], Some SPSU2T_e70);
  (53, 56, [ShLin 0%nat 1 (-2); ShLin 1%nat 1 0], [ShLin 0%nat 1 (-1); ShLin 1%nat 1 0], Some SPSU2T_e308);
  (53, 57, [ShLin 0%nat 1 (-2); ShLin 1%nat 1 0], [ShLin 0%nat 1 (-1); ShLin 1%nat 1 1], Some SPSU2T_e309);
  (54, 53, [ShLin 0%nat 1 (-2); ShLin 1%nat 1 1], [ShLin 0%nat 1 (-3); ShLin 1%nat 1 0], Some SPSU2T_e260);
  (54, 54, [ShLin 0%nat 1 (-2); ShLin 1%nat 1 1], [ShLin 0%nat 1 (-3); ShLin 1%nat 1 1], Some SPSU2T_e310);
  (54, 56, [ShLin 0%nat 1 (-2); ShLin 1%nat 1 1], [ShLin 0%nat 1 (-1); ShLin 1%nat 1 0], Some SPSU2T_e311);
  (54, 57, [ShLin 0%nat 1 (-2); ShLin 1%nat 1 1], [ShLin 0%nat 1 (-1); ShLin 1%nat 1 1], Some SPSU2T_e312);
  (55, 55, [ShLin 0%nat 1 0; ShLin 1%nat 1 (-1)], [ShLin 0%nat 1 (-1); ShLin 1%nat 1 (-1)], Some SPSU2T_e313);
  (55, 56, [ShLin 0%nat 1 0; ShLin 1%nat 1 (-1)], [ShLin 0%nat 1 (-1); ShLin 1%nat 1 0], Some SPSU2T_e314);
  (55, 58, [ShLin 0%nat 1 0; ShLin 1%nat 1 (-1)], [ShLin 0%nat 1 1; ShLin 1%nat 1 (-1)], Some SPSU2T_e315);
  (55, 59, [ShLin 0%nat 1 0; ShLin 1%nat 1 (-1)], [ShLin 0%nat 1 1; ShLin 1%nat 1 0], Some SPSU2T_e316);
  (56, 55, [ShLin 0%nat 1 0; ShLin 1%nat 1 0], [ShLin 0%nat 1 (-1); ShLin 1%nat 1 (-1)], Some SPSU2T_e317);
  (56, 56, [ShLin 0%nat 1 0; ShLin 1%nat 1 0], [ShLin 0%nat 1 (-1); ShLin 1%nat 1 0], Some SPSU2T_e318);
  (56, 57, [ShLin 0%nat 1 0; ShLin 1%nat 1 0], [ShLin 0%nat 1 (-1); ShLin 1%nat 1 1], Some SPSU2T_e319);
  (56, 58, [ShLin 0%nat 1 0; ShLin 1%nat 1 0], [ShLin 0%nat 1 1; ShLin 1%nat 1 (-1)], Some SPSU2T_e82);
  (56, 59, [ShLin 0%nat 1 0; ShLin 1%nat 1 0], [ShLin 0%nat 1 1; ShLin 1%nat 1 0], Some SPSU2T_e320);
  (56, 60, [ShLin 0%nat 1 0; ShLin 1%nat 1 0], [ShLin 0%nat 1 1; ShLin 1%nat 1 1], Some SPSU2T_e321);
  (57, 56, [ShLin 0%nat 1 0; ShLin 1%nat 1 1], [ShLin 0%nat 1 (-1); ShLin 1%nat 1 0], Some SPSU2T_e322);
  (57, 57, [ShLin 0%nat 1 0; ShLin 1%nat 1 1], [ShLin 0%nat 1 (-1); ShLin 1%nat 1 1], Some SPSU2T_e323);
  (57, 59, [ShLin 0%nat 1 0; ShLin 1%nat 1 1], [ShLin 0%nat 1 1; ShLin 1%nat 1 0], Some SPSU2T_e324);
  (57, 60, [ShLin 0%nat 1 0; ShLin 1%nat 1 1], [ShLin 0%nat 1 1; ShLin 1%nat 1 1], Some SPSU2T_e325);
  (58, 58, [ShLin 0%nat 1 2; ShLin 1%nat 1 (-1)], [ShLin 0%nat 1 1; ShLin 1%nat 1 (-1)], Some SPSU2T_e326);
  (58, 59, [ShLin 0%nat 1 2; ShLin 1%nat 1 (-1)], [ShLin 0%nat 1 1; ShLin 1%nat 1 0], Some SPSU2T_e327);
  (59, 58, [ShLin 0%nat 1 2; ShLin 1%nat 1 0], [ShLin 0%nat 1 1; ShLin 1%nat 1 (-1)], Some SPSU2T_e328);
  (59, 59, [ShLin 0%nat 1 2; ShLin 1%nat 1 0], [ShLin 0%nat 1 1; ShLin 1%nat 1 0], Some SPSU2T_e329);
  (59, 60, [ShLin 0%nat 1 2; ShLin 1%nat 1 0], [ShLin 0%nat 1 1; ShLin 1%nat 1 1], Some SPSU2T_e330);
  (60, 59, [ShLin 0%nat 1 2; ShLin 1%nat 1 1], [ShLin 0%nat 1 1; ShLin 1%nat 1 0], Some SPSU2T_e331);
  (60, 60, [ShLin 0%nat 1 2; ShLin 1%nat 1 1], [ShLin 0%nat 1 1; ShLin 1%nat 1 1], Some SPSU2T_e332);
  (61, 61, [ShLin 0%nat 1 (-3); ShLin 1%nat 1 0], [ShLin 0%nat 1 (-4); ShLin 1%nat 1 0], Some (cN (-1)));
  (61, 62, [ShLin 0%nat 1 (-3); ShLin 1%nat 1 0], [ShLin 0%nat 1 (-2); ShLin 1%nat 1 0], Some SPSU2T_e163);
  (62, 62, [ShLin 0%nat 1 (-1); ShLin 1%nat 1 0], [ShLin 0%nat 1 (-2); ShLin 1%nat 1 0], Some SPSU2T_e164);
  (62, 63, [ShLin 0%nat 1 (-1); ShLin 1%nat 1 0], [ShLin 0%nat 1 0; ShLin 1%nat 1 0], Some SPSU2T_e165);
  (63, 63, [ShLin 0%nat 1 1; ShLin 1%nat 1 0], [ShLin 0%nat 1 0; ShLin 1%nat 1 0], Some SPSU2T_e93);
  (63, 64, [ShLin 0%nat 1 1; ShLin 1%nat 1 0], [ShLin 0%nat 1 2; ShLin 1%nat 1 0], Some SPSU2T_e166);
  (64, 64, [ShLin 0%nat 1 3; ShLin 1%nat 1 0], [ShLin 0%nat 1 2; ShLin 1%nat 1 0], Some SPSU2T_e167)].
(** /repo/c++/symmetry/nrg-recalc-SPSU2T.hpp recalc_doublet, spsu2t/spsu2t-doubletp+1.dat *)
Definition spsu2t_t4 : ten_table := mk_ten "doublet" [ShLin 0%nat 1 1; ShLin 1%nat 1 1] [1; 2; 1] [
  (1, 1, [ShLin 0%nat 1 0; ShLin 1%nat 1 0], [ShLin 0%nat 1 1; ShLin 1%nat 1 1], Some (cN 1));
  (2, 2, [ShLin 0%nat 1 0; ShLin 1%nat 1 0], [ShLin 0%nat 1 1; ShLin 1%nat 1 1], Some (cN 1));
  (3, 3, [ShLin 0%nat 1 0; ShLin 1%nat 1 0], [ShLin 0%nat 1 1; ShLin 1%nat 1 1], Some (cN 1));
  (4, 4, [ShLin 0%nat 1 0; ShLin 1%nat 1 0], [ShLin 0%nat 1 1; ShLin 1%nat 1 1], Some (cN 1));
  (5, 5, [ShLin 0%nat 1 0; ShLin 1%nat 1 (-2)], [ShLin 0%nat 1 1; ShLin 1%nat 1 (-1)], Some SPSU2T_e333);
  (6, 5, [ShLin 0%nat 1 0; ShLin 1%nat 1 (-1)], [ShLin 0%nat 1 1; ShLin 1%nat 1 (-1)], Some SPSU2T_e334);
  (6, 6, [ShLin 0%nat 1 0; ShLin 1%nat 1 (-1)], [ShLin 0%nat 1 1; ShLin 1%nat 1 0], Some SPSU2T_e335);
  (7, 5, [ShLin 0%nat 1 0; ShLin 1%nat 1 0], [ShLin 0%nat 1 1; ShLin 1%nat 1 (-1)], Some SPSU2T_e336);
  (7, 6, [ShLin 0%nat 1 0; ShLin 1%nat 1 0], [ShLin 0%nat 1 1; ShLin 1%nat 1 0], Some SPSU2T_e337);
  (7, 7, [ShLin 0%nat 1 0; ShLin 1%nat 1 0], [ShLin 0%nat 1 1; ShLin 1%nat 1 1], Some SPSU2T_e338);
  (8, 6, [ShLin 0%nat 1 0; ShLin 1%nat 1 1], [ShLin 0%nat 1 1; ShLin 1%nat 1 0], Some SPSU2T_e339);
  (8, 7, [ShLin 0%nat 1 0; ShLin 1%nat 1 1], [ShLin 0%nat 1 1; ShLin 1%nat 1 1], Some SPSU2T_e340);
  (8, 8, [ShLin 0%nat 1 0; ShLin 1%nat 1 1], [ShLin 0%nat 1 1; ShLin 1%nat 1 2], Some SPSU2T_e341);
  (9, 7, [ShLin 0%nat 1 0; ShLin 1%nat 1 2], [ShLin 0%nat 1 1; ShLin 1%nat 1 1], Some SPSU2T_e342);
  (9, 8, [ShLin 0%nat 1 0; ShLin 1%nat 1 2], [ShLin 0%nat 1 1; ShLin 1%nat 1 2], Some SPSU2T_e343);
  (9, 9, [ShLin 0%nat 1 0; ShLin 1%nat 1 2], [ShLin 0%nat 1 1; ShLin 1%nat 1 3], Some (cN 1));
  (10, 10, [ShLin 0%nat 1 0; ShLin 1%nat 1 (-2)], [ShLin 0%nat 1 1; ShLin 1%nat 1 (-1)], Some SPSU2T_e333);
  (11, 10, [ShLin 0%nat 1 0; ShLin 1%nat 1 (-1)], [ShLin 0%nat 1 1; ShLin 1%nat 1 (-1)], Some SPSU2T_e334);
  (11, 11, [ShLin 0%nat 1 0; ShLin 1%nat 1 (-1)], [ShLin 0%nat 1 1; ShLin 1%nat 1 0], Some SPSU2T_e335);
  (12, 10, [ShLin 0%nat 1 0; ShLin 1%nat 1 0], [ShLin 0%nat 1 1; ShLin 1%nat 1 (-1)], Some SPSU2T_e336);
  (12, 11, [ShLin 0%nat 1 0; ShLin 1%nat 1 0], [ShLin 0%nat 1 1; ShLin 1%nat 1 0], Some SPSU2T_e337);
  (12, 12, [ShLin 0%nat 1 0; ShLin 1%nat 1 0], [ShLin 0%nat 1 1; ShLin 1%nat 1 1], Some SPSU2T_e338);
  (13, 11, [ShLin 0%nat 1 0; ShLin 1%nat 1 1], [ShLin 0%nat 1 1; ShLin 1%nat 1 0], Some SPSU2T_e339);
  (13, 12, [ShLin 0%nat 1 0; ShLin 1%nat 1 1], [ShLin 0%nat 1 1; ShLin 1%nat 1 1], Some SPSU2T_e340);
  (13, 13, [ShLin 0%nat 1 0; ShLin 1%nat 1 1], [ShLin 0%nat 1 1; ShLin 1%nat 1 2], Some SPSU2T_e341);
  (14, 12, [ShLin 0%nat 1 0; ShLin 1%nat 1 2], [ShLin 0%nat 1 1; ShLin 1%nat 1 1], Some SPSU2T_e342);
  (14, 13, [ShLin 0%nat 1 0; ShLin 1%nat 1 2], [ShLin 0%nat 1 1; ShLin 1%nat 1 2], Some SPSU2T_e343);
  (14, 14, [ShLin 0%nat 1 0; ShLin 1%nat 1 2], [ShLin 0%nat 1 1; ShLin 1%nat 1 3], Some (cN 1));
  (15, 15, [ShLin 0%nat 1 (-1); ShLin 1%nat 1 (-1)], [ShLin 0%nat 1 0; ShLin 1%nat 1 0], Some SPSU2T_e344);
  (16, 15, [ShLin 0%nat 1 (-1); ShLin 1%nat 1 0], [ShLin 0%nat 1 0; ShLin 1%nat 1 0], Some SPSU2T_e345);
  (16, 16, [ShLin 0%nat 1 (-1); ShLin 1%nat 1 0], [ShLin 0%nat 1 0; ShLin 1%nat 1 1], Some SPSU2T_e346);
  (17, 15, [ShLin 0%nat 1 (-1); ShLin 1%nat 1 1], [ShLin 0%nat 1 0; ShLin 1%nat 1 0], Some SPSU2T_e347);
  (17, 16, [ShLin 0%nat 1 (-1); ShLin 1%nat 1 1], [ShLin 0%nat 1 0; ShLin 1%nat 1 1], Some SPSU2T_e348);
  (17, 17, [ShLin 0%nat 1 (-1); ShLin 1%nat 1 1], [ShLin 0%nat 1 0; ShLin 1%nat 1 2], Some SPSU2T_e11);
  (18, 15, [ShLin 0%nat 1 1; ShLin 1%nat 1 (-1)], [ShLin 0%nat 1 0; ShLin 1%nat 1 0], Some SPSU2T_e28);
  (18, 18, [ShLin 0%nat 1 1; ShLin 1%nat 1 (-1)], [ShLin 0%nat 1 2; ShLin 1%nat 1 0], Some SPSU2T_e349);
  (19, 15, [ShLin 0%nat 1 1; ShLin 1%nat 1 0], [ShLin 0%nat 1 0; ShLin 1%nat 1 0], Some SPSU2T_e189);
  (19, 16, [ShLin 0%nat 1 1; ShLin 1%nat 1 0], [ShLin 0%nat 1 0; ShLin 1%nat 1 1], Some SPSU2T_e350);
  (19, 18, [ShLin 0%nat 1 1; ShLin 1%nat 1 0], [ShLin 0%nat 1 2; ShLin 1%nat 1 0], Some SPSU2T_e195);
  (19, 19, [ShLin 0%nat 1 1; ShLin 1%nat 1 0], [ShLin 0%nat 1 2; ShLin 1%nat 1 1], Some SPSU2T_e351);
  (20, 15, [ShLin 0%nat 1 1; ShLin 1%nat 1 1], [ShLin 0%nat 1 0; ShLin 1%nat 1 0], Some SPSU2T_e352);
  (20, 16, [ShLin 0%nat 1 1; ShLin 1%nat 1 1], [ShLin 0%nat 1 0; ShLin 1%nat 1 1], Some SPSU2T_e263);
  (20, 17, [ShLin 0%nat 1 1; ShLin 1%nat 1 1], [ShLin 0%nat 1 0; ShLin 1%nat 1 2], Some SPSU2T_e17);
  (20, 18, [ShLin 0%nat 1 1; ShLin 1%nat 1 1], [ShLin 0%nat 1 2; ShLin 1%nat 1 0], Some SPSU2T_e353);
  (20, 19, [ShLin 0%nat 1 1; ShLin 1%nat 1 1], [ShLin 0%nat 1 2; ShLin 1%nat 1 1], Some SPSU2T_e354);
  (20, 20, [ShLin 0%nat 1 1; ShLin 1%nat 1 1], [ShLin 0%nat 1 2; ShLin 1%nat 1 2], Some SPSU2T_e355);
  (21, 21, [ShLin 0%nat 1 (-1); ShLin 1%nat 1 (-1)], [ShLin 0%nat 1 0; ShLin 1%nat 1 0], Some SPSU2T_e344);
  (22, 21, [ShLin 0%nat 1 (-1); ShLin 1%nat 1 0], [ShLin 0%nat 1 0; ShLin 1%nat 1 0], Some SPSU2T_e345);
  (22, 22, [ShLin 0%nat 1 (-1); ShLin 1%nat 1 0], [ShLin 0%nat 1 0; ShLin 1%nat 1 1], Some SPSU2T_e346);
  (23, 21, [ShLin 0%nat 1 (-1); ShLin 1%nat 1 1], [ShLin 0%nat 1 0; ShLin 1%nat 1 0], Some SPSU2T_e347);
  (23, 22, [ShLin 0%nat 1 (-1); ShLin 1%nat 1 1], [ShLin 0%nat 1 0; ShLin 1%nat 1 1], Some SPSU2T_e348);
  (23, 23, [ShLin 0%nat 1 (-1); ShLin 1%nat 1 1], [ShLin 0%nat 1 0; ShLin 1%nat 1 2], Some SPSU2T_e11);
  (24, 21, [ShLin 0%nat 1 1; ShLin 1%nat 1 (-1)], [ShLin 0%nat 1 0; ShLin 1%nat 1 0], Some SPSU2T_e28);
  (24, 24, [ShLin 0%nat 1 1; ShLin 1%nat 1 (-1)], [ShLin 0%nat 1 2; ShLin 1%nat 1 0], Some SPSU2T_e349);
  (25, 21, [ShLin 0%nat 1 1; ShLin 1%nat 1 0], [ShLin 0%nat 1 0; ShLin 1%nat 1 0], Some SPSU2T_e189);
  (25, 22, [ShLin 0%nat 1 1; ShLin 1%nat 1 0], [ShLin 0%nat 1 0; ShLin 1%nat 1 1], Some SPSU2T_e350);
  (25, 24, [ShLin 0%nat 1 1; ShLin 1%nat 1 0], [ShLin 0%nat 1 2; ShLin 1%nat 1 0], Some SPSU2T_e195);
  (25, 25, [ShLin 0%nat 1 1; ShLin 1%nat 1 0], [ShLin 0%nat 1 2; ShLin 1%nat 1 1], Some SPSU2T_e356);
  (26, 21, [ShLin 0%nat 1 1; ShLin 1%nat 1 1], [ShLin 0%nat 1 0; ShLin 1%nat 1 0], Some SPSU2T_e352);
  (26, 22, [ShLin 0%nat 1 1; ShLin 1%nat 1 1], [ShLin 0%nat 1 0; ShLin 1%nat 1 1], Some SPSU2T_e263);
  (26, 23, [ShLin 0%nat 1 1; ShLin 1%nat 1 1], [ShLin 0%nat 1 0; ShLin 1%nat 1 2], Some SPSU2T_e17);
  (26, 24, [ShLin 0%nat 1 1; ShLin 1%nat 1 1], [ShLin 0%nat 1 2; ShLin 1%nat 1 0], Some SPSU2T_e357);
  (26, 25, [ShLin 0%nat 1 1; ShLin 1%nat 1 1], [ShLin 0%nat 1 2; ShLin 1%nat 1 1], Some SPSU2T_e358);
  (26, 26, [ShLin 0%nat 1 1; ShLin 1%nat 1 1], [ShLin 0%nat 1 2; ShLin 1%nat 1 2], Some (cN (-1)));
  (27, 27, [ShLin 0%nat 1 (-1); ShLin 1%nat 1 (-1)], [ShLin 0%nat 1 0; ShLin 1%nat 1 0], Some SPSU2T_e344);
  (28, 27, [ShLin 0%nat 1 (-1); ShLin 1%nat 1 0], [ShLin 0%nat 1 0; ShLin 1%nat 1 0], Some SPSU2T_e345);
  (28, 28, [ShLin 0%nat 1 (-1); ShLin 1%nat 1 0], [ShLin 0%nat 1 0; ShLin 1%nat 1 1], Some SPSU2T_e346);
  (29, 27, [ShLin 0%nat 1 (-1); ShLin 1%nat 1 1], [ShLin 0%nat 1 0; ShLin 1%nat 1 0], Some SPSU2T_e347);
  (29, 28, [ShLin 0%nat 1 (-1); ShLin 1%nat 1 1], [ShLin 0%nat 1 0; ShLin 1%nat 1 1], Some SPSU2T_e348);
  (29, 29, [ShLin 0%nat 1 (-1); ShLin 1%nat 1 1], [ShLin 0%nat 1 0; ShLin 1%nat 1 2], Some SPSU2T_e11);
  (30, 27, [ShLin 0%nat 1 1; ShLin 1%nat 1 (-1)], [ShLin 0%nat 1 0; ShLin 1%nat 1 0], Some SPSU2T_e28);
  (30, 30, [ShLin 0%nat 1 1; ShLin 1%nat 1 (-1)], [ShLin 0%nat 1 2; ShLin 1%nat 1 0], Some SPSU2T_e349);
  (31, 27, [ShLin 0%nat 1 1; ShLin 1%nat 1 0], [ShLin 0%nat 1 0; ShLin 1%nat 1 0], Some SPSU2T_e189);
  (31, 28, [ShLin 0%nat 1 1; ShLin 1%nat 1 0], [ShLin 0%nat 1 0; ShLin 1%nat 1 1], Some SPSU2T_e350);
  (31, 30, [ShLin 0%nat 1 1; ShLin 1%nat 1 0], [ShLin 0%nat 1 2; ShLin 1%nat 1 0], Some SPSU2T_e195);
  (31, 31, [ShLin 0%nat 1 1; ShLin 1%nat 1 0], [ShLin 0%nat 1 2; ShLin 1%nat 1 1], Some SPSU2T_e351);
  (32, 27, [ShLin 0%nat 1 1; ShLin 1%nat 1 1], [ShLin 0%nat 1 0; ShLin 1%nat 1 0], Some SPSU2T_e352);
  (32, 28, [ShLin 0%nat 1 1; ShLin 1%nat 1 1], [ShLin 0%nat 1 0; ShLin 1%nat 1 1], Some SPSU2T_e263);
  (32, 29, [ShLin 0%nat 1 1; ShLin 1%nat 1 1], [ShLin 0%nat 1 0; ShLin 1%nat 1 2], Some SPSU2T_e17);
  (32, 30, [ShLin 0%nat 1 1; ShLin 1%nat 1 1], [ShLin 0%nat 1 2; ShLin 1%nat 1 0], Some SPSU2T_e353);
  (32, 31, [ShLin 0%nat 1 1; ShLin 1%nat 1 1], [ShLin 0%nat 1 2; ShLin 1%nat 1 1], Some SPSU2T_e354);
  (32, 32, [ShLin 0%nat 1 1; ShLin 1%nat 1 1], [ShLin 0%nat 1 2; ShLin 1%nat 1 2], Some SPSU2T_e355);
  (33, 33, [ShLin 0%nat 1 (-1); ShLin 1%nat 1 (-2)], [ShLin 0%nat 1 0; ShLin 1%nat 1 (-1)], Some SPSU2T_e359);
  (34, 33, [ShLin 0%nat 1 (-1); ShLin 1%nat 1 (-1)], [ShLin 0%nat 1 0; ShLin 1%nat 1 (-1)], Some SPSU2T_e360);
  (34, 34, [ShLin 0%nat 1 (-1); ShLin 1%nat 1 (-1)], [ShLin 0%nat 1 0; ShLin 1%nat 1 0], Some SPSU2T_e361);
  (35, 33, [ShLin 0%nat 1 (-1); ShLin 1%nat 1 0], [ShLin 0%nat 1 0; ShLin 1%nat 1 (-1)], Some SPSU2T_e362);
  (35, 34, [ShLin 0%nat 1 (-1); ShLin 1%nat 1 0], [ShLin 0%nat 1 0; ShLin 1%nat 1 0], Some SPSU2T_e363);
  (35, 35, [ShLin 0%nat 1 (-1); ShLin 1%nat 1 0], [ShLin 0%nat 1 0; ShLin 1%nat 1 1], Some SPSU2T_e364);
  (36, 34, [ShLin 0%nat 1 (-1); ShLin 1%nat 1 1], [ShLin 0%nat 1 0; ShLin 1%nat 1 0], Some SPSU2T_e365);
  (36, 35, [ShLin 0%nat 1 (-1); ShLin 1%nat 1 1], [ShLin 0%nat 1 0; ShLin 1%nat 1 1], Some SPSU2T_e366);
  (36, 36, [ShLin 0%nat 1 (-1); ShLin 1%nat 1 1], [ShLin 0%nat 1 0; ShLin 1%nat 1 2], Some SPSU2T_e367);
  (37, 35, [ShLin 0%nat 1 (-1); ShLin 1%nat 1 2], [ShLin 0%nat 1 0; ShLin 1%nat 1 1], Some SPSU2T_e368);
  (37, 36, [ShLin 0%nat 1 (-1); ShLin 1%nat 1 2], [ShLin 0%nat 1 0; ShLin 1%nat 1 2], Some SPSU2T_e369);
  (37, 37, [ShLin 0%nat 1 (-1); ShLin 1%nat 1 2], [ShLin 0%nat 1 0; ShLin 1%nat 1 3], Some SPSU2T_e370);
  (38, 33, [ShLin 0%nat 1 1; ShLin 1%nat 1 (-2)], [ShLin 0%nat 1 0; ShLin 1%nat 1 (-1)], Some SPSU2T_e371);
  (38, 38, [ShLin 0%nat 1 1; ShLin 1%nat 1 (-2)], [ShLin 0%nat 1 2; ShLin 1%nat 1 (-1)], Some SPSU2T_e372);
  (39, 33, [ShLin 0%nat 1 1; ShLin 1%nat 1 (-1)], [ShLin 0%nat 1 0; ShLin 1%nat 1 (-1)], Some SPSU2T_e373);
  (39, 34, [ShLin 0%nat 1 1; ShLin 1%nat 1 (-1)], [ShLin 0%nat 1 0; ShLin 1%nat 1 0], Some SPSU2T_e374);
  (39, 38, [ShLin 0%nat 1 1; ShLin 1%nat 1 (-1)], [ShLin 0%nat 1 2; ShLin 1%nat 1 (-1)], Some SPSU2T_e375);
  (39, 39, [ShLin 0%nat 1 1; ShLin 1%nat 1 (-1)], [ShLin 0%nat 1 2; ShLin 1%nat 1 0], Some SPSU2T_e376);
  (40, 33, [ShLin 0%nat 1 1; ShLin 1%nat 1 0], [ShLin 0%nat 1 0; ShLin 1%nat 1 (-1)], Some SPSU2T_e377);
  (40, 34, [ShLin 0%nat 1 1; ShLin 1%nat 1 0], [ShLin 0%nat 1 0; ShLin 1%nat 1 0], Some SPSU2T_e378);
  (40, 35, [ShLin 0%nat 1 1; ShLin 1%nat 1 0], [ShLin 0%nat 1 0; ShLin 1%nat 1 1], Some SPSU2T_e379);
  (40, 38, [ShLin 0%nat 1 1; ShLin 1%nat 1 0], [ShLin 0%nat 1 2; ShLin 1%nat 1 (-1)], Some SPSU2T_e380);
  (40, 39, [ShLin 0%nat 1 1; ShLin 1%nat 1 0], [ShLin 0%nat 1 2; ShLin 1%nat 1 0], Some SPSU2T_e381);
  (40, 40, [ShLin 0%nat 1 1; ShLin 1%nat 1 0], [ShLin 0%nat 1 2; ShLin 1%nat 1 1], Some SPSU2T_e382);
  (41, 34, [ShLin 0%nat 1 1; ShLin 1%nat 1 1], [ShLin 0%nat 1 0; ShLin 1%nat 1 0], Some SPSU2T_e383);
  (41, 35, [ShLin 0%nat 1 1; ShLin 1%nat 1 1], [ShLin 0%nat 1 0; ShLin 1%nat 1 1], Some SPSU2T_e384);
  (41, 36, [ShLin 0%nat 1 1; ShLin 1%nat 1 1], [ShLin 0%nat 1 0; ShLin 1%nat 1 2], Some SPSU2T_e385);
  (41, 39, [ShLin 0%nat 1 1; ShLin 1%nat 1 1], [ShLin 0%nat 1 2; ShLin 1%nat 1 0], Some SPSU2T_e386);
  (41, 40, [ShLin 0%nat 1 1; ShLin 1%nat 1 1], [ShLin 0%nat 1 2; ShLin 1%nat 1 1], Some SPSU2T_e387);
  (41, 41, [ShLin 0%nat 1 1; ShLin 1%nat 1 1], [ShLin 0%nat 1 2; ShLin 1%nat 1 2], Some SPSU2T_e388);
  (42, 35, [ShLin 0%nat 1 1; ShLin 1%nat 1 2], [ShLin 0%nat 1 0; ShLin 1%nat 1 1], Some SPSU2T_e389);
  (42, 36, [ShLin 0%nat 1 1; ShLin 1%nat 1 2], [ShLin 0%nat 1 0; ShLin 1%nat 1 2], Some SPSU2T_e390);
  (42, 37, [ShLin 0%nat 1 1; ShLin 1%nat 1 2], [ShLin 0%nat 1 0; ShLin 1%nat 1 3], Some SPSU2T_e391);
  (42, 40, [ShLin 0%nat 1 1; ShLin 1%nat 1 2], [ShLin 0%nat 1 2; ShLin 1%nat 1 1], Some SPSU2T_e392);
  (42, 41, [ShLin 0%nat 1 1; ShLin 1%nat 1 2], [ShLin 0%nat 1 2; ShLin 1%nat 1 2], Some SPSU2T_e393);
  (42, 42, [ShLin 0%nat 1 1; ShLin 1%nat 1 2], [ShLin 0%nat 1 2; ShLin 1%nat 1 3], Some SPSU2T_e394);
  (43, 43, [ShLin 0%nat 1 (-2); ShLin 1%nat 1 (-1)], [ShLin 0%nat 1 (-1); ShLin 1%nat 1 0], Some SPSU2T_e395);
  (44, 43, [ShLin 0%nat 1 (-2); ShLin 1%nat 1 0], [ShLin 0%nat 1 (-1); ShLin 1%nat 1 0], Some SPSU2T_e396);
  (44, 44, [ShLin 0%nat 1 (-2); ShLin 1%nat 1 0], [ShLin 0%nat 1 (-1); ShLin 1%nat 1 1], Some SPSU2T_e397);
  (45, 43, [ShLin 0%nat 1 (-2); ShLin 1%nat 1 1], [ShLin 0%nat 1 (-1); ShLin 1%nat 1 0], Some SPSU2T_e398);
  (45, 44, [ShLin 0%nat 1 (-2); ShLin 1%nat 1 1], [ShLin 0%nat 1 (-1); ShLin 1%nat 1 1], Some SPSU2T_e399);
  (45, 45, [ShLin 0%nat 1 (-2); ShLin 1%nat 1 1], [ShLin 0%nat 1 (-1); ShLin 1%nat 1 2], Some SPSU2T_e63);
  (46, 43, [ShLin 0%nat 1 0; ShLin 1%nat 1 (-1)], [ShLin 0%nat 1 (-1); ShLin 1%nat 1 0], Some SPSU2T_e400);
  (46, 46, [ShLin 0%nat 1 0; ShLin 1%nat 1 (-1)], [ShLin 0%nat 1 1; ShLin 1%nat 1 0], Some SPSU2T_e401);
  (47, 43, [ShLin 0%nat 1 0; ShLin 1%nat 1 0], [ShLin 0%nat 1 (-1); ShLin 1%nat 1 0], Some SPSU2T_e402);
  (47, 44, [ShLin 0%nat 1 0; ShLin 1%nat 1 0], [ShLin 0%nat 1 (-1); ShLin 1%nat 1 1], Some SPSU2T_e403);
  (47, 46, [ShLin 0%nat 1 0; ShLin 1%nat 1 0], [ShLin 0%nat 1 1; ShLin 1%nat 1 0], Some SPSU2T_e404);
  (47, 47, [ShLin 0%nat 1 0; ShLin 1%nat 1 0], [ShLin 0%nat 1 1; ShLin 1%nat 1 1], Some SPSU2T_e405);
  (48, 43, [ShLin 0%nat 1 0; ShLin 1%nat 1 1], [ShLin 0%nat 1 (-1); ShLin 1%nat 1 0], Some SPSU2T_e406);
  (48, 44, [ShLin 0%nat 1 0; ShLin 1%nat 1 1], [ShLin 0%nat 1 (-1); ShLin 1%nat 1 1], Some SPSU2T_e407);
  (48, 45, [ShLin 0%nat 1 0; ShLin 1%nat 1 1], [ShLin 0%nat 1 (-1); ShLin 1%nat 1 2], Some SPSU2T_e69);
  (48, 46, [ShLin 0%nat 1 0; ShLin 1%nat 1 1], [ShLin 0%nat 1 1; ShLin 1%nat 1 0], Some SPSU2T_e408);
  (48, 47, [ShLin 0%nat 1 0; ShLin 1%nat 1 1], [ShLin 0%nat 1 1; ShLin 1%nat 1 1], Some SPSU2T_e409);
  (48, 48, [ShLin 0%nat 1 0; ShLin 1%nat 1 1], [ShLin 0%nat 1 1; ShLin 1%nat 1 2], Some SPSU2T_e410);
  (49, 46, [ShLin 0%nat 1 2; ShLin 1%nat 1 (-1)], [ShLin 0%nat 1 1; ShLin 1%nat 1 0], Some SPSU2T_e411);
  (49, 49, [ShLin 0%nat 1 2; ShLin 1%nat 1 (-1)], [ShLin 0%nat 1 3; ShLin 1%nat 1 0], Some SPSU2T_e412);
  (50, 46, [ShLin 0%nat 1 2; ShLin 1%nat 1 0], [ShLin 0%nat 1 1; ShLin 1%nat 1 0], Some SPSU2T_e413);
  (50, 47, [ShLin 0%nat 1 2; ShLin 1%nat 1 0], [ShLin 0%nat 1 1; ShLin 1%nat 1 1], Some SPSU2T_e414);
  (50, 49, [ShLin 0%nat 1 2; ShLin 1%nat 1 0], [ShLin 0%nat 1 3; ShLin 1%nat 1 0], Some SPSU2T_e415);
  (50, 50, [ShLin 0%nat 1 2; ShLin 1%nat 1 0], [ShLin 0%nat 1 3; ShLin 1%nat 1 1], Some SPSU2T_e261);
  (51, 46, [ShLin 0%nat 1 2; ShLin 1%nat 1 1], [ShLin 0%nat 1 1; ShLin 1%nat 1 0], Some SPSU2T_e416);
  (51, 47, [ShLin 0%nat 1 2; ShLin 1%nat 1 1], [ShLin 0%nat 1 1; ShLin 1%nat 1 1], Some SPSU2T_e417);
  (51, 48, [ShLin 0%nat 1 2; ShLin 1%nat 1 1], [ShLin 0%nat 1 1; ShLin 1%nat 1 2], Some SPSU2T_e418);
  (51, 49, [ShLin 0%nat 1 2; ShLin 1%nat 1 1], [ShLin 0%nat 1 3; ShLin 1%nat 1 0], Some SPSU2T_e419);
  (51, 50, [ShLin 0%nat 1 2; ShLin 1%nat 1 1], [ShLin 0%nat 1 3; ShLin 1%nat 1 1], Some SPSU2T_e188);
  (51, 51, [ShLin 0%nat 1 2; ShLin 1%nat 1 1], [ShLin 0%nat 1 3; ShLin 1%nat 1 2], Some (cN 1));
  (52, 52, [ShLin 0%nat 1 (-2); ShLin 1%nat 1 (-1)], [ShLin 0%nat 1 (-1); ShLin 1%nat 1 0], Some SPSU2T_e395);
  (53, 52, [ShLin 0%nat 1 (-2); ShLin 1%nat 1 0], [ShLin 0%nat 1 (-1); ShLin 1%nat 1 0], Some SPSU2T_e396);
  (53, 53, [ShLin 0%nat 1 (-2); ShLin 1%nat 1 0], [ShLin 0%nat 1 (-1); ShLin 1%nat 1 1], Some SPSU2T_e397);
  (54, 52, [ShLin 0%nat 1 (-2); ShLin 1%nat 1 1], [ShLin 0%nat 1 (-1); ShLin 1%nat 1 0], Some SPSU2T_e398);
  (54, 53, [ShLin 0%nat 1 (-2); ShLin 1%nat 1 1], [ShLin 0%nat 1 (-1); ShLin 1%nat 1 1], Some SPSU2T_e399);
  (54, 54, [ShLin 0%nat 1 (-2); ShLin 1%nat 1 1], [ShLin 0%nat 1 (-1); ShLin 1%nat 1 2], Some SPSU2T_e63);
  (55, 52, [ShLin 0%nat 1 0; ShLin 1%nat 1 (-1)], [ShLin 0%nat 1 (-1); ShLin 1%nat 1 0], Some SPSU2T_e400);
  (55, 55, [ShLin 0%nat 1 0; ShLin 1%nat 1 (-1)], [ShLin 0%nat 1 1; ShLin 1%nat 1 0], Some SPSU2T_e401);
  (56, 52, [ShLin 0%nat 1 0; ShLin 1%nat 1 0], [ShLin 0%nat 1 (-1); ShLin 1%nat 1 0], Some SPSU2T_e402);
  (56, 53, [ShLin 0%nat 1 0; ShLin 1%nat 1 0], [ShLin 0%nat 1 (-1); ShLin 1%nat 1 1], Some SPSU2T_e403);
  (56, 55, [ShLin 0%nat 1 0; ShLin 1%nat 1 0], [ShLin 0%nat 1 1; ShLin 1%nat 1 0], Some SPSU2T_e404);
  (56, 56, [ShLin 0%nat 1 0; ShLin 1%nat 1 0], [ShLin 0%nat 1 1; ShLin 1%nat 1 1], Some SPSU2T_e405);
  (57, 52, [ShLin 0%nat 1 0; ShLin 1%nat 1 1], [ShLin 0%nat 1 (-1); ShLin 1%nat 1 0], Some SPSU2T_e406);
  (57, 53, [ShLin 0%nat 1 0; ShLin 1%nat 1 1], [ShLin 0%nat 1 (-1); ShLin 1%nat 1 1], Some SPSU2T_e407);
  (57, 54, [ShLin 0%nat 1 0; ShLin 1%nat 1 1], [ShLin 0%nat 1 (-1); ShLin 1%nat 1 2], Some SPSU2T_e69);
  (57, 55, [ShLin 0%nat 1 0; ShLin 1%nat 1 1], [ShLin 0%nat 1 1; ShLin 1%nat 1 0], Some SPSU2T_e408);
  (57, 56, [ShLin 0%nat 1 0; ShLin 1%nat 1 1], [ShLin 0%nat 1 1; ShLin 1%nat 1 1], Some SPSU2T_e409);
  (57, 57, [ShLin 0%nat 1 0; ShLin 1%nat 1 1], [ShLin 0%nat 1 1; ShLin 1%nat 1 2], Some SPSU2T_e410);
  (58, 55, [ShLin 0%nat 1 2; ShLin 1%nat 1 (-1)], [ShLin 0%nat 1 1; ShLin 1%nat 1 0], Some SPSU2T_e411);
  (58, 58, [ShLin 0%nat 1 2; ShLin 1%nat 1 (-1)], [ShLin 0%nat 1 3; ShLin 1%nat 1 0], Some SPSU2T_e412);
  (59, 55, [ShLin 0%nat 1 2; ShLin 1%nat 1 0], [ShLin 0%nat 1 1; ShLin 1%nat 1 0], Some SPSU2T_e413);
  (59, 56, [ShLin 0%nat 1 2; ShLin 1%nat 1 0], [ShLin 0%nat 1 1; ShLin 1%nat 1 1], Some SPSU2T_e414);
  (59, 58, [ShLin 0%nat 1 2; ShLin 1%nat 1 0], [ShLin 0%nat 1 3; ShLin 1%nat 1 0], Some SPSU2T_e415);
  (59, 59, [ShLin 0%nat 1 2; ShLin 1%nat 1 0], [ShLin 0%nat 1 3; ShLin 1%nat 1 1], Some SPSU2T_e261);
  (60, 55, [ShLin 0%nat 1 2; ShLin 1%nat 1 1], [ShLin 0%nat 1 1; ShLin 1%nat 1 0], Some SPSU2T_e416);
  (60, 56, [ShLin 0%nat 1 2; ShLin 1%nat 1 1], [ShLin 0%nat 1 1; ShLin 1%nat 1 1], Some SPSU2T_e417);
  (60, 57, [ShLin 0%nat 1 2; ShLin 1%nat 1 1], [ShLin 0%nat 1 1; ShLin 1%nat 1 2], Some SPSU2T_e418);
  (60, 58, [ShLin 0%nat 1 2; ShLin 1%nat 1 1], [ShLin 0%nat 1 3; ShLin 1%nat 1 0], Some SPSU2T_e419);
  (60, 59, [ShLin 0%nat 1 2; ShLin 1%nat 1 1], [ShLin 0%nat 1 3; ShLin 1%nat 1 1], Some SPSU2T_e188);
  (60, 60, [ShLin 0%nat 1 2; ShLin 1%nat 1 1], [ShLin 0%nat 1 3; ShLin 1%nat 1 2], Some (cN 1));
  (61, 61, [ShLin 0%nat 1 (-3); ShLin 1%nat 1 0], [ShLin 0%nat 1 (-2); ShLin 1%nat 1 1], Some SPSU2T_e91);
  (62, 61, [ShLin 0%nat 1 (-1); ShLin 1%nat 1 0], [ShLin 0%nat 1 (-2); ShLin 1%nat 1 1], Some SPSU2T_e92);
  (62, 62, [ShLin 0%nat 1 (-1); ShLin 1%nat 1 0], [ShLin 0%nat 1 0; ShLin 1%nat 1 1], Some SPSU2T_e93);
  (63, 62, [ShLin 0%nat 1 1; ShLin 1%nat 1 0], [ShLin 0%nat 1 0; ShLin 1%nat 1 1], Some SPSU2T_e94);
  (63, 63, [ShLin 0%nat 1 1; ShLin 1%nat 1 0], [ShLin 0%nat 1 2; ShLin 1%nat 1 1], Some SPSU2T_e95);
  (64, 63, [ShLin 0%nat 1 3; ShLin 1%nat 1 0], [ShLin 0%nat 1 2; ShLin 1%nat 1 1], Some SPSU2T_e96);
  (64, 64, [ShLin 0%nat 1 3; ShLin 1%nat 1 0], [ShLin 0%nat 1 4; ShLin 1%nat 1 1], Some (cN (-1)))].
(** /repo/c++/symmetry/nrg-recalc-SPSU2T.hpp recalc_doublet, spsu2t/spsu2t-doubletm+1.dat *)
Definition spsu2t_t5 : ten_table := mk_ten "doublet" [ShLin 0%nat 1 (-1); ShLin 1%nat 1 1] [1; 2; 1] [
  (1, 1, [ShLin 0%nat 1 0; ShLin 1%nat 1 0], [ShLin 0%nat 1 (-1); ShLin 1%nat 1 1], Some (cN 1));
  (2, 2, [ShLin 0%nat 1 0; ShLin 1%nat 1 0], [ShLin 0%nat 1 (-1); ShLin 1%nat 1 1], Some (cN 1));
  (3, 3, [ShLin 0%nat 1 0; ShLin 1%nat 1 0], [ShLin 0%nat 1 (-1); ShLin 1%nat 1 1], Some (cN 1));
  (4, 4, [ShLin 0%nat 1 0; ShLin 1%nat 1 0], [ShLin 0%nat 1 (-1); ShLin 1%nat 1 1], Some (cN 1));
  (5, 5, [ShLin 0%nat 1 0; ShLin 1%nat 1 (-2)], [ShLin 0%nat 1 (-1); ShLin 1%nat 1 (-1)], Some SPSU2T_e333);
  (6, 5, [ShLin 0%nat 1 0; ShLin 1%nat 1 (-1)], [ShLin 0%nat 1 (-1); ShLin 1%nat 1 (-1)], Some SPSU2T_e334);
  (6, 6, [ShLin 0%nat 1 0; ShLin 1%nat 1 (-1)], [ShLin 0%nat 1 (-1); ShLin 1%nat 1 0], Some SPSU2T_e335);
  (7, 5, [ShLin 0%nat 1 0; ShLin 1%nat 1 0], [ShLin 0%nat 1 (-1); ShLin 1%nat 1 (-1)], Some SPSU2T_e336);
  (7, 6, [ShLin 0%nat 1 0; ShLin 1%nat 1 0], [ShLin 0%nat 1 (-1); ShLin 1%nat 1 0], Some SPSU2T_e337);
  (7, 7, [ShLin 0%nat 1 0; ShLin 1%nat 1 0], [ShLin 0%nat 1 (-1); ShLin 1%nat 1 1], Some SPSU2T_e338);
  (8, 6, [ShLin 0%nat 1 0; ShLin 1%nat 1 1], [ShLin 0%nat 1 (-1); ShLin 1%nat 1 0], Some SPSU2T_e339);
  (8, 7, [ShLin 0%nat 1 0; ShLin 1%nat 1 1], [ShLin 0%nat 1 (-1); ShLin 1%nat 1 1], Some SPSU2T_e340);
  (8, 8, [ShLin 0%nat 1 0; ShLin 1%nat 1 1], [ShLin 0%nat 1 (-1); ShLin 1%nat 1 2], Some SPSU2T_e341);
  (9, 7, [ShLin 0%nat 1 0; ShLin 1%nat 1 2], [ShLin 0%nat 1 (-1); ShLin 1%nat 1 1], Some SPSU2T_e342);
  (9, 8, [ShLin 0%nat 1 0; ShLin 1%nat 1 2], [ShLin 0%nat 1 (-1); ShLin 1%nat 1 2], Some SPSU2T_e343);
  (9, 9, [ShLin 0%nat 1 0; ShLin 1%nat 1 2], [ShLin 0%nat 1 (-1); ShLin 1%nat 1 3], Some (cN 1));
  (10, 10, [ShLin 0%nat 1 0; ShLin 1%nat 1 (-2)], [ShLin 0%nat 1 (-1); ShLin 1%nat 1 (-1)], Some SPSU2T_e333);
  (11, 10, [ShLin 0%nat 1 0; ShLin 1%nat 1 (-1)], [ShLin 0%nat 1 (-1); ShLin 1%nat 1 (-1)], Some SPSU2T_e334);
  (11, 11, [ShLin 0%nat 1 0; ShLin 1%nat 1 (-1)], [ShLin 0%nat 1 (-1); ShLin 1%nat 1 0], Some SPSU2T_e335);
  (12, 10, [ShLin 0%nat 1 0; ShLin 1%nat 1 0], [ShLin 0%nat 1 (-1); ShLin 1%nat 1 (-1)], Some SPSU2T_e336);
  (12, 11, [ShLin 0%nat 1 0; ShLin 1%nat 1 0], [ShLin 0%nat 1 (-1); ShLin 1%nat 1 0], Some SPSU2T_e337);
  (12, 12, [ShLin 0%nat 1 0; ShLin 1%nat 1 0], [ShLin 0%nat 1 (-1); ShLin 1%nat 1 1], Some SPSU2T_e338);
  (13, 11, [ShLin 0%nat 1 0; ShLin 1%nat 1 1], [ShLin 0%nat 1 (-1); ShLin 1%nat 1 0], Some SPSU2T_e339);
  (13, 12, [ShLin 0%nat 1 0; ShLin 1%nat 1 1], [ShLin 0%nat 1 (-1); ShLin 1%nat 1 1], Some SPSU2T_e340);
  (13, 13, [ShLin 0%nat 1 0; ShLin 1%nat 1 1], [ShLin 0%nat 1 (-1); ShLin 1%nat 1 2], Some SPSU2T_e341);
  (14, 12, [ShLin 0%nat 1 0; ShLin 1%nat 1 2], [ShLin 0%nat 1 (-1); ShLin 1%nat 1 1], Some SPSU2T_e342);
  (14, 13, [ShLin 0%nat 1 0; ShLin 1%nat 1 2], [ShLin 0%nat 1 (-1); ShLin 1%nat 1 2], Some SPSU2T_e343);
  (14, 14, [ShLin 0%nat 1 0; ShLin 1%nat 1 2], [ShLin 0%nat 1 (-1); ShLin 1%nat 1 3], Some (cN 1));
  (15, 15, [ShLin 0%nat 1 (-1); ShLin 1%nat 1 (-1)], [ShLin 0%nat 1 (-2); ShLin 1%nat 1 0], Some SPSU2T_e349);
  (15, 18, [ShLin 0%nat 1 (-1); ShLin 1%nat 1 (-1)], [ShLin 0%nat 1 0; ShLin 1%nat 1 0], Some SPSU2T_e420);
  (16, 15, [ShLin 0%nat 1 (-1); ShLin 1%nat 1 0], [ShLin 0%nat 1 (-2); ShLin 1%nat 1 0], Some SPSU2T_e195);
  (16, 16, [ShLin 0%nat 1 (-1); ShLin 1%nat 1 0], [ShLin 0%nat 1 (-2); ShLin 1%nat 1 1], Some SPSU2T_e421);
  (16, 18, [ShLin 0%nat 1 (-1); ShLin 1%nat 1 0], [ShLin 0%nat 1 0; ShLin 1%nat 1 0], Some SPSU2T_e422);
  (16, 19, [ShLin 0%nat 1 (-1); ShLin 1%nat 1 0], [ShLin 0%nat 1 0; ShLin 1%nat 1 1], Some SPSU2T_e423);
  (17, 15, [ShLin 0%nat 1 (-1); ShLin 1%nat 1 1], [ShLin 0%nat 1 (-2); ShLin 1%nat 1 0], Some SPSU2T_e424);
  (17, 16, [ShLin 0%nat 1 (-1); ShLin 1%nat 1 1], [ShLin 0%nat 1 (-2); ShLin 1%nat 1 1], Some SPSU2T_e257);
  (17, 17, [ShLin 0%nat 1 (-1); ShLin 1%nat 1 1], [ShLin 0%nat 1 (-2); ShLin 1%nat 1 2], Some (cN (-1)));
  (17, 18, [ShLin 0%nat 1 (-1); ShLin 1%nat 1 1], [ShLin 0%nat 1 0; ShLin 1%nat 1 0], Some SPSU2T_e425);
  (17, 19, [ShLin 0%nat 1 (-1); ShLin 1%nat 1 1], [ShLin 0%nat 1 0; ShLin 1%nat 1 1], Some SPSU2T_e186);
  (17, 20, [ShLin 0%nat 1 (-1); ShLin 1%nat 1 1], [ShLin 0%nat 1 0; ShLin 1%nat 1 2], Some SPSU2T_e97);
  (18, 18, [ShLin 0%nat 1 1; ShLin 1%nat 1 (-1)], [ShLin 0%nat 1 0; ShLin 1%nat 1 0], Some SPSU2T_e344);
  (19, 18, [ShLin 0%nat 1 1; ShLin 1%nat 1 0], [ShLin 0%nat 1 0; ShLin 1%nat 1 0], Some SPSU2T_e345);
  (19, 19, [ShLin 0%nat 1 1; ShLin 1%nat 1 0], [ShLin 0%nat 1 0; ShLin 1%nat 1 1], Some SPSU2T_e183);
  (20, 18, [ShLin 0%nat 1 1; ShLin 1%nat 1 1], [ShLin 0%nat 1 0; ShLin 1%nat 1 0], Some SPSU2T_e426);
  (20, 19, [ShLin 0%nat 1 1; ShLin 1%nat 1 1], [ShLin 0%nat 1 0; ShLin 1%nat 1 1], Some SPSU2T_e348);
  (20, 20, [ShLin 0%nat 1 1; ShLin 1%nat 1 1], [ShLin 0%nat 1 0; ShLin 1%nat 1 2], Some SPSU2T_e427);
  (21, 21, [ShLin 0%nat 1 (-1); ShLin 1%nat 1 (-1)], [ShLin 0%nat 1 (-2); ShLin 1%nat 1 0], Some SPSU2T_e349);
  (21, 24, [ShLin 0%nat 1 (-1); ShLin 1%nat 1 (-1)], [ShLin 0%nat 1 0; ShLin 1%nat 1 0], Some SPSU2T_e420);
  (22, 21, [ShLin 0%nat 1 (-1); ShLin 1%nat 1 0], [ShLin 0%nat 1 (-2); ShLin 1%nat 1 0], Some SPSU2T_e195);
  (22, 22, [ShLin 0%nat 1 (-1); ShLin 1%nat 1 0], [ShLin 0%nat 1 (-2); ShLin 1%nat 1 1], Some SPSU2T_e421);
  (22, 24, [ShLin 0%nat 1 (-1); ShLin 1%nat 1 0], [ShLin 0%nat 1 0; ShLin 1%nat 1 0], Some SPSU2T_e422);
  (22, 25, [ShLin 0%nat 1 (-1); ShLin 1%nat 1 0], [ShLin 0%nat 1 0; ShLin 1%nat 1 1], Some SPSU2T_e423);
  (23, 21, [ShLin 0%nat 1 (-1); ShLin 1%nat 1 1], [ShLin 0%nat 1 (-2); ShLin 1%nat 1 0], Some SPSU2T_e424);
  (23, 22, [ShLin 0%nat 1 (-1); ShLin 1%nat 1 1], [ShLin 0%nat 1 (-2); ShLin 1%nat 1 1], Some SPSU2T_e257);
  (23, 23, [ShLin 0%nat 1 (-1); ShLin 1%nat 1 1], [ShLin 0%nat 1 (-2); ShLin 1%nat 1 2], Some (cN (-1)));
  (23, 24, [ShLin 0%nat 1 (-1); ShLin 1%nat 1 1], [ShLin 0%nat 1 0; ShLin 1%nat 1 0], Some SPSU2T_e425);
  (23, 25, [ShLin 0%nat 1 (-1); ShLin 1%nat 1 1], [ShLin 0%nat 1 0; ShLin 1%nat 1 1], Some SPSU2T_e186);
  (23, 26, [ShLin 0%nat 1 (-1); ShLin 1%nat 1 1], [ShLin 0%nat 1 0; ShLin 1%nat 1 2], Some SPSU2T_e97);
  (24, 24, [ShLin 0%nat 1 1; ShLin 1%nat 1 (-1)], [ShLin 0%nat 1 0; ShLin 1%nat 1 0], Some SPSU2T_e344);
  (25, 24, [ShLin 0%nat 1 1; ShLin 1%nat 1 0], [ShLin 0%nat 1 0; ShLin 1%nat 1 0], Some SPSU2T_e345);
  (25, 25, [ShLin 0%nat 1 1; ShLin 1%nat 1 0], [ShLin 0%nat 1 0; ShLin 1%nat 1 1], Some SPSU2T_e428);
  (26, 24, [ShLin 0%nat 1 1; ShLin 1%nat 1 1], [ShLin 0%nat 1 0; ShLin 1%nat 1 0], Some SPSU2T_e426);
  (26, 25, [ShLin 0%nat 1 1; ShLin 1%nat 1 1], [ShLin 0%nat 1 0; ShLin 1%nat 1 1], Some SPSU2T_e429);
  (26, 26, [ShLin 0%nat 1 1; ShLin 1%nat 1 1], [ShLin 0%nat 1 0; ShLin 1%nat 1 2], Some SPSU2T_e427);
  (27, 27, [ShLin 0%nat 1 (-1); ShLin 1%nat 1 (-1)], [ShLin 0%nat 1 (-2); ShLin 1%nat 1 0], Some SPSU2T_e349);
  (27, 30, [ShLin 0%nat 1 (-1); ShLin 1%nat 1 (-1)], [ShLin 0%nat 1 0; ShLin 1%nat 1 0], Some SPSU2T_e420);
  (28, 27, [ShLin 0%nat 1 (-1); ShLin 1%nat 1 0], [ShLin 0%nat 1 (-2); ShLin 1%nat 1 0], Some SPSU2T_e195);
  (28, 28, [ShLin 0%nat 1 (-1); ShLin 1%nat 1 0], [ShLin 0%nat 1 (-2); ShLin 1%nat 1 1], Some SPSU2T_e421);
  (28, 30, [ShLin 0%nat 1 (-1); ShLin 1%nat 1 0], [ShLin 0%nat 1 0; ShLin 1%nat 1 0], Some SPSU2T_e422);
  (28, 31, [ShLin 0%nat 1 (-1); ShLin 1%nat 1 0], [ShLin 0%nat 1 0; ShLin 1%nat 1 1], Some SPSU2T_e423);
  (29, 27, [ShLin 0%nat 1 (-1); ShLin 1%nat 1 1], [ShLin 0%nat 1 (-2); ShLin 1%nat 1 0], Some SPSU2T_e424);
  (29, 28, [ShLin 0%nat 1 (-1); ShLin 1%nat 1 1], [ShLin 0%nat 1 (-2); ShLin 1%nat 1 1], Some SPSU2T_e257);
  (29, 29, [ShLin 0%nat 1 (-1); ShLin 1%nat 1 1], [ShLin 0%nat 1 (-2); ShLin 1%nat 1 2], Some (cN (-1)));
  (29, 30, [ShLin 0%nat 1 (-1); ShLin 1%nat 1 1], [ShLin 0%nat 1 0; ShLin 1%nat 1 0], Some SPSU2T_e425);
  (29, 31, [ShLin 0%nat 1 (-1); ShLin 1%nat 1 1], [ShLin 0%nat 1 0; ShLin 1%nat 1 1], Some SPSU2T_e186);
  (29, 32, [ShLin 0%nat 1 (-1); ShLin 1%nat 1 1], [ShLin 0%nat 1 0; ShLin 1%nat 1 2], Some SPSU2T_e97);
  (30, 30, [ShLin 0%nat 1 1; ShLin 1%nat 1 (-1)], [ShLin 0%nat 1 0; ShLin 1%nat 1 0], Some SPSU2T_e344);
  (31, 30, [ShLin 0%nat 1 1; ShLin 1%nat 1 0], [ShLin 0%nat 1 0; ShLin 1%nat 1 0], Some SPSU2T_e345);
  (31, 31, [ShLin 0%nat 1 1; ShLin 1%nat 1 0], [ShLin 0%nat 1 0; ShLin 1%nat 1 1], Some SPSU2T_e183);
  (32, 30, [ShLin 0%nat 1 1; ShLin 1%nat 1 1], [ShLin 0%nat 1 0; ShLin 1%nat 1 0], Some SPSU2T_e426);
  (32, 31, [ShLin 0%nat 1 1; ShLin 1%nat 1 1], [ShLin 0%nat 1 0; ShLin 1%nat 1 1], Some SPSU2T_e348);
  (32, 32, [ShLin 0%nat 1 1; ShLin 1%nat 1 1], [ShLin 0%nat 1 0; ShLin 1%nat 1 2], Some SPSU2T_e427);
  (33, 33, [ShLin 0%nat 1 (-1); ShLin 1%nat 1 (-2)], [ShLin 0%nat 1 (-2); ShLin 1%nat 1 (-1)], Some SPSU2T_e372);
  (33, 38, [ShLin 0%nat 1 (-1); ShLin 1%nat 1 (-2)], [ShLin 0%nat 1 0; ShLin 1%nat 1 (-1)], Some SPSU2T_e430);
  (34, 33, [ShLin 0%nat 1 (-1); ShLin 1%nat 1 (-1)], [ShLin 0%nat 1 (-2); ShLin 1%nat 1 (-1)], Some SPSU2T_e431);
  (34, 34, [ShLin 0%nat 1 (-1); ShLin 1%nat 1 (-1)], [ShLin 0%nat 1 (-2); ShLin 1%nat 1 0], Some SPSU2T_e432);
  (34, 38, [ShLin 0%nat 1 (-1); ShLin 1%nat 1 (-1)], [ShLin 0%nat 1 0; ShLin 1%nat 1 (-1)], Some SPSU2T_e433);
  (34, 39, [ShLin 0%nat 1 (-1); ShLin 1%nat 1 (-1)], [ShLin 0%nat 1 0; ShLin 1%nat 1 0], Some SPSU2T_e434);
  (35, 33, [ShLin 0%nat 1 (-1); ShLin 1%nat 1 0], [ShLin 0%nat 1 (-2); ShLin 1%nat 1 (-1)], Some SPSU2T_e435);
  (35, 34, [ShLin 0%nat 1 (-1); ShLin 1%nat 1 0], [ShLin 0%nat 1 (-2); ShLin 1%nat 1 0], Some SPSU2T_e436);
  (35, 35, [ShLin 0%nat 1 (-1); ShLin 1%nat 1 0], [ShLin 0%nat 1 (-2); ShLin 1%nat 1 1], Some SPSU2T_e437);
  (35, 38, [ShLin 0%nat 1 (-1); ShLin 1%nat 1 0], [ShLin 0%nat 1 0; ShLin 1%nat 1 (-1)], Some SPSU2T_e438);
  (35, 39, [ShLin 0%nat 1 (-1); ShLin 1%nat 1 0], [ShLin 0%nat 1 0; ShLin 1%nat 1 0], Some SPSU2T_e439);
  (35, 40, [ShLin 0%nat 1 (-1); ShLin 1%nat 1 0], [ShLin 0%nat 1 0; ShLin 1%nat 1 1], Some SPSU2T_e440);
  (36, 34, [ShLin 0%nat 1 (-1); ShLin 1%nat 1 1], [ShLin 0%nat 1 (-2); ShLin 1%nat 1 0], Some SPSU2T_e386);
  (36, 35, [ShLin 0%nat 1 (-1); ShLin 1%nat 1 1], [ShLin 0%nat 1 (-2); ShLin 1%nat 1 1], Some SPSU2T_e441);
  (36, 36, [ShLin 0%nat 1 (-1); ShLin 1%nat 1 1], [ShLin 0%nat 1 (-2); ShLin 1%nat 1 2], Some SPSU2T_e442);
  (36, 39, [ShLin 0%nat 1 (-1); ShLin 1%nat 1 1], [ShLin 0%nat 1 0; ShLin 1%nat 1 0], Some SPSU2T_e443);
  (36, 40, [ShLin 0%nat 1 (-1); ShLin 1%nat 1 1], [ShLin 0%nat 1 0; ShLin 1%nat 1 1], Some SPSU2T_e444);
  (36, 41, [ShLin 0%nat 1 (-1); ShLin 1%nat 1 1], [ShLin 0%nat 1 0; ShLin 1%nat 1 2], Some SPSU2T_e445);
  (37, 35, [ShLin 0%nat 1 (-1); ShLin 1%nat 1 2], [ShLin 0%nat 1 (-2); ShLin 1%nat 1 1], Some SPSU2T_e446);
  (37, 36, [ShLin 0%nat 1 (-1); ShLin 1%nat 1 2], [ShLin 0%nat 1 (-2); ShLin 1%nat 1 2], Some SPSU2T_e447);
  (37, 37, [ShLin 0%nat 1 (-1); ShLin 1%nat 1 2], [ShLin 0%nat 1 (-2); ShLin 1%nat 1 3], Some (cN (-1)));
  (37, 40, [ShLin 0%nat 1 (-1); ShLin 1%nat 1 2], [ShLin 0%nat 1 0; ShLin 1%nat 1 1], Some SPSU2T_e448);
  (37, 41, [ShLin 0%nat 1 (-1); ShLin 1%nat 1 2], [ShLin 0%nat 1 0; ShLin 1%nat 1 2], Some SPSU2T_e449);
  (37, 42, [ShLin 0%nat 1 (-1); ShLin 1%nat 1 2], [ShLin 0%nat 1 0; ShLin 1%nat 1 3], Some SPSU2T_e97);
  (38, 38, [ShLin 0%nat 1 1; ShLin 1%nat 1 (-2)], [ShLin 0%nat 1 0; ShLin 1%nat 1 (-1)], Some SPSU2T_e359);
  (39, 38, [ShLin 0%nat 1 1; ShLin 1%nat 1 (-1)], [ShLin 0%nat 1 0; ShLin 1%nat 1 (-1)], Some SPSU2T_e450);
  (39, 39, [ShLin 0%nat 1 1; ShLin 1%nat 1 (-1)], [ShLin 0%nat 1 0; ShLin 1%nat 1 0], Some SPSU2T_e451);
  (40, 38, [ShLin 0%nat 1 1; ShLin 1%nat 1 0], [ShLin 0%nat 1 0; ShLin 1%nat 1 (-1)], Some SPSU2T_e452);
  (40, 39, [ShLin 0%nat 1 1; ShLin 1%nat 1 0], [ShLin 0%nat 1 0; ShLin 1%nat 1 0], Some SPSU2T_e453);
  (40, 40, [ShLin 0%nat 1 1; ShLin 1%nat 1 0], [ShLin 0%nat 1 0; ShLin 1%nat 1 1], Some SPSU2T_e454);
  (41, 39, [ShLin 0%nat 1 1; ShLin 1%nat 1 1], [ShLin 0%nat 1 0; ShLin 1%nat 1 0], Some SPSU2T_e455);
  (41, 40, [ShLin 0%nat 1 1; ShLin 1%nat 1 1], [ShLin 0%nat 1 0; ShLin 1%nat 1 1], Some SPSU2T_e456);
  (41, 41, [ShLin 0%nat 1 1; ShLin 1%nat 1 1], [ShLin 0%nat 1 0; ShLin 1%nat 1 2], Some SPSU2T_e457);
  (42, 40, [ShLin 0%nat 1 1; ShLin 1%nat 1 2], [ShLin 0%nat 1 0; ShLin 1%nat 1 1], Some SPSU2T_e458);
  (42, 41, [ShLin 0%nat 1 1; ShLin 1%nat 1 2], [ShLin 0%nat 1 0; ShLin 1%nat 1 2], Some SPSU2T_e459);
  (42, 42, [ShLin 0%nat 1 1; ShLin 1%nat 1 2], [ShLin 0%nat 1 0; ShLin 1%nat 1 3], Some SPSU2T_e460);
  (43, 43, [ShLin 0%nat 1 (-2); ShLin 1%nat 1 (-1)], [ShLin 0%nat 1 (-3); ShLin 1%nat 1 0], Some SPSU2T_e412);
  (43, 46, [ShLin 0%nat 1 (-2); ShLin 1%nat 1 (-1)], [ShLin 0%nat 1 (-1); ShLin 1%nat 1 0], Some SPSU2T_e461);
  (44, 43, [ShLin 0%nat 1 (-2); ShLin 1%nat 1 0], [ShLin 0%nat 1 (-3); ShLin 1%nat 1 0], Some SPSU2T_e415);
  (44, 44, [ShLin 0%nat 1 (-2); ShLin 1%nat 1 0], [ShLin 0%nat 1 (-3); ShLin 1%nat 1 1], Some SPSU2T_e462);
  (44, 46, [ShLin 0%nat 1 (-2); ShLin 1%nat 1 0], [ShLin 0%nat 1 (-1); ShLin 1%nat 1 0], Some SPSU2T_e463);
  (44, 47, [ShLin 0%nat 1 (-2); ShLin 1%nat 1 0], [ShLin 0%nat 1 (-1); ShLin 1%nat 1 1], Some SPSU2T_e464);
  (45, 43, [ShLin 0%nat 1 (-2); ShLin 1%nat 1 1], [ShLin 0%nat 1 (-3); ShLin 1%nat 1 0], Some SPSU2T_e419);
  (45, 44, [ShLin 0%nat 1 (-2); ShLin 1%nat 1 1], [ShLin 0%nat 1 (-3); ShLin 1%nat 1 1], Some SPSU2T_e188);
  (45, 45, [ShLin 0%nat 1 (-2); ShLin 1%nat 1 1], [ShLin 0%nat 1 (-3); ShLin 1%nat 1 2], Some (cN 1));
  (45, 46, [ShLin 0%nat 1 (-2); ShLin 1%nat 1 1], [ShLin 0%nat 1 (-1); ShLin 1%nat 1 0], Some SPSU2T_e465);
  (45, 47, [ShLin 0%nat 1 (-2); ShLin 1%nat 1 1], [ShLin 0%nat 1 (-1); ShLin 1%nat 1 1], Some SPSU2T_e466);
  (45, 48, [ShLin 0%nat 1 (-2); ShLin 1%nat 1 1], [ShLin 0%nat 1 (-1); ShLin 1%nat 1 2], Some SPSU2T_e138);
  (46, 46, [ShLin 0%nat 1 0; ShLin 1%nat 1 (-1)], [ShLin 0%nat 1 (-1); ShLin 1%nat 1 0], Some SPSU2T_e467);
  (46, 49, [ShLin 0%nat 1 0; ShLin 1%nat 1 (-1)], [ShLin 0%nat 1 1; ShLin 1%nat 1 0], Some SPSU2T_e468);
  (47, 46, [ShLin 0%nat 1 0; ShLin 1%nat 1 0], [ShLin 0%nat 1 (-1); ShLin 1%nat 1 0], Some SPSU2T_e469);
  (47, 47, [ShLin 0%nat 1 0; ShLin 1%nat 1 0], [ShLin 0%nat 1 (-1); ShLin 1%nat 1 1], Some SPSU2T_e470);
  (47, 49, [ShLin 0%nat 1 0; ShLin 1%nat 1 0], [ShLin 0%nat 1 1; ShLin 1%nat 1 0], Some SPSU2T_e471);
  (47, 50, [ShLin 0%nat 1 0; ShLin 1%nat 1 0], [ShLin 0%nat 1 1; ShLin 1%nat 1 1], Some SPSU2T_e325);
  (48, 46, [ShLin 0%nat 1 0; ShLin 1%nat 1 1], [ShLin 0%nat 1 (-1); ShLin 1%nat 1 0], Some SPSU2T_e472);
  (48, 47, [ShLin 0%nat 1 0; ShLin 1%nat 1 1], [ShLin 0%nat 1 (-1); ShLin 1%nat 1 1], Some SPSU2T_e473);
  (48, 48, [ShLin 0%nat 1 0; ShLin 1%nat 1 1], [ShLin 0%nat 1 (-1); ShLin 1%nat 1 2], Some SPSU2T_e474);
  (48, 49, [ShLin 0%nat 1 0; ShLin 1%nat 1 1], [ShLin 0%nat 1 1; ShLin 1%nat 1 0], Some SPSU2T_e475);
  (48, 50, [ShLin 0%nat 1 0; ShLin 1%nat 1 1], [ShLin 0%nat 1 1; ShLin 1%nat 1 1], Some SPSU2T_e476);
  (48, 51, [ShLin 0%nat 1 0; ShLin 1%nat 1 1], [ShLin 0%nat 1 1; ShLin 1%nat 1 2], Some SPSU2T_e148);
  (49, 49, [ShLin 0%nat 1 2; ShLin 1%nat 1 (-1)], [ShLin 0%nat 1 1; ShLin 1%nat 1 0], Some SPSU2T_e401);
  (50, 49, [ShLin 0%nat 1 2; ShLin 1%nat 1 0], [ShLin 0%nat 1 1; ShLin 1%nat 1 0], Some SPSU2T_e477);
  (50, 50, [ShLin 0%nat 1 2; ShLin 1%nat 1 0], [ShLin 0%nat 1 1; ShLin 1%nat 1 1], Some SPSU2T_e478);
  (51, 49, [ShLin 0%nat 1 2; ShLin 1%nat 1 1], [ShLin 0%nat 1 1; ShLin 1%nat 1 0], Some SPSU2T_e479);
  (51, 50, [ShLin 0%nat 1 2; ShLin 1%nat 1 1], [ShLin 0%nat 1 1; ShLin 1%nat 1 1], Some SPSU2T_e480);
  (51, 51, [ShLin 0%nat 1 2; ShLin 1%nat 1 1], [ShLin 0%nat 1 1; ShLin 1%nat 1 2], Some SPSU2T_e481);
  (52, 52, [ShLin 0%nat 1 (-2); ShLin 1%nat 1 (-1)], [ShLin 0%nat 1 (-3); ShLin 1%nat 1 0], Some SPSU2T_e412);
  (52, 55, [ShLin 0%nat 1 (-2); ShLin 1%nat 1 (-1)], [ShLin 0%nat 1 (-1); ShLin 1%nat 1 0], Some SPSU2T_e461);
  (53, 52, [ShLin 0%nat 1 (-2); ShLin 1%nat 1 0], [ShLin 0%nat 1 (-3); ShLin 1%nat 1 0], Some SPSU2T_e415);
  (53, 53, [ShLin 0%nat 1 (-2); ShLin 1%nat 1 0], [ShLin 0%nat 1 (-3); ShLin 1%nat 1 1], Some SPSU2T_e462);
  (53, 55, [ShLin 0%nat 1 (-2); ShLin 1%nat 1 0], [ShLin 0%nat 1 (-1); ShLin 1%nat 1 0], Some SPSU2T_e463);
  (53, 56, [ShLin 0%nat 1 (-2); ShLin 1%nat 1 0], [ShLin 0%nat 1 (-1); ShLin 1%nat 1 1], Some SPSU2T_e464);
  (54, 52, [ShLin 0%nat 1 (-2); ShLin 1%nat 1 1], [ShLin 0%nat 1 (-3); ShLin 1%nat 1 0], Some SPSU2T_e419);
  (54, 53, [ShLin 0%nat 1 (-2); ShLin 1%nat 1 1], [ShLin 0%nat 1 (-3); ShLin 1%nat 1 1], Some SPSU2T_e188);
  (54, 54, [ShLin 0%nat 1 (-2); ShLin 1%nat 1 1], [ShLin 0%nat 1 (-3); ShLin 1%nat 1 2], Some (cN 1));
  (54, 55, [ShLin 0%nat 1 (-2); ShLin 1%nat 1 1], [ShLin 0%nat 1 (-1); ShLin 1%nat 1 0], Some SPSU2T_e465);
  (54, 56, [ShLin 0%nat 1 (-2); ShLin 1%nat 1 1], [ShLin 0%nat 1 (-1); ShLin 1%nat 1 1], Some SPSU2T_e466);
  (54, 57, [ShLin 0%nat 1 (-2); ShLin 1%nat 1 1], [ShLin 0%nat 1 (-1); ShLin 1%nat 1 2], Some SPSU2T_e138);
  (55, 55, [ShLin 0%nat 1 0; ShLin 1%nat 1 (-1)], [ShLin 0%nat 1 (-1); ShLin 1%nat 1 0], Some SPSU2T_e467);
  (55, 58, [ShLin 0%nat 1 0; ShLin 1%nat 1 (-1)], [ShLin 0%nat 1 1; ShLin 1%nat 1 0], Some SPSU2T_e468);
  (56, 55, [ShLin 0%nat 1 0; ShLin 1%nat 1 0], [ShLin 0%nat 1 (-1); ShLin 1%nat 1 0], Some SPSU2T_e469);
  (56, 56, [ShLin 0%nat 1 0; ShLin 1%nat 1 0], [ShLin 0%nat 1 (-1); ShLin 1%nat 1 1], Some SPSU2T_e470);
  (56, 58, [ShLin 0%nat 1 0; ShLin 1%nat 1 0], [ShLin 0%nat 1 1; ShLin 1%nat 1 0], Some SPSU2T_e471);
  (56, 59, [ShLin 0%nat 1 0; ShLin 1%nat 1 0], [ShLin 0%nat 1 1; ShLin 1%nat 1 1], Some SPSU2T_e325);
  (57, 55, [ShLin 0%nat 1 0; ShLin 1%nat 1 1], [ShLin 0%nat 1 (-1); ShLin 1%nat 1 0], Some SPSU2T_e472);
  (57, 56, [ShLin 0%nat 1 0; ShLin 1%nat 1 1], [ShLin 0%nat 1 (-1); ShLin 1%nat 1 1], Some SPSU2T_e473);
  (57, 57, [ShLin 0%nat 1 0; ShLin 1%nat 1 1], [ShLin 0%nat 1 (-1); ShLin 1%nat 1 2], Some SPSU2T_e474);
  (57, 58, [ShLin 0%nat 1 0; ShLin 1%nat 1 1], [ShLin 0%nat 1 1; ShLin 1%nat 1 0], Some SPSU2T_e475);
  (57, 59, [ShLin 0%nat 1 0; ShLin 1%nat 1 1], [ShLin 0%nat 1 1; ShLin 1%nat 1 1], Some SPSU2T_e476);
  (57, 60, [ShLin 0%nat 1 0; ShLin 1%nat 1 1], [ShLin 0%nat 1 1; ShLin 1%nat 1 2], Some SPSU2T_e148);
  (58, 58, [ShLin 0%nat 1 2; ShLin 1%nat 1 (-1)], [ShLin 0%nat 1 1; ShLin 1%nat 1 0], Some SPSU2T_e401);
  (59, 58, [ShLin 0%nat 1 2; ShLin 1%nat 1 0], [ShLin 0%nat 1 1; ShLin 1%nat 1 0], Some SPSU2T_e477);
  (59, 59, [ShLin 0%nat 1 2; ShLin 1%nat 1 0], [ShLin 0%nat 1 1; ShLin 1%nat 1 1], Some SPSU2T_e478);
  (60, 58, [ShLin 0%nat 1 2; ShLin 1%nat 1 1], [ShLin 0%nat 1 1; ShLin 1%nat 1 0], Some SPSU2T_e479);
  (60, 59, [ShLin 0%nat 1 2; ShLin 1%nat 1 1], [ShLin 0%nat 1 1; ShLin 1%nat 1 1], Some SPSU2T_e480);
  (60, 60, [ShLin 0%nat 1 2; ShLin 1%nat 1 1], [ShLin 0%nat 1 1; ShLin 1%nat 1 2], Some SPSU2T_e481);
  (61, 61, [ShLin 0%nat 1 (-3); ShLin 1%nat 1 0], [ShLin 0%nat 1 (-4); ShLin 1%nat 1 1], Some (cN (-1)));
  (61, 62, [ShLin 0%nat 1 (-3); ShLin 1%nat 1 0], [ShLin 0%nat 1 (-2); ShLin 1%nat 1 1], Some SPSU2T_e163);
  (62, 62, [ShLin 0%nat 1 (-1); ShLin 1%nat 1 0], [ShLin 0%nat 1 (-2); ShLin 1%nat 1 1], Some SPSU2T_e164);
  (62, 63, [ShLin 0%nat 1 (-1); ShLin 1%nat 1 0], [ShLin 0%nat 1 0; ShLin 1%nat 1 1], Some SPSU2T_e165);
  (63, 63, [ShLin 0%nat 1 1; ShLin 1%nat 1 0], [ShLin 0%nat 1 0; ShLin 1%nat 1 1], Some SPSU2T_e93);
  (63, 64, [ShLin 0%nat 1 1; ShLin 1%nat 1 0], [ShLin 0%nat 1 2; ShLin 1%nat 1 1], Some SPSU2T_e166);
  (64, 64, [ShLin 0%nat 1 3; ShLin 1%nat 1 0], [ShLin 0%nat 1 2; ShLin 1%nat 1 1], Some SPSU2T_e167)].
(** /repo/c++/symmetry/nrg-recalc-SPSU2T.hpp recalc_irreduc, spsu2t/spsu2t-spinup+1.dat *)
Definition spsu2t_t6 : irr_table := mk_irr 0 0 [ShLin 0%nat 1 1; ShLin 1%nat 1 1]  [
  (2, 20, Some SPSU2T_e482);
  (3, 26, Some SPSU2T_e483);
  (4, 32, Some SPSU2T_e484);
  (5, 18, Some SPSU2T_e485);
  (6, 19, Some SPSU2T_e486);
  (7, 20, Some SPSU2T_e487);
  (10, 24, Some SPSU2T_e488);
  (10, 39, Some SPSU2T_e489);
  (11, 25, Some SPSU2T_e490);
  (11, 40, Some SPSU2T_e491);
  (12, 26, Some SPSU2T_e492);
  (12, 41, Some SPSU2T_e493);
  (13, 42, Some SPSU2T_e494);
  (15, 1, Some (cN 1));
  (21, 2, Some (cO (cR (cQ 2 3))));
  (21, 7, Some SPSU2T_e495);
  (21, 47, Some SPSU2T_e496);
  (22, 8, Some SPSU2T_e497);
  (22, 48, Some SPSU2T_e498);
  (23, 9, Some SPSU2T_e499);
  (24, 50, Some SPSU2T_e500);
  (25, 51, Some SPSU2T_e501);
  (27, 3, Some SPSU2T_e502);
  (27, 12, Some SPSU2T_e503);
  (27, 56, Some SPSU2T_e504);
  (28, 13, Some SPSU2T_e505);
  (28, 57, Some SPSU2T_e506);
  (29, 14, Some SPSU2T_e507);
  (30, 59, Some SPSU2T_e508);
  (31, 60, Some SPSU2T_e509);
  (33, 6, Some SPSU2T_e510);
  (33, 46, Some SPSU2T_e511);
  (34, 7, Some SPSU2T_e512);
  (34, 47, Some SPSU2T_e513);
  (35, 8, Some SPSU2T_e514);
  (35, 48, Some SPSU2T_e515);
  (36, 9, Some SPSU2T_e516);
  (38, 49, Some SPSU2T_e517);
  (39, 50, Some SPSU2T_e518);
  (40, 51, Some SPSU2T_e519);
  (43, 16, Some SPSU2T_e520);
  (44, 17, Some SPSU2T_e521);
  (46, 19, Some SPSU2T_e522);
  (47, 20, Some SPSU2T_e523);
  (52, 22, Some SPSU2T_e524);
  (52, 35, Some SPSU2T_e525);
  (52, 62, Some SPSU2T_e526);
  (53, 23, Some SPSU2T_e527);
  (53, 36, Some SPSU2T_e528);
  (54, 37, Some SPSU2T_e529);
  (55, 25, Some SPSU2T_e530);
  (55, 40, Some SPSU2T_e531);
  (55, 63, Some SPSU2T_e532);
  (56, 26, Some SPSU2T_e533);
  (56, 41, Some SPSU2T_e534);
  (57, 42, Some SPSU2T_e535);
  (58, 64, Some SPSU2T_e536);
  (61, 45, Some SPSU2T_e507);
  (62, 48, Some SPSU2T_e537);
  (63, 51, Some SPSU2T_e538)].
(** /repo/c++/symmetry/nrg-recalc-SPSU2T.hpp recalc_irreduc, spsu2t/spsu2t-spinup0.dat *)
Definition spsu2t_t7 : irr_table := mk_irr 0 0 [ShLin 0%nat 1 1; ShLin 1%nat 1 0]  [
  (2, 19, Some SPSU2T_e539);
  (3, 25, Some SPSU2T_e540);
  (4, 31, Some SPSU2T_e485);
  (6, 18, Some SPSU2T_e541);
  (7, 19, Some SPSU2T_e542);
  (8, 20, Some SPSU2T_e543);
  (10, 38, Some SPSU2T_e544);
  (11, 24, Some SPSU2T_e545);
  (11, 39, Some SPSU2T_e546);
  (12, 25, Some SPSU2T_e547);
  (12, 40, Some SPSU2T_e548);
  (13, 26, Some SPSU2T_e549);
  (13, 41, Some SPSU2T_e550);
  (14, 42, Some SPSU2T_e551);
  (16, 1, Some (cN 1));
  (21, 6, Some SPSU2T_e552);
  (21, 46, Some SPSU2T_e553);
  (22, 2, Some (cO (cR (cQ 2 3))));
  (22, 7, Some SPSU2T_e554);
  (22, 47, Some SPSU2T_e555);
  (23, 8, Some SPSU2T_e556);
  (23, 48, Some SPSU2T_e557);
  (24, 49, Some SPSU2T_e558);
  (25, 50, Some SPSU2T_e559);
  (26, 51, Some SPSU2T_e560);
  (27, 11, Some SPSU2T_e561);
  (27, 55, Some SPSU2T_e562);
  (28, 3, Some SPSU2T_e502);
  (28, 12, Some SPSU2T_e563);
  (28, 56, Some SPSU2T_e564);
  (29, 13, Some SPSU2T_e565);
  (29, 57, Some SPSU2T_e566);
  (30, 58, Some SPSU2T_e567);
  (31, 59, Some SPSU2T_e568);
  (32, 60, Some SPSU2T_e569);
  (33, 5, Some SPSU2T_e570);
  (34, 6, Some SPSU2T_e571);
  (34, 46, Some SPSU2T_e572);
  (35, 7, Some SPSU2T_e573);
  (35, 47, Some SPSU2T_e574);
  (36, 8, Some SPSU2T_e575);
  (36, 48, Some SPSU2T_e576);
  (37, 9, Some SPSU2T_e520);
  (39, 49, Some SPSU2T_e577);
  (40, 50, Some SPSU2T_e578);
  (41, 51, Some SPSU2T_e579);
  (43, 15, Some SPSU2T_e570);
  (44, 16, Some SPSU2T_e580);
  (45, 17, Some SPSU2T_e520);
  (46, 18, Some SPSU2T_e581);
  (47, 19, Some SPSU2T_e582);
  (48, 20, Some SPSU2T_e583);
  (52, 21, Some SPSU2T_e584);
  (52, 34, Some SPSU2T_e585);
  (53, 22, Some SPSU2T_e586);
  (53, 35, Some SPSU2T_e587);
  (53, 62, Some SPSU2T_e526);
  (54, 23, Some SPSU2T_e524);
  (54, 36, Some SPSU2T_e588);
  (55, 24, Some SPSU2T_e589);
  (55, 39, Some SPSU2T_e590);
  (56, 25, Some SPSU2T_e591);
  (56, 40, Some SPSU2T_e592);
  (56, 63, Some SPSU2T_e532);
  (57, 26, Some SPSU2T_e593);
  (57, 41, Some SPSU2T_e594);
  (59, 64, Some SPSU2T_e536);
  (61, 44, Some (cN (-1)));
  (62, 47, Some SPSU2T_e595);
  (63, 50, Some SPSU2T_e596)].
(** /repo/c++/symmetry/nrg-recalc-SPSU2T.hpp recalc_irreduc, spsu2t/spsu2t-spinup-1.dat *)
Definition spsu2t_t8 : irr_table := mk_irr 0 0 [ShLin 0%nat 1 1; ShLin 1%nat 1 (-1)]  [
  (2, 18, Some SPSU2T_e597);
  (3, 24, Some SPSU2T_e598);
  (4, 30, Some SPSU2T_e599);
  (7, 18, Some SPSU2T_e600);
  (8, 19, Some SPSU2T_e541);
  (9, 20, Some SPSU2T_e601);
  (11, 38, Some SPSU2T_e602);
  (12, 24, Some SPSU2T_e603);
  (12, 39, Some SPSU2T_e604);
  (13, 25, Some SPSU2T_e545);
  (13, 40, Some SPSU2T_e605);
  (14, 26, Some SPSU2T_e488);
  (14, 41, Some SPSU2T_e606);
  (17, 1, Some (cN 1));
  (21, 5, Some SPSU2T_e607);
  (22, 6, Some SPSU2T_e608);
  (22, 46, Some SPSU2T_e609);
  (23, 2, Some (cO (cR (cQ 2 3))));
  (23, 7, Some SPSU2T_e610);
  (23, 47, Some SPSU2T_e611);
  (25, 49, Some SPSU2T_e612);
  (26, 50, Some SPSU2T_e613);
  (27, 10, Some SPSU2T_e614);
  (28, 11, Some SPSU2T_e615);
  (28, 55, Some SPSU2T_e616);
  (29, 3, Some SPSU2T_e502);
  (29, 12, Some SPSU2T_e617);
  (29, 56, Some SPSU2T_e618);
  (31, 58, Some SPSU2T_e619);
  (32, 59, Some SPSU2T_e620);
  (34, 5, Some SPSU2T_e621);
  (35, 6, Some SPSU2T_e622);
  (35, 46, Some SPSU2T_e623);
  (36, 7, Some SPSU2T_e624);
  (36, 47, Some SPSU2T_e625);
  (37, 8, Some SPSU2T_e626);
  (37, 48, Some SPSU2T_e627);
  (40, 49, Some SPSU2T_e628);
  (41, 50, Some SPSU2T_e629);
  (42, 51, Some SPSU2T_e630);
  (44, 15, Some SPSU2T_e631);
  (45, 16, Some SPSU2T_e570);
  (47, 18, Some SPSU2T_e632);
  (48, 19, Some SPSU2T_e633);
  (52, 33, Some SPSU2T_e634);
  (53, 21, Some SPSU2T_e635);
  (53, 34, Some SPSU2T_e636);
  (54, 22, Some SPSU2T_e584);
  (54, 35, Some SPSU2T_e637);
  (54, 62, Some SPSU2T_e526);
  (55, 38, Some SPSU2T_e638);
  (56, 24, Some SPSU2T_e639);
  (56, 39, Some SPSU2T_e640);
  (57, 25, Some SPSU2T_e641);
  (57, 40, Some SPSU2T_e642);
  (57, 63, Some SPSU2T_e532);
  (60, 64, Some SPSU2T_e536);
  (61, 43, Some SPSU2T_e614);
  (62, 46, Some SPSU2T_e643);
  (63, 49, Some SPSU2T_e644)].
(** /repo/c++/symmetry/nrg-recalc-SPSU2T.hpp recalc_irreduc, spsu2t/spsu2t-spindo+1.dat *)
Definition spsu2t_t9 : irr_table := mk_irr 0 0 [ShLin 0%nat 1 (-1); ShLin 1%nat 1 1]  [
  (2, 17, Some SPSU2T_e645);
  (3, 23, Some SPSU2T_e646);
  (4, 29, Some SPSU2T_e647);
  (5, 15, Some SPSU2T_e648);
  (6, 16, Some SPSU2T_e649);
  (7, 17, Some SPSU2T_e650);
  (10, 21, Some SPSU2T_e651);
  (10, 34, Some SPSU2T_e652);
  (11, 22, Some SPSU2T_e653);
  (11, 35, Some SPSU2T_e654);
  (12, 23, Some SPSU2T_e655);
  (12, 36, Some SPSU2T_e656);
  (13, 37, Some SPSU2T_e657);
  (18, 1, Some (cN 1));
  (21, 44, Some SPSU2T_e658);
  (22, 45, Some SPSU2T_e659);
  (24, 2, Some (cO (cR (cQ 2 3))));
  (24, 7, Some SPSU2T_e495);
  (24, 47, Some SPSU2T_e660);
  (25, 8, Some SPSU2T_e497);
  (25, 48, Some SPSU2T_e661);
  (26, 9, Some SPSU2T_e662);
  (27, 53, Some SPSU2T_e663);
  (28, 54, Some SPSU2T_e664);
  (30, 3, Some SPSU2T_e502);
  (30, 12, Some SPSU2T_e503);
  (30, 56, Some SPSU2T_e665);
  (31, 13, Some SPSU2T_e505);
  (31, 57, Some SPSU2T_e666);
  (32, 14, Some SPSU2T_e667);
  (33, 43, Some SPSU2T_e668);
  (34, 44, Some SPSU2T_e669);
  (35, 45, Some SPSU2T_e670);
  (38, 6, Some SPSU2T_e510);
  (38, 46, Some SPSU2T_e671);
  (39, 7, Some SPSU2T_e512);
  (39, 47, Some SPSU2T_e672);
  (40, 8, Some SPSU2T_e673);
  (40, 48, Some SPSU2T_e674);
  (41, 9, Some SPSU2T_e675);
  (46, 16, Some SPSU2T_e676);
  (47, 17, Some SPSU2T_e677);
  (49, 19, Some SPSU2T_e520);
  (50, 20, Some SPSU2T_e521);
  (52, 61, Some SPSU2T_e668);
  (55, 22, Some SPSU2T_e678);
  (55, 35, Some SPSU2T_e679);
  (55, 62, Some SPSU2T_e680);
  (56, 23, Some SPSU2T_e681);
  (56, 36, Some SPSU2T_e682);
  (57, 37, Some SPSU2T_e683);
  (58, 25, Some SPSU2T_e684);
  (58, 40, Some SPSU2T_e525);
  (58, 63, Some SPSU2T_e685);
  (59, 26, Some SPSU2T_e527);
  (59, 41, Some SPSU2T_e686);
  (60, 42, Some SPSU2T_e687);
  (62, 45, Some SPSU2T_e688);
  (63, 48, Some SPSU2T_e689);
  (64, 51, Some SPSU2T_e507)].
(** /repo/c++/symmetry/nrg-recalc-SPSU2T.hpp recalc_irreduc, spsu2t/spsu2t-spindo0.dat *)
Definition spsu2t_t10 : irr_table := mk_irr 0 0 [ShLin 0%nat 1 (-1); ShLin 1%nat 1 0]  [
  (2, 16, Some SPSU2T_e690);
  (3, 22, Some SPSU2T_e691);
  (4, 28, Some SPSU2T_e648);
  (6, 15, Some SPSU2T_e692);
  (7, 16, Some SPSU2T_e693);
  (8, 17, Some SPSU2T_e694);
  (10, 33, Some SPSU2T_e695);
  (11, 21, Some SPSU2T_e696);
  (11, 34, Some SPSU2T_e697);
  (12, 22, Some SPSU2T_e698);
  (12, 35, Some SPSU2T_e699);
  (13, 23, Some SPSU2T_e700);
  (13, 36, Some SPSU2T_e701);
  (14, 37, Some SPSU2T_e702);
  (19, 1, Some (cN 1));
  (21, 43, Some SPSU2T_e703);
  (22, 44, Some SPSU2T_e704);
  (23, 45, Some SPSU2T_e658);
  (24, 6, Some SPSU2T_e705);
  (24, 46, Some SPSU2T_e706);
  (25, 2, Some (cO (cR (cQ 2 3))));
  (25, 7, Some SPSU2T_e707);
  (25, 47, Some SPSU2T_e708);
  (26, 8, Some SPSU2T_e556);
  (26, 48, Some SPSU2T_e709);
  (27, 52, Some SPSU2T_e695);
  (28, 53, Some SPSU2T_e710);
  (29, 54, Some SPSU2T_e702);
  (30, 11, Some SPSU2T_e561);
  (30, 55, Some SPSU2T_e711);
  (31, 3, Some SPSU2T_e502);
  (31, 12, Some SPSU2T_e712);
  (31, 56, Some SPSU2T_e713);
  (32, 13, Some SPSU2T_e565);
  (32, 57, Some SPSU2T_e665);
  (34, 43, Some SPSU2T_e714);
  (35, 44, Some SPSU2T_e715);
  (36, 45, Some SPSU2T_e716);
  (38, 5, Some SPSU2T_e570);
  (39, 6, Some SPSU2T_e717);
  (39, 46, Some SPSU2T_e718);
  (40, 7, Some SPSU2T_e719);
  (40, 47, Some SPSU2T_e720);
  (41, 8, Some SPSU2T_e721);
  (41, 48, Some SPSU2T_e722);
  (42, 9, Some SPSU2T_e520);
  (46, 15, Some SPSU2T_e723);
  (47, 16, Some SPSU2T_e724);
  (48, 17, Some SPSU2T_e725);
  (49, 18, Some SPSU2T_e570);
  (50, 19, Some SPSU2T_e580);
  (51, 20, Some SPSU2T_e520);
  (53, 61, Some SPSU2T_e668);
  (55, 21, Some SPSU2T_e726);
  (55, 34, Some SPSU2T_e727);
  (56, 22, Some SPSU2T_e728);
  (56, 35, Some SPSU2T_e729);
  (56, 62, Some SPSU2T_e730);
  (57, 23, Some SPSU2T_e731);
  (57, 36, Some SPSU2T_e732);
  (58, 24, Some SPSU2T_e584);
  (58, 39, Some SPSU2T_e585);
  (59, 25, Some SPSU2T_e586);
  (59, 40, Some SPSU2T_e587);
  (59, 63, Some SPSU2T_e685);
  (60, 26, Some SPSU2T_e684);
  (60, 41, Some SPSU2T_e733);
  (62, 44, Some SPSU2T_e734);
  (63, 47, Some SPSU2T_e735);
  (64, 50, Some (cN (-1)))].
(** /repo/c++/symmetry/nrg-recalc-SPSU2T.hpp recalc_irreduc, spsu2t/spsu2t-spindo-1.dat *)
Definition spsu2t_t11 : irr_table := mk_irr 0 0 [ShLin 0%nat 1 (-1); ShLin 1%nat 1 (-1)]  [
  (2, 15, Some SPSU2T_e736);
  (3, 21, Some SPSU2T_e737);
  (4, 27, Some SPSU2T_e738);
  (7, 15, Some SPSU2T_e739);
  (8, 16, Some SPSU2T_e740);
  (9, 17, Some SPSU2T_e648);
  (11, 33, Some SPSU2T_e741);
  (12, 21, Some SPSU2T_e742);
  (12, 34, Some SPSU2T_e743);
  (13, 22, Some SPSU2T_e696);
  (13, 35, Some SPSU2T_e744);
  (14, 23, Some SPSU2T_e651);
  (14, 36, Some SPSU2T_e745);
  (20, 1, Some (cN 1));
  (22, 43, Some SPSU2T_e746);
  (23, 44, Some SPSU2T_e747);
  (24, 5, Some SPSU2T_e607);
  (25, 6, Some SPSU2T_e748);
  (25, 46, Some SPSU2T_e749);
  (26, 2, Some (cO (cR (cQ 2 3))));
  (26, 7, Some SPSU2T_e610);
  (26, 47, Some SPSU2T_e750);
  (28, 52, Some SPSU2T_e751);
  (29, 53, Some SPSU2T_e752);
  (30, 10, Some SPSU2T_e614);
  (31, 11, Some SPSU2T_e753);
  (31, 55, Some SPSU2T_e754);
  (32, 3, Some SPSU2T_e502);
  (32, 12, Some SPSU2T_e617);
  (32, 56, Some SPSU2T_e755);
  (35, 43, Some SPSU2T_e756);
  (36, 44, Some SPSU2T_e714);
  (37, 45, Some SPSU2T_e668);
  (39, 5, Some SPSU2T_e757);
  (40, 6, Some SPSU2T_e622);
  (40, 46, Some SPSU2T_e758);
  (41, 7, Some SPSU2T_e759);
  (41, 47, Some SPSU2T_e718);
  (42, 8, Some SPSU2T_e760);
  (42, 48, Some SPSU2T_e761);
  (47, 15, Some SPSU2T_e762);
  (48, 16, Some SPSU2T_e763);
  (50, 18, Some SPSU2T_e764);
  (51, 19, Some SPSU2T_e570);
  (54, 61, Some SPSU2T_e668);
  (55, 33, Some SPSU2T_e765);
  (56, 21, Some SPSU2T_e766);
  (56, 34, Some SPSU2T_e767);
  (57, 22, Some SPSU2T_e768);
  (57, 35, Some SPSU2T_e769);
  (57, 62, Some SPSU2T_e680);
  (58, 38, Some SPSU2T_e634);
  (59, 24, Some SPSU2T_e770);
  (59, 39, Some SPSU2T_e771);
  (60, 25, Some SPSU2T_e584);
  (60, 40, Some SPSU2T_e637);
  (60, 63, Some SPSU2T_e685);
  (62, 43, Some SPSU2T_e772);
  (63, 46, Some SPSU2T_e773);
  (64, 49, Some SPSU2T_e614)].
(** /repo/c++/symmetry/nrg-recalc-SPSU2T.hpp recalc_triplet, spsu2t/spsu2t-triplets.dat *)
Definition spsu2t_t12 : ten_table := mk_ten "triplet" [ShLin 0%nat 1 0; ShLin 1%nat 1 0] [3; 0] [
  (1, 1, [ShLin 0%nat 1 0; ShLin 1%nat 1 0], [ShLin 0%nat 1 0; ShLin 1%nat 1 0], Some (cN 1));
  (2, 2, [ShLin 0%nat 1 0; ShLin 1%nat 1 0], [ShLin 0%nat 1 0; ShLin 1%nat 1 0], Some (cN 1));
  (3, 3, [ShLin 0%nat 1 0; ShLin 1%nat 1 0], [ShLin 0%nat 1 0; ShLin 1%nat 1 0], Some (cN 1));
  (4, 4, [ShLin 0%nat 1 0; ShLin 1%nat 1 0], [ShLin 0%nat 1 0; ShLin 1%nat 1 0], Some (cN 1));
  (5, 5, [ShLin 0%nat 1 0; ShLin 1%nat 1 (-2)], [ShLin 0%nat 1 0; ShLin 1%nat 1 (-2)], Some (cN 1));
  (6, 6, [ShLin 0%nat 1 0; ShLin 1%nat 1 (-1)], [ShLin 0%nat 1 0; ShLin 1%nat 1 (-1)], Some (cN 1));
  (7, 7, [ShLin 0%nat 1 0; ShLin 1%nat 1 0], [ShLin 0%nat 1 0; ShLin 1%nat 1 0], Some (cN 1));
  (8, 8, [ShLin 0%nat 1 0; ShLin 1%nat 1 1], [ShLin 0%nat 1 0; ShLin 1%nat 1 1], Some (cN 1));
  (9, 9, [ShLin 0%nat 1 0; ShLin 1%nat 1 2], [ShLin 0%nat 1 0; ShLin 1%nat 1 2], Some (cN 1));
  (10, 10, [ShLin 0%nat 1 0; ShLin 1%nat 1 (-2)], [ShLin 0%nat 1 0; ShLin 1%nat 1 (-2)], Some (cN 1));
  (11, 11, [ShLin 0%nat 1 0; ShLin 1%nat 1 (-1)], [ShLin 0%nat 1 0; ShLin 1%nat 1 (-1)], Some (cN 1));
  (12, 12, [ShLin 0%nat 1 0; ShLin 1%nat 1 0], [ShLin 0%nat 1 0; ShLin 1%nat 1 0], Some (cN 1));
  (13, 13, [ShLin 0%nat 1 0; ShLin 1%nat 1 1], [ShLin 0%nat 1 0; ShLin 1%nat 1 1], Some (cN 1));
  (14, 14, [ShLin 0%nat 1 0; ShLin 1%nat 1 2], [ShLin 0%nat 1 0; ShLin 1%nat 1 2], Some (cN 1));
  (15, 15, [ShLin 0%nat 1 (-1); ShLin 1%nat 1 (-1)], [ShLin 0%nat 1 (-1); ShLin 1%nat 1 (-1)], Some SPSU2T_e63);
  (15, 18, [ShLin 0%nat 1 (-1); ShLin 1%nat 1 (-1)], [ShLin 0%nat 1 1; ShLin 1%nat 1 (-1)], Some SPSU2T_e774);
  (16, 16, [ShLin 0%nat 1 (-1); ShLin 1%nat 1 0], [ShLin 0%nat 1 (-1); ShLin 1%nat 1 0], Some SPSU2T_e474);
  (16, 19, [ShLin 0%nat 1 (-1); ShLin 1%nat 1 0], [ShLin 0%nat 1 1; ShLin 1%nat 1 0], Some SPSU2T_e774);
  (17, 17, [ShLin 0%nat 1 (-1); ShLin 1%nat 1 1], [ShLin 0%nat 1 (-1); ShLin 1%nat 1 1], Some SPSU2T_e474);
  (17, 20, [ShLin 0%nat 1 (-1); ShLin 1%nat 1 1], [ShLin 0%nat 1 1; ShLin 1%nat 1 1], Some SPSU2T_e774);
  (18, 15, [ShLin 0%nat 1 1; ShLin 1%nat 1 (-1)], [ShLin 0%nat 1 (-1); ShLin 1%nat 1 (-1)], Some SPSU2T_e69);
  (18, 18, [ShLin 0%nat 1 1; ShLin 1%nat 1 (-1)], [ShLin 0%nat 1 1; ShLin 1%nat 1 (-1)], Some SPSU2T_e775);
  (19, 16, [ShLin 0%nat 1 1; ShLin 1%nat 1 0], [ShLin 0%nat 1 (-1); ShLin 1%nat 1 0], Some SPSU2T_e69);
  (19, 19, [ShLin 0%nat 1 1; ShLin 1%nat 1 0], [ShLin 0%nat 1 1; ShLin 1%nat 1 0], Some SPSU2T_e776);
  (20, 17, [ShLin 0%nat 1 1; ShLin 1%nat 1 1], [ShLin 0%nat 1 (-1); ShLin 1%nat 1 1], Some SPSU2T_e69);
  (20, 20, [ShLin 0%nat 1 1; ShLin 1%nat 1 1], [ShLin 0%nat 1 1; ShLin 1%nat 1 1], Some SPSU2T_e777);
  (21, 21, [ShLin 0%nat 1 (-1); ShLin 1%nat 1 (-1)], [ShLin 0%nat 1 (-1); ShLin 1%nat 1 (-1)], Some SPSU2T_e63);
  (21, 24, [ShLin 0%nat 1 (-1); ShLin 1%nat 1 (-1)], [ShLin 0%nat 1 1; ShLin 1%nat 1 (-1)], Some SPSU2T_e774);
  (22, 22, [ShLin 0%nat 1 (-1); ShLin 1%nat 1 0], [ShLin 0%nat 1 (-1); ShLin 1%nat 1 0], Some SPSU2T_e474);
  (22, 25, [ShLin 0%nat 1 (-1); ShLin 1%nat 1 0], [ShLin 0%nat 1 1; ShLin 1%nat 1 0], Some SPSU2T_e774);
  (23, 23, [ShLin 0%nat 1 (-1); ShLin 1%nat 1 1], [ShLin 0%nat 1 (-1); ShLin 1%nat 1 1], Some SPSU2T_e474);
  (23, 26, [ShLin 0%nat 1 (-1); ShLin 1%nat 1 1], [ShLin 0%nat 1 1; ShLin 1%nat 1 1], Some SPSU2T_e774);
  (24, 21, [ShLin 0%nat 1 1; ShLin 1%nat 1 (-1)], [ShLin 0%nat 1 (-1); ShLin 1%nat 1 (-1)], Some SPSU2T_e69);
  (24, 24, [ShLin 0%nat 1 1; ShLin 1%nat 1 (-1)], [ShLin 0%nat 1 1; ShLin 1%nat 1 (-1)], Some SPSU2T_e775);
  (25, 22, [ShLin 0%nat 1 1; ShLin 1%nat 1 0], [ShLin 0%nat 1 (-1); ShLin 1%nat 1 0], Some SPSU2T_e69);
  (25, 25, [ShLin 0%nat 1 1; ShLin 1%nat 1 0], [ShLin 0%nat 1 1; ShLin 1%nat 1 0], Some SPSU2T_e776);
  (26, 23, [ShLin 0%nat 1 1; ShLin 1%nat 1 1], [ShLin 0%nat 1 (-1); ShLin 1%nat 1 1], Some SPSU2T_e69);
  (26, 26, [ShLin 0%nat 1 1; ShLin 1%nat 1 1], [ShLin 0%nat 1 1; ShLin 1%nat 1 1], Some SPSU2T_e777);
  (27, 27, [ShLin 0%nat 1 (-1); ShLin 1%nat 1 (-1)], [ShLin 0%nat 1 (-1); ShLin 1%nat 1 (-1)], Some SPSU2T_e63);
  (27, 30, [ShLin 0%nat 1 (-1); ShLin 1%nat 1 (-1)], [ShLin 0%nat 1 1; ShLin 1%nat 1 (-1)], Some SPSU2T_e774);
  (28, 28, [ShLin 0%nat 1 (-1); ShLin 1%nat 1 0], [ShLin 0%nat 1 (-1); ShLin 1%nat 1 0], Some SPSU2T_e474);
  (28, 31, [ShLin 0%nat 1 (-1); ShLin 1%nat 1 0], [ShLin 0%nat 1 1; ShLin 1%nat 1 0], Some SPSU2T_e774);
  (29, 29, [ShLin 0%nat 1 (-1); ShLin 1%nat 1 1], [ShLin 0%nat 1 (-1); ShLin 1%nat 1 1], Some SPSU2T_e474);
  (29, 32, [ShLin 0%nat 1 (-1); ShLin 1%nat 1 1], [ShLin 0%nat 1 1; ShLin 1%nat 1 1], Some SPSU2T_e774);
  (30, 27, [ShLin 0%nat 1 1; ShLin 1%nat 1 (-1)], [ShLin 0%nat 1 (-1); ShLin 1%nat 1 (-1)], Some SPSU2T_e69);
  (30, 30, [ShLin 0%nat 1 1; ShLin 1%nat 1 (-1)], [ShLin 0%nat 1 1; ShLin 1%nat 1 (-1)], Some SPSU2T_e775);
  (31, 28, [ShLin 0%nat 1 1; ShLin 1%nat 1 0], [ShLin 0%nat 1 (-1); ShLin 1%nat 1 0], Some SPSU2T_e69);
  (31, 31, [ShLin 0%nat 1 1; ShLin 1%nat 1 0], [ShLin 0%nat 1 1; ShLin 1%nat 1 0], Some SPSU2T_e776);
  (32, 29, [ShLin 0%nat 1 1; ShLin 1%nat 1 1], [ShLin 0%nat 1 (-1); ShLin 1%nat 1 1], Some SPSU2T_e69);
  (32, 32, [ShLin 0%nat 1 1; ShLin 1%nat 1 1], [ShLin 0%nat 1 1; ShLin 1%nat 1 1], Some SPSU2T_e777);
  (33, 33, [ShLin 0%nat 1 (-1); ShLin 1%nat 1 (-2)], [ShLin 0%nat 1 (-1); ShLin 1%nat 1 (-2)], Some SPSU2T_e63);
  (33, 38, [ShLin 0%nat 1 (-1); ShLin 1%nat 1 (-2)], [ShLin 0%nat 1 1; ShLin 1%nat 1 (-2)], Some SPSU2T_e774);
  (34, 34, [ShLin 0%nat 1 (-1); ShLin 1%nat 1 (-1)], [ShLin 0%nat 1 (-1); ShLin 1%nat 1 (-1)], Some SPSU2T_e474);
  (34, 39, [ShLin 0%nat 1 (-1); ShLin 1%nat 1 (-1)], [ShLin 0%nat 1 1; ShLin 1%nat 1 (-1)], Some SPSU2T_e148);
  (35, 35, [ShLin 0%nat 1 (-1); ShLin 1%nat 1 0], [ShLin 0%nat 1 (-1); ShLin 1%nat 1 0], Some SPSU2T_e474);
  (35, 40, [ShLin 0%nat 1 (-1); ShLin 1%nat 1 0], [ShLin 0%nat 1 1; ShLin 1%nat 1 0], Some SPSU2T_e774);
  (36, 36, [ShLin 0%nat 1 (-1); ShLin 1%nat 1 1], [ShLin 0%nat 1 (-1); ShLin 1%nat 1 1], Some SPSU2T_e778);
  (36, 41, [ShLin 0%nat 1 (-1); ShLin 1%nat 1 1], [ShLin 0%nat 1 1; ShLin 1%nat 1 1], Some SPSU2T_e148);
  (37, 37, [ShLin 0%nat 1 (-1); ShLin 1%nat 1 2], [ShLin 0%nat 1 (-1); ShLin 1%nat 1 2], Some SPSU2T_e779);
  (37, 42, [ShLin 0%nat 1 (-1); ShLin 1%nat 1 2], [ShLin 0%nat 1 1; ShLin 1%nat 1 2], Some SPSU2T_e774);
  (38, 33, [ShLin 0%nat 1 1; ShLin 1%nat 1 (-2)], [ShLin 0%nat 1 (-1); ShLin 1%nat 1 (-2)], Some SPSU2T_e69);
  (38, 38, [ShLin 0%nat 1 1; ShLin 1%nat 1 (-2)], [ShLin 0%nat 1 1; ShLin 1%nat 1 (-2)], Some SPSU2T_e775);
  (39, 34, [ShLin 0%nat 1 1; ShLin 1%nat 1 (-1)], [ShLin 0%nat 1 (-1); ShLin 1%nat 1 (-1)], Some SPSU2T_e69);
  (39, 39, [ShLin 0%nat 1 1; ShLin 1%nat 1 (-1)], [ShLin 0%nat 1 1; ShLin 1%nat 1 (-1)], Some SPSU2T_e776);
  (40, 35, [ShLin 0%nat 1 1; ShLin 1%nat 1 0], [ShLin 0%nat 1 (-1); ShLin 1%nat 1 0], Some SPSU2T_e69);
  (40, 40, [ShLin 0%nat 1 1; ShLin 1%nat 1 0], [ShLin 0%nat 1 1; ShLin 1%nat 1 0], Some SPSU2T_e777);
  (41, 36, [ShLin 0%nat 1 1; ShLin 1%nat 1 1], [ShLin 0%nat 1 (-1); ShLin 1%nat 1 1], Some SPSU2T_e69);
  (41, 41, [ShLin 0%nat 1 1; ShLin 1%nat 1 1], [ShLin 0%nat 1 1; ShLin 1%nat 1 1], Some SPSU2T_e780);
  (42, 37, [ShLin 0%nat 1 1; ShLin 1%nat 1 2], [ShLin 0%nat 1 (-1); ShLin 1%nat 1 2], Some SPSU2T_e781);
  (42, 42, [ShLin 0%nat 1 1; ShLin 1%nat 1 2], [ShLin 0%nat 1 1; ShLin 1%nat 1 2], Some SPSU2T_e777);
  (43, 43, [ShLin 0%nat 1 (-2); ShLin 1%nat 1 (-1)], [ShLin 0%nat 1 (-2); ShLin 1%nat 1 (-1)], Some SPSU2T_e782);
  (43, 46, [ShLin 0%nat 1 (-2); ShLin 1%nat 1 (-1)], [ShLin 0%nat 1 0; ShLin 1%nat 1 (-1)], Some SPSU2T_e783);
  (44, 44, [ShLin 0%nat 1 (-2); ShLin 1%nat 1 0], [ShLin 0%nat 1 (-2); ShLin 1%nat 1 0], Some SPSU2T_e782);
  (44, 47, [ShLin 0%nat 1 (-2); ShLin 1%nat 1 0], [ShLin 0%nat 1 0; ShLin 1%nat 1 0], Some SPSU2T_e783);
  (45, 45, [ShLin 0%nat 1 (-2); ShLin 1%nat 1 1], [ShLin 0%nat 1 (-2); ShLin 1%nat 1 1], Some SPSU2T_e784);
  (45, 48, [ShLin 0%nat 1 (-2); ShLin 1%nat 1 1], [ShLin 0%nat 1 0; ShLin 1%nat 1 1], Some SPSU2T_e785);
  (46, 43, [ShLin 0%nat 1 0; ShLin 1%nat 1 (-1)], [ShLin 0%nat 1 (-2); ShLin 1%nat 1 (-1)], Some (cO (cD (cN 1) (cH 0))));
  (46, 46, [ShLin 0%nat 1 0; ShLin 1%nat 1 (-1)], [ShLin 0%nat 1 0; ShLin 1%nat 1 (-1)], Some SPSU2T_e786);
  (46, 49, [ShLin 0%nat 1 0; ShLin 1%nat 1 (-1)], [ShLin 0%nat 1 2; ShLin 1%nat 1 (-1)], Some SPSU2T_e787);
  (47, 44, [ShLin 0%nat 1 0; ShLin 1%nat 1 0], [ShLin 0%nat 1 (-2); ShLin 1%nat 1 0], Some (cO (cD (cN 1) (cH 0))));
  (47, 47, [ShLin 0%nat 1 0; ShLin 1%nat 1 0], [ShLin 0%nat 1 0; ShLin 1%nat 1 0], Some SPSU2T_e786);
  (47, 50, [ShLin 0%nat 1 0; ShLin 1%nat 1 0], [ShLin 0%nat 1 2; ShLin 1%nat 1 0], Some SPSU2T_e787);
  (48, 45, [ShLin 0%nat 1 0; ShLin 1%nat 1 1], [ShLin 0%nat 1 (-2); ShLin 1%nat 1 1], Some (cO (cD (cN 1) (cH 0))));
  (48, 48, [ShLin 0%nat 1 0; ShLin 1%nat 1 1], [ShLin 0%nat 1 0; ShLin 1%nat 1 1], Some SPSU2T_e786);
  (48, 51, [ShLin 0%nat 1 0; ShLin 1%nat 1 1], [ShLin 0%nat 1 2; ShLin 1%nat 1 1], Some SPSU2T_e787);
  (49, 46, [ShLin 0%nat 1 2; ShLin 1%nat 1 (-1)], [ShLin 0%nat 1 0; ShLin 1%nat 1 (-1)], Some SPSU2T_e788);
  (49, 49, [ShLin 0%nat 1 2; ShLin 1%nat 1 (-1)], [ShLin 0%nat 1 2; ShLin 1%nat 1 (-1)], Some SPSU2T_e789);
  (50, 47, [ShLin 0%nat 1 2; ShLin 1%nat 1 0], [ShLin 0%nat 1 0; ShLin 1%nat 1 0], Some SPSU2T_e790);
  (50, 50, [ShLin 0%nat 1 2; ShLin 1%nat 1 0], [ShLin 0%nat 1 2; ShLin 1%nat 1 0], Some SPSU2T_e791);
  (51, 48, [ShLin 0%nat 1 2; ShLin 1%nat 1 1], [ShLin 0%nat 1 0; ShLin 1%nat 1 1], Some SPSU2T_e788);
  (51, 51, [ShLin 0%nat 1 2; ShLin 1%nat 1 1], [ShLin 0%nat 1 2; ShLin 1%nat 1 1], Some SPSU2T_e791);
  (52, 52, [ShLin 0%nat 1 (-2); ShLin 1%nat 1 (-1)], [ShLin 0%nat 1 (-2); ShLin 1%nat 1 (-1)], Some SPSU2T_e782);
  (52, 55, [ShLin 0%nat 1 (-2); ShLin 1%nat 1 (-1)], [ShLin 0%nat 1 0; ShLin 1%nat 1 (-1)], Some SPSU2T_e783);
  (53, 53, [ShLin 0%nat 1 (-2); ShLin 1%nat 1 0], [ShLin 0%nat 1 (-2); ShLin 1%nat 1 0], Some SPSU2T_e782);
  (53, 56, [ShLin 0%nat 1 (-2); ShLin 1%nat 1 0], [ShLin 0%nat 1 0; ShLin 1%nat 1 0], Some SPSU2T_e783);
  (54, 54, [ShLin 0%nat 1 (-2); ShLin 1%nat 1 1], [ShLin 0%nat 1 (-2); ShLin 1%nat 1 1], Some SPSU2T_e784);
  (54, 57, [ShLin 0%nat 1 (-2); ShLin 1%nat 1 1], [ShLin 0%nat 1 0; ShLin 1%nat 1 1], Some SPSU2T_e785);
  (55, 52, [ShLin 0%nat 1 0; ShLin 1%nat 1 (-1)], [ShLin 0%nat 1 (-2); ShLin 1%nat 1 (-1)], Some (cO (cD (cN 1) (cH 0))));
  (55, 55, [ShLin 0%nat 1 0; ShLin 1%nat 1 (-1)], [ShLin 0%nat 1 0; ShLin 1%nat 1 (-1)], Some SPSU2T_e786);
  (55, 58, [ShLin 0%nat 1 0; ShLin 1%nat 1 (-1)], [ShLin 0%nat 1 2; ShLin 1%nat 1 (-1)], Some SPSU2T_e787);
  (56, 53, [ShLin 0%nat 1 0; ShLin 1%nat 1 0], [ShLin 0%nat 1 (-2); ShLin 1%nat 1 0], Some (cO (cD (cN 1) (cH 0))));
  (56, 56, [ShLin 0%nat 1 0; ShLin 1%nat 1 0], [ShLin 0%nat 1 0; ShLin 1%nat 1 0], Some SPSU2T_e786);
  (56, 59, [ShLin 0%nat 1 0; ShLin 1%nat 1 0], [ShLin 0%nat 1 2; ShLin 1%nat 1 0], Some SPSU2T_e787);
  (57, 54, [ShLin 0%nat 1 0; ShLin 1%nat 1 1], [ShLin 0%nat 1 (-2); ShLin 1%nat 1 1], Some (cO (cD (cN 1) (cH 0))));
  (57, 57, [ShLin 0%nat 1 0; ShLin 1%nat 1 1], [ShLin 0%nat 1 0; ShLin 1%nat 1 1], Some SPSU2T_e786);
  (57, 60, [ShLin 0%nat 1 0; ShLin 1%nat 1 1], [ShLin 0%nat 1 2; ShLin 1%nat 1 1], Some SPSU2T_e787);
  (58, 55, [ShLin 0%nat 1 2; ShLin 1%nat 1 (-1)], [ShLin 0%nat 1 0; ShLin 1%nat 1 (-1)], Some SPSU2T_e788);
  (58, 58, [ShLin 0%nat 1 2; ShLin 1%nat 1 (-1)], [ShLin 0%nat 1 2; ShLin 1%nat 1 (-1)], Some SPSU2T_e789);
  (59, 56, [ShLin 0%nat 1 2; ShLin 1%nat 1 0], [ShLin 0%nat 1 0; ShLin 1%nat 1 0], Some SPSU2T_e790);
  (59, 59, [ShLin 0%nat 1 2; ShLin 1%nat 1 0], [ShLin 0%nat 1 2; ShLin 1%nat 1 0], Some SPSU2T_e791);
  (60, 57, [ShLin 0%nat 1 2; ShLin 1%nat 1 1], [ShLin 0%nat 1 0; ShLin 1%nat 1 1], Some SPSU2T_e788);
  (60, 60, [ShLin 0%nat 1 2; ShLin 1%nat 1 1], [ShLin 0%nat 1 2; ShLin 1%nat 1 1], Some SPSU2T_e791);
  (61, 61, [ShLin 0%nat 1 (-3); ShLin 1%nat 1 0], [ShLin 0%nat 1 (-3); ShLin 1%nat 1 0], Some SPSU2T_e792);
  (61, 62, [ShLin 0%nat 1 (-3); ShLin 1%nat 1 0], [ShLin 0%nat 1 (-1); ShLin 1%nat 1 0], Some SPSU2T_e793);
  (62, 61, [ShLin 0%nat 1 (-1); ShLin 1%nat 1 0], [ShLin 0%nat 1 (-3); ShLin 1%nat 1 0], Some SPSU2T_e794);
  (62, 62, [ShLin 0%nat 1 (-1); ShLin 1%nat 1 0], [ShLin 0%nat 1 (-1); ShLin 1%nat 1 0], Some SPSU2T_e795);
  (62, 63, [ShLin 0%nat 1 (-1); ShLin 1%nat 1 0], [ShLin 0%nat 1 1; ShLin 1%nat 1 0], Some SPSU2T_e796);
  (63, 62, [ShLin 0%nat 1 1; ShLin 1%nat 1 0], [ShLin 0%nat 1 (-1); ShLin 1%nat 1 0], Some SPSU2T_e797);
  (63, 63, [ShLin 0%nat 1 1; ShLin 1%nat 1 0], [ShLin 0%nat 1 1; ShLin 1%nat 1 0], Some SPSU2T_e798);
  (63, 64, [ShLin 0%nat 1 1; ShLin 1%nat 1 0], [ShLin 0%nat 1 3; ShLin 1%nat 1 0], Some SPSU2T_e799);
  (64, 63, [ShLin 0%nat 1 3; ShLin 1%nat 1 0], [ShLin 0%nat 1 1; ShLin 1%nat 1 0], Some SPSU2T_e800);
  (64, 64, [ShLin 0%nat 1 3; ShLin 1%nat 1 0], [ShLin 0%nat 1 3; ShLin 1%nat 1 0], Some SPSU2T_e801)].
(** /repo/c++/symmetry/nrg-recalc-SPSU2T.hpp recalc_triplet, spsu2t/spsu2t-tripletp.dat *)
Definition spsu2t_t13 : ten_table := mk_ten "triplet" [ShLin 0%nat 1 2; ShLin 1%nat 1 0] [3; 0] [
  (1, 1, [ShLin 0%nat 1 0; ShLin 1%nat 1 0], [ShLin 0%nat 1 2; ShLin 1%nat 1 0], Some (cN 1));
  (2, 2, [ShLin 0%nat 1 0; ShLin 1%nat 1 0], [ShLin 0%nat 1 2; ShLin 1%nat 1 0], Some (cN 1));
  (3, 3, [ShLin 0%nat 1 0; ShLin 1%nat 1 0], [ShLin 0%nat 1 2; ShLin 1%nat 1 0], Some (cN 1));
  (4, 4, [ShLin 0%nat 1 0; ShLin 1%nat 1 0], [ShLin 0%nat 1 2; ShLin 1%nat 1 0], Some (cN 1));
  (5, 5, [ShLin 0%nat 1 0; ShLin 1%nat 1 (-2)], [ShLin 0%nat 1 2; ShLin 1%nat 1 (-2)], Some (cN 1));
  (6, 6, [ShLin 0%nat 1 0; ShLin 1%nat 1 (-1)], [ShLin 0%nat 1 2; ShLin 1%nat 1 (-1)], Some (cN 1));
  (7, 7, [ShLin 0%nat 1 0; ShLin 1%nat 1 0], [ShLin 0%nat 1 2; ShLin 1%nat 1 0], Some (cN 1));
  (8, 8, [ShLin 0%nat 1 0; ShLin 1%nat 1 1], [ShLin 0%nat 1 2; ShLin 1%nat 1 1], Some (cN 1));
  (9, 9, [ShLin 0%nat 1 0; ShLin 1%nat 1 2], [ShLin 0%nat 1 2; ShLin 1%nat 1 2], Some (cN 1));
  (10, 10, [ShLin 0%nat 1 0; ShLin 1%nat 1 (-2)], [ShLin 0%nat 1 2; ShLin 1%nat 1 (-2)], Some (cN 1));
  (11, 11, [ShLin 0%nat 1 0; ShLin 1%nat 1 (-1)], [ShLin 0%nat 1 2; ShLin 1%nat 1 (-1)], Some (cN 1));
  (12, 12, [ShLin 0%nat 1 0; ShLin 1%nat 1 0], [ShLin 0%nat 1 2; ShLin 1%nat 1 0], Some (cN 1));
  (13, 13, [ShLin 0%nat 1 0; ShLin 1%nat 1 1], [ShLin 0%nat 1 2; ShLin 1%nat 1 1], Some (cN 1));
  (14, 14, [ShLin 0%nat 1 0; ShLin 1%nat 1 2], [ShLin 0%nat 1 2; ShLin 1%nat 1 2], Some (cN 1));
  (15, 15, [ShLin 0%nat 1 (-1); ShLin 1%nat 1 (-1)], [ShLin 0%nat 1 1; ShLin 1%nat 1 (-1)], Some SPSU2T_e802);
  (16, 16, [ShLin 0%nat 1 (-1); ShLin 1%nat 1 0], [ShLin 0%nat 1 1; ShLin 1%nat 1 0], Some SPSU2T_e802);
  (17, 17, [ShLin 0%nat 1 (-1); ShLin 1%nat 1 1], [ShLin 0%nat 1 1; ShLin 1%nat 1 1], Some SPSU2T_e803);
  (18, 15, [ShLin 0%nat 1 1; ShLin 1%nat 1 (-1)], [ShLin 0%nat 1 1; ShLin 1%nat 1 (-1)], Some SPSU2T_e81);
  (18, 18, [ShLin 0%nat 1 1; ShLin 1%nat 1 (-1)], [ShLin 0%nat 1 3; ShLin 1%nat 1 (-1)], Some (cN 1));
  (19, 16, [ShLin 0%nat 1 1; ShLin 1%nat 1 0], [ShLin 0%nat 1 1; ShLin 1%nat 1 0], Some SPSU2T_e418);
  (19, 19, [ShLin 0%nat 1 1; ShLin 1%nat 1 0], [ShLin 0%nat 1 3; ShLin 1%nat 1 0], Some (cN 1));
  (20, 17, [ShLin 0%nat 1 1; ShLin 1%nat 1 1], [ShLin 0%nat 1 1; ShLin 1%nat 1 1], Some SPSU2T_e81);
  (20, 20, [ShLin 0%nat 1 1; ShLin 1%nat 1 1], [ShLin 0%nat 1 3; ShLin 1%nat 1 1], Some (cN 1));
  (21, 21, [ShLin 0%nat 1 (-1); ShLin 1%nat 1 (-1)], [ShLin 0%nat 1 1; ShLin 1%nat 1 (-1)], Some SPSU2T_e802);
  (22, 22, [ShLin 0%nat 1 (-1); ShLin 1%nat 1 0], [ShLin 0%nat 1 1; ShLin 1%nat 1 0], Some SPSU2T_e802);
  (23, 23, [ShLin 0%nat 1 (-1); ShLin 1%nat 1 1], [ShLin 0%nat 1 1; ShLin 1%nat 1 1], Some SPSU2T_e803);
  (24, 21, [ShLin 0%nat 1 1; ShLin 1%nat 1 (-1)], [ShLin 0%nat 1 1; ShLin 1%nat 1 (-1)], Some SPSU2T_e81);
  (24, 24, [ShLin 0%nat 1 1; ShLin 1%nat 1 (-1)], [ShLin 0%nat 1 3; ShLin 1%nat 1 (-1)], Some (cN 1));
  (25, 22, [ShLin 0%nat 1 1; ShLin 1%nat 1 0], [ShLin 0%nat 1 1; ShLin 1%nat 1 0], Some SPSU2T_e418);
  (25, 25, [ShLin 0%nat 1 1; ShLin 1%nat 1 0], [ShLin 0%nat 1 3; ShLin 1%nat 1 0], Some (cN 1));
  (26, 23, [ShLin 0%nat 1 1; ShLin 1%nat 1 1], [ShLin 0%nat 1 1; ShLin 1%nat 1 1], Some SPSU2T_e81);
  (26, 26, [ShLin 0%nat 1 1; ShLin 1%nat 1 1], [ShLin 0%nat 1 3; ShLin 1%nat 1 1], Some (cN 1));
  (27, 27, [ShLin 0%nat 1 (-1); ShLin 1%nat 1 (-1)], [ShLin 0%nat 1 1; ShLin 1%nat 1 (-1)], Some SPSU2T_e802);
  (28, 28, [ShLin 0%nat 1 (-1); ShLin 1%nat 1 0], [ShLin 0%nat 1 1; ShLin 1%nat 1 0], Some SPSU2T_e802);
  (29, 29, [ShLin 0%nat 1 (-1); ShLin 1%nat 1 1], [ShLin 0%nat 1 1; ShLin 1%nat 1 1], Some SPSU2T_e803);
  (30, 27, [ShLin 0%nat 1 1; ShLin 1%nat 1 (-1)], [ShLin 0%nat 1 1; ShLin 1%nat 1 (-1)], Some SPSU2T_e81);
  (30, 30, [ShLin 0%nat 1 1; ShLin 1%nat 1 (-1)], [ShLin 0%nat 1 3; ShLin 1%nat 1 (-1)], Some (cN 1));
  (31, 28, [ShLin 0%nat 1 1; ShLin 1%nat 1 0], [ShLin 0%nat 1 1; ShLin 1%nat 1 0], Some SPSU2T_e418);
  (31, 31, [ShLin 0%nat 1 1; ShLin 1%nat 1 0], [ShLin 0%nat 1 3; ShLin 1%nat 1 0], Some (cN 1));
  (32, 29, [ShLin 0%nat 1 1; ShLin 1%nat 1 1], [ShLin 0%nat 1 1; ShLin 1%nat 1 1], Some SPSU2T_e81);
  (32, 32, [ShLin 0%nat 1 1; ShLin 1%nat 1 1], [ShLin 0%nat 1 3; ShLin 1%nat 1 1], Some (cN 1));
  (33, 33, [ShLin 0%nat 1 (-1); ShLin 1%nat 1 (-2)], [ShLin 0%nat 1 1; ShLin 1%nat 1 (-2)], Some SPSU2T_e802);
  (34, 34, [ShLin 0%nat 1 (-1); ShLin 1%nat 1 (-1)], [ShLin 0%nat 1 1; ShLin 1%nat 1 (-1)], Some SPSU2T_e804);
  (35, 35, [ShLin 0%nat 1 (-1); ShLin 1%nat 1 0], [ShLin 0%nat 1 1; ShLin 1%nat 1 0], Some SPSU2T_e805);
  (36, 36, [ShLin 0%nat 1 (-1); ShLin 1%nat 1 1], [ShLin 0%nat 1 1; ShLin 1%nat 1 1], Some SPSU2T_e806);
  (37, 37, [ShLin 0%nat 1 (-1); ShLin 1%nat 1 2], [ShLin 0%nat 1 1; ShLin 1%nat 1 2], Some SPSU2T_e807);
  (38, 33, [ShLin 0%nat 1 1; ShLin 1%nat 1 (-2)], [ShLin 0%nat 1 1; ShLin 1%nat 1 (-2)], Some SPSU2T_e81);
  (38, 38, [ShLin 0%nat 1 1; ShLin 1%nat 1 (-2)], [ShLin 0%nat 1 3; ShLin 1%nat 1 (-2)], Some (cN 1));
  (39, 34, [ShLin 0%nat 1 1; ShLin 1%nat 1 (-1)], [ShLin 0%nat 1 1; ShLin 1%nat 1 (-1)], Some SPSU2T_e418);
  (39, 39, [ShLin 0%nat 1 1; ShLin 1%nat 1 (-1)], [ShLin 0%nat 1 3; ShLin 1%nat 1 (-1)], Some (cN 1));
  (40, 35, [ShLin 0%nat 1 1; ShLin 1%nat 1 0], [ShLin 0%nat 1 1; ShLin 1%nat 1 0], Some SPSU2T_e418);
  (40, 40, [ShLin 0%nat 1 1; ShLin 1%nat 1 0], [ShLin 0%nat 1 3; ShLin 1%nat 1 0], Some (cN 1));
  (41, 36, [ShLin 0%nat 1 1; ShLin 1%nat 1 1], [ShLin 0%nat 1 1; ShLin 1%nat 1 1], Some SPSU2T_e808);
  (41, 41, [ShLin 0%nat 1 1; ShLin 1%nat 1 1], [ShLin 0%nat 1 3; ShLin 1%nat 1 1], Some (cN 1));
  (42, 37, [ShLin 0%nat 1 1; ShLin 1%nat 1 2], [ShLin 0%nat 1 1; ShLin 1%nat 1 2], Some SPSU2T_e418);
  (42, 42, [ShLin 0%nat 1 1; ShLin 1%nat 1 2], [ShLin 0%nat 1 3; ShLin 1%nat 1 2], Some (cN 1));
  (43, 43, [ShLin 0%nat 1 (-2); ShLin 1%nat 1 (-1)], [ShLin 0%nat 1 0; ShLin 1%nat 1 (-1)], Some SPSU2T_e809);
  (44, 44, [ShLin 0%nat 1 (-2); ShLin 1%nat 1 0], [ShLin 0%nat 1 0; ShLin 1%nat 1 0], Some SPSU2T_e809);
  (45, 45, [ShLin 0%nat 1 (-2); ShLin 1%nat 1 1], [ShLin 0%nat 1 0; ShLin 1%nat 1 1], Some SPSU2T_e810);
  (46, 43, [ShLin 0%nat 1 0; ShLin 1%nat 1 (-1)], [ShLin 0%nat 1 0; ShLin 1%nat 1 (-1)], Some SPSU2T_e811);
  (46, 46, [ShLin 0%nat 1 0; ShLin 1%nat 1 (-1)], [ShLin 0%nat 1 2; ShLin 1%nat 1 (-1)], Some SPSU2T_e812);
  (47, 44, [ShLin 0%nat 1 0; ShLin 1%nat 1 0], [ShLin 0%nat 1 0; ShLin 1%nat 1 0], Some SPSU2T_e811);
  (47, 47, [ShLin 0%nat 1 0; ShLin 1%nat 1 0], [ShLin 0%nat 1 2; ShLin 1%nat 1 0], Some SPSU2T_e791);
  (48, 45, [ShLin 0%nat 1 0; ShLin 1%nat 1 1], [ShLin 0%nat 1 0; ShLin 1%nat 1 1], Some SPSU2T_e811);
  (48, 48, [ShLin 0%nat 1 0; ShLin 1%nat 1 1], [ShLin 0%nat 1 2; ShLin 1%nat 1 1], Some SPSU2T_e791);
  (49, 43, [ShLin 0%nat 1 2; ShLin 1%nat 1 (-1)], [ShLin 0%nat 1 0; ShLin 1%nat 1 (-1)], Some SPSU2T_e813);
  (49, 46, [ShLin 0%nat 1 2; ShLin 1%nat 1 (-1)], [ShLin 0%nat 1 2; ShLin 1%nat 1 (-1)], Some SPSU2T_e814);
  (49, 49, [ShLin 0%nat 1 2; ShLin 1%nat 1 (-1)], [ShLin 0%nat 1 4; ShLin 1%nat 1 (-1)], Some (cN 1));
  (50, 44, [ShLin 0%nat 1 2; ShLin 1%nat 1 0], [ShLin 0%nat 1 0; ShLin 1%nat 1 0], Some SPSU2T_e813);
  (50, 47, [ShLin 0%nat 1 2; ShLin 1%nat 1 0], [ShLin 0%nat 1 2; ShLin 1%nat 1 0], Some SPSU2T_e814);
  (50, 50, [ShLin 0%nat 1 2; ShLin 1%nat 1 0], [ShLin 0%nat 1 4; ShLin 1%nat 1 0], Some (cN 1));
  (51, 45, [ShLin 0%nat 1 2; ShLin 1%nat 1 1], [ShLin 0%nat 1 0; ShLin 1%nat 1 1], Some SPSU2T_e813);
  (51, 48, [ShLin 0%nat 1 2; ShLin 1%nat 1 1], [ShLin 0%nat 1 2; ShLin 1%nat 1 1], Some SPSU2T_e814);
  (51, 51, [ShLin 0%nat 1 2; ShLin 1%nat 1 1], [ShLin 0%nat 1 4; ShLin 1%nat 1 1], Some (cN 1));
  (52, 52, [ShLin 0%nat 1 (-2); ShLin 1%nat 1 (-1)], [ShLin 0%nat 1 0; ShLin 1%nat 1 (-1)], Some SPSU2T_e809);
  (53, 53, [ShLin 0%nat 1 (-2); ShLin 1%nat 1 0], [ShLin 0%nat 1 0; ShLin 1%nat 1 0], Some SPSU2T_e809);
  (54, 54, [ShLin 0%nat 1 (-2); ShLin 1%nat 1 1], [ShLin 0%nat 1 0; ShLin 1%nat 1 1], Some SPSU2T_e810);
  (55, 52, [ShLin 0%nat 1 0; ShLin 1%nat 1 (-1)], [ShLin 0%nat 1 0; ShLin 1%nat 1 (-1)], Some SPSU2T_e811);
  (55, 55, [ShLin 0%nat 1 0; ShLin 1%nat 1 (-1)], [ShLin 0%nat 1 2; ShLin 1%nat 1 (-1)], Some SPSU2T_e812);
  (56, 53, [ShLin 0%nat 1 0; ShLin 1%nat 1 0], [ShLin 0%nat 1 0; ShLin 1%nat 1 0], Some SPSU2T_e811);
  (56, 56, [ShLin 0%nat 1 0; ShLin 1%nat 1 0], [ShLin 0%nat 1 2; ShLin 1%nat 1 0], Some SPSU2T_e791);
  (57, 54, [ShLin 0%nat 1 0; ShLin 1%nat 1 1], [ShLin 0%nat 1 0; ShLin 1%nat 1 1], Some SPSU2T_e811);
  (57, 57, [ShLin 0%nat 1 0; ShLin 1%nat 1 1], [ShLin 0%nat 1 2; ShLin 1%nat 1 1], Some SPSU2T_e791);
  (58, 52, [ShLin 0%nat 1 2; ShLin 1%nat 1 (-1)], [ShLin 0%nat 1 0; ShLin 1%nat 1 (-1)], Some SPSU2T_e813);
  (58, 55, [ShLin 0%nat 1 2; ShLin 1%nat 1 (-1)], [ShLin 0%nat 1 2; ShLin 1%nat 1 (-1)], Some SPSU2T_e814);
  (58, 58, [ShLin 0%nat 1 2; ShLin 1%nat 1 (-1)], [ShLin 0%nat 1 4; ShLin 1%nat 1 (-1)], Some (cN 1));
  (59, 53, [ShLin 0%nat 1 2; ShLin 1%nat 1 0], [ShLin 0%nat 1 0; ShLin 1%nat 1 0], Some SPSU2T_e813);
  (59, 56, [ShLin 0%nat 1 2; ShLin 1%nat 1 0], [ShLin 0%nat 1 2; ShLin 1%nat 1 0], Some SPSU2T_e814);
  (59, 59, [ShLin 0%nat 1 2; ShLin 1%nat 1 0], [ShLin 0%nat 1 4; ShLin 1%nat 1 0], Some (cN 1));
  (60, 54, [ShLin 0%nat 1 2; ShLin 1%nat 1 1], [ShLin 0%nat 1 0; ShLin 1%nat 1 1], Some SPSU2T_e813);
  (60, 57, [ShLin 0%nat 1 2; ShLin 1%nat 1 1], [ShLin 0%nat 1 2; ShLin 1%nat 1 1], Some SPSU2T_e814);
  (60, 60, [ShLin 0%nat 1 2; ShLin 1%nat 1 1], [ShLin 0%nat 1 4; ShLin 1%nat 1 1], Some (cN 1));
  (61, 61, [ShLin 0%nat 1 (-3); ShLin 1%nat 1 0], [ShLin 0%nat 1 (-1); ShLin 1%nat 1 0], Some SPSU2T_e815);
  (62, 61, [ShLin 0%nat 1 (-1); ShLin 1%nat 1 0], [ShLin 0%nat 1 (-1); ShLin 1%nat 1 0], Some SPSU2T_e816);
  (62, 62, [ShLin 0%nat 1 (-1); ShLin 1%nat 1 0], [ShLin 0%nat 1 1; ShLin 1%nat 1 0], Some SPSU2T_e817);
  (63, 61, [ShLin 0%nat 1 1; ShLin 1%nat 1 0], [ShLin 0%nat 1 (-1); ShLin 1%nat 1 0], Some SPSU2T_e818);
  (63, 62, [ShLin 0%nat 1 1; ShLin 1%nat 1 0], [ShLin 0%nat 1 1; ShLin 1%nat 1 0], Some SPSU2T_e819);
  (63, 63, [ShLin 0%nat 1 1; ShLin 1%nat 1 0], [ShLin 0%nat 1 3; ShLin 1%nat 1 0], Some SPSU2T_e820);
  (64, 62, [ShLin 0%nat 1 3; ShLin 1%nat 1 0], [ShLin 0%nat 1 1; ShLin 1%nat 1 0], Some SPSU2T_e821);
  (64, 63, [ShLin 0%nat 1 3; ShLin 1%nat 1 0], [ShLin 0%nat 1 3; ShLin 1%nat 1 0], Some SPSU2T_e822);
  (64, 64, [ShLin 0%nat 1 3; ShLin 1%nat 1 0], [ShLin 0%nat 1 5; ShLin 1%nat 1 0], Some SPSU2T_e823)].
(** /repo/c++/symmetry/nrg-recalc-SPSU2T.hpp recalc_triplet, spsu2t/spsu2t-tripletm.dat *)
Definition spsu2t_t14 : ten_table := mk_ten "triplet" [ShLin 0%nat 1 (-2); ShLin 1%nat 1 0] [3; 0] [
  (1, 1, [ShLin 0%nat 1 0; ShLin 1%nat 1 0], [ShLin 0%nat 1 (-2); ShLin 1%nat 1 0], Some (cN 1));
  (2, 2, [ShLin 0%nat 1 0; ShLin 1%nat 1 0], [ShLin 0%nat 1 (-2); ShLin 1%nat 1 0], Some (cN 1));
  (3, 3, [ShLin 0%nat 1 0; ShLin 1%nat 1 0], [ShLin 0%nat 1 (-2); ShLin 1%nat 1 0], Some (cN 1));
  (4, 4, [ShLin 0%nat 1 0; ShLin 1%nat 1 0], [ShLin 0%nat 1 (-2); ShLin 1%nat 1 0], Some (cN 1));
  (5, 5, [ShLin 0%nat 1 0; ShLin 1%nat 1 (-2)], [ShLin 0%nat 1 (-2); ShLin 1%nat 1 (-2)], Some (cN 1));
  (6, 6, [ShLin 0%nat 1 0; ShLin 1%nat 1 (-1)], [ShLin 0%nat 1 (-2); ShLin 1%nat 1 (-1)], Some (cN 1));
  (7, 7, [ShLin 0%nat 1 0; ShLin 1%nat 1 0], [ShLin 0%nat 1 (-2); ShLin 1%nat 1 0], Some (cN 1));
  (8, 8, [ShLin 0%nat 1 0; ShLin 1%nat 1 1], [ShLin 0%nat 1 (-2); ShLin 1%nat 1 1], Some (cN 1));
  (9, 9, [ShLin 0%nat 1 0; ShLin 1%nat 1 2], [ShLin 0%nat 1 (-2); ShLin 1%nat 1 2], Some (cN 1));
  (10, 10, [ShLin 0%nat 1 0; ShLin 1%nat 1 (-2)], [ShLin 0%nat 1 (-2); ShLin 1%nat 1 (-2)], Some (cN 1));
  (11, 11, [ShLin 0%nat 1 0; ShLin 1%nat 1 (-1)], [ShLin 0%nat 1 (-2); ShLin 1%nat 1 (-1)], Some (cN 1));
  (12, 12, [ShLin 0%nat 1 0; ShLin 1%nat 1 0], [ShLin 0%nat 1 (-2); ShLin 1%nat 1 0], Some (cN 1));
  (13, 13, [ShLin 0%nat 1 0; ShLin 1%nat 1 1], [ShLin 0%nat 1 (-2); ShLin 1%nat 1 1], Some (cN 1));
  (14, 14, [ShLin 0%nat 1 0; ShLin 1%nat 1 2], [ShLin 0%nat 1 (-2); ShLin 1%nat 1 2], Some (cN 1));
  (15, 15, [ShLin 0%nat 1 (-1); ShLin 1%nat 1 (-1)], [ShLin 0%nat 1 (-3); ShLin 1%nat 1 (-1)], Some (cN 1));
  (15, 18, [ShLin 0%nat 1 (-1); ShLin 1%nat 1 (-1)], [ShLin 0%nat 1 (-1); ShLin 1%nat 1 (-1)], Some SPSU2T_e138);
  (16, 16, [ShLin 0%nat 1 (-1); ShLin 1%nat 1 0], [ShLin 0%nat 1 (-3); ShLin 1%nat 1 0], Some (cN 1));
  (16, 19, [ShLin 0%nat 1 (-1); ShLin 1%nat 1 0], [ShLin 0%nat 1 (-1); ShLin 1%nat 1 0], Some SPSU2T_e138);
  (17, 17, [ShLin 0%nat 1 (-1); ShLin 1%nat 1 1], [ShLin 0%nat 1 (-3); ShLin 1%nat 1 1], Some (cN 1));
  (17, 20, [ShLin 0%nat 1 (-1); ShLin 1%nat 1 1], [ShLin 0%nat 1 (-1); ShLin 1%nat 1 1], Some SPSU2T_e138);
  (18, 18, [ShLin 0%nat 1 1; ShLin 1%nat 1 (-1)], [ShLin 0%nat 1 (-1); ShLin 1%nat 1 (-1)], Some SPSU2T_e824);
  (19, 19, [ShLin 0%nat 1 1; ShLin 1%nat 1 0], [ShLin 0%nat 1 (-1); ShLin 1%nat 1 0], Some SPSU2T_e825);
  (20, 20, [ShLin 0%nat 1 1; ShLin 1%nat 1 1], [ShLin 0%nat 1 (-1); ShLin 1%nat 1 1], Some SPSU2T_e826);
  (21, 21, [ShLin 0%nat 1 (-1); ShLin 1%nat 1 (-1)], [ShLin 0%nat 1 (-3); ShLin 1%nat 1 (-1)], Some (cN 1));
  (21, 24, [ShLin 0%nat 1 (-1); ShLin 1%nat 1 (-1)], [ShLin 0%nat 1 (-1); ShLin 1%nat 1 (-1)], Some SPSU2T_e138);
  (22, 22, [ShLin 0%nat 1 (-1); ShLin 1%nat 1 0], [ShLin 0%nat 1 (-3); ShLin 1%nat 1 0], Some (cN 1));
  (22, 25, [ShLin 0%nat 1 (-1); ShLin 1%nat 1 0], [ShLin 0%nat 1 (-1); ShLin 1%nat 1 0], Some SPSU2T_e138);
  (23, 23, [ShLin 0%nat 1 (-1); ShLin 1%nat 1 1], [ShLin 0%nat 1 (-3); ShLin 1%nat 1 1], Some (cN 1));
  (23, 26, [ShLin 0%nat 1 (-1); ShLin 1%nat 1 1], [ShLin 0%nat 1 (-1); ShLin 1%nat 1 1], Some SPSU2T_e138);
  (24, 24, [ShLin 0%nat 1 1; ShLin 1%nat 1 (-1)], [ShLin 0%nat 1 (-1); ShLin 1%nat 1 (-1)], Some SPSU2T_e824);
  (25, 25, [ShLin 0%nat 1 1; ShLin 1%nat 1 0], [ShLin 0%nat 1 (-1); ShLin 1%nat 1 0], Some SPSU2T_e825);
  (26, 26, [ShLin 0%nat 1 1; ShLin 1%nat 1 1], [ShLin 0%nat 1 (-1); ShLin 1%nat 1 1], Some SPSU2T_e826);
  (27, 27, [ShLin 0%nat 1 (-1); ShLin 1%nat 1 (-1)], [ShLin 0%nat 1 (-3); ShLin 1%nat 1 (-1)], Some (cN 1));
  (27, 30, [ShLin 0%nat 1 (-1); ShLin 1%nat 1 (-1)], [ShLin 0%nat 1 (-1); ShLin 1%nat 1 (-1)], Some SPSU2T_e138);
  (28, 28, [ShLin 0%nat 1 (-1); ShLin 1%nat 1 0], [ShLin 0%nat 1 (-3); ShLin 1%nat 1 0], Some (cN 1));
  (28, 31, [ShLin 0%nat 1 (-1); ShLin 1%nat 1 0], [ShLin 0%nat 1 (-1); ShLin 1%nat 1 0], Some SPSU2T_e138);
  (29, 29, [ShLin 0%nat 1 (-1); ShLin 1%nat 1 1], [ShLin 0%nat 1 (-3); ShLin 1%nat 1 1], Some (cN 1));
  (29, 32, [ShLin 0%nat 1 (-1); ShLin 1%nat 1 1], [ShLin 0%nat 1 (-1); ShLin 1%nat 1 1], Some SPSU2T_e138);
  (30, 30, [ShLin 0%nat 1 1; ShLin 1%nat 1 (-1)], [ShLin 0%nat 1 (-1); ShLin 1%nat 1 (-1)], Some SPSU2T_e824);
  (31, 31, [ShLin 0%nat 1 1; ShLin 1%nat 1 0], [ShLin 0%nat 1 (-1); ShLin 1%nat 1 0], Some SPSU2T_e825);
  (32, 32, [ShLin 0%nat 1 1; ShLin 1%nat 1 1], [ShLin 0%nat 1 (-1); ShLin 1%nat 1 1], Some SPSU2T_e826);
  (33, 33, [ShLin 0%nat 1 (-1); ShLin 1%nat 1 (-2)], [ShLin 0%nat 1 (-3); ShLin 1%nat 1 (-2)], Some (cN 1));
  (33, 38, [ShLin 0%nat 1 (-1); ShLin 1%nat 1 (-2)], [ShLin 0%nat 1 (-1); ShLin 1%nat 1 (-2)], Some SPSU2T_e138);
  (34, 34, [ShLin 0%nat 1 (-1); ShLin 1%nat 1 (-1)], [ShLin 0%nat 1 (-3); ShLin 1%nat 1 (-1)], Some (cN 1));
  (34, 39, [ShLin 0%nat 1 (-1); ShLin 1%nat 1 (-1)], [ShLin 0%nat 1 (-1); ShLin 1%nat 1 (-1)], Some SPSU2T_e138);
  (35, 35, [ShLin 0%nat 1 (-1); ShLin 1%nat 1 0], [ShLin 0%nat 1 (-3); ShLin 1%nat 1 0], Some (cN 1));
  (35, 40, [ShLin 0%nat 1 (-1); ShLin 1%nat 1 0], [ShLin 0%nat 1 (-1); ShLin 1%nat 1 0], Some SPSU2T_e138);
  (36, 36, [ShLin 0%nat 1 (-1); ShLin 1%nat 1 1], [ShLin 0%nat 1 (-3); ShLin 1%nat 1 1], Some (cN 1));
  (36, 41, [ShLin 0%nat 1 (-1); ShLin 1%nat 1 1], [ShLin 0%nat 1 (-1); ShLin 1%nat 1 1], Some SPSU2T_e827);
  (37, 37, [ShLin 0%nat 1 (-1); ShLin 1%nat 1 2], [ShLin 0%nat 1 (-3); ShLin 1%nat 1 2], Some (cN 1));
  (37, 42, [ShLin 0%nat 1 (-1); ShLin 1%nat 1 2], [ShLin 0%nat 1 (-1); ShLin 1%nat 1 2], Some SPSU2T_e828);
  (38, 38, [ShLin 0%nat 1 1; ShLin 1%nat 1 (-2)], [ShLin 0%nat 1 (-1); ShLin 1%nat 1 (-2)], Some SPSU2T_e824);
  (39, 39, [ShLin 0%nat 1 1; ShLin 1%nat 1 (-1)], [ShLin 0%nat 1 (-1); ShLin 1%nat 1 (-1)], Some SPSU2T_e829);
  (40, 40, [ShLin 0%nat 1 1; ShLin 1%nat 1 0], [ShLin 0%nat 1 (-1); ShLin 1%nat 1 0], Some SPSU2T_e830);
  (41, 41, [ShLin 0%nat 1 1; ShLin 1%nat 1 1], [ShLin 0%nat 1 (-1); ShLin 1%nat 1 1], Some SPSU2T_e830);
  (42, 42, [ShLin 0%nat 1 1; ShLin 1%nat 1 2], [ShLin 0%nat 1 (-1); ShLin 1%nat 1 2], Some SPSU2T_e831);
  (43, 43, [ShLin 0%nat 1 (-2); ShLin 1%nat 1 (-1)], [ShLin 0%nat 1 (-4); ShLin 1%nat 1 (-1)], Some (cN 1));
  (43, 46, [ShLin 0%nat 1 (-2); ShLin 1%nat 1 (-1)], [ShLin 0%nat 1 (-2); ShLin 1%nat 1 (-1)], Some (cD (cN 1) (cH 0)));
  (43, 49, [ShLin 0%nat 1 (-2); ShLin 1%nat 1 (-1)], [ShLin 0%nat 1 0; ShLin 1%nat 1 (-1)], Some SPSU2T_e832);
  (44, 44, [ShLin 0%nat 1 (-2); ShLin 1%nat 1 0], [ShLin 0%nat 1 (-4); ShLin 1%nat 1 0], Some (cN 1));
  (44, 47, [ShLin 0%nat 1 (-2); ShLin 1%nat 1 0], [ShLin 0%nat 1 (-2); ShLin 1%nat 1 0], Some (cD (cN 1) (cH 0)));
  (44, 50, [ShLin 0%nat 1 (-2); ShLin 1%nat 1 0], [ShLin 0%nat 1 0; ShLin 1%nat 1 0], Some SPSU2T_e832);
  (45, 45, [ShLin 0%nat 1 (-2); ShLin 1%nat 1 1], [ShLin 0%nat 1 (-4); ShLin 1%nat 1 1], Some (cN 1));
  (45, 48, [ShLin 0%nat 1 (-2); ShLin 1%nat 1 1], [ShLin 0%nat 1 (-2); ShLin 1%nat 1 1], Some (cD (cN 1) (cH 0)));
  (45, 51, [ShLin 0%nat 1 (-2); ShLin 1%nat 1 1], [ShLin 0%nat 1 0; ShLin 1%nat 1 1], Some SPSU2T_e832);
  (46, 46, [ShLin 0%nat 1 0; ShLin 1%nat 1 (-1)], [ShLin 0%nat 1 (-2); ShLin 1%nat 1 (-1)], Some SPSU2T_e782);
  (46, 49, [ShLin 0%nat 1 0; ShLin 1%nat 1 (-1)], [ShLin 0%nat 1 0; ShLin 1%nat 1 (-1)], Some SPSU2T_e783);
  (47, 47, [ShLin 0%nat 1 0; ShLin 1%nat 1 0], [ShLin 0%nat 1 (-2); ShLin 1%nat 1 0], Some SPSU2T_e782);
  (47, 50, [ShLin 0%nat 1 0; ShLin 1%nat 1 0], [ShLin 0%nat 1 0; ShLin 1%nat 1 0], Some SPSU2T_e783);
  (48, 48, [ShLin 0%nat 1 0; ShLin 1%nat 1 1], [ShLin 0%nat 1 (-2); ShLin 1%nat 1 1], Some SPSU2T_e782);
  (48, 51, [ShLin 0%nat 1 0; ShLin 1%nat 1 1], [ShLin 0%nat 1 0; ShLin 1%nat 1 1], Some SPSU2T_e783);
  (49, 49, [ShLin 0%nat 1 2; ShLin 1%nat 1 (-1)], [ShLin 0%nat 1 0; ShLin 1%nat 1 (-1)], Some SPSU2T_e833);
  (50, 50, [ShLin 0%nat 1 2; ShLin 1%nat 1 0], [ShLin 0%nat 1 0; ShLin 1%nat 1 0], Some SPSU2T_e834);
  (51, 51, [ShLin 0%nat 1 2; ShLin 1%nat 1 1], [ShLin 0%nat 1 0; ShLin 1%nat 1 1], Some SPSU2T_e834);
  (52, 52, [ShLin 0%nat 1 (-2); ShLin 1%nat 1 (-1)], [ShLin 0%nat 1 (-4); ShLin 1%nat 1 (-1)], Some (cN 1));
  (52, 55, [ShLin 0%nat 1 (-2); ShLin 1%nat 1 (-1)], [ShLin 0%nat 1 (-2); ShLin 1%nat 1 (-1)], Some (cD (cN 1) (cH 0)));
  (52, 58, [ShLin 0%nat 1 (-2); ShLin 1%nat 1 (-1)], [ShLin 0%nat 1 0; ShLin 1%nat 1 (-1)], Some SPSU2T_e832);
  (53, 53, [ShLin 0%nat 1 (-2); ShLin 1%nat 1 0], [ShLin 0%nat 1 (-4); ShLin 1%nat 1 0], Some (cN 1));
  (53, 56, [ShLin 0%nat 1 (-2); ShLin 1%nat 1 0], [ShLin 0%nat 1 (-2); ShLin 1%nat 1 0], Some (cD (cN 1) (cH 0)));
  (53, 59, [ShLin 0%nat 1 (-2); ShLin 1%nat 1 0], [ShLin 0%nat 1 0; ShLin 1%nat 1 0], Some SPSU2T_e832);
  (54, 54, [ShLin 0%nat 1 (-2); ShLin 1%nat 1 1], [ShLin 0%nat 1 (-4); ShLin 1%nat 1 1], Some (cN 1));
  (54, 57, [ShLin 0%nat 1 (-2); ShLin 1%nat 1 1], [ShLin 0%nat 1 (-2); ShLin 1%nat 1 1], Some (cD (cN 1) (cH 0)));
  (54, 60, [ShLin 0%nat 1 (-2); ShLin 1%nat 1 1], [ShLin 0%nat 1 0; ShLin 1%nat 1 1], Some SPSU2T_e832);
  (55, 55, [ShLin 0%nat 1 0; ShLin 1%nat 1 (-1)], [ShLin 0%nat 1 (-2); ShLin 1%nat 1 (-1)], Some SPSU2T_e782);
  (55, 58, [ShLin 0%nat 1 0; ShLin 1%nat 1 (-1)], [ShLin 0%nat 1 0; ShLin 1%nat 1 (-1)], Some SPSU2T_e783);
  (56, 56, [ShLin 0%nat 1 0; ShLin 1%nat 1 0], [ShLin 0%nat 1 (-2); ShLin 1%nat 1 0], Some SPSU2T_e782);
  (56, 59, [ShLin 0%nat 1 0; ShLin 1%nat 1 0], [ShLin 0%nat 1 0; ShLin 1%nat 1 0], Some SPSU2T_e783);
  (57, 57, [ShLin 0%nat 1 0; ShLin 1%nat 1 1], [ShLin 0%nat 1 (-2); ShLin 1%nat 1 1], Some SPSU2T_e782);
  (57, 60, [ShLin 0%nat 1 0; ShLin 1%nat 1 1], [ShLin 0%nat 1 0; ShLin 1%nat 1 1], Some SPSU2T_e783);
  (58, 58, [ShLin 0%nat 1 2; ShLin 1%nat 1 (-1)], [ShLin 0%nat 1 0; ShLin 1%nat 1 (-1)], Some SPSU2T_e833);
  (59, 59, [ShLin 0%nat 1 2; ShLin 1%nat 1 0], [ShLin 0%nat 1 0; ShLin 1%nat 1 0], Some SPSU2T_e834);
  (60, 60, [ShLin 0%nat 1 2; ShLin 1%nat 1 1], [ShLin 0%nat 1 0; ShLin 1%nat 1 1], Some SPSU2T_e834);
  (61, 61, [ShLin 0%nat 1 (-3); ShLin 1%nat 1 0], [ShLin 0%nat 1 (-5); ShLin 1%nat 1 0], Some (cN 1));
  (61, 62, [ShLin 0%nat 1 (-3); ShLin 1%nat 1 0], [ShLin 0%nat 1 (-3); ShLin 1%nat 1 0], Some SPSU2T_e835);
  (61, 63, [ShLin 0%nat 1 (-3); ShLin 1%nat 1 0], [ShLin 0%nat 1 (-1); ShLin 1%nat 1 0], Some SPSU2T_e836);
  (62, 62, [ShLin 0%nat 1 (-1); ShLin 1%nat 1 0], [ShLin 0%nat 1 (-3); ShLin 1%nat 1 0], Some SPSU2T_e792);
  (62, 63, [ShLin 0%nat 1 (-1); ShLin 1%nat 1 0], [ShLin 0%nat 1 (-1); ShLin 1%nat 1 0], Some SPSU2T_e837);
  (62, 64, [ShLin 0%nat 1 (-1); ShLin 1%nat 1 0], [ShLin 0%nat 1 1; ShLin 1%nat 1 0], Some SPSU2T_e818);
  (63, 63, [ShLin 0%nat 1 1; ShLin 1%nat 1 0], [ShLin 0%nat 1 (-1); ShLin 1%nat 1 0], Some SPSU2T_e838);
  (63, 64, [ShLin 0%nat 1 1; ShLin 1%nat 1 0], [ShLin 0%nat 1 1; ShLin 1%nat 1 0], Some SPSU2T_e839);
  (64, 64, [ShLin 0%nat 1 3; ShLin 1%nat 1 0], [ShLin 0%nat 1 1; ShLin 1%nat 1 0], Some SPSU2T_e840)].
(** /repo/c++/symmetry/sym-SPSU2T-impl.hpp, make_matrix  *)
Definition spsu2t_m0_o : list off_line := [
  (1, 15, 0, 0, "xi", Some (cN 1));
  (1, 16, 0, 0, "xi", Some (cN 1));
  (1, 17, 0, 0, "xi", Some (cN 1));
  (1, 18, 0, 0, "xi", Some (cN 1));
  (1, 19, 0, 0, "xi", Some (cN 1));
  (1, 20, 0, 0, "xi", Some (cN 1));
  (2, 21, 0, 0, "xi", Some (cO (cR (cQ 2 3))));
  (2, 22, 0, 0, "xi", Some (cO (cR (cQ 2 3))));
  (2, 23, 0, 0, "xi", Some (cO (cR (cQ 2 3))));
  (2, 24, 0, 0, "xi", Some (cO (cR (cQ 2 3))));
  (2, 25, 0, 0, "xi", Some (cO (cR (cQ 2 3))));
  (2, 26, 0, 0, "xi", Some (cO (cR (cQ 2 3))));
  (3, 27, 0, 0, "xi", Some SPSU2T_e502);
  (3, 28, 0, 0, "xi", Some SPSU2T_e502);
  (3, 29, 0, 0, "xi", Some SPSU2T_e502);
  (3, 30, 0, 0, "xi", Some SPSU2T_e502);
  (3, 31, 0, 0, "xi", Some SPSU2T_e502);
  (3, 32, 0, 0, "xi", Some SPSU2T_e502);
  (5, 21, 0, 0, "xi", Some SPSU2T_e841);
  (5, 24, 0, 0, "xi", Some SPSU2T_e841);
  (5, 33, 0, 0, "xi", Some SPSU2T_e842);
  (5, 34, 0, 0, "xi", Some SPSU2T_e843);
  (5, 38, 0, 0, "xi", Some SPSU2T_e842);
  (5, 39, 0, 0, "xi", Some SPSU2T_e844);
  (6, 21, 0, 0, "xi", Some SPSU2T_e845);
  (6, 22, 0, 0, "xi", Some SPSU2T_e846);
  (6, 24, 0, 0, "xi", Some SPSU2T_e847);
  (6, 25, 0, 0, "xi", Some SPSU2T_e848);
  (6, 33, 0, 0, "xi", Some SPSU2T_e849);
  (6, 34, 0, 0, "xi", Some SPSU2T_e850);
  (6, 35, 0, 0, "xi", Some SPSU2T_e851);
  (6, 38, 0, 0, "xi", Some SPSU2T_e849);
  (6, 39, 0, 0, "xi", Some SPSU2T_e852);
  (6, 40, 0, 0, "xi", Some SPSU2T_e853);
  (7, 21, 0, 0, "xi", Some SPSU2T_e610);
  (7, 22, 0, 0, "xi", Some SPSU2T_e854);
  (7, 23, 0, 0, "xi", Some SPSU2T_e855);
  (7, 24, 0, 0, "xi", Some SPSU2T_e610);
  (7, 25, 0, 0, "xi", Some SPSU2T_e856);
  (7, 26, 0, 0, "xi", Some SPSU2T_e855);
  (7, 34, 0, 0, "xi", Some SPSU2T_e857);
  (7, 35, 0, 0, "xi", Some SPSU2T_e858);
  (7, 36, 0, 0, "xi", Some SPSU2T_e859);
  (7, 39, 0, 0, "xi", Some SPSU2T_e857);
  (7, 40, 0, 0, "xi", Some SPSU2T_e860);
  (7, 41, 0, 0, "xi", Some SPSU2T_e861);
  (8, 22, 0, 0, "xi", Some SPSU2T_e862);
  (8, 23, 0, 0, "xi", Some SPSU2T_e863);
  (8, 25, 0, 0, "xi", Some SPSU2T_e864);
  (8, 26, 0, 0, "xi", Some SPSU2T_e863);
  (8, 35, 0, 0, "xi", Some SPSU2T_e865);
  (8, 36, 0, 0, "xi", Some SPSU2T_e866);
  (8, 37, 0, 0, "xi", Some SPSU2T_e867);
  (8, 40, 0, 0, "xi", Some SPSU2T_e868);
  (8, 41, 0, 0, "xi", Some SPSU2T_e869);
  (8, 42, 0, 0, "xi", Some SPSU2T_e870);
  (9, 23, 0, 0, "xi", Some SPSU2T_e871);
  (9, 26, 0, 0, "xi", Some SPSU2T_e872);
  (9, 36, 0, 0, "xi", Some SPSU2T_e873);
  (9, 37, 0, 0, "xi", Some SPSU2T_e874);
  (9, 41, 0, 0, "xi", Some SPSU2T_e875);
  (9, 42, 0, 0, "xi", Some SPSU2T_e876);
  (10, 27, 0, 0, "xi", Some SPSU2T_e877);
  (10, 30, 0, 0, "xi", Some SPSU2T_e877);
  (11, 27, 0, 0, "xi", Some SPSU2T_e584);
  (11, 28, 0, 0, "xi", Some SPSU2T_e878);
  (11, 30, 0, 0, "xi", Some SPSU2T_e584);
  (11, 31, 0, 0, "xi", Some SPSU2T_e879);
  (12, 27, 0, 0, "xi", Some SPSU2T_e617);
  (12, 28, 0, 0, "xi", Some SPSU2T_e880);
  (12, 29, 0, 0, "xi", Some SPSU2T_e881);
  (12, 30, 0, 0, "xi", Some SPSU2T_e617);
  (12, 31, 0, 0, "xi", Some SPSU2T_e882);
  (12, 32, 0, 0, "xi", Some SPSU2T_e881);
  (13, 28, 0, 0, "xi", Some SPSU2T_e883);
  (13, 29, 0, 0, "xi", Some SPSU2T_e884);
  (13, 31, 0, 0, "xi", Some SPSU2T_e885);
  (13, 32, 0, 0, "xi", Some SPSU2T_e884);
  (14, 29, 0, 0, "xi", Some SPSU2T_e886);
  (14, 32, 0, 0, "xi", Some SPSU2T_e887);
  (15, 2, 0, 0, "xi", Some SPSU2T_e888);
  (15, 5, 0, 0, "xi", Some SPSU2T_e889);
  (15, 6, 0, 0, "xi", Some SPSU2T_e890);
  (15, 7, 0, 0, "xi", Some SPSU2T_e891);
  (15, 43, 0, 0, "xi", Some SPSU2T_e892);
  (15, 44, 0, 0, "xi", Some SPSU2T_e893);
  (15, 46, 0, 0, "xi", Some SPSU2T_e894);
  (15, 47, 0, 0, "xi", Some SPSU2T_e895);
  (16, 2, 0, 0, "xi", Some SPSU2T_e896);
  (16, 6, 0, 0, "xi", Some SPSU2T_e897);
  (16, 7, 0, 0, "xi", Some SPSU2T_e898);
  (16, 8, 0, 0, "xi", Some SPSU2T_e899);
  (16, 43, 0, 0, "xi", Some SPSU2T_e900);
  (16, 44, 0, 0, "xi", Some SPSU2T_e901);
  (16, 45, 0, 0, "xi", Some SPSU2T_e520);
  (16, 46, 0, 0, "xi", Some SPSU2T_e902);
  (16, 47, 0, 0, "xi", Some SPSU2T_e903);
  (16, 48, 0, 0, "xi", Some SPSU2T_e904);
  (17, 2, 0, 0, "xi", Some SPSU2T_e905);
  (17, 7, 0, 0, "xi", Some SPSU2T_e906);
  (17, 8, 0, 0, "xi", Some SPSU2T_e907);
  (17, 9, 0, 0, "xi", Some SPSU2T_e889);
  (17, 44, 0, 0, "xi", Some SPSU2T_e908);
  (17, 45, 0, 0, "xi", Some SPSU2T_e909);
  (17, 47, 0, 0, "xi", Some SPSU2T_e910);
  (17, 48, 0, 0, "xi", Some SPSU2T_e911);
  (18, 2, 0, 0, "xi", Some SPSU2T_e912);
  (18, 5, 0, 0, "xi", Some SPSU2T_e913);
  (18, 6, 0, 0, "xi", Some SPSU2T_e914);
  (18, 7, 0, 0, "xi", Some SPSU2T_e915);
  (18, 46, 0, 0, "xi", Some SPSU2T_e916);
  (18, 47, 0, 0, "xi", Some SPSU2T_e917);
  (18, 49, 0, 0, "xi", Some SPSU2T_e892);
  (18, 50, 0, 0, "xi", Some SPSU2T_e893);
  (19, 2, 0, 0, "xi", Some SPSU2T_e918);
  (19, 6, 0, 0, "xi", Some SPSU2T_e919);
  (19, 7, 0, 0, "xi", Some SPSU2T_e920);
  (19, 8, 0, 0, "xi", Some SPSU2T_e921);
  (19, 46, 0, 0, "xi", Some SPSU2T_e922);
  (19, 47, 0, 0, "xi", Some SPSU2T_e923);
  (19, 48, 0, 0, "xi", Some SPSU2T_e924);
  (19, 49, 0, 0, "xi", Some SPSU2T_e925);
  (19, 50, 0, 0, "xi", Some SPSU2T_e926);
  (19, 51, 0, 0, "xi", Some SPSU2T_e927);
  (20, 2, 0, 0, "xi", Some SPSU2T_e928);
  (20, 7, 0, 0, "xi", Some SPSU2T_e929);
  (20, 8, 0, 0, "xi", Some SPSU2T_e930);
  (20, 9, 0, 0, "xi", Some SPSU2T_e913);
  (20, 47, 0, 0, "xi", Some SPSU2T_e931);
  (20, 48, 0, 0, "xi", Some SPSU2T_e932);
  (20, 50, 0, 0, "xi", Some SPSU2T_e933);
  (20, 51, 0, 0, "xi", Some SPSU2T_e909);
  (21, 3, 0, 0, "xi", Some SPSU2T_e934);
  (21, 10, 0, 0, "xi", Some SPSU2T_e935);
  (21, 11, 0, 0, "xi", Some SPSU2T_e936);
  (21, 12, 0, 0, "xi", Some SPSU2T_e937);
  (21, 52, 0, 0, "xi", Some SPSU2T_e585);
  (21, 53, 0, 0, "xi", Some SPSU2T_e938);
  (21, 55, 0, 0, "xi", Some SPSU2T_e939);
  (21, 56, 0, 0, "xi", Some SPSU2T_e940);
  (22, 3, 0, 0, "xi", Some SPSU2T_e941);
  (22, 11, 0, 0, "xi", Some SPSU2T_e942);
  (22, 12, 0, 0, "xi", Some SPSU2T_e943);
  (22, 13, 0, 0, "xi", Some SPSU2T_e944);
  (22, 52, 0, 0, "xi", Some SPSU2T_e584);
  (22, 53, 0, 0, "xi", Some SPSU2T_e586);
  (22, 54, 0, 0, "xi", Some SPSU2T_e684);
  (22, 55, 0, 0, "xi", Some SPSU2T_e945);
  (22, 56, 0, 0, "xi", Some SPSU2T_e946);
  (22, 57, 0, 0, "xi", Some SPSU2T_e947);
  (23, 3, 0, 0, "xi", Some SPSU2T_e948);
  (23, 12, 0, 0, "xi", Some SPSU2T_e949);
  (23, 13, 0, 0, "xi", Some SPSU2T_e950);
  (23, 14, 0, 0, "xi", Some SPSU2T_e935);
  (23, 53, 0, 0, "xi", Some SPSU2T_e951);
  (23, 54, 0, 0, "xi", Some SPSU2T_e952);
  (23, 56, 0, 0, "xi", Some SPSU2T_e953);
  (23, 57, 0, 0, "xi", Some SPSU2T_e954);
  (24, 3, 0, 0, "xi", Some SPSU2T_e955);
  (24, 10, 0, 0, "xi", Some SPSU2T_e956);
  (24, 11, 0, 0, "xi", Some SPSU2T_e957);
  (24, 12, 0, 0, "xi", Some SPSU2T_e958);
  (24, 55, 0, 0, "xi", Some SPSU2T_e959);
  (24, 56, 0, 0, "xi", Some SPSU2T_e960);
  (24, 58, 0, 0, "xi", Some SPSU2T_e585);
  (24, 59, 0, 0, "xi", Some SPSU2T_e961);
  (25, 3, 0, 0, "xi", Some SPSU2T_e962);
  (25, 11, 0, 0, "xi", Some SPSU2T_e963);
  (25, 12, 0, 0, "xi", Some SPSU2T_e964);
  (25, 13, 0, 0, "xi", Some SPSU2T_e965);
  (25, 55, 0, 0, "xi", Some SPSU2T_e966);
  (25, 56, 0, 0, "xi", Some SPSU2T_e967);
  (25, 57, 0, 0, "xi", Some SPSU2T_e968);
  (25, 58, 0, 0, "xi", Some SPSU2T_e584);
  (25, 59, 0, 0, "xi", Some SPSU2T_e586);
  (25, 60, 0, 0, "xi", Some SPSU2T_e969);
  (26, 3, 0, 0, "xi", Some SPSU2T_e970);
  (26, 12, 0, 0, "xi", Some SPSU2T_e971);
  (26, 13, 0, 0, "xi", Some SPSU2T_e972);
  (26, 14, 0, 0, "xi", Some SPSU2T_e956);
  (26, 56, 0, 0, "xi", Some SPSU2T_e973);
  (26, 57, 0, 0, "xi", Some SPSU2T_e974);
  (26, 59, 0, 0, "xi", Some SPSU2T_e975);
  (26, 60, 0, 0, "xi", Some SPSU2T_e976);
  (27, 4, 0, 0, "xi", Some SPSU2T_e977);
  (28, 4, 0, 0, "xi", Some SPSU2T_e889);
  (29, 4, 0, 0, "xi", Some SPSU2T_e978);
  (30, 4, 0, 0, "xi", Some SPSU2T_e979);
  (31, 4, 0, 0, "xi", Some SPSU2T_e913);
  (32, 4, 0, 0, "xi", Some SPSU2T_e980);
  (33, 10, 0, 0, "xi", Some SPSU2T_e981);
  (33, 11, 0, 0, "xi", Some SPSU2T_e982);
  (33, 52, 0, 0, "xi", Some SPSU2T_e877);
  (33, 55, 0, 0, "xi", Some SPSU2T_e983);
  (34, 10, 0, 0, "xi", Some SPSU2T_e984);
  (34, 11, 0, 0, "xi", Some SPSU2T_e985);
  (34, 12, 0, 0, "xi", Some SPSU2T_e986);
  (34, 52, 0, 0, "xi", Some SPSU2T_e584);
  (34, 53, 0, 0, "xi", Some SPSU2T_e878);
  (34, 55, 0, 0, "xi", Some SPSU2T_e987);
  (34, 56, 0, 0, "xi", Some SPSU2T_e988);
  (35, 11, 0, 0, "xi", Some SPSU2T_e989);
  (35, 12, 0, 0, "xi", Some SPSU2T_e990);
  (35, 13, 0, 0, "xi", Some SPSU2T_e991);
  (35, 52, 0, 0, "xi", Some SPSU2T_e617);
  (35, 53, 0, 0, "xi", Some SPSU2T_e992);
  (35, 54, 0, 0, "xi", Some SPSU2T_e993);
  (35, 55, 0, 0, "xi", Some SPSU2T_e994);
  (35, 56, 0, 0, "xi", Some SPSU2T_e995);
  (35, 57, 0, 0, "xi", Some SPSU2T_e996);
  (36, 12, 0, 0, "xi", Some SPSU2T_e997);
  (36, 13, 0, 0, "xi", Some SPSU2T_e998);
  (36, 14, 0, 0, "xi", Some SPSU2T_e999);
  (36, 53, 0, 0, "xi", Some SPSU2T_e1000);
  (36, 54, 0, 0, "xi", Some SPSU2T_e884);
  (36, 56, 0, 0, "xi", Some SPSU2T_e1001);
  (36, 57, 0, 0, "xi", Some SPSU2T_e1002);
  (37, 13, 0, 0, "xi", Some SPSU2T_e1003);
  (37, 14, 0, 0, "xi", Some SPSU2T_e1004);
  (37, 54, 0, 0, "xi", Some SPSU2T_e1005);
  (37, 57, 0, 0, "xi", Some SPSU2T_e1006);
  (38, 10, 0, 0, "xi", Some SPSU2T_e1007);
  (38, 11, 0, 0, "xi", Some SPSU2T_e1008);
  (38, 55, 0, 0, "xi", Some SPSU2T_e1009);
  (38, 58, 0, 0, "xi", Some SPSU2T_e1010);
  (39, 10, 0, 0, "xi", Some SPSU2T_e1011);
  (39, 11, 0, 0, "xi", Some SPSU2T_e1012);
  (39, 12, 0, 0, "xi", Some SPSU2T_e1013);
  (39, 55, 0, 0, "xi", Some SPSU2T_e1014);
  (39, 56, 0, 0, "xi", Some SPSU2T_e1015);
  (39, 58, 0, 0, "xi", Some SPSU2T_e584);
  (39, 59, 0, 0, "xi", Some SPSU2T_e1016);
  (40, 11, 0, 0, "xi", Some SPSU2T_e1017);
  (40, 12, 0, 0, "xi", Some SPSU2T_e1018);
  (40, 13, 0, 0, "xi", Some SPSU2T_e1019);
  (40, 55, 0, 0, "xi", Some SPSU2T_e1020);
  (40, 56, 0, 0, "xi", Some SPSU2T_e1021);
  (40, 57, 0, 0, "xi", Some SPSU2T_e1022);
  (40, 58, 0, 0, "xi", Some SPSU2T_e1023);
  (40, 59, 0, 0, "xi", Some SPSU2T_e1024);
  (40, 60, 0, 0, "xi", Some SPSU2T_e1025);
  (41, 12, 0, 0, "xi", Some SPSU2T_e1026);
  (41, 13, 0, 0, "xi", Some SPSU2T_e1027);
  (41, 14, 0, 0, "xi", Some SPSU2T_e1028);
  (41, 56, 0, 0, "xi", Some SPSU2T_e1029);
  (41, 57, 0, 0, "xi", Some SPSU2T_e1030);
  (41, 59, 0, 0, "xi", Some SPSU2T_e1031);
  (41, 60, 0, 0, "xi", Some SPSU2T_e1032);
  (42, 13, 0, 0, "xi", Some SPSU2T_e1033);
  (42, 14, 0, 0, "xi", Some SPSU2T_e1034);
  (42, 57, 0, 0, "xi", Some SPSU2T_e1035);
  (42, 60, 0, 0, "xi", Some SPSU2T_e1036);
  (43, 21, 0, 0, "xi", Some SPSU2T_e1037);
  (43, 22, 0, 0, "xi", Some SPSU2T_e1038);
  (43, 33, 0, 0, "xi", Some SPSU2T_e1039);
  (43, 34, 0, 0, "xi", Some SPSU2T_e1040);
  (43, 35, 0, 0, "xi", Some SPSU2T_e1041);
  (43, 61, 0, 0, "xi", Some SPSU2T_e1042);
  (43, 62, 0, 0, "xi", Some SPSU2T_e1043);
  (44, 21, 0, 0, "xi", Some SPSU2T_e1044);
  (44, 22, 0, 0, "xi", Some SPSU2T_e1045);
  (44, 23, 0, 0, "xi", Some SPSU2T_e1046);
  (44, 34, 0, 0, "xi", Some SPSU2T_e1047);
  (44, 35, 0, 0, "xi", Some SPSU2T_e1048);
  (44, 36, 0, 0, "xi", Some SPSU2T_e1049);
  (44, 61, 0, 0, "xi", Some (cN (-1)));
  (44, 62, 0, 0, "xi", Some SPSU2T_e1050);
  (45, 22, 0, 0, "xi", Some SPSU2T_e1051);
  (45, 23, 0, 0, "xi", Some SPSU2T_e1052);
  (45, 35, 0, 0, "xi", Some SPSU2T_e1053);
  (45, 36, 0, 0, "xi", Some SPSU2T_e1054);
  (45, 37, 0, 0, "xi", Some SPSU2T_e1039);
  (45, 61, 0, 0, "xi", Some SPSU2T_e1055);
  (45, 62, 0, 0, "xi", Some SPSU2T_e1056);
  (46, 21, 0, 0, "xi", Some SPSU2T_e1057);
  (46, 22, 0, 0, "xi", Some SPSU2T_e1058);
  (46, 24, 0, 0, "xi", Some SPSU2T_e1059);
  (46, 25, 0, 0, "xi", Some SPSU2T_e1060);
  (46, 33, 0, 0, "xi", Some SPSU2T_e1061);
  (46, 34, 0, 0, "xi", Some SPSU2T_e1062);
  (46, 35, 0, 0, "xi", Some SPSU2T_e1063);
  (46, 38, 0, 0, "xi", Some SPSU2T_e1064);
  (46, 39, 0, 0, "xi", Some SPSU2T_e1065);
  (46, 40, 0, 0, "xi", Some SPSU2T_e1066);
  (46, 62, 0, 0, "xi", Some SPSU2T_e1067);
  (46, 63, 0, 0, "xi", Some SPSU2T_e1068);
  (47, 21, 0, 0, "xi", Some SPSU2T_e1069);
  (47, 22, 0, 0, "xi", Some SPSU2T_e1070);
  (47, 23, 0, 0, "xi", Some SPSU2T_e1071);
  (47, 24, 0, 0, "xi", Some SPSU2T_e1072);
  (47, 25, 0, 0, "xi", Some SPSU2T_e1073);
  (47, 26, 0, 0, "xi", Some SPSU2T_e1074);
  (47, 34, 0, 0, "xi", Some SPSU2T_e1075);
  (47, 35, 0, 0, "xi", Some SPSU2T_e1076);
  (47, 36, 0, 0, "xi", Some SPSU2T_e1077);
  (47, 39, 0, 0, "xi", Some SPSU2T_e1078);
  (47, 40, 0, 0, "xi", Some SPSU2T_e1079);
  (47, 41, 0, 0, "xi", Some SPSU2T_e1080);
  (47, 62, 0, 0, "xi", Some SPSU2T_e735);
  (47, 63, 0, 0, "xi", Some SPSU2T_e1081);
  (48, 22, 0, 0, "xi", Some SPSU2T_e1082);
  (48, 23, 0, 0, "xi", Some SPSU2T_e672);
  (48, 25, 0, 0, "xi", Some SPSU2T_e1083);
  (48, 26, 0, 0, "xi", Some SPSU2T_e1084);
  (48, 35, 0, 0, "xi", Some SPSU2T_e1085);
  (48, 36, 0, 0, "xi", Some SPSU2T_e1086);
  (48, 37, 0, 0, "xi", Some SPSU2T_e1087);
  (48, 40, 0, 0, "xi", Some SPSU2T_e1088);
  (48, 41, 0, 0, "xi", Some SPSU2T_e1089);
  (48, 42, 0, 0, "xi", Some SPSU2T_e1064);
  (48, 62, 0, 0, "xi", Some SPSU2T_e1090);
  (48, 63, 0, 0, "xi", Some SPSU2T_e1091);
  (49, 24, 0, 0, "xi", Some SPSU2T_e1092);
  (49, 25, 0, 0, "xi", Some SPSU2T_e1093);
  (49, 38, 0, 0, "xi", Some SPSU2T_e1094);
  (49, 39, 0, 0, "xi", Some SPSU2T_e1095);
  (49, 40, 0, 0, "xi", Some SPSU2T_e1096);
  (49, 63, 0, 0, "xi", Some SPSU2T_e1097);
  (49, 64, 0, 0, "xi", Some SPSU2T_e1042);
  (50, 24, 0, 0, "xi", Some SPSU2T_e1098);
  (50, 25, 0, 0, "xi", Some SPSU2T_e1099);
  (50, 26, 0, 0, "xi", Some SPSU2T_e1100);
  (50, 39, 0, 0, "xi", Some SPSU2T_e1101);
  (50, 40, 0, 0, "xi", Some SPSU2T_e1102);
  (50, 41, 0, 0, "xi", Some SPSU2T_e1103);
  (50, 63, 0, 0, "xi", Some SPSU2T_e1104);
  (50, 64, 0, 0, "xi", Some (cN (-1)));
  (51, 25, 0, 0, "xi", Some SPSU2T_e1105);
  (51, 26, 0, 0, "xi", Some SPSU2T_e1106);
  (51, 40, 0, 0, "xi", Some SPSU2T_e1107);
  (51, 41, 0, 0, "xi", Some SPSU2T_e1108);
  (51, 42, 0, 0, "xi", Some SPSU2T_e1109);
  (51, 63, 0, 0, "xi", Some SPSU2T_e1110);
  (51, 64, 0, 0, "xi", Some SPSU2T_e1111);
  (52, 27, 0, 0, "xi", Some SPSU2T_e1112);
  (52, 28, 0, 0, "xi", Some SPSU2T_e1113);
  (53, 27, 0, 0, "xi", Some SPSU2T_e1114);
  (53, 28, 0, 0, "xi", Some SPSU2T_e1115);
  (53, 29, 0, 0, "xi", Some SPSU2T_e1116);
  (54, 28, 0, 0, "xi", Some SPSU2T_e1117);
  (54, 29, 0, 0, "xi", Some SPSU2T_e1118);
  (55, 27, 0, 0, "xi", Some SPSU2T_e1119);
  (55, 28, 0, 0, "xi", Some SPSU2T_e1120);
  (55, 30, 0, 0, "xi", Some SPSU2T_e1121);
  (55, 31, 0, 0, "xi", Some SPSU2T_e1122);
  (56, 27, 0, 0, "xi", Some SPSU2T_e1123);
  (56, 28, 0, 0, "xi", Some SPSU2T_e1124);
  (56, 29, 0, 0, "xi", Some SPSU2T_e1125);
  (56, 30, 0, 0, "xi", Some SPSU2T_e1126);
  (56, 31, 0, 0, "xi", Some SPSU2T_e1127);
  (56, 32, 0, 0, "xi", Some SPSU2T_e1128);
  (57, 28, 0, 0, "xi", Some SPSU2T_e1129);
  (57, 29, 0, 0, "xi", Some SPSU2T_e1130);
  (57, 31, 0, 0, "xi", Some SPSU2T_e1131);
  (57, 32, 0, 0, "xi", Some SPSU2T_e1132);
  (58, 30, 0, 0, "xi", Some SPSU2T_e1133);
  (58, 31, 0, 0, "xi", Some SPSU2T_e1134);
  (59, 30, 0, 0, "xi", Some SPSU2T_e1135);
  (59, 31, 0, 0, "xi", Some SPSU2T_e1136);
  (59, 32, 0, 0, "xi", Some SPSU2T_e1137);
  (60, 31, 0, 0, "xi", Some SPSU2T_e1138);
  (60, 32, 0, 0, "xi", Some SPSU2T_e1139);
  (61, 52, 0, 0, "xi", Some SPSU2T_e1140);
  (61, 53, 0, 0, "xi", Some SPSU2T_e1140);
  (61, 54, 0, 0, "xi", Some SPSU2T_e1140);
  (62, 52, 0, 0, "xi", Some SPSU2T_e1141);
  (62, 53, 0, 0, "xi", Some SPSU2T_e1141);
  (62, 54, 0, 0, "xi", Some SPSU2T_e1141);
  (62, 55, 0, 0, "xi", Some SPSU2T_e1142);
  (62, 56, 0, 0, "xi", Some SPSU2T_e1143);
  (62, 57, 0, 0, "xi", Some SPSU2T_e1142);
  (63, 55, 0, 0, "xi", Some SPSU2T_e1144);
  (63, 56, 0, 0, "xi", Some SPSU2T_e1145);
  (63, 57, 0, 0, "xi", Some SPSU2T_e1144);
  (63, 58, 0, 0, "xi", Some SPSU2T_e1146);
  (63, 59, 0, 0, "xi", Some SPSU2T_e1147);
  (63, 60, 0, 0, "xi", Some SPSU2T_e1148);
  (64, 58, 0, 0, "xi", Some SPSU2T_e1149);
  (64, 59, 0, 0, "xi", Some SPSU2T_e1150);
  (64, 60, 0, 0, "xi", Some SPSU2T_e1151)].
(** /repo/c++/symmetry/sym-SPSU2T-impl.hpp, make_matrix  *)
Definition spsu2t_m0_d : list diag_line := [
  (1, 0, "zeta", Some (cN 0));
  (2, 0, "zeta", Some (cN 2));
  (3, 0, "zeta", Some (cN 4));
  (4, 0, "zeta", Some (cN 6));
  (5, 0, "zeta", Some (cN 2));
  (6, 0, "zeta", Some (cN 2));
  (7, 0, "zeta", Some (cN 2));
  (8, 0, "zeta", Some (cN 2));
  (9, 0, "zeta", Some (cN 2));
  (10, 0, "zeta", Some (cN 4));
  (11, 0, "zeta", Some (cN 4));
  (12, 0, "zeta", Some (cN 4));
  (13, 0, "zeta", Some (cN 4));
  (14, 0, "zeta", Some (cN 4));
  (15, 0, "zeta", Some (cN 1));
  (16, 0, "zeta", Some (cN 1));
  (17, 0, "zeta", Some (cN 1));
  (18, 0, "zeta", Some (cN 1));
  (19, 0, "zeta", Some (cN 1));
  (20, 0, "zeta", Some (cN 1));
  (21, 0, "zeta", Some (cN 3));
  (22, 0, "zeta", Some (cN 3));
  (23, 0, "zeta", Some (cN 3));
  (24, 0, "zeta", Some (cN 3));
  (25, 0, "zeta", Some (cN 3));
  (26, 0, "zeta", Some (cN 3));
  (27, 0, "zeta", Some (cN 5));
  (28, 0, "zeta", Some (cN 5));
  (29, 0, "zeta", Some (cN 5));
  (30, 0, "zeta", Some (cN 5));
  (31, 0, "zeta", Some (cN 5));
  (32, 0, "zeta", Some (cN 5));
  (33, 0, "zeta", Some (cN 3));
  (34, 0, "zeta", Some (cN 3));
  (35, 0, "zeta", Some (cN 3));
  (36, 0, "zeta", Some (cN 3));
  (37, 0, "zeta", Some (cN 3));
  (38, 0, "zeta", Some (cN 3));
  (39, 0, "zeta", Some (cN 3));
  (40, 0, "zeta", Some (cN 3));
  (41, 0, "zeta", Some (cN 3));
  (42, 0, "zeta", Some (cN 3));
  (43, 0, "zeta", Some (cN 2));
  (44, 0, "zeta", Some (cN 2));
  (45, 0, "zeta", Some (cN 2));
  (46, 0, "zeta", Some (cN 2));
  (47, 0, "zeta", Some (cN 2));
  (48, 0, "zeta", Some (cN 2));
  (49, 0, "zeta", Some (cN 2));
  (50, 0, "zeta", Some (cN 2));
  (51, 0, "zeta", Some (cN 2));
  (52, 0, "zeta", Some (cN 4));
  (53, 0, "zeta", Some (cN 4));
  (54, 0, "zeta", Some (cN 4));
  (55, 0, "zeta", Some (cN 4));
  (56, 0, "zeta", Some (cN 4));
  (57, 0, "zeta", Some (cN 4));
  (58, 0, "zeta", Some (cN 4));
  (59, 0, "zeta", Some (cN 4));
  (60, 0, "zeta", Some (cN 4));
  (61, 0, "zeta", Some (cN 3));
  (62, 0, "zeta", Some (cN 3));
  (63, 0, "zeta", Some (cN 3));
  (64, 0, "zeta", Some (cN 3))].
(** /repo/c++/symmetry/sym-SPSU2T-impl.hpp, make_matrix  *)
Definition spsu2t_m0_f : list dof_line := [
  ].
(** /repo/c++/symmetry/sym-SPSU2T-impl.hpp, make_matrix if (!num_equal(coef.delta(step.N() + 1, 0), 0.0)) *)
Definition spsu2t_m1_o : list off_line := [
  ].
(** /repo/c++/symmetry/sym-SPSU2T-impl.hpp, make_matrix if (!num_equal(coef.delta(step.N() + 1, 0), 0.0)) *)
Definition spsu2t_m1_d : list diag_line := [
  ].
(** /repo/c++/symmetry/sym-SPSU2T-impl.hpp, make_matrix if (!num_equal(coef.delta(step.N() + 1, 0), 0.0)) *)
Definition spsu2t_m1_f : list dof_line := [
  (1, 2, 0, "2*delta", Some SPSU2T_e1152);
  (1, 7, 0, "2*delta", Some SPSU2T_e503);
  (2, 3, 0, "2*delta", Some (cQ (-1) 3));
  (2, 12, 0, "2*delta", Some SPSU2T_e1153);
  (3, 4, 0, "2*delta", Some SPSU2T_e1152);
  (3, 7, 0, "2*delta", Some SPSU2T_e1154);
  (4, 12, 0, "2*delta", Some SPSU2T_e525);
  (5, 10, 0, "2*delta", Some (cQ (-1) 2));
  (6, 11, 0, "2*delta", Some SPSU2T_e188);
  (7, 12, 0, "2*delta", Some SPSU2T_e1155);
  (8, 13, 0, "2*delta", Some SPSU2T_e1156);
  (9, 14, 0, "2*delta", Some SPSU2T_e1157);
  (15, 21, 0, "2*delta", Some SPSU2T_e1158);
  (15, 34, 0, "2*delta", Some SPSU2T_e1159);
  (16, 22, 0, "2*delta", Some SPSU2T_e1160);
  (16, 35, 0, "2*delta", Some SPSU2T_e1161);
  (17, 23, 0, "2*delta", Some SPSU2T_e1162);
  (17, 36, 0, "2*delta", Some SPSU2T_e1163);
  (18, 24, 0, "2*delta", Some SPSU2T_e1158);
  (18, 39, 0, "2*delta", Some SPSU2T_e1159);
  (19, 25, 0, "2*delta", Some SPSU2T_e1160);
  (19, 40, 0, "2*delta", Some SPSU2T_e1161);
  (20, 26, 0, "2*delta", Some SPSU2T_e1162);
  (20, 41, 0, "2*delta", Some SPSU2T_e1163);
  (21, 27, 0, "2*delta", Some SPSU2T_e1164);
  (22, 28, 0, "2*delta", Some SPSU2T_e1165);
  (23, 29, 0, "2*delta", Some SPSU2T_e1166);
  (24, 30, 0, "2*delta", Some SPSU2T_e1164);
  (25, 31, 0, "2*delta", Some SPSU2T_e1165);
  (26, 32, 0, "2*delta", Some SPSU2T_e1166);
  (27, 34, 0, "2*delta", Some SPSU2T_e1159);
  (28, 35, 0, "2*delta", Some SPSU2T_e1161);
  (29, 36, 0, "2*delta", Some SPSU2T_e1163);
  (30, 39, 0, "2*delta", Some SPSU2T_e1159);
  (31, 40, 0, "2*delta", Some SPSU2T_e1161);
  (32, 41, 0, "2*delta", Some SPSU2T_e1163);
  (44, 53, 0, "2*delta", Some SPSU2T_e1167);
  (45, 54, 0, "2*delta", Some SPSU2T_e1168);
  (47, 56, 0, "2*delta", Some SPSU2T_e1167);
  (48, 57, 0, "2*delta", Some SPSU2T_e1168);
  (50, 59, 0, "2*delta", Some SPSU2T_e1167);
  (51, 60, 0, "2*delta", Some SPSU2T_e1168)].
(** /repo/c++/symmetry/sym-SPSU2T-impl.hpp, make_matrix if (!num_equal(coef.kappa(step.N(), 0), 0.0)) *)
Definition spsu2t_m2_o : list off_line := [
  (2, 16, 0, 0, "kappa", Some SPSU2T_e1169);
  (2, 17, 0, 0, "kappa", Some SPSU2T_e1170);
  (2, 19, 0, 0, "kappa", Some SPSU2T_e1169);
  (2, 20, 0, 0, "kappa", Some SPSU2T_e1170);
  (3, 22, 0, 0, "kappa", Some SPSU2T_e1171);
  (3, 23, 0, 0, "kappa", Some SPSU2T_e1172);
  (3, 25, 0, 0, "kappa", Some SPSU2T_e1171);
  (3, 26, 0, 0, "kappa", Some SPSU2T_e1172);
  (4, 28, 0, 0, "kappa", Some SPSU2T_e1173);
  (4, 29, 0, 0, "kappa", Some SPSU2T_e1174);
  (4, 31, 0, 0, "kappa", Some SPSU2T_e1173);
  (4, 32, 0, 0, "kappa", Some SPSU2T_e1174);
  (6, 15, 0, 0, "kappa", Some SPSU2T_e1175);
  (6, 16, 0, 0, "kappa", Some SPSU2T_e1176);
  (6, 18, 0, 0, "kappa", Some SPSU2T_e1175);
  (6, 19, 0, 0, "kappa", Some SPSU2T_e1177);
  (7, 15, 0, 0, "kappa", Some SPSU2T_e1178);
  (7, 16, 0, 0, "kappa", Some SPSU2T_e1179);
  (7, 17, 0, 0, "kappa", Some SPSU2T_e1180);
  (7, 18, 0, 0, "kappa", Some SPSU2T_e1178);
  (7, 19, 0, 0, "kappa", Some SPSU2T_e1179);
  (7, 20, 0, 0, "kappa", Some SPSU2T_e1180);
  (8, 16, 0, 0, "kappa", Some SPSU2T_e1181);
  (8, 17, 0, 0, "kappa", Some SPSU2T_e1182);
  (8, 19, 0, 0, "kappa", Some SPSU2T_e1183);
  (8, 20, 0, 0, "kappa", Some SPSU2T_e1184);
  (9, 17, 0, 0, "kappa", Some SPSU2T_e1185);
  (9, 20, 0, 0, "kappa", Some SPSU2T_e1186);
  (10, 33, 0, 0, "kappa", Some SPSU2T_e1187);
  (10, 34, 0, 0, "kappa", Some SPSU2T_e1188);
  (10, 38, 0, 0, "kappa", Some SPSU2T_e842);
  (10, 39, 0, 0, "kappa", Some SPSU2T_e1188);
  (11, 21, 0, 0, "kappa", Some SPSU2T_e1189);
  (11, 22, 0, 0, "kappa", Some SPSU2T_e1190);
  (11, 24, 0, 0, "kappa", Some SPSU2T_e1189);
  (11, 25, 0, 0, "kappa", Some SPSU2T_e1191);
  (11, 33, 0, 0, "kappa", Some SPSU2T_e1192);
  (11, 34, 0, 0, "kappa", Some SPSU2T_e1193);
  (11, 35, 0, 0, "kappa", Some SPSU2T_e1194);
  (11, 38, 0, 0, "kappa", Some SPSU2T_e1192);
  (11, 39, 0, 0, "kappa", Some SPSU2T_e1195);
  (11, 40, 0, 0, "kappa", Some SPSU2T_e1194);
  (12, 21, 0, 0, "kappa", Some SPSU2T_e1196);
  (12, 22, 0, 0, "kappa", Some SPSU2T_e1197);
  (12, 23, 0, 0, "kappa", Some SPSU2T_e1198);
  (12, 24, 0, 0, "kappa", Some SPSU2T_e1196);
  (12, 25, 0, 0, "kappa", Some SPSU2T_e1197);
  (12, 26, 0, 0, "kappa", Some SPSU2T_e1198);
  (12, 34, 0, 0, "kappa", Some SPSU2T_e1199);
  (12, 35, 0, 0, "kappa", Some SPSU2T_e1200);
  (12, 36, 0, 0, "kappa", Some SPSU2T_e1201);
  (12, 39, 0, 0, "kappa", Some SPSU2T_e1199);
  (12, 40, 0, 0, "kappa", Some SPSU2T_e1200);
  (12, 41, 0, 0, "kappa", Some SPSU2T_e1201);
  (13, 22, 0, 0, "kappa", Some SPSU2T_e1202);
  (13, 23, 0, 0, "kappa", Some SPSU2T_e1203);
  (13, 25, 0, 0, "kappa", Some SPSU2T_e1204);
  (13, 26, 0, 0, "kappa", Some SPSU2T_e1205);
  (13, 35, 0, 0, "kappa", Some SPSU2T_e1206);
  (13, 36, 0, 0, "kappa", Some SPSU2T_e1207);
  (13, 37, 0, 0, "kappa", Some SPSU2T_e1208);
  (13, 40, 0, 0, "kappa", Some SPSU2T_e1206);
  (13, 41, 0, 0, "kappa", Some SPSU2T_e1207);
  (13, 42, 0, 0, "kappa", Some SPSU2T_e1208);
  (14, 23, 0, 0, "kappa", Some SPSU2T_e1209);
  (14, 26, 0, 0, "kappa", Some SPSU2T_e1210);
  (14, 36, 0, 0, "kappa", Some SPSU2T_e1211);
  (14, 37, 0, 0, "kappa", Some SPSU2T_e1212);
  (14, 41, 0, 0, "kappa", Some SPSU2T_e1213);
  (14, 42, 0, 0, "kappa", Some SPSU2T_e1214);
  (21, 43, 0, 0, "kappa", Some SPSU2T_e561);
  (21, 44, 0, 0, "kappa", Some SPSU2T_e1215);
  (21, 46, 0, 0, "kappa", Some SPSU2T_e1216);
  (21, 47, 0, 0, "kappa", Some SPSU2T_e1217);
  (22, 43, 0, 0, "kappa", Some SPSU2T_e1218);
  (22, 44, 0, 0, "kappa", Some SPSU2T_e1219);
  (22, 45, 0, 0, "kappa", Some SPSU2T_e1220);
  (22, 46, 0, 0, "kappa", Some SPSU2T_e1221);
  (22, 47, 0, 0, "kappa", Some SPSU2T_e1222);
  (22, 48, 0, 0, "kappa", Some SPSU2T_e1223);
  (23, 44, 0, 0, "kappa", Some SPSU2T_e1224);
  (23, 45, 0, 0, "kappa", Some SPSU2T_e1225);
  (23, 47, 0, 0, "kappa", Some SPSU2T_e1226);
  (23, 48, 0, 0, "kappa", Some SPSU2T_e1227);
  (24, 46, 0, 0, "kappa", Some SPSU2T_e1228);
  (24, 47, 0, 0, "kappa", Some SPSU2T_e1229);
  (24, 49, 0, 0, "kappa", Some SPSU2T_e561);
  (24, 50, 0, 0, "kappa", Some SPSU2T_e1230);
  (25, 46, 0, 0, "kappa", Some SPSU2T_e1231);
  (25, 47, 0, 0, "kappa", Some SPSU2T_e1232);
  (25, 48, 0, 0, "kappa", Some SPSU2T_e1233);
  (25, 49, 0, 0, "kappa", Some SPSU2T_e1218);
  (25, 50, 0, 0, "kappa", Some SPSU2T_e1219);
  (25, 51, 0, 0, "kappa", Some SPSU2T_e1220);
  (26, 47, 0, 0, "kappa", Some SPSU2T_e1234);
  (26, 48, 0, 0, "kappa", Some SPSU2T_e1235);
  (26, 50, 0, 0, "kappa", Some SPSU2T_e1236);
  (26, 51, 0, 0, "kappa", Some SPSU2T_e1237);
  (27, 52, 0, 0, "kappa", Some SPSU2T_e892);
  (27, 53, 0, 0, "kappa", Some SPSU2T_e1238);
  (27, 55, 0, 0, "kappa", Some SPSU2T_e894);
  (27, 56, 0, 0, "kappa", Some SPSU2T_e1239);
  (28, 52, 0, 0, "kappa", Some SPSU2T_e580);
  (28, 53, 0, 0, "kappa", Some SPSU2T_e1240);
  (28, 54, 0, 0, "kappa", Some SPSU2T_e1241);
  (28, 55, 0, 0, "kappa", Some SPSU2T_e1242);
  (28, 56, 0, 0, "kappa", Some SPSU2T_e1243);
  (28, 57, 0, 0, "kappa", Some SPSU2T_e1244);
  (29, 53, 0, 0, "kappa", Some SPSU2T_e1245);
  (29, 54, 0, 0, "kappa", Some SPSU2T_e1246);
  (29, 56, 0, 0, "kappa", Some SPSU2T_e1247);
  (29, 57, 0, 0, "kappa", Some SPSU2T_e1248);
  (30, 55, 0, 0, "kappa", Some SPSU2T_e916);
  (30, 56, 0, 0, "kappa", Some SPSU2T_e1249);
  (30, 58, 0, 0, "kappa", Some SPSU2T_e892);
  (30, 59, 0, 0, "kappa", Some SPSU2T_e1238);
  (31, 55, 0, 0, "kappa", Some SPSU2T_e1250);
  (31, 56, 0, 0, "kappa", Some SPSU2T_e1251);
  (31, 57, 0, 0, "kappa", Some SPSU2T_e1252);
  (31, 58, 0, 0, "kappa", Some SPSU2T_e580);
  (31, 59, 0, 0, "kappa", Some SPSU2T_e1240);
  (31, 60, 0, 0, "kappa", Some SPSU2T_e1241);
  (32, 56, 0, 0, "kappa", Some SPSU2T_e1253);
  (32, 57, 0, 0, "kappa", Some SPSU2T_e1254);
  (32, 59, 0, 0, "kappa", Some SPSU2T_e1255);
  (32, 60, 0, 0, "kappa", Some SPSU2T_e1256);
  (34, 43, 0, 0, "kappa", Some SPSU2T_e1175);
  (34, 44, 0, 0, "kappa", Some SPSU2T_e1257);
  (34, 46, 0, 0, "kappa", Some SPSU2T_e1258);
  (34, 47, 0, 0, "kappa", Some SPSU2T_e1259);
  (35, 43, 0, 0, "kappa", Some SPSU2T_e1178);
  (35, 44, 0, 0, "kappa", Some SPSU2T_e1179);
  (35, 45, 0, 0, "kappa", Some SPSU2T_e1260);
  (35, 46, 0, 0, "kappa", Some SPSU2T_e1261);
  (35, 47, 0, 0, "kappa", Some SPSU2T_e1262);
  (35, 48, 0, 0, "kappa", Some SPSU2T_e1263);
  (36, 44, 0, 0, "kappa", Some SPSU2T_e1264);
  (36, 45, 0, 0, "kappa", Some SPSU2T_e1265);
  (36, 47, 0, 0, "kappa", Some SPSU2T_e1266);
  (36, 48, 0, 0, "kappa", Some SPSU2T_e1267);
  (37, 45, 0, 0, "kappa", Some SPSU2T_e1268);
  (37, 48, 0, 0, "kappa", Some SPSU2T_e1269);
  (39, 46, 0, 0, "kappa", Some SPSU2T_e1270);
  (39, 47, 0, 0, "kappa", Some SPSU2T_e1271);
  (39, 49, 0, 0, "kappa", Some SPSU2T_e1272);
  (39, 50, 0, 0, "kappa", Some SPSU2T_e1273);
  (40, 46, 0, 0, "kappa", Some SPSU2T_e1274);
  (40, 47, 0, 0, "kappa", Some SPSU2T_e1275);
  (40, 48, 0, 0, "kappa", Some SPSU2T_e1276);
  (40, 49, 0, 0, "kappa", Some SPSU2T_e1277);
  (40, 50, 0, 0, "kappa", Some SPSU2T_e1179);
  (40, 51, 0, 0, "kappa", Some SPSU2T_e1180);
  (41, 47, 0, 0, "kappa", Some SPSU2T_e1278);
  (41, 48, 0, 0, "kappa", Some SPSU2T_e1279);
  (41, 50, 0, 0, "kappa", Some SPSU2T_e1280);
  (41, 51, 0, 0, "kappa", Some SPSU2T_e1265);
  (42, 48, 0, 0, "kappa", Some SPSU2T_e1281);
  (42, 51, 0, 0, "kappa", Some SPSU2T_e1268);
  (53, 61, 0, 0, "kappa", Some SPSU2T_e1282);
  (53, 62, 0, 0, "kappa", Some SPSU2T_e1283);
  (54, 61, 0, 0, "kappa", Some SPSU2T_e1284);
  (54, 62, 0, 0, "kappa", Some SPSU2T_e1285);
  (56, 62, 0, 0, "kappa", Some SPSU2T_e1286);
  (56, 63, 0, 0, "kappa", Some SPSU2T_e1287);
  (57, 62, 0, 0, "kappa", Some SPSU2T_e1288);
  (57, 63, 0, 0, "kappa", Some SPSU2T_e1289);
  (59, 63, 0, 0, "kappa", Some SPSU2T_e1290);
  (59, 64, 0, 0, "kappa", Some SPSU2T_e1282);
  (60, 63, 0, 0, "kappa", Some SPSU2T_e1291);
  (60, 64, 0, 0, "kappa", Some SPSU2T_e1284)].
(** /repo/c++/symmetry/sym-SPSU2T-impl.hpp, make_matrix if (!num_equal(coef.kappa(step.N(), 0), 0.0)) *)
Definition spsu2t_m2_d : list diag_line := [
  ].
(** /repo/c++/symmetry/sym-SPSU2T-impl.hpp, make_matrix if (!num_equal(coef.kappa(step.N(), 0), 0.0)) *)
Definition spsu2t_m2_f : list dof_line := [
  ].
Definition coef_spsu2t : coef_set := mk_coef "SPSU2T" 3%nat sym_SPSU2T {| tb_In := spsu2t_In; tb_QN := spsu2t_QN |}
  [spsu2t_t6; spsu2t_t7; spsu2t_t8; spsu2t_t9; spsu2t_t10; spsu2t_t11]
  [spsu2t_t0; spsu2t_t1; spsu2t_t2; spsu2t_t3; spsu2t_t4; spsu2t_t5; spsu2t_t12; spsu2t_t13; spsu2t_t14]
  [mk_mode "default" spsu2t_m0_o spsu2t_m0_d spsu2t_m0_f;
   mk_mode "default delta" spsu2t_m1_o spsu2t_m1_d spsu2t_m1_f;
   mk_mode "default kappa" spsu2t_m2_o spsu2t_m2_d spsu2t_m2_f].
