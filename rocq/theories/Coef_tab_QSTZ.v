(** Generated by gen/gen_coef.py from /repo/c++/symmetry/{sym-QSTZ-impl.hpp, nrg-recalc-QSTZ.hpp, coefnew}. Do not edit. *)
From Coq Require Import List ZArith String.
From Verif Require Import Base Invar_model Symmetry_model Symmetry_tables Coef_model.
Import ListNotations.
Local Open Scope string_scope.
Local Open Scope list_scope.
Local Open Scope Z_scope.

Definition QSTZ_e0 := (cD (cM (cN (-2)) (cR (cM (cH 1) (cA (cN 1) (cH 1))))) (cA (cN 1) (cM (cN 2) (cH 1)))).
Definition QSTZ_e1 := (cD (cN 1) (cA (cN 1) (cM (cN 2) (cH 1)))).
Definition QSTZ_e2 := (cR (cD (cA (cA (cN (-1)) (cH 1)) (cM (cN 2) (cW (cH 1) 4))) (cM (cH 1) (cA (cN 1) (cM (cN 2) (cH 1)))))).
Definition QSTZ_e3 := (cO (cD (cN 1) (cR (cM (cH 1) (cA (cN 1) (cM (cN 2) (cH 1))))))).
Definition QSTZ_e4 := (cD (cA (cN 3) (cM (cN 2) (cH 1))) (cR (cM (cA (cN 1) (cD (cN 1) (cH 1))) (cA (cA (cN 3) (cM (cN 8) (cH 1))) (cM (cN 4) (cW (cH 1) 4)))))).
Definition QSTZ_e5 := (cO (cD (cN 1) (cR (cA (cA (cN 1) (cM (cN 3) (cH 1))) (cM (cN 2) (cW (cH 1) 4)))))).
Definition QSTZ_e6 := (cM (cN (-2)) (cR (cD (cA (cN (-1)) (cW (cH 1) 4)) (cA (cN (-1)) (cM (cN 4) (cW (cH 1) 4)))))).
Definition QSTZ_e7 := (cD (cR (cN 3)) (cR (cA (cN (-1)) (cM (cN 4) (cW (cH 1) 4))))).
Definition QSTZ_e8 := (cO (cD (cR (cA (cA (cN (-3)) (cM (cN 4) (cH 1))) (cM (cN 4) (cW (cH 1) 4)))) (cA (cN 1) (cM (cN 2) (cH 1))))).
Definition QSTZ_e9 := (cD (cN 2) (cA (cN 1) (cM (cN 2) (cH 1)))).
Definition QSTZ_e10 := (cD (cM (cM (cH 1) (cR (cD (cA (cN 4) (cM (cN 4) (cH 1))) (cA (cH 1) (cM (cN 2) (cW (cH 1) 4)))))) (cB (cB (cB (cM (cR (cD (cA (cA (cN 2) (cM (cN 3) (cH 1))) (cW (cH 1) 4)) (cA (cN 3) (cM (cN 2) (cH 1))))) (cA (cA (cN 3) (cM (cN 8) (cH 1))) (cM (cN 4) (cW (cH 1) 4)))) (cM (cM (cH 1) (cR (cD (cA (cA (cN 2) (cM (cN 3) (cH 1))) (cW (cH 1) 4)) (cA (cN 3) (cM (cN 2) (cH 1)))))) (cA (cA (cN 3) (cM (cN 8) (cH 1))) (cM (cN 4) (cW (cH 1) 4))))) (cM (cN 7) (cR (cA (cA (cA (cN 6) (cM (cN 13) (cH 1))) (cM (cN 9) (cW (cH 1) 4))) (cM (cN 2) (cW (cH 1) 6)))))) (cM (cM (cN 8) (cH 1)) (cR (cA (cA (cA (cN 6) (cM (cN 13) (cH 1))) (cM (cN 9) (cW (cH 1) 4))) (cM (cN 2) (cW (cH 1) 6))))))) (cM (cW (cA (cN 3) (cM (cN 2) (cH 1))) 4) (cA (cA (cN 2) (cM (cN 3) (cH 1))) (cW (cH 1) 4)))).
Definition QSTZ_e11 := (cD (cR (cN 3)) (cR (cA (cA (cN 3) (cM (cN 8) (cH 1))) (cM (cN 4) (cW (cH 1) 4))))).
Definition QSTZ_e12 := (cO (cD (cN 1) (cA (cN 1) (cM (cN 2) (cH 1))))).
Definition QSTZ_e13 := (cD (cN 1) (cR (cM (cH 1) (cA (cN 1) (cM (cN 2) (cH 1)))))).
Definition QSTZ_e14 := (cD (cA (cA (cO (cR (cA (cN 2) (cD (cN 1) (cH 1))))) (cR (cM (cH 1) (cA (cN 1) (cM (cN 2) (cH 1)))))) (cM (cN 2) (cR (cM (cW (cH 1) 6) (cA (cN 1) (cM (cN 2) (cH 1))))))) (cM (cA (cN 1) (cM (cN 2) (cH 1))) (cR (cA (cA (cN (-1)) (cH 1)) (cM (cN 2) (cW (cH 1) 4)))))).
Definition QSTZ_e15 := (cD (cN 1) (cR (cM (cA (cN 1) (cH 1)) (cA (cN 1) (cM (cN 2) (cH 1)))))).
Definition QSTZ_e16 := (cD (cA (cA (cR (cD (cH 1) (cA (cN 1) (cH 1)))) (cM (cR (cD (cH 1) (cA (cN 1) (cH 1)))) (cA (cN 1) (cM (cN 2) (cH 1))))) (cM (cR (cM (cH 1) (cA (cN 1) (cH 1)))) (cA (cN 1) (cM (cN 2) (cH 1))))) (cM (cA (cN 1) (cH 1)) (cR (cA (cA (cN 3) (cM (cN 8) (cH 1))) (cM (cN 4) (cW (cH 1) 4)))))).
Definition QSTZ_e17 := (cO (cD (cR (cN 3)) (cR (cA (cN (-1)) (cM (cN 4) (cW (cH 1) 4)))))).
Definition QSTZ_e18 := (cD (cM (cN (-2)) (cA (cN (-1)) (cW (cH 1) 4))) (cR (cA (cB (cN 1) (cM (cN 5) (cW (cH 1) 4))) (cM (cN 4) (cW (cH 1) 8))))).
Definition QSTZ_e19 := (cD (cN (-2)) (cA (cN 1) (cM (cN 2) (cH 1)))).
Definition QSTZ_e20 := (cO (cD (cM (cR (cM (cH 1) (cA (cN (-1)) (cM (cN 2) (cH 1))))) (cA (cA (cA (cM (cN 3) (cR (cM (cH 1) (cA (cN 3) (cM (cN 2) (cH 1)))))) (cM (cM (cN 4) (cH 1)) (cR (cM (cH 1) (cA (cN 3) (cM (cN 2) (cH 1))))))) (cR (cM (cW (cH 1) 6) (cA (cN 3) (cM (cN 2) (cH 1)))))) (cM (cN 2) (cR (cM (cW (cH 1) 10) (cA (cN 3) (cM (cN 2) (cH 1)))))))) (cM (cM (cH 1) (cA (cN 1) (cH 1))) (cA (cA (cN 3) (cM (cN 8) (cH 1))) (cM (cN 4) (cW (cH 1) 4)))))).
Definition QSTZ_e21 := (cO (cD (cM (cR (cN 3)) (cA (cA (cM (cN 3) (cR (cM (cH 1) (cA (cN 1) (cH 1))))) (cM (cN 5) (cR (cM (cW (cH 1) 6) (cA (cN 1) (cH 1)))))) (cM (cN 2) (cR (cM (cW (cH 1) 10) (cA (cN 1) (cH 1))))))) (cR (cM (cM (cH 1) (cA (cN 1) (cM (cN 2) (cH 1)))) (cW (cA (cA (cN 3) (cM (cN 5) (cH 1))) (cM (cN 2) (cW (cH 1) 4))) 6))))).
Definition QSTZ_e22 := (cO (cD (cA (cA (cM (cN 9) (cR (cD (cH 1) (cA (cN 3) (cM (cN 2) (cH 1)))))) (cR (cM (cH 1) (cA (cN 3) (cM (cN 2) (cH 1)))))) (cM (cM (cN 2) (cH 1)) (cA (cM (cN 3) (cR (cD (cH 1) (cA (cN 3) (cM (cN 2) (cH 1)))))) (cR (cM (cH 1) (cA (cN 3) (cM (cN 2) (cH 1)))))))) (cM (cA (cN 3) (cM (cN 2) (cH 1))) (cR (cA (cA (cN 2) (cM (cN 5) (cH 1))) (cM (cN 2) (cW (cH 1) 4))))))).
Definition QSTZ_e23 := (cD (cR (cD (cA (cN 1) (cM (cN 2) (cH 1))) (cA (cN 1) (cH 1)))) (cR (cN 6))).
Definition QSTZ_e24 := (cD (cR (cD (cA (cN 1) (cM (cN 2) (cH 1))) (cA (cN 1) (cH 1)))) (cM (cN 2) (cR (cN 3)))).
Definition QSTZ_e25 := (cD (cR (cD (cA (cN 1) (cM (cN 2) (cH 1))) (cA (cN 1) (cH 1)))) (cN 2)).
Definition QSTZ_e26 := (cD (cR (cD (cA (cN 1) (cM (cN 2) (cH 1))) (cA (cN 1) (cH 1)))) (cR (cN 2))).
Definition QSTZ_e27 := (cD (cA (cN 3) (cM (cN 2) (cH 1))) (cM (cN 2) (cR (cA (cA (cN 3) (cM (cN 5) (cH 1))) (cM (cN 2) (cW (cH 1) 4)))))).
Definition QSTZ_e28 := (cD (cH 1) (cM (cN 2) (cR (cM (cH 1) (cA (cN 1) (cH 1)))))).
Definition QSTZ_e29 := (cD (cA (cR (cD (cA (cN 1) (cM (cN 2) (cH 1))) (cA (cN 1) (cH 1)))) (cM (cN 2) (cR (cA (cA (cN 1) (cM (cN 3) (cH 1))) (cM (cN 2) (cW (cH 1) 4)))))) (cA (cN 6) (cM (cN 4) (cH 1)))).
Definition QSTZ_e30 := (cD (cM (cQ (-1) 2) (cH 1)) (cM (cR (cN 3)) (cR (cM (cH 1) (cA (cN 1) (cH 1)))))).
Definition QSTZ_e31 := (cD (cM (cQ (-1) 2) (cA (cR (cD (cA (cN 1) (cM (cN 2) (cH 1))) (cA (cN 1) (cH 1)))) (cM (cN 2) (cR (cA (cA (cN 1) (cM (cN 3) (cH 1))) (cM (cN 2) (cW (cH 1) 4))))))) (cM (cR (cN 3)) (cA (cN 3) (cM (cN 2) (cH 1))))).
Definition QSTZ_e32 := (cD (cN 1) (cM (cN 2) (cR (cN 3)))).
Definition QSTZ_e33 := (cD (cM (cQ (-1) 2) (cH 1)) (cR (cM (cH 1) (cA (cN 1) (cH 1))))).
Definition QSTZ_e34 := (cO (cD (cA (cR (cD (cA (cN 1) (cM (cN 2) (cH 1))) (cA (cN 1) (cH 1)))) (cM (cN 2) (cR (cA (cA (cN 1) (cM (cN 3) (cH 1))) (cM (cN 2) (cW (cH 1) 4)))))) (cA (cN 6) (cM (cN 4) (cH 1))))).
Definition QSTZ_e35 := (cO (cD (cH 1) (cM (cR (cN 2)) (cR (cM (cH 1) (cA (cN 1) (cH 1))))))).
Definition QSTZ_e36 := (cO (cD (cA (cR (cD (cA (cN 1) (cM (cN 2) (cH 1))) (cA (cN 1) (cH 1)))) (cM (cN 2) (cR (cA (cA (cN 1) (cM (cN 3) (cH 1))) (cM (cN 2) (cW (cH 1) 4)))))) (cM (cR (cN 2)) (cA (cN 3) (cM (cN 2) (cH 1)))))).
Definition QSTZ_e37 := (cD (cR (cD (cA (cN 3) (cM (cN 2) (cH 1))) (cA (cN 1) (cH 1)))) (cR (cN 3))).
Definition QSTZ_e38 := (cD (cA (cN 2) (cH 1)) (cM (cR (cN 3)) (cR (cA (cA (cN 2) (cM (cN 3) (cH 1))) (cW (cH 1) 4))))).
Definition QSTZ_e39 := (cM (cQ (-1) 2) (cR (cD (cA (cN 1) (cM (cN 2) (cH 1))) (cA (cN 1) (cH 1))))).
Definition QSTZ_e40 := (cO (cD (cR (cD (cA (cN 1) (cM (cN 2) (cH 1))) (cA (cN 1) (cH 1)))) (cR (cN 3)))).
Definition QSTZ_e41 := (cD (cM (cQ (-1) 2) (cR (cD (cA (cN 1) (cM (cN 2) (cH 1))) (cA (cN 1) (cH 1))))) (cR (cN 6))).
Definition QSTZ_e42 := (cM (cQ (-1) 2) (cR (cD (cA (cN 3) (cM (cN 6) (cH 1))) (cA (cN 2) (cM (cN 2) (cH 1)))))).
Definition QSTZ_e43 := (cD (cM (cQ (-1) 2) (cR (cD (cA (cN 1) (cM (cN 2) (cH 1))) (cA (cN 1) (cH 1))))) (cR (cN 2))).
Definition QSTZ_e44 := (cD (cM (cQ (-1) 2) (cA (cN 3) (cM (cN 2) (cH 1)))) (cR (cA (cA (cN 3) (cM (cN 5) (cH 1))) (cM (cN 2) (cW (cH 1) 4))))).
Definition QSTZ_e45 := (cO (cD (cN 1) (cR (cN 2)))).
Definition QSTZ_e46 := (cD (cA (cN 3) (cM (cN 2) (cH 1))) (cM (cN 2) (cR (cA (cA (cN 6) (cM (cN 10) (cH 1))) (cM (cN 4) (cW (cH 1) 4)))))).
Definition QSTZ_e47 := (cD (cM (cQ (-1) 2) (cA (cN 3) (cM (cN 2) (cH 1)))) (cR (cA (cA (cN 6) (cM (cN 10) (cH 1))) (cM (cN 4) (cW (cH 1) 4))))).
Definition QSTZ_e48 := (cO (cD (cN 1) (cR (cN 6)))).
Definition QSTZ_e49 := (cD (cB (cN 1) (cM (cN 2) (cH 1))) (cM (cR (cN 6)) (cR (cA (cA (cN (-1)) (cH 1)) (cM (cN 2) (cW (cH 1) 4)))))).
Definition QSTZ_e50 := (cD (cM (cQ (-1) 2) (cR (cD (cA (cN 3) (cM (cN 2) (cH 1))) (cA (cN 1) (cH 1))))) (cR (cN 6))).
Definition QSTZ_e51 := (cO (cD (cM (cM (cR (cQ 2 3)) (cH 1)) (cA (cM (cN 2) (cR (cD (cM (cH 1) (cA (cN 1) (cM (cN 2) (cH 1)))) (cA (cA (cN 3) (cM (cN 5) (cH 1))) (cM (cN 2) (cW (cH 1) 4)))))) (cM (cN 3) (cR (cD (cA (cN 1) (cM (cN 2) (cH 1))) (cA (cA (cM (cN 3) (cH 1)) (cM (cN 5) (cW (cH 1) 4))) (cM (cN 2) (cW (cH 1) 6)))))))) (cR (cA (cA (cN 3) (cM (cN 8) (cH 1))) (cM (cN 4) (cW (cH 1) 4)))))).
Definition QSTZ_e52 := (cO (cD (cA (cA (cR (cD (cA (cN 1) (cM (cN 2) (cH 1))) (cA (cN 1) (cH 1)))) (cM (cN 5) (cR (cA (cA (cN 1) (cM (cN 3) (cH 1))) (cM (cN 2) (cW (cH 1) 4)))))) (cM (cM (cN 2) (cH 1)) (cR (cA (cA (cN 1) (cM (cN 3) (cH 1))) (cM (cN 2) (cW (cH 1) 4)))))) (cM (cR (cN 2)) (cA (cA (cN 6) (cM (cN 7) (cH 1))) (cM (cN 2) (cW (cH 1) 4)))))).
Definition QSTZ_e53 := (cO (cD (cN 1) (cR (cN 3)))).
Definition QSTZ_e54 := (cO (cD (cR (cD (cA (cN 1) (cM (cN 2) (cH 1))) (cA (cN 1) (cH 1)))) (cR (cN 2)))).
Definition QSTZ_e55 := (cO (cD (cR (cD (cA (cN 1) (cM (cN 2) (cH 1))) (cA (cN 1) (cH 1)))) (cR (cN 6)))).
Definition QSTZ_e56 := (cD (cR (cD (cA (cN 1) (cM (cN 2) (cH 1))) (cA (cN 1) (cH 1)))) (cR (cN 3))).
Definition QSTZ_e57 := (cO (cD (cH 1) (cM (cR (cN 3)) (cR (cM (cH 1) (cA (cN 1) (cH 1))))))).
Definition QSTZ_e58 := (cO (cD (cA (cR (cD (cA (cN 1) (cM (cN 2) (cH 1))) (cA (cN 1) (cH 1)))) (cM (cN 2) (cR (cA (cA (cN 1) (cM (cN 3) (cH 1))) (cM (cN 2) (cW (cH 1) 4)))))) (cM (cR (cN 3)) (cA (cN 3) (cM (cN 2) (cH 1)))))).
Definition QSTZ_e59 := (cO (cD (cR (cD (cA (cN 3) (cM (cN 2) (cH 1))) (cA (cN 1) (cH 1)))) (cR (cN 3)))).
Definition QSTZ_e60 := (cO (cD (cA (cN 2) (cH 1)) (cM (cR (cN 3)) (cR (cA (cA (cN 2) (cM (cN 3) (cH 1))) (cW (cH 1) 4)))))).
Definition QSTZ_e61 := (cD (cR (cD (cA (cN 1) (cM (cN 2) (cH 1))) (cA (cN 1) (cH 1)))) (cM (cN 2) (cR (cN 2)))).
Definition QSTZ_e62 := (cD (cR (cD (cA (cN 3) (cM (cN 2) (cH 1))) (cA (cN 1) (cH 1)))) (cR (cN 6))).
Definition QSTZ_e63 := (cD (cH 1) (cM (cR (cN 2)) (cR (cM (cH 1) (cA (cN 1) (cH 1)))))).
Definition QSTZ_e64 := (cD (cA (cR (cD (cA (cN 1) (cM (cN 2) (cH 1))) (cA (cN 1) (cH 1)))) (cM (cN 2) (cR (cA (cA (cN 1) (cM (cN 3) (cH 1))) (cM (cN 2) (cW (cH 1) 4)))))) (cM (cR (cN 2)) (cA (cN 3) (cM (cN 2) (cH 1))))).
Definition QSTZ_e65 := (cM (cQ (-1) 2) (cR (cN 3))).
Definition QSTZ_e66 := (cD (cR (cD (cA (cN 3) (cM (cN 6) (cH 1))) (cA (cN 2) (cM (cN 2) (cH 1))))) (cN 2)).
Definition QSTZ_e67 := (cO (cD (cR (cA (cN 2) (cD (cN 1) (cH 1)))) (cR (cN 6)))).
Definition QSTZ_e68 := (cD (cM (cQ (-1) 2) (cR (cA (cN 2) (cD (cN 1) (cH 1))))) (cR (cN 3))).
Definition QSTZ_e69 := (cM (cQ (-1) 2) (cR (cA (cN 2) (cD (cN 1) (cH 1))))).
Definition QSTZ_e70 := (cO (cD (cR (cA (cN 2) (cD (cN 1) (cH 1)))) (cR (cN 2)))).
Definition QSTZ_e71 := (cD (cR (cB (cN 2) (cD (cN 1) (cH 1)))) (cN 2)).
Definition QSTZ_e72 := (cM (cQ (-1) 2) (cR (cA (cN 1) (cD (cN 1) (cH 1))))).
Definition QSTZ_e73 := (cD (cR (cA (cN 2) (cD (cN 1) (cH 1)))) (cM (cN 2) (cR (cN 3)))).
Definition QSTZ_e74 := (cD (cR (cA (cN 1) (cD (cN 1) (cH 1)))) (cM (cN 2) (cR (cN 3)))).
Definition QSTZ_e75 := (cD (cR (cA (cN 2) (cD (cN 1) (cH 1)))) (cN 2)).
Definition QSTZ_e76 := (cD (cR (cA (cN 1) (cD (cN 1) (cH 1)))) (cN 2)).
Definition QSTZ_e77 := (cD (cR (cA (cN 2) (cD (cN 1) (cH 1)))) (cR (cN 2))).
Definition QSTZ_e78 := (cD (cR (cA (cN 1) (cD (cN 1) (cH 1)))) (cR (cN 2))).
Definition QSTZ_e79 := (cD (cR (cD (cA (cN (-1)) (cH 1)) (cH 1))) (cR (cN 3))).
Definition QSTZ_e80 := (cD (cM (cA (cN 1) (cH 1)) (cA (cN (-1)) (cM (cN 2) (cH 1)))) (cM (cH 1) (cR (cA (cA (cD (cN (-3)) (cH 1)) (cM (cN 9) (cH 1))) (cM (cN 6) (cW (cH 1) 4)))))).
Definition QSTZ_e81 := (cD (cR (cA (cN 2) (cD (cN 1) (cH 1)))) (cR (cN 3))).
Definition QSTZ_e82 := (cD (cR (cA (cN 2) (cD (cN 1) (cH 1)))) (cM (cN 2) (cR (cN 6)))).
Definition QSTZ_e83 := (cD (cR (cA (cN 3) (cD (cN 3) (cM (cN 2) (cH 1))))) (cN 2)).
Definition QSTZ_e84 := (cD (cR (cA (cN 2) (cD (cN 1) (cH 1)))) (cM (cN 2) (cR (cN 2)))).
Definition QSTZ_e85 := (cD (cB (cN 1) (cM (cN 2) (cH 1))) (cM (cN 2) (cR (cM (cH 1) (cA (cN (-1)) (cM (cN 2) (cH 1))))))).
Definition QSTZ_e86 := (cD (cR (cB (cN 2) (cD (cN 1) (cH 1)))) (cM (cN 2) (cR (cN 2)))).
Definition QSTZ_e87 := (cD (cM (cQ (-1) 2) (cR (cB (cN 2) (cD (cN 1) (cH 1))))) (cR (cN 2))).
Definition QSTZ_e88 := (cD (cM (cQ (-1) 2) (cR (cB (cN 2) (cD (cN 1) (cH 1))))) (cR (cN 6))).
Definition QSTZ_e89 := (cM (cR (cQ 2 3)) (cR (cA (cN 1) (cD (cN 1) (cH 1))))).
Definition QSTZ_e90 := (cD (cR (cA (cN 2) (cD (cN 3) (cH 1)))) (cR (cN 6))).
Definition QSTZ_e91 := (cD (cR (cA (cN 2) (cD (cN 1) (cH 1)))) (cR (cN 6))).
Definition QSTZ_e92 := (cO (cD (cR (cA (cN 2) (cD (cN 1) (cH 1)))) (cR (cN 3)))).
Definition QSTZ_e93 := (cD (cR (cA (cN 1) (cD (cN 1) (cH 1)))) (cR (cN 3))).
Definition QSTZ_e94 := (cO (cD (cR (cD (cA (cN (-1)) (cH 1)) (cH 1))) (cR (cN 3)))).
Definition QSTZ_e95 := (cO (cD (cM (cA (cN 1) (cH 1)) (cA (cN (-1)) (cM (cN 2) (cH 1)))) (cM (cH 1) (cR (cA (cA (cD (cN (-3)) (cH 1)) (cM (cN 9) (cH 1))) (cM (cN 6) (cW (cH 1) 4))))))).
Definition QSTZ_e96 := (cD (cM (cQ (-1) 2) (cR (cA (cN 2) (cD (cN 1) (cH 1))))) (cR (cN 2))).
Definition QSTZ_e97 := (cD (cR (cB (cN 2) (cD (cN 1) (cH 1)))) (cR (cN 6))).
Definition QSTZ_e98 := (cO (cD (cA (cN 1) (cH 1)) (cM (cR (cA (cN 2) (cD (cN 2) (cH 1)))) (cH 1)))).
Definition QSTZ_e99 := (cM (cQ (-1) 2) (cR (cA (cN 3) (cD (cN 3) (cM (cN 2) (cH 1)))))).
Definition QSTZ_e100 := (cD (cN 1) (cR (cA (cA (cN 1) (cM (cN 3) (cH 1))) (cM (cN 2) (cW (cH 1) 4))))).
Definition QSTZ_e101 := (cO (cD (cB (cB (cO (cD (cR (cD (cM (cH 1) (cA (cN 1) (cM (cN 2) (cH 1)))) (cA (cN 3) (cM (cN 2) (cH 1))))) (cA (cN 1) (cH 1)))) (cM (cH 1) (cR (cD (cM (cH 1) (cA (cN 1) (cM (cN 2) (cH 1)))) (cM (cW (cA (cN 1) (cH 1)) 4) (cA (cN 3) (cM (cN 2) (cH 1)))))))) (cM (cN 2) (cR (cD (cH 1) (cA (cA (cN 3) (cM (cN 8) (cH 1))) (cM (cN 4) (cW (cH 1) 4))))))) (cR (cA (cN 1) (cH 1))))).
Definition QSTZ_e102 := (cD (cR (cA (cN (-1)) (cW (cH 1) 4))) (cH 1)).
Definition QSTZ_e103 := (cD (cR (cD (cA (cN (-1)) (cM (cN 2) (cH 1))) (cA (cN 1) (cM (cN 2) (cH 1))))) (cH 1)).
Definition QSTZ_e104 := (cD (cA (cA (cN (-1)) (cH 1)) (cW (cH 1) 4)) (cM (cH 1) (cA (cN 1) (cH 1)))).
Definition QSTZ_e105 := (cD (cN 1) (cA (cN 1) (cH 1))).
Definition QSTZ_e106 := (cD (cM (cR (cD (cA (cN (-1)) (cM (cN 2) (cH 1))) (cA (cN 3) (cM (cN 2) (cH 1))))) (cB (cA (cR (cD (cA (cN (-1)) (cM (cN 2) (cH 1))) (cA (cA (cN 1) (cM (cN 3) (cH 1))) (cM (cN 2) (cW (cH 1) 4))))) (cM (cH 1) (cR (cD (cA (cN (-1)) (cM (cN 2) (cH 1))) (cA (cA (cN 1) (cM (cN 3) (cH 1))) (cM (cN 2) (cW (cH 1) 4))))))) (cM (cN 2) (cR (cD (cA (cA (cN 1) (cM (cN 3) (cH 1))) (cM (cN 2) (cW (cH 1) 4))) (cA (cN (-1)) (cM (cN 2) (cH 1)))))))) (cW (cA (cN 1) (cH 1)) 3)).
Definition QSTZ_e107 := (cO (cM (cR (cA (cN 1) (cH 1))) (cB (cB (cM (cN (-2)) (cR (cD (cM (cH 1) (cW (cA (cN 1) (cM (cN 2) (cH 1))) 4)) (cM (cM (cW (cA (cN 1) (cH 1)) 6) (cA (cN 2) (cH 1))) (cW (cA (cN 3) (cM (cN 2) (cH 1))) 4))))) (cD (cM (cA (cN 1) (cM (cN 2) (cH 1))) (cR (cD (cH 1) (cA (cA (cN 2) (cM (cN 3) (cH 1))) (cW (cH 1) 4))))) (cA (cN 3) (cM (cN 2) (cH 1))))) (cD (cM (cN 3) (cR (cD (cH 1) (cA (cA (cN 2) (cM (cN 3) (cH 1))) (cW (cH 1) 4))))) (cA (cA (cN 3) (cM (cN 5) (cH 1))) (cM (cN 2) (cW (cH 1) 4))))))).
Definition QSTZ_e108 := (cR (cD (cB (cA (cN 3) (cH 1)) (cM (cN 2) (cW (cH 1) 4))) (cB (cH 1) (cM (cN 2) (cW (cH 1) 4))))).
Definition QSTZ_e109 := (cD (cM (cR (cN 3)) (cR (cD (cA (cN (-1)) (cH 1)) (cA (cN (-1)) (cM (cN 2) (cH 1)))))) (cH 1)).
Definition QSTZ_e110 := (cO (cD (cR (cN 3)) (cR (cM (cH 1) (cA (cN (-1)) (cM (cN 2) (cH 1))))))).
Definition QSTZ_e111 := (cD (cA (cA (cN (-4)) (cH 1)) (cM (cN 2) (cW (cH 1) 4))) (cR (cM (cM (cH 1) (cA (cN 1) (cH 1))) (cA (cN (-1)) (cM (cN 4) (cW (cH 1) 4)))))).
Definition QSTZ_e112 := (cD (cA (cA (cB (cM (cN 3) (cR (cD (cM (cM (cH 1) (cA (cN 1) (cH 1))) (cA (cN 3) (cM (cN 2) (cH 1)))) (cA (cN (-1)) (cM (cN 4) (cW (cH 1) 4)))))) (cM (cM (cN 10) (cH 1)) (cR (cD (cM (cM (cH 1) (cA (cN 1) (cH 1))) (cA (cN 3) (cM (cN 2) (cH 1)))) (cA (cN (-1)) (cM (cN 4) (cW (cH 1) 4))))))) (cM (cM (cN 8) (cW (cH 1) 4)) (cR (cD (cM (cM (cH 1) (cA (cN 1) (cH 1))) (cA (cN 3) (cM (cN 2) (cH 1)))) (cA (cN (-1)) (cM (cN 4) (cW (cH 1) 4))))))) (cM (cM (cN 9) (cA (cN 1) (cH 1))) (cR (cD (cM (cH 1) (cA (cA (cN (-3)) (cM (cN 4) (cH 1))) (cM (cN 4) (cW (cH 1) 4)))) (cA (cA (cN 1) (cM (cN 3) (cH 1))) (cM (cN 2) (cW (cH 1) 4))))))) (cM (cM (cM (cN 2) (cH 1)) (cW (cA (cN 1) (cH 1)) 3)) (cA (cN 3) (cM (cN 2) (cH 1))))).
Definition QSTZ_e113 := (cD (cB (cA (cA (cB (cB (cM (cN 3) (cR (cD (cM (cH 1) (cA (cN 3) (cM (cN 2) (cH 1)))) (cA (cN 1) (cM (cN 2) (cH 1)))))) (cM (cN 5) (cR (cD (cM (cW (cH 1) 6) (cA (cN 3) (cM (cN 2) (cH 1)))) (cA (cN 1) (cM (cN 2) (cH 1))))))) (cM (cN 4) (cR (cD (cM (cW (cH 1) 10) (cA (cN 3) (cM (cN 2) (cH 1)))) (cA (cN 1) (cM (cN 2) (cH 1))))))) (cM (cN 4) (cR (cD (cM (cW (cH 1) 14) (cA (cN 3) (cM (cN 2) (cH 1)))) (cA (cN 1) (cM (cN 2) (cH 1))))))) (cR (cM (cW (cH 1) 6) (cA (cA (cN 3) (cM (cN 8) (cH 1))) (cM (cN 4) (cW (cH 1) 4)))))) (cM (cN 2) (cR (cM (cW (cH 1) 10) (cA (cA (cN 3) (cM (cN 8) (cH 1))) (cM (cN 4) (cW (cH 1) 4))))))) (cM (cM (cH 1) (cA (cN 3) (cM (cN 2) (cH 1)))) (cR (cM (cH 1) (cA (cA (cN (-1)) (cH 1)) (cM (cN 2) (cW (cH 1) 4))))))).
Definition QSTZ_e114 := (cO (cM (cR (cA (cN 1) (cH 1))) (cA (cB (cM (cB (cN 3) (cM (cN 2) (cH 1))) (cR (cD (cM (cH 1) (cA (cN 1) (cM (cN 2) (cH 1)))) (cM (cW (cA (cN 1) (cH 1)) 4) (cW (cA (cN 3) (cM (cN 2) (cH 1))) 6))))) (cD (cM (cM (cN 4) (cA (cN (-3)) (cM (cN 4) (cH 1)))) (cR (cD (cH 1) (cA (cA (cN 3) (cM (cN 8) (cH 1))) (cM (cN 4) (cW (cH 1) 4)))))) (cA (cA (cN 3) (cM (cN 5) (cH 1))) (cM (cN 2) (cW (cH 1) 4))))) (cD (cB (cN 9) (cM (cN 18) (cH 1))) (cM (cA (cA (cN 3) (cM (cN 5) (cH 1))) (cM (cN 2) (cW (cH 1) 4))) (cR (cM (cH 1) (cA (cA (cN 3) (cM (cN 8) (cH 1))) (cM (cN 4) (cW (cH 1) 4)))))))))).
Definition QSTZ_e115 := (cD (cR (cN 3)) (cR (cM (cA (cN 1) (cH 1)) (cA (cN 3) (cM (cN 2) (cH 1)))))).
Definition QSTZ_e116 := (cD (cM (cQ (-1) 2) (cM (cM (cR (cN 3)) (cR (cD (cA (cA (cN (-1)) (cH 1)) (cM (cN 2) (cW (cH 1) 4))) (cA (cN 2) (cH 1))))) (cB (cA (cA (cM (cN 9) (cR (cD (cA (cA (cN 3) (cM (cN 5) (cH 1))) (cM (cN 2) (cW (cH 1) 4))) (cA (cN (-1)) (cM (cN 2) (cH 1)))))) (cM (cM (cN 20) (cH 1)) (cR (cD (cA (cA (cN 3) (cM (cN 5) (cH 1))) (cM (cN 2) (cW (cH 1) 4))) (cA (cN (-1)) (cM (cN 2) (cH 1))))))) (cM (cM (cN 4) (cW (cH 1) 4)) (cR (cD (cA (cA (cN 3) (cM (cN 5) (cH 1))) (cM (cN 2) (cW (cH 1) 4))) (cA (cN (-1)) (cM (cN 2) (cH 1))))))) (cM (cN 3) (cR (cA (cA (cA (cN (-3)) (cH 1)) (cM (cN 8) (cW (cH 1) 4))) (cM (cN 4) (cW (cH 1) 6)))))))) (cW (cA (cA (cN 3) (cM (cN 5) (cH 1))) (cM (cN 2) (cW (cH 1) 4))) 4)).
Definition QSTZ_e117 := (cM (cQ (-1) 2) (cM (cR (cA (cN 1) (cH 1))) (cB (cB (cB (cM (cN (-18)) (cR (cD (cM (cH 1) (cW (cA (cN 1) (cM (cN 2) (cH 1))) 4)) (cM (cM (cW (cA (cN 3) (cM (cN 2) (cH 1))) 6) (cA (cN 5) (cM (cN 2) (cH 1)))) (cW (cA (cA (cN 2) (cM (cN 3) (cH 1))) (cW (cH 1) 4)) 4))))) (cD (cM (cM (cN 2) (cA (cN 1) (cM (cN 2) (cH 1)))) (cR (cD (cH 1) (cA (cA (cN 15) (cM (cN 16) (cH 1))) (cM (cN 4) (cW (cH 1) 4)))))) (cA (cN 2) (cH 1)))) (cD (cM (cM (cN 12) (cA (cN 1) (cM (cN 2) (cH 1)))) (cR (cD (cH 1) (cA (cA (cN 15) (cM (cN 16) (cH 1))) (cM (cN 4) (cW (cH 1) 4)))))) (cA (cA (cN 6) (cM (cN 7) (cH 1))) (cM (cN 2) (cW (cH 1) 4))))) (cD (cM (cN 24) (cR (cD (cH 1) (cA (cA (cN 15) (cM (cN 16) (cH 1))) (cM (cN 4) (cW (cH 1) 4)))))) (cA (cA (cA (cN 6) (cM (cN 13) (cH 1))) (cM (cN 9) (cW (cH 1) 4))) (cM (cN 2) (cW (cH 1) 6))))))).
Definition QSTZ_e118 := (cD (cR (cD (cM (cH 1) (cA (cA (cN 3) (cM (cN 5) (cH 1))) (cM (cN 2) (cW (cH 1) 4)))) (cA (cN 1) (cM (cN 2) (cH 1))))) (cA (cN 1) (cH 1))).
Definition QSTZ_e119 := (cD (cM (cR (cA (cN 3) (cM (cN 2) (cH 1)))) (cA (cO (cD (cN 1) (cR (cD (cM (cA (cN 1) (cH 1)) (cA (cN 3) (cM (cN 2) (cH 1)))) (cA (cN 2) (cM (cN 4) (cH 1))))))) (cD (cM (cM (cN 2) (cR (cN 2))) (cH 1)) (cR (cM (cA (cN 1) (cH 1)) (cA (cA (cN 3) (cM (cN 8) (cH 1))) (cM (cN 4) (cW (cH 1) 4)))))))) (cR (cN 2))).
Definition QSTZ_e120 := (cD (cR (cA (cA (cN (-3)) (cM (cN 4) (cH 1))) (cM (cN 4) (cW (cH 1) 4)))) (cA (cN 1) (cM (cN 2) (cH 1)))).
Definition QSTZ_e121 := (cO (cD (cR (cD (cA (cN 3) (cM (cN 2) (cH 1))) (cA (cN 1) (cM (cN 2) (cH 1))))) (cA (cN 1) (cH 1)))).
Definition QSTZ_e122 := (cD (cA (cM (cN 2) (cR (cD (cH 1) (cA (cN 2) (cH 1))))) (cR (cD (cW (cH 1) 6) (cA (cN 2) (cH 1))))) (cA (cN 1) (cH 1))).
Definition QSTZ_e123 := (cD (cN 1) (cA (cA (cN 1) (cM (cN 3) (cH 1))) (cM (cN 2) (cW (cH 1) 4)))).
Definition QSTZ_e124 := (cO (cD (cN 1) (cA (cN 1) (cH 1)))).
Definition QSTZ_e125 := (cD (cN 1) (cR (cD (cM (cH 1) (cA (cN 1) (cM (cN 2) (cH 1)))) (cA (cA (cN (-3)) (cH 1)) (cM (cN 2) (cW (cH 1) 4)))))).
Definition QSTZ_e126 := (cO (cD (cR (cA (cA (cN 9) (cM (cN 15) (cH 1))) (cM (cN 6) (cW (cH 1) 4)))) (cM (cA (cN 1) (cH 1)) (cA (cN 1) (cM (cN 2) (cH 1)))))).
Definition QSTZ_e127 := (cD (cR (cM (cM (cH 1) (cA (cN 3) (cM (cN 2) (cH 1)))) (cA (cA (cN (-2)) (cM (cN 3) (cH 1))) (cM (cN 2) (cW (cH 1) 4))))) (cA (cA (cN 1) (cM (cN 3) (cH 1))) (cM (cN 2) (cW (cH 1) 4)))).
Definition QSTZ_e128 := (cD (cR (cN 3)) (cM (cR (cM (cH 1) (cA (cN 1) (cH 1)))) (cA (cN 1) (cM (cN 2) (cH 1))))).
Definition QSTZ_e129 := (cD (cM (cN (-4)) (cR (cM (cM (cH 1) (cA (cN 2) (cH 1))) (cA (cA (cN 3) (cM (cN 5) (cH 1))) (cM (cN 2) (cW (cH 1) 4)))))) (cM (cA (cN 1) (cH 1)) (cA (cA (cN 3) (cM (cN 8) (cH 1))) (cM (cN 4) (cW (cH 1) 4))))).
Definition QSTZ_e130 := (cD (cM (cA (cN 5) (cM (cN 2) (cH 1))) (cR (cD (cM (cH 1) (cA (cN 1) (cH 1))) (cA (cA (cN 15) (cM (cN 16) (cH 1))) (cM (cN 4) (cW (cH 1) 4)))))) (cA (cN 1) (cH 1))).
Definition QSTZ_e131 := (cD (cM (cM (cR (cN 3)) (cR (cM (cH 1) (cA (cN 1) (cH 1))))) (cA (cB (cA (cA (cB (cR (cD (cM (cM (cW (cA (cN 2) (cH 1)) 4) (cA (cN 3) (cM (cN 2) (cH 1)))) (cW (cA (cA (cN 1) (cM (cN 3) (cH 1))) (cM (cN 2) (cW (cH 1) 4))) 6)) (cH 1))) (cM (cM (cM (cN 4) (cW (cA (cN 1) (cH 1)) 3)) (cR (cD (cM (cH 1) (cA (cN 1) (cM (cN 2) (cH 1)))) (cA (cN 3) (cM (cN 2) (cH 1)))))) (cA (cA (cN 2) (cM (cN 5) (cH 1))) (cM (cN 2) (cW (cH 1) 4))))) (cD (cM (cW (cA (cN 1) (cH 1)) 3) (cA (cA (cN 2) (cM (cN 5) (cH 1))) (cM (cN 2) (cW (cH 1) 4)))) (cR (cD (cM (cH 1) (cA (cN 3) (cM (cN 2) (cH 1)))) (cA (cN 1) (cM (cN 2) (cH 1))))))) (cM (cM (cN 3) (cA (cA (cN 2) (cM (cN 3) (cH 1))) (cW (cH 1) 4))) (cR (cD (cM (cM (cW (cB (cN 1) (cM (cN 2) (cH 1))) 4) (cH 1)) (cA (cN 1) (cM (cN 2) (cH 1)))) (cA (cA (cN 3) (cM (cN 5) (cH 1))) (cM (cN 2) (cW (cH 1) 4))))))) (cM (cM (cN 5) (cR (cD (cM (cH 1) (cA (cN 1) (cM (cN 2) (cH 1)))) (cA (cA (cN 3) (cM (cN 5) (cH 1))) (cM (cN 2) (cW (cH 1) 4)))))) (cA (cA (cA (cN 2) (cM (cN 7) (cH 1))) (cM (cN 7) (cW (cH 1) 4))) (cM (cN 2) (cW (cH 1) 6))))) (cM (cM (cM (cN 2) (cH 1)) (cR (cD (cM (cH 1) (cA (cN 1) (cM (cN 2) (cH 1)))) (cA (cA (cN 3) (cM (cN 5) (cH 1))) (cM (cN 2) (cW (cH 1) 4)))))) (cA (cA (cA (cN 2) (cM (cN 7) (cH 1))) (cM (cN 7) (cW (cH 1) 4))) (cM (cN 2) (cW (cH 1) 6)))))) (cM (cM (cN 2) (cA (cN 1) (cM (cN 2) (cH 1)))) (cW (cA (cA (cN 2) (cM (cN 3) (cH 1))) (cW (cH 1) 4)) 4))).
Definition QSTZ_e132 := (cO (cD (cM (cM (cR (cN 3)) (cR (cA (cN 1) (cH 1)))) (cA (cA (cA (cB (cM (cN 7) (cR (cD (cA (cN 5) (cM (cN 2) (cH 1))) (cA (cN 3) (cM (cN 2) (cH 1)))))) (cM (cM (cN 4) (cW (cH 1) 6)) (cR (cD (cA (cN 5) (cM (cN 2) (cH 1))) (cA (cN 3) (cM (cN 2) (cH 1))))))) (cR (cA (cA (cN 15) (cM (cN 16) (cH 1))) (cM (cN 4) (cW (cH 1) 4))))) (cM (cM (cN 2) (cW (cH 1) 4)) (cA (cM (cN (-5)) (cR (cD (cA (cN 5) (cM (cN 2) (cH 1))) (cA (cN 3) (cM (cN 2) (cH 1)))))) (cR (cA (cA (cN 15) (cM (cN 16) (cH 1))) (cM (cN 4) (cW (cH 1) 4))))))) (cM (cH 1) (cA (cM (cN (-2)) (cR (cD (cA (cN 5) (cM (cN 2) (cH 1))) (cA (cN 3) (cM (cN 2) (cH 1)))))) (cM (cN 3) (cR (cA (cA (cN 15) (cM (cN 16) (cH 1))) (cM (cN 4) (cW (cH 1) 4))))))))) (cM (cW (cA (cN 5) (cM (cN 2) (cH 1))) 3) (cA (cA (cN 2) (cM (cN 3) (cH 1))) (cW (cH 1) 4))))).
Definition QSTZ_e133 := (cD (cM (cR (cM (cA (cN 1) (cH 1)) (cA (cN 1) (cM (cN 2) (cH 1))))) (cA (cA (cA (cM (cN 15) (cR (cD (cA (cN 2) (cH 1)) (cA (cA (cN 1) (cM (cN 3) (cH 1))) (cM (cN 2) (cW (cH 1) 4)))))) (cM (cN 9) (cR (cD (cA (cA (cN 2) (cM (cN 5) (cH 1))) (cM (cN 2) (cW (cH 1) 4))) (cA (cN 1) (cH 1)))))) (cM (cN 6) (cR (cA (cA (cA (cN 2) (cM (cN 7) (cH 1))) (cM (cN 7) (cW (cH 1) 4))) (cM (cN 2) (cW (cH 1) 6)))))) (cM (cH 1) (cR (cA (cA (cA (cN 2) (cM (cN 7) (cH 1))) (cM (cN 7) (cW (cH 1) 4))) (cM (cN 2) (cW (cH 1) 6))))))) (cM (cW (cA (cN 2) (cH 1)) 3) (cA (cA (cN 15) (cM (cN 11) (cH 1))) (cM (cN 2) (cW (cH 1) 4))))).
Definition QSTZ_e134 := (cD (cA (cR (cD (cA (cN (-1)) (cM (cN 2) (cH 1))) (cA (cN 1) (cM (cN 2) (cH 1))))) (cR (cA (cN (-1)) (cM (cN 4) (cW (cH 1) 4))))) (cM (cN 2) (cR (cM (cH 1) (cA (cN 1) (cH 1)))))).
Definition QSTZ_e135 := (cD (cN 1) (cA (cH 1) (cM (cN 2) (cW (cH 1) 4)))).
Definition QSTZ_e136 := (cD (cA (cR (cD (cA (cN (-1)) (cH 1)) (cH 1))) (cR (cM (cA (cN (-1)) (cH 1)) (cH 1)))) (cR (cM (cH 1) (cA (cN 1) (cH 1))))).
Definition QSTZ_e137 := (cD (cA (cA (cR (cM (cM (cM (cH 1) (cA (cN 1) (cH 1))) (cA (cN (-1)) (cM (cN 2) (cH 1)))) (cA (cN 1) (cM (cN 2) (cH 1))))) (cR (cD (cM (cH 1) (cA (cN (-1)) (cM (cN 2) (cH 1)))) (cA (cA (cN 1) (cM (cN 3) (cH 1))) (cM (cN 2) (cW (cH 1) 4)))))) (cR (cD (cM (cH 1) (cA (cN (-1)) (cM (cN 4) (cW (cH 1) 4)))) (cA (cN 1) (cH 1))))) (cR (cM (cM (cH 1) (cA (cN 1) (cM (cN 2) (cH 1)))) (cA (cA (cN 3) (cM (cN 5) (cH 1))) (cM (cN 2) (cW (cH 1) 4)))))).
Definition QSTZ_e138 := (cD (cR (cN 3)) (cR (cM (cH 1) (cA (cN (-1)) (cM (cN 2) (cH 1)))))).
Definition QSTZ_e139 := (cD (cR (cN 3)) (cM (cH 1) (cR (cA (cN (-1)) (cM (cN 4) (cW (cH 1) 4)))))).
Definition QSTZ_e140 := (cD (cM (cN 2) (cA (cA (cB (cR (cO (cD (cA (cN 1) (cH 1)) (cB (cA (cN 1) (cH 1)) (cM (cN 2) (cW (cH 1) 4)))))) (cM (cM (cN 3) (cH 1)) (cR (cO (cD (cA (cN 1) (cH 1)) (cB (cA (cN 1) (cH 1)) (cM (cN 2) (cW (cH 1) 4)))))))) (cM (cM (cN 2) (cW (cH 1) 4)) (cR (cO (cD (cA (cN 1) (cH 1)) (cB (cA (cN 1) (cH 1)) (cM (cN 2) (cW (cH 1) 4)))))))) (cM (cN 3) (cR (cD (cA (cN (-1)) (cW (cH 1) 4)) (cA (cN 1) (cM (cN 2) (cH 1)))))))) (cM (cA (cN 1) (cH 1)) (cR (cM (cH 1) (cA (cN (-1)) (cM (cN 4) (cW (cH 1) 4))))))).
Definition QSTZ_e141 := (cD (cA (cB (cA (cA (cO (cM (cH 1) (cR (cD (cM (cM (cA (cN (-1)) (cM (cN 2) (cH 1))) (cA (cN 1) (cM (cN 2) (cH 1)))) (cA (cA (cN 3) (cM (cN 5) (cH 1))) (cM (cN 2) (cW (cH 1) 4)))) (cA (cN (-1)) (cH 1)))))) (cM (cW (cH 1) 4) (cR (cD (cM (cM (cA (cN (-1)) (cM (cN 2) (cH 1))) (cA (cN 1) (cM (cN 2) (cH 1)))) (cA (cA (cN 3) (cM (cN 5) (cH 1))) (cM (cN 2) (cW (cH 1) 4)))) (cA (cN (-1)) (cH 1)))))) (cM (cN 3) (cR (cD (cM (cA (cB (cN 1) (cM (cN 3) (cH 1))) (cM (cN 2) (cW (cH 1) 4))) (cA (cA (cN 3) (cM (cN 5) (cH 1))) (cM (cN 2) (cW (cH 1) 4)))) (cA (cN 1) (cM (cN 2) (cH 1))))))) (cM (cM (cN 4) (cH 1)) (cR (cD (cA (cA (cA (cN (-3)) (cH 1)) (cM (cN 8) (cW (cH 1) 4))) (cM (cN 4) (cW (cH 1) 6))) (cA (cB (cN (-1)) (cH 1)) (cM (cN 2) (cW (cH 1) 4))))))) (cM (cM (cN 4) (cW (cH 1) 4)) (cR (cD (cA (cA (cA (cN (-3)) (cH 1)) (cM (cN 8) (cW (cH 1) 4))) (cM (cN 4) (cW (cH 1) 6))) (cA (cB (cN (-1)) (cH 1)) (cM (cN 2) (cW (cH 1) 4))))))) (cM (cM (cH 1) (cR (cA (cN 1) (cM (cN 2) (cH 1))))) (cA (cA (cN 3) (cM (cN 5) (cH 1))) (cM (cN 2) (cW (cH 1) 4))))).
Definition QSTZ_e142 := (cD (cM (cR (cN 3)) (cA (cA (cM (cN 3) (cR (cD (cM (cH 1) (cA (cA (cN (-1)) (cH 1)) (cM (cN 2) (cW (cH 1) 4)))) (cA (cN 1) (cM (cN 2) (cH 1)))))) (cM (cM (cN 4) (cH 1)) (cR (cD (cM (cH 1) (cA (cA (cN (-1)) (cH 1)) (cM (cN 2) (cW (cH 1) 4)))) (cA (cN 1) (cM (cN 2) (cH 1))))))) (cR (cM (cW (cH 1) 6) (cA (cA (cB (cN (-1)) (cH 1)) (cM (cN 4) (cW (cH 1) 4))) (cM (cN 4) (cW (cH 1) 6))))))) (cM (cM (cM (cH 1) (cW (cA (cN 1) (cH 1)) 3)) (cR (cA (cN 1) (cM (cN 2) (cH 1))))) (cA (cN 3) (cM (cN 2) (cH 1))))).
Definition QSTZ_e143 := (cD (cA (cA (cA (cM (cM (cN 3) (cA (cN 1) (cM (cN 2) (cH 1)))) (cR (cD (cM (cH 1) (cA (cA (cN (-1)) (cH 1)) (cM (cN 2) (cW (cH 1) 4)))) (cA (cN 3) (cM (cN 2) (cH 1)))))) (cM (cN 3) (cR (cD (cM (cH 1) (cA (cN (-1)) (cM (cN 2) (cH 1)))) (cA (cA (cN 3) (cM (cN 5) (cH 1))) (cM (cN 2) (cW (cH 1) 4))))))) (cM (cM (cN 3) (cA (cN 1) (cM (cN 2) (cH 1)))) (cR (cD (cM (cH 1) (cA (cN (-1)) (cM (cN 2) (cH 1)))) (cA (cA (cN 3) (cM (cN 5) (cH 1))) (cM (cN 2) (cW (cH 1) 4))))))) (cM (cA (cN 1) (cM (cN 2) (cH 1))) (cR (cM (cH 1) (cA (cA (cA (cN (-3)) (cH 1)) (cM (cN 8) (cW (cH 1) 4))) (cM (cN 4) (cW (cH 1) 6))))))) (cM (cM (cN 2) (cA (cN 1) (cH 1))) (cR (cM (cH 1) (cA (cA (cA (cN 6) (cM (cN 19) (cH 1))) (cM (cN 16) (cW (cH 1) 4))) (cM (cN 4) (cW (cH 1) 6))))))).
Definition QSTZ_e144 := (cM (cR (cN 2)) (cR (cD (cH 1) (cA (cN 1) (cM (cN 2) (cH 1)))))).
Definition QSTZ_e145 := (cR (cD (cH 1) (cA (cN 1) (cM (cN 2) (cH 1))))).
Definition QSTZ_e146 := (cM (cR (cN 2)) (cR (cD (cH 1) (cA (cN 3) (cM (cN 6) (cH 1)))))).
Definition QSTZ_e147 := (cD (cN 1) (cR (cA (cN 6) (cD (cN 3) (cH 1))))).
Definition QSTZ_e148 := (cD (cB (cN (-1)) (cH 1)) (cR (cA (cA (cN 1) (cM (cN 3) (cH 1))) (cM (cN 2) (cW (cH 1) 4))))).
Definition QSTZ_e149 := (cO (cD (cM (cR (cN 2)) (cA (cN 1) (cH 1))) (cR (cA (cA (cN 1) (cM (cN 3) (cH 1))) (cM (cN 2) (cW (cH 1) 4)))))).
Definition QSTZ_e150 := (cO (cD (cA (cN 1) (cH 1)) (cR (cA (cA (cN 1) (cM (cN 3) (cH 1))) (cM (cN 2) (cW (cH 1) 4)))))).
Definition QSTZ_e151 := (cO (cD (cM (cR (cN 2)) (cA (cN 1) (cH 1))) (cR (cA (cA (cN 3) (cM (cN 9) (cH 1))) (cM (cN 6) (cW (cH 1) 4)))))).
Definition QSTZ_e152 := (cD (cB (cN (-1)) (cH 1)) (cR (cA (cA (cN 3) (cM (cN 9) (cH 1))) (cM (cN 6) (cW (cH 1) 4))))).
Definition QSTZ_e153 := (cD (cM (cQ (-1) 2) (cA (cA (cM (cM (cN 2) (cH 1)) (cR (cD (cM (cH 1) (cA (cN 1) (cM (cN 2) (cH 1)))) (cW (cA (cN 1) (cH 1)) 8)))) (cM (cW (cH 1) 4) (cR (cD (cM (cH 1) (cA (cN 1) (cM (cN 2) (cH 1)))) (cW (cA (cN 1) (cH 1)) 8))))) (cD (cM (cR (cD (cH 1) (cA (cN 1) (cM (cN 2) (cH 1))))) (cA (cA (cN 2) (cM (cN 4) (cH 1))) (cW (cH 1) 4))) (cW (cA (cN 1) (cH 1)) 4)))) (cA (cN 1) (cH 1))).
Definition QSTZ_e154 := (cO (cM (cR (cN 2)) (cR (cD (cH 1) (cA (cN 3) (cM (cN 6) (cH 1))))))).
Definition QSTZ_e155 := (cD (cN 2) (cR (cA (cN 6) (cD (cN 3) (cH 1))))).
Definition QSTZ_e156 := (cD (cA (cN 1) (cH 1)) (cR (cA (cA (cN 1) (cM (cN 3) (cH 1))) (cM (cN 2) (cW (cH 1) 4))))).
Definition QSTZ_e157 := (cD (cM (cR (cN 2)) (cA (cN 1) (cH 1))) (cR (cA (cA (cN 3) (cM (cN 9) (cH 1))) (cM (cN 6) (cW (cH 1) 4))))).
Definition QSTZ_e158 := (cD (cM (cN (-2)) (cA (cN 1) (cH 1))) (cR (cA (cA (cN 3) (cM (cN 9) (cH 1))) (cM (cN 6) (cW (cH 1) 4))))).
Definition QSTZ_e159 := (cD (cR (cB (cN 2) (cD (cN 1) (cH 1)))) (cR (cN 2))).
Definition QSTZ_e160 := (cM (cQ (-1) 2) (cR (cB (cN 2) (cD (cN 1) (cH 1))))).
Definition QSTZ_e161 := (cD (cR (cB (cN 2) (cD (cN 1) (cH 1)))) (cM (cN 2) (cR (cN 3)))).
Definition QSTZ_e162 := (cO (cD (cR (cA (cN 1) (cD (cN 1) (cH 1)))) (cR (cN 2)))).
Definition QSTZ_e163 := (cD (cN 1) (cR (cA (cN 2) (cD (cN 2) (cH 1))))).
Definition QSTZ_e164 := (cM (cQ (-1) 2) (cR (cD (cH 1) (cA (cN 1) (cH 1))))).
Definition QSTZ_e165 := (cD (cB (cN (-1)) (cH 1)) (cM (cN 2) (cR (cM (cH 1) (cA (cN 1) (cH 1)))))).
Definition QSTZ_e166 := (cD (cR (cD (cH 1) (cA (cN 1) (cH 1)))) (cN 2)).
Definition QSTZ_e167 := (cD (cM (cQ (-1) 2) (cR (cA (cN 1) (cD (cN 1) (cH 1))))) (cR (cN 3))).
Definition QSTZ_e168 := (cD (cN 1) (cM (cN 2) (cR (cA (cN 3) (cD (cN 3) (cH 1)))))).
Definition QSTZ_e169 := (cD (cR (cB (cN 2) (cD (cN 1) (cH 1)))) (cR (cN 3))).
Definition QSTZ_e170 := (cD (cB (cO (cR (cD (cA (cN 3) (cM (cN 2) (cH 1))) (cW (cA (cN 1) (cH 1)) 6)))) (cD (cM (cA (cN 1) (cM (cN 2) (cH 1))) (cR (cA (cA (cN 3) (cM (cN 5) (cH 1))) (cM (cN 2) (cW (cH 1) 4))))) (cW (cA (cN 1) (cH 1)) 4))) (cM (cN 2) (cR (cN 2)))).
Definition QSTZ_e171 := (cD (cA (cR (cD (cA (cN 3) (cM (cN 2) (cH 1))) (cW (cA (cN 1) (cH 1)) 6))) (cM (cA (cN 1) (cM (cN 2) (cH 1))) (cA (cD (cN 1) (cM (cW (cA (cN 1) (cH 1)) 3) (cR (cA (cN 3) (cM (cN 2) (cH 1)))))) (cD (cN 2) (cR (cA (cA (cN 3) (cM (cN 5) (cH 1))) (cM (cN 2) (cW (cH 1) 4)))))))) (cN 4)).
Definition QSTZ_e172 := (cB (cM (cQ (-1) 4) (cR (cD (cA (cN 3) (cM (cN 2) (cH 1))) (cW (cA (cN 1) (cH 1)) 6)))) (cD (cM (cA (cN 1) (cM (cN 2) (cH 1))) (cR (cA (cA (cN 3) (cM (cN 5) (cH 1))) (cM (cN 2) (cW (cH 1) 4))))) (cM (cN 4) (cW (cA (cN 1) (cH 1)) 4)))).
Definition QSTZ_e173 := (cD (cB (cO (cR (cD (cA (cN 3) (cM (cN 2) (cH 1))) (cW (cA (cN 1) (cH 1)) 6)))) (cD (cM (cA (cN 1) (cM (cN 2) (cH 1))) (cR (cA (cA (cN 3) (cM (cN 5) (cH 1))) (cM (cN 2) (cW (cH 1) 4))))) (cW (cA (cN 1) (cH 1)) 4))) (cM (cN 4) (cR (cN 3)))).
Definition QSTZ_e174 := (cD (cN 1) (cR (cA (cN 3) (cD (cN 3) (cH 1))))).
Definition QSTZ_e175 := (cO (cD (cR (cA (cN 1) (cD (cN 1) (cH 1)))) (cR (cN 3)))).
Definition QSTZ_e176 := (cO (cD (cR (cB (cN 2) (cD (cN 1) (cH 1)))) (cR (cN 3)))).
Definition QSTZ_e177 := (cD (cB (cO (cR (cD (cA (cN 3) (cM (cN 2) (cH 1))) (cW (cA (cN 1) (cH 1)) 6)))) (cD (cM (cA (cN 1) (cM (cN 2) (cH 1))) (cR (cA (cA (cN 3) (cM (cN 5) (cH 1))) (cM (cN 2) (cW (cH 1) 4))))) (cW (cA (cN 1) (cH 1)) 4))) (cM (cN 2) (cR (cN 3)))).
Definition QSTZ_e178 := (cO (cD (cN 1) (cR (cA (cN 3) (cD (cN 3) (cH 1)))))).
Definition QSTZ_e179 := (cO (cM (cR (cN 2)) (cR (cD (cH 1) (cA (cN 1) (cM (cN 2) (cH 1))))))).
Definition QSTZ_e180 := (cO (cR (cD (cH 1) (cA (cN 1) (cM (cN 2) (cH 1)))))).
Definition QSTZ_e181 := (cD (cM (cR (cN 2)) (cA (cN 1) (cH 1))) (cR (cA (cA (cN 1) (cM (cN 3) (cH 1))) (cM (cN 2) (cW (cH 1) 4))))).
Definition QSTZ_e182 := (cO (cD (cN 1) (cR (cA (cN 4) (cD (cN 2) (cH 1)))))).
Definition QSTZ_e183 := (cD (cN (-2)) (cR (cA (cN 6) (cD (cN 3) (cH 1))))).
Definition QSTZ_e184 := (cO (cD (cN 1) (cM (cR (cN 6)) (cR (cA (cN 2) (cD (cN 1) (cH 1))))))).
Definition QSTZ_e185 := (cD (cB (cN (-1)) (cH 1)) (cR (cA (cA (cN 2) (cM (cN 6) (cH 1))) (cM (cN 4) (cW (cH 1) 4))))).
Definition QSTZ_e186 := (cD (cA (cN 1) (cH 1)) (cR (cA (cA (cN 2) (cM (cN 6) (cH 1))) (cM (cN 4) (cW (cH 1) 4))))).
Definition QSTZ_e187 := (cD (cM (cN 2) (cA (cN 1) (cH 1))) (cR (cA (cA (cN 3) (cM (cN 9) (cH 1))) (cM (cN 6) (cW (cH 1) 4))))).
Definition QSTZ_e188 := (cD (cA (cN 1) (cH 1)) (cM (cR (cN 6)) (cR (cA (cA (cN 1) (cM (cN 3) (cH 1))) (cM (cN 2) (cW (cH 1) 4)))))).
Definition QSTZ_e189 := (cB (cD (cN 1) (cM (cM (cN 2) (cR (cA (cN 4) (cD (cN 2) (cH 1))))) (cA (cN 1) (cH 1)))) (cD (cM (cH 1) (cA (cA (cM (cN 2) (cR (cD (cA (cN 1) (cH 1)) (cA (cN 1) (cM (cN 2) (cH 1)))))) (cR (cD (cA (cN 1) (cM (cN 2) (cH 1))) (cA (cN 1) (cH 1))))) (cM (cH 1) (cR (cD (cA (cN 1) (cM (cN 2) (cH 1))) (cA (cN 1) (cH 1))))))) (cM (cM (cN 2) (cR (cN 2))) (cR (cM (cH 1) (cW (cA (cN 1) (cH 1)) 6)))))).
Definition QSTZ_e190 := (cO (cM (cR (cN 3)) (cR (cD (cH 1) (cA (cN 2) (cM (cN 4) (cH 1))))))).
Definition QSTZ_e191 := (cD (cM (cR (cN 3)) (cA (cN 1) (cH 1))) (cR (cA (cA (cN 2) (cM (cN 6) (cH 1))) (cM (cN 4) (cW (cH 1) 4))))).
Definition QSTZ_e192 := (cR (cD (cH 1) (cA (cN 2) (cM (cN 4) (cH 1))))).
Definition QSTZ_e193 := (cM (cR (cN 3)) (cR (cD (cH 1) (cA (cN 2) (cM (cN 4) (cH 1)))))).
Definition QSTZ_e194 := (cO (cD (cM (cR (cN 3)) (cA (cN 1) (cH 1))) (cR (cA (cA (cN 2) (cM (cN 6) (cH 1))) (cM (cN 4) (cW (cH 1) 4)))))).
Definition QSTZ_e195 := (cR (cD (cH 1) (cA (cN 6) (cM (cN 12) (cH 1))))).
Definition QSTZ_e196 := (cM (cN (-2)) (cR (cD (cH 1) (cA (cN 6) (cM (cN 12) (cH 1)))))).
Definition QSTZ_e197 := (cD (cN 1) (cR (cA (cN 4) (cD (cN 2) (cH 1))))).
Definition QSTZ_e198 := (cO (cM (cR (cN 2)) (cR (cD (cA (cN (-1)) (cH 1)) (cA (cN (-1)) (cM (cN 2) (cH 1))))))).
Definition QSTZ_e199 := (cD (cM (cR (cQ 2 3)) (cA (cN 1) (cH 1))) (cR (cA (cA (cN (-1)) (cH 1)) (cM (cN 2) (cW (cH 1) 4))))).
Definition QSTZ_e200 := (cD (cM (cR (cQ 2 3)) (cB (cN 1) (cM (cN 2) (cH 1)))) (cR (cA (cN (-1)) (cM (cN 4) (cW (cH 1) 4))))).
Definition QSTZ_e201 := (cD (cM (cR (cQ 2 3)) (cA (cN 3) (cM (cN 2) (cH 1)))) (cR (cA (cA (cN 3) (cM (cN 8) (cH 1))) (cM (cN 4) (cW (cH 1) 4))))).
Definition QSTZ_e202 := (cO (cD (cM (cR (cN 2)) (cH 1)) (cR (cA (cM (cN 9) (cH 1)) (cM (cN 6) (cW (cH 1) 4)))))).
Definition QSTZ_e203 := (cD (cM (cR (cN 2)) (cR (cA (cA (cN 6) (cM (cN 7) (cH 1))) (cM (cN 2) (cW (cH 1) 4))))) (cA (cN 3) (cM (cN 2) (cH 1)))).
Definition QSTZ_e204 := (cO (cD (cR (cB (cN 2) (cD (cN 1) (cH 1)))) (cR (cN 2)))).
Definition QSTZ_e205 := (cO (cD (cN 1) (cR (cA (cN 2) (cD (cN 2) (cH 1)))))).
Definition QSTZ_e206 := (cD (cA (cR (cD (cA (cN 3) (cM (cN 2) (cH 1))) (cW (cA (cN 1) (cH 1)) 6))) (cD (cM (cA (cN 1) (cM (cN 2) (cH 1))) (cR (cA (cA (cN 3) (cM (cN 5) (cH 1))) (cM (cN 2) (cW (cH 1) 4))))) (cW (cA (cN 1) (cH 1)) 4))) (cM (cN 2) (cR (cN 2)))).

(** /repo/c++/symmetry/nrg-recalc-QSTZ.hpp recalc_doublet, qstz/qstz-doubletp-1.dat *)
Definition qstz_t0 : ten_table := mk_ten "doublet" [ShLin 0%nat 1 (-1); ShLin 1%nat 1 1; ShLin 2%nat 1 (-1)] [1; 2; 1] [
  (1, 1, [ShLin 0%nat 1 3; ShLin 1%nat 1 0; ShLin 2%nat 1 0], [ShLin 0%nat 1 2; ShLin 1%nat 1 1; ShLin 2%nat 1 (-1)], Some (cN 1));
  (2, 2, [ShLin 0%nat 1 2; ShLin 1%nat 1 (-1); ShLin 2%nat 1 1], [ShLin 0%nat 1 1; ShLin 1%nat 1 0; ShLin 2%nat 1 0], Some QSTZ_e0);
  (3, 2, [ShLin 0%nat 1 2; ShLin 1%nat 1 1; ShLin 2%nat 1 1], [ShLin 0%nat 1 1; ShLin 1%nat 1 0; ShLin 2%nat 1 0], Some QSTZ_e1);
  (3, 3, [ShLin 0%nat 1 2; ShLin 1%nat 1 1; ShLin 2%nat 1 1], [ShLin 0%nat 1 1; ShLin 1%nat 1 2; ShLin 2%nat 1 0], Some (cN (-1)));
  (4, 4, [ShLin 0%nat 1 2; ShLin 1%nat 1 (-1); ShLin 2%nat 1 0], [ShLin 0%nat 1 1; ShLin 1%nat 1 0; ShLin 2%nat 1 (-1)], Some QSTZ_e0);
  (5, 4, [ShLin 0%nat 1 2; ShLin 1%nat 1 1; ShLin 2%nat 1 0], [ShLin 0%nat 1 1; ShLin 1%nat 1 0; ShLin 2%nat 1 (-1)], Some QSTZ_e1);
  (5, 5, [ShLin 0%nat 1 2; ShLin 1%nat 1 1; ShLin 2%nat 1 0], [ShLin 0%nat 1 1; ShLin 1%nat 1 2; ShLin 2%nat 1 (-1)], Some (cN (-1)));
  (6, 6, [ShLin 0%nat 1 2; ShLin 1%nat 1 (-1); ShLin 2%nat 1 (-1)], [ShLin 0%nat 1 1; ShLin 1%nat 1 0; ShLin 2%nat 1 (-2)], Some QSTZ_e0);
  (7, 6, [ShLin 0%nat 1 2; ShLin 1%nat 1 1; ShLin 2%nat 1 (-1)], [ShLin 0%nat 1 1; ShLin 1%nat 1 0; ShLin 2%nat 1 (-2)], Some QSTZ_e1);
  (7, 7, [ShLin 0%nat 1 2; ShLin 1%nat 1 1; ShLin 2%nat 1 (-1)], [ShLin 0%nat 1 1; ShLin 1%nat 1 2; ShLin 2%nat 1 (-2)], Some (cN (-1)));
  (8, 8, [ShLin 0%nat 1 1; ShLin 1%nat 1 0; ShLin 2%nat 1 2], [ShLin 0%nat 1 0; ShLin 1%nat 1 1; ShLin 2%nat 1 1], Some (cN 1));
  (9, 9, [ShLin 0%nat 1 1; ShLin 1%nat 1 0; ShLin 2%nat 1 1], [ShLin 0%nat 1 0; ShLin 1%nat 1 1; ShLin 2%nat 1 0], Some (cN 1));
  (10, 10, [ShLin 0%nat 1 1; ShLin 1%nat 1 0; ShLin 2%nat 1 0], [ShLin 0%nat 1 0; ShLin 1%nat 1 1; ShLin 2%nat 1 (-1)], Some (cN 1));
  (11, 11, [ShLin 0%nat 1 1; ShLin 1%nat 1 0; ShLin 2%nat 1 0], [ShLin 0%nat 1 0; ShLin 1%nat 1 1; ShLin 2%nat 1 (-1)], Some (cN 1));
  (12, 12, [ShLin 0%nat 1 1; ShLin 1%nat 1 0; ShLin 2%nat 1 (-1)], [ShLin 0%nat 1 0; ShLin 1%nat 1 1; ShLin 2%nat 1 (-2)], Some (cN 1));
  (13, 13, [ShLin 0%nat 1 1; ShLin 1%nat 1 0; ShLin 2%nat 1 (-2)], [ShLin 0%nat 1 0; ShLin 1%nat 1 1; ShLin 2%nat 1 (-3)], Some (cN 1));
  (14, 14, [ShLin 0%nat 1 1; ShLin 1%nat 1 (-2); ShLin 2%nat 1 1], [ShLin 0%nat 1 0; ShLin 1%nat 1 (-1); ShLin 2%nat 1 0], Some QSTZ_e2);
  (15, 14, [ShLin 0%nat 1 1; ShLin 1%nat 1 0; ShLin 2%nat 1 1], [ShLin 0%nat 1 0; ShLin 1%nat 1 (-1); ShLin 2%nat 1 0], Some QSTZ_e3);
  (15, 15, [ShLin 0%nat 1 1; ShLin 1%nat 1 0; ShLin 2%nat 1 1], [ShLin 0%nat 1 0; ShLin 1%nat 1 1; ShLin 2%nat 1 0], Some QSTZ_e4);
  (16, 15, [ShLin 0%nat 1 1; ShLin 1%nat 1 2; ShLin 2%nat 1 1], [ShLin 0%nat 1 0; ShLin 1%nat 1 1; ShLin 2%nat 1 0], Some QSTZ_e5);
  (16, 16, [ShLin 0%nat 1 1; ShLin 1%nat 1 2; ShLin 2%nat 1 1], [ShLin 0%nat 1 0; ShLin 1%nat 1 3; ShLin 2%nat 1 0], Some (cN 1));
  (17, 17, [ShLin 0%nat 1 1; ShLin 1%nat 1 (-2); ShLin 2%nat 1 0], [ShLin 0%nat 1 0; ShLin 1%nat 1 (-1); ShLin 2%nat 1 (-1)], Some QSTZ_e2);
  (18, 17, [ShLin 0%nat 1 1; ShLin 1%nat 1 0; ShLin 2%nat 1 0], [ShLin 0%nat 1 0; ShLin 1%nat 1 (-1); ShLin 2%nat 1 (-1)], Some QSTZ_e3);
  (18, 18, [ShLin 0%nat 1 1; ShLin 1%nat 1 0; ShLin 2%nat 1 0], [ShLin 0%nat 1 0; ShLin 1%nat 1 1; ShLin 2%nat 1 (-1)], Some QSTZ_e4);
  (19, 18, [ShLin 0%nat 1 1; ShLin 1%nat 1 2; ShLin 2%nat 1 0], [ShLin 0%nat 1 0; ShLin 1%nat 1 1; ShLin 2%nat 1 (-1)], Some QSTZ_e5);
  (19, 19, [ShLin 0%nat 1 1; ShLin 1%nat 1 2; ShLin 2%nat 1 0], [ShLin 0%nat 1 0; ShLin 1%nat 1 3; ShLin 2%nat 1 (-1)], Some (cN 1));
  (20, 20, [ShLin 0%nat 1 1; ShLin 1%nat 1 (-2); ShLin 2%nat 1 (-1)], [ShLin 0%nat 1 0; ShLin 1%nat 1 (-1); ShLin 2%nat 1 (-2)], Some QSTZ_e2);
  (21, 20, [ShLin 0%nat 1 1; ShLin 1%nat 1 0; ShLin 2%nat 1 (-1)], [ShLin 0%nat 1 0; ShLin 1%nat 1 (-1); ShLin 2%nat 1 (-2)], Some QSTZ_e3);
  (21, 21, [ShLin 0%nat 1 1; ShLin 1%nat 1 0; ShLin 2%nat 1 (-1)], [ShLin 0%nat 1 0; ShLin 1%nat 1 1; ShLin 2%nat 1 (-2)], Some QSTZ_e4);
  (22, 21, [ShLin 0%nat 1 1; ShLin 1%nat 1 2; ShLin 2%nat 1 (-1)], [ShLin 0%nat 1 0; ShLin 1%nat 1 1; ShLin 2%nat 1 (-2)], Some QSTZ_e5);
  (22, 22, [ShLin 0%nat 1 1; ShLin 1%nat 1 2; ShLin 2%nat 1 (-1)], [ShLin 0%nat 1 0; ShLin 1%nat 1 3; ShLin 2%nat 1 (-2)], Some (cN 1));
  (23, 23, [ShLin 0%nat 1 0; ShLin 1%nat 1 (-1); ShLin 2%nat 1 2], [ShLin 0%nat 1 (-1); ShLin 1%nat 1 0; ShLin 2%nat 1 1], Some QSTZ_e0);
  (24, 23, [ShLin 0%nat 1 0; ShLin 1%nat 1 1; ShLin 2%nat 1 2], [ShLin 0%nat 1 (-1); ShLin 1%nat 1 0; ShLin 2%nat 1 1], Some QSTZ_e1);
  (24, 24, [ShLin 0%nat 1 0; ShLin 1%nat 1 1; ShLin 2%nat 1 2], [ShLin 0%nat 1 (-1); ShLin 1%nat 1 2; ShLin 2%nat 1 1], Some (cN (-1)));
  (25, 25, [ShLin 0%nat 1 0; ShLin 1%nat 1 (-1); ShLin 2%nat 1 1], [ShLin 0%nat 1 (-1); ShLin 1%nat 1 0; ShLin 2%nat 1 0], Some QSTZ_e0);
  (26, 25, [ShLin 0%nat 1 0; ShLin 1%nat 1 1; ShLin 2%nat 1 1], [ShLin 0%nat 1 (-1); ShLin 1%nat 1 0; ShLin 2%nat 1 0], Some QSTZ_e1);
  (26, 26, [ShLin 0%nat 1 0; ShLin 1%nat 1 1; ShLin 2%nat 1 1], [ShLin 0%nat 1 (-1); ShLin 1%nat 1 2; ShLin 2%nat 1 0], Some (cN (-1)));
  (27, 27, [ShLin 0%nat 1 0; ShLin 1%nat 1 (-1); ShLin 2%nat 1 1], [ShLin 0%nat 1 (-1); ShLin 1%nat 1 0; ShLin 2%nat 1 0], Some QSTZ_e0);
  (28, 27, [ShLin 0%nat 1 0; ShLin 1%nat 1 1; ShLin 2%nat 1 1], [ShLin 0%nat 1 (-1); ShLin 1%nat 1 0; ShLin 2%nat 1 0], Some QSTZ_e1);
  (28, 28, [ShLin 0%nat 1 0; ShLin 1%nat 1 1; ShLin 2%nat 1 1], [ShLin 0%nat 1 (-1); ShLin 1%nat 1 2; ShLin 2%nat 1 0], Some (cN (-1)));
  (29, 29, [ShLin 0%nat 1 0; ShLin 1%nat 1 (-1); ShLin 2%nat 1 0], [ShLin 0%nat 1 (-1); ShLin 1%nat 1 0; ShLin 2%nat 1 (-1)], Some QSTZ_e0);
  (30, 29, [ShLin 0%nat 1 0; ShLin 1%nat 1 1; ShLin 2%nat 1 0], [ShLin 0%nat 1 (-1); ShLin 1%nat 1 0; ShLin 2%nat 1 (-1)], Some QSTZ_e1);
  (30, 30, [ShLin 0%nat 1 0; ShLin 1%nat 1 1; ShLin 2%nat 1 0], [ShLin 0%nat 1 (-1); ShLin 1%nat 1 2; ShLin 2%nat 1 (-1)], Some (cN (-1)));
  (31, 31, [ShLin 0%nat 1 0; ShLin 1%nat 1 (-1); ShLin 2%nat 1 0], [ShLin 0%nat 1 (-1); ShLin 1%nat 1 0; ShLin 2%nat 1 (-1)], Some QSTZ_e0);
  (32, 31, [ShLin 0%nat 1 0; ShLin 1%nat 1 1; ShLin 2%nat 1 0], [ShLin 0%nat 1 (-1); ShLin 1%nat 1 0; ShLin 2%nat 1 (-1)], Some QSTZ_e1);
  (32, 32, [ShLin 0%nat 1 0; ShLin 1%nat 1 1; ShLin 2%nat 1 0], [ShLin 0%nat 1 (-1); ShLin 1%nat 1 2; ShLin 2%nat 1 (-1)], Some (cN (-1)));
  (33, 33, [ShLin 0%nat 1 0; ShLin 1%nat 1 (-1); ShLin 2%nat 1 (-1)], [ShLin 0%nat 1 (-1); ShLin 1%nat 1 0; ShLin 2%nat 1 (-2)], Some QSTZ_e0);
  (34, 33, [ShLin 0%nat 1 0; ShLin 1%nat 1 1; ShLin 2%nat 1 (-1)], [ShLin 0%nat 1 (-1); ShLin 1%nat 1 0; ShLin 2%nat 1 (-2)], Some QSTZ_e1);
  (34, 34, [ShLin 0%nat 1 0; ShLin 1%nat 1 1; ShLin 2%nat 1 (-1)], [ShLin 0%nat 1 (-1); ShLin 1%nat 1 2; ShLin 2%nat 1 (-2)], Some (cN (-1)));
  (35, 35, [ShLin 0%nat 1 0; ShLin 1%nat 1 (-1); ShLin 2%nat 1 (-1)], [ShLin 0%nat 1 (-1); ShLin 1%nat 1 0; ShLin 2%nat 1 (-2)], Some QSTZ_e0);
  (36, 35, [ShLin 0%nat 1 0; ShLin 1%nat 1 1; ShLin 2%nat 1 (-1)], [ShLin 0%nat 1 (-1); ShLin 1%nat 1 0; ShLin 2%nat 1 (-2)], Some QSTZ_e1);
  (36, 36, [ShLin 0%nat 1 0; ShLin 1%nat 1 1; ShLin 2%nat 1 (-1)], [ShLin 0%nat 1 (-1); ShLin 1%nat 1 2; ShLin 2%nat 1 (-2)], Some (cN (-1)));
  (37, 37, [ShLin 0%nat 1 0; ShLin 1%nat 1 (-1); ShLin 2%nat 1 (-2)], [ShLin 0%nat 1 (-1); ShLin 1%nat 1 0; ShLin 2%nat 1 (-3)], Some QSTZ_e0);
  (38, 37, [ShLin 0%nat 1 0; ShLin 1%nat 1 1; ShLin 2%nat 1 (-2)], [ShLin 0%nat 1 (-1); ShLin 1%nat 1 0; ShLin 2%nat 1 (-3)], Some QSTZ_e1);
  (38, 38, [ShLin 0%nat 1 0; ShLin 1%nat 1 1; ShLin 2%nat 1 (-2)], [ShLin 0%nat 1 (-1); ShLin 1%nat 1 2; ShLin 2%nat 1 (-3)], Some (cN (-1)));
  (39, 39, [ShLin 0%nat 1 0; ShLin 1%nat 1 (-3); ShLin 2%nat 1 0], [ShLin 0%nat 1 (-1); ShLin 1%nat 1 (-2); ShLin 2%nat 1 (-1)], Some QSTZ_e6);
  (40, 39, [ShLin 0%nat 1 0; ShLin 1%nat 1 (-1); ShLin 2%nat 1 0], [ShLin 0%nat 1 (-1); ShLin 1%nat 1 (-2); ShLin 2%nat 1 (-1)], Some QSTZ_e7);
  (40, 40, [ShLin 0%nat 1 0; ShLin 1%nat 1 (-1); ShLin 2%nat 1 0], [ShLin 0%nat 1 (-1); ShLin 1%nat 1 0; ShLin 2%nat 1 (-1)], Some QSTZ_e8);
  (41, 40, [ShLin 0%nat 1 0; ShLin 1%nat 1 1; ShLin 2%nat 1 0], [ShLin 0%nat 1 (-1); ShLin 1%nat 1 0; ShLin 2%nat 1 (-1)], Some QSTZ_e9);
  (41, 41, [ShLin 0%nat 1 0; ShLin 1%nat 1 1; ShLin 2%nat 1 0], [ShLin 0%nat 1 (-1); ShLin 1%nat 1 2; ShLin 2%nat 1 (-1)], Some QSTZ_e10);
  (42, 41, [ShLin 0%nat 1 0; ShLin 1%nat 1 3; ShLin 2%nat 1 0], [ShLin 0%nat 1 (-1); ShLin 1%nat 1 2; ShLin 2%nat 1 (-1)], Some QSTZ_e11);
  (42, 42, [ShLin 0%nat 1 0; ShLin 1%nat 1 3; ShLin 2%nat 1 0], [ShLin 0%nat 1 (-1); ShLin 1%nat 1 4; ShLin 2%nat 1 (-1)], Some (cN (-1)));
  (43, 43, [ShLin 0%nat 1 (-1); ShLin 1%nat 1 0; ShLin 2%nat 1 2], [ShLin 0%nat 1 (-2); ShLin 1%nat 1 1; ShLin 2%nat 1 1], Some (cN 1));
  (44, 44, [ShLin 0%nat 1 (-1); ShLin 1%nat 1 0; ShLin 2%nat 1 1], [ShLin 0%nat 1 (-2); ShLin 1%nat 1 1; ShLin 2%nat 1 0], Some (cN 1));
  (45, 45, [ShLin 0%nat 1 (-1); ShLin 1%nat 1 0; ShLin 2%nat 1 0], [ShLin 0%nat 1 (-2); ShLin 1%nat 1 1; ShLin 2%nat 1 (-1)], Some (cN 1));
  (46, 46, [ShLin 0%nat 1 (-1); ShLin 1%nat 1 0; ShLin 2%nat 1 0], [ShLin 0%nat 1 (-2); ShLin 1%nat 1 1; ShLin 2%nat 1 (-1)], Some (cN 1));
  (47, 47, [ShLin 0%nat 1 (-1); ShLin 1%nat 1 0; ShLin 2%nat 1 (-1)], [ShLin 0%nat 1 (-2); ShLin 1%nat 1 1; ShLin 2%nat 1 (-2)], Some (cN 1));
  (48, 48, [ShLin 0%nat 1 (-1); ShLin 1%nat 1 0; ShLin 2%nat 1 (-2)], [ShLin 0%nat 1 (-2); ShLin 1%nat 1 1; ShLin 2%nat 1 (-3)], Some (cN 1));
  (49, 49, [ShLin 0%nat 1 (-1); ShLin 1%nat 1 (-2); ShLin 2%nat 1 1], [ShLin 0%nat 1 (-2); ShLin 1%nat 1 (-1); ShLin 2%nat 1 0], Some QSTZ_e2);
  (50, 49, [ShLin 0%nat 1 (-1); ShLin 1%nat 1 0; ShLin 2%nat 1 1], [ShLin 0%nat 1 (-2); ShLin 1%nat 1 (-1); ShLin 2%nat 1 0], Some QSTZ_e3);
  (50, 50, [ShLin 0%nat 1 (-1); ShLin 1%nat 1 0; ShLin 2%nat 1 1], [ShLin 0%nat 1 (-2); ShLin 1%nat 1 1; ShLin 2%nat 1 0], Some QSTZ_e4);
  (51, 50, [ShLin 0%nat 1 (-1); ShLin 1%nat 1 2; ShLin 2%nat 1 1], [ShLin 0%nat 1 (-2); ShLin 1%nat 1 1; ShLin 2%nat 1 0], Some QSTZ_e5);
  (51, 51, [ShLin 0%nat 1 (-1); ShLin 1%nat 1 2; ShLin 2%nat 1 1], [ShLin 0%nat 1 (-2); ShLin 1%nat 1 3; ShLin 2%nat 1 0], Some (cN 1));
  (52, 52, [ShLin 0%nat 1 (-1); ShLin 1%nat 1 (-2); ShLin 2%nat 1 0], [ShLin 0%nat 1 (-2); ShLin 1%nat 1 (-1); ShLin 2%nat 1 (-1)], Some QSTZ_e2);
  (53, 52, [ShLin 0%nat 1 (-1); ShLin 1%nat 1 0; ShLin 2%nat 1 0], [ShLin 0%nat 1 (-2); ShLin 1%nat 1 (-1); ShLin 2%nat 1 (-1)], Some QSTZ_e3);
  (53, 53, [ShLin 0%nat 1 (-1); ShLin 1%nat 1 0; ShLin 2%nat 1 0], [ShLin 0%nat 1 (-2); ShLin 1%nat 1 1; ShLin 2%nat 1 (-1)], Some QSTZ_e4);
  (54, 53, [ShLin 0%nat 1 (-1); ShLin 1%nat 1 2; ShLin 2%nat 1 0], [ShLin 0%nat 1 (-2); ShLin 1%nat 1 1; ShLin 2%nat 1 (-1)], Some QSTZ_e5);
  (54, 54, [ShLin 0%nat 1 (-1); ShLin 1%nat 1 2; ShLin 2%nat 1 0], [ShLin 0%nat 1 (-2); ShLin 1%nat 1 3; ShLin 2%nat 1 (-1)], Some (cN 1));
  (55, 55, [ShLin 0%nat 1 (-1); ShLin 1%nat 1 (-2); ShLin 2%nat 1 (-1)], [ShLin 0%nat 1 (-2); ShLin 1%nat 1 (-1); ShLin 2%nat 1 (-2)], Some QSTZ_e2);
  (56, 55, [ShLin 0%nat 1 (-1); ShLin 1%nat 1 0; ShLin 2%nat 1 (-1)], [ShLin 0%nat 1 (-2); ShLin 1%nat 1 (-1); ShLin 2%nat 1 (-2)], Some QSTZ_e3);
  (56, 56, [ShLin 0%nat 1 (-1); ShLin 1%nat 1 0; ShLin 2%nat 1 (-1)], [ShLin 0%nat 1 (-2); ShLin 1%nat 1 1; ShLin 2%nat 1 (-2)], Some QSTZ_e4);
  (57, 56, [ShLin 0%nat 1 (-1); ShLin 1%nat 1 2; ShLin 2%nat 1 (-1)], [ShLin 0%nat 1 (-2); ShLin 1%nat 1 1; ShLin 2%nat 1 (-2)], Some QSTZ_e5);
  (57, 57, [ShLin 0%nat 1 (-1); ShLin 1%nat 1 2; ShLin 2%nat 1 (-1)], [ShLin 0%nat 1 (-2); ShLin 1%nat 1 3; ShLin 2%nat 1 (-2)], Some (cN 1));
  (58, 58, [ShLin 0%nat 1 (-2); ShLin 1%nat 1 (-1); ShLin 2%nat 1 1], [ShLin 0%nat 1 (-3); ShLin 1%nat 1 0; ShLin 2%nat 1 0], Some QSTZ_e0);
  (59, 58, [ShLin 0%nat 1 (-2); ShLin 1%nat 1 1; ShLin 2%nat 1 1], [ShLin 0%nat 1 (-3); ShLin 1%nat 1 0; ShLin 2%nat 1 0], Some QSTZ_e1);
  (59, 59, [ShLin 0%nat 1 (-2); ShLin 1%nat 1 1; ShLin 2%nat 1 1], [ShLin 0%nat 1 (-3); ShLin 1%nat 1 2; ShLin 2%nat 1 0], Some (cN (-1)));
  (60, 60, [ShLin 0%nat 1 (-2); ShLin 1%nat 1 (-1); ShLin 2%nat 1 0], [ShLin 0%nat 1 (-3); ShLin 1%nat 1 0; ShLin 2%nat 1 (-1)], Some QSTZ_e0);
  (61, 60, [ShLin 0%nat 1 (-2); ShLin 1%nat 1 1; ShLin 2%nat 1 0], [ShLin 0%nat 1 (-3); ShLin 1%nat 1 0; ShLin 2%nat 1 (-1)], Some QSTZ_e1);
  (61, 61, [ShLin 0%nat 1 (-2); ShLin 1%nat 1 1; ShLin 2%nat 1 0], [ShLin 0%nat 1 (-3); ShLin 1%nat 1 2; ShLin 2%nat 1 (-1)], Some (cN (-1)));
  (62, 62, [ShLin 0%nat 1 (-2); ShLin 1%nat 1 (-1); ShLin 2%nat 1 (-1)], [ShLin 0%nat 1 (-3); ShLin 1%nat 1 0; ShLin 2%nat 1 (-2)], Some QSTZ_e0);
  (63, 62, [ShLin 0%nat 1 (-2); ShLin 1%nat 1 1; ShLin 2%nat 1 (-1)], [ShLin 0%nat 1 (-3); ShLin 1%nat 1 0; ShLin 2%nat 1 (-2)], Some QSTZ_e1);
  (63, 63, [ShLin 0%nat 1 (-2); ShLin 1%nat 1 1; ShLin 2%nat 1 (-1)], [ShLin 0%nat 1 (-3); ShLin 1%nat 1 2; ShLin 2%nat 1 (-2)], Some (cN (-1)));
  (64, 64, [ShLin 0%nat 1 (-3); ShLin 1%nat 1 0; ShLin 2%nat 1 0], [ShLin 0%nat 1 (-4); ShLin 1%nat 1 1; ShLin 2%nat 1 (-1)], Some (cN 1))].
(** /repo/c++/symmetry/nrg-recalc-QSTZ.hpp recalc_doublet, qstz/qstz-doubletm-1.dat *)
Definition qstz_t1 : ten_table := mk_ten "doublet" [ShLin 0%nat 1 (-1); ShLin 1%nat 1 (-1); ShLin 2%nat 1 (-1)] [1; 2; 1] [
  (1, 1, [ShLin 0%nat 1 3; ShLin 1%nat 1 0; ShLin 2%nat 1 0], [ShLin 0%nat 1 2; ShLin 1%nat 1 (-1); ShLin 2%nat 1 (-1)], Some (cN 1));
  (2, 2, [ShLin 0%nat 1 2; ShLin 1%nat 1 (-1); ShLin 2%nat 1 1], [ShLin 0%nat 1 1; ShLin 1%nat 1 (-2); ShLin 2%nat 1 0], Some (cN (-1)));
  (2, 3, [ShLin 0%nat 1 2; ShLin 1%nat 1 (-1); ShLin 2%nat 1 1], [ShLin 0%nat 1 1; ShLin 1%nat 1 0; ShLin 2%nat 1 0], Some QSTZ_e12);
  (3, 3, [ShLin 0%nat 1 2; ShLin 1%nat 1 1; ShLin 2%nat 1 1], [ShLin 0%nat 1 1; ShLin 1%nat 1 0; ShLin 2%nat 1 0], Some QSTZ_e0);
  (4, 4, [ShLin 0%nat 1 2; ShLin 1%nat 1 (-1); ShLin 2%nat 1 0], [ShLin 0%nat 1 1; ShLin 1%nat 1 (-2); ShLin 2%nat 1 (-1)], Some (cN (-1)));
  (4, 5, [ShLin 0%nat 1 2; ShLin 1%nat 1 (-1); ShLin 2%nat 1 0], [ShLin 0%nat 1 1; ShLin 1%nat 1 0; ShLin 2%nat 1 (-1)], Some QSTZ_e12);
  (5, 5, [ShLin 0%nat 1 2; ShLin 1%nat 1 1; ShLin 2%nat 1 0], [ShLin 0%nat 1 1; ShLin 1%nat 1 0; ShLin 2%nat 1 (-1)], Some QSTZ_e0);
  (6, 6, [ShLin 0%nat 1 2; ShLin 1%nat 1 (-1); ShLin 2%nat 1 (-1)], [ShLin 0%nat 1 1; ShLin 1%nat 1 (-2); ShLin 2%nat 1 (-2)], Some (cN (-1)));
  (6, 7, [ShLin 0%nat 1 2; ShLin 1%nat 1 (-1); ShLin 2%nat 1 (-1)], [ShLin 0%nat 1 1; ShLin 1%nat 1 0; ShLin 2%nat 1 (-2)], Some QSTZ_e12);
  (7, 7, [ShLin 0%nat 1 2; ShLin 1%nat 1 1; ShLin 2%nat 1 (-1)], [ShLin 0%nat 1 1; ShLin 1%nat 1 0; ShLin 2%nat 1 (-2)], Some QSTZ_e0);
  (8, 8, [ShLin 0%nat 1 1; ShLin 1%nat 1 0; ShLin 2%nat 1 2], [ShLin 0%nat 1 0; ShLin 1%nat 1 (-1); ShLin 2%nat 1 1], Some (cN 1));
  (9, 9, [ShLin 0%nat 1 1; ShLin 1%nat 1 0; ShLin 2%nat 1 1], [ShLin 0%nat 1 0; ShLin 1%nat 1 (-1); ShLin 2%nat 1 0], Some (cN 1));
  (10, 10, [ShLin 0%nat 1 1; ShLin 1%nat 1 0; ShLin 2%nat 1 0], [ShLin 0%nat 1 0; ShLin 1%nat 1 (-1); ShLin 2%nat 1 (-1)], Some (cN 1));
  (11, 11, [ShLin 0%nat 1 1; ShLin 1%nat 1 0; ShLin 2%nat 1 0], [ShLin 0%nat 1 0; ShLin 1%nat 1 (-1); ShLin 2%nat 1 (-1)], Some (cN 1));
  (12, 12, [ShLin 0%nat 1 1; ShLin 1%nat 1 0; ShLin 2%nat 1 (-1)], [ShLin 0%nat 1 0; ShLin 1%nat 1 (-1); ShLin 2%nat 1 (-2)], Some (cN 1));
  (13, 13, [ShLin 0%nat 1 1; ShLin 1%nat 1 0; ShLin 2%nat 1 (-2)], [ShLin 0%nat 1 0; ShLin 1%nat 1 (-1); ShLin 2%nat 1 (-3)], Some (cN 1));
  (14, 14, [ShLin 0%nat 1 1; ShLin 1%nat 1 (-2); ShLin 2%nat 1 1], [ShLin 0%nat 1 0; ShLin 1%nat 1 (-3); ShLin 2%nat 1 0], Some (cN 1));
  (14, 15, [ShLin 0%nat 1 1; ShLin 1%nat 1 (-2); ShLin 2%nat 1 1], [ShLin 0%nat 1 0; ShLin 1%nat 1 (-1); ShLin 2%nat 1 0], Some QSTZ_e13);
  (15, 15, [ShLin 0%nat 1 1; ShLin 1%nat 1 0; ShLin 2%nat 1 1], [ShLin 0%nat 1 0; ShLin 1%nat 1 (-1); ShLin 2%nat 1 0], Some QSTZ_e14);
  (15, 16, [ShLin 0%nat 1 1; ShLin 1%nat 1 0; ShLin 2%nat 1 1], [ShLin 0%nat 1 0; ShLin 1%nat 1 1; ShLin 2%nat 1 0], Some QSTZ_e15);
  (16, 16, [ShLin 0%nat 1 1; ShLin 1%nat 1 2; ShLin 2%nat 1 1], [ShLin 0%nat 1 0; ShLin 1%nat 1 1; ShLin 2%nat 1 0], Some QSTZ_e16);
  (17, 17, [ShLin 0%nat 1 1; ShLin 1%nat 1 (-2); ShLin 2%nat 1 0], [ShLin 0%nat 1 0; ShLin 1%nat 1 (-3); ShLin 2%nat 1 (-1)], Some (cN 1));
  (17, 18, [ShLin 0%nat 1 1; ShLin 1%nat 1 (-2); ShLin 2%nat 1 0], [ShLin 0%nat 1 0; ShLin 1%nat 1 (-1); ShLin 2%nat 1 (-1)], Some QSTZ_e13);
  (18, 18, [ShLin 0%nat 1 1; ShLin 1%nat 1 0; ShLin 2%nat 1 0], [ShLin 0%nat 1 0; ShLin 1%nat 1 (-1); ShLin 2%nat 1 (-1)], Some QSTZ_e14);
  (18, 19, [ShLin 0%nat 1 1; ShLin 1%nat 1 0; ShLin 2%nat 1 0], [ShLin 0%nat 1 0; ShLin 1%nat 1 1; ShLin 2%nat 1 (-1)], Some QSTZ_e15);
  (19, 19, [ShLin 0%nat 1 1; ShLin 1%nat 1 2; ShLin 2%nat 1 0], [ShLin 0%nat 1 0; ShLin 1%nat 1 1; ShLin 2%nat 1 (-1)], Some QSTZ_e16);
  (20, 20, [ShLin 0%nat 1 1; ShLin 1%nat 1 (-2); ShLin 2%nat 1 (-1)], [ShLin 0%nat 1 0; ShLin 1%nat 1 (-3); ShLin 2%nat 1 (-2)], Some (cN 1));
  (20, 21, [ShLin 0%nat 1 1; ShLin 1%nat 1 (-2); ShLin 2%nat 1 (-1)], [ShLin 0%nat 1 0; ShLin 1%nat 1 (-1); ShLin 2%nat 1 (-2)], Some QSTZ_e13);
  (21, 21, [ShLin 0%nat 1 1; ShLin 1%nat 1 0; ShLin 2%nat 1 (-1)], [ShLin 0%nat 1 0; ShLin 1%nat 1 (-1); ShLin 2%nat 1 (-2)], Some QSTZ_e14);
  (21, 22, [ShLin 0%nat 1 1; ShLin 1%nat 1 0; ShLin 2%nat 1 (-1)], [ShLin 0%nat 1 0; ShLin 1%nat 1 1; ShLin 2%nat 1 (-2)], Some QSTZ_e15);
  (22, 22, [ShLin 0%nat 1 1; ShLin 1%nat 1 2; ShLin 2%nat 1 (-1)], [ShLin 0%nat 1 0; ShLin 1%nat 1 1; ShLin 2%nat 1 (-2)], Some QSTZ_e16);
  (23, 23, [ShLin 0%nat 1 0; ShLin 1%nat 1 (-1); ShLin 2%nat 1 2], [ShLin 0%nat 1 (-1); ShLin 1%nat 1 (-2); ShLin 2%nat 1 1], Some (cN (-1)));
  (23, 24, [ShLin 0%nat 1 0; ShLin 1%nat 1 (-1); ShLin 2%nat 1 2], [ShLin 0%nat 1 (-1); ShLin 1%nat 1 0; ShLin 2%nat 1 1], Some QSTZ_e12);
  (24, 24, [ShLin 0%nat 1 0; ShLin 1%nat 1 1; ShLin 2%nat 1 2], [ShLin 0%nat 1 (-1); ShLin 1%nat 1 0; ShLin 2%nat 1 1], Some QSTZ_e0);
  (25, 25, [ShLin 0%nat 1 0; ShLin 1%nat 1 (-1); ShLin 2%nat 1 1], [ShLin 0%nat 1 (-1); ShLin 1%nat 1 (-2); ShLin 2%nat 1 0], Some (cN (-1)));
  (25, 26, [ShLin 0%nat 1 0; ShLin 1%nat 1 (-1); ShLin 2%nat 1 1], [ShLin 0%nat 1 (-1); ShLin 1%nat 1 0; ShLin 2%nat 1 0], Some QSTZ_e12);
  (26, 26, [ShLin 0%nat 1 0; ShLin 1%nat 1 1; ShLin 2%nat 1 1], [ShLin 0%nat 1 (-1); ShLin 1%nat 1 0; ShLin 2%nat 1 0], Some QSTZ_e0);
  (27, 27, [ShLin 0%nat 1 0; ShLin 1%nat 1 (-1); ShLin 2%nat 1 1], [ShLin 0%nat 1 (-1); ShLin 1%nat 1 (-2); ShLin 2%nat 1 0], Some (cN (-1)));
  (27, 28, [ShLin 0%nat 1 0; ShLin 1%nat 1 (-1); ShLin 2%nat 1 1], [ShLin 0%nat 1 (-1); ShLin 1%nat 1 0; ShLin 2%nat 1 0], Some QSTZ_e12);
  (28, 28, [ShLin 0%nat 1 0; ShLin 1%nat 1 1; ShLin 2%nat 1 1], [ShLin 0%nat 1 (-1); ShLin 1%nat 1 0; ShLin 2%nat 1 0], Some QSTZ_e0);
  (29, 29, [ShLin 0%nat 1 0; ShLin 1%nat 1 (-1); ShLin 2%nat 1 0], [ShLin 0%nat 1 (-1); ShLin 1%nat 1 (-2); ShLin 2%nat 1 (-1)], Some (cN (-1)));
  (29, 30, [ShLin 0%nat 1 0; ShLin 1%nat 1 (-1); ShLin 2%nat 1 0], [ShLin 0%nat 1 (-1); ShLin 1%nat 1 0; ShLin 2%nat 1 (-1)], Some QSTZ_e12);
  (30, 30, [ShLin 0%nat 1 0; ShLin 1%nat 1 1; ShLin 2%nat 1 0], [ShLin 0%nat 1 (-1); ShLin 1%nat 1 0; ShLin 2%nat 1 (-1)], Some QSTZ_e0);
  (31, 31, [ShLin 0%nat 1 0; ShLin 1%nat 1 (-1); ShLin 2%nat 1 0], [ShLin 0%nat 1 (-1); ShLin 1%nat 1 (-2); ShLin 2%nat 1 (-1)], Some (cN (-1)));
  (31, 32, [ShLin 0%nat 1 0; ShLin 1%nat 1 (-1); ShLin 2%nat 1 0], [ShLin 0%nat 1 (-1); ShLin 1%nat 1 0; ShLin 2%nat 1 (-1)], Some QSTZ_e12);
  (32, 32, [ShLin 0%nat 1 0; ShLin 1%nat 1 1; ShLin 2%nat 1 0], [ShLin 0%nat 1 (-1); ShLin 1%nat 1 0; ShLin 2%nat 1 (-1)], Some QSTZ_e0);
  (33, 33, [ShLin 0%nat 1 0; ShLin 1%nat 1 (-1); ShLin 2%nat 1 (-1)], [ShLin 0%nat 1 (-1); ShLin 1%nat 1 (-2); ShLin 2%nat 1 (-2)], Some (cN (-1)));
  (33, 34, [ShLin 0%nat 1 0; ShLin 1%nat 1 (-1); ShLin 2%nat 1 (-1)], [ShLin 0%nat 1 (-1); ShLin 1%nat 1 0; ShLin 2%nat 1 (-2)], Some QSTZ_e12);
  (34, 34, [ShLin 0%nat 1 0; ShLin 1%nat 1 1; ShLin 2%nat 1 (-1)], [ShLin 0%nat 1 (-1); ShLin 1%nat 1 0; ShLin 2%nat 1 (-2)], Some QSTZ_e0);
  (35, 35, [ShLin 0%nat 1 0; ShLin 1%nat 1 (-1); ShLin 2%nat 1 (-1)], [ShLin 0%nat 1 (-1); ShLin 1%nat 1 (-2); ShLin 2%nat 1 (-2)], Some (cN (-1)));
  (35, 36, [ShLin 0%nat 1 0; ShLin 1%nat 1 (-1); ShLin 2%nat 1 (-1)], [ShLin 0%nat 1 (-1); ShLin 1%nat 1 0; ShLin 2%nat 1 (-2)], Some QSTZ_e12);
  (36, 36, [ShLin 0%nat 1 0; ShLin 1%nat 1 1; ShLin 2%nat 1 (-1)], [ShLin 0%nat 1 (-1); ShLin 1%nat 1 0; ShLin 2%nat 1 (-2)], Some QSTZ_e0);
  (37, 37, [ShLin 0%nat 1 0; ShLin 1%nat 1 (-1); ShLin 2%nat 1 (-2)], [ShLin 0%nat 1 (-1); ShLin 1%nat 1 (-2); ShLin 2%nat 1 (-3)], Some (cN (-1)));
  (37, 38, [ShLin 0%nat 1 0; ShLin 1%nat 1 (-1); ShLin 2%nat 1 (-2)], [ShLin 0%nat 1 (-1); ShLin 1%nat 1 0; ShLin 2%nat 1 (-3)], Some QSTZ_e12);
  (38, 38, [ShLin 0%nat 1 0; ShLin 1%nat 1 1; ShLin 2%nat 1 (-2)], [ShLin 0%nat 1 (-1); ShLin 1%nat 1 0; ShLin 2%nat 1 (-3)], Some QSTZ_e0);
  (39, 39, [ShLin 0%nat 1 0; ShLin 1%nat 1 (-3); ShLin 2%nat 1 0], [ShLin 0%nat 1 (-1); ShLin 1%nat 1 (-4); ShLin 2%nat 1 (-1)], Some (cN (-1)));
  (39, 40, [ShLin 0%nat 1 0; ShLin 1%nat 1 (-3); ShLin 2%nat 1 0], [ShLin 0%nat 1 (-1); ShLin 1%nat 1 (-2); ShLin 2%nat 1 (-1)], Some QSTZ_e17);
  (40, 40, [ShLin 0%nat 1 0; ShLin 1%nat 1 (-1); ShLin 2%nat 1 0], [ShLin 0%nat 1 (-1); ShLin 1%nat 1 (-2); ShLin 2%nat 1 (-1)], Some QSTZ_e18);
  (40, 41, [ShLin 0%nat 1 0; ShLin 1%nat 1 (-1); ShLin 2%nat 1 0], [ShLin 0%nat 1 (-1); ShLin 1%nat 1 0; ShLin 2%nat 1 (-1)], Some QSTZ_e19);
  (41, 41, [ShLin 0%nat 1 0; ShLin 1%nat 1 1; ShLin 2%nat 1 0], [ShLin 0%nat 1 (-1); ShLin 1%nat 1 0; ShLin 2%nat 1 (-1)], Some QSTZ_e20);
  (41, 42, [ShLin 0%nat 1 0; ShLin 1%nat 1 1; ShLin 2%nat 1 0], [ShLin 0%nat 1 (-1); ShLin 1%nat 1 2; ShLin 2%nat 1 (-1)], Some QSTZ_e21);
  (42, 42, [ShLin 0%nat 1 0; ShLin 1%nat 1 3; ShLin 2%nat 1 0], [ShLin 0%nat 1 (-1); ShLin 1%nat 1 2; ShLin 2%nat 1 (-1)], Some QSTZ_e22);
  (43, 43, [ShLin 0%nat 1 (-1); ShLin 1%nat 1 0; ShLin 2%nat 1 2], [ShLin 0%nat 1 (-2); ShLin 1%nat 1 (-1); ShLin 2%nat 1 1], Some (cN 1));
  (44, 44, [ShLin 0%nat 1 (-1); ShLin 1%nat 1 0; ShLin 2%nat 1 1], [ShLin 0%nat 1 (-2); ShLin 1%nat 1 (-1); ShLin 2%nat 1 0], Some (cN 1));
  (45, 45, [ShLin 0%nat 1 (-1); ShLin 1%nat 1 0; ShLin 2%nat 1 0], [ShLin 0%nat 1 (-2); ShLin 1%nat 1 (-1); ShLin 2%nat 1 (-1)], Some (cN 1));
  (46, 46, [ShLin 0%nat 1 (-1); ShLin 1%nat 1 0; ShLin 2%nat 1 0], [ShLin 0%nat 1 (-2); ShLin 1%nat 1 (-1); ShLin 2%nat 1 (-1)], Some (cN 1));
  (47, 47, [ShLin 0%nat 1 (-1); ShLin 1%nat 1 0; ShLin 2%nat 1 (-1)], [ShLin 0%nat 1 (-2); ShLin 1%nat 1 (-1); ShLin 2%nat 1 (-2)], Some (cN 1));
  (48, 48, [ShLin 0%nat 1 (-1); ShLin 1%nat 1 0; ShLin 2%nat 1 (-2)], [ShLin 0%nat 1 (-2); ShLin 1%nat 1 (-1); ShLin 2%nat 1 (-3)], Some (cN 1));
  (49, 49, [ShLin 0%nat 1 (-1); ShLin 1%nat 1 (-2); ShLin 2%nat 1 1], [ShLin 0%nat 1 (-2); ShLin 1%nat 1 (-3); ShLin 2%nat 1 0], Some (cN 1));
  (49, 50, [ShLin 0%nat 1 (-1); ShLin 1%nat 1 (-2); ShLin 2%nat 1 1], [ShLin 0%nat 1 (-2); ShLin 1%nat 1 (-1); ShLin 2%nat 1 0], Some QSTZ_e13);
  (50, 50, [ShLin 0%nat 1 (-1); ShLin 1%nat 1 0; ShLin 2%nat 1 1], [ShLin 0%nat 1 (-2); ShLin 1%nat 1 (-1); ShLin 2%nat 1 0], Some QSTZ_e14);
  (50, 51, [ShLin 0%nat 1 (-1); ShLin 1%nat 1 0; ShLin 2%nat 1 1], [ShLin 0%nat 1 (-2); ShLin 1%nat 1 1; ShLin 2%nat 1 0], Some QSTZ_e15);
  (51, 51, [ShLin 0%nat 1 (-1); ShLin 1%nat 1 2; ShLin 2%nat 1 1], [ShLin 0%nat 1 (-2); ShLin 1%nat 1 1; ShLin 2%nat 1 0], Some QSTZ_e16);
  (52, 52, [ShLin 0%nat 1 (-1); ShLin 1%nat 1 (-2); ShLin 2%nat 1 0], [ShLin 0%nat 1 (-2); ShLin 1%nat 1 (-3); ShLin 2%nat 1 (-1)], Some (cN 1));
  (52, 53, [ShLin 0%nat 1 (-1); ShLin 1%nat 1 (-2); ShLin 2%nat 1 0], [ShLin 0%nat 1 (-2); ShLin 1%nat 1 (-1); ShLin 2%nat 1 (-1)], Some QSTZ_e13);
  (53, 53, [ShLin 0%nat 1 (-1); ShLin 1%nat 1 0; ShLin 2%nat 1 0], [ShLin 0%nat 1 (-2); ShLin 1%nat 1 (-1); ShLin 2%nat 1 (-1)], Some QSTZ_e14);
  (53, 54, [ShLin 0%nat 1 (-1); ShLin 1%nat 1 0; ShLin 2%nat 1 0], [ShLin 0%nat 1 (-2); ShLin 1%nat 1 1; ShLin 2%nat 1 (-1)], Some QSTZ_e15);
  (54, 54, [ShLin 0%nat 1 (-1); ShLin 1%nat 1 2; ShLin 2%nat 1 0], [ShLin 0%nat 1 (-2); ShLin 1%nat 1 1; ShLin 2%nat 1 (-1)], Some QSTZ_e16);
  (55, 55, [ShLin 0%nat 1 (-1); ShLin 1%nat 1 (-2); ShLin 2%nat 1 (-1)], [ShLin 0%nat 1 (-2); ShLin 1%nat 1 (-3); ShLin 2%nat 1 (-2)], Some (cN 1));
  (55, 56, [ShLin 0%nat 1 (-1); ShLin 1%nat 1 (-2); ShLin 2%nat 1 (-1)], [ShLin 0%nat 1 (-2); ShLin 1%nat 1 (-1); ShLin 2%nat 1 (-2)], Some QSTZ_e13);
  (56, 56, [ShLin 0%nat 1 (-1); ShLin 1%nat 1 0; ShLin 2%nat 1 (-1)], [ShLin 0%nat 1 (-2); ShLin 1%nat 1 (-1); ShLin 2%nat 1 (-2)], Some QSTZ_e14);
  (56, 57, [ShLin 0%nat 1 (-1); ShLin 1%nat 1 0; ShLin 2%nat 1 (-1)], [ShLin 0%nat 1 (-2); ShLin 1%nat 1 1; ShLin 2%nat 1 (-2)], Some QSTZ_e15);
  (57, 57, [ShLin 0%nat 1 (-1); ShLin 1%nat 1 2; ShLin 2%nat 1 (-1)], [ShLin 0%nat 1 (-2); ShLin 1%nat 1 1; ShLin 2%nat 1 (-2)], Some QSTZ_e16);
  (58, 58, [ShLin 0%nat 1 (-2); ShLin 1%nat 1 (-1); ShLin 2%nat 1 1], [ShLin 0%nat 1 (-3); ShLin 1%nat 1 (-2); ShLin 2%nat 1 0], Some (cN (-1)));
  (58, 59, [ShLin 0%nat 1 (-2); ShLin 1%nat 1 (-1); ShLin 2%nat 1 1], [ShLin 0%nat 1 (-3); ShLin 1%nat 1 0; ShLin 2%nat 1 0], Some QSTZ_e12);
  (59, 59, [ShLin 0%nat 1 (-2); ShLin 1%nat 1 1; ShLin 2%nat 1 1], [ShLin 0%nat 1 (-3); ShLin 1%nat 1 0; ShLin 2%nat 1 0], Some QSTZ_e0);
  (60, 60, [ShLin 0%nat 1 (-2); ShLin 1%nat 1 (-1); ShLin 2%nat 1 0], [ShLin 0%nat 1 (-3); ShLin 1%nat 1 (-2); ShLin 2%nat 1 (-1)], Some (cN (-1)));
  (60, 61, [ShLin 0%nat 1 (-2); ShLin 1%nat 1 (-1); ShLin 2%nat 1 0], [ShLin 0%nat 1 (-3); ShLin 1%nat 1 0; ShLin 2%nat 1 (-1)], Some QSTZ_e12);
  (61, 61, [ShLin 0%nat 1 (-2); ShLin 1%nat 1 1; ShLin 2%nat 1 0], [ShLin 0%nat 1 (-3); ShLin 1%nat 1 0; ShLin 2%nat 1 (-1)], Some QSTZ_e0);
  (62, 62, [ShLin 0%nat 1 (-2); ShLin 1%nat 1 (-1); ShLin 2%nat 1 (-1)], [ShLin 0%nat 1 (-3); ShLin 1%nat 1 (-2); ShLin 2%nat 1 (-2)], Some (cN (-1)));
  (62, 63, [ShLin 0%nat 1 (-2); ShLin 1%nat 1 (-1); ShLin 2%nat 1 (-1)], [ShLin 0%nat 1 (-3); ShLin 1%nat 1 0; ShLin 2%nat 1 (-2)], Some QSTZ_e12);
  (63, 63, [ShLin 0%nat 1 (-2); ShLin 1%nat 1 1; ShLin 2%nat 1 (-1)], [ShLin 0%nat 1 (-3); ShLin 1%nat 1 0; ShLin 2%nat 1 (-2)], Some QSTZ_e0);
  (64, 64, [ShLin 0%nat 1 (-3); ShLin 1%nat 1 0; ShLin 2%nat 1 0], [ShLin 0%nat 1 (-4); ShLin 1%nat 1 (-1); ShLin 2%nat 1 (-1)], Some (cN 1))].
(** /repo/c++/symmetry/nrg-recalc-QSTZ.hpp recalc_doublet, qstz/qstz-doubletp0.dat *)
Definition qstz_t2 : ten_table := mk_ten "doublet" [ShLin 0%nat 1 (-1); ShLin 1%nat 1 1; ShLin 2%nat 1 0] [1; 2; 0] [
  (1, 1, [ShLin 0%nat 1 3; ShLin 1%nat 1 0; ShLin 2%nat 1 0], [ShLin 0%nat 1 2; ShLin 1%nat 1 1; ShLin 2%nat 1 0], Some (cN 1));
  (2, 2, [ShLin 0%nat 1 2; ShLin 1%nat 1 (-1); ShLin 2%nat 1 1], [ShLin 0%nat 1 1; ShLin 1%nat 1 0; ShLin 2%nat 1 1], Some QSTZ_e0);
  (3, 2, [ShLin 0%nat 1 2; ShLin 1%nat 1 1; ShLin 2%nat 1 1], [ShLin 0%nat 1 1; ShLin 1%nat 1 0; ShLin 2%nat 1 1], Some QSTZ_e1);
  (3, 3, [ShLin 0%nat 1 2; ShLin 1%nat 1 1; ShLin 2%nat 1 1], [ShLin 0%nat 1 1; ShLin 1%nat 1 2; ShLin 2%nat 1 1], Some (cN (-1)));
  (4, 4, [ShLin 0%nat 1 2; ShLin 1%nat 1 (-1); ShLin 2%nat 1 0], [ShLin 0%nat 1 1; ShLin 1%nat 1 0; ShLin 2%nat 1 0], Some QSTZ_e0);
  (5, 4, [ShLin 0%nat 1 2; ShLin 1%nat 1 1; ShLin 2%nat 1 0], [ShLin 0%nat 1 1; ShLin 1%nat 1 0; ShLin 2%nat 1 0], Some QSTZ_e1);
  (5, 5, [ShLin 0%nat 1 2; ShLin 1%nat 1 1; ShLin 2%nat 1 0], [ShLin 0%nat 1 1; ShLin 1%nat 1 2; ShLin 2%nat 1 0], Some (cN (-1)));
  (6, 6, [ShLin 0%nat 1 2; ShLin 1%nat 1 (-1); ShLin 2%nat 1 (-1)], [ShLin 0%nat 1 1; ShLin 1%nat 1 0; ShLin 2%nat 1 (-1)], Some QSTZ_e0);
  (7, 6, [ShLin 0%nat 1 2; ShLin 1%nat 1 1; ShLin 2%nat 1 (-1)], [ShLin 0%nat 1 1; ShLin 1%nat 1 0; ShLin 2%nat 1 (-1)], Some QSTZ_e1);
  (7, 7, [ShLin 0%nat 1 2; ShLin 1%nat 1 1; ShLin 2%nat 1 (-1)], [ShLin 0%nat 1 1; ShLin 1%nat 1 2; ShLin 2%nat 1 (-1)], Some (cN (-1)));
  (8, 8, [ShLin 0%nat 1 1; ShLin 1%nat 1 0; ShLin 2%nat 1 2], [ShLin 0%nat 1 0; ShLin 1%nat 1 1; ShLin 2%nat 1 2], Some (cN 1));
  (9, 9, [ShLin 0%nat 1 1; ShLin 1%nat 1 0; ShLin 2%nat 1 1], [ShLin 0%nat 1 0; ShLin 1%nat 1 1; ShLin 2%nat 1 1], Some (cN 1));
  (10, 10, [ShLin 0%nat 1 1; ShLin 1%nat 1 0; ShLin 2%nat 1 0], [ShLin 0%nat 1 0; ShLin 1%nat 1 1; ShLin 2%nat 1 0], Some (cN 1));
  (11, 11, [ShLin 0%nat 1 1; ShLin 1%nat 1 0; ShLin 2%nat 1 0], [ShLin 0%nat 1 0; ShLin 1%nat 1 1; ShLin 2%nat 1 0], Some (cN 1));
  (12, 12, [ShLin 0%nat 1 1; ShLin 1%nat 1 0; ShLin 2%nat 1 (-1)], [ShLin 0%nat 1 0; ShLin 1%nat 1 1; ShLin 2%nat 1 (-1)], Some (cN 1));
  (13, 13, [ShLin 0%nat 1 1; ShLin 1%nat 1 0; ShLin 2%nat 1 (-2)], [ShLin 0%nat 1 0; ShLin 1%nat 1 1; ShLin 2%nat 1 (-2)], Some (cN 1));
  (14, 14, [ShLin 0%nat 1 1; ShLin 1%nat 1 (-2); ShLin 2%nat 1 1], [ShLin 0%nat 1 0; ShLin 1%nat 1 (-1); ShLin 2%nat 1 1], Some QSTZ_e2);
  (15, 14, [ShLin 0%nat 1 1; ShLin 1%nat 1 0; ShLin 2%nat 1 1], [ShLin 0%nat 1 0; ShLin 1%nat 1 (-1); ShLin 2%nat 1 1], Some QSTZ_e3);
  (15, 15, [ShLin 0%nat 1 1; ShLin 1%nat 1 0; ShLin 2%nat 1 1], [ShLin 0%nat 1 0; ShLin 1%nat 1 1; ShLin 2%nat 1 1], Some QSTZ_e4);
  (16, 15, [ShLin 0%nat 1 1; ShLin 1%nat 1 2; ShLin 2%nat 1 1], [ShLin 0%nat 1 0; ShLin 1%nat 1 1; ShLin 2%nat 1 1], Some QSTZ_e5);
  (16, 16, [ShLin 0%nat 1 1; ShLin 1%nat 1 2; ShLin 2%nat 1 1], [ShLin 0%nat 1 0; ShLin 1%nat 1 3; ShLin 2%nat 1 1], Some (cN 1));
  (17, 17, [ShLin 0%nat 1 1; ShLin 1%nat 1 (-2); ShLin 2%nat 1 0], [ShLin 0%nat 1 0; ShLin 1%nat 1 (-1); ShLin 2%nat 1 0], Some QSTZ_e2);
  (18, 17, [ShLin 0%nat 1 1; ShLin 1%nat 1 0; ShLin 2%nat 1 0], [ShLin 0%nat 1 0; ShLin 1%nat 1 (-1); ShLin 2%nat 1 0], Some QSTZ_e3);
  (18, 18, [ShLin 0%nat 1 1; ShLin 1%nat 1 0; ShLin 2%nat 1 0], [ShLin 0%nat 1 0; ShLin 1%nat 1 1; ShLin 2%nat 1 0], Some QSTZ_e4);
  (19, 18, [ShLin 0%nat 1 1; ShLin 1%nat 1 2; ShLin 2%nat 1 0], [ShLin 0%nat 1 0; ShLin 1%nat 1 1; ShLin 2%nat 1 0], Some QSTZ_e5);
  (19, 19, [ShLin 0%nat 1 1; ShLin 1%nat 1 2; ShLin 2%nat 1 0], [ShLin 0%nat 1 0; ShLin 1%nat 1 3; ShLin 2%nat 1 0], Some (cN 1));
  (20, 20, [ShLin 0%nat 1 1; ShLin 1%nat 1 (-2); ShLin 2%nat 1 (-1)], [ShLin 0%nat 1 0; ShLin 1%nat 1 (-1); ShLin 2%nat 1 (-1)], Some QSTZ_e2);
  (21, 20, [ShLin 0%nat 1 1; ShLin 1%nat 1 0; ShLin 2%nat 1 (-1)], [ShLin 0%nat 1 0; ShLin 1%nat 1 (-1); ShLin 2%nat 1 (-1)], Some QSTZ_e3);
  (21, 21, [ShLin 0%nat 1 1; ShLin 1%nat 1 0; ShLin 2%nat 1 (-1)], [ShLin 0%nat 1 0; ShLin 1%nat 1 1; ShLin 2%nat 1 (-1)], Some QSTZ_e4);
  (22, 21, [ShLin 0%nat 1 1; ShLin 1%nat 1 2; ShLin 2%nat 1 (-1)], [ShLin 0%nat 1 0; ShLin 1%nat 1 1; ShLin 2%nat 1 (-1)], Some QSTZ_e5);
  (22, 22, [ShLin 0%nat 1 1; ShLin 1%nat 1 2; ShLin 2%nat 1 (-1)], [ShLin 0%nat 1 0; ShLin 1%nat 1 3; ShLin 2%nat 1 (-1)], Some (cN 1));
  (23, 23, [ShLin 0%nat 1 0; ShLin 1%nat 1 (-1); ShLin 2%nat 1 2], [ShLin 0%nat 1 (-1); ShLin 1%nat 1 0; ShLin 2%nat 1 2], Some QSTZ_e0);
  (24, 23, [ShLin 0%nat 1 0; ShLin 1%nat 1 1; ShLin 2%nat 1 2], [ShLin 0%nat 1 (-1); ShLin 1%nat 1 0; ShLin 2%nat 1 2], Some QSTZ_e1);
  (24, 24, [ShLin 0%nat 1 0; ShLin 1%nat 1 1; ShLin 2%nat 1 2], [ShLin 0%nat 1 (-1); ShLin 1%nat 1 2; ShLin 2%nat 1 2], Some (cN (-1)));
  (25, 25, [ShLin 0%nat 1 0; ShLin 1%nat 1 (-1); ShLin 2%nat 1 1], [ShLin 0%nat 1 (-1); ShLin 1%nat 1 0; ShLin 2%nat 1 1], Some QSTZ_e0);
  (26, 25, [ShLin 0%nat 1 0; ShLin 1%nat 1 1; ShLin 2%nat 1 1], [ShLin 0%nat 1 (-1); ShLin 1%nat 1 0; ShLin 2%nat 1 1], Some QSTZ_e1);
  (26, 26, [ShLin 0%nat 1 0; ShLin 1%nat 1 1; ShLin 2%nat 1 1], [ShLin 0%nat 1 (-1); ShLin 1%nat 1 2; ShLin 2%nat 1 1], Some (cN (-1)));
  (27, 27, [ShLin 0%nat 1 0; ShLin 1%nat 1 (-1); ShLin 2%nat 1 1], [ShLin 0%nat 1 (-1); ShLin 1%nat 1 0; ShLin 2%nat 1 1], Some QSTZ_e0);
  (28, 27, [ShLin 0%nat 1 0; ShLin 1%nat 1 1; ShLin 2%nat 1 1], [ShLin 0%nat 1 (-1); ShLin 1%nat 1 0; ShLin 2%nat 1 1], Some QSTZ_e1);
  (28, 28, [ShLin 0%nat 1 0; ShLin 1%nat 1 1; ShLin 2%nat 1 1], [ShLin 0%nat 1 (-1); ShLin 1%nat 1 2; ShLin 2%nat 1 1], Some (cN (-1)));
  (29, 29, [ShLin 0%nat 1 0; ShLin 1%nat 1 (-1); ShLin 2%nat 1 0], [ShLin 0%nat 1 (-1); ShLin 1%nat 1 0; ShLin 2%nat 1 0], Some QSTZ_e0);
  (30, 29, [ShLin 0%nat 1 0; ShLin 1%nat 1 1; ShLin 2%nat 1 0], [ShLin 0%nat 1 (-1); ShLin 1%nat 1 0; ShLin 2%nat 1 0], Some QSTZ_e1);
  (30, 30, [ShLin 0%nat 1 0; ShLin 1%nat 1 1; ShLin 2%nat 1 0], [ShLin 0%nat 1 (-1); ShLin 1%nat 1 2; ShLin 2%nat 1 0], Some (cN (-1)));
  (31, 31, [ShLin 0%nat 1 0; ShLin 1%nat 1 (-1); ShLin 2%nat 1 0], [ShLin 0%nat 1 (-1); ShLin 1%nat 1 0; ShLin 2%nat 1 0], Some QSTZ_e0);
  (32, 31, [ShLin 0%nat 1 0; ShLin 1%nat 1 1; ShLin 2%nat 1 0], [ShLin 0%nat 1 (-1); ShLin 1%nat 1 0; ShLin 2%nat 1 0], Some QSTZ_e1);
  (32, 32, [ShLin 0%nat 1 0; ShLin 1%nat 1 1; ShLin 2%nat 1 0], [ShLin 0%nat 1 (-1); ShLin 1%nat 1 2; ShLin 2%nat 1 0], Some (cN (-1)));
  (33, 33, [ShLin 0%nat 1 0; ShLin 1%nat 1 (-1); ShLin 2%nat 1 (-1)], [ShLin 0%nat 1 (-1); ShLin 1%nat 1 0; ShLin 2%nat 1 (-1)], Some QSTZ_e0);
  (34, 33, [ShLin 0%nat 1 0; ShLin 1%nat 1 1; ShLin 2%nat 1 (-1)], [ShLin 0%nat 1 (-1); ShLin 1%nat 1 0; ShLin 2%nat 1 (-1)], Some QSTZ_e1);
  (34, 34, [ShLin 0%nat 1 0; ShLin 1%nat 1 1; ShLin 2%nat 1 (-1)], [ShLin 0%nat 1 (-1); ShLin 1%nat 1 2; ShLin 2%nat 1 (-1)], Some (cN (-1)));
  (35, 35, [ShLin 0%nat 1 0; ShLin 1%nat 1 (-1); ShLin 2%nat 1 (-1)], [ShLin 0%nat 1 (-1); ShLin 1%nat 1 0; ShLin 2%nat 1 (-1)], Some QSTZ_e0);
  (36, 35, [ShLin 0%nat 1 0; ShLin 1%nat 1 1; ShLin 2%nat 1 (-1)], [ShLin 0%nat 1 (-1); ShLin 1%nat 1 0; ShLin 2%nat 1 (-1)], Some QSTZ_e1);
  (36, 36, [ShLin 0%nat 1 0; ShLin 1%nat 1 1; ShLin 2%nat 1 (-1)], [ShLin 0%nat 1 (-1); ShLin 1%nat 1 2; ShLin 2%nat 1 (-1)], Some (cN (-1)));
  (37, 37, [ShLin 0%nat 1 0; ShLin 1%nat 1 (-1); ShLin 2%nat 1 (-2)], [ShLin 0%nat 1 (-1); ShLin 1%nat 1 0; ShLin 2%nat 1 (-2)], Some QSTZ_e0);
  (38, 37, [ShLin 0%nat 1 0; ShLin 1%nat 1 1; ShLin 2%nat 1 (-2)], [ShLin 0%nat 1 (-1); ShLin 1%nat 1 0; ShLin 2%nat 1 (-2)], Some QSTZ_e1);
  (38, 38, [ShLin 0%nat 1 0; ShLin 1%nat 1 1; ShLin 2%nat 1 (-2)], [ShLin 0%nat 1 (-1); ShLin 1%nat 1 2; ShLin 2%nat 1 (-2)], Some (cN (-1)));
  (39, 39, [ShLin 0%nat 1 0; ShLin 1%nat 1 (-3); ShLin 2%nat 1 0], [ShLin 0%nat 1 (-1); ShLin 1%nat 1 (-2); ShLin 2%nat 1 0], Some QSTZ_e6);
  (40, 39, [ShLin 0%nat 1 0; ShLin 1%nat 1 (-1); ShLin 2%nat 1 0], [ShLin 0%nat 1 (-1); ShLin 1%nat 1 (-2); ShLin 2%nat 1 0], Some QSTZ_e7);
  (40, 40, [ShLin 0%nat 1 0; ShLin 1%nat 1 (-1); ShLin 2%nat 1 0], [ShLin 0%nat 1 (-1); ShLin 1%nat 1 0; ShLin 2%nat 1 0], Some QSTZ_e8);
  (41, 40, [ShLin 0%nat 1 0; ShLin 1%nat 1 1; ShLin 2%nat 1 0], [ShLin 0%nat 1 (-1); ShLin 1%nat 1 0; ShLin 2%nat 1 0], Some QSTZ_e9);
  (41, 41, [ShLin 0%nat 1 0; ShLin 1%nat 1 1; ShLin 2%nat 1 0], [ShLin 0%nat 1 (-1); ShLin 1%nat 1 2; ShLin 2%nat 1 0], Some QSTZ_e10);
  (42, 41, [ShLin 0%nat 1 0; ShLin 1%nat 1 3; ShLin 2%nat 1 0], [ShLin 0%nat 1 (-1); ShLin 1%nat 1 2; ShLin 2%nat 1 0], Some QSTZ_e11);
  (42, 42, [ShLin 0%nat 1 0; ShLin 1%nat 1 3; ShLin 2%nat 1 0], [ShLin 0%nat 1 (-1); ShLin 1%nat 1 4; ShLin 2%nat 1 0], Some (cN (-1)));
  (43, 43, [ShLin 0%nat 1 (-1); ShLin 1%nat 1 0; ShLin 2%nat 1 2], [ShLin 0%nat 1 (-2); ShLin 1%nat 1 1; ShLin 2%nat 1 2], Some (cN 1));
  (44, 44, [ShLin 0%nat 1 (-1); ShLin 1%nat 1 0; ShLin 2%nat 1 1], [ShLin 0%nat 1 (-2); ShLin 1%nat 1 1; ShLin 2%nat 1 1], Some (cN 1));
  (45, 45, [ShLin 0%nat 1 (-1); ShLin 1%nat 1 0; ShLin 2%nat 1 0], [ShLin 0%nat 1 (-2); ShLin 1%nat 1 1; ShLin 2%nat 1 0], Some (cN 1));
  (46, 46, [ShLin 0%nat 1 (-1); ShLin 1%nat 1 0; ShLin 2%nat 1 0], [ShLin 0%nat 1 (-2); ShLin 1%nat 1 1; ShLin 2%nat 1 0], Some (cN 1));
  (47, 47, [ShLin 0%nat 1 (-1); ShLin 1%nat 1 0; ShLin 2%nat 1 (-1)], [ShLin 0%nat 1 (-2); ShLin 1%nat 1 1; ShLin 2%nat 1 (-1)], Some (cN 1));
  (48, 48, [ShLin 0%nat 1 (-1); ShLin 1%nat 1 0; ShLin 2%nat 1 (-2)], [ShLin 0%nat 1 (-2); ShLin 1%nat 1 1; ShLin 2%nat 1 (-2)], Some (cN 1));
  (49, 49, [ShLin 0%nat 1 (-1); ShLin 1%nat 1 (-2); ShLin 2%nat 1 1], [ShLin 0%nat 1 (-2); ShLin 1%nat 1 (-1); ShLin 2%nat 1 1], Some QSTZ_e2);
  (50, 49, [ShLin 0%nat 1 (-1); ShLin 1%nat 1 0; ShLin 2%nat 1 1], [ShLin 0%nat 1 (-2); ShLin 1%nat 1 (-1); ShLin 2%nat 1 1], Some QSTZ_e3);
  (50, 50, [ShLin 0%nat 1 (-1); ShLin 1%nat 1 0; ShLin 2%nat 1 1], [ShLin 0%nat 1 (-2); ShLin 1%nat 1 1; ShLin 2%nat 1 1], Some QSTZ_e4);
  (51, 50, [ShLin 0%nat 1 (-1); ShLin 1%nat 1 2; ShLin 2%nat 1 1], [ShLin 0%nat 1 (-2); ShLin 1%nat 1 1; ShLin 2%nat 1 1], Some QSTZ_e5);
  (51, 51, [ShLin 0%nat 1 (-1); ShLin 1%nat 1 2; ShLin 2%nat 1 1], [ShLin 0%nat 1 (-2); ShLin 1%nat 1 3; ShLin 2%nat 1 1], Some (cN 1));
  (52, 52, [ShLin 0%nat 1 (-1); ShLin 1%nat 1 (-2); ShLin 2%nat 1 0], [ShLin 0%nat 1 (-2); ShLin 1%nat 1 (-1); ShLin 2%nat 1 0], Some QSTZ_e2);
  (53, 52, [ShLin 0%nat 1 (-1); ShLin 1%nat 1 0; ShLin 2%nat 1 0], [ShLin 0%nat 1 (-2); ShLin 1%nat 1 (-1); ShLin 2%nat 1 0], Some QSTZ_e3);
  (53, 53, [ShLin 0%nat 1 (-1); ShLin 1%nat 1 0; ShLin 2%nat 1 0], [ShLin 0%nat 1 (-2); ShLin 1%nat 1 1; ShLin 2%nat 1 0], Some QSTZ_e4);
  (54, 53, [ShLin 0%nat 1 (-1); ShLin 1%nat 1 2; ShLin 2%nat 1 0], [ShLin 0%nat 1 (-2); ShLin 1%nat 1 1; ShLin 2%nat 1 0], Some QSTZ_e5);
  (54, 54, [ShLin 0%nat 1 (-1); ShLin 1%nat 1 2; ShLin 2%nat 1 0], [ShLin 0%nat 1 (-2); ShLin 1%nat 1 3; ShLin 2%nat 1 0], Some (cN 1));
  (55, 55, [ShLin 0%nat 1 (-1); ShLin 1%nat 1 (-2); ShLin 2%nat 1 (-1)], [ShLin 0%nat 1 (-2); ShLin 1%nat 1 (-1); ShLin 2%nat 1 (-1)], Some QSTZ_e2);
  (56, 55, [ShLin 0%nat 1 (-1); ShLin 1%nat 1 0; ShLin 2%nat 1 (-1)], [ShLin 0%nat 1 (-2); ShLin 1%nat 1 (-1); ShLin 2%nat 1 (-1)], Some QSTZ_e3);
  (56, 56, [ShLin 0%nat 1 (-1); ShLin 1%nat 1 0; ShLin 2%nat 1 (-1)], [ShLin 0%nat 1 (-2); ShLin 1%nat 1 1; ShLin 2%nat 1 (-1)], Some QSTZ_e4);
  (57, 56, [ShLin 0%nat 1 (-1); ShLin 1%nat 1 2; ShLin 2%nat 1 (-1)], [ShLin 0%nat 1 (-2); ShLin 1%nat 1 1; ShLin 2%nat 1 (-1)], Some QSTZ_e5);
  (57, 57, [ShLin 0%nat 1 (-1); ShLin 1%nat 1 2; ShLin 2%nat 1 (-1)], [ShLin 0%nat 1 (-2); ShLin 1%nat 1 3; ShLin 2%nat 1 (-1)], Some (cN 1));
  (58, 58, [ShLin 0%nat 1 (-2); ShLin 1%nat 1 (-1); ShLin 2%nat 1 1], [ShLin 0%nat 1 (-3); ShLin 1%nat 1 0; ShLin 2%nat 1 1], Some QSTZ_e0);
  (59, 58, [ShLin 0%nat 1 (-2); ShLin 1%nat 1 1; ShLin 2%nat 1 1], [ShLin 0%nat 1 (-3); ShLin 1%nat 1 0; ShLin 2%nat 1 1], Some QSTZ_e1);
  (59, 59, [ShLin 0%nat 1 (-2); ShLin 1%nat 1 1; ShLin 2%nat 1 1], [ShLin 0%nat 1 (-3); ShLin 1%nat 1 2; ShLin 2%nat 1 1], Some (cN (-1)));
  (60, 60, [ShLin 0%nat 1 (-2); ShLin 1%nat 1 (-1); ShLin 2%nat 1 0], [ShLin 0%nat 1 (-3); ShLin 1%nat 1 0; ShLin 2%nat 1 0], Some QSTZ_e0);
  (61, 60, [ShLin 0%nat 1 (-2); ShLin 1%nat 1 1; ShLin 2%nat 1 0], [ShLin 0%nat 1 (-3); ShLin 1%nat 1 0; ShLin 2%nat 1 0], Some QSTZ_e1);
  (61, 61, [ShLin 0%nat 1 (-2); ShLin 1%nat 1 1; ShLin 2%nat 1 0], [ShLin 0%nat 1 (-3); ShLin 1%nat 1 2; ShLin 2%nat 1 0], Some (cN (-1)));
  (62, 62, [ShLin 0%nat 1 (-2); ShLin 1%nat 1 (-1); ShLin 2%nat 1 (-1)], [ShLin 0%nat 1 (-3); ShLin 1%nat 1 0; ShLin 2%nat 1 (-1)], Some QSTZ_e0);
  (63, 62, [ShLin 0%nat 1 (-2); ShLin 1%nat 1 1; ShLin 2%nat 1 (-1)], [ShLin 0%nat 1 (-3); ShLin 1%nat 1 0; ShLin 2%nat 1 (-1)], Some QSTZ_e1);
  (63, 63, [ShLin 0%nat 1 (-2); ShLin 1%nat 1 1; ShLin 2%nat 1 (-1)], [ShLin 0%nat 1 (-3); ShLin 1%nat 1 2; ShLin 2%nat 1 (-1)], Some (cN (-1)));
  (64, 64, [ShLin 0%nat 1 (-3); ShLin 1%nat 1 0; ShLin 2%nat 1 0], [ShLin 0%nat 1 (-4); ShLin 1%nat 1 1; ShLin 2%nat 1 0], Some (cN 1))].
(** /repo/c++/symmetry/nrg-recalc-QSTZ.hpp recalc_doublet, qstz/qstz-doubletm0.dat *)
Definition qstz_t3 : ten_table := mk_ten "doublet" [ShLin 0%nat 1 (-1); ShLin 1%nat 1 (-1); ShLin 2%nat 1 0] [1; 2; 0] [
  (1, 1, [ShLin 0%nat 1 3; ShLin 1%nat 1 0; ShLin 2%nat 1 0], [ShLin 0%nat 1 2; ShLin 1%nat 1 (-1); ShLin 2%nat 1 0], Some (cN 1));
  (2, 2, [ShLin 0%nat 1 2; ShLin 1%nat 1 (-1); ShLin 2%nat 1 1], [ShLin 0%nat 1 1; ShLin 1%nat 1 (-2); ShLin 2%nat 1 1], Some (cN (-1)));
  (2, 3, [ShLin 0%nat 1 2; ShLin 1%nat 1 (-1); ShLin 2%nat 1 1], [ShLin 0%nat 1 1; ShLin 1%nat 1 0; ShLin 2%nat 1 1], Some QSTZ_e12);
  (3, 3, [ShLin 0%nat 1 2; ShLin 1%nat 1 1; ShLin 2%nat 1 1], [ShLin 0%nat 1 1; ShLin 1%nat 1 0; ShLin 2%nat 1 1], Some QSTZ_e0);
  (4, 4, [ShLin 0%nat 1 2; ShLin 1%nat 1 (-1); ShLin 2%nat 1 0], [ShLin 0%nat 1 1; ShLin 1%nat 1 (-2); ShLin 2%nat 1 0], Some (cN (-1)));
  (4, 5, [ShLin 0%nat 1 2; ShLin 1%nat 1 (-1); ShLin 2%nat 1 0], [ShLin 0%nat 1 1; ShLin 1%nat 1 0; ShLin 2%nat 1 0], Some QSTZ_e12);
  (5, 5, [ShLin 0%nat 1 2; ShLin 1%nat 1 1; ShLin 2%nat 1 0], [ShLin 0%nat 1 1; ShLin 1%nat 1 0; ShLin 2%nat 1 0], Some QSTZ_e0);
  (6, 6, [ShLin 0%nat 1 2; ShLin 1%nat 1 (-1); ShLin 2%nat 1 (-1)], [ShLin 0%nat 1 1; ShLin 1%nat 1 (-2); ShLin 2%nat 1 (-1)], Some (cN (-1)));
  (6, 7, [ShLin 0%nat 1 2; ShLin 1%nat 1 (-1); ShLin 2%nat 1 (-1)], [ShLin 0%nat 1 1; ShLin 1%nat 1 0; ShLin 2%nat 1 (-1)], Some QSTZ_e12);
  (7, 7, [ShLin 0%nat 1 2; ShLin 1%nat 1 1; ShLin 2%nat 1 (-1)], [ShLin 0%nat 1 1; ShLin 1%nat 1 0; ShLin 2%nat 1 (-1)], Some QSTZ_e0);
  (8, 8, [ShLin 0%nat 1 1; ShLin 1%nat 1 0; ShLin 2%nat 1 2], [ShLin 0%nat 1 0; ShLin 1%nat 1 (-1); ShLin 2%nat 1 2], Some (cN 1));
  (9, 9, [ShLin 0%nat 1 1; ShLin 1%nat 1 0; ShLin 2%nat 1 1], [ShLin 0%nat 1 0; ShLin 1%nat 1 (-1); ShLin 2%nat 1 1], Some (cN 1));
  (10, 10, [ShLin 0%nat 1 1; ShLin 1%nat 1 0; ShLin 2%nat 1 0], [ShLin 0%nat 1 0; ShLin 1%nat 1 (-1); ShLin 2%nat 1 0], Some (cN 1));
  (11, 11, [ShLin 0%nat 1 1; ShLin 1%nat 1 0; ShLin 2%nat 1 0], [ShLin 0%nat 1 0; ShLin 1%nat 1 (-1); ShLin 2%nat 1 0], Some (cN 1));
  (12, 12, [ShLin 0%nat 1 1; ShLin 1%nat 1 0; ShLin 2%nat 1 (-1)], [ShLin 0%nat 1 0; ShLin 1%nat 1 (-1); ShLin 2%nat 1 (-1)], Some (cN 1));
  (13, 13, [ShLin 0%nat 1 1; ShLin 1%nat 1 0; ShLin 2%nat 1 (-2)], [ShLin 0%nat 1 0; ShLin 1%nat 1 (-1); ShLin 2%nat 1 (-2)], Some (cN 1));
  (14, 14, [ShLin 0%nat 1 1; ShLin 1%nat 1 (-2); ShLin 2%nat 1 1], [ShLin 0%nat 1 0; ShLin 1%nat 1 (-3); ShLin 2%nat 1 1], Some (cN 1));
  (14, 15, [ShLin 0%nat 1 1; ShLin 1%nat 1 (-2); ShLin 2%nat 1 1], [ShLin 0%nat 1 0; ShLin 1%nat 1 (-1); ShLin 2%nat 1 1], Some QSTZ_e13);
  (15, 15, [ShLin 0%nat 1 1; ShLin 1%nat 1 0; ShLin 2%nat 1 1], [ShLin 0%nat 1 0; ShLin 1%nat 1 (-1); ShLin 2%nat 1 1], Some QSTZ_e14);
  (15, 16, [ShLin 0%nat 1 1; ShLin 1%nat 1 0; ShLin 2%nat 1 1], [ShLin 0%nat 1 0; ShLin 1%nat 1 1; ShLin 2%nat 1 1], Some QSTZ_e15);
  (16, 16, [ShLin 0%nat 1 1; ShLin 1%nat 1 2; ShLin 2%nat 1 1], [ShLin 0%nat 1 0; ShLin 1%nat 1 1; ShLin 2%nat 1 1], Some QSTZ_e16);
  (17, 17, [ShLin 0%nat 1 1; ShLin 1%nat 1 (-2); ShLin 2%nat 1 0], [ShLin 0%nat 1 0; ShLin 1%nat 1 (-3); ShLin 2%nat 1 0], Some (cN 1));
  (17, 18, [ShLin 0%nat 1 1; ShLin 1%nat 1 (-2); ShLin 2%nat 1 0], [ShLin 0%nat 1 0; ShLin 1%nat 1 (-1); ShLin 2%nat 1 0], Some QSTZ_e13);
  (18, 18, [ShLin 0%nat 1 1; ShLin 1%nat 1 0; ShLin 2%nat 1 0], [ShLin 0%nat 1 0; ShLin 1%nat 1 (-1); ShLin 2%nat 1 0], Some QSTZ_e14);
  (18, 19, [ShLin 0%nat 1 1; ShLin 1%nat 1 0; ShLin 2%nat 1 0], [ShLin 0%nat 1 0; ShLin 1%nat 1 1; ShLin 2%nat 1 0], Some QSTZ_e15);
  (19, 19, [ShLin 0%nat 1 1; ShLin 1%nat 1 2; ShLin 2%nat 1 0], [ShLin 0%nat 1 0; ShLin 1%nat 1 1; ShLin 2%nat 1 0], Some QSTZ_e16);
  (20, 20, [ShLin 0%nat 1 1; ShLin 1%nat 1 (-2); ShLin 2%nat 1 (-1)], [ShLin 0%nat 1 0; ShLin 1%nat 1 (-3); ShLin 2%nat 1 (-1)], Some (cN 1));
  (20, 21, [ShLin 0%nat 1 1; ShLin 1%nat 1 (-2); ShLin 2%nat 1 (-1)], [ShLin 0%nat 1 0; ShLin 1%nat 1 (-1); ShLin 2%nat 1 (-1)], Some QSTZ_e13);
  (21, 21, [ShLin 0%nat 1 1; ShLin 1%nat 1 0; ShLin 2%nat 1 (-1)], [ShLin 0%nat 1 0; ShLin 1%nat 1 (-1); ShLin 2%nat 1 (-1)], Some QSTZ_e14);
  (21, 22, [ShLin 0%nat 1 1; ShLin 1%nat 1 0; ShLin 2%nat 1 (-1)], [ShLin 0%nat 1 0; ShLin 1%nat 1 1; ShLin 2%nat 1 (-1)], Some QSTZ_e15);
  (22, 22, [ShLin 0%nat 1 1; ShLin 1%nat 1 2; ShLin 2%nat 1 (-1)], [ShLin 0%nat 1 0; ShLin 1%nat 1 1; ShLin 2%nat 1 (-1)], Some QSTZ_e16);
  (23, 23, [ShLin 0%nat 1 0; ShLin 1%nat 1 (-1); ShLin 2%nat 1 2], [ShLin 0%nat 1 (-1); ShLin 1%nat 1 (-2); ShLin 2%nat 1 2], Some (cN (-1)));
  (23, 24, [ShLin 0%nat 1 0; ShLin 1%nat 1 (-1); ShLin 2%nat 1 2], [ShLin 0%nat 1 (-1); ShLin 1%nat 1 0; ShLin 2%nat 1 2], Some QSTZ_e12);
  (24, 24, [ShLin 0%nat 1 0; ShLin 1%nat 1 1; ShLin 2%nat 1 2], [ShLin 0%nat 1 (-1); ShLin 1%nat 1 0; ShLin 2%nat 1 2], Some QSTZ_e0);
  (25, 25, [ShLin 0%nat 1 0; ShLin 1%nat 1 (-1); ShLin 2%nat 1 1], [ShLin 0%nat 1 (-1); ShLin 1%nat 1 (-2); ShLin 2%nat 1 1], Some (cN (-1)));
  (25, 26, [ShLin 0%nat 1 0; ShLin 1%nat 1 (-1); ShLin 2%nat 1 1], [ShLin 0%nat 1 (-1); ShLin 1%nat 1 0; ShLin 2%nat 1 1], Some QSTZ_e12);
  (26, 26, [ShLin 0%nat 1 0; ShLin 1%nat 1 1; ShLin 2%nat 1 1], [ShLin 0%nat 1 (-1); ShLin 1%nat 1 0; ShLin 2%nat 1 1], Some QSTZ_e0);
  (27, 27, [ShLin 0%nat 1 0; ShLin 1%nat 1 (-1); ShLin 2%nat 1 1], [ShLin 0%nat 1 (-1); ShLin 1%nat 1 (-2); ShLin 2%nat 1 1], Some (cN (-1)));
  (27, 28, [ShLin 0%nat 1 0; ShLin 1%nat 1 (-1); ShLin 2%nat 1 1], [ShLin 0%nat 1 (-1); ShLin 1%nat 1 0; ShLin 2%nat 1 1], Some QSTZ_e12);
  (28, 28, [ShLin 0%nat 1 0; ShLin 1%nat 1 1; ShLin 2%nat 1 1], [ShLin 0%nat 1 (-1); ShLin 1%nat 1 0; ShLin 2%nat 1 1], Some QSTZ_e0);
  (29, 29, [ShLin 0%nat 1 0; ShLin 1%nat 1 (-1); ShLin 2%nat 1 0], [ShLin 0%nat 1 (-1); ShLin 1%nat 1 (-2); ShLin 2%nat 1 0], Some (cN (-1)));
  (29, 30, [ShLin 0%nat 1 0; ShLin 1%nat 1 (-1); ShLin 2%nat 1 0], [ShLin 0%nat 1 (-1); ShLin 1%nat 1 0; ShLin 2%nat 1 0], Some QSTZ_e12);
  (30, 30, [ShLin 0%nat 1 0; ShLin 1%nat 1 1; ShLin 2%nat 1 0], [ShLin 0%nat 1 (-1); ShLin 1%nat 1 0; ShLin 2%nat 1 0], Some QSTZ_e0);
  (31, 31, [ShLin 0%nat 1 0; ShLin 1%nat 1 (-1); ShLin 2%nat 1 0], [ShLin 0%nat 1 (-1); ShLin 1%nat 1 (-2); ShLin 2%nat 1 0], Some (cN (-1)));
  (31, 32, [ShLin 0%nat 1 0; ShLin 1%nat 1 (-1); ShLin 2%nat 1 0], [ShLin 0%nat 1 (-1); ShLin 1%nat 1 0; ShLin 2%nat 1 0], Some QSTZ_e12);
  (32, 32, [ShLin 0%nat 1 0; ShLin 1%nat 1 1; ShLin 2%nat 1 0], [ShLin 0%nat 1 (-1); ShLin 1%nat 1 0; ShLin 2%nat 1 0], Some QSTZ_e0);
  (33, 33, [ShLin 0%nat 1 0; ShLin 1%nat 1 (-1); ShLin 2%nat 1 (-1)], [ShLin 0%nat 1 (-1); ShLin 1%nat 1 (-2); ShLin 2%nat 1 (-1)], Some (cN (-1)));
  (33, 34, [ShLin 0%nat 1 0; ShLin 1%nat 1 (-1); ShLin 2%nat 1 (-1)], [ShLin 0%nat 1 (-1); ShLin 1%nat 1 0; ShLin 2%nat 1 (-1)], Some QSTZ_e12);
  (34, 34, [ShLin 0%nat 1 0; ShLin 1%nat 1 1; ShLin 2%nat 1 (-1)], [ShLin 0%nat 1 (-1); ShLin 1%nat 1 0; ShLin 2%nat 1 (-1)], Some QSTZ_e0);
  (35, 35, [ShLin 0%nat 1 0; ShLin 1%nat 1 (-1); ShLin 2%nat 1 (-1)], [ShLin 0%nat 1 (-1); ShLin 1%nat 1 (-2); ShLin 2%nat 1 (-1)], Some (cN (-1)));
  (35, 36, [ShLin 0%nat 1 0; ShLin 1%nat 1 (-1); ShLin 2%nat 1 (-1)], [ShLin 0%nat 1 (-1); ShLin 1%nat 1 0; ShLin 2%nat 1 (-1)], Some QSTZ_e12);
  (36, 36, [ShLin 0%nat 1 0; ShLin 1%nat 1 1; ShLin 2%nat 1 (-1)], [ShLin 0%nat 1 (-1); ShLin 1%nat 1 0; ShLin 2%nat 1 (-1)], Some QSTZ_e0);
  (37, 37, [ShLin 0%nat 1 0; ShLin 1%nat 1 (-1); ShLin 2%nat 1 (-2)], [ShLin 0%nat 1 (-1); ShLin 1%nat 1 (-2); ShLin 2%nat 1 (-2)], Some (cN (-1)));
  (37, 38, [ShLin 0%nat 1 0; ShLin 1%nat 1 (-1); ShLin 2%nat 1 (-2)], [ShLin 0%nat 1 (-1); ShLin 1%nat 1 0; ShLin 2%nat 1 (-2)], Some QSTZ_e12);
  (38, 38, [ShLin 0%nat 1 0; ShLin 1%nat 1 1; ShLin 2%nat 1 (-2)], [ShLin 0%nat 1 (-1); ShLin 1%nat 1 0; ShLin 2%nat 1 (-2)], Some QSTZ_e0);
  (39, 39, [ShLin 0%nat 1 0; ShLin 1%nat 1 (-3); ShLin 2%nat 1 0], [ShLin 0%nat 1 (-1); ShLin 1%nat 1 (-4); ShLin 2%nat 1 0], Some (cN (-1)));
  (39, 40, [ShLin 0%nat 1 0; ShLin 1%nat 1 (-3); ShLin 2%nat 1 0], [ShLin 0%nat 1 (-1); ShLin 1%nat 1 (-2); ShLin 2%nat 1 0], Some QSTZ_e17);
  (40, 40, [ShLin 0%nat 1 0; ShLin 1%nat 1 (-1); ShLin 2%nat 1 0], [ShLin 0%nat 1 (-1); ShLin 1%nat 1 (-2); ShLin 2%nat 1 0], Some QSTZ_e18);
  (40, 41, [ShLin 0%nat 1 0; ShLin 1%nat 1 (-1); ShLin 2%nat 1 0], [ShLin 0%nat 1 (-1); ShLin 1%nat 1 0; ShLin 2%nat 1 0], Some QSTZ_e19);
  (41, 41, [ShLin 0%nat 1 0; ShLin 1%nat 1 1; ShLin 2%nat 1 0], [ShLin 0%nat 1 (-1); ShLin 1%nat 1 0; ShLin 2%nat 1 0], Some QSTZ_e20);
  (41, 42, [ShLin 0%nat 1 0; ShLin 1%nat 1 1; ShLin 2%nat 1 0], [ShLin 0%nat 1 (-1); ShLin 1%nat 1 2; ShLin 2%nat 1 0], Some QSTZ_e21);
  (42, 42, [ShLin 0%nat 1 0; ShLin 1%nat 1 3; ShLin 2%nat 1 0], [ShLin 0%nat 1 (-1); ShLin 1%nat 1 2; ShLin 2%nat 1 0], Some QSTZ_e22);
  (43, 43, [ShLin 0%nat 1 (-1); ShLin 1%nat 1 0; ShLin 2%nat 1 2], [ShLin 0%nat 1 (-2); ShLin 1%nat 1 (-1); ShLin 2%nat 1 2], Some (cN 1));
  (44, 44, [ShLin 0%nat 1 (-1); ShLin 1%nat 1 0; ShLin 2%nat 1 1], [ShLin 0%nat 1 (-2); ShLin 1%nat 1 (-1); ShLin 2%nat 1 1], Some (cN 1));
  (45, 45, [ShLin 0%nat 1 (-1); ShLin 1%nat 1 0; ShLin 2%nat 1 0], [ShLin 0%nat 1 (-2); ShLin 1%nat 1 (-1); ShLin 2%nat 1 0], Some (cN 1));
  (46, 46, [ShLin 0%nat 1 (-1); ShLin 1%nat 1 0; ShLin 2%nat 1 0], [ShLin 0%nat 1 (-2); ShLin 1%nat 1 (-1); ShLin 2%nat 1 0], Some (cN 1));
  (47, 47, [ShLin 0%nat 1 (-1); ShLin 1%nat 1 0; ShLin 2%nat 1 (-1)], [ShLin 0%nat 1 (-2); ShLin 1%nat 1 (-1); ShLin 2%nat 1 (-1)], Some (cN 1));
  (48, 48, [ShLin 0%nat 1 (-1); ShLin 1%nat 1 0; ShLin 2%nat 1 (-2)], [ShLin 0%nat 1 (-2); ShLin 1%nat 1 (-1); ShLin 2%nat 1 (-2)], Some (cN 1));
  (49, 49, [ShLin 0%nat 1 (-1); ShLin 1%nat 1 (-2); ShLin 2%nat 1 1], [ShLin 0%nat 1 (-2); ShLin 1%nat 1 (-3); ShLin 2%nat 1 1], Some (cN 1));
  (49, 50, [ShLin 0%nat 1 (-1); ShLin 1%nat 1 (-2); ShLin 2%nat 1 1], [ShLin 0%nat 1 (-2); ShLin 1%nat 1 (-1); ShLin 2%nat 1 1], Some QSTZ_e13);
  (50, 50, [ShLin 0%nat 1 (-1); ShLin 1%nat 1 0; ShLin 2%nat 1 1], [ShLin 0%nat 1 (-2); ShLin 1%nat 1 (-1); ShLin 2%nat 1 1], Some QSTZ_e14);
  (50, 51, [ShLin 0%nat 1 (-1); ShLin 1%nat 1 0; ShLin 2%nat 1 1], [ShLin 0%nat 1 (-2); ShLin 1%nat 1 1; ShLin 2%nat 1 1], Some QSTZ_e15);
  (51, 51, [ShLin 0%nat 1 (-1); ShLin 1%nat 1 2; ShLin 2%nat 1 1], [ShLin 0%nat 1 (-2); ShLin 1%nat 1 1; ShLin 2%nat 1 1], Some QSTZ_e16);
  (52, 52, [ShLin 0%nat 1 (-1); ShLin 1%nat 1 (-2); ShLin 2%nat 1 0], [ShLin 0%nat 1 (-2); ShLin 1%nat 1 (-3); ShLin 2%nat 1 0], Some (cN 1));
  (52, 53, [ShLin 0%nat 1 (-1); ShLin 1%nat 1 (-2); ShLin 2%nat 1 0], [ShLin 0%nat 1 (-2); ShLin 1%nat 1 (-1); ShLin 2%nat 1 0], Some QSTZ_e13);
  (53, 53, [ShLin 0%nat 1 (-1); ShLin 1%nat 1 0; ShLin 2%nat 1 0], [ShLin 0%nat 1 (-2); ShLin 1%nat 1 (-1); ShLin 2%nat 1 0], Some QSTZ_e14);
  (53, 54, [ShLin 0%nat 1 (-1); ShLin 1%nat 1 0; ShLin 2%nat 1 0], [ShLin 0%nat 1 (-2); ShLin 1%nat 1 1; ShLin 2%nat 1 0], Some QSTZ_e15);
  (54, 54, [ShLin 0%nat 1 (-1); ShLin 1%nat 1 2; ShLin 2%nat 1 0], [ShLin 0%nat 1 (-2); ShLin 1%nat 1 1; ShLin 2%nat 1 0], Some QSTZ_e16);
  (55, 55, [ShLin 0%nat 1 (-1); ShLin 1%nat 1 (-2); ShLin 2%nat 1 (-1)], [ShLin 0%nat 1 (-2); ShLin 1%nat 1 (-3); ShLin 2%nat 1 (-1)], Some (cN 1));
  (55, 56, [ShLin 0%nat 1 (-1); ShLin 1%nat 1 (-2); ShLin 2%nat 1 (-1)], [ShLin 0%nat 1 (-2); ShLin 1%nat 1 (-1); ShLin 2%nat 1 (-1)], Some QSTZ_e13);
  (56, 56, [ShLin 0%nat 1 (-1); ShLin 1%nat 1 0; ShLin 2%nat 1 (-1)], [ShLin 0%nat 1 (-2); ShLin 1%nat 1 (-1); ShLin 2%nat 1 (-1)], Some QSTZ_e14);
  (56, 57, [ShLin 0%nat 1 (-1); ShLin 1%nat 1 0; ShLin 2%nat 1 (-1)], [ShLin 0%nat 1 (-2); ShLin 1%nat 1 1; ShLin 2%nat 1 (-1)], Some QSTZ_e15);
  (57, 57, [ShLin 0%nat 1 (-1); ShLin 1%nat 1 2; ShLin 2%nat 1 (-1)], [ShLin 0%nat 1 (-2); ShLin 1%nat 1 1; ShLin 2%nat 1 (-1)], Some QSTZ_e16);
  (58, 58, [ShLin 0%nat 1 (-2); ShLin 1%nat 1 (-1); ShLin 2%nat 1 1], [ShLin 0%nat 1 (-3); ShLin 1%nat 1 (-2); ShLin 2%nat 1 1], Some (cN (-1)));
  (58, 59, [ShLin 0%nat 1 (-2); ShLin 1%nat 1 (-1); ShLin 2%nat 1 1], [ShLin 0%nat 1 (-3); ShLin 1%nat 1 0; ShLin 2%nat 1 1], Some QSTZ_e12);
  (59, 59, [ShLin 0%nat 1 (-2); ShLin 1%nat 1 1; ShLin 2%nat 1 1], [ShLin 0%nat 1 (-3); ShLin 1%nat 1 0; ShLin 2%nat 1 1], Some QSTZ_e0);
  (60, 60, [ShLin 0%nat 1 (-2); ShLin 1%nat 1 (-1); ShLin 2%nat 1 0], [ShLin 0%nat 1 (-3); ShLin 1%nat 1 (-2); ShLin 2%nat 1 0], Some (cN (-1)));
  (60, 61, [ShLin 0%nat 1 (-2); ShLin 1%nat 1 (-1); ShLin 2%nat 1 0], [ShLin 0%nat 1 (-3); ShLin 1%nat 1 0; ShLin 2%nat 1 0], Some QSTZ_e12);
  (61, 61, [ShLin 0%nat 1 (-2); ShLin 1%nat 1 1; ShLin 2%nat 1 0], [ShLin 0%nat 1 (-3); ShLin 1%nat 1 0; ShLin 2%nat 1 0], Some QSTZ_e0);
  (62, 62, [ShLin 0%nat 1 (-2); ShLin 1%nat 1 (-1); ShLin 2%nat 1 (-1)], [ShLin 0%nat 1 (-3); ShLin 1%nat 1 (-2); ShLin 2%nat 1 (-1)], Some (cN (-1)));
  (62, 63, [ShLin 0%nat 1 (-2); ShLin 1%nat 1 (-1); ShLin 2%nat 1 (-1)], [ShLin 0%nat 1 (-3); ShLin 1%nat 1 0; ShLin 2%nat 1 (-1)], Some QSTZ_e12);
  (63, 63, [ShLin 0%nat 1 (-2); ShLin 1%nat 1 1; ShLin 2%nat 1 (-1)], [ShLin 0%nat 1 (-3); ShLin 1%nat 1 0; ShLin 2%nat 1 (-1)], Some QSTZ_e0);
  (64, 64, [ShLin 0%nat 1 (-3); ShLin 1%nat 1 0; ShLin 2%nat 1 0], [ShLin 0%nat 1 (-4); ShLin 1%nat 1 (-1); ShLin 2%nat 1 0], Some (cN 1))].
(** /repo/c++/symmetry/nrg-recalc-QSTZ.hpp recalc_doublet, qstz/qstz-doubletp+1.dat *)
Definition qstz_t4 : ten_table := mk_ten "doublet" [ShLin 0%nat 1 (-1); ShLin 1%nat 1 1; ShLin 2%nat 1 1] [1; 2; (-1)] [
  (1, 1, [ShLin 0%nat 1 3; ShLin 1%nat 1 0; ShLin 2%nat 1 0], [ShLin 0%nat 1 2; ShLin 1%nat 1 1; ShLin 2%nat 1 1], Some (cN 1));
  (2, 2, [ShLin 0%nat 1 2; ShLin 1%nat 1 (-1); ShLin 2%nat 1 1], [ShLin 0%nat 1 1; ShLin 1%nat 1 0; ShLin 2%nat 1 2], Some QSTZ_e0);
  (3, 2, [ShLin 0%nat 1 2; ShLin 1%nat 1 1; ShLin 2%nat 1 1], [ShLin 0%nat 1 1; ShLin 1%nat 1 0; ShLin 2%nat 1 2], Some QSTZ_e1);
  (3, 3, [ShLin 0%nat 1 2; ShLin 1%nat 1 1; ShLin 2%nat 1 1], [ShLin 0%nat 1 1; ShLin 1%nat 1 2; ShLin 2%nat 1 2], Some (cN (-1)));
  (4, 4, [ShLin 0%nat 1 2; ShLin 1%nat 1 (-1); ShLin 2%nat 1 0], [ShLin 0%nat 1 1; ShLin 1%nat 1 0; ShLin 2%nat 1 1], Some QSTZ_e0);
  (5, 4, [ShLin 0%nat 1 2; ShLin 1%nat 1 1; ShLin 2%nat 1 0], [ShLin 0%nat 1 1; ShLin 1%nat 1 0; ShLin 2%nat 1 1], Some QSTZ_e1);
  (5, 5, [ShLin 0%nat 1 2; ShLin 1%nat 1 1; ShLin 2%nat 1 0], [ShLin 0%nat 1 1; ShLin 1%nat 1 2; ShLin 2%nat 1 1], Some (cN (-1)));
  (6, 6, [ShLin 0%nat 1 2; ShLin 1%nat 1 (-1); ShLin 2%nat 1 (-1)], [ShLin 0%nat 1 1; ShLin 1%nat 1 0; ShLin 2%nat 1 0], Some QSTZ_e0);
  (7, 6, [ShLin 0%nat 1 2; ShLin 1%nat 1 1; ShLin 2%nat 1 (-1)], [ShLin 0%nat 1 1; ShLin 1%nat 1 0; ShLin 2%nat 1 0], Some QSTZ_e1);
  (7, 7, [ShLin 0%nat 1 2; ShLin 1%nat 1 1; ShLin 2%nat 1 (-1)], [ShLin 0%nat 1 1; ShLin 1%nat 1 2; ShLin 2%nat 1 0], Some (cN (-1)));
  (8, 8, [ShLin 0%nat 1 1; ShLin 1%nat 1 0; ShLin 2%nat 1 2], [ShLin 0%nat 1 0; ShLin 1%nat 1 1; ShLin 2%nat 1 3], Some (cN 1));
  (9, 9, [ShLin 0%nat 1 1; ShLin 1%nat 1 0; ShLin 2%nat 1 1], [ShLin 0%nat 1 0; ShLin 1%nat 1 1; ShLin 2%nat 1 2], Some (cN 1));
  (10, 10, [ShLin 0%nat 1 1; ShLin 1%nat 1 0; ShLin 2%nat 1 0], [ShLin 0%nat 1 0; ShLin 1%nat 1 1; ShLin 2%nat 1 1], Some (cN 1));
  (11, 11, [ShLin 0%nat 1 1; ShLin 1%nat 1 0; ShLin 2%nat 1 0], [ShLin 0%nat 1 0; ShLin 1%nat 1 1; ShLin 2%nat 1 1], Some (cN 1));
  (12, 12, [ShLin 0%nat 1 1; ShLin 1%nat 1 0; ShLin 2%nat 1 (-1)], [ShLin 0%nat 1 0; ShLin 1%nat 1 1; ShLin 2%nat 1 0], Some (cN 1));
  (13, 13, [ShLin 0%nat 1 1; ShLin 1%nat 1 0; ShLin 2%nat 1 (-2)], [ShLin 0%nat 1 0; ShLin 1%nat 1 1; ShLin 2%nat 1 (-1)], Some (cN 1));
  (14, 14, [ShLin 0%nat 1 1; ShLin 1%nat 1 (-2); ShLin 2%nat 1 1], [ShLin 0%nat 1 0; ShLin 1%nat 1 (-1); ShLin 2%nat 1 2], Some QSTZ_e2);
  (15, 14, [ShLin 0%nat 1 1; ShLin 1%nat 1 0; ShLin 2%nat 1 1], [ShLin 0%nat 1 0; ShLin 1%nat 1 (-1); ShLin 2%nat 1 2], Some QSTZ_e3);
  (15, 15, [ShLin 0%nat 1 1; ShLin 1%nat 1 0; ShLin 2%nat 1 1], [ShLin 0%nat 1 0; ShLin 1%nat 1 1; ShLin 2%nat 1 2], Some QSTZ_e4);
  (16, 15, [ShLin 0%nat 1 1; ShLin 1%nat 1 2; ShLin 2%nat 1 1], [ShLin 0%nat 1 0; ShLin 1%nat 1 1; ShLin 2%nat 1 2], Some QSTZ_e5);
  (16, 16, [ShLin 0%nat 1 1; ShLin 1%nat 1 2; ShLin 2%nat 1 1], [ShLin 0%nat 1 0; ShLin 1%nat 1 3; ShLin 2%nat 1 2], Some (cN 1));
  (17, 17, [ShLin 0%nat 1 1; ShLin 1%nat 1 (-2); ShLin 2%nat 1 0], [ShLin 0%nat 1 0; ShLin 1%nat 1 (-1); ShLin 2%nat 1 1], Some QSTZ_e2);
  (18, 17, [ShLin 0%nat 1 1; ShLin 1%nat 1 0; ShLin 2%nat 1 0], [ShLin 0%nat 1 0; ShLin 1%nat 1 (-1); ShLin 2%nat 1 1], Some QSTZ_e3);
  (18, 18, [ShLin 0%nat 1 1; ShLin 1%nat 1 0; ShLin 2%nat 1 0], [ShLin 0%nat 1 0; ShLin 1%nat 1 1; ShLin 2%nat 1 1], Some QSTZ_e4);
  (19, 18, [ShLin 0%nat 1 1; ShLin 1%nat 1 2; ShLin 2%nat 1 0], [ShLin 0%nat 1 0; ShLin 1%nat 1 1; ShLin 2%nat 1 1], Some QSTZ_e5);
  (19, 19, [ShLin 0%nat 1 1; ShLin 1%nat 1 2; ShLin 2%nat 1 0], [ShLin 0%nat 1 0; ShLin 1%nat 1 3; ShLin 2%nat 1 1], Some (cN 1));
  (20, 20, [ShLin 0%nat 1 1; ShLin 1%nat 1 (-2); ShLin 2%nat 1 (-1)], [ShLin 0%nat 1 0; ShLin 1%nat 1 (-1); ShLin 2%nat 1 0], Some QSTZ_e2);
  (21, 20, [ShLin 0%nat 1 1; ShLin 1%nat 1 0; ShLin 2%nat 1 (-1)], [ShLin 0%nat 1 0; ShLin 1%nat 1 (-1); ShLin 2%nat 1 0], Some QSTZ_e3);
  (21, 21, [ShLin 0%nat 1 1; ShLin 1%nat 1 0; ShLin 2%nat 1 (-1)], [ShLin 0%nat 1 0; ShLin 1%nat 1 1; ShLin 2%nat 1 0], Some QSTZ_e4);
  (22, 21, [ShLin 0%nat 1 1; ShLin 1%nat 1 2; ShLin 2%nat 1 (-1)], [ShLin 0%nat 1 0; ShLin 1%nat 1 1; ShLin 2%nat 1 0], Some QSTZ_e5);
  (22, 22, [ShLin 0%nat 1 1; ShLin 1%nat 1 2; ShLin 2%nat 1 (-1)], [ShLin 0%nat 1 0; ShLin 1%nat 1 3; ShLin 2%nat 1 0], Some (cN 1));
  (23, 23, [ShLin 0%nat 1 0; ShLin 1%nat 1 (-1); ShLin 2%nat 1 2], [ShLin 0%nat 1 (-1); ShLin 1%nat 1 0; ShLin 2%nat 1 3], Some QSTZ_e0);
  (24, 23, [ShLin 0%nat 1 0; ShLin 1%nat 1 1; ShLin 2%nat 1 2], [ShLin 0%nat 1 (-1); ShLin 1%nat 1 0; ShLin 2%nat 1 3], Some QSTZ_e1);
  (24, 24, [ShLin 0%nat 1 0; ShLin 1%nat 1 1; ShLin 2%nat 1 2], [ShLin 0%nat 1 (-1); ShLin 1%nat 1 2; ShLin 2%nat 1 3], Some (cN (-1)));
  (25, 25, [ShLin 0%nat 1 0; ShLin 1%nat 1 (-1); ShLin 2%nat 1 1], [ShLin 0%nat 1 (-1); ShLin 1%nat 1 0; ShLin 2%nat 1 2], Some QSTZ_e0);
  (26, 25, [ShLin 0%nat 1 0; ShLin 1%nat 1 1; ShLin 2%nat 1 1], [ShLin 0%nat 1 (-1); ShLin 1%nat 1 0; ShLin 2%nat 1 2], Some QSTZ_e1);
  (26, 26, [ShLin 0%nat 1 0; ShLin 1%nat 1 1; ShLin 2%nat 1 1], [ShLin 0%nat 1 (-1); ShLin 1%nat 1 2; ShLin 2%nat 1 2], Some (cN (-1)));
  (27, 27, [ShLin 0%nat 1 0; ShLin 1%nat 1 (-1); ShLin 2%nat 1 1], [ShLin 0%nat 1 (-1); ShLin 1%nat 1 0; ShLin 2%nat 1 2], Some QSTZ_e0);
  (28, 27, [ShLin 0%nat 1 0; ShLin 1%nat 1 1; ShLin 2%nat 1 1], [ShLin 0%nat 1 (-1); ShLin 1%nat 1 0; ShLin 2%nat 1 2], Some QSTZ_e1);
  (28, 28, [ShLin 0%nat 1 0; ShLin 1%nat 1 1; ShLin 2%nat 1 1], [ShLin 0%nat 1 (-1); ShLin 1%nat 1 2; ShLin 2%nat 1 2], Some (cN (-1)));
  (29, 29, [ShLin 0%nat 1 0; ShLin 1%nat 1 (-1); ShLin 2%nat 1 0], [ShLin 0%nat 1 (-1); ShLin 1%nat 1 0; ShLin 2%nat 1 1], Some QSTZ_e0);
  (30, 29, [ShLin 0%nat 1 0; ShLin 1%nat 1 1; ShLin 2%nat 1 0], [ShLin 0%nat 1 (-1); ShLin 1%nat 1 0; ShLin 2%nat 1 1], Some QSTZ_e1);
  (30, 30, [ShLin 0%nat 1 0; ShLin 1%nat 1 1; ShLin 2%nat 1 0], [ShLin 0%nat 1 (-1); ShLin 1%nat 1 2; ShLin 2%nat 1 1], Some (cN (-1)));
  (31, 31, [ShLin 0%nat 1 0; ShLin 1%nat 1 (-1); ShLin 2%nat 1 0], [ShLin 0%nat 1 (-1); ShLin 1%nat 1 0; ShLin 2%nat 1 1], Some QSTZ_e0);
  (32, 31, [ShLin 0%nat 1 0; ShLin 1%nat 1 1; ShLin 2%nat 1 0], [ShLin 0%nat 1 (-1); ShLin 1%nat 1 0; ShLin 2%nat 1 1], Some QSTZ_e1);
  (32, 32, [ShLin 0%nat 1 0; ShLin 1%nat 1 1; ShLin 2%nat 1 0], [ShLin 0%nat 1 (-1); ShLin 1%nat 1 2; ShLin 2%nat 1 1], Some (cN (-1)));
  (33, 33, [ShLin 0%nat 1 0; ShLin 1%nat 1 (-1); ShLin 2%nat 1 (-1)], [ShLin 0%nat 1 (-1); ShLin 1%nat 1 0; ShLin 2%nat 1 0], Some QSTZ_e0);
  (34, 33, [ShLin 0%nat 1 0; ShLin 1%nat 1 1; ShLin 2%nat 1 (-1)], [ShLin 0%nat 1 (-1); ShLin 1%nat 1 0; ShLin 2%nat 1 0], Some QSTZ_e1);
  (34, 34, [ShLin 0%nat 1 0; ShLin 1%nat 1 1; ShLin 2%nat 1 (-1)], [ShLin 0%nat 1 (-1); ShLin 1%nat 1 2; ShLin 2%nat 1 0], Some (cN (-1)));
  (35, 35, [ShLin 0%nat 1 0; ShLin 1%nat 1 (-1); ShLin 2%nat 1 (-1)], [ShLin 0%nat 1 (-1); ShLin 1%nat 1 0; ShLin 2%nat 1 0], Some QSTZ_e0);
  (36, 35, [ShLin 0%nat 1 0; ShLin 1%nat 1 1; ShLin 2%nat 1 (-1)], [ShLin 0%nat 1 (-1); ShLin 1%nat 1 0; ShLin 2%nat 1 0], Some QSTZ_e1);
  (36, 36, [ShLin 0%nat 1 0; ShLin 1%nat 1 1; ShLin 2%nat 1 (-1)], [ShLin 0%nat 1 (-1); ShLin 1%nat 1 2; ShLin 2%nat 1 0], Some (cN (-1)));
  (37, 37, [ShLin 0%nat 1 0; ShLin 1%nat 1 (-1); ShLin 2%nat 1 (-2)], [ShLin 0%nat 1 (-1); ShLin 1%nat 1 0; ShLin 2%nat 1 (-1)], Some QSTZ_e0);
  (38, 37, [ShLin 0%nat 1 0; ShLin 1%nat 1 1; ShLin 2%nat 1 (-2)], [ShLin 0%nat 1 (-1); ShLin 1%nat 1 0; ShLin 2%nat 1 (-1)], Some QSTZ_e1);
  (38, 38, [ShLin 0%nat 1 0; ShLin 1%nat 1 1; ShLin 2%nat 1 (-2)], [ShLin 0%nat 1 (-1); ShLin 1%nat 1 2; ShLin 2%nat 1 (-1)], Some (cN (-1)));
  (39, 39, [ShLin 0%nat 1 0; ShLin 1%nat 1 (-3); ShLin 2%nat 1 0], [ShLin 0%nat 1 (-1); ShLin 1%nat 1 (-2); ShLin 2%nat 1 1], Some QSTZ_e6);
  (40, 39, [ShLin 0%nat 1 0; ShLin 1%nat 1 (-1); ShLin 2%nat 1 0], [ShLin 0%nat 1 (-1); ShLin 1%nat 1 (-2); ShLin 2%nat 1 1], Some QSTZ_e7);
  (40, 40, [ShLin 0%nat 1 0; ShLin 1%nat 1 (-1); ShLin 2%nat 1 0], [ShLin 0%nat 1 (-1); ShLin 1%nat 1 0; ShLin 2%nat 1 1], Some QSTZ_e8);
  (41, 40, [ShLin 0%nat 1 0; ShLin 1%nat 1 1; ShLin 2%nat 1 0], [ShLin 0%nat 1 (-1); ShLin 1%nat 1 0; ShLin 2%nat 1 1], Some QSTZ_e9);
  (41, 41, [ShLin 0%nat 1 0; ShLin 1%nat 1 1; ShLin 2%nat 1 0], [ShLin 0%nat 1 (-1); ShLin 1%nat 1 2; ShLin 2%nat 1 1], Some QSTZ_e10);
  (42, 41, [ShLin 0%nat 1 0; ShLin 1%nat 1 3; ShLin 2%nat 1 0], [ShLin 0%nat 1 (-1); ShLin 1%nat 1 2; ShLin 2%nat 1 1], Some QSTZ_e11);
  (42, 42, [ShLin 0%nat 1 0; ShLin 1%nat 1 3; ShLin 2%nat 1 0], [ShLin 0%nat 1 (-1); ShLin 1%nat 1 4; ShLin 2%nat 1 1], Some (cN (-1)));
  (43, 43, [ShLin 0%nat 1 (-1); ShLin 1%nat 1 0; ShLin 2%nat 1 2], [ShLin 0%nat 1 (-2); ShLin 1%nat 1 1; ShLin 2%nat 1 3], Some (cN 1));
  (44, 44, [ShLin 0%nat 1 (-1); ShLin 1%nat 1 0; ShLin 2%nat 1 1], [ShLin 0%nat 1 (-2); ShLin 1%nat 1 1; ShLin 2%nat 1 2], Some (cN 1));
  (45, 45, [ShLin 0%nat 1 (-1); ShLin 1%nat 1 0; ShLin 2%nat 1 0], [ShLin 0%nat 1 (-2); ShLin 1%nat 1 1; ShLin 2%nat 1 1], Some (cN 1));
  (46, 46, [ShLin 0%nat 1 (-1); ShLin 1%nat 1 0; ShLin 2%nat 1 0], [ShLin 0%nat 1 (-2); ShLin 1%nat 1 1; ShLin 2%nat 1 1], Some (cN 1));
  (47, 47, [ShLin 0%nat 1 (-1); ShLin 1%nat 1 0; ShLin 2%nat 1 (-1)], [ShLin 0%nat 1 (-2); ShLin 1%nat 1 1; ShLin 2%nat 1 0], Some (cN 1));
  (48, 48, [ShLin 0%nat 1 (-1); ShLin 1%nat 1 0; ShLin 2%nat 1 (-2)], [ShLin 0%nat 1 (-2); ShLin 1%nat 1 1; ShLin 2%nat 1 (-1)], Some (cN 1));
  (49, 49, [ShLin 0%nat 1 (-1); ShLin 1%nat 1 (-2); ShLin 2%nat 1 1], [ShLin 0%nat 1 (-2); ShLin 1%nat 1 (-1); ShLin 2%nat 1 2], Some QSTZ_e2);
  (50, 49, [ShLin 0%nat 1 (-1); ShLin 1%nat 1 0; ShLin 2%nat 1 1], [ShLin 0%nat 1 (-2); ShLin 1%nat 1 (-1); ShLin 2%nat 1 2], Some QSTZ_e3);
  (50, 50, [ShLin 0%nat 1 (-1); ShLin 1%nat 1 0; ShLin 2%nat 1 1], [ShLin 0%nat 1 (-2); ShLin 1%nat 1 1; ShLin 2%nat 1 2], Some QSTZ_e4);
  (51, 50, [ShLin 0%nat 1 (-1); ShLin 1%nat 1 2; ShLin 2%nat 1 1], [ShLin 0%nat 1 (-2); ShLin 1%nat 1 1; ShLin 2%nat 1 2], Some QSTZ_e5);
  (51, 51, [ShLin 0%nat 1 (-1); ShLin 1%nat 1 2; ShLin 2%nat 1 1], [ShLin 0%nat 1 (-2); ShLin 1%nat 1 3; ShLin 2%nat 1 2], Some (cN 1));
  (52, 52, [ShLin 0%nat 1 (-1); ShLin 1%nat 1 (-2); ShLin 2%nat 1 0], [ShLin 0%nat 1 (-2); ShLin 1%nat 1 (-1); ShLin 2%nat 1 1], Some QSTZ_e2);
  (53, 52, [ShLin 0%nat 1 (-1); ShLin 1%nat 1 0; ShLin 2%nat 1 0], [ShLin 0%nat 1 (-2); ShLin 1%nat 1 (-1); ShLin 2%nat 1 1], Some QSTZ_e3);
  (53, 53, [ShLin 0%nat 1 (-1); ShLin 1%nat 1 0; ShLin 2%nat 1 0], [ShLin 0%nat 1 (-2); ShLin 1%nat 1 1; ShLin 2%nat 1 1], Some QSTZ_e4);
  (54, 53, [ShLin 0%nat 1 (-1); ShLin 1%nat 1 2; ShLin 2%nat 1 0], [ShLin 0%nat 1 (-2); ShLin 1%nat 1 1; ShLin 2%nat 1 1], Some QSTZ_e5);
  (54, 54, [ShLin 0%nat 1 (-1); ShLin 1%nat 1 2; ShLin 2%nat 1 0], [ShLin 0%nat 1 (-2); ShLin 1%nat 1 3; ShLin 2%nat 1 1], Some (cN 1));
  (55, 55, [ShLin 0%nat 1 (-1); ShLin 1%nat 1 (-2); ShLin 2%nat 1 (-1)], [ShLin 0%nat 1 (-2); ShLin 1%nat 1 (-1); ShLin 2%nat 1 0], Some QSTZ_e2);
  (56, 55, [ShLin 0%nat 1 (-1); ShLin 1%nat 1 0; ShLin 2%nat 1 (-1)], [ShLin 0%nat 1 (-2); ShLin 1%nat 1 (-1); ShLin 2%nat 1 0], Some QSTZ_e3);
  (56, 56, [ShLin 0%nat 1 (-1); ShLin 1%nat 1 0; ShLin 2%nat 1 (-1)], [ShLin 0%nat 1 (-2); ShLin 1%nat 1 1; ShLin 2%nat 1 0], Some QSTZ_e4);
  (57, 56, [ShLin 0%nat 1 (-1); ShLin 1%nat 1 2; ShLin 2%nat 1 (-1)], [ShLin 0%nat 1 (-2); ShLin 1%nat 1 1; ShLin 2%nat 1 0], Some QSTZ_e5);
  (57, 57, [ShLin 0%nat 1 (-1); ShLin 1%nat 1 2; ShLin 2%nat 1 (-1)], [ShLin 0%nat 1 (-2); ShLin 1%nat 1 3; ShLin 2%nat 1 0], Some (cN 1));
  (58, 58, [ShLin 0%nat 1 (-2); ShLin 1%nat 1 (-1); ShLin 2%nat 1 1], [ShLin 0%nat 1 (-3); ShLin 1%nat 1 0; ShLin 2%nat 1 2], Some QSTZ_e0);
  (59, 58, [ShLin 0%nat 1 (-2); ShLin 1%nat 1 1; ShLin 2%nat 1 1], [ShLin 0%nat 1 (-3); ShLin 1%nat 1 0; ShLin 2%nat 1 2], Some QSTZ_e1);
  (59, 59, [ShLin 0%nat 1 (-2); ShLin 1%nat 1 1; ShLin 2%nat 1 1], [ShLin 0%nat 1 (-3); ShLin 1%nat 1 2; ShLin 2%nat 1 2], Some (cN (-1)));
  (60, 60, [ShLin 0%nat 1 (-2); ShLin 1%nat 1 (-1); ShLin 2%nat 1 0], [ShLin 0%nat 1 (-3); ShLin 1%nat 1 0; ShLin 2%nat 1 1], Some QSTZ_e0);
  (61, 60, [ShLin 0%nat 1 (-2); ShLin 1%nat 1 1; ShLin 2%nat 1 0], [ShLin 0%nat 1 (-3); ShLin 1%nat 1 0; ShLin 2%nat 1 1], Some QSTZ_e1);
  (61, 61, [ShLin 0%nat 1 (-2); ShLin 1%nat 1 1; ShLin 2%nat 1 0], [ShLin 0%nat 1 (-3); ShLin 1%nat 1 2; ShLin 2%nat 1 1], Some (cN (-1)));
  (62, 62, [ShLin 0%nat 1 (-2); ShLin 1%nat 1 (-1); ShLin 2%nat 1 (-1)], [ShLin 0%nat 1 (-3); ShLin 1%nat 1 0; ShLin 2%nat 1 0], Some QSTZ_e0);
  (63, 62, [ShLin 0%nat 1 (-2); ShLin 1%nat 1 1; ShLin 2%nat 1 (-1)], [ShLin 0%nat 1 (-3); ShLin 1%nat 1 0; ShLin 2%nat 1 0], Some QSTZ_e1);
  (63, 63, [ShLin 0%nat 1 (-2); ShLin 1%nat 1 1; ShLin 2%nat 1 (-1)], [ShLin 0%nat 1 (-3); ShLin 1%nat 1 2; ShLin 2%nat 1 0], Some (cN (-1)));
  (64, 64, [ShLin 0%nat 1 (-3); ShLin 1%nat 1 0; ShLin 2%nat 1 0], [ShLin 0%nat 1 (-4); ShLin 1%nat 1 1; ShLin 2%nat 1 1], Some (cN 1))].
(** /repo/c++/symmetry/nrg-recalc-QSTZ.hpp recalc_doublet, qstz/qstz-doubletm+1.dat *)
Definition qstz_t5 : ten_table := mk_ten "doublet" [ShLin 0%nat 1 (-1); ShLin 1%nat 1 (-1); ShLin 2%nat 1 1] [1; 2; (-1)] [
  (1, 1, [ShLin 0%nat 1 3; ShLin 1%nat 1 0; ShLin 2%nat 1 0], [ShLin 0%nat 1 2; ShLin 1%nat 1 (-1); ShLin 2%nat 1 1], Some (cN 1));
  (2, 2, [ShLin 0%nat 1 2; ShLin 1%nat 1 (-1); ShLin 2%nat 1 1], [ShLin 0%nat 1 1; ShLin 1%nat 1 (-2); ShLin 2%nat 1 2], Some (cN (-1)));
  (2, 3, [ShLin 0%nat 1 2; ShLin 1%nat 1 (-1); ShLin 2%nat 1 1], [ShLin 0%nat 1 1; ShLin 1%nat 1 0; ShLin 2%nat 1 2], Some QSTZ_e12);
  (3, 3, [ShLin 0%nat 1 2; ShLin 1%nat 1 1; ShLin 2%nat 1 1], [ShLin 0%nat 1 1; ShLin 1%nat 1 0; ShLin 2%nat 1 2], Some QSTZ_e0);
  (4, 4, [ShLin 0%nat 1 2; ShLin 1%nat 1 (-1); ShLin 2%nat 1 0], [ShLin 0%nat 1 1; ShLin 1%nat 1 (-2); ShLin 2%nat 1 1], Some (cN (-1)));
  (4, 5, [ShLin 0%nat 1 2; ShLin 1%nat 1 (-1); ShLin 2%nat 1 0], [ShLin 0%nat 1 1; ShLin 1%nat 1 0; ShLin 2%nat 1 1], Some QSTZ_e12);
  (5, 5, [ShLin 0%nat 1 2; ShLin 1%nat 1 1; ShLin 2%nat 1 0], [ShLin 0%nat 1 1; ShLin 1%nat 1 0; ShLin 2%nat 1 1], Some QSTZ_e0);
  (6, 6, [ShLin 0%nat 1 2; ShLin 1%nat 1 (-1); ShLin 2%nat 1 (-1)], [ShLin 0%nat 1 1; ShLin 1%nat 1 (-2); ShLin 2%nat 1 0], Some (cN (-1)));
  (6, 7, [ShLin 0%nat 1 2; ShLin 1%nat 1 (-1); ShLin 2%nat 1 (-1)], [ShLin 0%nat 1 1; ShLin 1%nat 1 0; ShLin 2%nat 1 0], Some QSTZ_e12);
  (7, 7, [ShLin 0%nat 1 2; ShLin 1%nat 1 1; ShLin 2%nat 1 (-1)], [ShLin 0%nat 1 1; ShLin 1%nat 1 0; ShLin 2%nat 1 0], Some QSTZ_e0);
  (8, 8, [ShLin 0%nat 1 1; ShLin 1%nat 1 0; ShLin 2%nat 1 2], [ShLin 0%nat 1 0; ShLin 1%nat 1 (-1); ShLin 2%nat 1 3], Some (cN 1));
  (9, 9, [ShLin 0%nat 1 1; ShLin 1%nat 1 0; ShLin 2%nat 1 1], [ShLin 0%nat 1 0; ShLin 1%nat 1 (-1); ShLin 2%nat 1 2], Some (cN 1));
  (10, 10, [ShLin 0%nat 1 1; ShLin 1%nat 1 0; ShLin 2%nat 1 0], [ShLin 0%nat 1 0; ShLin 1%nat 1 (-1); ShLin 2%nat 1 1], Some (cN 1));
  (11, 11, [ShLin 0%nat 1 1; ShLin 1%nat 1 0; ShLin 2%nat 1 0], [ShLin 0%nat 1 0; ShLin 1%nat 1 (-1); ShLin 2%nat 1 1], Some (cN 1));
  (12, 12, [ShLin 0%nat 1 1; ShLin 1%nat 1 0; ShLin 2%nat 1 (-1)], [ShLin 0%nat 1 0; ShLin 1%nat 1 (-1); ShLin 2%nat 1 0], Some (cN 1));
  (13, 13, [ShLin 0%nat 1 1; ShLin 1%nat 1 0; ShLin 2%nat 1 (-2)], [ShLin 0%nat 1 0; ShLin 1%nat 1 (-1); ShLin 2%nat 1 (-1)], Some (cN 1));
  (14, 14, [ShLin 0%nat 1 1; ShLin 1%nat 1 (-2); ShLin 2%nat 1 1], [ShLin 0%nat 1 0; ShLin 1%nat 1 (-3); ShLin 2%nat 1 2], Some (cN 1));
  (14, 15, [ShLin 0%nat 1 1; ShLin 1%nat 1 (-2); ShLin 2%nat 1 1], [ShLin 0%nat 1 0; ShLin 1%nat 1 (-1); ShLin 2%nat 1 2], Some QSTZ_e13);
  (15, 15, [ShLin 0%nat 1 1; ShLin 1%nat 1 0; ShLin 2%nat 1 1], [ShLin 0%nat 1 0; ShLin 1%nat 1 (-1); ShLin 2%nat 1 2], Some QSTZ_e14);
  (15, 16, [ShLin 0%nat 1 1; ShLin 1%nat 1 0; ShLin 2%nat 1 1], [ShLin 0%nat 1 0; ShLin 1%nat 1 1; ShLin 2%nat 1 2], Some QSTZ_e15);
  (16, 16, [ShLin 0%nat 1 1; ShLin 1%nat 1 2; ShLin 2%nat 1 1], [ShLin 0%nat 1 0; ShLin 1%nat 1 1; ShLin 2%nat 1 2], Some QSTZ_e16);
  (17, 17, [ShLin 0%nat 1 1; ShLin 1%nat 1 (-2); ShLin 2%nat 1 0], [ShLin 0%nat 1 0; ShLin 1%nat 1 (-3); ShLin 2%nat 1 1], Some (cN 1));
  (17, 18, [ShLin 0%nat 1 1; ShLin 1%nat 1 (-2); ShLin 2%nat 1 0], [ShLin 0%nat 1 0; ShLin 1%nat 1 (-1); ShLin 2%nat 1 1], Some QSTZ_e13);
  (18, 18, [ShLin 0%nat 1 1; ShLin 1%nat 1 0; ShLin 2%nat 1 0], [ShLin 0%nat 1 0; ShLin 1%nat 1 (-1); ShLin 2%nat 1 1], Some QSTZ_e14);
  (18, 19, [ShLin 0%nat 1 1; ShLin 1%nat 1 0; ShLin 2%nat 1 0], [ShLin 0%nat 1 0; ShLin 1%nat 1 1; ShLin 2%nat 1 1], Some QSTZ_e15);
  (19, 19, [ShLin 0%nat 1 1; ShLin 1%nat 1 2; ShLin 2%nat 1 0], [ShLin 0%nat 1 0; ShLin 1%nat 1 1; ShLin 2%nat 1 1], Some QSTZ_e16);
  (20, 20, [ShLin 0%nat 1 1; ShLin 1%nat 1 (-2); ShLin 2%nat 1 (-1)], [ShLin 0%nat 1 0; ShLin 1%nat 1 (-3); ShLin 2%nat 1 0], Some (cN 1));
  (20, 21, [ShLin 0%nat 1 1; ShLin 1%nat 1 (-2); ShLin 2%nat 1 (-1)], [ShLin 0%nat 1 0; ShLin 1%nat 1 (-1); ShLin 2%nat 1 0], Some QSTZ_e13);
  (21, 21, [ShLin 0%nat 1 1; ShLin 1%nat 1 0; ShLin 2%nat 1 (-1)], [ShLin 0%nat 1 0; ShLin 1%nat 1 (-1); ShLin 2%nat 1 0], Some QSTZ_e14);
  (21, 22, [ShLin 0%nat 1 1; ShLin 1%nat 1 0; ShLin 2%nat 1 (-1)], [ShLin 0%nat 1 0; ShLin 1%nat 1 1; ShLin 2%nat 1 0], Some QSTZ_e15);
  (22, 22, [ShLin 0%nat 1 1; ShLin 1%nat 1 2; ShLin 2%nat 1 (-1)], [ShLin 0%nat 1 0; ShLin 1%nat 1 1; ShLin 2%nat 1 0], Some QSTZ_e16);
  (23, 23, [ShLin 0%nat 1 0; ShLin 1%nat 1 (-1); ShLin 2%nat 1 2], [ShLin 0%nat 1 (-1); ShLin 1%nat 1 (-2); ShLin 2%nat 1 3], Some (cN (-1)));
  (23, 24, [ShLin 0%nat 1 0; ShLin 1%nat 1 (-1); ShLin 2%nat 1 2], [ShLin 0%nat 1 (-1); ShLin 1%nat 1 0; ShLin 2%nat 1 3], Some QSTZ_e12);
  (24, 24, [ShLin 0%nat 1 0; ShLin 1%nat 1 1; ShLin 2%nat 1 2], [ShLin 0%nat 1 (-1); ShLin 1%nat 1 0; ShLin 2%nat 1 3], Some QSTZ_e0);
  (25, 25, [ShLin 0%nat 1 0; ShLin 1%nat 1 (-1); ShLin 2%nat 1 1], [ShLin 0%nat 1 (-1); ShLin 1%nat 1 (-2); ShLin 2%nat 1 2], Some (cN (-1)));
  (25, 26, [ShLin 0%nat 1 0; ShLin 1%nat 1 (-1); ShLin 2%nat 1 1], [ShLin 0%nat 1 (-1); ShLin 1%nat 1 0; ShLin 2%nat 1 2], Some QSTZ_e12);
  (26, 26, [ShLin 0%nat 1 0; ShLin 1%nat 1 1; ShLin 2%nat 1 1], [ShLin 0%nat 1 (-1); ShLin 1%nat 1 0; ShLin 2%nat 1 2], Some QSTZ_e0);
  (27, 27, [ShLin 0%nat 1 0; ShLin 1%nat 1 (-1); ShLin 2%nat 1 1], [ShLin 0%nat 1 (-1); ShLin 1%nat 1 (-2); ShLin 2%nat 1 2], Some (cN (-1)));
  (27, 28, [ShLin 0%nat 1 0; ShLin 1%nat 1 (-1); ShLin 2%nat 1 1], [ShLin 0%nat 1 (-1); ShLin 1%nat 1 0; ShLin 2%nat 1 2], Some QSTZ_e12);
  (28, 28, [ShLin 0%nat 1 0; ShLin 1%nat 1 1; ShLin 2%nat 1 1], [ShLin 0%nat 1 (-1); ShLin 1%nat 1 0; ShLin 2%nat 1 2], Some QSTZ_e0);
  (29, 29, [ShLin 0%nat 1 0; ShLin 1%nat 1 (-1); ShLin 2%nat 1 0], [ShLin 0%nat 1 (-1); ShLin 1%nat 1 (-2); ShLin 2%nat 1 1], Some (cN (-1)));
  (29, 30, [ShLin 0%nat 1 0; ShLin 1%nat 1 (-1); ShLin 2%nat 1 0], [ShLin 0%nat 1 (-1); ShLin 1%nat 1 0; ShLin 2%nat 1 1], Some QSTZ_e12);
  (30, 30, [ShLin 0%nat 1 0; ShLin 1%nat 1 1; ShLin 2%nat 1 0], [ShLin 0%nat 1 (-1); ShLin 1%nat 1 0; ShLin 2%nat 1 1], Some QSTZ_e0);
  (31, 31, [ShLin 0%nat 1 0; ShLin 1%nat 1 (-1); ShLin 2%nat 1 0], [ShLin 0%nat 1 (-1); ShLin 1%nat 1 (-2); ShLin 2%nat 1 1], Some (cN (-1)));
  (31, 32, [ShLin 0%nat 1 0; ShLin 1%nat 1 (-1); ShLin 2%nat 1 0], [ShLin 0%nat 1 (-1); ShLin 1%nat 1 0; ShLin 2%nat 1 1], Some QSTZ_e12);
  (32, 32, [ShLin 0%nat 1 0; ShLin 1%nat 1 1; ShLin 2%nat 1 0], [ShLin 0%nat 1 (-1); ShLin 1%nat 1 0; ShLin 2%nat 1 1], Some QSTZ_e0);
  (33, 33, [ShLin 0%nat 1 0; ShLin 1%nat 1 (-1); ShLin 2%nat 1 (-1)], [ShLin 0%nat 1 (-1); ShLin 1%nat 1 (-2); ShLin 2%nat 1 0], Some (cN (-1)));
  (33, 34, [ShLin 0%nat 1 0; ShLin 1%nat 1 (-1); ShLin 2%nat 1 (-1)], [ShLin 0%nat 1 (-1); ShLin 1%nat 1 0; ShLin 2%nat 1 0], Some QSTZ_e12);
  (34, 34, [ShLin 0%nat 1 0; ShLin 1%nat 1 1; ShLin 2%nat 1 (-1)], [ShLin 0%nat 1 (-1); ShLin 1%nat 1 0; ShLin 2%nat 1 0], Some QSTZ_e0);
  (35, 35, [ShLin 0%nat 1 0; ShLin 1%nat 1 (-1); ShLin 2%nat 1 (-1)], [ShLin 0%nat 1 (-1); ShLin 1%nat 1 (-2); ShLin 2%nat 1 0], Some (cN (-1)));
  (35, 36, [ShLin 0%nat 1 0; ShLin 1%nat 1 (-1); ShLin 2%nat 1 (-1)], [ShLin 0%nat 1 (-1); ShLin 1%nat 1 0; ShLin 2%nat 1 0], Some QSTZ_e12);
  (36, 36, [ShLin 0%nat 1 0; ShLin 1%nat 1 1; ShLin 2%nat 1 (-1)], [ShLin 0%nat 1 (-1); ShLin 1%nat 1 0; ShLin 2%nat 1 0], Some QSTZ_e0);
  (37, 37, [ShLin 0%nat 1 0; ShLin 1%nat 1 (-1); ShLin 2%nat 1 (-2)], [ShLin 0%nat 1 (-1); ShLin 1%nat 1 (-2); ShLin 2%nat 1 (-1)], Some (cN (-1)));
  (37, 38, [ShLin 0%nat 1 0; ShLin 1%nat 1 (-1); ShLin 2%nat 1 (-2)], [ShLin 0%nat 1 (-1); ShLin 1%nat 1 0; ShLin 2%nat 1 (-1)], Some QSTZ_e12);
  (38, 38, [ShLin 0%nat 1 0; ShLin 1%nat 1 1; ShLin 2%nat 1 (-2)], [ShLin 0%nat 1 (-1); ShLin 1%nat 1 0; ShLin 2%nat 1 (-1)], Some QSTZ_e0);
  (39, 39, [ShLin 0%nat 1 0; ShLin 1%nat 1 (-3); ShLin 2%nat 1 0], [ShLin 0%nat 1 (-1); ShLin 1%nat 1 (-4); ShLin 2%nat 1 1], Some (cN (-1)));
  (39, 40, [ShLin 0%nat 1 0; ShLin 1%nat 1 (-3); ShLin 2%nat 1 0], [ShLin 0%nat 1 (-1); ShLin 1%nat 1 (-2); ShLin 2%nat 1 1], Some QSTZ_e17);
  (40, 40, [ShLin 0%nat 1 0; ShLin 1%nat 1 (-1); ShLin 2%nat 1 0], [ShLin 0%nat 1 (-1); ShLin 1%nat 1 (-2); ShLin 2%nat 1 1], Some QSTZ_e18);
  (40, 41, [ShLin 0%nat 1 0; ShLin 1%nat 1 (-1); ShLin 2%nat 1 0], [ShLin 0%nat 1 (-1); ShLin 1%nat 1 0; ShLin 2%nat 1 1], Some QSTZ_e19);
  (41, 41, [ShLin 0%nat 1 0; ShLin 1%nat 1 1; ShLin 2%nat 1 0], [ShLin 0%nat 1 (-1); ShLin 1%nat 1 0; ShLin 2%nat 1 1], Some QSTZ_e20);
  (41, 42, [ShLin 0%nat 1 0; ShLin 1%nat 1 1; ShLin 2%nat 1 0], [ShLin 0%nat 1 (-1); ShLin 1%nat 1 2; ShLin 2%nat 1 1], Some QSTZ_e21);
  (42, 42, [ShLin 0%nat 1 0; ShLin 1%nat 1 3; ShLin 2%nat 1 0], [ShLin 0%nat 1 (-1); ShLin 1%nat 1 2; ShLin 2%nat 1 1], Some QSTZ_e22);
  (43, 43, [ShLin 0%nat 1 (-1); ShLin 1%nat 1 0; ShLin 2%nat 1 2], [ShLin 0%nat 1 (-2); ShLin 1%nat 1 (-1); ShLin 2%nat 1 3], Some (cN 1));
  (44, 44, [ShLin 0%nat 1 (-1); ShLin 1%nat 1 0; ShLin 2%nat 1 1], [ShLin 0%nat 1 (-2); ShLin 1%nat 1 (-1); ShLin 2%nat 1 2], Some (cN 1));
  (45, 45, [ShLin 0%nat 1 (-1); ShLin 1%nat 1 0; ShLin 2%nat 1 0], [ShLin 0%nat 1 (-2); ShLin 1%nat 1 (-1); ShLin 2%nat 1 1], Some (cN 1));
  (46, 46, [ShLin 0%nat 1 (-1); ShLin 1%nat 1 0; ShLin 2%nat 1 0], [ShLin 0%nat 1 (-2); ShLin 1%nat 1 (-1); ShLin 2%nat 1 1], Some (cN 1));
  (47, 47, [ShLin 0%nat 1 (-1); ShLin 1%nat 1 0; ShLin 2%nat 1 (-1)], [ShLin 0%nat 1 (-2); ShLin 1%nat 1 (-1); ShLin 2%nat 1 0], Some (cN 1));
  (48, 48, [ShLin 0%nat 1 (-1); ShLin 1%nat 1 0; ShLin 2%nat 1 (-2)], [ShLin 0%nat 1 (-2); ShLin 1%nat 1 (-1); ShLin 2%nat 1 (-1)], Some (cN 1));
  (49, 49, [ShLin 0%nat 1 (-1); ShLin 1%nat 1 (-2); ShLin 2%nat 1 1], [ShLin 0%nat 1 (-2); ShLin 1%nat 1 (-3); ShLin 2%nat 1 2], Some (cN 1));
  (49, 50, [ShLin 0%nat 1 (-1); ShLin 1%nat 1 (-2); ShLin 2%nat 1 1], [ShLin 0%nat 1 (-2); ShLin 1%nat 1 (-1); ShLin 2%nat 1 2], Some QSTZ_e13);
  (50, 50, [ShLin 0%nat 1 (-1); ShLin 1%nat 1 0; ShLin 2%nat 1 1], [ShLin 0%nat 1 (-2); ShLin 1%nat 1 (-1); ShLin 2%nat 1 2], Some QSTZ_e14);
  (50, 51, [ShLin 0%nat 1 (-1); ShLin 1%nat 1 0; ShLin 2%nat 1 1], [ShLin 0%nat 1 (-2); ShLin 1%nat 1 1; ShLin 2%nat 1 2], Some QSTZ_e15);
  (51, 51, [ShLin 0%nat 1 (-1); ShLin 1%nat 1 2; ShLin 2%nat 1 1], [ShLin 0%nat 1 (-2); ShLin 1%nat 1 1; ShLin 2%nat 1 2], Some QSTZ_e16);
  (52, 52, [ShLin 0%nat 1 (-1); ShLin 1%nat 1 (-2); ShLin 2%nat 1 0], [ShLin 0%nat 1 (-2); ShLin 1%nat 1 (-3); ShLin 2%nat 1 1], Some (cN 1));
  (52, 53, [ShLin 0%nat 1 (-1); ShLin 1%nat 1 (-2); ShLin 2%nat 1 0], [ShLin 0%nat 1 (-2); ShLin 1%nat 1 (-1); ShLin 2%nat 1 1], Some QSTZ_e13);
  (53, 53, [ShLin 0%nat 1 (-1); ShLin 1%nat 1 0; ShLin 2%nat 1 0], [ShLin 0%nat 1 (-2); ShLin 1%nat 1 (-1); ShLin 2%nat 1 1], Some QSTZ_e14);
  (53, 54, [ShLin 0%nat 1 (-1); ShLin 1%nat 1 0; ShLin 2%nat 1 0], [ShLin 0%nat 1 (-2); ShLin 1%nat 1 1; ShLin 2%nat 1 1], Some QSTZ_e15);
  (54, 54, [ShLin 0%nat 1 (-1); ShLin 1%nat 1 2; ShLin 2%nat 1 0], [ShLin 0%nat 1 (-2); ShLin 1%nat 1 1; ShLin 2%nat 1 1], Some QSTZ_e16);
  (55, 55, [ShLin 0%nat 1 (-1); ShLin 1%nat 1 (-2); ShLin 2%nat 1 (-1)], [ShLin 0%nat 1 (-2); ShLin 1%nat 1 (-3); ShLin 2%nat 1 0], Some (cN 1));
  (55, 56, [ShLin 0%nat 1 (-1); ShLin 1%nat 1 (-2); ShLin 2%nat 1 (-1)], [ShLin 0%nat 1 (-2); ShLin 1%nat 1 (-1); ShLin 2%nat 1 0], Some QSTZ_e13);
  (56, 56, [ShLin 0%nat 1 (-1); ShLin 1%nat 1 0; ShLin 2%nat 1 (-1)], [ShLin 0%nat 1 (-2); ShLin 1%nat 1 (-1); ShLin 2%nat 1 0], Some QSTZ_e14);
  (56, 57, [ShLin 0%nat 1 (-1); ShLin 1%nat 1 0; ShLin 2%nat 1 (-1)], [ShLin 0%nat 1 (-2); ShLin 1%nat 1 1; ShLin 2%nat 1 0], Some QSTZ_e15);
  (57, 57, [ShLin 0%nat 1 (-1); ShLin 1%nat 1 2; ShLin 2%nat 1 (-1)], [ShLin 0%nat 1 (-2); ShLin 1%nat 1 1; ShLin 2%nat 1 0], Some QSTZ_e16);
  (58, 58, [ShLin 0%nat 1 (-2); ShLin 1%nat 1 (-1); ShLin 2%nat 1 1], [ShLin 0%nat 1 (-3); ShLin 1%nat 1 (-2); ShLin 2%nat 1 2], Some (cN (-1)));
  (58, 59, [ShLin 0%nat 1 (-2); ShLin 1%nat 1 (-1); ShLin 2%nat 1 1], [ShLin 0%nat 1 (-3); ShLin 1%nat 1 0; ShLin 2%nat 1 2], Some QSTZ_e12);
  (59, 59, [ShLin 0%nat 1 (-2); ShLin 1%nat 1 1; ShLin 2%nat 1 1], [ShLin 0%nat 1 (-3); ShLin 1%nat 1 0; ShLin 2%nat 1 2], Some QSTZ_e0);
  (60, 60, [ShLin 0%nat 1 (-2); ShLin 1%nat 1 (-1); ShLin 2%nat 1 0], [ShLin 0%nat 1 (-3); ShLin 1%nat 1 (-2); ShLin 2%nat 1 1], Some (cN (-1)));
  (60, 61, [ShLin 0%nat 1 (-2); ShLin 1%nat 1 (-1); ShLin 2%nat 1 0], [ShLin 0%nat 1 (-3); ShLin 1%nat 1 0; ShLin 2%nat 1 1], Some QSTZ_e12);
  (61, 61, [ShLin 0%nat 1 (-2); ShLin 1%nat 1 1; ShLin 2%nat 1 0], [ShLin 0%nat 1 (-3); ShLin 1%nat 1 0; ShLin 2%nat 1 1], Some QSTZ_e0);
  (62, 62, [ShLin 0%nat 1 (-2); ShLin 1%nat 1 (-1); ShLin 2%nat 1 (-1)], [ShLin 0%nat 1 (-3); ShLin 1%nat 1 (-2); ShLin 2%nat 1 0], Some (cN (-1)));
  (62, 63, [ShLin 0%nat 1 (-2); ShLin 1%nat 1 (-1); ShLin 2%nat 1 (-1)], [ShLin 0%nat 1 (-3); ShLin 1%nat 1 0; ShLin 2%nat 1 0], Some QSTZ_e12);
  (63, 63, [ShLin 0%nat 1 (-2); ShLin 1%nat 1 1; ShLin 2%nat 1 (-1)], [ShLin 0%nat 1 (-3); ShLin 1%nat 1 0; ShLin 2%nat 1 0], Some QSTZ_e0);
  (64, 64, [ShLin 0%nat 1 (-3); ShLin 1%nat 1 0; ShLin 2%nat 1 0], [ShLin 0%nat 1 (-4); ShLin 1%nat 1 (-1); ShLin 2%nat 1 1], Some (cN 1))].
(** /repo/c++/symmetry/nrg-recalc-QSTZ.hpp recalc_irreduc, qstz/qstz-spinup+1.dat *)
Definition qstz_t6 : irr_table := mk_irr 0 0 [ShLin 0%nat 1 1; ShLin 1%nat 1 1; ShLin 2%nat 1 1]  [
  (6, 1, Some (cN 1));
  (10, 3, Some QSTZ_e23);
  (11, 3, Some QSTZ_e24);
  (12, 5, Some QSTZ_e25);
  (13, 7, Some QSTZ_e26);
  (17, 2, Some (cN 1));
  (18, 3, Some QSTZ_e27);
  (20, 4, Some (cN 1));
  (21, 5, Some QSTZ_e27);
  (25, 8, Some (cD (cN 1) (cR (cN 2))));
  (27, 8, Some (cD (cN 1) (cR (cN 2))));
  (29, 9, Some (cQ 1 2));
  (29, 15, Some QSTZ_e28);
  (30, 16, Some QSTZ_e29);
  (31, 9, Some (cD (cR (cN 3)) (cN 2)));
  (31, 15, Some QSTZ_e30);
  (32, 16, Some QSTZ_e31);
  (33, 10, Some (cO (cR (cQ 2 3))));
  (33, 11, Some QSTZ_e32);
  (33, 18, Some QSTZ_e28);
  (34, 19, Some QSTZ_e29);
  (35, 11, Some (cD (cR (cN 3)) (cN 2)));
  (35, 18, Some QSTZ_e33);
  (36, 19, Some QSTZ_e34);
  (37, 12, Some (cD (cN 1) (cR (cN 2))));
  (37, 21, Some QSTZ_e35);
  (38, 22, Some QSTZ_e36);
  (39, 14, Some (cN 1));
  (40, 15, Some QSTZ_e37);
  (41, 16, Some QSTZ_e38);
  (44, 24, Some QSTZ_e39);
  (45, 26, Some QSTZ_e40);
  (46, 26, Some QSTZ_e41);
  (46, 28, Some QSTZ_e42);
  (47, 30, Some QSTZ_e43);
  (47, 32, Some QSTZ_e42);
  (48, 34, Some QSTZ_e39);
  (48, 36, Some QSTZ_e39);
  (49, 23, Some (cN (-1)));
  (50, 24, Some QSTZ_e44);
  (52, 25, Some (cD (cN 1) (cR (cN 2))));
  (52, 27, Some QSTZ_e45);
  (53, 26, Some QSTZ_e46);
  (53, 28, Some QSTZ_e47);
  (55, 29, Some (cD (cN 1) (cR (cN 2))));
  (55, 31, Some QSTZ_e48);
  (55, 40, Some QSTZ_e49);
  (56, 30, Some QSTZ_e46);
  (56, 32, Some QSTZ_e50);
  (56, 41, Some QSTZ_e51);
  (57, 42, Some QSTZ_e52);
  (58, 43, Some (cN 1));
  (60, 44, Some (cD (cN 1) (cR (cN 2))));
  (60, 50, Some QSTZ_e35);
  (61, 51, Some QSTZ_e36);
  (62, 45, Some QSTZ_e53);
  (62, 46, Some (cD (cN 1) (cR (cN 6))));
  (62, 53, Some QSTZ_e35);
  (63, 54, Some QSTZ_e36);
  (64, 59, Some QSTZ_e54)].
(** /repo/c++/symmetry/nrg-recalc-QSTZ.hpp recalc_irreduc, qstz/qstz-spinup0.dat *)
Definition qstz_t7 : irr_table := mk_irr 0 0 [ShLin 0%nat 1 1; ShLin 1%nat 1 1; ShLin 2%nat 1 0]  [
  (4, 1, Some (cN 1));
  (9, 3, Some QSTZ_e25);
  (10, 5, Some QSTZ_e55);
  (11, 5, Some QSTZ_e56);
  (12, 7, Some QSTZ_e25);
  (14, 2, Some (cN 1));
  (15, 3, Some QSTZ_e27);
  (20, 6, Some (cN (-1)));
  (21, 7, Some QSTZ_e44);
  (23, 8, Some (cN 1));
  (25, 9, Some (cQ (-1) 2));
  (25, 15, Some QSTZ_e28);
  (26, 16, Some QSTZ_e29);
  (27, 9, Some (cQ 1 2));
  (27, 15, Some QSTZ_e33);
  (28, 16, Some QSTZ_e34);
  (29, 10, Some (cO (cR (cQ 2 3))));
  (29, 11, Some QSTZ_e53);
  (31, 18, Some QSTZ_e57);
  (32, 19, Some QSTZ_e58);
  (33, 12, Some (cQ (-1) 2));
  (33, 21, Some QSTZ_e33);
  (34, 22, Some QSTZ_e34);
  (35, 12, Some (cQ (-1) 2));
  (35, 21, Some QSTZ_e33);
  (36, 22, Some QSTZ_e34);
  (37, 13, Some (cN (-1)));
  (39, 17, Some (cN (-1)));
  (40, 18, Some QSTZ_e59);
  (41, 19, Some QSTZ_e60);
  (43, 24, Some QSTZ_e54);
  (44, 26, Some QSTZ_e43);
  (44, 28, Some QSTZ_e43);
  (45, 30, Some QSTZ_e56);
  (46, 30, Some QSTZ_e55);
  (47, 34, Some QSTZ_e43);
  (47, 36, Some QSTZ_e61);
  (48, 38, Some QSTZ_e26);
  (49, 25, Some (cD (cN 1) (cR (cN 2))));
  (49, 27, Some (cD (cN 1) (cR (cN 2))));
  (50, 26, Some QSTZ_e46);
  (50, 28, Some QSTZ_e46);
  (52, 31, Some (cR (cQ 2 3)));
  (52, 40, Some QSTZ_e49);
  (53, 32, Some QSTZ_e62);
  (53, 41, Some QSTZ_e51);
  (54, 42, Some QSTZ_e52);
  (55, 33, Some QSTZ_e45);
  (55, 35, Some (cD (cN 1) (cR (cN 2))));
  (56, 34, Some QSTZ_e47);
  (56, 36, Some QSTZ_e46);
  (58, 44, Some QSTZ_e45);
  (58, 50, Some QSTZ_e35);
  (59, 51, Some QSTZ_e36);
  (60, 45, Some QSTZ_e53);
  (60, 46, Some (cO (cR (cQ 2 3))));
  (62, 47, Some QSTZ_e45);
  (62, 56, Some QSTZ_e63);
  (63, 57, Some QSTZ_e64);
  (64, 61, Some QSTZ_e26)].
(** /repo/c++/symmetry/nrg-recalc-QSTZ.hpp recalc_irreduc, qstz/qstz-spinup-1.dat *)
Definition qstz_t8 : irr_table := mk_irr 0 0 [ShLin 0%nat 1 1; ShLin 1%nat 1 1; ShLin 2%nat 1 (-1)]  [
  (2, 1, Some (cN 1));
  (8, 3, Some QSTZ_e26);
  (9, 5, Some QSTZ_e25);
  (10, 7, Some QSTZ_e23);
  (11, 7, Some QSTZ_e24);
  (14, 4, Some (cN (-1)));
  (15, 5, Some QSTZ_e44);
  (17, 6, Some (cN (-1)));
  (18, 7, Some QSTZ_e44);
  (23, 9, Some QSTZ_e45);
  (23, 15, Some QSTZ_e35);
  (24, 16, Some QSTZ_e36);
  (25, 10, Some (cO (cR (cQ 2 3))));
  (25, 11, Some QSTZ_e32);
  (25, 18, Some QSTZ_e33);
  (26, 19, Some QSTZ_e34);
  (27, 11, Some QSTZ_e65);
  (27, 18, Some QSTZ_e33);
  (28, 19, Some QSTZ_e34);
  (29, 12, Some (cQ 1 2));
  (29, 21, Some QSTZ_e33);
  (30, 22, Some QSTZ_e34);
  (31, 12, Some QSTZ_e65);
  (31, 21, Some QSTZ_e30);
  (32, 22, Some QSTZ_e31);
  (33, 13, Some (cD (cN 1) (cR (cN 2))));
  (35, 13, Some QSTZ_e45);
  (39, 20, Some (cN 1));
  (40, 21, Some QSTZ_e37);
  (41, 22, Some QSTZ_e38);
  (43, 26, Some QSTZ_e39);
  (43, 28, Some QSTZ_e25);
  (44, 30, Some QSTZ_e43);
  (44, 32, Some QSTZ_e66);
  (45, 34, Some QSTZ_e40);
  (46, 34, Some QSTZ_e41);
  (46, 36, Some QSTZ_e66);
  (47, 38, Some QSTZ_e25);
  (49, 29, Some QSTZ_e45);
  (49, 31, Some QSTZ_e48);
  (49, 40, Some QSTZ_e49);
  (50, 30, Some QSTZ_e47);
  (50, 32, Some QSTZ_e50);
  (50, 41, Some QSTZ_e51);
  (51, 42, Some QSTZ_e52);
  (52, 33, Some QSTZ_e45);
  (52, 35, Some QSTZ_e45);
  (53, 34, Some QSTZ_e47);
  (53, 36, Some QSTZ_e47);
  (55, 37, Some (cN (-1)));
  (56, 38, Some QSTZ_e44);
  (58, 45, Some QSTZ_e53);
  (58, 46, Some (cD (cN 1) (cR (cN 6))));
  (58, 53, Some QSTZ_e63);
  (59, 54, Some QSTZ_e64);
  (60, 47, Some (cD (cN 1) (cR (cN 2))));
  (60, 56, Some QSTZ_e63);
  (61, 57, Some QSTZ_e64);
  (62, 48, Some (cN 1));
  (64, 63, Some QSTZ_e54)].
(** /repo/c++/symmetry/nrg-recalc-QSTZ.hpp recalc_irreduc, qstz/qstz-spindo+1.dat *)
Definition qstz_t9 : irr_table := mk_irr 0 0 [ShLin 0%nat 1 1; ShLin 1%nat 1 (-1); ShLin 2%nat 1 1]  [
  (7, 1, Some (cN 1));
  (10, 2, Some QSTZ_e67);
  (11, 2, Some QSTZ_e68);
  (12, 4, Some QSTZ_e69);
  (13, 6, Some QSTZ_e70);
  (18, 2, Some QSTZ_e71);
  (19, 3, Some (cN 1));
  (21, 4, Some QSTZ_e71);
  (22, 5, Some (cN 1));
  (26, 8, Some (cD (cN 1) (cR (cN 2))));
  (28, 8, Some (cD (cN 1) (cR (cN 2))));
  (29, 14, Some QSTZ_e69);
  (30, 9, Some (cQ 1 2));
  (30, 15, Some QSTZ_e72);
  (31, 14, Some QSTZ_e73);
  (32, 9, Some (cD (cR (cN 3)) (cN 2)));
  (32, 15, Some QSTZ_e74);
  (33, 17, Some QSTZ_e69);
  (34, 10, Some (cO (cR (cQ 2 3))));
  (34, 11, Some QSTZ_e32);
  (34, 18, Some QSTZ_e72);
  (35, 17, Some QSTZ_e75);
  (36, 11, Some (cD (cR (cN 3)) (cN 2)));
  (36, 18, Some QSTZ_e76);
  (37, 20, Some QSTZ_e77);
  (38, 12, Some (cD (cN 1) (cR (cN 2))));
  (38, 21, Some QSTZ_e78);
  (40, 14, Some QSTZ_e79);
  (41, 15, Some QSTZ_e80);
  (42, 16, Some (cN 1));
  (44, 23, Some QSTZ_e75);
  (45, 25, Some QSTZ_e81);
  (46, 25, Some QSTZ_e82);
  (46, 27, Some QSTZ_e83);
  (47, 29, Some QSTZ_e84);
  (47, 31, Some QSTZ_e83);
  (48, 33, Some QSTZ_e75);
  (48, 35, Some QSTZ_e75);
  (50, 23, Some QSTZ_e85);
  (51, 24, Some (cN (-1)));
  (53, 25, Some QSTZ_e86);
  (53, 27, Some QSTZ_e87);
  (54, 26, Some (cD (cN 1) (cR (cN 2))));
  (54, 28, Some QSTZ_e45);
  (55, 39, Some QSTZ_e77);
  (56, 29, Some QSTZ_e86);
  (56, 31, Some QSTZ_e88);
  (56, 40, Some QSTZ_e89);
  (57, 30, Some (cD (cN 1) (cR (cN 2))));
  (57, 32, Some QSTZ_e48);
  (57, 41, Some QSTZ_e90);
  (59, 43, Some (cN 1));
  (60, 49, Some QSTZ_e77);
  (61, 44, Some (cD (cN 1) (cR (cN 2))));
  (61, 50, Some QSTZ_e78);
  (62, 52, Some QSTZ_e77);
  (63, 45, Some QSTZ_e53);
  (63, 46, Some (cD (cN 1) (cR (cN 6))));
  (63, 53, Some QSTZ_e78);
  (64, 58, Some QSTZ_e77)].
(** /repo/c++/symmetry/nrg-recalc-QSTZ.hpp recalc_irreduc, qstz/qstz-spindo0.dat *)
Definition qstz_t10 : irr_table := mk_irr 0 0 [ShLin 0%nat 1 1; ShLin 1%nat 1 (-1); ShLin 2%nat 1 0]  [
  (5, 1, Some (cN 1));
  (9, 2, Some QSTZ_e69);
  (10, 4, Some QSTZ_e91);
  (11, 4, Some QSTZ_e92);
  (12, 6, Some QSTZ_e69);
  (15, 2, Some QSTZ_e71);
  (16, 3, Some (cN 1));
  (21, 6, Some QSTZ_e85);
  (22, 7, Some (cN (-1)));
  (24, 8, Some (cN 1));
  (25, 14, Some QSTZ_e69);
  (26, 9, Some (cQ (-1) 2));
  (26, 15, Some QSTZ_e72);
  (27, 14, Some QSTZ_e75);
  (28, 9, Some (cQ 1 2));
  (28, 15, Some QSTZ_e76);
  (30, 10, Some (cO (cR (cQ 2 3))));
  (30, 11, Some QSTZ_e53);
  (31, 17, Some QSTZ_e81);
  (32, 18, Some QSTZ_e93);
  (33, 20, Some QSTZ_e75);
  (34, 12, Some (cQ (-1) 2));
  (34, 21, Some QSTZ_e76);
  (35, 20, Some QSTZ_e75);
  (36, 12, Some (cQ (-1) 2));
  (36, 21, Some QSTZ_e76);
  (38, 13, Some (cN (-1)));
  (40, 17, Some QSTZ_e94);
  (41, 18, Some QSTZ_e95);
  (42, 19, Some (cN (-1)));
  (43, 23, Some QSTZ_e77);
  (44, 25, Some QSTZ_e84);
  (44, 27, Some QSTZ_e84);
  (45, 29, Some QSTZ_e92);
  (46, 29, Some QSTZ_e91);
  (47, 33, Some QSTZ_e84);
  (47, 35, Some QSTZ_e96);
  (48, 37, Some QSTZ_e70);
  (50, 25, Some QSTZ_e86);
  (50, 27, Some QSTZ_e86);
  (51, 26, Some (cD (cN 1) (cR (cN 2))));
  (51, 28, Some (cD (cN 1) (cR (cN 2))));
  (52, 39, Some QSTZ_e77);
  (53, 31, Some QSTZ_e97);
  (53, 40, Some QSTZ_e89);
  (54, 32, Some (cR (cQ 2 3)));
  (54, 41, Some QSTZ_e90);
  (56, 33, Some QSTZ_e87);
  (56, 35, Some QSTZ_e86);
  (57, 34, Some QSTZ_e45);
  (57, 36, Some (cD (cN 1) (cR (cN 2))));
  (58, 49, Some QSTZ_e77);
  (59, 44, Some QSTZ_e45);
  (59, 50, Some QSTZ_e78);
  (61, 45, Some QSTZ_e53);
  (61, 46, Some (cO (cR (cQ 2 3))));
  (62, 55, Some QSTZ_e70);
  (63, 47, Some QSTZ_e45);
  (63, 56, Some QSTZ_e98);
  (64, 60, Some QSTZ_e70)].
(** /repo/c++/symmetry/nrg-recalc-QSTZ.hpp recalc_irreduc, qstz/qstz-spindo-1.dat *)
Definition qstz_t11 : irr_table := mk_irr 0 0 [ShLin 0%nat 1 1; ShLin 1%nat 1 (-1); ShLin 2%nat 1 (-1)]  [
  (3, 1, Some (cN 1));
  (8, 2, Some QSTZ_e70);
  (9, 4, Some QSTZ_e69);
  (10, 6, Some QSTZ_e67);
  (11, 6, Some QSTZ_e68);
  (15, 4, Some QSTZ_e85);
  (16, 5, Some (cN (-1)));
  (18, 6, Some QSTZ_e85);
  (19, 7, Some (cN (-1)));
  (23, 14, Some QSTZ_e77);
  (24, 9, Some QSTZ_e45);
  (24, 15, Some QSTZ_e78);
  (25, 17, Some QSTZ_e75);
  (26, 10, Some (cO (cR (cQ 2 3))));
  (26, 11, Some QSTZ_e32);
  (26, 18, Some QSTZ_e76);
  (27, 17, Some QSTZ_e75);
  (28, 11, Some QSTZ_e65);
  (28, 18, Some QSTZ_e76);
  (29, 20, Some QSTZ_e75);
  (30, 12, Some (cQ 1 2));
  (30, 21, Some QSTZ_e76);
  (31, 20, Some QSTZ_e73);
  (32, 12, Some QSTZ_e65);
  (32, 21, Some QSTZ_e74);
  (34, 13, Some (cD (cN 1) (cR (cN 2))));
  (36, 13, Some QSTZ_e45);
  (40, 20, Some QSTZ_e79);
  (41, 21, Some QSTZ_e80);
  (42, 22, Some (cN 1));
  (43, 25, Some QSTZ_e75);
  (43, 27, Some QSTZ_e69);
  (44, 29, Some QSTZ_e84);
  (44, 31, Some QSTZ_e99);
  (45, 33, Some QSTZ_e81);
  (46, 33, Some QSTZ_e82);
  (46, 35, Some QSTZ_e99);
  (47, 37, Some QSTZ_e69);
  (49, 39, Some QSTZ_e77);
  (50, 29, Some QSTZ_e87);
  (50, 31, Some QSTZ_e88);
  (50, 40, Some QSTZ_e89);
  (51, 30, Some QSTZ_e45);
  (51, 32, Some QSTZ_e48);
  (51, 41, Some QSTZ_e90);
  (53, 33, Some QSTZ_e87);
  (53, 35, Some QSTZ_e87);
  (54, 34, Some QSTZ_e45);
  (54, 36, Some QSTZ_e45);
  (56, 37, Some QSTZ_e85);
  (57, 38, Some (cN (-1)));
  (58, 52, Some QSTZ_e70);
  (59, 45, Some QSTZ_e53);
  (59, 46, Some (cD (cN 1) (cR (cN 6))));
  (59, 53, Some QSTZ_e98);
  (60, 55, Some QSTZ_e70);
  (61, 47, Some (cD (cN 1) (cR (cN 2))));
  (61, 56, Some QSTZ_e98);
  (63, 48, Some (cN 1));
  (64, 62, Some QSTZ_e77)].
(** /repo/c++/symmetry/nrg-recalc-QSTZ.hpp recalc_triplet, qstz/qstz-triplets.dat *)
Definition qstz_t12 : ten_table := mk_ten "triplet" [ShLin 0%nat 1 0; ShLin 1%nat 1 0; ShLin 2%nat 1 0] [0; 3; 0] [
  (1, 1, [ShLin 0%nat 1 3; ShLin 1%nat 1 0; ShLin 2%nat 1 0], [ShLin 0%nat 1 3; ShLin 1%nat 1 0; ShLin 2%nat 1 0], Some (cN 1));
  (2, 2, [ShLin 0%nat 1 2; ShLin 1%nat 1 (-1); ShLin 2%nat 1 1], [ShLin 0%nat 1 2; ShLin 1%nat 1 (-1); ShLin 2%nat 1 1], Some QSTZ_e2);
  (2, 3, [ShLin 0%nat 1 2; ShLin 1%nat 1 (-1); ShLin 2%nat 1 1], [ShLin 0%nat 1 2; ShLin 1%nat 1 1; ShLin 2%nat 1 1], Some QSTZ_e100);
  (3, 2, [ShLin 0%nat 1 2; ShLin 1%nat 1 1; ShLin 2%nat 1 1], [ShLin 0%nat 1 2; ShLin 1%nat 1 (-1); ShLin 2%nat 1 1], Some QSTZ_e3);
  (3, 3, [ShLin 0%nat 1 2; ShLin 1%nat 1 1; ShLin 2%nat 1 1], [ShLin 0%nat 1 2; ShLin 1%nat 1 1; ShLin 2%nat 1 1], Some QSTZ_e101);
  (4, 4, [ShLin 0%nat 1 2; ShLin 1%nat 1 (-1); ShLin 2%nat 1 0], [ShLin 0%nat 1 2; ShLin 1%nat 1 (-1); ShLin 2%nat 1 0], Some QSTZ_e2);
  (4, 5, [ShLin 0%nat 1 2; ShLin 1%nat 1 (-1); ShLin 2%nat 1 0], [ShLin 0%nat 1 2; ShLin 1%nat 1 1; ShLin 2%nat 1 0], Some QSTZ_e100);
  (5, 4, [ShLin 0%nat 1 2; ShLin 1%nat 1 1; ShLin 2%nat 1 0], [ShLin 0%nat 1 2; ShLin 1%nat 1 (-1); ShLin 2%nat 1 0], Some QSTZ_e3);
  (5, 5, [ShLin 0%nat 1 2; ShLin 1%nat 1 1; ShLin 2%nat 1 0], [ShLin 0%nat 1 2; ShLin 1%nat 1 1; ShLin 2%nat 1 0], Some QSTZ_e101);
  (6, 6, [ShLin 0%nat 1 2; ShLin 1%nat 1 (-1); ShLin 2%nat 1 (-1)], [ShLin 0%nat 1 2; ShLin 1%nat 1 (-1); ShLin 2%nat 1 (-1)], Some QSTZ_e2);
  (6, 7, [ShLin 0%nat 1 2; ShLin 1%nat 1 (-1); ShLin 2%nat 1 (-1)], [ShLin 0%nat 1 2; ShLin 1%nat 1 1; ShLin 2%nat 1 (-1)], Some QSTZ_e100);
  (7, 6, [ShLin 0%nat 1 2; ShLin 1%nat 1 1; ShLin 2%nat 1 (-1)], [ShLin 0%nat 1 2; ShLin 1%nat 1 (-1); ShLin 2%nat 1 (-1)], Some QSTZ_e3);
  (7, 7, [ShLin 0%nat 1 2; ShLin 1%nat 1 1; ShLin 2%nat 1 (-1)], [ShLin 0%nat 1 2; ShLin 1%nat 1 1; ShLin 2%nat 1 (-1)], Some QSTZ_e101);
  (8, 8, [ShLin 0%nat 1 1; ShLin 1%nat 1 0; ShLin 2%nat 1 2], [ShLin 0%nat 1 1; ShLin 1%nat 1 0; ShLin 2%nat 1 2], Some (cN 1));
  (9, 9, [ShLin 0%nat 1 1; ShLin 1%nat 1 0; ShLin 2%nat 1 1], [ShLin 0%nat 1 1; ShLin 1%nat 1 0; ShLin 2%nat 1 1], Some (cN 1));
  (10, 10, [ShLin 0%nat 1 1; ShLin 1%nat 1 0; ShLin 2%nat 1 0], [ShLin 0%nat 1 1; ShLin 1%nat 1 0; ShLin 2%nat 1 0], Some (cN 1));
  (11, 11, [ShLin 0%nat 1 1; ShLin 1%nat 1 0; ShLin 2%nat 1 0], [ShLin 0%nat 1 1; ShLin 1%nat 1 0; ShLin 2%nat 1 0], Some (cN 1));
  (12, 12, [ShLin 0%nat 1 1; ShLin 1%nat 1 0; ShLin 2%nat 1 (-1)], [ShLin 0%nat 1 1; ShLin 1%nat 1 0; ShLin 2%nat 1 (-1)], Some (cN 1));
  (13, 13, [ShLin 0%nat 1 1; ShLin 1%nat 1 0; ShLin 2%nat 1 (-2)], [ShLin 0%nat 1 1; ShLin 1%nat 1 0; ShLin 2%nat 1 (-2)], Some (cN 1));
  (14, 14, [ShLin 0%nat 1 1; ShLin 1%nat 1 (-2); ShLin 2%nat 1 1], [ShLin 0%nat 1 1; ShLin 1%nat 1 (-2); ShLin 2%nat 1 1], Some QSTZ_e102);
  (14, 15, [ShLin 0%nat 1 1; ShLin 1%nat 1 (-2); ShLin 2%nat 1 1], [ShLin 0%nat 1 1; ShLin 1%nat 1 0; ShLin 2%nat 1 1], Some QSTZ_e103);
  (15, 14, [ShLin 0%nat 1 1; ShLin 1%nat 1 0; ShLin 2%nat 1 1], [ShLin 0%nat 1 1; ShLin 1%nat 1 (-2); ShLin 2%nat 1 1], Some (cO (cD (cN 1) (cH 1))));
  (15, 15, [ShLin 0%nat 1 1; ShLin 1%nat 1 0; ShLin 2%nat 1 1], [ShLin 0%nat 1 1; ShLin 1%nat 1 0; ShLin 2%nat 1 1], Some QSTZ_e104);
  (15, 16, [ShLin 0%nat 1 1; ShLin 1%nat 1 0; ShLin 2%nat 1 1], [ShLin 0%nat 1 1; ShLin 1%nat 1 2; ShLin 2%nat 1 1], Some QSTZ_e105);
  (16, 15, [ShLin 0%nat 1 1; ShLin 1%nat 1 2; ShLin 2%nat 1 1], [ShLin 0%nat 1 1; ShLin 1%nat 1 0; ShLin 2%nat 1 1], Some QSTZ_e106);
  (16, 16, [ShLin 0%nat 1 1; ShLin 1%nat 1 2; ShLin 2%nat 1 1], [ShLin 0%nat 1 1; ShLin 1%nat 1 2; ShLin 2%nat 1 1], Some QSTZ_e107);
  (17, 17, [ShLin 0%nat 1 1; ShLin 1%nat 1 (-2); ShLin 2%nat 1 0], [ShLin 0%nat 1 1; ShLin 1%nat 1 (-2); ShLin 2%nat 1 0], Some QSTZ_e102);
  (17, 18, [ShLin 0%nat 1 1; ShLin 1%nat 1 (-2); ShLin 2%nat 1 0], [ShLin 0%nat 1 1; ShLin 1%nat 1 0; ShLin 2%nat 1 0], Some QSTZ_e103);
  (18, 17, [ShLin 0%nat 1 1; ShLin 1%nat 1 0; ShLin 2%nat 1 0], [ShLin 0%nat 1 1; ShLin 1%nat 1 (-2); ShLin 2%nat 1 0], Some (cO (cD (cN 1) (cH 1))));
  (18, 18, [ShLin 0%nat 1 1; ShLin 1%nat 1 0; ShLin 2%nat 1 0], [ShLin 0%nat 1 1; ShLin 1%nat 1 0; ShLin 2%nat 1 0], Some QSTZ_e104);
  (18, 19, [ShLin 0%nat 1 1; ShLin 1%nat 1 0; ShLin 2%nat 1 0], [ShLin 0%nat 1 1; ShLin 1%nat 1 2; ShLin 2%nat 1 0], Some QSTZ_e105);
  (19, 18, [ShLin 0%nat 1 1; ShLin 1%nat 1 2; ShLin 2%nat 1 0], [ShLin 0%nat 1 1; ShLin 1%nat 1 0; ShLin 2%nat 1 0], Some QSTZ_e106);
  (19, 19, [ShLin 0%nat 1 1; ShLin 1%nat 1 2; ShLin 2%nat 1 0], [ShLin 0%nat 1 1; ShLin 1%nat 1 2; ShLin 2%nat 1 0], Some QSTZ_e107);
  (20, 20, [ShLin 0%nat 1 1; ShLin 1%nat 1 (-2); ShLin 2%nat 1 (-1)], [ShLin 0%nat 1 1; ShLin 1%nat 1 (-2); ShLin 2%nat 1 (-1)], Some QSTZ_e102);
  (20, 21, [ShLin 0%nat 1 1; ShLin 1%nat 1 (-2); ShLin 2%nat 1 (-1)], [ShLin 0%nat 1 1; ShLin 1%nat 1 0; ShLin 2%nat 1 (-1)], Some QSTZ_e103);
  (21, 20, [ShLin 0%nat 1 1; ShLin 1%nat 1 0; ShLin 2%nat 1 (-1)], [ShLin 0%nat 1 1; ShLin 1%nat 1 (-2); ShLin 2%nat 1 (-1)], Some (cO (cD (cN 1) (cH 1))));
  (21, 21, [ShLin 0%nat 1 1; ShLin 1%nat 1 0; ShLin 2%nat 1 (-1)], [ShLin 0%nat 1 1; ShLin 1%nat 1 0; ShLin 2%nat 1 (-1)], Some QSTZ_e104);
  (21, 22, [ShLin 0%nat 1 1; ShLin 1%nat 1 0; ShLin 2%nat 1 (-1)], [ShLin 0%nat 1 1; ShLin 1%nat 1 2; ShLin 2%nat 1 (-1)], Some QSTZ_e105);
  (22, 21, [ShLin 0%nat 1 1; ShLin 1%nat 1 2; ShLin 2%nat 1 (-1)], [ShLin 0%nat 1 1; ShLin 1%nat 1 0; ShLin 2%nat 1 (-1)], Some QSTZ_e106);
  (22, 22, [ShLin 0%nat 1 1; ShLin 1%nat 1 2; ShLin 2%nat 1 (-1)], [ShLin 0%nat 1 1; ShLin 1%nat 1 2; ShLin 2%nat 1 (-1)], Some QSTZ_e107);
  (23, 23, [ShLin 0%nat 1 0; ShLin 1%nat 1 (-1); ShLin 2%nat 1 2], [ShLin 0%nat 1 0; ShLin 1%nat 1 (-1); ShLin 2%nat 1 2], Some QSTZ_e2);
  (23, 24, [ShLin 0%nat 1 0; ShLin 1%nat 1 (-1); ShLin 2%nat 1 2], [ShLin 0%nat 1 0; ShLin 1%nat 1 1; ShLin 2%nat 1 2], Some QSTZ_e100);
  (24, 23, [ShLin 0%nat 1 0; ShLin 1%nat 1 1; ShLin 2%nat 1 2], [ShLin 0%nat 1 0; ShLin 1%nat 1 (-1); ShLin 2%nat 1 2], Some QSTZ_e3);
  (24, 24, [ShLin 0%nat 1 0; ShLin 1%nat 1 1; ShLin 2%nat 1 2], [ShLin 0%nat 1 0; ShLin 1%nat 1 1; ShLin 2%nat 1 2], Some QSTZ_e101);
  (25, 25, [ShLin 0%nat 1 0; ShLin 1%nat 1 (-1); ShLin 2%nat 1 1], [ShLin 0%nat 1 0; ShLin 1%nat 1 (-1); ShLin 2%nat 1 1], Some QSTZ_e2);
  (25, 26, [ShLin 0%nat 1 0; ShLin 1%nat 1 (-1); ShLin 2%nat 1 1], [ShLin 0%nat 1 0; ShLin 1%nat 1 1; ShLin 2%nat 1 1], Some QSTZ_e100);
  (26, 25, [ShLin 0%nat 1 0; ShLin 1%nat 1 1; ShLin 2%nat 1 1], [ShLin 0%nat 1 0; ShLin 1%nat 1 (-1); ShLin 2%nat 1 1], Some QSTZ_e3);
  (26, 26, [ShLin 0%nat 1 0; ShLin 1%nat 1 1; ShLin 2%nat 1 1], [ShLin 0%nat 1 0; ShLin 1%nat 1 1; ShLin 2%nat 1 1], Some QSTZ_e101);
  (27, 27, [ShLin 0%nat 1 0; ShLin 1%nat 1 (-1); ShLin 2%nat 1 1], [ShLin 0%nat 1 0; ShLin 1%nat 1 (-1); ShLin 2%nat 1 1], Some QSTZ_e2);
  (27, 28, [ShLin 0%nat 1 0; ShLin 1%nat 1 (-1); ShLin 2%nat 1 1], [ShLin 0%nat 1 0; ShLin 1%nat 1 1; ShLin 2%nat 1 1], Some QSTZ_e100);
  (28, 27, [ShLin 0%nat 1 0; ShLin 1%nat 1 1; ShLin 2%nat 1 1], [ShLin 0%nat 1 0; ShLin 1%nat 1 (-1); ShLin 2%nat 1 1], Some QSTZ_e3);
  (28, 28, [ShLin 0%nat 1 0; ShLin 1%nat 1 1; ShLin 2%nat 1 1], [ShLin 0%nat 1 0; ShLin 1%nat 1 1; ShLin 2%nat 1 1], Some QSTZ_e101);
  (29, 29, [ShLin 0%nat 1 0; ShLin 1%nat 1 (-1); ShLin 2%nat 1 0], [ShLin 0%nat 1 0; ShLin 1%nat 1 (-1); ShLin 2%nat 1 0], Some QSTZ_e2);
  (29, 30, [ShLin 0%nat 1 0; ShLin 1%nat 1 (-1); ShLin 2%nat 1 0], [ShLin 0%nat 1 0; ShLin 1%nat 1 1; ShLin 2%nat 1 0], Some QSTZ_e100);
  (30, 29, [ShLin 0%nat 1 0; ShLin 1%nat 1 1; ShLin 2%nat 1 0], [ShLin 0%nat 1 0; ShLin 1%nat 1 (-1); ShLin 2%nat 1 0], Some QSTZ_e3);
  (30, 30, [ShLin 0%nat 1 0; ShLin 1%nat 1 1; ShLin 2%nat 1 0], [ShLin 0%nat 1 0; ShLin 1%nat 1 1; ShLin 2%nat 1 0], Some QSTZ_e101);
  (31, 31, [ShLin 0%nat 1 0; ShLin 1%nat 1 (-1); ShLin 2%nat 1 0], [ShLin 0%nat 1 0; ShLin 1%nat 1 (-1); ShLin 2%nat 1 0], Some QSTZ_e2);
  (31, 32, [ShLin 0%nat 1 0; ShLin 1%nat 1 (-1); ShLin 2%nat 1 0], [ShLin 0%nat 1 0; ShLin 1%nat 1 1; ShLin 2%nat 1 0], Some QSTZ_e100);
  (32, 31, [ShLin 0%nat 1 0; ShLin 1%nat 1 1; ShLin 2%nat 1 0], [ShLin 0%nat 1 0; ShLin 1%nat 1 (-1); ShLin 2%nat 1 0], Some QSTZ_e3);
  (32, 32, [ShLin 0%nat 1 0; ShLin 1%nat 1 1; ShLin 2%nat 1 0], [ShLin 0%nat 1 0; ShLin 1%nat 1 1; ShLin 2%nat 1 0], Some QSTZ_e101);
  (33, 33, [ShLin 0%nat 1 0; ShLin 1%nat 1 (-1); ShLin 2%nat 1 (-1)], [ShLin 0%nat 1 0; ShLin 1%nat 1 (-1); ShLin 2%nat 1 (-1)], Some QSTZ_e2);
  (33, 34, [ShLin 0%nat 1 0; ShLin 1%nat 1 (-1); ShLin 2%nat 1 (-1)], [ShLin 0%nat 1 0; ShLin 1%nat 1 1; ShLin 2%nat 1 (-1)], Some QSTZ_e100);
  (34, 33, [ShLin 0%nat 1 0; ShLin 1%nat 1 1; ShLin 2%nat 1 (-1)], [ShLin 0%nat 1 0; ShLin 1%nat 1 (-1); ShLin 2%nat 1 (-1)], Some QSTZ_e3);
  (34, 34, [ShLin 0%nat 1 0; ShLin 1%nat 1 1; ShLin 2%nat 1 (-1)], [ShLin 0%nat 1 0; ShLin 1%nat 1 1; ShLin 2%nat 1 (-1)], Some QSTZ_e101);
  (35, 35, [ShLin 0%nat 1 0; ShLin 1%nat 1 (-1); ShLin 2%nat 1 (-1)], [ShLin 0%nat 1 0; ShLin 1%nat 1 (-1); ShLin 2%nat 1 (-1)], Some QSTZ_e2);
  (35, 36, [ShLin 0%nat 1 0; ShLin 1%nat 1 (-1); ShLin 2%nat 1 (-1)], [ShLin 0%nat 1 0; ShLin 1%nat 1 1; ShLin 2%nat 1 (-1)], Some QSTZ_e100);
  (36, 35, [ShLin 0%nat 1 0; ShLin 1%nat 1 1; ShLin 2%nat 1 (-1)], [ShLin 0%nat 1 0; ShLin 1%nat 1 (-1); ShLin 2%nat 1 (-1)], Some QSTZ_e3);
  (36, 36, [ShLin 0%nat 1 0; ShLin 1%nat 1 1; ShLin 2%nat 1 (-1)], [ShLin 0%nat 1 0; ShLin 1%nat 1 1; ShLin 2%nat 1 (-1)], Some QSTZ_e101);
  (37, 37, [ShLin 0%nat 1 0; ShLin 1%nat 1 (-1); ShLin 2%nat 1 (-2)], [ShLin 0%nat 1 0; ShLin 1%nat 1 (-1); ShLin 2%nat 1 (-2)], Some QSTZ_e2);
  (37, 38, [ShLin 0%nat 1 0; ShLin 1%nat 1 (-1); ShLin 2%nat 1 (-2)], [ShLin 0%nat 1 0; ShLin 1%nat 1 1; ShLin 2%nat 1 (-2)], Some QSTZ_e100);
  (38, 37, [ShLin 0%nat 1 0; ShLin 1%nat 1 1; ShLin 2%nat 1 (-2)], [ShLin 0%nat 1 0; ShLin 1%nat 1 (-1); ShLin 2%nat 1 (-2)], Some QSTZ_e3);
  (38, 38, [ShLin 0%nat 1 0; ShLin 1%nat 1 1; ShLin 2%nat 1 (-2)], [ShLin 0%nat 1 0; ShLin 1%nat 1 1; ShLin 2%nat 1 (-2)], Some QSTZ_e101);
  (39, 39, [ShLin 0%nat 1 0; ShLin 1%nat 1 (-3); ShLin 2%nat 1 0], [ShLin 0%nat 1 0; ShLin 1%nat 1 (-3); ShLin 2%nat 1 0], Some QSTZ_e108);
  (39, 40, [ShLin 0%nat 1 0; ShLin 1%nat 1 (-3); ShLin 2%nat 1 0], [ShLin 0%nat 1 0; ShLin 1%nat 1 (-1); ShLin 2%nat 1 0], Some QSTZ_e109);
  (40, 39, [ShLin 0%nat 1 0; ShLin 1%nat 1 (-1); ShLin 2%nat 1 0], [ShLin 0%nat 1 0; ShLin 1%nat 1 (-3); ShLin 2%nat 1 0], Some QSTZ_e110);
  (40, 40, [ShLin 0%nat 1 0; ShLin 1%nat 1 (-1); ShLin 2%nat 1 0], [ShLin 0%nat 1 0; ShLin 1%nat 1 (-1); ShLin 2%nat 1 0], Some QSTZ_e111);
  (40, 41, [ShLin 0%nat 1 0; ShLin 1%nat 1 (-1); ShLin 2%nat 1 0], [ShLin 0%nat 1 0; ShLin 1%nat 1 1; ShLin 2%nat 1 0], Some QSTZ_e112);
  (41, 40, [ShLin 0%nat 1 0; ShLin 1%nat 1 1; ShLin 2%nat 1 0], [ShLin 0%nat 1 0; ShLin 1%nat 1 (-1); ShLin 2%nat 1 0], Some QSTZ_e113);
  (41, 41, [ShLin 0%nat 1 0; ShLin 1%nat 1 1; ShLin 2%nat 1 0], [ShLin 0%nat 1 0; ShLin 1%nat 1 1; ShLin 2%nat 1 0], Some QSTZ_e114);
  (41, 42, [ShLin 0%nat 1 0; ShLin 1%nat 1 1; ShLin 2%nat 1 0], [ShLin 0%nat 1 0; ShLin 1%nat 1 3; ShLin 2%nat 1 0], Some QSTZ_e115);
  (42, 41, [ShLin 0%nat 1 0; ShLin 1%nat 1 3; ShLin 2%nat 1 0], [ShLin 0%nat 1 0; ShLin 1%nat 1 1; ShLin 2%nat 1 0], Some QSTZ_e116);
  (42, 42, [ShLin 0%nat 1 0; ShLin 1%nat 1 3; ShLin 2%nat 1 0], [ShLin 0%nat 1 0; ShLin 1%nat 1 3; ShLin 2%nat 1 0], Some QSTZ_e117);
  (43, 43, [ShLin 0%nat 1 (-1); ShLin 1%nat 1 0; ShLin 2%nat 1 2], [ShLin 0%nat 1 (-1); ShLin 1%nat 1 0; ShLin 2%nat 1 2], Some (cN 1));
  (44, 44, [ShLin 0%nat 1 (-1); ShLin 1%nat 1 0; ShLin 2%nat 1 1], [ShLin 0%nat 1 (-1); ShLin 1%nat 1 0; ShLin 2%nat 1 1], Some (cN 1));
  (45, 45, [ShLin 0%nat 1 (-1); ShLin 1%nat 1 0; ShLin 2%nat 1 0], [ShLin 0%nat 1 (-1); ShLin 1%nat 1 0; ShLin 2%nat 1 0], Some (cN 1));
  (46, 46, [ShLin 0%nat 1 (-1); ShLin 1%nat 1 0; ShLin 2%nat 1 0], [ShLin 0%nat 1 (-1); ShLin 1%nat 1 0; ShLin 2%nat 1 0], Some (cN 1));
  (47, 47, [ShLin 0%nat 1 (-1); ShLin 1%nat 1 0; ShLin 2%nat 1 (-1)], [ShLin 0%nat 1 (-1); ShLin 1%nat 1 0; ShLin 2%nat 1 (-1)], Some (cN 1));
  (48, 48, [ShLin 0%nat 1 (-1); ShLin 1%nat 1 0; ShLin 2%nat 1 (-2)], [ShLin 0%nat 1 (-1); ShLin 1%nat 1 0; ShLin 2%nat 1 (-2)], Some (cN 1));
  (49, 49, [ShLin 0%nat 1 (-1); ShLin 1%nat 1 (-2); ShLin 2%nat 1 1], [ShLin 0%nat 1 (-1); ShLin 1%nat 1 (-2); ShLin 2%nat 1 1], Some QSTZ_e102);
  (49, 50, [ShLin 0%nat 1 (-1); ShLin 1%nat 1 (-2); ShLin 2%nat 1 1], [ShLin 0%nat 1 (-1); ShLin 1%nat 1 0; ShLin 2%nat 1 1], Some QSTZ_e103);
  (50, 49, [ShLin 0%nat 1 (-1); ShLin 1%nat 1 0; ShLin 2%nat 1 1], [ShLin 0%nat 1 (-1); ShLin 1%nat 1 (-2); ShLin 2%nat 1 1], Some (cO (cD (cN 1) (cH 1))));
  (50, 50, [ShLin 0%nat 1 (-1); ShLin 1%nat 1 0; ShLin 2%nat 1 1], [ShLin 0%nat 1 (-1); ShLin 1%nat 1 0; ShLin 2%nat 1 1], Some QSTZ_e104);
  (50, 51, [ShLin 0%nat 1 (-1); ShLin 1%nat 1 0; ShLin 2%nat 1 1], [ShLin 0%nat 1 (-1); ShLin 1%nat 1 2; ShLin 2%nat 1 1], Some QSTZ_e105);
  (51, 50, [ShLin 0%nat 1 (-1); ShLin 1%nat 1 2; ShLin 2%nat 1 1], [ShLin 0%nat 1 (-1); ShLin 1%nat 1 0; ShLin 2%nat 1 1], Some QSTZ_e106);
  (51, 51, [ShLin 0%nat 1 (-1); ShLin 1%nat 1 2; ShLin 2%nat 1 1], [ShLin 0%nat 1 (-1); ShLin 1%nat 1 2; ShLin 2%nat 1 1], Some QSTZ_e107);
  (52, 52, [ShLin 0%nat 1 (-1); ShLin 1%nat 1 (-2); ShLin 2%nat 1 0], [ShLin 0%nat 1 (-1); ShLin 1%nat 1 (-2); ShLin 2%nat 1 0], Some QSTZ_e102);
  (52, 53, [ShLin 0%nat 1 (-1); ShLin 1%nat 1 (-2); ShLin 2%nat 1 0], [ShLin 0%nat 1 (-1); ShLin 1%nat 1 0; ShLin 2%nat 1 0], Some QSTZ_e103);
  (53, 52, [ShLin 0%nat 1 (-1); ShLin 1%nat 1 0; ShLin 2%nat 1 0], [ShLin 0%nat 1 (-1); ShLin 1%nat 1 (-2); ShLin 2%nat 1 0], Some (cO (cD (cN 1) (cH 1))));
  (53, 53, [ShLin 0%nat 1 (-1); ShLin 1%nat 1 0; ShLin 2%nat 1 0], [ShLin 0%nat 1 (-1); ShLin 1%nat 1 0; ShLin 2%nat 1 0], Some QSTZ_e104);
  (53, 54, [ShLin 0%nat 1 (-1); ShLin 1%nat 1 0; ShLin 2%nat 1 0], [ShLin 0%nat 1 (-1); ShLin 1%nat 1 2; ShLin 2%nat 1 0], Some QSTZ_e105);
  (54, 53, [ShLin 0%nat 1 (-1); ShLin 1%nat 1 2; ShLin 2%nat 1 0], [ShLin 0%nat 1 (-1); ShLin 1%nat 1 0; ShLin 2%nat 1 0], Some QSTZ_e106);
  (54, 54, [ShLin 0%nat 1 (-1); ShLin 1%nat 1 2; ShLin 2%nat 1 0], [ShLin 0%nat 1 (-1); ShLin 1%nat 1 2; ShLin 2%nat 1 0], Some QSTZ_e107);
  (55, 55, [ShLin 0%nat 1 (-1); ShLin 1%nat 1 (-2); ShLin 2%nat 1 (-1)], [ShLin 0%nat 1 (-1); ShLin 1%nat 1 (-2); ShLin 2%nat 1 (-1)], Some QSTZ_e102);
  (55, 56, [ShLin 0%nat 1 (-1); ShLin 1%nat 1 (-2); ShLin 2%nat 1 (-1)], [ShLin 0%nat 1 (-1); ShLin 1%nat 1 0; ShLin 2%nat 1 (-1)], Some QSTZ_e103);
  (56, 55, [ShLin 0%nat 1 (-1); ShLin 1%nat 1 0; ShLin 2%nat 1 (-1)], [ShLin 0%nat 1 (-1); ShLin 1%nat 1 (-2); ShLin 2%nat 1 (-1)], Some (cO (cD (cN 1) (cH 1))));
  (56, 56, [ShLin 0%nat 1 (-1); ShLin 1%nat 1 0; ShLin 2%nat 1 (-1)], [ShLin 0%nat 1 (-1); ShLin 1%nat 1 0; ShLin 2%nat 1 (-1)], Some QSTZ_e104);
  (56, 57, [ShLin 0%nat 1 (-1); ShLin 1%nat 1 0; ShLin 2%nat 1 (-1)], [ShLin 0%nat 1 (-1); ShLin 1%nat 1 2; ShLin 2%nat 1 (-1)], Some QSTZ_e105);
  (57, 56, [ShLin 0%nat 1 (-1); ShLin 1%nat 1 2; ShLin 2%nat 1 (-1)], [ShLin 0%nat 1 (-1); ShLin 1%nat 1 0; ShLin 2%nat 1 (-1)], Some QSTZ_e106);
  (57, 57, [ShLin 0%nat 1 (-1); ShLin 1%nat 1 2; ShLin 2%nat 1 (-1)], [ShLin 0%nat 1 (-1); ShLin 1%nat 1 2; ShLin 2%nat 1 (-1)], Some QSTZ_e107);
  (58, 58, [ShLin 0%nat 1 (-2); ShLin 1%nat 1 (-1); ShLin 2%nat 1 1], [ShLin 0%nat 1 (-2); ShLin 1%nat 1 (-1); ShLin 2%nat 1 1], Some QSTZ_e2);
  (58, 59, [ShLin 0%nat 1 (-2); ShLin 1%nat 1 (-1); ShLin 2%nat 1 1], [ShLin 0%nat 1 (-2); ShLin 1%nat 1 1; ShLin 2%nat 1 1], Some QSTZ_e100);
  (59, 58, [ShLin 0%nat 1 (-2); ShLin 1%nat 1 1; ShLin 2%nat 1 1], [ShLin 0%nat 1 (-2); ShLin 1%nat 1 (-1); ShLin 2%nat 1 1], Some QSTZ_e3);
  (59, 59, [ShLin 0%nat 1 (-2); ShLin 1%nat 1 1; ShLin 2%nat 1 1], [ShLin 0%nat 1 (-2); ShLin 1%nat 1 1; ShLin 2%nat 1 1], Some QSTZ_e101);
  (60, 60, [ShLin 0%nat 1 (-2); ShLin 1%nat 1 (-1); ShLin 2%nat 1 0], [ShLin 0%nat 1 (-2); ShLin 1%nat 1 (-1); ShLin 2%nat 1 0], Some QSTZ_e2);
  (60, 61, [ShLin 0%nat 1 (-2); ShLin 1%nat 1 (-1); ShLin 2%nat 1 0], [ShLin 0%nat 1 (-2); ShLin 1%nat 1 1; ShLin 2%nat 1 0], Some QSTZ_e100);
  (61, 60, [ShLin 0%nat 1 (-2); ShLin 1%nat 1 1; ShLin 2%nat 1 0], [ShLin 0%nat 1 (-2); ShLin 1%nat 1 (-1); ShLin 2%nat 1 0], Some QSTZ_e3);
  (61, 61, [ShLin 0%nat 1 (-2); ShLin 1%nat 1 1; ShLin 2%nat 1 0], [ShLin 0%nat 1 (-2); ShLin 1%nat 1 1; ShLin 2%nat 1 0], Some QSTZ_e101);
  (62, 62, [ShLin 0%nat 1 (-2); ShLin 1%nat 1 (-1); ShLin 2%nat 1 (-1)], [ShLin 0%nat 1 (-2); ShLin 1%nat 1 (-1); ShLin 2%nat 1 (-1)], Some QSTZ_e2);
  (62, 63, [ShLin 0%nat 1 (-2); ShLin 1%nat 1 (-1); ShLin 2%nat 1 (-1)], [ShLin 0%nat 1 (-2); ShLin 1%nat 1 1; ShLin 2%nat 1 (-1)], Some QSTZ_e100);
  (63, 62, [ShLin 0%nat 1 (-2); ShLin 1%nat 1 1; ShLin 2%nat 1 (-1)], [ShLin 0%nat 1 (-2); ShLin 1%nat 1 (-1); ShLin 2%nat 1 (-1)], Some QSTZ_e3);
  (63, 63, [ShLin 0%nat 1 (-2); ShLin 1%nat 1 1; ShLin 2%nat 1 (-1)], [ShLin 0%nat 1 (-2); ShLin 1%nat 1 1; ShLin 2%nat 1 (-1)], Some QSTZ_e101);
  (64, 64, [ShLin 0%nat 1 (-3); ShLin 1%nat 1 0; ShLin 2%nat 1 0], [ShLin 0%nat 1 (-3); ShLin 1%nat 1 0; ShLin 2%nat 1 0], Some (cN 1))].
(** /repo/c++/symmetry/nrg-recalc-QSTZ.hpp recalc_triplet, qstz/qstz-tripletp.dat *)
Definition qstz_t13 : ten_table := mk_ten "triplet" [ShLin 0%nat 1 0; ShLin 1%nat 1 2; ShLin 2%nat 1 0] [0; 3; 0] [
  (1, 1, [ShLin 0%nat 1 3; ShLin 1%nat 1 0; ShLin 2%nat 1 0], [ShLin 0%nat 1 3; ShLin 1%nat 1 2; ShLin 2%nat 1 0], Some (cN 1));
  (2, 2, [ShLin 0%nat 1 2; ShLin 1%nat 1 (-1); ShLin 2%nat 1 1], [ShLin 0%nat 1 2; ShLin 1%nat 1 1; ShLin 2%nat 1 1], Some QSTZ_e118);
  (3, 2, [ShLin 0%nat 1 2; ShLin 1%nat 1 1; ShLin 2%nat 1 1], [ShLin 0%nat 1 2; ShLin 1%nat 1 1; ShLin 2%nat 1 1], Some QSTZ_e119);
  (3, 3, [ShLin 0%nat 1 2; ShLin 1%nat 1 1; ShLin 2%nat 1 1], [ShLin 0%nat 1 2; ShLin 1%nat 1 3; ShLin 2%nat 1 1], Some (cN 1));
  (4, 4, [ShLin 0%nat 1 2; ShLin 1%nat 1 (-1); ShLin 2%nat 1 0], [ShLin 0%nat 1 2; ShLin 1%nat 1 1; ShLin 2%nat 1 0], Some QSTZ_e118);
  (5, 4, [ShLin 0%nat 1 2; ShLin 1%nat 1 1; ShLin 2%nat 1 0], [ShLin 0%nat 1 2; ShLin 1%nat 1 1; ShLin 2%nat 1 0], Some QSTZ_e119);
  (5, 5, [ShLin 0%nat 1 2; ShLin 1%nat 1 1; ShLin 2%nat 1 0], [ShLin 0%nat 1 2; ShLin 1%nat 1 3; ShLin 2%nat 1 0], Some (cN 1));
  (6, 6, [ShLin 0%nat 1 2; ShLin 1%nat 1 (-1); ShLin 2%nat 1 (-1)], [ShLin 0%nat 1 2; ShLin 1%nat 1 1; ShLin 2%nat 1 (-1)], Some QSTZ_e118);
  (7, 6, [ShLin 0%nat 1 2; ShLin 1%nat 1 1; ShLin 2%nat 1 (-1)], [ShLin 0%nat 1 2; ShLin 1%nat 1 1; ShLin 2%nat 1 (-1)], Some QSTZ_e119);
  (7, 7, [ShLin 0%nat 1 2; ShLin 1%nat 1 1; ShLin 2%nat 1 (-1)], [ShLin 0%nat 1 2; ShLin 1%nat 1 3; ShLin 2%nat 1 (-1)], Some (cN 1));
  (8, 8, [ShLin 0%nat 1 1; ShLin 1%nat 1 0; ShLin 2%nat 1 2], [ShLin 0%nat 1 1; ShLin 1%nat 1 2; ShLin 2%nat 1 2], Some (cN 1));
  (9, 9, [ShLin 0%nat 1 1; ShLin 1%nat 1 0; ShLin 2%nat 1 1], [ShLin 0%nat 1 1; ShLin 1%nat 1 2; ShLin 2%nat 1 1], Some (cN 1));
  (10, 10, [ShLin 0%nat 1 1; ShLin 1%nat 1 0; ShLin 2%nat 1 0], [ShLin 0%nat 1 1; ShLin 1%nat 1 2; ShLin 2%nat 1 0], Some (cN 1));
  (11, 11, [ShLin 0%nat 1 1; ShLin 1%nat 1 0; ShLin 2%nat 1 0], [ShLin 0%nat 1 1; ShLin 1%nat 1 2; ShLin 2%nat 1 0], Some (cN 1));
  (12, 12, [ShLin 0%nat 1 1; ShLin 1%nat 1 0; ShLin 2%nat 1 (-1)], [ShLin 0%nat 1 1; ShLin 1%nat 1 2; ShLin 2%nat 1 (-1)], Some (cN 1));
  (13, 13, [ShLin 0%nat 1 1; ShLin 1%nat 1 0; ShLin 2%nat 1 (-2)], [ShLin 0%nat 1 1; ShLin 1%nat 1 2; ShLin 2%nat 1 (-2)], Some (cN 1));
  (14, 14, [ShLin 0%nat 1 1; ShLin 1%nat 1 (-2); ShLin 2%nat 1 1], [ShLin 0%nat 1 1; ShLin 1%nat 1 0; ShLin 2%nat 1 1], Some QSTZ_e120);
  (15, 14, [ShLin 0%nat 1 1; ShLin 1%nat 1 0; ShLin 2%nat 1 1], [ShLin 0%nat 1 1; ShLin 1%nat 1 0; ShLin 2%nat 1 1], Some QSTZ_e121);
  (15, 15, [ShLin 0%nat 1 1; ShLin 1%nat 1 0; ShLin 2%nat 1 1], [ShLin 0%nat 1 1; ShLin 1%nat 1 2; ShLin 2%nat 1 1], Some QSTZ_e122);
  (16, 14, [ShLin 0%nat 1 1; ShLin 1%nat 1 2; ShLin 2%nat 1 1], [ShLin 0%nat 1 1; ShLin 1%nat 1 0; ShLin 2%nat 1 1], Some QSTZ_e123);
  (16, 15, [ShLin 0%nat 1 1; ShLin 1%nat 1 2; ShLin 2%nat 1 1], [ShLin 0%nat 1 1; ShLin 1%nat 1 2; ShLin 2%nat 1 1], Some QSTZ_e124);
  (16, 16, [ShLin 0%nat 1 1; ShLin 1%nat 1 2; ShLin 2%nat 1 1], [ShLin 0%nat 1 1; ShLin 1%nat 1 4; ShLin 2%nat 1 1], Some (cN 1));
  (17, 17, [ShLin 0%nat 1 1; ShLin 1%nat 1 (-2); ShLin 2%nat 1 0], [ShLin 0%nat 1 1; ShLin 1%nat 1 0; ShLin 2%nat 1 0], Some QSTZ_e120);
  (18, 17, [ShLin 0%nat 1 1; ShLin 1%nat 1 0; ShLin 2%nat 1 0], [ShLin 0%nat 1 1; ShLin 1%nat 1 0; ShLin 2%nat 1 0], Some QSTZ_e121);
  (18, 18, [ShLin 0%nat 1 1; ShLin 1%nat 1 0; ShLin 2%nat 1 0], [ShLin 0%nat 1 1; ShLin 1%nat 1 2; ShLin 2%nat 1 0], Some QSTZ_e122);
  (19, 17, [ShLin 0%nat 1 1; ShLin 1%nat 1 2; ShLin 2%nat 1 0], [ShLin 0%nat 1 1; ShLin 1%nat 1 0; ShLin 2%nat 1 0], Some QSTZ_e123);
  (19, 18, [ShLin 0%nat 1 1; ShLin 1%nat 1 2; ShLin 2%nat 1 0], [ShLin 0%nat 1 1; ShLin 1%nat 1 2; ShLin 2%nat 1 0], Some QSTZ_e124);
  (19, 19, [ShLin 0%nat 1 1; ShLin 1%nat 1 2; ShLin 2%nat 1 0], [ShLin 0%nat 1 1; ShLin 1%nat 1 4; ShLin 2%nat 1 0], Some (cN 1));
  (20, 20, [ShLin 0%nat 1 1; ShLin 1%nat 1 (-2); ShLin 2%nat 1 (-1)], [ShLin 0%nat 1 1; ShLin 1%nat 1 0; ShLin 2%nat 1 (-1)], Some QSTZ_e120);
  (21, 20, [ShLin 0%nat 1 1; ShLin 1%nat 1 0; ShLin 2%nat 1 (-1)], [ShLin 0%nat 1 1; ShLin 1%nat 1 0; ShLin 2%nat 1 (-1)], Some QSTZ_e121);
  (21, 21, [ShLin 0%nat 1 1; ShLin 1%nat 1 0; ShLin 2%nat 1 (-1)], [ShLin 0%nat 1 1; ShLin 1%nat 1 2; ShLin 2%nat 1 (-1)], Some QSTZ_e122);
  (22, 20, [ShLin 0%nat 1 1; ShLin 1%nat 1 2; ShLin 2%nat 1 (-1)], [ShLin 0%nat 1 1; ShLin 1%nat 1 0; ShLin 2%nat 1 (-1)], Some QSTZ_e123);
  (22, 21, [ShLin 0%nat 1 1; ShLin 1%nat 1 2; ShLin 2%nat 1 (-1)], [ShLin 0%nat 1 1; ShLin 1%nat 1 2; ShLin 2%nat 1 (-1)], Some QSTZ_e124);
  (22, 22, [ShLin 0%nat 1 1; ShLin 1%nat 1 2; ShLin 2%nat 1 (-1)], [ShLin 0%nat 1 1; ShLin 1%nat 1 4; ShLin 2%nat 1 (-1)], Some (cN 1));
  (23, 23, [ShLin 0%nat 1 0; ShLin 1%nat 1 (-1); ShLin 2%nat 1 2], [ShLin 0%nat 1 0; ShLin 1%nat 1 1; ShLin 2%nat 1 2], Some QSTZ_e118);
  (24, 23, [ShLin 0%nat 1 0; ShLin 1%nat 1 1; ShLin 2%nat 1 2], [ShLin 0%nat 1 0; ShLin 1%nat 1 1; ShLin 2%nat 1 2], Some QSTZ_e119);
  (24, 24, [ShLin 0%nat 1 0; ShLin 1%nat 1 1; ShLin 2%nat 1 2], [ShLin 0%nat 1 0; ShLin 1%nat 1 3; ShLin 2%nat 1 2], Some (cN 1));
  (25, 25, [ShLin 0%nat 1 0; ShLin 1%nat 1 (-1); ShLin 2%nat 1 1], [ShLin 0%nat 1 0; ShLin 1%nat 1 1; ShLin 2%nat 1 1], Some QSTZ_e118);
  (26, 25, [ShLin 0%nat 1 0; ShLin 1%nat 1 1; ShLin 2%nat 1 1], [ShLin 0%nat 1 0; ShLin 1%nat 1 1; ShLin 2%nat 1 1], Some QSTZ_e119);
  (26, 26, [ShLin 0%nat 1 0; ShLin 1%nat 1 1; ShLin 2%nat 1 1], [ShLin 0%nat 1 0; ShLin 1%nat 1 3; ShLin 2%nat 1 1], Some (cN 1));
  (27, 27, [ShLin 0%nat 1 0; ShLin 1%nat 1 (-1); ShLin 2%nat 1 1], [ShLin 0%nat 1 0; ShLin 1%nat 1 1; ShLin 2%nat 1 1], Some QSTZ_e118);
  (28, 27, [ShLin 0%nat 1 0; ShLin 1%nat 1 1; ShLin 2%nat 1 1], [ShLin 0%nat 1 0; ShLin 1%nat 1 1; ShLin 2%nat 1 1], Some QSTZ_e119);
  (28, 28, [ShLin 0%nat 1 0; ShLin 1%nat 1 1; ShLin 2%nat 1 1], [ShLin 0%nat 1 0; ShLin 1%nat 1 3; ShLin 2%nat 1 1], Some (cN 1));
  (29, 29, [ShLin 0%nat 1 0; ShLin 1%nat 1 (-1); ShLin 2%nat 1 0], [ShLin 0%nat 1 0; ShLin 1%nat 1 1; ShLin 2%nat 1 0], Some QSTZ_e118);
  (30, 29, [ShLin 0%nat 1 0; ShLin 1%nat 1 1; ShLin 2%nat 1 0], [ShLin 0%nat 1 0; ShLin 1%nat 1 1; ShLin 2%nat 1 0], Some QSTZ_e119);
  (30, 30, [ShLin 0%nat 1 0; ShLin 1%nat 1 1; ShLin 2%nat 1 0], [ShLin 0%nat 1 0; ShLin 1%nat 1 3; ShLin 2%nat 1 0], Some (cN 1));
  (31, 31, [ShLin 0%nat 1 0; ShLin 1%nat 1 (-1); ShLin 2%nat 1 0], [ShLin 0%nat 1 0; ShLin 1%nat 1 1; ShLin 2%nat 1 0], Some QSTZ_e118);
  (32, 31, [ShLin 0%nat 1 0; ShLin 1%nat 1 1; ShLin 2%nat 1 0], [ShLin 0%nat 1 0; ShLin 1%nat 1 1; ShLin 2%nat 1 0], Some QSTZ_e119);
  (32, 32, [ShLin 0%nat 1 0; ShLin 1%nat 1 1; ShLin 2%nat 1 0], [ShLin 0%nat 1 0; ShLin 1%nat 1 3; ShLin 2%nat 1 0], Some (cN 1));
  (33, 33, [ShLin 0%nat 1 0; ShLin 1%nat 1 (-1); ShLin 2%nat 1 (-1)], [ShLin 0%nat 1 0; ShLin 1%nat 1 1; ShLin 2%nat 1 (-1)], Some QSTZ_e118);
  (34, 33, [ShLin 0%nat 1 0; ShLin 1%nat 1 1; ShLin 2%nat 1 (-1)], [ShLin 0%nat 1 0; ShLin 1%nat 1 1; ShLin 2%nat 1 (-1)], Some QSTZ_e119);
  (34, 34, [ShLin 0%nat 1 0; ShLin 1%nat 1 1; ShLin 2%nat 1 (-1)], [ShLin 0%nat 1 0; ShLin 1%nat 1 3; ShLin 2%nat 1 (-1)], Some (cN 1));
  (35, 35, [ShLin 0%nat 1 0; ShLin 1%nat 1 (-1); ShLin 2%nat 1 (-1)], [ShLin 0%nat 1 0; ShLin 1%nat 1 1; ShLin 2%nat 1 (-1)], Some QSTZ_e118);
  (36, 35, [ShLin 0%nat 1 0; ShLin 1%nat 1 1; ShLin 2%nat 1 (-1)], [ShLin 0%nat 1 0; ShLin 1%nat 1 1; ShLin 2%nat 1 (-1)], Some QSTZ_e119);
  (36, 36, [ShLin 0%nat 1 0; ShLin 1%nat 1 1; ShLin 2%nat 1 (-1)], [ShLin 0%nat 1 0; ShLin 1%nat 1 3; ShLin 2%nat 1 (-1)], Some (cN 1));
  (37, 37, [ShLin 0%nat 1 0; ShLin 1%nat 1 (-1); ShLin 2%nat 1 (-2)], [ShLin 0%nat 1 0; ShLin 1%nat 1 1; ShLin 2%nat 1 (-2)], Some QSTZ_e118);
  (38, 37, [ShLin 0%nat 1 0; ShLin 1%nat 1 1; ShLin 2%nat 1 (-2)], [ShLin 0%nat 1 0; ShLin 1%nat 1 1; ShLin 2%nat 1 (-2)], Some QSTZ_e119);
  (38, 38, [ShLin 0%nat 1 0; ShLin 1%nat 1 1; ShLin 2%nat 1 (-2)], [ShLin 0%nat 1 0; ShLin 1%nat 1 3; ShLin 2%nat 1 (-2)], Some (cN 1));
  (39, 39, [ShLin 0%nat 1 0; ShLin 1%nat 1 (-3); ShLin 2%nat 1 0], [ShLin 0%nat 1 0; ShLin 1%nat 1 (-1); ShLin 2%nat 1 0], Some QSTZ_e125);
  (40, 39, [ShLin 0%nat 1 0; ShLin 1%nat 1 (-1); ShLin 2%nat 1 0], [ShLin 0%nat 1 0; ShLin 1%nat 1 (-1); ShLin 2%nat 1 0], Some QSTZ_e126);
  (40, 40, [ShLin 0%nat 1 0; ShLin 1%nat 1 (-1); ShLin 2%nat 1 0], [ShLin 0%nat 1 0; ShLin 1%nat 1 1; ShLin 2%nat 1 0], Some QSTZ_e127);
  (41, 39, [ShLin 0%nat 1 0; ShLin 1%nat 1 1; ShLin 2%nat 1 0], [ShLin 0%nat 1 0; ShLin 1%nat 1 (-1); ShLin 2%nat 1 0], Some QSTZ_e128);
  (41, 40, [ShLin 0%nat 1 0; ShLin 1%nat 1 1; ShLin 2%nat 1 0], [ShLin 0%nat 1 0; ShLin 1%nat 1 1; ShLin 2%nat 1 0], Some QSTZ_e129);
  (41, 41, [ShLin 0%nat 1 0; ShLin 1%nat 1 1; ShLin 2%nat 1 0], [ShLin 0%nat 1 0; ShLin 1%nat 1 3; ShLin 2%nat 1 0], Some QSTZ_e130);
  (42, 40, [ShLin 0%nat 1 0; ShLin 1%nat 1 3; ShLin 2%nat 1 0], [ShLin 0%nat 1 0; ShLin 1%nat 1 1; ShLin 2%nat 1 0], Some QSTZ_e131);
  (42, 41, [ShLin 0%nat 1 0; ShLin 1%nat 1 3; ShLin 2%nat 1 0], [ShLin 0%nat 1 0; ShLin 1%nat 1 3; ShLin 2%nat 1 0], Some QSTZ_e132);
  (42, 42, [ShLin 0%nat 1 0; ShLin 1%nat 1 3; ShLin 2%nat 1 0], [ShLin 0%nat 1 0; ShLin 1%nat 1 5; ShLin 2%nat 1 0], Some QSTZ_e133);
  (43, 43, [ShLin 0%nat 1 (-1); ShLin 1%nat 1 0; ShLin 2%nat 1 2], [ShLin 0%nat 1 (-1); ShLin 1%nat 1 2; ShLin 2%nat 1 2], Some (cN 1));
  (44, 44, [ShLin 0%nat 1 (-1); ShLin 1%nat 1 0; ShLin 2%nat 1 1], [ShLin 0%nat 1 (-1); ShLin 1%nat 1 2; ShLin 2%nat 1 1], Some (cN 1));
  (45, 45, [ShLin 0%nat 1 (-1); ShLin 1%nat 1 0; ShLin 2%nat 1 0], [ShLin 0%nat 1 (-1); ShLin 1%nat 1 2; ShLin 2%nat 1 0], Some (cN 1));
  (46, 46, [ShLin 0%nat 1 (-1); ShLin 1%nat 1 0; ShLin 2%nat 1 0], [ShLin 0%nat 1 (-1); ShLin 1%nat 1 2; ShLin 2%nat 1 0], Some (cN 1));
  (47, 47, [ShLin 0%nat 1 (-1); ShLin 1%nat 1 0; ShLin 2%nat 1 (-1)], [ShLin 0%nat 1 (-1); ShLin 1%nat 1 2; ShLin 2%nat 1 (-1)], Some (cN 1));
  (48, 48, [ShLin 0%nat 1 (-1); ShLin 1%nat 1 0; ShLin 2%nat 1 (-2)], [ShLin 0%nat 1 (-1); ShLin 1%nat 1 2; ShLin 2%nat 1 (-2)], Some (cN 1));
  (49, 49, [ShLin 0%nat 1 (-1); ShLin 1%nat 1 (-2); ShLin 2%nat 1 1], [ShLin 0%nat 1 (-1); ShLin 1%nat 1 0; ShLin 2%nat 1 1], Some QSTZ_e120);
  (50, 49, [ShLin 0%nat 1 (-1); ShLin 1%nat 1 0; ShLin 2%nat 1 1], [ShLin 0%nat 1 (-1); ShLin 1%nat 1 0; ShLin 2%nat 1 1], Some QSTZ_e121);
  (50, 50, [ShLin 0%nat 1 (-1); ShLin 1%nat 1 0; ShLin 2%nat 1 1], [ShLin 0%nat 1 (-1); ShLin 1%nat 1 2; ShLin 2%nat 1 1], Some QSTZ_e122);
  (51, 49, [ShLin 0%nat 1 (-1); ShLin 1%nat 1 2; ShLin 2%nat 1 1], [ShLin 0%nat 1 (-1); ShLin 1%nat 1 0; ShLin 2%nat 1 1], Some QSTZ_e123);
  (51, 50, [ShLin 0%nat 1 (-1); ShLin 1%nat 1 2; ShLin 2%nat 1 1], [ShLin 0%nat 1 (-1); ShLin 1%nat 1 2; ShLin 2%nat 1 1], Some QSTZ_e124);
  (51, 51, [ShLin 0%nat 1 (-1); ShLin 1%nat 1 2; ShLin 2%nat 1 1], [ShLin 0%nat 1 (-1); ShLin 1%nat 1 4; ShLin 2%nat 1 1], Some (cN 1));
  (52, 52, [ShLin 0%nat 1 (-1); ShLin 1%nat 1 (-2); ShLin 2%nat 1 0], [ShLin 0%nat 1 (-1); ShLin 1%nat 1 0; ShLin 2%nat 1 0], Some QSTZ_e120);
  (53, 52, [ShLin 0%nat 1 (-1); ShLin 1%nat 1 0; ShLin 2%nat 1 0], [ShLin 0%nat 1 (-1); ShLin 1%nat 1 0; ShLin 2%nat 1 0], Some QSTZ_e121);
  (53, 53, [ShLin 0%nat 1 (-1); ShLin 1%nat 1 0; ShLin 2%nat 1 0], [ShLin 0%nat 1 (-1); ShLin 1%nat 1 2; ShLin 2%nat 1 0], Some QSTZ_e122);
  (54, 52, [ShLin 0%nat 1 (-1); ShLin 1%nat 1 2; ShLin 2%nat 1 0], [ShLin 0%nat 1 (-1); ShLin 1%nat 1 0; ShLin 2%nat 1 0], Some QSTZ_e123);
  (54, 53, [ShLin 0%nat 1 (-1); ShLin 1%nat 1 2; ShLin 2%nat 1 0], [ShLin 0%nat 1 (-1); ShLin 1%nat 1 2; ShLin 2%nat 1 0], Some QSTZ_e124);
  (54, 54, [ShLin 0%nat 1 (-1); ShLin 1%nat 1 2; ShLin 2%nat 1 0], [ShLin 0%nat 1 (-1); ShLin 1%nat 1 4; ShLin 2%nat 1 0], Some (cN 1));
  (55, 55, [ShLin 0%nat 1 (-1); ShLin 1%nat 1 (-2); ShLin 2%nat 1 (-1)], [ShLin 0%nat 1 (-1); ShLin 1%nat 1 0; ShLin 2%nat 1 (-1)], Some QSTZ_e120);
  (56, 55, [ShLin 0%nat 1 (-1); ShLin 1%nat 1 0; ShLin 2%nat 1 (-1)], [ShLin 0%nat 1 (-1); ShLin 1%nat 1 0; ShLin 2%nat 1 (-1)], Some QSTZ_e121);
  (56, 56, [ShLin 0%nat 1 (-1); ShLin 1%nat 1 0; ShLin 2%nat 1 (-1)], [ShLin 0%nat 1 (-1); ShLin 1%nat 1 2; ShLin 2%nat 1 (-1)], Some QSTZ_e122);
  (57, 55, [ShLin 0%nat 1 (-1); ShLin 1%nat 1 2; ShLin 2%nat 1 (-1)], [ShLin 0%nat 1 (-1); ShLin 1%nat 1 0; ShLin 2%nat 1 (-1)], Some QSTZ_e123);
  (57, 56, [ShLin 0%nat 1 (-1); ShLin 1%nat 1 2; ShLin 2%nat 1 (-1)], [ShLin 0%nat 1 (-1); ShLin 1%nat 1 2; ShLin 2%nat 1 (-1)], Some QSTZ_e124);
  (57, 57, [ShLin 0%nat 1 (-1); ShLin 1%nat 1 2; ShLin 2%nat 1 (-1)], [ShLin 0%nat 1 (-1); ShLin 1%nat 1 4; ShLin 2%nat 1 (-1)], Some (cN 1));
  (58, 58, [ShLin 0%nat 1 (-2); ShLin 1%nat 1 (-1); ShLin 2%nat 1 1], [ShLin 0%nat 1 (-2); ShLin 1%nat 1 1; ShLin 2%nat 1 1], Some QSTZ_e118);
  (59, 58, [ShLin 0%nat 1 (-2); ShLin 1%nat 1 1; ShLin 2%nat 1 1], [ShLin 0%nat 1 (-2); ShLin 1%nat 1 1; ShLin 2%nat 1 1], Some QSTZ_e119);
  (59, 59, [ShLin 0%nat 1 (-2); ShLin 1%nat 1 1; ShLin 2%nat 1 1], [ShLin 0%nat 1 (-2); ShLin 1%nat 1 3; ShLin 2%nat 1 1], Some (cN 1));
  (60, 60, [ShLin 0%nat 1 (-2); ShLin 1%nat 1 (-1); ShLin 2%nat 1 0], [ShLin 0%nat 1 (-2); ShLin 1%nat 1 1; ShLin 2%nat 1 0], Some QSTZ_e118);
  (61, 60, [ShLin 0%nat 1 (-2); ShLin 1%nat 1 1; ShLin 2%nat 1 0], [ShLin 0%nat 1 (-2); ShLin 1%nat 1 1; ShLin 2%nat 1 0], Some QSTZ_e119);
  (61, 61, [ShLin 0%nat 1 (-2); ShLin 1%nat 1 1; ShLin 2%nat 1 0], [ShLin 0%nat 1 (-2); ShLin 1%nat 1 3; ShLin 2%nat 1 0], Some (cN 1));
  (62, 62, [ShLin 0%nat 1 (-2); ShLin 1%nat 1 (-1); ShLin 2%nat 1 (-1)], [ShLin 0%nat 1 (-2); ShLin 1%nat 1 1; ShLin 2%nat 1 (-1)], Some QSTZ_e118);
  (63, 62, [ShLin 0%nat 1 (-2); ShLin 1%nat 1 1; ShLin 2%nat 1 (-1)], [ShLin 0%nat 1 (-2); ShLin 1%nat 1 1; ShLin 2%nat 1 (-1)], Some QSTZ_e119);
  (63, 63, [ShLin 0%nat 1 (-2); ShLin 1%nat 1 1; ShLin 2%nat 1 (-1)], [ShLin 0%nat 1 (-2); ShLin 1%nat 1 3; ShLin 2%nat 1 (-1)], Some (cN 1));
  (64, 64, [ShLin 0%nat 1 (-3); ShLin 1%nat 1 0; ShLin 2%nat 1 0], [ShLin 0%nat 1 (-3); ShLin 1%nat 1 2; ShLin 2%nat 1 0], Some (cN 1))].
(** /repo/c++/symmetry/nrg-recalc-QSTZ.hpp recalc_triplet, qstz/qstz-tripletm.dat *)
Definition qstz_t14 : ten_table := mk_ten "triplet" [ShLin 0%nat 1 0; ShLin 1%nat 1 (-2); ShLin 2%nat 1 0] [0; 3; 0] [
  (1, 1, [ShLin 0%nat 1 3; ShLin 1%nat 1 0; ShLin 2%nat 1 0], [ShLin 0%nat 1 3; ShLin 1%nat 1 (-2); ShLin 2%nat 1 0], Some (cN 1));
  (2, 2, [ShLin 0%nat 1 2; ShLin 1%nat 1 (-1); ShLin 2%nat 1 1], [ShLin 0%nat 1 2; ShLin 1%nat 1 (-3); ShLin 2%nat 1 1], Some (cN 1));
  (2, 3, [ShLin 0%nat 1 2; ShLin 1%nat 1 (-1); ShLin 2%nat 1 1], [ShLin 0%nat 1 2; ShLin 1%nat 1 (-1); ShLin 2%nat 1 1], Some QSTZ_e13);
  (3, 3, [ShLin 0%nat 1 2; ShLin 1%nat 1 1; ShLin 2%nat 1 1], [ShLin 0%nat 1 2; ShLin 1%nat 1 (-1); ShLin 2%nat 1 1], Some QSTZ_e134);
  (4, 4, [ShLin 0%nat 1 2; ShLin 1%nat 1 (-1); ShLin 2%nat 1 0], [ShLin 0%nat 1 2; ShLin 1%nat 1 (-3); ShLin 2%nat 1 0], Some (cN 1));
  (4, 5, [ShLin 0%nat 1 2; ShLin 1%nat 1 (-1); ShLin 2%nat 1 0], [ShLin 0%nat 1 2; ShLin 1%nat 1 (-1); ShLin 2%nat 1 0], Some QSTZ_e13);
  (5, 5, [ShLin 0%nat 1 2; ShLin 1%nat 1 1; ShLin 2%nat 1 0], [ShLin 0%nat 1 2; ShLin 1%nat 1 (-1); ShLin 2%nat 1 0], Some QSTZ_e134);
  (6, 6, [ShLin 0%nat 1 2; ShLin 1%nat 1 (-1); ShLin 2%nat 1 (-1)], [ShLin 0%nat 1 2; ShLin 1%nat 1 (-3); ShLin 2%nat 1 (-1)], Some (cN 1));
  (6, 7, [ShLin 0%nat 1 2; ShLin 1%nat 1 (-1); ShLin 2%nat 1 (-1)], [ShLin 0%nat 1 2; ShLin 1%nat 1 (-1); ShLin 2%nat 1 (-1)], Some QSTZ_e13);
  (7, 7, [ShLin 0%nat 1 2; ShLin 1%nat 1 1; ShLin 2%nat 1 (-1)], [ShLin 0%nat 1 2; ShLin 1%nat 1 (-1); ShLin 2%nat 1 (-1)], Some QSTZ_e134);
  (8, 8, [ShLin 0%nat 1 1; ShLin 1%nat 1 0; ShLin 2%nat 1 2], [ShLin 0%nat 1 1; ShLin 1%nat 1 (-2); ShLin 2%nat 1 2], Some (cN 1));
  (9, 9, [ShLin 0%nat 1 1; ShLin 1%nat 1 0; ShLin 2%nat 1 1], [ShLin 0%nat 1 1; ShLin 1%nat 1 (-2); ShLin 2%nat 1 1], Some (cN 1));
  (10, 10, [ShLin 0%nat 1 1; ShLin 1%nat 1 0; ShLin 2%nat 1 0], [ShLin 0%nat 1 1; ShLin 1%nat 1 (-2); ShLin 2%nat 1 0], Some (cN 1));
  (11, 11, [ShLin 0%nat 1 1; ShLin 1%nat 1 0; ShLin 2%nat 1 0], [ShLin 0%nat 1 1; ShLin 1%nat 1 (-2); ShLin 2%nat 1 0], Some (cN 1));
  (12, 12, [ShLin 0%nat 1 1; ShLin 1%nat 1 0; ShLin 2%nat 1 (-1)], [ShLin 0%nat 1 1; ShLin 1%nat 1 (-2); ShLin 2%nat 1 (-1)], Some (cN 1));
  (13, 13, [ShLin 0%nat 1 1; ShLin 1%nat 1 0; ShLin 2%nat 1 (-2)], [ShLin 0%nat 1 1; ShLin 1%nat 1 (-2); ShLin 2%nat 1 (-2)], Some (cN 1));
  (14, 14, [ShLin 0%nat 1 1; ShLin 1%nat 1 (-2); ShLin 2%nat 1 1], [ShLin 0%nat 1 1; ShLin 1%nat 1 (-4); ShLin 2%nat 1 1], Some (cN 1));
  (14, 15, [ShLin 0%nat 1 1; ShLin 1%nat 1 (-2); ShLin 2%nat 1 1], [ShLin 0%nat 1 1; ShLin 1%nat 1 (-2); ShLin 2%nat 1 1], Some (cD (cN 1) (cH 1)));
  (14, 16, [ShLin 0%nat 1 1; ShLin 1%nat 1 (-2); ShLin 2%nat 1 1], [ShLin 0%nat 1 1; ShLin 1%nat 1 0; ShLin 2%nat 1 1], Some QSTZ_e135);
  (15, 15, [ShLin 0%nat 1 1; ShLin 1%nat 1 0; ShLin 2%nat 1 1], [ShLin 0%nat 1 1; ShLin 1%nat 1 (-2); ShLin 2%nat 1 1], Some QSTZ_e136);
  (15, 16, [ShLin 0%nat 1 1; ShLin 1%nat 1 0; ShLin 2%nat 1 1], [ShLin 0%nat 1 1; ShLin 1%nat 1 0; ShLin 2%nat 1 1], Some QSTZ_e103);
  (16, 16, [ShLin 0%nat 1 1; ShLin 1%nat 1 2; ShLin 2%nat 1 1], [ShLin 0%nat 1 1; ShLin 1%nat 1 0; ShLin 2%nat 1 1], Some QSTZ_e137);
  (17, 17, [ShLin 0%nat 1 1; ShLin 1%nat 1 (-2); ShLin 2%nat 1 0], [ShLin 0%nat 1 1; ShLin 1%nat 1 (-4); ShLin 2%nat 1 0], Some (cN 1));
  (17, 18, [ShLin 0%nat 1 1; ShLin 1%nat 1 (-2); ShLin 2%nat 1 0], [ShLin 0%nat 1 1; ShLin 1%nat 1 (-2); ShLin 2%nat 1 0], Some (cD (cN 1) (cH 1)));
  (17, 19, [ShLin 0%nat 1 1; ShLin 1%nat 1 (-2); ShLin 2%nat 1 0], [ShLin 0%nat 1 1; ShLin 1%nat 1 0; ShLin 2%nat 1 0], Some QSTZ_e135);
  (18, 18, [ShLin 0%nat 1 1; ShLin 1%nat 1 0; ShLin 2%nat 1 0], [ShLin 0%nat 1 1; ShLin 1%nat 1 (-2); ShLin 2%nat 1 0], Some QSTZ_e136);
  (18, 19, [ShLin 0%nat 1 1; ShLin 1%nat 1 0; ShLin 2%nat 1 0], [ShLin 0%nat 1 1; ShLin 1%nat 1 0; ShLin 2%nat 1 0], Some QSTZ_e103);
  (19, 19, [ShLin 0%nat 1 1; ShLin 1%nat 1 2; ShLin 2%nat 1 0], [ShLin 0%nat 1 1; ShLin 1%nat 1 0; ShLin 2%nat 1 0], Some QSTZ_e137);
  (20, 20, [ShLin 0%nat 1 1; ShLin 1%nat 1 (-2); ShLin 2%nat 1 (-1)], [ShLin 0%nat 1 1; ShLin 1%nat 1 (-4); ShLin 2%nat 1 (-1)], Some (cN 1));
  (20, 21, [ShLin 0%nat 1 1; ShLin 1%nat 1 (-2); ShLin 2%nat 1 (-1)], [ShLin 0%nat 1 1; ShLin 1%nat 1 (-2); ShLin 2%nat 1 (-1)], Some (cD (cN 1) (cH 1)));
  (20, 22, [ShLin 0%nat 1 1; ShLin 1%nat 1 (-2); ShLin 2%nat 1 (-1)], [ShLin 0%nat 1 1; ShLin 1%nat 1 0; ShLin 2%nat 1 (-1)], Some QSTZ_e135);
  (21, 21, [ShLin 0%nat 1 1; ShLin 1%nat 1 0; ShLin 2%nat 1 (-1)], [ShLin 0%nat 1 1; ShLin 1%nat 1 (-2); ShLin 2%nat 1 (-1)], Some QSTZ_e136);
  (21, 22, [ShLin 0%nat 1 1; ShLin 1%nat 1 0; ShLin 2%nat 1 (-1)], [ShLin 0%nat 1 1; ShLin 1%nat 1 0; ShLin 2%nat 1 (-1)], Some QSTZ_e103);
  (22, 22, [ShLin 0%nat 1 1; ShLin 1%nat 1 2; ShLin 2%nat 1 (-1)], [ShLin 0%nat 1 1; ShLin 1%nat 1 0; ShLin 2%nat 1 (-1)], Some QSTZ_e137);
  (23, 23, [ShLin 0%nat 1 0; ShLin 1%nat 1 (-1); ShLin 2%nat 1 2], [ShLin 0%nat 1 0; ShLin 1%nat 1 (-3); ShLin 2%nat 1 2], Some (cN 1));
  (23, 24, [ShLin 0%nat 1 0; ShLin 1%nat 1 (-1); ShLin 2%nat 1 2], [ShLin 0%nat 1 0; ShLin 1%nat 1 (-1); ShLin 2%nat 1 2], Some QSTZ_e13);
  (24, 24, [ShLin 0%nat 1 0; ShLin 1%nat 1 1; ShLin 2%nat 1 2], [ShLin 0%nat 1 0; ShLin 1%nat 1 (-1); ShLin 2%nat 1 2], Some QSTZ_e134);
  (25, 25, [ShLin 0%nat 1 0; ShLin 1%nat 1 (-1); ShLin 2%nat 1 1], [ShLin 0%nat 1 0; ShLin 1%nat 1 (-3); ShLin 2%nat 1 1], Some (cN 1));
  (25, 26, [ShLin 0%nat 1 0; ShLin 1%nat 1 (-1); ShLin 2%nat 1 1], [ShLin 0%nat 1 0; ShLin 1%nat 1 (-1); ShLin 2%nat 1 1], Some QSTZ_e13);
  (26, 26, [ShLin 0%nat 1 0; ShLin 1%nat 1 1; ShLin 2%nat 1 1], [ShLin 0%nat 1 0; ShLin 1%nat 1 (-1); ShLin 2%nat 1 1], Some QSTZ_e134);
  (27, 27, [ShLin 0%nat 1 0; ShLin 1%nat 1 (-1); ShLin 2%nat 1 1], [ShLin 0%nat 1 0; ShLin 1%nat 1 (-3); ShLin 2%nat 1 1], Some (cN 1));
  (27, 28, [ShLin 0%nat 1 0; ShLin 1%nat 1 (-1); ShLin 2%nat 1 1], [ShLin 0%nat 1 0; ShLin 1%nat 1 (-1); ShLin 2%nat 1 1], Some QSTZ_e13);
  (28, 28, [ShLin 0%nat 1 0; ShLin 1%nat 1 1; ShLin 2%nat 1 1], [ShLin 0%nat 1 0; ShLin 1%nat 1 (-1); ShLin 2%nat 1 1], Some QSTZ_e134);
  (29, 29, [ShLin 0%nat 1 0; ShLin 1%nat 1 (-1); ShLin 2%nat 1 0], [ShLin 0%nat 1 0; ShLin 1%nat 1 (-3); ShLin 2%nat 1 0], Some (cN 1));
  (29, 30, [ShLin 0%nat 1 0; ShLin 1%nat 1 (-1); ShLin 2%nat 1 0], [ShLin 0%nat 1 0; ShLin 1%nat 1 (-1); ShLin 2%nat 1 0], Some QSTZ_e13);
  (30, 30, [ShLin 0%nat 1 0; ShLin 1%nat 1 1; ShLin 2%nat 1 0], [ShLin 0%nat 1 0; ShLin 1%nat 1 (-1); ShLin 2%nat 1 0], Some QSTZ_e134);
  (31, 31, [ShLin 0%nat 1 0; ShLin 1%nat 1 (-1); ShLin 2%nat 1 0], [ShLin 0%nat 1 0; ShLin 1%nat 1 (-3); ShLin 2%nat 1 0], Some (cN 1));
  (31, 32, [ShLin 0%nat 1 0; ShLin 1%nat 1 (-1); ShLin 2%nat 1 0], [ShLin 0%nat 1 0; ShLin 1%nat 1 (-1); ShLin 2%nat 1 0], Some QSTZ_e13);
  (32, 32, [ShLin 0%nat 1 0; ShLin 1%nat 1 1; ShLin 2%nat 1 0], [ShLin 0%nat 1 0; ShLin 1%nat 1 (-1); ShLin 2%nat 1 0], Some QSTZ_e134);
  (33, 33, [ShLin 0%nat 1 0; ShLin 1%nat 1 (-1); ShLin 2%nat 1 (-1)], [ShLin 0%nat 1 0; ShLin 1%nat 1 (-3); ShLin 2%nat 1 (-1)], Some (cN 1));
  (33, 34, [ShLin 0%nat 1 0; ShLin 1%nat 1 (-1); ShLin 2%nat 1 (-1)], [ShLin 0%nat 1 0; ShLin 1%nat 1 (-1); ShLin 2%nat 1 (-1)], Some QSTZ_e13);
  (34, 34, [ShLin 0%nat 1 0; ShLin 1%nat 1 1; ShLin 2%nat 1 (-1)], [ShLin 0%nat 1 0; ShLin 1%nat 1 (-1); ShLin 2%nat 1 (-1)], Some QSTZ_e134);
  (35, 35, [ShLin 0%nat 1 0; ShLin 1%nat 1 (-1); ShLin 2%nat 1 (-1)], [ShLin 0%nat 1 0; ShLin 1%nat 1 (-3); ShLin 2%nat 1 (-1)], Some (cN 1));
  (35, 36, [ShLin 0%nat 1 0; ShLin 1%nat 1 (-1); ShLin 2%nat 1 (-1)], [ShLin 0%nat 1 0; ShLin 1%nat 1 (-1); ShLin 2%nat 1 (-1)], Some QSTZ_e13);
  (36, 36, [ShLin 0%nat 1 0; ShLin 1%nat 1 1; ShLin 2%nat 1 (-1)], [ShLin 0%nat 1 0; ShLin 1%nat 1 (-1); ShLin 2%nat 1 (-1)], Some QSTZ_e134);
  (37, 37, [ShLin 0%nat 1 0; ShLin 1%nat 1 (-1); ShLin 2%nat 1 (-2)], [ShLin 0%nat 1 0; ShLin 1%nat 1 (-3); ShLin 2%nat 1 (-2)], Some (cN 1));
  (37, 38, [ShLin 0%nat 1 0; ShLin 1%nat 1 (-1); ShLin 2%nat 1 (-2)], [ShLin 0%nat 1 0; ShLin 1%nat 1 (-1); ShLin 2%nat 1 (-2)], Some QSTZ_e13);
  (38, 38, [ShLin 0%nat 1 0; ShLin 1%nat 1 1; ShLin 2%nat 1 (-2)], [ShLin 0%nat 1 0; ShLin 1%nat 1 (-1); ShLin 2%nat 1 (-2)], Some QSTZ_e134);
  (39, 39, [ShLin 0%nat 1 0; ShLin 1%nat 1 (-3); ShLin 2%nat 1 0], [ShLin 0%nat 1 0; ShLin 1%nat 1 (-5); ShLin 2%nat 1 0], Some (cN 1));
  (39, 40, [ShLin 0%nat 1 0; ShLin 1%nat 1 (-3); ShLin 2%nat 1 0], [ShLin 0%nat 1 0; ShLin 1%nat 1 (-3); ShLin 2%nat 1 0], Some QSTZ_e138);
  (39, 41, [ShLin 0%nat 1 0; ShLin 1%nat 1 (-3); ShLin 2%nat 1 0], [ShLin 0%nat 1 0; ShLin 1%nat 1 (-1); ShLin 2%nat 1 0], Some QSTZ_e139);
  (40, 40, [ShLin 0%nat 1 0; ShLin 1%nat 1 (-1); ShLin 2%nat 1 0], [ShLin 0%nat 1 0; ShLin 1%nat 1 (-3); ShLin 2%nat 1 0], Some QSTZ_e108);
  (40, 41, [ShLin 0%nat 1 0; ShLin 1%nat 1 (-1); ShLin 2%nat 1 0], [ShLin 0%nat 1 0; ShLin 1%nat 1 (-1); ShLin 2%nat 1 0], Some QSTZ_e140);
  (40, 42, [ShLin 0%nat 1 0; ShLin 1%nat 1 (-1); ShLin 2%nat 1 0], [ShLin 0%nat 1 0; ShLin 1%nat 1 1; ShLin 2%nat 1 0], Some QSTZ_e128);
  (41, 41, [ShLin 0%nat 1 0; ShLin 1%nat 1 1; ShLin 2%nat 1 0], [ShLin 0%nat 1 0; ShLin 1%nat 1 (-1); ShLin 2%nat 1 0], Some QSTZ_e141);
  (41, 42, [ShLin 0%nat 1 0; ShLin 1%nat 1 1; ShLin 2%nat 1 0], [ShLin 0%nat 1 0; ShLin 1%nat 1 1; ShLin 2%nat 1 0], Some QSTZ_e142);
  (42, 42, [ShLin 0%nat 1 0; ShLin 1%nat 1 3; ShLin 2%nat 1 0], [ShLin 0%nat 1 0; ShLin 1%nat 1 1; ShLin 2%nat 1 0], Some QSTZ_e143);
  (43, 43, [ShLin 0%nat 1 (-1); ShLin 1%nat 1 0; ShLin 2%nat 1 2], [ShLin 0%nat 1 (-1); ShLin 1%nat 1 (-2); ShLin 2%nat 1 2], Some (cN 1));
  (44, 44, [ShLin 0%nat 1 (-1); ShLin 1%nat 1 0; ShLin 2%nat 1 1], [ShLin 0%nat 1 (-1); ShLin 1%nat 1 (-2); ShLin 2%nat 1 1], Some (cN 1));
  (45, 45, [ShLin 0%nat 1 (-1); ShLin 1%nat 1 0; ShLin 2%nat 1 0], [ShLin 0%nat 1 (-1); ShLin 1%nat 1 (-2); ShLin 2%nat 1 0], Some (cN 1));
  (46, 46, [ShLin 0%nat 1 (-1); ShLin 1%nat 1 0; ShLin 2%nat 1 0], [ShLin 0%nat 1 (-1); ShLin 1%nat 1 (-2); ShLin 2%nat 1 0], Some (cN 1));
  (47, 47, [ShLin 0%nat 1 (-1); ShLin 1%nat 1 0; ShLin 2%nat 1 (-1)], [ShLin 0%nat 1 (-1); ShLin 1%nat 1 (-2); ShLin 2%nat 1 (-1)], Some (cN 1));
  (48, 48, [ShLin 0%nat 1 (-1); ShLin 1%nat 1 0; ShLin 2%nat 1 (-2)], [ShLin 0%nat 1 (-1); ShLin 1%nat 1 (-2); ShLin 2%nat 1 (-2)], Some (cN 1));
  (49, 49, [ShLin 0%nat 1 (-1); ShLin 1%nat 1 (-2); ShLin 2%nat 1 1], [ShLin 0%nat 1 (-1); ShLin 1%nat 1 (-4); ShLin 2%nat 1 1], Some (cN 1));
  (49, 50, [ShLin 0%nat 1 (-1); ShLin 1%nat 1 (-2); ShLin 2%nat 1 1], [ShLin 0%nat 1 (-1); ShLin 1%nat 1 (-2); ShLin 2%nat 1 1], Some (cD (cN 1) (cH 1)));
  (49, 51, [ShLin 0%nat 1 (-1); ShLin 1%nat 1 (-2); ShLin 2%nat 1 1], [ShLin 0%nat 1 (-1); ShLin 1%nat 1 0; ShLin 2%nat 1 1], Some QSTZ_e135);
  (50, 50, [ShLin 0%nat 1 (-1); ShLin 1%nat 1 0; ShLin 2%nat 1 1], [ShLin 0%nat 1 (-1); ShLin 1%nat 1 (-2); ShLin 2%nat 1 1], Some QSTZ_e136);
  (50, 51, [ShLin 0%nat 1 (-1); ShLin 1%nat 1 0; ShLin 2%nat 1 1], [ShLin 0%nat 1 (-1); ShLin 1%nat 1 0; ShLin 2%nat 1 1], Some QSTZ_e103);
  (51, 51, [ShLin 0%nat 1 (-1); ShLin 1%nat 1 2; ShLin 2%nat 1 1], [ShLin 0%nat 1 (-1); ShLin 1%nat 1 0; ShLin 2%nat 1 1], Some QSTZ_e137);
  (52, 52, [ShLin 0%nat 1 (-1); ShLin 1%nat 1 (-2); ShLin 2%nat 1 0], [ShLin 0%nat 1 (-1); ShLin 1%nat 1 (-4); ShLin 2%nat 1 0], Some (cN 1));
  (52, 53, [ShLin 0%nat 1 (-1); ShLin 1%nat 1 (-2); ShLin 2%nat 1 0], [ShLin 0%nat 1 (-1); ShLin 1%nat 1 (-2); ShLin 2%nat 1 0], Some (cD (cN 1) (cH 1)));
  (52, 54, [ShLin 0%nat 1 (-1); ShLin 1%nat 1 (-2); ShLin 2%nat 1 0], [ShLin 0%nat 1 (-1); ShLin 1%nat 1 0; ShLin 2%nat 1 0], Some QSTZ_e135);
  (53, 53, [ShLin 0%nat 1 (-1); ShLin 1%nat 1 0; ShLin 2%nat 1 0], [ShLin 0%nat 1 (-1); ShLin 1%nat 1 (-2); ShLin 2%nat 1 0], Some QSTZ_e136);
  (53, 54, [ShLin 0%nat 1 (-1); ShLin 1%nat 1 0; ShLin 2%nat 1 0], [ShLin 0%nat 1 (-1); ShLin 1%nat 1 0; ShLin 2%nat 1 0], Some QSTZ_e103);
  (54, 54, [ShLin 0%nat 1 (-1); ShLin 1%nat 1 2; ShLin 2%nat 1 0], [ShLin 0%nat 1 (-1); ShLin 1%nat 1 0; ShLin 2%nat 1 0], Some QSTZ_e137);
  (55, 55, [ShLin 0%nat 1 (-1); ShLin 1%nat 1 (-2); ShLin 2%nat 1 (-1)], [ShLin 0%nat 1 (-1); ShLin 1%nat 1 (-4); ShLin 2%nat 1 (-1)], Some (cN 1));
  (55, 56, [ShLin 0%nat 1 (-1); ShLin 1%nat 1 (-2); ShLin 2%nat 1 (-1)], [ShLin 0%nat 1 (-1); ShLin 1%nat 1 (-2); ShLin 2%nat 1 (-1)], Some (cD (cN 1) (cH 1)));
  (55, 57, [ShLin 0%nat 1 (-1); ShLin 1%nat 1 (-2); ShLin 2%nat 1 (-1)], [ShLin 0%nat 1 (-1); ShLin 1%nat 1 0; ShLin 2%nat 1 (-1)], Some QSTZ_e135);
  (56, 56, [ShLin 0%nat 1 (-1); ShLin 1%nat 1 0; ShLin 2%nat 1 (-1)], [ShLin 0%nat 1 (-1); ShLin 1%nat 1 (-2); ShLin 2%nat 1 (-1)], Some QSTZ_e136);
  (56, 57, [ShLin 0%nat 1 (-1); ShLin 1%nat 1 0; ShLin 2%nat 1 (-1)], [ShLin 0%nat 1 (-1); ShLin 1%nat 1 0; ShLin 2%nat 1 (-1)], Some QSTZ_e103);
  (57, 57, [ShLin 0%nat 1 (-1); ShLin 1%nat 1 2; ShLin 2%nat 1 (-1)], [ShLin 0%nat 1 (-1); ShLin 1%nat 1 0; ShLin 2%nat 1 (-1)], Some QSTZ_e137);
  (58, 58, [ShLin 0%nat 1 (-2); ShLin 1%nat 1 (-1); ShLin 2%nat 1 1], [ShLin 0%nat 1 (-2); ShLin 1%nat 1 (-3); ShLin 2%nat 1 1], Some (cN 1));
  (58, 59, [ShLin 0%nat 1 (-2); ShLin 1%nat 1 (-1); ShLin 2%nat 1 1], [ShLin 0%nat 1 (-2); ShLin 1%nat 1 (-1); ShLin 2%nat 1 1], Some QSTZ_e13);
  (59, 59, [ShLin 0%nat 1 (-2); ShLin 1%nat 1 1; ShLin 2%nat 1 1], [ShLin 0%nat 1 (-2); ShLin 1%nat 1 (-1); ShLin 2%nat 1 1], Some QSTZ_e134);
  (60, 60, [ShLin 0%nat 1 (-2); ShLin 1%nat 1 (-1); ShLin 2%nat 1 0], [ShLin 0%nat 1 (-2); ShLin 1%nat 1 (-3); ShLin 2%nat 1 0], Some (cN 1));
  (60, 61, [ShLin 0%nat 1 (-2); ShLin 1%nat 1 (-1); ShLin 2%nat 1 0], [ShLin 0%nat 1 (-2); ShLin 1%nat 1 (-1); ShLin 2%nat 1 0], Some QSTZ_e13);
  (61, 61, [ShLin 0%nat 1 (-2); ShLin 1%nat 1 1; ShLin 2%nat 1 0], [ShLin 0%nat 1 (-2); ShLin 1%nat 1 (-1); ShLin 2%nat 1 0], Some QSTZ_e134);
  (62, 62, [ShLin 0%nat 1 (-2); ShLin 1%nat 1 (-1); ShLin 2%nat 1 (-1)], [ShLin 0%nat 1 (-2); ShLin 1%nat 1 (-3); ShLin 2%nat 1 (-1)], Some (cN 1));
  (62, 63, [ShLin 0%nat 1 (-2); ShLin 1%nat 1 (-1); ShLin 2%nat 1 (-1)], [ShLin 0%nat 1 (-2); ShLin 1%nat 1 (-1); ShLin 2%nat 1 (-1)], Some QSTZ_e13);
  (63, 63, [ShLin 0%nat 1 (-2); ShLin 1%nat 1 1; ShLin 2%nat 1 (-1)], [ShLin 0%nat 1 (-2); ShLin 1%nat 1 (-1); ShLin 2%nat 1 (-1)], Some QSTZ_e134);
  (64, 64, [ShLin 0%nat 1 (-3); ShLin 1%nat 1 0; ShLin 2%nat 1 0], [ShLin 0%nat 1 (-3); ShLin 1%nat 1 (-2); ShLin 2%nat 1 0], Some (cN 1))].
(** /repo/c++/symmetry/sym-QSTZ-impl.hpp, make_matrix  *)
Definition qstz_m0_o : list off_line := [
  (1, 2, 0, 0, "xi", Some (cN 1));
  (1, 3, 0, 0, "xi", Some (cN 1));
  (1, 4, 0, 0, "xi", Some (cN 1));
  (1, 5, 0, 0, "xi", Some (cN 1));
  (1, 6, 0, 0, "xi", Some (cN 1));
  (1, 7, 0, 0, "xi", Some (cN 1));
  (2, 8, 0, 0, "xi", Some QSTZ_e144);
  (2, 9, 0, 0, "xi", Some QSTZ_e145);
  (2, 10, 0, 0, "xi", Some QSTZ_e146);
  (2, 11, 0, 0, "xi", Some QSTZ_e147);
  (2, 14, 0, 0, "xi", Some (cN (-1)));
  (2, 15, 0, 0, "xi", Some QSTZ_e148);
  (2, 17, 0, 0, "xi", Some (cN (-1)));
  (2, 18, 0, 0, "xi", Some QSTZ_e148);
  (3, 8, 0, 0, "xi", Some QSTZ_e149);
  (3, 9, 0, 0, "xi", Some QSTZ_e150);
  (3, 10, 0, 0, "xi", Some QSTZ_e151);
  (3, 11, 0, 0, "xi", Some QSTZ_e152);
  (3, 15, 0, 0, "xi", Some QSTZ_e153);
  (3, 16, 0, 0, "xi", Some (cN (-1)));
  (3, 18, 0, 0, "xi", Some QSTZ_e153);
  (3, 19, 0, 0, "xi", Some (cN (-1)));
  (4, 9, 0, 0, "xi", Some QSTZ_e145);
  (4, 10, 0, 0, "xi", Some QSTZ_e154);
  (4, 11, 0, 0, "xi", Some QSTZ_e155);
  (4, 12, 0, 0, "xi", Some QSTZ_e145);
  (4, 14, 0, 0, "xi", Some (cN 1));
  (4, 15, 0, 0, "xi", Some QSTZ_e156);
  (4, 20, 0, 0, "xi", Some (cN (-1)));
  (4, 21, 0, 0, "xi", Some QSTZ_e148);
  (5, 9, 0, 0, "xi", Some QSTZ_e150);
  (5, 10, 0, 0, "xi", Some QSTZ_e157);
  (5, 11, 0, 0, "xi", Some QSTZ_e158);
  (5, 12, 0, 0, "xi", Some QSTZ_e150);
  (5, 15, 0, 0, "xi", Some QSTZ_e145);
  (5, 16, 0, 0, "xi", Some (cN 1));
  (5, 21, 0, 0, "xi", Some QSTZ_e153);
  (5, 22, 0, 0, "xi", Some (cN (-1)));
  (6, 10, 0, 0, "xi", Some QSTZ_e146);
  (6, 11, 0, 0, "xi", Some QSTZ_e147);
  (6, 12, 0, 0, "xi", Some QSTZ_e145);
  (6, 13, 0, 0, "xi", Some QSTZ_e144);
  (6, 17, 0, 0, "xi", Some (cN 1));
  (6, 18, 0, 0, "xi", Some QSTZ_e156);
  (6, 20, 0, 0, "xi", Some (cN 1));
  (6, 21, 0, 0, "xi", Some QSTZ_e156);
  (7, 10, 0, 0, "xi", Some QSTZ_e151);
  (7, 11, 0, 0, "xi", Some QSTZ_e152);
  (7, 12, 0, 0, "xi", Some QSTZ_e150);
  (7, 13, 0, 0, "xi", Some QSTZ_e149);
  (7, 18, 0, 0, "xi", Some QSTZ_e145);
  (7, 19, 0, 0, "xi", Some (cN 1));
  (7, 21, 0, 0, "xi", Some QSTZ_e145);
  (7, 22, 0, 0, "xi", Some (cN 1));
  (8, 23, 0, 0, "xi", Some (cN 1));
  (8, 24, 0, 0, "xi", Some (cN 1));
  (8, 25, 0, 0, "xi", Some (cD (cN 1) (cR (cN 2))));
  (8, 26, 0, 0, "xi", Some (cD (cN 1) (cR (cN 2))));
  (8, 27, 0, 0, "xi", Some (cD (cN 1) (cR (cN 2))));
  (8, 28, 0, 0, "xi", Some (cD (cN 1) (cR (cN 2))));
  (9, 23, 0, 0, "xi", Some QSTZ_e45);
  (9, 24, 0, 0, "xi", Some QSTZ_e45);
  (9, 25, 0, 0, "xi", Some (cQ (-1) 2));
  (9, 26, 0, 0, "xi", Some (cQ (-1) 2));
  (9, 27, 0, 0, "xi", Some (cQ 1 2));
  (9, 28, 0, 0, "xi", Some (cQ 1 2));
  (9, 29, 0, 0, "xi", Some (cQ 1 2));
  (9, 30, 0, 0, "xi", Some (cQ 1 2));
  (9, 31, 0, 0, "xi", Some (cD (cR (cN 3)) (cN 2)));
  (9, 32, 0, 0, "xi", Some (cD (cR (cN 3)) (cN 2)));
  (10, 25, 0, 0, "xi", Some (cO (cR (cQ 2 3))));
  (10, 26, 0, 0, "xi", Some (cO (cR (cQ 2 3))));
  (10, 29, 0, 0, "xi", Some (cO (cR (cQ 2 3))));
  (10, 30, 0, 0, "xi", Some (cO (cR (cQ 2 3))));
  (10, 33, 0, 0, "xi", Some (cO (cR (cQ 2 3))));
  (10, 34, 0, 0, "xi", Some (cO (cR (cQ 2 3))));
  (11, 25, 0, 0, "xi", Some QSTZ_e32);
  (11, 26, 0, 0, "xi", Some QSTZ_e32);
  (11, 27, 0, 0, "xi", Some QSTZ_e65);
  (11, 28, 0, 0, "xi", Some QSTZ_e65);
  (11, 29, 0, 0, "xi", Some QSTZ_e53);
  (11, 30, 0, 0, "xi", Some QSTZ_e53);
  (11, 33, 0, 0, "xi", Some QSTZ_e32);
  (11, 34, 0, 0, "xi", Some QSTZ_e32);
  (11, 35, 0, 0, "xi", Some (cD (cR (cN 3)) (cN 2)));
  (11, 36, 0, 0, "xi", Some (cD (cR (cN 3)) (cN 2)));
  (12, 29, 0, 0, "xi", Some (cQ 1 2));
  (12, 30, 0, 0, "xi", Some (cQ 1 2));
  (12, 31, 0, 0, "xi", Some QSTZ_e65);
  (12, 32, 0, 0, "xi", Some QSTZ_e65);
  (12, 33, 0, 0, "xi", Some (cQ (-1) 2));
  (12, 34, 0, 0, "xi", Some (cQ (-1) 2));
  (12, 35, 0, 0, "xi", Some (cQ (-1) 2));
  (12, 36, 0, 0, "xi", Some (cQ (-1) 2));
  (12, 37, 0, 0, "xi", Some (cD (cN 1) (cR (cN 2))));
  (12, 38, 0, 0, "xi", Some (cD (cN 1) (cR (cN 2))));
  (13, 33, 0, 0, "xi", Some (cD (cN 1) (cR (cN 2))));
  (13, 34, 0, 0, "xi", Some (cD (cN 1) (cR (cN 2))));
  (13, 35, 0, 0, "xi", Some QSTZ_e45);
  (13, 36, 0, 0, "xi", Some QSTZ_e45);
  (13, 37, 0, 0, "xi", Some (cN (-1)));
  (13, 38, 0, 0, "xi", Some (cN (-1)));
  (14, 23, 0, 0, "xi", Some QSTZ_e159);
  (14, 25, 0, 0, "xi", Some QSTZ_e160);
  (14, 27, 0, 0, "xi", Some QSTZ_e71);
  (14, 29, 0, 0, "xi", Some QSTZ_e160);
  (14, 31, 0, 0, "xi", Some QSTZ_e161);
  (14, 39, 0, 0, "xi", Some (cN 1));
  (14, 40, 0, 0, "xi", Some QSTZ_e93);
  (15, 23, 0, 0, "xi", Some QSTZ_e162);
  (15, 24, 0, 0, "xi", Some QSTZ_e163);
  (15, 25, 0, 0, "xi", Some QSTZ_e76);
  (15, 26, 0, 0, "xi", Some QSTZ_e164);
  (15, 27, 0, 0, "xi", Some QSTZ_e165);
  (15, 28, 0, 0, "xi", Some QSTZ_e166);
  (15, 29, 0, 0, "xi", Some QSTZ_e76);
  (15, 30, 0, 0, "xi", Some QSTZ_e164);
  (15, 31, 0, 0, "xi", Some QSTZ_e167);
  (15, 32, 0, 0, "xi", Some QSTZ_e168);
  (15, 40, 0, 0, "xi", Some QSTZ_e169);
  (15, 41, 0, 0, "xi", Some QSTZ_e37);
  (16, 24, 0, 0, "xi", Some QSTZ_e170);
  (16, 26, 0, 0, "xi", Some QSTZ_e171);
  (16, 28, 0, 0, "xi", Some QSTZ_e172);
  (16, 30, 0, 0, "xi", Some QSTZ_e171);
  (16, 32, 0, 0, "xi", Some QSTZ_e173);
  (16, 41, 0, 0, "xi", Some QSTZ_e174);
  (16, 42, 0, 0, "xi", Some (cN 1));
  (17, 25, 0, 0, "xi", Some QSTZ_e71);
  (17, 27, 0, 0, "xi", Some QSTZ_e71);
  (17, 31, 0, 0, "xi", Some QSTZ_e169);
  (17, 33, 0, 0, "xi", Some QSTZ_e160);
  (17, 35, 0, 0, "xi", Some QSTZ_e71);
  (17, 39, 0, 0, "xi", Some (cN (-1)));
  (17, 40, 0, 0, "xi", Some QSTZ_e175);
  (18, 25, 0, 0, "xi", Some QSTZ_e165);
  (18, 26, 0, 0, "xi", Some QSTZ_e166);
  (18, 27, 0, 0, "xi", Some QSTZ_e165);
  (18, 28, 0, 0, "xi", Some QSTZ_e166);
  (18, 31, 0, 0, "xi", Some QSTZ_e175);
  (18, 32, 0, 0, "xi", Some QSTZ_e174);
  (18, 33, 0, 0, "xi", Some QSTZ_e76);
  (18, 34, 0, 0, "xi", Some QSTZ_e164);
  (18, 35, 0, 0, "xi", Some QSTZ_e165);
  (18, 36, 0, 0, "xi", Some QSTZ_e166);
  (18, 40, 0, 0, "xi", Some QSTZ_e176);
  (18, 41, 0, 0, "xi", Some QSTZ_e59);
  (19, 26, 0, 0, "xi", Some QSTZ_e172);
  (19, 28, 0, 0, "xi", Some QSTZ_e172);
  (19, 32, 0, 0, "xi", Some QSTZ_e177);
  (19, 34, 0, 0, "xi", Some QSTZ_e171);
  (19, 36, 0, 0, "xi", Some QSTZ_e172);
  (19, 41, 0, 0, "xi", Some QSTZ_e178);
  (19, 42, 0, 0, "xi", Some (cN (-1)));
  (20, 29, 0, 0, "xi", Some QSTZ_e71);
  (20, 31, 0, 0, "xi", Some QSTZ_e161);
  (20, 33, 0, 0, "xi", Some QSTZ_e71);
  (20, 35, 0, 0, "xi", Some QSTZ_e71);
  (20, 37, 0, 0, "xi", Some QSTZ_e159);
  (20, 39, 0, 0, "xi", Some (cN 1));
  (20, 40, 0, 0, "xi", Some QSTZ_e93);
  (21, 29, 0, 0, "xi", Some QSTZ_e165);
  (21, 30, 0, 0, "xi", Some QSTZ_e166);
  (21, 31, 0, 0, "xi", Some QSTZ_e167);
  (21, 32, 0, 0, "xi", Some QSTZ_e168);
  (21, 33, 0, 0, "xi", Some QSTZ_e165);
  (21, 34, 0, 0, "xi", Some QSTZ_e166);
  (21, 35, 0, 0, "xi", Some QSTZ_e165);
  (21, 36, 0, 0, "xi", Some QSTZ_e166);
  (21, 37, 0, 0, "xi", Some QSTZ_e162);
  (21, 38, 0, 0, "xi", Some QSTZ_e163);
  (21, 40, 0, 0, "xi", Some QSTZ_e169);
  (21, 41, 0, 0, "xi", Some QSTZ_e37);
  (22, 30, 0, 0, "xi", Some QSTZ_e172);
  (22, 32, 0, 0, "xi", Some QSTZ_e173);
  (22, 34, 0, 0, "xi", Some QSTZ_e172);
  (22, 36, 0, 0, "xi", Some QSTZ_e172);
  (22, 38, 0, 0, "xi", Some QSTZ_e170);
  (22, 41, 0, 0, "xi", Some QSTZ_e174);
  (22, 42, 0, 0, "xi", Some (cN 1));
  (23, 43, 0, 0, "xi", Some QSTZ_e179);
  (23, 44, 0, 0, "xi", Some QSTZ_e180);
  (23, 49, 0, 0, "xi", Some (cN 1));
  (23, 50, 0, 0, "xi", Some QSTZ_e156);
  (24, 43, 0, 0, "xi", Some QSTZ_e181);
  (24, 44, 0, 0, "xi", Some QSTZ_e156);
  (24, 50, 0, 0, "xi", Some QSTZ_e145);
  (24, 51, 0, 0, "xi", Some (cN 1));
  (25, 43, 0, 0, "xi", Some QSTZ_e180);
  (25, 44, 0, 0, "xi", Some QSTZ_e182);
  (25, 45, 0, 0, "xi", Some QSTZ_e183);
  (25, 46, 0, 0, "xi", Some QSTZ_e184);
  (25, 49, 0, 0, "xi", Some QSTZ_e45);
  (25, 50, 0, 0, "xi", Some QSTZ_e185);
  (25, 52, 0, 0, "xi", Some QSTZ_e45);
  (25, 53, 0, 0, "xi", Some QSTZ_e185);
  (26, 43, 0, 0, "xi", Some QSTZ_e156);
  (26, 44, 0, 0, "xi", Some QSTZ_e186);
  (26, 45, 0, 0, "xi", Some QSTZ_e187);
  (26, 46, 0, 0, "xi", Some QSTZ_e188);
  (26, 50, 0, 0, "xi", Some QSTZ_e189);
  (26, 51, 0, 0, "xi", Some QSTZ_e45);
  (26, 53, 0, 0, "xi", Some QSTZ_e189);
  (26, 54, 0, 0, "xi", Some QSTZ_e45);
  (27, 43, 0, 0, "xi", Some QSTZ_e145);
  (27, 44, 0, 0, "xi", Some QSTZ_e182);
  (27, 46, 0, 0, "xi", Some QSTZ_e190);
  (27, 49, 0, 0, "xi", Some QSTZ_e45);
  (27, 50, 0, 0, "xi", Some QSTZ_e185);
  (27, 52, 0, 0, "xi", Some (cD (cN 1) (cR (cN 2))));
  (27, 53, 0, 0, "xi", Some QSTZ_e186);
  (28, 43, 0, 0, "xi", Some QSTZ_e150);
  (28, 44, 0, 0, "xi", Some QSTZ_e186);
  (28, 46, 0, 0, "xi", Some QSTZ_e191);
  (28, 50, 0, 0, "xi", Some QSTZ_e189);
  (28, 51, 0, 0, "xi", Some QSTZ_e45);
  (28, 53, 0, 0, "xi", Some QSTZ_e192);
  (28, 54, 0, 0, "xi", Some (cD (cN 1) (cR (cN 2))));
  (29, 44, 0, 0, "xi", Some QSTZ_e182);
  (29, 45, 0, 0, "xi", Some QSTZ_e155);
  (29, 46, 0, 0, "xi", Some QSTZ_e154);
  (29, 47, 0, 0, "xi", Some QSTZ_e182);
  (29, 49, 0, 0, "xi", Some (cD (cN 1) (cR (cN 2))));
  (29, 50, 0, 0, "xi", Some QSTZ_e186);
  (29, 55, 0, 0, "xi", Some QSTZ_e45);
  (29, 56, 0, 0, "xi", Some QSTZ_e185);
  (30, 44, 0, 0, "xi", Some QSTZ_e186);
  (30, 45, 0, 0, "xi", Some QSTZ_e158);
  (30, 46, 0, 0, "xi", Some QSTZ_e157);
  (30, 47, 0, 0, "xi", Some QSTZ_e186);
  (30, 50, 0, 0, "xi", Some QSTZ_e192);
  (30, 51, 0, 0, "xi", Some (cD (cN 1) (cR (cN 2))));
  (30, 56, 0, 0, "xi", Some QSTZ_e189);
  (30, 57, 0, 0, "xi", Some QSTZ_e45);
  (31, 44, 0, 0, "xi", Some QSTZ_e193);
  (31, 47, 0, 0, "xi", Some QSTZ_e190);
  (31, 49, 0, 0, "xi", Some (cD (cN 1) (cR (cN 6))));
  (31, 50, 0, 0, "xi", Some QSTZ_e188);
  (31, 52, 0, 0, "xi", Some (cO (cR (cQ 2 3))));
  (31, 53, 0, 0, "xi", Some QSTZ_e151);
  (31, 55, 0, 0, "xi", Some (cD (cN 1) (cR (cN 6))));
  (31, 56, 0, 0, "xi", Some QSTZ_e188);
  (32, 44, 0, 0, "xi", Some QSTZ_e194);
  (32, 47, 0, 0, "xi", Some QSTZ_e191);
  (32, 50, 0, 0, "xi", Some QSTZ_e195);
  (32, 51, 0, 0, "xi", Some (cD (cN 1) (cR (cN 6))));
  (32, 53, 0, 0, "xi", Some QSTZ_e196);
  (32, 54, 0, 0, "xi", Some (cO (cR (cQ 2 3))));
  (32, 56, 0, 0, "xi", Some QSTZ_e195);
  (32, 57, 0, 0, "xi", Some (cD (cN 1) (cR (cN 6))));
  (33, 45, 0, 0, "xi", Some QSTZ_e183);
  (33, 46, 0, 0, "xi", Some QSTZ_e184);
  (33, 47, 0, 0, "xi", Some QSTZ_e182);
  (33, 48, 0, 0, "xi", Some QSTZ_e180);
  (33, 52, 0, 0, "xi", Some (cD (cN 1) (cR (cN 2))));
  (33, 53, 0, 0, "xi", Some QSTZ_e186);
  (33, 55, 0, 0, "xi", Some (cD (cN 1) (cR (cN 2))));
  (33, 56, 0, 0, "xi", Some QSTZ_e186);
  (34, 45, 0, 0, "xi", Some QSTZ_e187);
  (34, 46, 0, 0, "xi", Some QSTZ_e188);
  (34, 47, 0, 0, "xi", Some QSTZ_e186);
  (34, 48, 0, 0, "xi", Some QSTZ_e156);
  (34, 53, 0, 0, "xi", Some QSTZ_e192);
  (34, 54, 0, 0, "xi", Some (cD (cN 1) (cR (cN 2))));
  (34, 56, 0, 0, "xi", Some QSTZ_e192);
  (34, 57, 0, 0, "xi", Some (cD (cN 1) (cR (cN 2))));
  (35, 46, 0, 0, "xi", Some QSTZ_e193);
  (35, 47, 0, 0, "xi", Some QSTZ_e197);
  (35, 48, 0, 0, "xi", Some QSTZ_e180);
  (35, 52, 0, 0, "xi", Some (cD (cN 1) (cR (cN 2))));
  (35, 53, 0, 0, "xi", Some QSTZ_e186);
  (35, 55, 0, 0, "xi", Some QSTZ_e45);
  (35, 56, 0, 0, "xi", Some QSTZ_e185);
  (36, 46, 0, 0, "xi", Some QSTZ_e194);
  (36, 47, 0, 0, "xi", Some QSTZ_e185);
  (36, 48, 0, 0, "xi", Some QSTZ_e156);
  (36, 53, 0, 0, "xi", Some QSTZ_e192);
  (36, 54, 0, 0, "xi", Some (cD (cN 1) (cR (cN 2))));
  (36, 56, 0, 0, "xi", Some QSTZ_e189);
  (36, 57, 0, 0, "xi", Some QSTZ_e45);
  (37, 47, 0, 0, "xi", Some QSTZ_e145);
  (37, 48, 0, 0, "xi", Some QSTZ_e144);
  (37, 55, 0, 0, "xi", Some (cN 1));
  (37, 56, 0, 0, "xi", Some QSTZ_e156);
  (38, 47, 0, 0, "xi", Some QSTZ_e150);
  (38, 48, 0, 0, "xi", Some QSTZ_e149);
  (38, 56, 0, 0, "xi", Some QSTZ_e145);
  (38, 57, 0, 0, "xi", Some (cN 1));
  (39, 49, 0, 0, "xi", Some QSTZ_e198);
  (39, 52, 0, 0, "xi", Some QSTZ_e198);
  (39, 55, 0, 0, "xi", Some QSTZ_e198);
  (40, 49, 0, 0, "xi", Some QSTZ_e199);
  (40, 50, 0, 0, "xi", Some QSTZ_e200);
  (40, 52, 0, 0, "xi", Some QSTZ_e199);
  (40, 53, 0, 0, "xi", Some QSTZ_e200);
  (40, 55, 0, 0, "xi", Some QSTZ_e199);
  (40, 56, 0, 0, "xi", Some QSTZ_e200);
  (41, 50, 0, 0, "xi", Some QSTZ_e201);
  (41, 51, 0, 0, "xi", Some QSTZ_e202);
  (41, 53, 0, 0, "xi", Some QSTZ_e201);
  (41, 54, 0, 0, "xi", Some QSTZ_e202);
  (41, 56, 0, 0, "xi", Some QSTZ_e201);
  (41, 57, 0, 0, "xi", Some QSTZ_e202);
  (42, 51, 0, 0, "xi", Some QSTZ_e203);
  (42, 54, 0, 0, "xi", Some QSTZ_e203);
  (42, 57, 0, 0, "xi", Some QSTZ_e203);
  (43, 58, 0, 0, "xi", Some (cN 1));
  (43, 59, 0, 0, "xi", Some (cN 1));
  (44, 58, 0, 0, "xi", Some QSTZ_e45);
  (44, 59, 0, 0, "xi", Some QSTZ_e45);
  (44, 60, 0, 0, "xi", Some (cD (cN 1) (cR (cN 2))));
  (44, 61, 0, 0, "xi", Some (cD (cN 1) (cR (cN 2))));
  (45, 58, 0, 0, "xi", Some QSTZ_e53);
  (45, 59, 0, 0, "xi", Some QSTZ_e53);
  (45, 60, 0, 0, "xi", Some QSTZ_e53);
  (45, 61, 0, 0, "xi", Some QSTZ_e53);
  (45, 62, 0, 0, "xi", Some QSTZ_e53);
  (45, 63, 0, 0, "xi", Some QSTZ_e53);
  (46, 58, 0, 0, "xi", Some (cD (cN 1) (cR (cN 6))));
  (46, 59, 0, 0, "xi", Some (cD (cN 1) (cR (cN 6))));
  (46, 60, 0, 0, "xi", Some (cO (cR (cQ 2 3))));
  (46, 61, 0, 0, "xi", Some (cO (cR (cQ 2 3))));
  (46, 62, 0, 0, "xi", Some (cD (cN 1) (cR (cN 6))));
  (46, 63, 0, 0, "xi", Some (cD (cN 1) (cR (cN 6))));
  (47, 60, 0, 0, "xi", Some (cD (cN 1) (cR (cN 2))));
  (47, 61, 0, 0, "xi", Some (cD (cN 1) (cR (cN 2))));
  (47, 62, 0, 0, "xi", Some QSTZ_e45);
  (47, 63, 0, 0, "xi", Some QSTZ_e45);
  (48, 62, 0, 0, "xi", Some (cN 1));
  (48, 63, 0, 0, "xi", Some (cN 1));
  (49, 58, 0, 0, "xi", Some QSTZ_e159);
  (49, 60, 0, 0, "xi", Some QSTZ_e159);
  (50, 58, 0, 0, "xi", Some QSTZ_e162);
  (50, 59, 0, 0, "xi", Some QSTZ_e163);
  (50, 60, 0, 0, "xi", Some QSTZ_e162);
  (50, 61, 0, 0, "xi", Some QSTZ_e163);
  (51, 59, 0, 0, "xi", Some QSTZ_e170);
  (51, 61, 0, 0, "xi", Some QSTZ_e170);
  (52, 58, 0, 0, "xi", Some QSTZ_e204);
  (52, 62, 0, 0, "xi", Some QSTZ_e159);
  (53, 58, 0, 0, "xi", Some QSTZ_e78);
  (53, 59, 0, 0, "xi", Some QSTZ_e205);
  (53, 62, 0, 0, "xi", Some QSTZ_e162);
  (53, 63, 0, 0, "xi", Some QSTZ_e163);
  (54, 59, 0, 0, "xi", Some QSTZ_e206);
  (54, 63, 0, 0, "xi", Some QSTZ_e170);
  (55, 60, 0, 0, "xi", Some QSTZ_e204);
  (55, 62, 0, 0, "xi", Some QSTZ_e204);
  (56, 60, 0, 0, "xi", Some QSTZ_e78);
  (56, 61, 0, 0, "xi", Some QSTZ_e205);
  (56, 62, 0, 0, "xi", Some QSTZ_e78);
  (56, 63, 0, 0, "xi", Some QSTZ_e205);
  (57, 61, 0, 0, "xi", Some QSTZ_e206);
  (57, 63, 0, 0, "xi", Some QSTZ_e206);
  (58, 64, 0, 0, "xi", Some QSTZ_e179);
  (59, 64, 0, 0, "xi", Some QSTZ_e181);
  (60, 64, 0, 0, "xi", Some QSTZ_e144);
  (61, 64, 0, 0, "xi", Some QSTZ_e149);
  (62, 64, 0, 0, "xi", Some QSTZ_e179);
  (63, 64, 0, 0, "xi", Some QSTZ_e181)].
(** /repo/c++/symmetry/sym-QSTZ-impl.hpp, make_matrix  *)
Definition qstz_m0_d : list diag_line := [
  (1, 0, "zeta", Some (cN 0));
  (2, 0, "zeta", Some (cN 1));
  (3, 0, "zeta", Some (cN 1));
  (4, 0, "zeta", Some (cN 1));
  (5, 0, "zeta", Some (cN 1));
  (6, 0, "zeta", Some (cN 1));
  (7, 0, "zeta", Some (cN 1));
  (8, 0, "zeta", Some (cN 2));
  (9, 0, "zeta", Some (cN 2));
  (10, 0, "zeta", Some (cN 2));
  (11, 0, "zeta", Some (cN 2));
  (12, 0, "zeta", Some (cN 2));
  (13, 0, "zeta", Some (cN 2));
  (14, 0, "zeta", Some (cN 2));
  (15, 0, "zeta", Some (cN 2));
  (16, 0, "zeta", Some (cN 2));
  (17, 0, "zeta", Some (cN 2));
  (18, 0, "zeta", Some (cN 2));
  (19, 0, "zeta", Some (cN 2));
  (20, 0, "zeta", Some (cN 2));
  (21, 0, "zeta", Some (cN 2));
  (22, 0, "zeta", Some (cN 2));
  (23, 0, "zeta", Some (cN 3));
  (24, 0, "zeta", Some (cN 3));
  (25, 0, "zeta", Some (cN 3));
  (26, 0, "zeta", Some (cN 3));
  (27, 0, "zeta", Some (cN 3));
  (28, 0, "zeta", Some (cN 3));
  (29, 0, "zeta", Some (cN 3));
  (30, 0, "zeta", Some (cN 3));
  (31, 0, "zeta", Some (cN 3));
  (32, 0, "zeta", Some (cN 3));
  (33, 0, "zeta", Some (cN 3));
  (34, 0, "zeta", Some (cN 3));
  (35, 0, "zeta", Some (cN 3));
  (36, 0, "zeta", Some (cN 3));
  (37, 0, "zeta", Some (cN 3));
  (38, 0, "zeta", Some (cN 3));
  (39, 0, "zeta", Some (cN 3));
  (40, 0, "zeta", Some (cN 3));
  (41, 0, "zeta", Some (cN 3));
  (42, 0, "zeta", Some (cN 3));
  (43, 0, "zeta", Some (cN 4));
  (44, 0, "zeta", Some (cN 4));
  (45, 0, "zeta", Some (cN 4));
  (46, 0, "zeta", Some (cN 4));
  (47, 0, "zeta", Some (cN 4));
  (48, 0, "zeta", Some (cN 4));
  (49, 0, "zeta", Some (cN 4));
  (50, 0, "zeta", Some (cN 4));
  (51, 0, "zeta", Some (cN 4));
  (52, 0, "zeta", Some (cN 4));
  (53, 0, "zeta", Some (cN 4));
  (54, 0, "zeta", Some (cN 4));
  (55, 0, "zeta", Some (cN 4));
  (56, 0, "zeta", Some (cN 4));
  (57, 0, "zeta", Some (cN 4));
  (58, 0, "zeta", Some (cN 5));
  (59, 0, "zeta", Some (cN 5));
  (60, 0, "zeta", Some (cN 5));
  (61, 0, "zeta", Some (cN 5));
  (62, 0, "zeta", Some (cN 5));
  (63, 0, "zeta", Some (cN 5));
  (64, 0, "zeta", Some (cN 6))].
(** /repo/c++/symmetry/sym-QSTZ-impl.hpp, make_matrix  *)
Definition qstz_m0_f : list dof_line := [
  ].
Definition coef_qstz : coef_set := mk_coef "QSTZ" 3%nat sym_QSTZ {| tb_In := qstz_In; tb_QN := qstz_QN |}
  [qstz_t6; qstz_t7; qstz_t8; qstz_t9; qstz_t10; qstz_t11]
  [qstz_t0; qstz_t1; qstz_t2; qstz_t3; qstz_t4; qstz_t5; qstz_t12; qstz_t13; qstz_t14]
  [mk_mode "default" qstz_m0_o qstz_m0_d qstz_m0_f].
