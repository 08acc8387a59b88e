(** Generated by gen/gen_coef.py from /repo/c++/symmetry/{sym-SPSU2-impl.hpp, nrg-recalc-SPSU2.hpp, coefnew}. Do not edit. *)
From Coq Require Import List ZArith String.
From Verif Require Import Base Invar_model Symmetry_model Symmetry_tables Coef_model.
Import ListNotations.
Local Open Scope string_scope.
Local Open Scope list_scope.
Local Open Scope Z_scope.

Definition SPSU2_e0 := (cD (cM (cN (-2)) (cR (cM (cH 0) (cA (cN 1) (cH 0))))) (cA (cN 1) (cM (cN 2) (cH 0)))).
Definition SPSU2_e1 := (cD (cN 1) (cA (cN 1) (cM (cN 2) (cH 0)))).
Definition SPSU2_e2 := (cD (cN 1) (cB (cN (-1)) (cM (cN 2) (cH 0)))).
Definition SPSU2_e3 := (cO (cD (cN 1) (cR (cA (cN 1) (cD (cN 1) (cA (cN 1) (cM (cN 2) (cH 0)))))))).
Definition SPSU2_e4 := (cR (cA (cN 1) (cD (cN 1) (cM (cN 2) (cH 0))))).
Definition SPSU2_e5 := (cD (cN 1) (cR (cD (cM (cH 0) (cA (cN 1) (cM (cN 2) (cH 0)))) (cA (cA (cN (-1)) (cH 0)) (cM (cN 2) (cW (cH 0) 4)))))).
Definition SPSU2_e6 := (cD (cN 1) (cR (cM (cA (cN 1) (cH 0)) (cA (cN 1) (cM (cN 2) (cH 0)))))).
Definition SPSU2_e7 := (cO (cD (cN 1) (cR (cM (cH 0) (cA (cN 1) (cM (cN 2) (cH 0))))))).
Definition SPSU2_e8 := (cD (cA (cN 3) (cM (cN 2) (cH 0))) (cR (cD (cM (cA (cN 1) (cH 0)) (cA (cN 3) (cM (cM (cN 4) (cH 0)) (cA (cN 2) (cH 0))))) (cH 0)))).
Definition SPSU2_e9 := (cR (cB (cA (cN 1) (cD (cN 1) (cA (cN 1) (cH 0)))) (cD (cN 2) (cA (cN 1) (cM (cN 2) (cH 0)))))).
Definition SPSU2_e10 := (cD (cA (cO (cR (cM (cM (cA (cN 1) (cH 0)) (cA (cN 1) (cM (cN 2) (cH 0)))) (cA (cN 3) (cM (cN 2) (cH 0)))))) (cM (cM (cN 2) (cH 0)) (cR (cA (cA (cN 2) (cH 0)) (cD (cN 1) (cA (cN 1) (cM (cN 2) (cH 0)))))))) (cM (cA (cN 1) (cH 0)) (cR (cA (cN 3) (cM (cN 2) (cH 0)))))).
Definition SPSU2_e11 := (cD (cN 1) (cR (cM (cH 0) (cA (cN 1) (cM (cN 2) (cH 0)))))).
Definition SPSU2_e12 := (cD (cA (cD (cN 1) (cR (cD (cM (cM (cH 0) (cA (cN 1) (cH 0))) (cA (cN 1) (cM (cN 2) (cH 0)))) (cA (cN (-1)) (cM (cN 2) (cH 0)))))) (cD (cN 1) (cR (cD (cM (cH 0) (cA (cN 1) (cH 0))) (cA (cN (-1)) (cM (cN 4) (cW (cH 0) 4))))))) (cN 2)).
Definition SPSU2_e13 := (cO (cM (cR (cN 2)) (cR (cD (cH 0) (cA (cN 1) (cM (cN 2) (cH 0))))))).
Definition SPSU2_e14 := (cD (cM (cN 2) (cA (cN 1) (cH 0))) (cR (cA (cA (cN 2) (cM (cN 6) (cH 0))) (cM (cN 4) (cW (cH 0) 4))))).
Definition SPSU2_e15 := (cM (cR (cN 2)) (cR (cD (cH 0) (cA (cN 1) (cM (cN 2) (cH 0)))))).
Definition SPSU2_e16 := (cO (cD (cN 1) (cR (cB (cN 1) (cD (cN 1) (cM (cN 2) (cA (cN 1) (cH 0)))))))).
Definition SPSU2_e17 := (cD (cM (cH 0) (cA (cN 3) (cM (cN 2) (cH 0)))) (cR (cM (cM (cH 0) (cA (cN 1) (cH 0))) (cA (cN 3) (cM (cM (cN 4) (cH 0)) (cA (cN 2) (cH 0))))))).
Definition SPSU2_e18 := (cO (cD (cN 1) (cR (cM (cA (cN 1) (cH 0)) (cA (cN 1) (cM (cN 2) (cH 0))))))).
Definition SPSU2_e19 := (cD (cA (cA (cN (-1)) (cH 0)) (cM (cN 2) (cW (cH 0) 4))) (cR (cM (cM (cH 0) (cA (cN 1) (cH 0))) (cA (cN (-1)) (cM (cN 4) (cW (cH 0) 4)))))).
Definition SPSU2_e20 := (cA (cA (cR (cD (cM (cH 0) (cA (cN 1) (cM (cN 2) (cH 0)))) (cM (cW (cA (cN 1) (cH 0)) 6) (cA (cN 3) (cM (cN 2) (cH 0)))))) (cR (cD (cH 0) (cM (cW (cA (cN 1) (cH 0)) 6) (cA (cN 3) (cM (cM (cN 4) (cH 0)) (cA (cN 2) (cH 0)))))))) (cR (cB (cA (cN 1) (cD (cN 1) (cA (cN 1) (cH 0)))) (cD (cN 6) (cA (cN 3) (cM (cN 2) (cH 0))))))).
Definition SPSU2_e21 := (cM (cQ (-1) 2) (cR (cB (cN 2) (cD (cN 1) (cA (cN 1) (cH 0)))))).
Definition SPSU2_e22 := (cO (cD (cN 1) (cR (cN 2)))).
Definition SPSU2_e23 := (cD (cH 0) (cM (cR (cN 2)) (cR (cM (cH 0) (cA (cN 1) (cH 0)))))).
Definition SPSU2_e24 := (cD (cN 1) (cR (cA (cN 1) (cD (cN 1) (cA (cN 1) (cM (cN 2) (cH 0))))))).
Definition SPSU2_e25 := (cM (cQ (-1) 2) (cR (cA (cN 2) (cD (cN 1) (cA (cN 1) (cH 0)))))).
Definition SPSU2_e26 := (cO (cD (cH 0) (cM (cR (cN 2)) (cR (cM (cH 0) (cA (cN 1) (cH 0))))))).
Definition SPSU2_e27 := (cD (cR (cA (cN 2) (cD (cN 1) (cA (cN 1) (cH 0))))) (cN 2)).
Definition SPSU2_e28 := (cD (cR (cA (cN 2) (cD (cN 1) (cH 0)))) (cN 2)).
Definition SPSU2_e29 := (cO (cD (cR (cA (cN 2) (cD (cN 1) (cH 0)))) (cR (cN 2)))).
Definition SPSU2_e30 := (cO (cD (cR (cA (cN 1) (cD (cN 1) (cH 0)))) (cR (cN 2)))).
Definition SPSU2_e31 := (cM (cQ (-1) 2) (cR (cB (cN 2) (cD (cN 1) (cH 0))))).
Definition SPSU2_e32 := (cD (cR (cA (cN 1) (cD (cN 1) (cH 0)))) (cR (cN 2))).
Definition SPSU2_e33 := (cD (cR (cB (cN 2) (cD (cN 1) (cH 0)))) (cN 2)).
Definition SPSU2_e34 := (cD (cR (cA (cN (-1)) (cW (cH 0) 4))) (cH 0)).
Definition SPSU2_e35 := (cD (cR (cB (cN 1) (cD (cN 2) (cA (cN 1) (cM (cN 2) (cH 0)))))) (cH 0)).
Definition SPSU2_e36 := (cA (cB (cN 1) (cD (cN 1) (cH 0))) (cD (cN 1) (cA (cN 1) (cH 0)))).
Definition SPSU2_e37 := (cD (cN 1) (cA (cN 1) (cH 0))).
Definition SPSU2_e38 := (cO (cD (cA (cN 3) (cM (cN 2) (cH 0))) (cM (cA (cN 1) (cH 0)) (cR (cA (cN 3) (cM (cM (cN 4) (cH 0)) (cA (cN 2) (cH 0)))))))).
Definition SPSU2_e39 := (cD (cR (cM (cH 0) (cA (cN 2) (cH 0)))) (cA (cN 1) (cH 0))).
Definition SPSU2_e40 := (cD (cR (cA (cN (-3)) (cM (cM (cN 4) (cH 0)) (cA (cN 1) (cH 0))))) (cA (cN 1) (cM (cN 2) (cH 0)))).
Definition SPSU2_e41 := (cO (cD (cR (cA (cN 3) (cM (cM (cN 4) (cH 0)) (cA (cN 2) (cH 0))))) (cM (cA (cN 1) (cH 0)) (cA (cN 1) (cM (cN 2) (cH 0)))))).
Definition SPSU2_e42 := (cD (cN 1) (cA (cA (cN 1) (cM (cN 3) (cH 0))) (cM (cN 2) (cW (cH 0) 4)))).
Definition SPSU2_e43 := (cO (cD (cN 1) (cA (cN 1) (cH 0)))).
Definition SPSU2_e44 := (cD (cN 1) (cA (cH 0) (cM (cN 2) (cW (cH 0) 4)))).
Definition SPSU2_e45 := (cO (cR (cD (cH 0) (cA (cN 1) (cM (cN 2) (cH 0)))))).
Definition SPSU2_e46 := (cD (cA (cN 1) (cH 0)) (cR (cM (cA (cN 1) (cH 0)) (cA (cN 1) (cM (cN 2) (cH 0)))))).
Definition SPSU2_e47 := (cR (cD (cH 0) (cA (cN 1) (cM (cN 2) (cH 0))))).
Definition SPSU2_e48 := (cO (cR (cB (cN 1) (cD (cN 1) (cM (cN 2) (cH 0)))))).
Definition SPSU2_e49 := (cO (cD (cN 1) (cR (cA (cN 2) (cD (cN 2) (cH 0)))))).
Definition SPSU2_e50 := (cR (cA (cN 1) (cD (cN 1) (cA (cN 2) (cM (cN 2) (cH 0)))))).
Definition SPSU2_e51 := (cO (cD (cA (cN 1) (cH 0)) (cR (cM (cA (cN 1) (cH 0)) (cA (cN 1) (cM (cN 2) (cH 0))))))).
Definition SPSU2_e52 := (cR (cB (cN 1) (cD (cN 1) (cM (cN 2) (cH 0))))).
Definition SPSU2_e53 := (cD (cN 1) (cR (cA (cN 2) (cD (cN 2) (cH 0))))).
Definition SPSU2_e54 := (cM (cQ (-1) 2) (cR (cA (cN 4) (cD (cN 2) (cA (cN 1) (cH 0)))))).
Definition SPSU2_e55 := (cO (cD (cH 0) (cR (cM (cH 0) (cA (cN 1) (cM (cN 2) (cH 0))))))).
Definition SPSU2_e56 := (cM (cN (-2)) (cR (cD (cA (cN (-1)) (cW (cH 0) 4)) (cA (cN (-1)) (cM (cN 4) (cW (cH 0) 4)))))).
Definition SPSU2_e57 := (cD (cR (cN 3)) (cR (cA (cN (-1)) (cM (cN 4) (cW (cH 0) 4))))).
Definition SPSU2_e58 := (cO (cD (cR (cA (cN (-3)) (cM (cM (cN 4) (cH 0)) (cA (cN 1) (cH 0))))) (cA (cN 1) (cM (cN 2) (cH 0))))).
Definition SPSU2_e59 := (cD (cN 2) (cA (cN 1) (cM (cN 2) (cH 0)))).
Definition SPSU2_e60 := (cD (cM (cN (-2)) (cA (cN 2) (cH 0))) (cR (cD (cM (cM (cA (cN 2) (cH 0)) (cA (cN 1) (cM (cN 2) (cH 0)))) (cA (cN 3) (cM (cN 2) (cH 0)))) (cH 0)))).
Definition SPSU2_e61 := (cD (cR (cN 3)) (cR (cA (cN 3) (cM (cM (cN 4) (cH 0)) (cA (cN 2) (cH 0)))))).
Definition SPSU2_e62 := (cO (cD (cR (cN 3)) (cR (cA (cN (-1)) (cM (cN 4) (cW (cH 0) 4)))))).
Definition SPSU2_e63 := (cD (cM (cN (-2)) (cA (cN (-1)) (cW (cH 0) 4))) (cR (cA (cB (cN 1) (cM (cN 5) (cW (cH 0) 4))) (cM (cN 4) (cW (cH 0) 8))))).
Definition SPSU2_e64 := (cD (cN (-2)) (cA (cN 1) (cM (cN 2) (cH 0)))).
Definition SPSU2_e65 := (cO (cD (cR (cN 3)) (cR (cA (cN 3) (cM (cM (cN 4) (cH 0)) (cA (cN 2) (cH 0))))))).
Definition SPSU2_e66 := (cB (cB (cB (cM (cN (-3)) (cR (cD (cM (cH 0) (cA (cN 1) (cM (cN 2) (cH 0)))) (cM (cA (cN 2) (cH 0)) (cW (cA (cN 3) (cM (cN 2) (cH 0))) 6))))) (cD (cM (cN 3) (cR (cD (cM (cH 0) (cA (cN 1) (cM (cN 2) (cH 0)))) (cM (cA (cN 2) (cH 0)) (cW (cA (cN 3) (cM (cN 2) (cH 0))) 6))))) (cA (cN 1) (cH 0)))) (cR (cD (cM (cH 0) (cA (cN 1) (cM (cN 2) (cH 0)))) (cA (cA (cN 6) (cM (cN 7) (cH 0))) (cM (cN 2) (cW (cH 0) 4)))))) (cD (cM (cN 3) (cR (cD (cH 0) (cA (cA (cA (cN 6) (cM (cN 19) (cH 0))) (cM (cN 16) (cW (cH 0) 4))) (cM (cN 4) (cW (cH 0) 6)))))) (cA (cA (cN 3) (cM (cN 5) (cH 0))) (cM (cN 2) (cW (cH 0) 4))))).
Definition SPSU2_e67 := (cD (cN 1) (cM (cN 2) (cR (cA (cN 1) (cD (cN 1) (cA (cN 1) (cM (cN 2) (cH 0)))))))).
Definition SPSU2_e68 := (cM (cQ (-1) 2) (cR (cB (cN 3) (cD (cN 3) (cM (cN 2) (cA (cN 1) (cH 0))))))).
Definition SPSU2_e69 := (cD (cH 0) (cM (cN 2) (cR (cM (cH 0) (cA (cN 1) (cH 0)))))).
Definition SPSU2_e70 := (cD (cR (cB (cN 2) (cD (cN 1) (cA (cN 1) (cH 0))))) (cN 2)).
Definition SPSU2_e71 := (cD (cH 0) (cM (cM (cN 2) (cR (cN 3))) (cR (cM (cH 0) (cA (cN 1) (cH 0)))))).
Definition SPSU2_e72 := (cD (cR (cB (cN 2) (cD (cN 1) (cA (cN 1) (cH 0))))) (cM (cN 2) (cR (cN 3)))).
Definition SPSU2_e73 := (cD (cB (cN 1) (cM (cN 2) (cH 0))) (cM (cR (cN 6)) (cR (cA (cA (cN (-1)) (cH 0)) (cM (cN 2) (cW (cH 0) 4)))))).
Definition SPSU2_e74 := (cD (cA (cN 3) (cM (cN 2) (cH 0))) (cM (cN 2) (cR (cA (cA (cN 6) (cM (cN 10) (cH 0))) (cM (cN 4) (cW (cH 0) 4)))))).
Definition SPSU2_e75 := (cD (cR (cA (cN 2) (cD (cN 1) (cA (cN 1) (cH 0))))) (cM (cN 2) (cR (cN 6)))).
Definition SPSU2_e76 := (cO (cD (cM (cH 0) (cA (cM (cN 3) (cR (cD (cA (cN 1) (cM (cN 2) (cH 0))) (cA (cA (cM (cN 3) (cH 0)) (cM (cN 5) (cW (cH 0) 4))) (cM (cN 2) (cW (cH 0) 6)))))) (cM (cN 2) (cR (cB (cA (cN 1) (cD (cN 1) (cA (cN 1) (cH 0)))) (cD (cN 6) (cA (cN 3) (cM (cN 2) (cH 0))))))))) (cR (cA (cQ 9 2) (cM (cM (cN 6) (cH 0)) (cA (cN 2) (cH 0))))))).
Definition SPSU2_e77 := (cD (cA (cN 3) (cM (cN 2) (cH 0))) (cR (cA (cA (cN 9) (cM (cN 15) (cH 0))) (cM (cN 6) (cW (cH 0) 4))))).
Definition SPSU2_e78 := (cD (cA (cN 2) (cH 0)) (cM (cR (cN 3)) (cR (cM (cA (cN 1) (cH 0)) (cA (cN 2) (cH 0)))))).
Definition SPSU2_e79 := (cD (cR (cB (cN 3) (cD (cN 3) (cM (cN 2) (cA (cN 1) (cH 0)))))) (cN 2)).
Definition SPSU2_e80 := (cM (cQ (-1) 2) (cR (cN 3))).
Definition SPSU2_e81 := (cD (cM (cQ (-1) 2) (cH 0)) (cM (cR (cN 3)) (cR (cM (cH 0) (cA (cN 1) (cH 0)))))).
Definition SPSU2_e82 := (cD (cM (cQ (-1) 2) (cR (cB (cN 2) (cD (cN 1) (cA (cN 1) (cH 0)))))) (cR (cN 3))).
Definition SPSU2_e83 := (cO (cD (cN 1) (cR (cN 6)))).
Definition SPSU2_e84 := (cD (cR (cA (cA (cN (-1)) (cH 0)) (cM (cN 2) (cW (cH 0) 4)))) (cM (cR (cN 6)) (cA (cN 1) (cH 0)))).
Definition SPSU2_e85 := (cD (cM (cQ (-1) 2) (cR (cA (cN 2) (cD (cN 1) (cA (cN 1) (cH 0)))))) (cR (cN 6))).
Definition SPSU2_e86 := (cD (cM (cH 0) (cA (cM (cN 3) (cR (cD (cA (cN 1) (cM (cN 2) (cH 0))) (cA (cA (cM (cN 3) (cH 0)) (cM (cN 5) (cW (cH 0) 4))) (cM (cN 2) (cW (cH 0) 6)))))) (cM (cN 2) (cR (cB (cA (cN 1) (cD (cN 1) (cA (cN 1) (cH 0)))) (cD (cN 6) (cA (cN 3) (cM (cN 2) (cH 0))))))))) (cR (cA (cQ 9 2) (cM (cM (cN 6) (cH 0)) (cA (cN 2) (cH 0)))))).
Definition SPSU2_e87 := (cD (cB (cN (-3)) (cM (cN 2) (cH 0))) (cR (cA (cA (cN 9) (cM (cN 15) (cH 0))) (cM (cN 6) (cW (cH 0) 4))))).
Definition SPSU2_e88 := (cO (cD (cA (cN 2) (cH 0)) (cM (cR (cN 3)) (cR (cM (cA (cN 1) (cH 0)) (cA (cN 2) (cH 0))))))).
Definition SPSU2_e89 := (cO (cD (cH 0) (cM (cR (cN 3)) (cR (cM (cH 0) (cA (cN 1) (cH 0))))))).
Definition SPSU2_e90 := (cO (cD (cR (cB (cN 2) (cD (cN 1) (cA (cN 1) (cH 0))))) (cR (cN 3)))).
Definition SPSU2_e91 := (cO (cD (cR (cA (cN 2) (cD (cN 1) (cA (cN 1) (cH 0))))) (cR (cN 6)))).
Definition SPSU2_e92 := (cD (cM (cQ (-1) 2) (cR (cA (cN 2) (cD (cN 1) (cH 0))))) (cR (cN 2))).
Definition SPSU2_e93 := (cD (cR (cA (cN 3) (cD (cN 3) (cM (cN 2) (cH 0))))) (cN 2)).
Definition SPSU2_e94 := (cM (cQ (-1) 2) (cR (cA (cN 2) (cD (cN 1) (cH 0))))).
Definition SPSU2_e95 := (cM (cQ (-1) 2) (cR (cA (cN 1) (cD (cN 1) (cH 0))))).
Definition SPSU2_e96 := (cD (cM (cQ (-1) 2) (cR (cA (cN 2) (cD (cN 1) (cH 0))))) (cR (cN 3))).
Definition SPSU2_e97 := (cD (cM (cQ (-1) 2) (cR (cA (cN 1) (cD (cN 1) (cH 0))))) (cR (cN 3))).
Definition SPSU2_e98 := (cD (cR (cB (cN 1) (cD (cN 1) (cM (cN 2) (cH 0))))) (cN 2)).
Definition SPSU2_e99 := (cD (cR (cB (cN 2) (cD (cN 1) (cH 0)))) (cM (cN 2) (cR (cN 6)))).
Definition SPSU2_e100 := (cM (cR (cQ 2 3)) (cR (cA (cN 1) (cD (cN 1) (cH 0))))).
Definition SPSU2_e101 := (cR (cA (cQ 1 3) (cD (cN 1) (cM (cN 2) (cH 0))))).
Definition SPSU2_e102 := (cD (cR (cD (cA (cN (-1)) (cH 0)) (cH 0))) (cR (cN 3))).
Definition SPSU2_e103 := (cD (cR (cB (cN 2) (cD (cN 1) (cH 0)))) (cR (cN 3))).
Definition SPSU2_e104 := (cM (cQ (-1) 2) (cR (cA (cN 3) (cD (cN 3) (cM (cN 2) (cH 0)))))).
Definition SPSU2_e105 := (cD (cR (cA (cN 2) (cD (cN 1) (cH 0)))) (cM (cN 2) (cR (cN 3)))).
Definition SPSU2_e106 := (cD (cR (cA (cN 1) (cD (cN 1) (cH 0)))) (cM (cN 2) (cR (cN 3)))).
Definition SPSU2_e107 := (cD (cM (cQ (-1) 2) (cR (cB (cN 2) (cD (cN 1) (cH 0))))) (cR (cN 6))).
Definition SPSU2_e108 := (cO (cM (cR (cQ 2 3)) (cR (cA (cN 1) (cD (cN 1) (cH 0)))))).
Definition SPSU2_e109 := (cO (cD (cR (cA (cN 2) (cD (cN 3) (cH 0)))) (cR (cN 6)))).
Definition SPSU2_e110 := (cO (cD (cR (cD (cA (cN (-1)) (cH 0)) (cH 0))) (cR (cN 3)))).
Definition SPSU2_e111 := (cO (cD (cR (cB (cN 2) (cD (cN 1) (cH 0)))) (cR (cN 3)))).
Definition SPSU2_e112 := (cD (cR (cA (cN 2) (cD (cN 1) (cH 0)))) (cR (cN 3))).
Definition SPSU2_e113 := (cD (cR (cA (cN 1) (cD (cN 1) (cH 0)))) (cR (cN 3))).
Definition SPSU2_e114 := (cO (cD (cR (cB (cN 2) (cD (cN 1) (cH 0)))) (cR (cN 6)))).
Definition SPSU2_e115 := (cR (cA (cA (cN 1) (cD (cN 6) (cB (cN 1) (cM (cN 2) (cH 0))))) (cD (cN 3) (cH 0)))).
Definition SPSU2_e116 := (cD (cR (cB (cN 3) (cD (cN 3) (cH 0)))) (cR (cM (cH 0) (cA (cN (-1)) (cM (cN 2) (cH 0)))))).
Definition SPSU2_e117 := (cO (cD (cR (cN 3)) (cR (cM (cH 0) (cA (cN (-1)) (cM (cN 2) (cH 0))))))).
Definition SPSU2_e118 := (cD (cA (cA (cN (-4)) (cH 0)) (cM (cN 2) (cW (cH 0) 4))) (cR (cM (cM (cH 0) (cA (cN 1) (cH 0))) (cA (cN (-1)) (cM (cN 4) (cW (cH 0) 4)))))).
Definition SPSU2_e119 := (cD (cR (cA (cA (cB (cN (-2)) (cD (cN 3) (cH 0))) (cM (cN 12) (cH 0))) (cM (cN 8) (cW (cH 0) 4)))) (cA (cA (cN 1) (cM (cN 3) (cH 0))) (cM (cN 2) (cW (cH 0) 4)))).
Definition SPSU2_e120 := (cD (cB (cM (cN (-3)) (cR (cD (cA (cN (-1)) (cM (cN 2) (cH 0))) (cA (cN 3) (cM (cM (cN 4) (cH 0)) (cA (cN 2) (cH 0))))))) (cM (cM (cH 0) (cA (cN (-1)) (cM (cN 2) (cH 0)))) (cB (cR (cD (cA (cN 1) (cM (cN 2) (cH 0))) (cA (cN (-3)) (cM (cM (cN 4) (cH 0)) (cA (cN 1) (cH 0)))))) (cR (cD (cA (cN (-1)) (cM (cN 2) (cH 0))) (cA (cN 3) (cM (cM (cN 4) (cH 0)) (cA (cN 2) (cH 0))))))))) (cM (cH 0) (cR (cA (cN 1) (cH 0))))).
Definition SPSU2_e121 := (cD (cA (cN (-3)) (cM (cH 0) (cA (cN 3) (cM (cN 2) (cH 0))))) (cR (cM (cM (cM (cH 0) (cA (cN 1) (cH 0))) (cA (cN 1) (cM (cN 2) (cH 0)))) (cA (cN 3) (cM (cN 2) (cH 0)))))).
Definition SPSU2_e122 := (cD (cR (cN 3)) (cR (cM (cA (cN 1) (cH 0)) (cA (cN 3) (cM (cN 2) (cH 0)))))).
Definition SPSU2_e123 := (cO (cD (cR (cD (cA (cN 6) (cM (cN 3) (cH 0))) (cA (cN 3) (cM (cN 2) (cH 0))))) (cA (cN 1) (cH 0)))).
Definition SPSU2_e124 := (cD (cA (cN 5) (cM (cN 2) (cH 0))) (cR (cD (cM (cM (cA (cN 1) (cH 0)) (cA (cN 3) (cM (cN 2) (cH 0)))) (cA (cN 5) (cM (cN 2) (cH 0)))) (cH 0)))).
Definition SPSU2_e125 := (cD (cN 1) (cR (cD (cM (cH 0) (cA (cN 1) (cM (cN 2) (cH 0)))) (cA (cA (cN (-3)) (cH 0)) (cM (cN 2) (cW (cH 0) 4)))))).
Definition SPSU2_e126 := (cO (cD (cR (cA (cA (cN 9) (cM (cN 15) (cH 0))) (cM (cN 6) (cW (cH 0) 4)))) (cA (cA (cN 1) (cM (cN 3) (cH 0))) (cM (cN 2) (cW (cH 0) 4))))).
Definition SPSU2_e127 := (cD (cR (cM (cM (cM (cH 0) (cA (cN 2) (cH 0))) (cA (cN (-1)) (cM (cN 2) (cH 0)))) (cA (cN 3) (cM (cN 2) (cH 0))))) (cM (cA (cN 1) (cH 0)) (cA (cN 1) (cM (cN 2) (cH 0))))).
Definition SPSU2_e128 := (cD (cR (cN 3)) (cM (cR (cM (cH 0) (cA (cN 1) (cH 0)))) (cA (cN 1) (cM (cN 2) (cH 0))))).
Definition SPSU2_e129 := (cD (cM (cM (cN (-4)) (cH 0)) (cA (cN 2) (cH 0))) (cM (cA (cN 1) (cM (cN 2) (cH 0))) (cR (cM (cM (cM (cH 0) (cA (cN 1) (cH 0))) (cA (cN 2) (cH 0))) (cA (cN 3) (cM (cN 2) (cH 0))))))).
Definition SPSU2_e130 := (cR (cD (cM (cH 0) (cA (cN 5) (cM (cN 2) (cH 0)))) (cA (cA (cN 3) (cM (cN 5) (cH 0))) (cM (cN 2) (cW (cH 0) 4))))).
Definition SPSU2_e131 := (cD (cM (cR (cN 3)) (cR (cA (cA (cN 2) (cH 0)) (cD (cN 1) (cA (cN 1) (cM (cN 2) (cH 0))))))) (cM (cW (cA (cN 1) (cH 0)) 3) (cA (cN 3) (cM (cN 2) (cH 0))))).
Definition SPSU2_e132 := (cO (cD (cR (cN 3)) (cR (cM (cA (cN 1) (cH 0)) (cA (cN 3) (cM (cN 2) (cH 0))))))).
Definition SPSU2_e133 := (cD (cN 1) (cR (cA (cN 4) (cD (cN 2) (cH 0))))).
Definition SPSU2_e134 := (cD (cB (cN (-1)) (cH 0)) (cR (cA (cA (cN 2) (cM (cN 6) (cH 0))) (cM (cN 4) (cW (cH 0) 4))))).
Definition SPSU2_e135 := (cO (cR (cD (cA (cN 1) (cH 0)) (cA (cN 2) (cM (cN 4) (cH 0)))))).
Definition SPSU2_e136 := (cO (cD (cN 1) (cR (cA (cN 4) (cD (cN 2) (cH 0)))))).
Definition SPSU2_e137 := (cO (cM (cR (cN 3)) (cR (cD (cH 0) (cA (cN 2) (cM (cN 4) (cH 0))))))).
Definition SPSU2_e138 := (cO (cD (cA (cN 1) (cH 0)) (cM (cR (cN 6)) (cR (cM (cA (cN 1) (cH 0)) (cA (cN 1) (cM (cN 2) (cH 0)))))))).
Definition SPSU2_e139 := (cD (cM (cR (cN 3)) (cA (cN 1) (cH 0))) (cR (cA (cA (cN 2) (cM (cN 6) (cH 0))) (cM (cN 4) (cW (cH 0) 4))))).
Definition SPSU2_e140 := (cO (cD (cH 0) (cM (cR (cN 6)) (cR (cM (cH 0) (cA (cN 1) (cM (cN 2) (cH 0)))))))).
Definition SPSU2_e141 := (cD (cM (cQ (-1) 2) (cR (cB (cN 2) (cD (cN 1) (cH 0))))) (cR (cN 3))).
Definition SPSU2_e142 := (cD (cR (cA (cN 1) (cD (cN 1) (cH 0)))) (cN 2)).
Definition SPSU2_e143 := (cM (cQ (-1) 2) (cR (cD (cH 0) (cA (cN 1) (cH 0))))).
Definition SPSU2_e144 := (cD (cM (cQ (-1) 2) (cN 1)) (cR (cA (cN 3) (cD (cN 3) (cH 0))))).
Definition SPSU2_e145 := (cR (cD (cA (cN 3) (cM (cN 2) (cH 0))) (cA (cN 3) (cM (cN 3) (cH 0))))).
Definition SPSU2_e146 := (cD (cR (cA (cN 6) (cD (cN 3) (cA (cN 1) (cH 0))))) (cN 6)).
Definition SPSU2_e147 := (cD (cN 1) (cR (cA (cN 3) (cD (cN 3) (cH 0))))).
Definition SPSU2_e148 := (cO (cR (cA (cN 1) (cD (cN 1) (cB (cN 1) (cM (cN 2) (cH 0))))))).
Definition SPSU2_e149 := (cD (cM (cR (cQ 2 3)) (cA (cN 1) (cH 0))) (cR (cA (cA (cN (-1)) (cH 0)) (cM (cN 2) (cW (cH 0) 4))))).
Definition SPSU2_e150 := (cD (cM (cR (cQ 2 3)) (cB (cN 1) (cM (cN 2) (cH 0)))) (cR (cA (cN (-1)) (cM (cN 4) (cW (cH 0) 4))))).
Definition SPSU2_e151 := (cD (cM (cR (cN 2)) (cA (cN 3) (cM (cN 2) (cH 0)))) (cR (cA (cN 9) (cM (cM (cN 12) (cH 0)) (cA (cN 2) (cH 0)))))).
Definition SPSU2_e152 := (cO (cD (cM (cR (cN 2)) (cH 0)) (cR (cA (cM (cN 9) (cH 0)) (cM (cN 6) (cW (cH 0) 4)))))).
Definition SPSU2_e153 := (cD (cM (cR (cN 2)) (cA (cN 2) (cH 0))) (cR (cM (cA (cN 2) (cH 0)) (cA (cN 3) (cM (cN 2) (cH 0)))))).
Definition SPSU2_e154 := (cM (cR (cN 3)) (cR (cD (cH 0) (cA (cN 2) (cM (cN 4) (cH 0)))))).
Definition SPSU2_e155 := (cD (cA (cN 1) (cH 0)) (cM (cR (cN 6)) (cR (cM (cA (cN 1) (cH 0)) (cA (cN 1) (cM (cN 2) (cH 0))))))).
Definition SPSU2_e156 := (cO (cD (cM (cR (cN 3)) (cA (cN 1) (cH 0))) (cR (cA (cA (cN 2) (cM (cN 6) (cH 0))) (cM (cN 4) (cW (cH 0) 4)))))).
Definition SPSU2_e157 := (cD (cH 0) (cM (cR (cN 6)) (cR (cM (cH 0) (cA (cN 1) (cM (cN 2) (cH 0))))))).
Definition SPSU2_e158 := (cD (cR (cB (cN 2) (cD (cN 1) (cH 0)))) (cM (cN 2) (cR (cN 3)))).
Definition SPSU2_e159 := (cO (cD (cR (cA (cN 1) (cD (cN 1) (cH 0)))) (cR (cN 3)))).
Definition SPSU2_e160 := (cD (cN 1) (cM (cN 2) (cR (cA (cN 3) (cD (cN 3) (cH 0)))))).
Definition SPSU2_e161 := (cO (cD (cR (cA (cN 2) (cD (cN 1) (cA (cN 1) (cH 0))))) (cR (cN 3)))).
Definition SPSU2_e162 := (cM (cQ (-1) 6) (cR (cA (cN 6) (cD (cN 3) (cA (cN 1) (cH 0)))))).
Definition SPSU2_e163 := (cO (cD (cN 1) (cR (cA (cN 3) (cD (cN 3) (cH 0)))))).
Definition SPSU2_e164 := (cR (cA (cN 1) (cD (cN 1) (cB (cN 1) (cM (cN 2) (cH 0)))))).
Definition SPSU2_e165 := (cO (cD (cM (cR (cQ 2 3)) (cA (cN 1) (cH 0))) (cR (cA (cA (cN (-1)) (cH 0)) (cM (cN 2) (cW (cH 0) 4)))))).
Definition SPSU2_e166 := (cD (cM (cR (cQ 2 3)) (cA (cN (-1)) (cM (cN 2) (cH 0)))) (cR (cA (cN (-1)) (cM (cN 4) (cW (cH 0) 4))))).
Definition SPSU2_e167 := (cO (cD (cM (cR (cN 2)) (cA (cN 3) (cM (cN 2) (cH 0)))) (cR (cA (cN 9) (cM (cM (cN 12) (cH 0)) (cA (cN 2) (cH 0))))))).
Definition SPSU2_e168 := (cD (cM (cR (cN 2)) (cH 0)) (cR (cA (cM (cN 9) (cH 0)) (cM (cN 6) (cW (cH 0) 4))))).
Definition SPSU2_e169 := (cO (cD (cM (cR (cN 2)) (cA (cN 2) (cH 0))) (cR (cM (cA (cN 2) (cH 0)) (cA (cN 3) (cM (cN 2) (cH 0))))))).
Definition SPSU2_e170 := (cD (cM (cR (cN 2)) (cA (cN 1) (cH 0))) (cR (cA (cA (cN 3) (cM (cN 9) (cH 0))) (cM (cN 6) (cW (cH 0) 4))))).
Definition SPSU2_e171 := (cD (cM (cR (cN 2)) (cH 0)) (cR (cA (cM (cN 3) (cH 0)) (cM (cN 6) (cW (cH 0) 4))))).
Definition SPSU2_e172 := (cM (cQ (-1) 3) (cR (cA (cN 6) (cD (cN 3) (cA (cN 1) (cH 0)))))).
Definition SPSU2_e173 := (cD (cA (cN 1) (cH 0)) (cR (cA (cA (cN 2) (cM (cN 6) (cH 0))) (cM (cN 4) (cW (cH 0) 4))))).
Definition SPSU2_e174 := (cR (cD (cA (cN 1) (cH 0)) (cA (cN 2) (cM (cN 4) (cH 0))))).
Definition SPSU2_e175 := (cR (cD (cH 0) (cA (cN 2) (cM (cN 4) (cH 0))))).
Definition SPSU2_e176 := (cO (cD (cM (cR (cN 2)) (cA (cN 1) (cH 0))) (cR (cA (cA (cN 3) (cM (cN 9) (cH 0))) (cM (cN 6) (cW (cH 0) 4)))))).
Definition SPSU2_e177 := (cO (cD (cM (cR (cN 2)) (cH 0)) (cR (cA (cM (cN 3) (cH 0)) (cM (cN 6) (cW (cH 0) 4)))))).

(** /repo/c++/symmetry/nrg-recalc-SPSU2.hpp recalc_doublet, spsu2/spsu2-1ch-doubletp.dat *)
Definition spsu2_1ch_t0 : ten_table := mk_ten "doublet" [ShLin 0%nat 1 1] [2] [
  (1, 1, [ShLin 0%nat 1 0], [ShLin 0%nat 1 1], Some (cN 1));
  (2, 2, [ShLin 0%nat 1 0], [ShLin 0%nat 1 1], Some (cN 1));
  (3, 3, [ShLin 0%nat 1 (-1)], [ShLin 0%nat 1 0], Some SPSU2_e0);
  (4, 3, [ShLin 0%nat 1 1], [ShLin 0%nat 1 0], Some SPSU2_e1);
  (4, 4, [ShLin 0%nat 1 1], [ShLin 0%nat 1 2], Some (cN (-1)))].
(** /repo/c++/symmetry/nrg-recalc-SPSU2.hpp recalc_doublet, spsu2/spsu2-1ch-doubletm.dat *)
Definition spsu2_1ch_t1 : ten_table := mk_ten "doublet" [ShLin 0%nat 1 (-1)] [2] [
  (1, 1, [ShLin 0%nat 1 0], [ShLin 0%nat 1 (-1)], Some (cN 1));
  (2, 2, [ShLin 0%nat 1 0], [ShLin 0%nat 1 (-1)], Some (cN 1));
  (3, 3, [ShLin 0%nat 1 (-1)], [ShLin 0%nat 1 (-2)], Some (cN (-1)));
  (3, 4, [ShLin 0%nat 1 (-1)], [ShLin 0%nat 1 0], Some SPSU2_e2);
  (4, 4, [ShLin 0%nat 1 1], [ShLin 0%nat 1 0], Some SPSU2_e0)].
(** /repo/c++/symmetry/nrg-recalc-SPSU2.hpp recalc_irreduc, spsu2/spsu2-1ch-spinupa.dat *)
Definition spsu2_1ch_t2 : irr_table := mk_irr 0 0 [ShLin 0%nat 1 1]  [
  (2, 4, Some SPSU2_e3);
  (3, 1, Some (cN 1))].
(** /repo/c++/symmetry/nrg-recalc-SPSU2.hpp recalc_irreduc, spsu2/spsu2-1ch-spindowna.dat *)
Definition spsu2_1ch_t3 : irr_table := mk_irr 0 0 [ShLin 0%nat 1 (-1)]  [
  (2, 3, Some SPSU2_e4);
  (4, 1, Some (cN 1))].
(** /repo/c++/symmetry/nrg-recalc-SPSU2.hpp recalc_triplet, spsu2/spsu2-1ch-triplets.dat *)
Definition spsu2_1ch_t4 : ten_table := mk_ten "triplet" [ShLin 0%nat 1 0] [3] [
  (1, 1, [ShLin 0%nat 1 0], [ShLin 0%nat 1 0], Some (cN 1));
  (2, 2, [ShLin 0%nat 1 0], [ShLin 0%nat 1 0], Some (cN 1));
  (3, 3, [ShLin 0%nat 1 (-1)], [ShLin 0%nat 1 (-1)], Some SPSU2_e5);
  (3, 4, [ShLin 0%nat 1 (-1)], [ShLin 0%nat 1 1], Some SPSU2_e6);
  (4, 3, [ShLin 0%nat 1 1], [ShLin 0%nat 1 (-1)], Some SPSU2_e7);
  (4, 4, [ShLin 0%nat 1 1], [ShLin 0%nat 1 1], Some SPSU2_e8)].
(** /repo/c++/symmetry/nrg-recalc-SPSU2.hpp recalc_triplet, spsu2/spsu2-1ch-tripletp.dat *)
Definition spsu2_1ch_t5 : ten_table := mk_ten "triplet" [ShLin 0%nat 1 2] [3] [
  (1, 1, [ShLin 0%nat 1 0], [ShLin 0%nat 1 2], Some (cN 1));
  (2, 2, [ShLin 0%nat 1 0], [ShLin 0%nat 1 2], Some (cN 1));
  (3, 3, [ShLin 0%nat 1 (-1)], [ShLin 0%nat 1 1], Some SPSU2_e9);
  (4, 3, [ShLin 0%nat 1 1], [ShLin 0%nat 1 1], Some SPSU2_e10);
  (4, 4, [ShLin 0%nat 1 1], [ShLin 0%nat 1 3], Some (cN 1))].
(** /repo/c++/symmetry/nrg-recalc-SPSU2.hpp recalc_triplet, spsu2/spsu2-1ch-tripletm.dat *)
Definition spsu2_1ch_t6 : ten_table := mk_ten "triplet" [ShLin 0%nat 1 (-2)] [3] [
  (1, 1, [ShLin 0%nat 1 0], [ShLin 0%nat 1 (-2)], Some (cN 1));
  (2, 2, [ShLin 0%nat 1 0], [ShLin 0%nat 1 (-2)], Some (cN 1));
  (3, 3, [ShLin 0%nat 1 (-1)], [ShLin 0%nat 1 (-3)], Some (cN 1));
  (3, 4, [ShLin 0%nat 1 (-1)], [ShLin 0%nat 1 (-1)], Some SPSU2_e11);
  (4, 4, [ShLin 0%nat 1 1], [ShLin 0%nat 1 (-1)], Some SPSU2_e12)].
(** /repo/c++/symmetry/sym-SPSU2-impl.hpp, make_matrix if (!P.substeps) *)
Definition spsu2_1ch_m0_o : list off_line := [
  (1, 3, 0, 0, "xi", Some (cN 1));
  (1, 4, 0, 0, "xi", Some (cN 1));
  (3, 2, 0, 0, "xi", Some SPSU2_e13);
  (4, 2, 0, 0, "xi", Some SPSU2_e14);
  (2, 3, 0, 0, "kappa", Some (cN 1));
  (2, 4, 0, 0, "kappa", Some (cN 1));
  (3, 1, 0, 0, "kappa", Some SPSU2_e15);
  (4, 1, 0, 0, "kappa", Some SPSU2_e16)].
(** /repo/c++/symmetry/sym-SPSU2-impl.hpp, make_matrix if (!P.substeps) *)
Definition spsu2_1ch_m0_d : list diag_line := [
  (1, 0, "zeta", Some (cN 0));
  (2, 0, "zeta", Some (cN 2));
  (3, 0, "zeta", Some (cN 1));
  (4, 0, "zeta", Some (cN 1))].
(** /repo/c++/symmetry/sym-SPSU2-impl.hpp, make_matrix if (!P.substeps) *)
Definition spsu2_1ch_m0_f : list dof_line := [
  (1, 2, 0, "2*conj delta", Some (cQ (-1) 2))].
Definition coef_spsu2_1ch : coef_set := mk_coef "SPSU2" 1%nat sym_SPSU2 {| tb_In := spsu2_1ch_In; tb_QN := spsu2_1ch_QN |}
  [spsu2_1ch_t2; spsu2_1ch_t3]
  [spsu2_1ch_t0; spsu2_1ch_t1; spsu2_1ch_t4; spsu2_1ch_t5; spsu2_1ch_t6]
  [mk_mode "default" spsu2_1ch_m0_o spsu2_1ch_m0_d spsu2_1ch_m0_f].
(** /repo/c++/symmetry/nrg-recalc-SPSU2.hpp recalc_doublet, spsu2/spsu2-2ch-doubletp.dat *)
Definition spsu2_2ch_t0 : ten_table := mk_ten "doublet" [ShLin 0%nat 1 1] [2] [
  (1, 1, [ShLin 0%nat 1 0], [ShLin 0%nat 1 1], Some (cN 1));
  (2, 2, [ShLin 0%nat 1 0], [ShLin 0%nat 1 1], Some (cN 1));
  (3, 3, [ShLin 0%nat 1 0], [ShLin 0%nat 1 1], Some (cN 1));
  (4, 4, [ShLin 0%nat 1 0], [ShLin 0%nat 1 1], Some (cN 1));
  (5, 5, [ShLin 0%nat 1 0], [ShLin 0%nat 1 1], Some (cN 1));
  (6, 6, [ShLin 0%nat 1 (-1)], [ShLin 0%nat 1 0], Some SPSU2_e0);
  (7, 6, [ShLin 0%nat 1 1], [ShLin 0%nat 1 0], Some SPSU2_e1);
  (7, 7, [ShLin 0%nat 1 1], [ShLin 0%nat 1 2], Some (cN (-1)));
  (8, 8, [ShLin 0%nat 1 (-1)], [ShLin 0%nat 1 0], Some SPSU2_e0);
  (9, 8, [ShLin 0%nat 1 1], [ShLin 0%nat 1 0], Some SPSU2_e1);
  (9, 9, [ShLin 0%nat 1 1], [ShLin 0%nat 1 2], Some (cN (-1)));
  (10, 10, [ShLin 0%nat 1 (-1)], [ShLin 0%nat 1 0], Some SPSU2_e0);
  (11, 10, [ShLin 0%nat 1 1], [ShLin 0%nat 1 0], Some SPSU2_e1);
  (11, 11, [ShLin 0%nat 1 1], [ShLin 0%nat 1 2], Some (cN (-1)));
  (12, 12, [ShLin 0%nat 1 (-1)], [ShLin 0%nat 1 0], Some SPSU2_e0);
  (13, 12, [ShLin 0%nat 1 1], [ShLin 0%nat 1 0], Some SPSU2_e1);
  (13, 13, [ShLin 0%nat 1 1], [ShLin 0%nat 1 2], Some (cN (-1)));
  (14, 14, [ShLin 0%nat 1 (-2)], [ShLin 0%nat 1 (-1)], Some SPSU2_e5);
  (15, 14, [ShLin 0%nat 1 0], [ShLin 0%nat 1 (-1)], Some SPSU2_e7);
  (15, 15, [ShLin 0%nat 1 0], [ShLin 0%nat 1 1], Some SPSU2_e17);
  (16, 15, [ShLin 0%nat 1 2], [ShLin 0%nat 1 1], Some SPSU2_e18);
  (16, 16, [ShLin 0%nat 1 2], [ShLin 0%nat 1 3], Some (cN 1))].
(** /repo/c++/symmetry/nrg-recalc-SPSU2.hpp recalc_doublet, spsu2/spsu2-2ch-doubletm.dat *)
Definition spsu2_2ch_t1 : ten_table := mk_ten "doublet" [ShLin 0%nat 1 (-1)] [2] [
  (1, 1, [ShLin 0%nat 1 0], [ShLin 0%nat 1 (-1)], Some (cN 1));
  (2, 2, [ShLin 0%nat 1 0], [ShLin 0%nat 1 (-1)], Some (cN 1));
  (3, 3, [ShLin 0%nat 1 0], [ShLin 0%nat 1 (-1)], Some (cN 1));
  (4, 4, [ShLin 0%nat 1 0], [ShLin 0%nat 1 (-1)], Some (cN 1));
  (5, 5, [ShLin 0%nat 1 0], [ShLin 0%nat 1 (-1)], Some (cN 1));
  (6, 6, [ShLin 0%nat 1 (-1)], [ShLin 0%nat 1 (-2)], Some (cN (-1)));
  (6, 7, [ShLin 0%nat 1 (-1)], [ShLin 0%nat 1 0], Some SPSU2_e2);
  (7, 7, [ShLin 0%nat 1 1], [ShLin 0%nat 1 0], Some SPSU2_e0);
  (8, 8, [ShLin 0%nat 1 (-1)], [ShLin 0%nat 1 (-2)], Some (cN (-1)));
  (8, 9, [ShLin 0%nat 1 (-1)], [ShLin 0%nat 1 0], Some SPSU2_e2);
  (9, 9, [ShLin 0%nat 1 1], [ShLin 0%nat 1 0], Some SPSU2_e0);
  (10, 10, [ShLin 0%nat 1 (-1)], [ShLin 0%nat 1 (-2)], Some (cN (-1)));
  (10, 11, [ShLin 0%nat 1 (-1)], [ShLin 0%nat 1 0], Some SPSU2_e2);
  (11, 11, [ShLin 0%nat 1 1], [ShLin 0%nat 1 0], Some SPSU2_e0);
  (12, 12, [ShLin 0%nat 1 (-1)], [ShLin 0%nat 1 (-2)], Some (cN (-1)));
  (12, 13, [ShLin 0%nat 1 (-1)], [ShLin 0%nat 1 0], Some SPSU2_e2);
  (13, 13, [ShLin 0%nat 1 1], [ShLin 0%nat 1 0], Some SPSU2_e0);
  (14, 14, [ShLin 0%nat 1 (-2)], [ShLin 0%nat 1 (-3)], Some (cN 1));
  (14, 15, [ShLin 0%nat 1 (-2)], [ShLin 0%nat 1 (-1)], Some SPSU2_e11);
  (15, 15, [ShLin 0%nat 1 0], [ShLin 0%nat 1 (-1)], Some SPSU2_e19);
  (15, 16, [ShLin 0%nat 1 0], [ShLin 0%nat 1 1], Some SPSU2_e6);
  (16, 16, [ShLin 0%nat 1 2], [ShLin 0%nat 1 1], Some SPSU2_e20)].
(** /repo/c++/symmetry/nrg-recalc-SPSU2.hpp recalc_irreduc, spsu2/spsu2-2ch-spinupa.dat *)
Definition spsu2_2ch_t2 : irr_table := mk_irr 0 0 [ShLin 0%nat 1 1]  [
  (3, 7, Some SPSU2_e21);
  (4, 9, Some SPSU2_e3);
  (5, 11, Some SPSU2_e3);
  (8, 1, Some (cN 1));
  (10, 2, Some (cN 1));
  (12, 3, Some SPSU2_e22);
  (12, 15, Some SPSU2_e23);
  (13, 16, Some SPSU2_e24);
  (14, 6, Some (cN (-1)));
  (15, 7, Some SPSU2_e25)].
(** /repo/c++/symmetry/nrg-recalc-SPSU2.hpp recalc_irreduc, spsu2/spsu2-2ch-spinupb.dat *)
Definition spsu2_2ch_t3 : irr_table := mk_irr 1 0 [ShLin 0%nat 1 1]  [
  (2, 7, Some SPSU2_e3);
  (3, 9, Some SPSU2_e21);
  (5, 13, Some SPSU2_e3);
  (6, 1, Some (cN 1));
  (10, 3, Some SPSU2_e22);
  (10, 15, Some SPSU2_e26);
  (11, 16, Some SPSU2_e3);
  (12, 4, Some (cN 1));
  (14, 8, Some (cN 1));
  (15, 9, Some SPSU2_e27)].
(** /repo/c++/symmetry/nrg-recalc-SPSU2.hpp recalc_irreduc, spsu2/spsu2-2ch-spindowna.dat *)
Definition spsu2_2ch_t4 : irr_table := mk_irr 0 0 [ShLin 0%nat 1 (-1)]  [
  (3, 6, Some SPSU2_e28);
  (4, 8, Some SPSU2_e4);
  (5, 10, Some SPSU2_e4);
  (9, 1, Some (cN 1));
  (11, 2, Some (cN 1));
  (12, 14, Some SPSU2_e29);
  (13, 3, Some SPSU2_e22);
  (13, 15, Some SPSU2_e30);
  (15, 6, Some SPSU2_e31);
  (16, 7, Some (cN (-1)))].
(** /repo/c++/symmetry/nrg-recalc-SPSU2.hpp recalc_irreduc, spsu2/spsu2-2ch-spindownb.dat *)
Definition spsu2_2ch_t5 : irr_table := mk_irr 1 0 [ShLin 0%nat 1 (-1)]  [
  (2, 6, Some SPSU2_e4);
  (3, 8, Some SPSU2_e28);
  (5, 12, Some SPSU2_e4);
  (7, 1, Some (cN 1));
  (10, 14, Some SPSU2_e4);
  (11, 3, Some SPSU2_e22);
  (11, 15, Some SPSU2_e32);
  (13, 4, Some (cN 1));
  (15, 8, Some SPSU2_e33);
  (16, 9, Some (cN 1))].
(** /repo/c++/symmetry/nrg-recalc-SPSU2.hpp recalc_triplet, spsu2/spsu2-2ch-triplets.dat *)
Definition spsu2_2ch_t6 : ten_table := mk_ten "triplet" [ShLin 0%nat 1 0] [3] [
  (1, 1, [ShLin 0%nat 1 0], [ShLin 0%nat 1 0], Some (cN 1));
  (2, 2, [ShLin 0%nat 1 0], [ShLin 0%nat 1 0], Some (cN 1));
  (3, 3, [ShLin 0%nat 1 0], [ShLin 0%nat 1 0], Some (cN 1));
  (4, 4, [ShLin 0%nat 1 0], [ShLin 0%nat 1 0], Some (cN 1));
  (5, 5, [ShLin 0%nat 1 0], [ShLin 0%nat 1 0], Some (cN 1));
  (6, 6, [ShLin 0%nat 1 (-1)], [ShLin 0%nat 1 (-1)], Some SPSU2_e5);
  (6, 7, [ShLin 0%nat 1 (-1)], [ShLin 0%nat 1 1], Some SPSU2_e6);
  (7, 6, [ShLin 0%nat 1 1], [ShLin 0%nat 1 (-1)], Some SPSU2_e7);
  (7, 7, [ShLin 0%nat 1 1], [ShLin 0%nat 1 1], Some SPSU2_e8);
  (8, 8, [ShLin 0%nat 1 (-1)], [ShLin 0%nat 1 (-1)], Some SPSU2_e5);
  (8, 9, [ShLin 0%nat 1 (-1)], [ShLin 0%nat 1 1], Some SPSU2_e6);
  (9, 8, [ShLin 0%nat 1 1], [ShLin 0%nat 1 (-1)], Some SPSU2_e7);
  (9, 9, [ShLin 0%nat 1 1], [ShLin 0%nat 1 1], Some SPSU2_e8);
  (10, 10, [ShLin 0%nat 1 (-1)], [ShLin 0%nat 1 (-1)], Some SPSU2_e5);
  (10, 11, [ShLin 0%nat 1 (-1)], [ShLin 0%nat 1 1], Some SPSU2_e6);
  (11, 10, [ShLin 0%nat 1 1], [ShLin 0%nat 1 (-1)], Some SPSU2_e7);
  (11, 11, [ShLin 0%nat 1 1], [ShLin 0%nat 1 1], Some SPSU2_e8);
  (12, 12, [ShLin 0%nat 1 (-1)], [ShLin 0%nat 1 (-1)], Some SPSU2_e5);
  (12, 13, [ShLin 0%nat 1 (-1)], [ShLin 0%nat 1 1], Some SPSU2_e6);
  (13, 12, [ShLin 0%nat 1 1], [ShLin 0%nat 1 (-1)], Some SPSU2_e7);
  (13, 13, [ShLin 0%nat 1 1], [ShLin 0%nat 1 1], Some SPSU2_e8);
  (14, 14, [ShLin 0%nat 1 (-2)], [ShLin 0%nat 1 (-2)], Some SPSU2_e34);
  (14, 15, [ShLin 0%nat 1 (-2)], [ShLin 0%nat 1 0], Some SPSU2_e35);
  (15, 14, [ShLin 0%nat 1 0], [ShLin 0%nat 1 (-2)], Some (cO (cD (cN 1) (cH 0))));
  (15, 15, [ShLin 0%nat 1 0], [ShLin 0%nat 1 0], Some SPSU2_e36);
  (15, 16, [ShLin 0%nat 1 0], [ShLin 0%nat 1 2], Some SPSU2_e37);
  (16, 15, [ShLin 0%nat 1 2], [ShLin 0%nat 1 0], Some SPSU2_e38);
  (16, 16, [ShLin 0%nat 1 2], [ShLin 0%nat 1 2], Some SPSU2_e39)].
(** /repo/c++/symmetry/nrg-recalc-SPSU2.hpp recalc_triplet, spsu2/spsu2-2ch-tripletp.dat *)
Definition spsu2_2ch_t7 : ten_table := mk_ten "triplet" [ShLin 0%nat 1 2] [3] [
  (1, 1, [ShLin 0%nat 1 0], [ShLin 0%nat 1 2], Some (cN 1));
  (2, 2, [ShLin 0%nat 1 0], [ShLin 0%nat 1 2], Some (cN 1));
  (3, 3, [ShLin 0%nat 1 0], [ShLin 0%nat 1 2], Some (cN 1));
  (4, 4, [ShLin 0%nat 1 0], [ShLin 0%nat 1 2], Some (cN 1));
  (5, 5, [ShLin 0%nat 1 0], [ShLin 0%nat 1 2], Some (cN 1));
  (6, 6, [ShLin 0%nat 1 (-1)], [ShLin 0%nat 1 1], Some SPSU2_e9);
  (7, 6, [ShLin 0%nat 1 1], [ShLin 0%nat 1 1], Some SPSU2_e10);
  (7, 7, [ShLin 0%nat 1 1], [ShLin 0%nat 1 3], Some (cN 1));
  (8, 8, [ShLin 0%nat 1 (-1)], [ShLin 0%nat 1 1], Some SPSU2_e9);
  (9, 8, [ShLin 0%nat 1 1], [ShLin 0%nat 1 1], Some SPSU2_e10);
  (9, 9, [ShLin 0%nat 1 1], [ShLin 0%nat 1 3], Some (cN 1));
  (10, 10, [ShLin 0%nat 1 (-1)], [ShLin 0%nat 1 1], Some SPSU2_e9);
  (11, 10, [ShLin 0%nat 1 1], [ShLin 0%nat 1 1], Some SPSU2_e10);
  (11, 11, [ShLin 0%nat 1 1], [ShLin 0%nat 1 3], Some (cN 1));
  (12, 12, [ShLin 0%nat 1 (-1)], [ShLin 0%nat 1 1], Some SPSU2_e9);
  (13, 12, [ShLin 0%nat 1 1], [ShLin 0%nat 1 1], Some SPSU2_e10);
  (13, 13, [ShLin 0%nat 1 1], [ShLin 0%nat 1 3], Some (cN 1));
  (14, 14, [ShLin 0%nat 1 (-2)], [ShLin 0%nat 1 0], Some SPSU2_e40);
  (15, 14, [ShLin 0%nat 1 0], [ShLin 0%nat 1 0], Some SPSU2_e41);
  (15, 15, [ShLin 0%nat 1 0], [ShLin 0%nat 1 2], Some SPSU2_e39);
  (16, 14, [ShLin 0%nat 1 2], [ShLin 0%nat 1 0], Some SPSU2_e42);
  (16, 15, [ShLin 0%nat 1 2], [ShLin 0%nat 1 2], Some SPSU2_e43);
  (16, 16, [ShLin 0%nat 1 2], [ShLin 0%nat 1 4], Some (cN 1))].
(** /repo/c++/symmetry/nrg-recalc-SPSU2.hpp recalc_triplet, spsu2/spsu2-2ch-tripletm.dat *)
Definition spsu2_2ch_t8 : ten_table := mk_ten "triplet" [ShLin 0%nat 1 (-2)] [3] [
  (1, 1, [ShLin 0%nat 1 0], [ShLin 0%nat 1 (-2)], Some (cN 1));
  (2, 2, [ShLin 0%nat 1 0], [ShLin 0%nat 1 (-2)], Some (cN 1));
  (3, 3, [ShLin 0%nat 1 0], [ShLin 0%nat 1 (-2)], Some (cN 1));
  (4, 4, [ShLin 0%nat 1 0], [ShLin 0%nat 1 (-2)], Some (cN 1));
  (5, 5, [ShLin 0%nat 1 0], [ShLin 0%nat 1 (-2)], Some (cN 1));
  (6, 6, [ShLin 0%nat 1 (-1)], [ShLin 0%nat 1 (-3)], Some (cN 1));
  (6, 7, [ShLin 0%nat 1 (-1)], [ShLin 0%nat 1 (-1)], Some SPSU2_e11);
  (7, 7, [ShLin 0%nat 1 1], [ShLin 0%nat 1 (-1)], Some SPSU2_e12);
  (8, 8, [ShLin 0%nat 1 (-1)], [ShLin 0%nat 1 (-3)], Some (cN 1));
  (8, 9, [ShLin 0%nat 1 (-1)], [ShLin 0%nat 1 (-1)], Some SPSU2_e11);
  (9, 9, [ShLin 0%nat 1 1], [ShLin 0%nat 1 (-1)], Some SPSU2_e12);
  (10, 10, [ShLin 0%nat 1 (-1)], [ShLin 0%nat 1 (-3)], Some (cN 1));
  (10, 11, [ShLin 0%nat 1 (-1)], [ShLin 0%nat 1 (-1)], Some SPSU2_e11);
  (11, 11, [ShLin 0%nat 1 1], [ShLin 0%nat 1 (-1)], Some SPSU2_e12);
  (12, 12, [ShLin 0%nat 1 (-1)], [ShLin 0%nat 1 (-3)], Some (cN 1));
  (12, 13, [ShLin 0%nat 1 (-1)], [ShLin 0%nat 1 (-1)], Some SPSU2_e11);
  (13, 13, [ShLin 0%nat 1 1], [ShLin 0%nat 1 (-1)], Some SPSU2_e12);
  (14, 14, [ShLin 0%nat 1 (-2)], [ShLin 0%nat 1 (-4)], Some (cN 1));
  (14, 15, [ShLin 0%nat 1 (-2)], [ShLin 0%nat 1 (-2)], Some (cD (cN 1) (cH 0)));
  (14, 16, [ShLin 0%nat 1 (-2)], [ShLin 0%nat 1 0], Some SPSU2_e44);
  (15, 15, [ShLin 0%nat 1 0], [ShLin 0%nat 1 (-2)], Some SPSU2_e34);
  (15, 16, [ShLin 0%nat 1 0], [ShLin 0%nat 1 0], Some SPSU2_e35);
  (16, 16, [ShLin 0%nat 1 2], [ShLin 0%nat 1 0], Some SPSU2_e40)].
(** /repo/c++/symmetry/sym-SPSU2-impl.hpp, make_matrix if (!P.substeps) *)
Definition spsu2_2ch_m0_o : list off_line := [
  (1, 8, 0, 0, "xi", Some (cN 1));
  (1, 9, 0, 0, "xi", Some (cN 1));
  (2, 10, 0, 0, "xi", Some (cN 1));
  (2, 11, 0, 0, "xi", Some (cN 1));
  (3, 12, 0, 0, "xi", Some SPSU2_e22);
  (3, 13, 0, 0, "xi", Some SPSU2_e22);
  (6, 3, 0, 0, "xi", Some SPSU2_e45);
  (6, 14, 0, 0, "xi", Some (cN 1));
  (6, 15, 0, 0, "xi", Some SPSU2_e46);
  (7, 3, 0, 0, "xi", Some SPSU2_e46);
  (7, 15, 0, 0, "xi", Some SPSU2_e47);
  (7, 16, 0, 0, "xi", Some (cN 1));
  (8, 4, 0, 0, "xi", Some SPSU2_e13);
  (9, 4, 0, 0, "xi", Some SPSU2_e14);
  (10, 5, 0, 0, "xi", Some SPSU2_e13);
  (11, 5, 0, 0, "xi", Some SPSU2_e14);
  (14, 12, 0, 0, "xi", Some SPSU2_e48);
  (15, 12, 0, 0, "xi", Some SPSU2_e32);
  (15, 13, 0, 0, "xi", Some SPSU2_e49);
  (16, 13, 0, 0, "xi", Some SPSU2_e50);
  (1, 6, 1, 0, "xi", Some (cN 1));
  (1, 7, 1, 0, "xi", Some (cN 1));
  (3, 10, 1, 0, "xi", Some SPSU2_e22);
  (3, 11, 1, 0, "xi", Some SPSU2_e22);
  (4, 12, 1, 0, "xi", Some (cN 1));
  (4, 13, 1, 0, "xi", Some (cN 1));
  (6, 2, 1, 0, "xi", Some SPSU2_e13);
  (7, 2, 1, 0, "xi", Some SPSU2_e14);
  (8, 3, 1, 0, "xi", Some SPSU2_e45);
  (8, 14, 1, 0, "xi", Some (cN (-1)));
  (8, 15, 1, 0, "xi", Some SPSU2_e51);
  (9, 3, 1, 0, "xi", Some SPSU2_e46);
  (9, 15, 1, 0, "xi", Some SPSU2_e45);
  (9, 16, 1, 0, "xi", Some (cN (-1)));
  (12, 5, 1, 0, "xi", Some SPSU2_e13);
  (13, 5, 1, 0, "xi", Some SPSU2_e14);
  (14, 10, 1, 0, "xi", Some SPSU2_e52);
  (15, 10, 1, 0, "xi", Some SPSU2_e30);
  (15, 11, 1, 0, "xi", Some SPSU2_e53);
  (16, 11, 1, 0, "xi", Some SPSU2_e54);
  (3, 6, 0, 0, "kappa", Some (cD (cN 1) (cR (cN 2))));
  (3, 7, 0, 0, "kappa", Some (cD (cN 1) (cR (cN 2))));
  (4, 8, 0, 0, "kappa", Some (cN 1));
  (4, 9, 0, 0, "kappa", Some (cN 1));
  (5, 10, 0, 0, "kappa", Some (cN 1));
  (5, 11, 0, 0, "kappa", Some (cN 1));
  (8, 1, 0, 0, "kappa", Some SPSU2_e15);
  (9, 1, 0, 0, "kappa", Some SPSU2_e16);
  (10, 2, 0, 0, "kappa", Some SPSU2_e15);
  (11, 2, 0, 0, "kappa", Some SPSU2_e16);
  (12, 3, 0, 0, "kappa", Some SPSU2_e45);
  (12, 14, 0, 0, "kappa", Some (cN 1));
  (12, 15, 0, 0, "kappa", Some SPSU2_e46);
  (13, 3, 0, 0, "kappa", Some SPSU2_e46);
  (13, 15, 0, 0, "kappa", Some SPSU2_e47);
  (13, 16, 0, 0, "kappa", Some (cN 1));
  (14, 6, 0, 0, "kappa", Some SPSU2_e52);
  (15, 6, 0, 0, "kappa", Some SPSU2_e30);
  (15, 7, 0, 0, "kappa", Some SPSU2_e53);
  (16, 7, 0, 0, "kappa", Some SPSU2_e54);
  (2, 6, 1, 0, "kappa", Some (cN 1));
  (2, 7, 1, 0, "kappa", Some (cN 1));
  (3, 8, 1, 0, "kappa", Some (cD (cN 1) (cR (cN 2))));
  (3, 9, 1, 0, "kappa", Some (cD (cN 1) (cR (cN 2))));
  (5, 12, 1, 0, "kappa", Some (cN 1));
  (5, 13, 1, 0, "kappa", Some (cN 1));
  (6, 1, 1, 0, "kappa", Some SPSU2_e15);
  (7, 1, 1, 0, "kappa", Some SPSU2_e16);
  (10, 3, 1, 0, "kappa", Some SPSU2_e45);
  (10, 14, 1, 0, "kappa", Some (cN (-1)));
  (10, 15, 1, 0, "kappa", Some SPSU2_e51);
  (11, 3, 1, 0, "kappa", Some SPSU2_e46);
  (11, 15, 1, 0, "kappa", Some SPSU2_e55);
  (11, 16, 1, 0, "kappa", Some (cN (-1)));
  (12, 4, 1, 0, "kappa", Some SPSU2_e15);
  (13, 4, 1, 0, "kappa", Some SPSU2_e16);
  (14, 8, 1, 0, "kappa", Some SPSU2_e48);
  (15, 8, 1, 0, "kappa", Some SPSU2_e32);
  (15, 9, 1, 0, "kappa", Some SPSU2_e49);
  (16, 9, 1, 0, "kappa", Some SPSU2_e50)].
(** /repo/c++/symmetry/sym-SPSU2-impl.hpp, make_matrix if (!P.substeps) *)
Definition spsu2_2ch_m0_d : list diag_line := [
  (1, 0, "zeta", Some (cN 0));
  (2, 0, "zeta", Some (cN 0));
  (3, 0, "zeta", Some (cN 1));
  (4, 0, "zeta", Some (cN 2));
  (5, 0, "zeta", Some (cN 2));
  (6, 0, "zeta", Some (cN 0));
  (7, 0, "zeta", Some (cN 0));
  (8, 0, "zeta", Some (cN 1));
  (9, 0, "zeta", Some (cN 1));
  (10, 0, "zeta", Some (cN 1));
  (11, 0, "zeta", Some (cN 1));
  (12, 0, "zeta", Some (cN 2));
  (13, 0, "zeta", Some (cN 2));
  (14, 0, "zeta", Some (cN 1));
  (15, 0, "zeta", Some (cN 1));
  (16, 0, "zeta", Some (cN 1));
  (1, 1, "zeta", Some (cN 0));
  (2, 1, "zeta", Some (cN 2));
  (3, 1, "zeta", Some (cN 1));
  (4, 1, "zeta", Some (cN 0));
  (5, 1, "zeta", Some (cN 2));
  (6, 1, "zeta", Some (cN 1));
  (7, 1, "zeta", Some (cN 1));
  (8, 1, "zeta", Some (cN 0));
  (9, 1, "zeta", Some (cN 0));
  (10, 1, "zeta", Some (cN 2));
  (11, 1, "zeta", Some (cN 2));
  (12, 1, "zeta", Some (cN 1));
  (13, 1, "zeta", Some (cN 1));
  (14, 1, "zeta", Some (cN 1));
  (15, 1, "zeta", Some (cN 1));
  (16, 1, "zeta", Some (cN 1))].
(** /repo/c++/symmetry/sym-SPSU2-impl.hpp, make_matrix if (!P.substeps) *)
Definition spsu2_2ch_m0_f : list dof_line := [
  (1, 4, 0, "2*conj delta", Some (cQ (-1) 2));
  (2, 5, 0, "2*conj delta", Some (cQ (-1) 2));
  (6, 12, 0, "2*conj delta", Some (cQ (-1) 2));
  (7, 13, 0, "2*conj delta", Some (cQ (-1) 2));
  (1, 2, 1, "2*conj delta", Some (cQ (-1) 2));
  (4, 5, 1, "2*conj delta", Some (cQ (-1) 2));
  (8, 10, 1, "2*conj delta", Some (cQ (-1) 2));
  (9, 11, 1, "2*conj delta", Some (cQ (-1) 2))].
Definition coef_spsu2_2ch : coef_set := mk_coef "SPSU2" 2%nat sym_SPSU2 {| tb_In := spsu2_2ch_In; tb_QN := spsu2_2ch_QN |}
  [spsu2_2ch_t2; spsu2_2ch_t3; spsu2_2ch_t4; spsu2_2ch_t5]
  [spsu2_2ch_t0; spsu2_2ch_t1; spsu2_2ch_t6; spsu2_2ch_t7; spsu2_2ch_t8]
  [mk_mode "default" spsu2_2ch_m0_o spsu2_2ch_m0_d spsu2_2ch_m0_f].
(** /repo/c++/symmetry/nrg-recalc-SPSU2.hpp recalc_doublet, spsu2/spsu2-3ch-doubletp.dat *)
Definition spsu2_3ch_t0 : ten_table := mk_ten "doublet" [ShLin 0%nat 1 1] [2] [
  (1, 1, [ShLin 0%nat 1 0], [ShLin 0%nat 1 1], Some (cN 1));
  (2, 2, [ShLin 0%nat 1 0], [ShLin 0%nat 1 1], Some (cN 1));
  (3, 3, [ShLin 0%nat 1 0], [ShLin 0%nat 1 1], Some (cN 1));
  (4, 4, [ShLin 0%nat 1 0], [ShLin 0%nat 1 1], Some (cN 1));
  (5, 5, [ShLin 0%nat 1 0], [ShLin 0%nat 1 1], Some (cN 1));
  (6, 6, [ShLin 0%nat 1 0], [ShLin 0%nat 1 1], Some (cN 1));
  (7, 7, [ShLin 0%nat 1 0], [ShLin 0%nat 1 1], Some (cN 1));
  (8, 8, [ShLin 0%nat 1 0], [ShLin 0%nat 1 1], Some (cN 1));
  (9, 9, [ShLin 0%nat 1 0], [ShLin 0%nat 1 1], Some (cN 1));
  (10, 10, [ShLin 0%nat 1 0], [ShLin 0%nat 1 1], Some (cN 1));
  (11, 11, [ShLin 0%nat 1 0], [ShLin 0%nat 1 1], Some (cN 1));
  (12, 12, [ShLin 0%nat 1 0], [ShLin 0%nat 1 1], Some (cN 1));
  (13, 13, [ShLin 0%nat 1 0], [ShLin 0%nat 1 1], Some (cN 1));
  (14, 14, [ShLin 0%nat 1 0], [ShLin 0%nat 1 1], Some (cN 1));
  (15, 15, [ShLin 0%nat 1 (-1)], [ShLin 0%nat 1 0], Some SPSU2_e0);
  (16, 15, [ShLin 0%nat 1 1], [ShLin 0%nat 1 0], Some SPSU2_e1);
  (16, 16, [ShLin 0%nat 1 1], [ShLin 0%nat 1 2], Some (cN (-1)));
  (17, 17, [ShLin 0%nat 1 (-1)], [ShLin 0%nat 1 0], Some SPSU2_e0);
  (18, 17, [ShLin 0%nat 1 1], [ShLin 0%nat 1 0], Some SPSU2_e1);
  (18, 18, [ShLin 0%nat 1 1], [ShLin 0%nat 1 2], Some (cN (-1)));
  (19, 19, [ShLin 0%nat 1 (-1)], [ShLin 0%nat 1 0], Some SPSU2_e0);
  (20, 19, [ShLin 0%nat 1 1], [ShLin 0%nat 1 0], Some SPSU2_e1);
  (20, 20, [ShLin 0%nat 1 1], [ShLin 0%nat 1 2], Some (cN (-1)));
  (21, 21, [ShLin 0%nat 1 (-1)], [ShLin 0%nat 1 0], Some SPSU2_e0);
  (22, 21, [ShLin 0%nat 1 1], [ShLin 0%nat 1 0], Some SPSU2_e1);
  (22, 22, [ShLin 0%nat 1 1], [ShLin 0%nat 1 2], Some (cN (-1)));
  (23, 23, [ShLin 0%nat 1 (-1)], [ShLin 0%nat 1 0], Some SPSU2_e0);
  (24, 23, [ShLin 0%nat 1 1], [ShLin 0%nat 1 0], Some SPSU2_e1);
  (24, 24, [ShLin 0%nat 1 1], [ShLin 0%nat 1 2], Some (cN (-1)));
  (25, 25, [ShLin 0%nat 1 (-1)], [ShLin 0%nat 1 0], Some SPSU2_e0);
  (26, 25, [ShLin 0%nat 1 1], [ShLin 0%nat 1 0], Some SPSU2_e1);
  (26, 26, [ShLin 0%nat 1 1], [ShLin 0%nat 1 2], Some (cN (-1)));
  (27, 27, [ShLin 0%nat 1 (-1)], [ShLin 0%nat 1 0], Some SPSU2_e0);
  (28, 27, [ShLin 0%nat 1 1], [ShLin 0%nat 1 0], Some SPSU2_e1);
  (28, 28, [ShLin 0%nat 1 1], [ShLin 0%nat 1 2], Some (cN (-1)));
  (29, 29, [ShLin 0%nat 1 (-1)], [ShLin 0%nat 1 0], Some SPSU2_e0);
  (30, 29, [ShLin 0%nat 1 1], [ShLin 0%nat 1 0], Some SPSU2_e1);
  (30, 30, [ShLin 0%nat 1 1], [ShLin 0%nat 1 2], Some (cN (-1)));
  (31, 31, [ShLin 0%nat 1 (-1)], [ShLin 0%nat 1 0], Some SPSU2_e0);
  (32, 31, [ShLin 0%nat 1 1], [ShLin 0%nat 1 0], Some SPSU2_e1);
  (32, 32, [ShLin 0%nat 1 1], [ShLin 0%nat 1 2], Some (cN (-1)));
  (33, 33, [ShLin 0%nat 1 (-1)], [ShLin 0%nat 1 0], Some SPSU2_e0);
  (34, 33, [ShLin 0%nat 1 1], [ShLin 0%nat 1 0], Some SPSU2_e1);
  (34, 34, [ShLin 0%nat 1 1], [ShLin 0%nat 1 2], Some (cN (-1)));
  (35, 35, [ShLin 0%nat 1 (-1)], [ShLin 0%nat 1 0], Some SPSU2_e0);
  (36, 35, [ShLin 0%nat 1 1], [ShLin 0%nat 1 0], Some SPSU2_e1);
  (36, 36, [ShLin 0%nat 1 1], [ShLin 0%nat 1 2], Some (cN (-1)));
  (37, 37, [ShLin 0%nat 1 (-1)], [ShLin 0%nat 1 0], Some SPSU2_e0);
  (38, 37, [ShLin 0%nat 1 1], [ShLin 0%nat 1 0], Some SPSU2_e1);
  (38, 38, [ShLin 0%nat 1 1], [ShLin 0%nat 1 2], Some (cN (-1)));
  (39, 39, [ShLin 0%nat 1 (-1)], [ShLin 0%nat 1 0], Some SPSU2_e0);
  (40, 39, [ShLin 0%nat 1 1], [ShLin 0%nat 1 0], Some SPSU2_e1);
  (40, 40, [ShLin 0%nat 1 1], [ShLin 0%nat 1 2], Some (cN (-1)));
  (41, 41, [ShLin 0%nat 1 (-1)], [ShLin 0%nat 1 0], Some SPSU2_e0);
  (42, 41, [ShLin 0%nat 1 1], [ShLin 0%nat 1 0], Some SPSU2_e1);
  (42, 42, [ShLin 0%nat 1 1], [ShLin 0%nat 1 2], Some (cN (-1)));
  (43, 43, [ShLin 0%nat 1 (-2)], [ShLin 0%nat 1 (-1)], Some SPSU2_e5);
  (44, 43, [ShLin 0%nat 1 0], [ShLin 0%nat 1 (-1)], Some SPSU2_e7);
  (44, 44, [ShLin 0%nat 1 0], [ShLin 0%nat 1 1], Some SPSU2_e17);
  (45, 44, [ShLin 0%nat 1 2], [ShLin 0%nat 1 1], Some SPSU2_e18);
  (45, 45, [ShLin 0%nat 1 2], [ShLin 0%nat 1 3], Some (cN 1));
  (46, 46, [ShLin 0%nat 1 (-2)], [ShLin 0%nat 1 (-1)], Some SPSU2_e5);
  (47, 46, [ShLin 0%nat 1 0], [ShLin 0%nat 1 (-1)], Some SPSU2_e7);
  (47, 47, [ShLin 0%nat 1 0], [ShLin 0%nat 1 1], Some SPSU2_e17);
  (48, 47, [ShLin 0%nat 1 2], [ShLin 0%nat 1 1], Some SPSU2_e18);
  (48, 48, [ShLin 0%nat 1 2], [ShLin 0%nat 1 3], Some (cN 1));
  (49, 49, [ShLin 0%nat 1 (-2)], [ShLin 0%nat 1 (-1)], Some SPSU2_e5);
  (50, 49, [ShLin 0%nat 1 0], [ShLin 0%nat 1 (-1)], Some SPSU2_e7);
  (50, 50, [ShLin 0%nat 1 0], [ShLin 0%nat 1 1], Some SPSU2_e17);
  (51, 50, [ShLin 0%nat 1 2], [ShLin 0%nat 1 1], Some SPSU2_e18);
  (51, 51, [ShLin 0%nat 1 2], [ShLin 0%nat 1 3], Some (cN 1));
  (52, 52, [ShLin 0%nat 1 (-2)], [ShLin 0%nat 1 (-1)], Some SPSU2_e5);
  (53, 52, [ShLin 0%nat 1 0], [ShLin 0%nat 1 (-1)], Some SPSU2_e7);
  (53, 53, [ShLin 0%nat 1 0], [ShLin 0%nat 1 1], Some SPSU2_e17);
  (54, 53, [ShLin 0%nat 1 2], [ShLin 0%nat 1 1], Some SPSU2_e18);
  (54, 54, [ShLin 0%nat 1 2], [ShLin 0%nat 1 3], Some (cN 1));
  (55, 55, [ShLin 0%nat 1 (-2)], [ShLin 0%nat 1 (-1)], Some SPSU2_e5);
  (56, 55, [ShLin 0%nat 1 0], [ShLin 0%nat 1 (-1)], Some SPSU2_e7);
  (56, 56, [ShLin 0%nat 1 0], [ShLin 0%nat 1 1], Some SPSU2_e17);
  (57, 56, [ShLin 0%nat 1 2], [ShLin 0%nat 1 1], Some SPSU2_e18);
  (57, 57, [ShLin 0%nat 1 2], [ShLin 0%nat 1 3], Some (cN 1));
  (58, 58, [ShLin 0%nat 1 (-2)], [ShLin 0%nat 1 (-1)], Some SPSU2_e5);
  (59, 58, [ShLin 0%nat 1 0], [ShLin 0%nat 1 (-1)], Some SPSU2_e7);
  (59, 59, [ShLin 0%nat 1 0], [ShLin 0%nat 1 1], Some SPSU2_e17);
  (60, 59, [ShLin 0%nat 1 2], [ShLin 0%nat 1 1], Some SPSU2_e18);
  (60, 60, [ShLin 0%nat 1 2], [ShLin 0%nat 1 3], Some (cN 1));
  (61, 61, [ShLin 0%nat 1 (-3)], [ShLin 0%nat 1 (-2)], Some SPSU2_e56);
  (62, 61, [ShLin 0%nat 1 (-1)], [ShLin 0%nat 1 (-2)], Some SPSU2_e57);
  (62, 62, [ShLin 0%nat 1 (-1)], [ShLin 0%nat 1 0], Some SPSU2_e58);
  (63, 62, [ShLin 0%nat 1 1], [ShLin 0%nat 1 0], Some SPSU2_e59);
  (63, 63, [ShLin 0%nat 1 1], [ShLin 0%nat 1 2], Some SPSU2_e60);
  (64, 63, [ShLin 0%nat 1 3], [ShLin 0%nat 1 2], Some SPSU2_e61);
  (64, 64, [ShLin 0%nat 1 3], [ShLin 0%nat 1 4], Some (cN (-1)))].
(** /repo/c++/symmetry/nrg-recalc-SPSU2.hpp recalc_doublet, spsu2/spsu2-3ch-doubletm.dat *)
Definition spsu2_3ch_t1 : ten_table := mk_ten "doublet" [ShLin 0%nat 1 (-1)] [2] [
  (1, 1, [ShLin 0%nat 1 0], [ShLin 0%nat 1 (-1)], Some (cN 1));
  (2, 2, [ShLin 0%nat 1 0], [ShLin 0%nat 1 (-1)], Some (cN 1));
  (3, 3, [ShLin 0%nat 1 0], [ShLin 0%nat 1 (-1)], Some (cN 1));
  (4, 4, [ShLin 0%nat 1 0], [ShLin 0%nat 1 (-1)], Some (cN 1));
  (5, 5, [ShLin 0%nat 1 0], [ShLin 0%nat 1 (-1)], Some (cN 1));
  (6, 6, [ShLin 0%nat 1 0], [ShLin 0%nat 1 (-1)], Some (cN 1));
  (7, 7, [ShLin 0%nat 1 0], [ShLin 0%nat 1 (-1)], Some (cN 1));
  (8, 8, [ShLin 0%nat 1 0], [ShLin 0%nat 1 (-1)], Some (cN 1));
  (9, 9, [ShLin 0%nat 1 0], [ShLin 0%nat 1 (-1)], Some (cN 1));
  (10, 10, [ShLin 0%nat 1 0], [ShLin 0%nat 1 (-1)], Some (cN 1));
  (11, 11, [ShLin 0%nat 1 0], [ShLin 0%nat 1 (-1)], Some (cN 1));
  (12, 12, [ShLin 0%nat 1 0], [ShLin 0%nat 1 (-1)], Some (cN 1));
  (13, 13, [ShLin 0%nat 1 0], [ShLin 0%nat 1 (-1)], Some (cN 1));
  (14, 14, [ShLin 0%nat 1 0], [ShLin 0%nat 1 (-1)], Some (cN 1));
  (15, 15, [ShLin 0%nat 1 (-1)], [ShLin 0%nat 1 (-2)], Some (cN (-1)));
  (15, 16, [ShLin 0%nat 1 (-1)], [ShLin 0%nat 1 0], Some SPSU2_e2);
  (16, 16, [ShLin 0%nat 1 1], [ShLin 0%nat 1 0], Some SPSU2_e0);
  (17, 17, [ShLin 0%nat 1 (-1)], [ShLin 0%nat 1 (-2)], Some (cN (-1)));
  (17, 18, [ShLin 0%nat 1 (-1)], [ShLin 0%nat 1 0], Some SPSU2_e2);
  (18, 18, [ShLin 0%nat 1 1], [ShLin 0%nat 1 0], Some SPSU2_e0);
  (19, 19, [ShLin 0%nat 1 (-1)], [ShLin 0%nat 1 (-2)], Some (cN (-1)));
  (19, 20, [ShLin 0%nat 1 (-1)], [ShLin 0%nat 1 0], Some SPSU2_e2);
  (20, 20, [ShLin 0%nat 1 1], [ShLin 0%nat 1 0], Some SPSU2_e0);
  (21, 21, [ShLin 0%nat 1 (-1)], [ShLin 0%nat 1 (-2)], Some (cN (-1)));
  (21, 22, [ShLin 0%nat 1 (-1)], [ShLin 0%nat 1 0], Some SPSU2_e2);
  (22, 22, [ShLin 0%nat 1 1], [ShLin 0%nat 1 0], Some SPSU2_e0);
  (23, 23, [ShLin 0%nat 1 (-1)], [ShLin 0%nat 1 (-2)], Some (cN (-1)));
  (23, 24, [ShLin 0%nat 1 (-1)], [ShLin 0%nat 1 0], Some SPSU2_e2);
  (24, 24, [ShLin 0%nat 1 1], [ShLin 0%nat 1 0], Some SPSU2_e0);
  (25, 25, [ShLin 0%nat 1 (-1)], [ShLin 0%nat 1 (-2)], Some (cN (-1)));
  (25, 26, [ShLin 0%nat 1 (-1)], [ShLin 0%nat 1 0], Some SPSU2_e2);
  (26, 26, [ShLin 0%nat 1 1], [ShLin 0%nat 1 0], Some SPSU2_e0);
  (27, 27, [ShLin 0%nat 1 (-1)], [ShLin 0%nat 1 (-2)], Some (cN (-1)));
  (27, 28, [ShLin 0%nat 1 (-1)], [ShLin 0%nat 1 0], Some SPSU2_e2);
  (28, 28, [ShLin 0%nat 1 1], [ShLin 0%nat 1 0], Some SPSU2_e0);
  (29, 29, [ShLin 0%nat 1 (-1)], [ShLin 0%nat 1 (-2)], Some (cN (-1)));
  (29, 30, [ShLin 0%nat 1 (-1)], [ShLin 0%nat 1 0], Some SPSU2_e2);
  (30, 30, [ShLin 0%nat 1 1], [ShLin 0%nat 1 0], Some SPSU2_e0);
  (31, 31, [ShLin 0%nat 1 (-1)], [ShLin 0%nat 1 (-2)], Some (cN (-1)));
  (31, 32, [ShLin 0%nat 1 (-1)], [ShLin 0%nat 1 0], Some SPSU2_e2);
  (32, 32, [ShLin 0%nat 1 1], [ShLin 0%nat 1 0], Some SPSU2_e0);
  (33, 33, [ShLin 0%nat 1 (-1)], [ShLin 0%nat 1 (-2)], Some (cN (-1)));
  (33, 34, [ShLin 0%nat 1 (-1)], [ShLin 0%nat 1 0], Some SPSU2_e2);
  (34, 34, [ShLin 0%nat 1 1], [ShLin 0%nat 1 0], Some SPSU2_e0);
  (35, 35, [ShLin 0%nat 1 (-1)], [ShLin 0%nat 1 (-2)], Some (cN (-1)));
  (35, 36, [ShLin 0%nat 1 (-1)], [ShLin 0%nat 1 0], Some SPSU2_e2);
  (36, 36, [ShLin 0%nat 1 1], [ShLin 0%nat 1 0], Some SPSU2_e0);
  (37, 37, [ShLin 0%nat 1 (-1)], [ShLin 0%nat 1 (-2)], Some (cN (-1)));
  (37, 38, [ShLin 0%nat 1 (-1)], [ShLin 0%nat 1 0], Some SPSU2_e2);
  (38, 38, [ShLin 0%nat 1 1], [ShLin 0%nat 1 0], Some SPSU2_e0);
  (39, 39, [ShLin 0%nat 1 (-1)], [ShLin 0%nat 1 (-2)], Some (cN (-1)));
  (39, 40, [ShLin 0%nat 1 (-1)], [ShLin 0%nat 1 0], Some SPSU2_e2);
  (40, 40, [ShLin 0%nat 1 1], [ShLin 0%nat 1 0], Some SPSU2_e0);
  (41, 41, [ShLin 0%nat 1 (-1)], [ShLin 0%nat 1 (-2)], Some (cN (-1)));
  (41, 42, [ShLin 0%nat 1 (-1)], [ShLin 0%nat 1 0], Some SPSU2_e2);
  (42, 42, [ShLin 0%nat 1 1], [ShLin 0%nat 1 0], Some SPSU2_e0);
  (43, 43, [ShLin 0%nat 1 (-2)], [ShLin 0%nat 1 (-3)], Some (cN 1));
  (43, 44, [ShLin 0%nat 1 (-2)], [ShLin 0%nat 1 (-1)], Some SPSU2_e11);
  (44, 44, [ShLin 0%nat 1 0], [ShLin 0%nat 1 (-1)], Some SPSU2_e19);
  (44, 45, [ShLin 0%nat 1 0], [ShLin 0%nat 1 1], Some SPSU2_e6);
  (45, 45, [ShLin 0%nat 1 2], [ShLin 0%nat 1 1], Some SPSU2_e20);
  (46, 46, [ShLin 0%nat 1 (-2)], [ShLin 0%nat 1 (-3)], Some (cN 1));
  (46, 47, [ShLin 0%nat 1 (-2)], [ShLin 0%nat 1 (-1)], Some SPSU2_e11);
  (47, 47, [ShLin 0%nat 1 0], [ShLin 0%nat 1 (-1)], Some SPSU2_e19);
  (47, 48, [ShLin 0%nat 1 0], [ShLin 0%nat 1 1], Some SPSU2_e6);
  (48, 48, [ShLin 0%nat 1 2], [ShLin 0%nat 1 1], Some SPSU2_e20);
  (49, 49, [ShLin 0%nat 1 (-2)], [ShLin 0%nat 1 (-3)], Some (cN 1));
  (49, 50, [ShLin 0%nat 1 (-2)], [ShLin 0%nat 1 (-1)], Some SPSU2_e11);
  (50, 50, [ShLin 0%nat 1 0], [ShLin 0%nat 1 (-1)], Some SPSU2_e19);
  (50, 51, [ShLin 0%nat 1 0], [ShLin 0%nat 1 1], Some SPSU2_e6);
  (51, 51, [ShLin 0%nat 1 2], [ShLin 0%nat 1 1], Some SPSU2_e20);
  (52, 52, [ShLin 0%nat 1 (-2)], [ShLin 0%nat 1 (-3)], Some (cN 1));
  (52, 53, [ShLin 0%nat 1 (-2)], [ShLin 0%nat 1 (-1)], Some SPSU2_e11);
  (53, 53, [ShLin 0%nat 1 0], [ShLin 0%nat 1 (-1)], Some SPSU2_e19);
  (53, 54, [ShLin 0%nat 1 0], [ShLin 0%nat 1 1], Some SPSU2_e6);
  (54, 54, [ShLin 0%nat 1 2], [ShLin 0%nat 1 1], Some SPSU2_e20);
  (55, 55, [ShLin 0%nat 1 (-2)], [ShLin 0%nat 1 (-3)], Some (cN 1));
  (55, 56, [ShLin 0%nat 1 (-2)], [ShLin 0%nat 1 (-1)], Some SPSU2_e11);
  (56, 56, [ShLin 0%nat 1 0], [ShLin 0%nat 1 (-1)], Some SPSU2_e19);
  (56, 57, [ShLin 0%nat 1 0], [ShLin 0%nat 1 1], Some SPSU2_e6);
  (57, 57, [ShLin 0%nat 1 2], [ShLin 0%nat 1 1], Some SPSU2_e20);
  (58, 58, [ShLin 0%nat 1 (-2)], [ShLin 0%nat 1 (-3)], Some (cN 1));
  (58, 59, [ShLin 0%nat 1 (-2)], [ShLin 0%nat 1 (-1)], Some SPSU2_e11);
  (59, 59, [ShLin 0%nat 1 0], [ShLin 0%nat 1 (-1)], Some SPSU2_e19);
  (59, 60, [ShLin 0%nat 1 0], [ShLin 0%nat 1 1], Some SPSU2_e6);
  (60, 60, [ShLin 0%nat 1 2], [ShLin 0%nat 1 1], Some SPSU2_e20);
  (61, 61, [ShLin 0%nat 1 (-3)], [ShLin 0%nat 1 (-4)], Some (cN (-1)));
  (61, 62, [ShLin 0%nat 1 (-3)], [ShLin 0%nat 1 (-2)], Some SPSU2_e62);
  (62, 62, [ShLin 0%nat 1 (-1)], [ShLin 0%nat 1 (-2)], Some SPSU2_e63);
  (62, 63, [ShLin 0%nat 1 (-1)], [ShLin 0%nat 1 0], Some SPSU2_e64);
  (63, 63, [ShLin 0%nat 1 1], [ShLin 0%nat 1 0], Some SPSU2_e58);
  (63, 64, [ShLin 0%nat 1 1], [ShLin 0%nat 1 2], Some SPSU2_e65);
  (64, 64, [ShLin 0%nat 1 3], [ShLin 0%nat 1 2], Some SPSU2_e66)].
(** /repo/c++/symmetry/nrg-recalc-SPSU2.hpp recalc_irreduc, spsu2/spsu2-3ch-spinupa.dat *)
Definition spsu2_3ch_t2 : irr_table := mk_irr 0 0 [ShLin 0%nat 1 1]  [
  (4, 16, Some SPSU2_e21);
  (6, 18, Some SPSU2_e21);
  (7, 20, Some SPSU2_e3);
  (9, 22, Some SPSU2_e21);
  (10, 24, Some SPSU2_e3);
  (11, 26, Some SPSU2_e21);
  (12, 28, Some SPSU2_e67);
  (12, 32, Some SPSU2_e68);
  (13, 34, Some SPSU2_e3);
  (14, 38, Some SPSU2_e3);
  (19, 1, Some (cN 1));
  (23, 2, Some (cN 1));
  (27, 3, Some (cQ (-1) 2));
  (27, 44, Some SPSU2_e69);
  (28, 45, Some SPSU2_e70);
  (29, 4, Some SPSU2_e22);
  (29, 47, Some SPSU2_e23);
  (30, 48, Some SPSU2_e24);
  (31, 3, Some (cD (cR (cN 3)) (cN 2)));
  (31, 44, Some SPSU2_e71);
  (32, 45, Some SPSU2_e72);
  (33, 5, Some (cN 1));
  (35, 6, Some SPSU2_e22);
  (35, 50, Some SPSU2_e23);
  (36, 51, Some SPSU2_e24);
  (37, 8, Some (cN 1));
  (39, 9, Some SPSU2_e22);
  (39, 53, Some SPSU2_e23);
  (40, 54, Some SPSU2_e24);
  (41, 11, Some SPSU2_e22);
  (41, 56, Some SPSU2_e23);
  (42, 57, Some SPSU2_e24);
  (46, 15, Some (cN (-1)));
  (47, 16, Some SPSU2_e25);
  (49, 17, Some (cN (-1)));
  (50, 18, Some SPSU2_e25);
  (52, 21, Some (cN (-1)));
  (53, 22, Some SPSU2_e25);
  (55, 25, Some (cN (-1)));
  (56, 26, Some SPSU2_e25);
  (58, 27, Some (cD (cN 1) (cR (cN 2))));
  (58, 31, Some (cD (cN 1) (cR (cN 6))));
  (58, 62, Some SPSU2_e73);
  (59, 28, Some SPSU2_e74);
  (59, 32, Some SPSU2_e75);
  (59, 63, Some SPSU2_e76);
  (60, 64, Some SPSU2_e3);
  (61, 43, Some (cN 1));
  (62, 44, Some SPSU2_e77);
  (63, 45, Some SPSU2_e78)].
(** /repo/c++/symmetry/nrg-recalc-SPSU2.hpp recalc_irreduc, spsu2/spsu2-3ch-spinupb.dat *)
Definition spsu2_3ch_t3 : irr_table := mk_irr 1 0 [ShLin 0%nat 1 1]  [
  (3, 16, Some SPSU2_e21);
  (5, 18, Some SPSU2_e3);
  (6, 20, Some SPSU2_e21);
  (8, 22, Some SPSU2_e3);
  (9, 24, Some SPSU2_e21);
  (11, 28, Some SPSU2_e67);
  (11, 32, Some SPSU2_e79);
  (12, 30, Some SPSU2_e21);
  (13, 36, Some SPSU2_e3);
  (14, 40, Some SPSU2_e3);
  (17, 1, Some (cN 1));
  (21, 2, Some (cN 1));
  (25, 3, Some SPSU2_e22);
  (25, 44, Some SPSU2_e23);
  (26, 45, Some SPSU2_e24);
  (27, 4, Some (cQ (-1) 2));
  (27, 47, Some SPSU2_e69);
  (28, 48, Some SPSU2_e70);
  (31, 4, Some SPSU2_e80);
  (31, 47, Some SPSU2_e81);
  (32, 48, Some SPSU2_e82);
  (33, 6, Some SPSU2_e22);
  (33, 50, Some SPSU2_e26);
  (34, 51, Some SPSU2_e3);
  (35, 7, Some (cN 1));
  (37, 9, Some SPSU2_e22);
  (37, 53, Some SPSU2_e26);
  (38, 54, Some SPSU2_e3);
  (39, 10, Some (cN 1));
  (41, 12, Some SPSU2_e22);
  (41, 59, Some SPSU2_e23);
  (42, 60, Some SPSU2_e24);
  (43, 15, Some (cN (-1)));
  (44, 16, Some SPSU2_e25);
  (49, 19, Some (cN 1));
  (50, 20, Some SPSU2_e27);
  (52, 23, Some (cN 1));
  (53, 24, Some SPSU2_e27);
  (55, 27, Some (cD (cN 1) (cR (cN 2))));
  (55, 31, Some SPSU2_e83);
  (55, 62, Some SPSU2_e84);
  (56, 28, Some SPSU2_e74);
  (56, 32, Some SPSU2_e85);
  (56, 63, Some SPSU2_e86);
  (57, 64, Some SPSU2_e24);
  (58, 29, Some (cN (-1)));
  (59, 30, Some SPSU2_e25);
  (61, 46, Some (cN (-1)));
  (62, 47, Some SPSU2_e87);
  (63, 48, Some SPSU2_e88)].
(** /repo/c++/symmetry/nrg-recalc-SPSU2.hpp recalc_irreduc, spsu2/spsu2-3ch-spinupc.dat *)
Definition spsu2_3ch_t4 : irr_table := mk_irr 2 0 [ShLin 0%nat 1 1]  [
  (2, 16, Some SPSU2_e3);
  (3, 18, Some SPSU2_e21);
  (4, 20, Some SPSU2_e21);
  (8, 26, Some SPSU2_e3);
  (9, 28, Some SPSU2_e3);
  (10, 30, Some SPSU2_e3);
  (11, 34, Some SPSU2_e21);
  (12, 36, Some SPSU2_e21);
  (14, 42, Some SPSU2_e3);
  (15, 1, Some (cN 1));
  (21, 3, Some SPSU2_e22);
  (21, 44, Some SPSU2_e26);
  (22, 45, Some SPSU2_e3);
  (23, 4, Some SPSU2_e22);
  (23, 47, Some SPSU2_e26);
  (24, 48, Some SPSU2_e3);
  (25, 5, Some (cN 1));
  (27, 6, Some (cN 1));
  (29, 7, Some (cN 1));
  (31, 50, Some SPSU2_e89);
  (32, 51, Some SPSU2_e90);
  (37, 11, Some SPSU2_e22);
  (37, 56, Some SPSU2_e26);
  (38, 57, Some SPSU2_e3);
  (39, 12, Some SPSU2_e22);
  (39, 59, Some SPSU2_e26);
  (40, 60, Some SPSU2_e3);
  (41, 13, Some (cN 1));
  (43, 17, Some (cN 1));
  (44, 18, Some SPSU2_e27);
  (46, 19, Some (cN 1));
  (47, 20, Some SPSU2_e27);
  (52, 31, Some (cO (cR (cQ 2 3))));
  (52, 62, Some SPSU2_e73);
  (53, 32, Some SPSU2_e91);
  (53, 63, Some SPSU2_e76);
  (54, 64, Some SPSU2_e3);
  (55, 33, Some (cN 1));
  (56, 34, Some SPSU2_e27);
  (58, 35, Some (cN 1));
  (59, 36, Some SPSU2_e27);
  (61, 49, Some (cN 1));
  (62, 50, Some SPSU2_e77);
  (63, 51, Some SPSU2_e78)].
(** /repo/c++/symmetry/nrg-recalc-SPSU2.hpp recalc_irreduc, spsu2/spsu2-3ch-spindowna.dat *)
Definition spsu2_3ch_t5 : irr_table := mk_irr 0 0 [ShLin 0%nat 1 (-1)]  [
  (4, 15, Some SPSU2_e28);
  (6, 17, Some SPSU2_e28);
  (7, 19, Some SPSU2_e4);
  (9, 21, Some SPSU2_e28);
  (10, 23, Some SPSU2_e4);
  (11, 25, Some SPSU2_e28);
  (12, 27, Some SPSU2_e92);
  (12, 31, Some SPSU2_e93);
  (13, 33, Some SPSU2_e4);
  (14, 37, Some SPSU2_e4);
  (20, 1, Some (cN 1));
  (24, 2, Some (cN 1));
  (27, 43, Some SPSU2_e94);
  (28, 3, Some (cQ (-1) 2));
  (28, 44, Some SPSU2_e95);
  (29, 46, Some SPSU2_e29);
  (30, 4, Some SPSU2_e22);
  (30, 47, Some SPSU2_e30);
  (31, 43, Some SPSU2_e96);
  (32, 3, Some (cD (cR (cN 3)) (cN 2)));
  (32, 44, Some SPSU2_e97);
  (34, 5, Some (cN 1));
  (35, 49, Some SPSU2_e29);
  (36, 6, Some SPSU2_e22);
  (36, 50, Some SPSU2_e30);
  (38, 8, Some (cN 1));
  (39, 52, Some SPSU2_e29);
  (40, 9, Some SPSU2_e22);
  (40, 53, Some SPSU2_e30);
  (41, 55, Some SPSU2_e29);
  (42, 11, Some SPSU2_e22);
  (42, 56, Some SPSU2_e30);
  (47, 15, Some SPSU2_e31);
  (48, 16, Some (cN (-1)));
  (50, 17, Some SPSU2_e31);
  (51, 18, Some (cN (-1)));
  (53, 21, Some SPSU2_e31);
  (54, 22, Some (cN (-1)));
  (56, 25, Some SPSU2_e31);
  (57, 26, Some (cN (-1)));
  (58, 61, Some SPSU2_e4);
  (59, 27, Some SPSU2_e98);
  (59, 31, Some SPSU2_e99);
  (59, 62, Some SPSU2_e100);
  (60, 28, Some (cD (cN 1) (cR (cN 2))));
  (60, 32, Some (cD (cN 1) (cR (cN 6))));
  (60, 63, Some SPSU2_e101);
  (62, 43, Some SPSU2_e102);
  (63, 44, Some SPSU2_e103);
  (64, 45, Some (cN 1))].
(** /repo/c++/symmetry/nrg-recalc-SPSU2.hpp recalc_irreduc, spsu2/spsu2-3ch-spindownb.dat *)
Definition spsu2_3ch_t6 : irr_table := mk_irr 1 0 [ShLin 0%nat 1 (-1)]  [
  (3, 15, Some SPSU2_e28);
  (5, 17, Some SPSU2_e4);
  (6, 19, Some SPSU2_e28);
  (8, 21, Some SPSU2_e4);
  (9, 23, Some SPSU2_e28);
  (11, 27, Some SPSU2_e92);
  (11, 31, Some SPSU2_e104);
  (12, 29, Some SPSU2_e28);
  (13, 35, Some SPSU2_e4);
  (14, 39, Some SPSU2_e4);
  (18, 1, Some (cN 1));
  (22, 2, Some (cN 1));
  (25, 43, Some SPSU2_e29);
  (26, 3, Some SPSU2_e22);
  (26, 44, Some SPSU2_e30);
  (27, 46, Some SPSU2_e94);
  (28, 4, Some (cQ (-1) 2));
  (28, 47, Some SPSU2_e95);
  (31, 46, Some SPSU2_e105);
  (32, 4, Some SPSU2_e80);
  (32, 47, Some SPSU2_e106);
  (33, 49, Some SPSU2_e4);
  (34, 6, Some SPSU2_e22);
  (34, 50, Some SPSU2_e32);
  (36, 7, Some (cN 1));
  (37, 52, Some SPSU2_e4);
  (38, 9, Some SPSU2_e22);
  (38, 53, Some SPSU2_e32);
  (40, 10, Some (cN 1));
  (41, 58, Some SPSU2_e29);
  (42, 12, Some SPSU2_e22);
  (42, 59, Some SPSU2_e30);
  (44, 15, Some SPSU2_e31);
  (45, 16, Some (cN (-1)));
  (50, 19, Some SPSU2_e33);
  (51, 20, Some (cN 1));
  (53, 23, Some SPSU2_e33);
  (54, 24, Some (cN 1));
  (55, 61, Some SPSU2_e29);
  (56, 27, Some SPSU2_e98);
  (56, 31, Some SPSU2_e107);
  (56, 62, Some SPSU2_e108);
  (57, 28, Some (cD (cN 1) (cR (cN 2))));
  (57, 32, Some SPSU2_e83);
  (57, 63, Some SPSU2_e109);
  (59, 29, Some SPSU2_e31);
  (60, 30, Some (cN (-1)));
  (62, 46, Some SPSU2_e110);
  (63, 47, Some SPSU2_e111);
  (64, 48, Some (cN (-1)))].
(** /repo/c++/symmetry/nrg-recalc-SPSU2.hpp recalc_irreduc, spsu2/spsu2-3ch-spindownc.dat *)
Definition spsu2_3ch_t7 : irr_table := mk_irr 2 0 [ShLin 0%nat 1 (-1)]  [
  (2, 15, Some SPSU2_e4);
  (3, 17, Some SPSU2_e28);
  (4, 19, Some SPSU2_e28);
  (8, 25, Some SPSU2_e4);
  (9, 27, Some SPSU2_e4);
  (10, 29, Some SPSU2_e4);
  (11, 33, Some SPSU2_e28);
  (12, 35, Some SPSU2_e28);
  (14, 41, Some SPSU2_e4);
  (16, 1, Some (cN 1));
  (21, 43, Some SPSU2_e4);
  (22, 3, Some SPSU2_e22);
  (22, 44, Some SPSU2_e32);
  (23, 46, Some SPSU2_e4);
  (24, 4, Some SPSU2_e22);
  (24, 47, Some SPSU2_e32);
  (26, 5, Some (cN 1));
  (28, 6, Some (cN 1));
  (30, 7, Some (cN 1));
  (31, 49, Some SPSU2_e112);
  (32, 50, Some SPSU2_e113);
  (37, 55, Some SPSU2_e4);
  (38, 11, Some SPSU2_e22);
  (38, 56, Some SPSU2_e32);
  (39, 58, Some SPSU2_e4);
  (40, 12, Some SPSU2_e22);
  (40, 59, Some SPSU2_e32);
  (42, 13, Some (cN 1));
  (44, 17, Some SPSU2_e33);
  (45, 18, Some (cN 1));
  (47, 19, Some SPSU2_e33);
  (48, 20, Some (cN 1));
  (52, 61, Some SPSU2_e4);
  (53, 31, Some SPSU2_e114);
  (53, 62, Some SPSU2_e100);
  (54, 32, Some (cO (cR (cQ 2 3))));
  (54, 63, Some SPSU2_e101);
  (56, 33, Some SPSU2_e33);
  (57, 34, Some (cN 1));
  (59, 35, Some SPSU2_e33);
  (60, 36, Some (cN 1));
  (62, 49, Some SPSU2_e102);
  (63, 50, Some SPSU2_e103);
  (64, 51, Some (cN 1))].
(** /repo/c++/symmetry/nrg-recalc-SPSU2.hpp recalc_triplet, spsu2/spsu2-3ch-triplets.dat *)
Definition spsu2_3ch_t8 : ten_table := mk_ten "triplet" [ShLin 0%nat 1 0] [3] [
  (1, 1, [ShLin 0%nat 1 0], [ShLin 0%nat 1 0], Some (cN 1));
  (2, 2, [ShLin 0%nat 1 0], [ShLin 0%nat 1 0], Some (cN 1));
  (3, 3, [ShLin 0%nat 1 0], [ShLin 0%nat 1 0], Some (cN 1));
  (4, 4, [ShLin 0%nat 1 0], [ShLin 0%nat 1 0], Some (cN 1));
  (5, 5, [ShLin 0%nat 1 0], [ShLin 0%nat 1 0], Some (cN 1));
  (6, 6, [ShLin 0%nat 1 0], [ShLin 0%nat 1 0], Some (cN 1));
  (7, 7, [ShLin 0%nat 1 0], [ShLin 0%nat 1 0], Some (cN 1));
  (8, 8, [ShLin 0%nat 1 0], [ShLin 0%nat 1 0], Some (cN 1));
  (9, 9, [ShLin 0%nat 1 0], [ShLin 0%nat 1 0], Some (cN 1));
  (10, 10, [ShLin 0%nat 1 0], [ShLin 0%nat 1 0], Some (cN 1));
  (11, 11, [ShLin 0%nat 1 0], [ShLin 0%nat 1 0], Some (cN 1));
  (12, 12, [ShLin 0%nat 1 0], [ShLin 0%nat 1 0], Some (cN 1));
  (13, 13, [ShLin 0%nat 1 0], [ShLin 0%nat 1 0], Some (cN 1));
  (14, 14, [ShLin 0%nat 1 0], [ShLin 0%nat 1 0], Some (cN 1));
  (15, 15, [ShLin 0%nat 1 (-1)], [ShLin 0%nat 1 (-1)], Some SPSU2_e5);
  (15, 16, [ShLin 0%nat 1 (-1)], [ShLin 0%nat 1 1], Some SPSU2_e6);
  (16, 15, [ShLin 0%nat 1 1], [ShLin 0%nat 1 (-1)], Some SPSU2_e7);
  (16, 16, [ShLin 0%nat 1 1], [ShLin 0%nat 1 1], Some SPSU2_e8);
  (17, 17, [ShLin 0%nat 1 (-1)], [ShLin 0%nat 1 (-1)], Some SPSU2_e5);
  (17, 18, [ShLin 0%nat 1 (-1)], [ShLin 0%nat 1 1], Some SPSU2_e6);
  (18, 17, [ShLin 0%nat 1 1], [ShLin 0%nat 1 (-1)], Some SPSU2_e7);
  (18, 18, [ShLin 0%nat 1 1], [ShLin 0%nat 1 1], Some SPSU2_e8);
  (19, 19, [ShLin 0%nat 1 (-1)], [ShLin 0%nat 1 (-1)], Some SPSU2_e5);
  (19, 20, [ShLin 0%nat 1 (-1)], [ShLin 0%nat 1 1], Some SPSU2_e6);
  (20, 19, [ShLin 0%nat 1 1], [ShLin 0%nat 1 (-1)], Some SPSU2_e7);
  (20, 20, [ShLin 0%nat 1 1], [ShLin 0%nat 1 1], Some SPSU2_e8);
  (21, 21, [ShLin 0%nat 1 (-1)], [ShLin 0%nat 1 (-1)], Some SPSU2_e5);
  (21, 22, [ShLin 0%nat 1 (-1)], [ShLin 0%nat 1 1], Some SPSU2_e6);
  (22, 21, [ShLin 0%nat 1 1], [ShLin 0%nat 1 (-1)], Some SPSU2_e7);
  (22, 22, [ShLin 0%nat 1 1], [ShLin 0%nat 1 1], Some SPSU2_e8);
  (23, 23, [ShLin 0%nat 1 (-1)], [ShLin 0%nat 1 (-1)], Some SPSU2_e5);
  (23, 24, [ShLin 0%nat 1 (-1)], [ShLin 0%nat 1 1], Some SPSU2_e6);
  (24, 23, [ShLin 0%nat 1 1], [ShLin 0%nat 1 (-1)], Some SPSU2_e7);
  (24, 24, [ShLin 0%nat 1 1], [ShLin 0%nat 1 1], Some SPSU2_e8);
  (25, 25, [ShLin 0%nat 1 (-1)], [ShLin 0%nat 1 (-1)], Some SPSU2_e5);
  (25, 26, [ShLin 0%nat 1 (-1)], [ShLin 0%nat 1 1], Some SPSU2_e6);
  (26, 25, [ShLin 0%nat 1 1], [ShLin 0%nat 1 (-1)], Some SPSU2_e7);
  (26, 26, [ShLin 0%nat 1 1], [ShLin 0%nat 1 1], Some SPSU2_e8);
  (27, 27, [ShLin 0%nat 1 (-1)], [ShLin 0%nat 1 (-1)], Some SPSU2_e5);
  (27, 28, [ShLin 0%nat 1 (-1)], [ShLin 0%nat 1 1], Some SPSU2_e6);
  (28, 27, [ShLin 0%nat 1 1], [ShLin 0%nat 1 (-1)], Some SPSU2_e7);
  (28, 28, [ShLin 0%nat 1 1], [ShLin 0%nat 1 1], Some SPSU2_e8);
  (29, 29, [ShLin 0%nat 1 (-1)], [ShLin 0%nat 1 (-1)], Some SPSU2_e5);
  (29, 30, [ShLin 0%nat 1 (-1)], [ShLin 0%nat 1 1], Some SPSU2_e6);
  (30, 29, [ShLin 0%nat 1 1], [ShLin 0%nat 1 (-1)], Some SPSU2_e7);
  (30, 30, [ShLin 0%nat 1 1], [ShLin 0%nat 1 1], Some SPSU2_e8);
  (31, 31, [ShLin 0%nat 1 (-1)], [ShLin 0%nat 1 (-1)], Some SPSU2_e5);
  (31, 32, [ShLin 0%nat 1 (-1)], [ShLin 0%nat 1 1], Some SPSU2_e6);
  (32, 31, [ShLin 0%nat 1 1], [ShLin 0%nat 1 (-1)], Some SPSU2_e7);
  (32, 32, [ShLin 0%nat 1 1], [ShLin 0%nat 1 1], Some SPSU2_e8);
  (33, 33, [ShLin 0%nat 1 (-1)], [ShLin 0%nat 1 (-1)], Some SPSU2_e5);
  (33, 34, [ShLin 0%nat 1 (-1)], [ShLin 0%nat 1 1], Some SPSU2_e6);
  (34, 33, [ShLin 0%nat 1 1], [ShLin 0%nat 1 (-1)], Some SPSU2_e7);
  (34, 34, [ShLin 0%nat 1 1], [ShLin 0%nat 1 1], Some SPSU2_e8);
  (35, 35, [ShLin 0%nat 1 (-1)], [ShLin 0%nat 1 (-1)], Some SPSU2_e5);
  (35, 36, [ShLin 0%nat 1 (-1)], [ShLin 0%nat 1 1], Some SPSU2_e6);
  (36, 35, [ShLin 0%nat 1 1], [ShLin 0%nat 1 (-1)], Some SPSU2_e7);
  (36, 36, [ShLin 0%nat 1 1], [ShLin 0%nat 1 1], Some SPSU2_e8);
  (37, 37, [ShLin 0%nat 1 (-1)], [ShLin 0%nat 1 (-1)], Some SPSU2_e5);
  (37, 38, [ShLin 0%nat 1 (-1)], [ShLin 0%nat 1 1], Some SPSU2_e6);
  (38, 37, [ShLin 0%nat 1 1], [ShLin 0%nat 1 (-1)], Some SPSU2_e7);
  (38, 38, [ShLin 0%nat 1 1], [ShLin 0%nat 1 1], Some SPSU2_e8);
  (39, 39, [ShLin 0%nat 1 (-1)], [ShLin 0%nat 1 (-1)], Some SPSU2_e5);
  (39, 40, [ShLin 0%nat 1 (-1)], [ShLin 0%nat 1 1], Some SPSU2_e6);
  (40, 39, [ShLin 0%nat 1 1], [ShLin 0%nat 1 (-1)], Some SPSU2_e7);
  (40, 40, [ShLin 0%nat 1 1], [ShLin 0%nat 1 1], Some SPSU2_e8);
  (41, 41, [ShLin 0%nat 1 (-1)], [ShLin 0%nat 1 (-1)], Some SPSU2_e5);
  (41, 42, [ShLin 0%nat 1 (-1)], [ShLin 0%nat 1 1], Some SPSU2_e6);
  (42, 41, [ShLin 0%nat 1 1], [ShLin 0%nat 1 (-1)], Some SPSU2_e7);
  (42, 42, [ShLin 0%nat 1 1], [ShLin 0%nat 1 1], Some SPSU2_e8);
  (43, 43, [ShLin 0%nat 1 (-2)], [ShLin 0%nat 1 (-2)], Some SPSU2_e34);
  (43, 44, [ShLin 0%nat 1 (-2)], [ShLin 0%nat 1 0], Some SPSU2_e35);
  (44, 43, [ShLin 0%nat 1 0], [ShLin 0%nat 1 (-2)], Some (cO (cD (cN 1) (cH 0))));
  (44, 44, [ShLin 0%nat 1 0], [ShLin 0%nat 1 0], Some SPSU2_e36);
  (44, 45, [ShLin 0%nat 1 0], [ShLin 0%nat 1 2], Some SPSU2_e37);
  (45, 44, [ShLin 0%nat 1 2], [ShLin 0%nat 1 0], Some SPSU2_e38);
  (45, 45, [ShLin 0%nat 1 2], [ShLin 0%nat 1 2], Some SPSU2_e39);
  (46, 46, [ShLin 0%nat 1 (-2)], [ShLin 0%nat 1 (-2)], Some SPSU2_e34);
  (46, 47, [ShLin 0%nat 1 (-2)], [ShLin 0%nat 1 0], Some SPSU2_e35);
  (47, 46, [ShLin 0%nat 1 0], [ShLin 0%nat 1 (-2)], Some (cO (cD (cN 1) (cH 0))));
  (47, 47, [ShLin 0%nat 1 0], [ShLin 0%nat 1 0], Some SPSU2_e36);
  (47, 48, [ShLin 0%nat 1 0], [ShLin 0%nat 1 2], Some SPSU2_e37);
  (48, 47, [ShLin 0%nat 1 2], [ShLin 0%nat 1 0], Some SPSU2_e38);
  (48, 48, [ShLin 0%nat 1 2], [ShLin 0%nat 1 2], Some SPSU2_e39);
  (49, 49, [ShLin 0%nat 1 (-2)], [ShLin 0%nat 1 (-2)], Some SPSU2_e34);
  (49, 50, [ShLin 0%nat 1 (-2)], [ShLin 0%nat 1 0], Some SPSU2_e35);
  (50, 49, [ShLin 0%nat 1 0], [ShLin 0%nat 1 (-2)], Some (cO (cD (cN 1) (cH 0))));
  (50, 50, [ShLin 0%nat 1 0], [ShLin 0%nat 1 0], Some SPSU2_e36);
  (50, 51, [ShLin 0%nat 1 0], [ShLin 0%nat 1 2], Some SPSU2_e37);
  (51, 50, [ShLin 0%nat 1 2], [ShLin 0%nat 1 0], Some SPSU2_e38);
  (51, 51, [ShLin 0%nat 1 2], [ShLin 0%nat 1 2], Some SPSU2_e39);
  (52, 52, [ShLin 0%nat 1 (-2)], [ShLin 0%nat 1 (-2)], Some SPSU2_e34);
  (52, 53, [ShLin 0%nat 1 (-2)], [ShLin 0%nat 1 0], Some SPSU2_e35);
  (53, 52, [ShLin 0%nat 1 0], [ShLin 0%nat 1 (-2)], Some (cO (cD (cN 1) (cH 0))));
  (53, 53, [ShLin 0%nat 1 0], [ShLin 0%nat 1 0], Some SPSU2_e36);
  (53, 54, [ShLin 0%nat 1 0], [ShLin 0%nat 1 2], Some SPSU2_e37);
  (54, 53, [ShLin 0%nat 1 2], [ShLin 0%nat 1 0], Some SPSU2_e38);
  (54, 54, [ShLin 0%nat 1 2], [ShLin 0%nat 1 2], Some SPSU2_e39);
  (55, 55, [ShLin 0%nat 1 (-2)], [ShLin 0%nat 1 (-2)], Some SPSU2_e34);
  (55, 56, [ShLin 0%nat 1 (-2)], [ShLin 0%nat 1 0], Some SPSU2_e35);
  (56, 55, [ShLin 0%nat 1 0], [ShLin 0%nat 1 (-2)], Some (cO (cD (cN 1) (cH 0))));
  (56, 56, [ShLin 0%nat 1 0], [ShLin 0%nat 1 0], Some SPSU2_e36);
  (56, 57, [ShLin 0%nat 1 0], [ShLin 0%nat 1 2], Some SPSU2_e37);
  (57, 56, [ShLin 0%nat 1 2], [ShLin 0%nat 1 0], Some SPSU2_e38);
  (57, 57, [ShLin 0%nat 1 2], [ShLin 0%nat 1 2], Some SPSU2_e39);
  (58, 58, [ShLin 0%nat 1 (-2)], [ShLin 0%nat 1 (-2)], Some SPSU2_e34);
  (58, 59, [ShLin 0%nat 1 (-2)], [ShLin 0%nat 1 0], Some SPSU2_e35);
  (59, 58, [ShLin 0%nat 1 0], [ShLin 0%nat 1 (-2)], Some (cO (cD (cN 1) (cH 0))));
  (59, 59, [ShLin 0%nat 1 0], [ShLin 0%nat 1 0], Some SPSU2_e36);
  (59, 60, [ShLin 0%nat 1 0], [ShLin 0%nat 1 2], Some SPSU2_e37);
  (60, 59, [ShLin 0%nat 1 2], [ShLin 0%nat 1 0], Some SPSU2_e38);
  (60, 60, [ShLin 0%nat 1 2], [ShLin 0%nat 1 2], Some SPSU2_e39);
  (61, 61, [ShLin 0%nat 1 (-3)], [ShLin 0%nat 1 (-3)], Some SPSU2_e115);
  (61, 62, [ShLin 0%nat 1 (-3)], [ShLin 0%nat 1 (-1)], Some SPSU2_e116);
  (62, 61, [ShLin 0%nat 1 (-1)], [ShLin 0%nat 1 (-3)], Some SPSU2_e117);
  (62, 62, [ShLin 0%nat 1 (-1)], [ShLin 0%nat 1 (-1)], Some SPSU2_e118);
  (62, 63, [ShLin 0%nat 1 (-1)], [ShLin 0%nat 1 1], Some SPSU2_e119);
  (63, 62, [ShLin 0%nat 1 1], [ShLin 0%nat 1 (-1)], Some SPSU2_e120);
  (63, 63, [ShLin 0%nat 1 1], [ShLin 0%nat 1 1], Some SPSU2_e121);
  (63, 64, [ShLin 0%nat 1 1], [ShLin 0%nat 1 3], Some SPSU2_e122);
  (64, 63, [ShLin 0%nat 1 3], [ShLin 0%nat 1 1], Some SPSU2_e123);
  (64, 64, [ShLin 0%nat 1 3], [ShLin 0%nat 1 3], Some SPSU2_e124)].
(** /repo/c++/symmetry/nrg-recalc-SPSU2.hpp recalc_triplet, spsu2/spsu2-3ch-tripletp.dat *)
Definition spsu2_3ch_t9 : ten_table := mk_ten "triplet" [ShLin 0%nat 1 2] [3] [
  (1, 1, [ShLin 0%nat 1 0], [ShLin 0%nat 1 2], Some (cN 1));
  (2, 2, [ShLin 0%nat 1 0], [ShLin 0%nat 1 2], Some (cN 1));
  (3, 3, [ShLin 0%nat 1 0], [ShLin 0%nat 1 2], Some (cN 1));
  (4, 4, [ShLin 0%nat 1 0], [ShLin 0%nat 1 2], Some (cN 1));
  (5, 5, [ShLin 0%nat 1 0], [ShLin 0%nat 1 2], Some (cN 1));
  (6, 6, [ShLin 0%nat 1 0], [ShLin 0%nat 1 2], Some (cN 1));
  (7, 7, [ShLin 0%nat 1 0], [ShLin 0%nat 1 2], Some (cN 1));
  (8, 8, [ShLin 0%nat 1 0], [ShLin 0%nat 1 2], Some (cN 1));
  (9, 9, [ShLin 0%nat 1 0], [ShLin 0%nat 1 2], Some (cN 1));
  (10, 10, [ShLin 0%nat 1 0], [ShLin 0%nat 1 2], Some (cN 1));
  (11, 11, [ShLin 0%nat 1 0], [ShLin 0%nat 1 2], Some (cN 1));
  (12, 12, [ShLin 0%nat 1 0], [ShLin 0%nat 1 2], Some (cN 1));
  (13, 13, [ShLin 0%nat 1 0], [ShLin 0%nat 1 2], Some (cN 1));
  (14, 14, [ShLin 0%nat 1 0], [ShLin 0%nat 1 2], Some (cN 1));
  (15, 15, [ShLin 0%nat 1 (-1)], [ShLin 0%nat 1 1], Some SPSU2_e9);
  (16, 15, [ShLin 0%nat 1 1], [ShLin 0%nat 1 1], Some SPSU2_e10);
  (16, 16, [ShLin 0%nat 1 1], [ShLin 0%nat 1 3], Some (cN 1));
  (17, 17, [ShLin 0%nat 1 (-1)], [ShLin 0%nat 1 1], Some SPSU2_e9);
  (18, 17, [ShLin 0%nat 1 1], [ShLin 0%nat 1 1], Some SPSU2_e10);
  (18, 18, [ShLin 0%nat 1 1], [ShLin 0%nat 1 3], Some (cN 1));
  (19, 19, [ShLin 0%nat 1 (-1)], [ShLin 0%nat 1 1], Some SPSU2_e9);
  (20, 19, [ShLin 0%nat 1 1], [ShLin 0%nat 1 1], Some SPSU2_e10);
  (20, 20, [ShLin 0%nat 1 1], [ShLin 0%nat 1 3], Some (cN 1));
  (21, 21, [ShLin 0%nat 1 (-1)], [ShLin 0%nat 1 1], Some SPSU2_e9);
  (22, 21, [ShLin 0%nat 1 1], [ShLin 0%nat 1 1], Some SPSU2_e10);
  (22, 22, [ShLin 0%nat 1 1], [ShLin 0%nat 1 3], Some (cN 1));
  (23, 23, [ShLin 0%nat 1 (-1)], [ShLin 0%nat 1 1], Some SPSU2_e9);
  (24, 23, [ShLin 0%nat 1 1], [ShLin 0%nat 1 1], Some SPSU2_e10);
  (24, 24, [ShLin 0%nat 1 1], [ShLin 0%nat 1 3], Some (cN 1));
  (25, 25, [ShLin 0%nat 1 (-1)], [ShLin 0%nat 1 1], Some SPSU2_e9);
  (26, 25, [ShLin 0%nat 1 1], [ShLin 0%nat 1 1], Some SPSU2_e10);
  (26, 26, [ShLin 0%nat 1 1], [ShLin 0%nat 1 3], Some (cN 1));
  (27, 27, [ShLin 0%nat 1 (-1)], [ShLin 0%nat 1 1], Some SPSU2_e9);
  (28, 27, [ShLin 0%nat 1 1], [ShLin 0%nat 1 1], Some SPSU2_e10);
  (28, 28, [ShLin 0%nat 1 1], [ShLin 0%nat 1 3], Some (cN 1));
  (29, 29, [ShLin 0%nat 1 (-1)], [ShLin 0%nat 1 1], Some SPSU2_e9);
  (30, 29, [ShLin 0%nat 1 1], [ShLin 0%nat 1 1], Some SPSU2_e10);
  (30, 30, [ShLin 0%nat 1 1], [ShLin 0%nat 1 3], Some (cN 1));
  (31, 31, [ShLin 0%nat 1 (-1)], [ShLin 0%nat 1 1], Some SPSU2_e9);
  (32, 31, [ShLin 0%nat 1 1], [ShLin 0%nat 1 1], Some SPSU2_e10);
  (32, 32, [ShLin 0%nat 1 1], [ShLin 0%nat 1 3], Some (cN 1));
  (33, 33, [ShLin 0%nat 1 (-1)], [ShLin 0%nat 1 1], Some SPSU2_e9);
  (34, 33, [ShLin 0%nat 1 1], [ShLin 0%nat 1 1], Some SPSU2_e10);
  (34, 34, [ShLin 0%nat 1 1], [ShLin 0%nat 1 3], Some (cN 1));
  (35, 35, [ShLin 0%nat 1 (-1)], [ShLin 0%nat 1 1], Some SPSU2_e9);
  (36, 35, [ShLin 0%nat 1 1], [ShLin 0%nat 1 1], Some SPSU2_e10);
  (36, 36, [ShLin 0%nat 1 1], [ShLin 0%nat 1 3], Some (cN 1));
  (37, 37, [ShLin 0%nat 1 (-1)], [ShLin 0%nat 1 1], Some SPSU2_e9);
  (38, 37, [ShLin 0%nat 1 1], [ShLin 0%nat 1 1], Some SPSU2_e10);
  (38, 38, [ShLin 0%nat 1 1], [ShLin 0%nat 1 3], Some (cN 1));
  (39, 39, [ShLin 0%nat 1 (-1)], [ShLin 0%nat 1 1], Some SPSU2_e9);
  (40, 39, [ShLin 0%nat 1 1], [ShLin 0%nat 1 1], Some SPSU2_e10);
  (40, 40, [ShLin 0%nat 1 1], [ShLin 0%nat 1 3], Some (cN 1));
  (41, 41, [ShLin 0%nat 1 (-1)], [ShLin 0%nat 1 1], Some SPSU2_e9);
  (42, 41, [ShLin 0%nat 1 1], [ShLin 0%nat 1 1], Some SPSU2_e10);
  (42, 42, [ShLin 0%nat 1 1], [ShLin 0%nat 1 3], Some (cN 1));
  (43, 43, [ShLin 0%nat 1 (-2)], [ShLin 0%nat 1 0], Some SPSU2_e40);
  (44, 43, [ShLin 0%nat 1 0], [ShLin 0%nat 1 0], Some SPSU2_e41);
  (44, 44, [ShLin 0%nat 1 0], [ShLin 0%nat 1 2], Some SPSU2_e39);
  (45, 43, [ShLin 0%nat 1 2], [ShLin 0%nat 1 0], Some SPSU2_e42);
  (45, 44, [ShLin 0%nat 1 2], [ShLin 0%nat 1 2], Some SPSU2_e43);
  (45, 45, [ShLin 0%nat 1 2], [ShLin 0%nat 1 4], Some (cN 1));
  (46, 46, [ShLin 0%nat 1 (-2)], [ShLin 0%nat 1 0], Some SPSU2_e40);
  (47, 46, [ShLin 0%nat 1 0], [ShLin 0%nat 1 0], Some SPSU2_e41);
  (47, 47, [ShLin 0%nat 1 0], [ShLin 0%nat 1 2], Some SPSU2_e39);
  (48, 46, [ShLin 0%nat 1 2], [ShLin 0%nat 1 0], Some SPSU2_e42);
  (48, 47, [ShLin 0%nat 1 2], [ShLin 0%nat 1 2], Some SPSU2_e43);
  (48, 48, [ShLin 0%nat 1 2], [ShLin 0%nat 1 4], Some (cN 1));
  (49, 49, [ShLin 0%nat 1 (-2)], [ShLin 0%nat 1 0], Some SPSU2_e40);
  (50, 49, [ShLin 0%nat 1 0], [ShLin 0%nat 1 0], Some SPSU2_e41);
  (50, 50, [ShLin 0%nat 1 0], [ShLin 0%nat 1 2], Some SPSU2_e39);
  (51, 49, [ShLin 0%nat 1 2], [ShLin 0%nat 1 0], Some SPSU2_e42);
  (51, 50, [ShLin 0%nat 1 2], [ShLin 0%nat 1 2], Some SPSU2_e43);
  (51, 51, [ShLin 0%nat 1 2], [ShLin 0%nat 1 4], Some (cN 1));
  (52, 52, [ShLin 0%nat 1 (-2)], [ShLin 0%nat 1 0], Some SPSU2_e40);
  (53, 52, [ShLin 0%nat 1 0], [ShLin 0%nat 1 0], Some SPSU2_e41);
  (53, 53, [ShLin 0%nat 1 0], [ShLin 0%nat 1 2], Some SPSU2_e39);
  (54, 52, [ShLin 0%nat 1 2], [ShLin 0%nat 1 0], Some SPSU2_e42);
  (54, 53, [ShLin 0%nat 1 2], [ShLin 0%nat 1 2], Some SPSU2_e43);
  (54, 54, [ShLin 0%nat 1 2], [ShLin 0%nat 1 4], Some (cN 1));
  (55, 55, [ShLin 0%nat 1 (-2)], [ShLin 0%nat 1 0], Some SPSU2_e40);
  (56, 55, [ShLin 0%nat 1 0], [ShLin 0%nat 1 0], Some SPSU2_e41);
  (56, 56, [ShLin 0%nat 1 0], [ShLin 0%nat 1 2], Some SPSU2_e39);
  (57, 55, [ShLin 0%nat 1 2], [ShLin 0%nat 1 0], Some SPSU2_e42);
  (57, 56, [ShLin 0%nat 1 2], [ShLin 0%nat 1 2], Some SPSU2_e43);
  (57, 57, [ShLin 0%nat 1 2], [ShLin 0%nat 1 4], Some (cN 1));
  (58, 58, [ShLin 0%nat 1 (-2)], [ShLin 0%nat 1 0], Some SPSU2_e40);
  (59, 58, [ShLin 0%nat 1 0], [ShLin 0%nat 1 0], Some SPSU2_e41);
  (59, 59, [ShLin 0%nat 1 0], [ShLin 0%nat 1 2], Some SPSU2_e39);
  (60, 58, [ShLin 0%nat 1 2], [ShLin 0%nat 1 0], Some SPSU2_e42);
  (60, 59, [ShLin 0%nat 1 2], [ShLin 0%nat 1 2], Some SPSU2_e43);
  (60, 60, [ShLin 0%nat 1 2], [ShLin 0%nat 1 4], Some (cN 1));
  (61, 61, [ShLin 0%nat 1 (-3)], [ShLin 0%nat 1 (-1)], Some SPSU2_e125);
  (62, 61, [ShLin 0%nat 1 (-1)], [ShLin 0%nat 1 (-1)], Some SPSU2_e126);
  (62, 62, [ShLin 0%nat 1 (-1)], [ShLin 0%nat 1 1], Some SPSU2_e127);
  (63, 61, [ShLin 0%nat 1 1], [ShLin 0%nat 1 (-1)], Some SPSU2_e128);
  (63, 62, [ShLin 0%nat 1 1], [ShLin 0%nat 1 1], Some SPSU2_e129);
  (63, 63, [ShLin 0%nat 1 1], [ShLin 0%nat 1 3], Some SPSU2_e130);
  (64, 62, [ShLin 0%nat 1 3], [ShLin 0%nat 1 1], Some SPSU2_e131);
  (64, 63, [ShLin 0%nat 1 3], [ShLin 0%nat 1 3], Some SPSU2_e132);
  (64, 64, [ShLin 0%nat 1 3], [ShLin 0%nat 1 5], Some (cN 1))].
(** /repo/c++/symmetry/sym-SPSU2-impl.hpp, make_matrix if (!P.substeps) *)
Definition spsu2_3ch_m0_o : list off_line := [
  (1, 19, 0, 0, "xi", Some (cN 1));
  (1, 20, 0, 0, "xi", Some (cN 1));
  (2, 23, 0, 0, "xi", Some (cN 1));
  (2, 24, 0, 0, "xi", Some (cN 1));
  (3, 27, 0, 0, "xi", Some (cQ (-1) 2));
  (3, 28, 0, 0, "xi", Some (cQ (-1) 2));
  (3, 31, 0, 0, "xi", Some (cD (cR (cN 3)) (cN 2)));
  (3, 32, 0, 0, "xi", Some (cD (cR (cN 3)) (cN 2)));
  (4, 29, 0, 0, "xi", Some SPSU2_e22);
  (4, 30, 0, 0, "xi", Some SPSU2_e22);
  (5, 33, 0, 0, "xi", Some (cN 1));
  (5, 34, 0, 0, "xi", Some (cN 1));
  (6, 35, 0, 0, "xi", Some SPSU2_e22);
  (6, 36, 0, 0, "xi", Some SPSU2_e22);
  (8, 37, 0, 0, "xi", Some (cN 1));
  (8, 38, 0, 0, "xi", Some (cN 1));
  (9, 39, 0, 0, "xi", Some SPSU2_e22);
  (9, 40, 0, 0, "xi", Some SPSU2_e22);
  (11, 41, 0, 0, "xi", Some SPSU2_e22);
  (11, 42, 0, 0, "xi", Some SPSU2_e22);
  (15, 4, 0, 0, "xi", Some SPSU2_e45);
  (15, 46, 0, 0, "xi", Some (cN 1));
  (15, 47, 0, 0, "xi", Some SPSU2_e46);
  (16, 4, 0, 0, "xi", Some SPSU2_e46);
  (16, 47, 0, 0, "xi", Some SPSU2_e47);
  (16, 48, 0, 0, "xi", Some (cN 1));
  (17, 6, 0, 0, "xi", Some SPSU2_e45);
  (17, 49, 0, 0, "xi", Some (cN 1));
  (17, 50, 0, 0, "xi", Some SPSU2_e46);
  (18, 6, 0, 0, "xi", Some SPSU2_e46);
  (18, 50, 0, 0, "xi", Some SPSU2_e47);
  (18, 51, 0, 0, "xi", Some (cN 1));
  (19, 7, 0, 0, "xi", Some SPSU2_e13);
  (20, 7, 0, 0, "xi", Some SPSU2_e14);
  (21, 9, 0, 0, "xi", Some SPSU2_e45);
  (21, 52, 0, 0, "xi", Some (cN 1));
  (21, 53, 0, 0, "xi", Some SPSU2_e46);
  (22, 9, 0, 0, "xi", Some SPSU2_e46);
  (22, 53, 0, 0, "xi", Some SPSU2_e47);
  (22, 54, 0, 0, "xi", Some (cN 1));
  (23, 10, 0, 0, "xi", Some SPSU2_e13);
  (24, 10, 0, 0, "xi", Some SPSU2_e14);
  (25, 11, 0, 0, "xi", Some SPSU2_e45);
  (25, 55, 0, 0, "xi", Some (cN 1));
  (25, 56, 0, 0, "xi", Some SPSU2_e46);
  (26, 11, 0, 0, "xi", Some SPSU2_e46);
  (26, 56, 0, 0, "xi", Some SPSU2_e47);
  (26, 57, 0, 0, "xi", Some (cN 1));
  (27, 12, 0, 0, "xi", Some SPSU2_e133);
  (27, 58, 0, 0, "xi", Some SPSU2_e22);
  (27, 59, 0, 0, "xi", Some SPSU2_e134);
  (28, 12, 0, 0, "xi", Some SPSU2_e135);
  (28, 59, 0, 0, "xi", Some SPSU2_e136);
  (28, 60, 0, 0, "xi", Some SPSU2_e22);
  (31, 12, 0, 0, "xi", Some SPSU2_e137);
  (31, 58, 0, 0, "xi", Some SPSU2_e83);
  (31, 59, 0, 0, "xi", Some SPSU2_e138);
  (32, 12, 0, 0, "xi", Some SPSU2_e139);
  (32, 59, 0, 0, "xi", Some SPSU2_e140);
  (32, 60, 0, 0, "xi", Some SPSU2_e83);
  (33, 13, 0, 0, "xi", Some SPSU2_e13);
  (34, 13, 0, 0, "xi", Some SPSU2_e14);
  (37, 14, 0, 0, "xi", Some SPSU2_e13);
  (38, 14, 0, 0, "xi", Some SPSU2_e14);
  (43, 27, 0, 0, "xi", Some SPSU2_e31);
  (43, 31, 0, 0, "xi", Some SPSU2_e141);
  (43, 61, 0, 0, "xi", Some (cN 1));
  (43, 62, 0, 0, "xi", Some SPSU2_e113);
  (44, 27, 0, 0, "xi", Some SPSU2_e142);
  (44, 28, 0, 0, "xi", Some SPSU2_e143);
  (44, 31, 0, 0, "xi", Some SPSU2_e106);
  (44, 32, 0, 0, "xi", Some SPSU2_e144);
  (44, 62, 0, 0, "xi", Some SPSU2_e103);
  (44, 63, 0, 0, "xi", Some SPSU2_e145);
  (45, 28, 0, 0, "xi", Some SPSU2_e27);
  (45, 32, 0, 0, "xi", Some SPSU2_e146);
  (45, 63, 0, 0, "xi", Some SPSU2_e147);
  (45, 64, 0, 0, "xi", Some (cN 1));
  (46, 29, 0, 0, "xi", Some SPSU2_e48);
  (47, 29, 0, 0, "xi", Some SPSU2_e32);
  (47, 30, 0, 0, "xi", Some SPSU2_e49);
  (48, 30, 0, 0, "xi", Some SPSU2_e50);
  (49, 35, 0, 0, "xi", Some SPSU2_e48);
  (50, 35, 0, 0, "xi", Some SPSU2_e32);
  (50, 36, 0, 0, "xi", Some SPSU2_e49);
  (51, 36, 0, 0, "xi", Some SPSU2_e50);
  (52, 39, 0, 0, "xi", Some SPSU2_e48);
  (53, 39, 0, 0, "xi", Some SPSU2_e32);
  (53, 40, 0, 0, "xi", Some SPSU2_e49);
  (54, 40, 0, 0, "xi", Some SPSU2_e50);
  (55, 41, 0, 0, "xi", Some SPSU2_e48);
  (56, 41, 0, 0, "xi", Some SPSU2_e32);
  (56, 42, 0, 0, "xi", Some SPSU2_e49);
  (57, 42, 0, 0, "xi", Some SPSU2_e50);
  (61, 58, 0, 0, "xi", Some SPSU2_e148);
  (62, 58, 0, 0, "xi", Some SPSU2_e149);
  (62, 59, 0, 0, "xi", Some SPSU2_e150);
  (63, 59, 0, 0, "xi", Some SPSU2_e151);
  (63, 60, 0, 0, "xi", Some SPSU2_e152);
  (64, 60, 0, 0, "xi", Some SPSU2_e153);
  (1, 17, 1, 0, "xi", Some (cN 1));
  (1, 18, 1, 0, "xi", Some (cN 1));
  (2, 21, 1, 0, "xi", Some (cN 1));
  (2, 22, 1, 0, "xi", Some (cN 1));
  (3, 25, 1, 0, "xi", Some SPSU2_e22);
  (3, 26, 1, 0, "xi", Some SPSU2_e22);
  (4, 27, 1, 0, "xi", Some (cQ (-1) 2));
  (4, 28, 1, 0, "xi", Some (cQ (-1) 2));
  (4, 31, 1, 0, "xi", Some SPSU2_e80);
  (4, 32, 1, 0, "xi", Some SPSU2_e80);
  (6, 33, 1, 0, "xi", Some SPSU2_e22);
  (6, 34, 1, 0, "xi", Some SPSU2_e22);
  (7, 35, 1, 0, "xi", Some (cN 1));
  (7, 36, 1, 0, "xi", Some (cN 1));
  (9, 37, 1, 0, "xi", Some SPSU2_e22);
  (9, 38, 1, 0, "xi", Some SPSU2_e22);
  (10, 39, 1, 0, "xi", Some (cN 1));
  (10, 40, 1, 0, "xi", Some (cN 1));
  (12, 41, 1, 0, "xi", Some SPSU2_e22);
  (12, 42, 1, 0, "xi", Some SPSU2_e22);
  (15, 3, 1, 0, "xi", Some SPSU2_e45);
  (15, 43, 1, 0, "xi", Some (cN 1));
  (15, 44, 1, 0, "xi", Some SPSU2_e46);
  (16, 3, 1, 0, "xi", Some SPSU2_e46);
  (16, 44, 1, 0, "xi", Some SPSU2_e47);
  (16, 45, 1, 0, "xi", Some (cN 1));
  (17, 5, 1, 0, "xi", Some SPSU2_e13);
  (18, 5, 1, 0, "xi", Some SPSU2_e14);
  (19, 6, 1, 0, "xi", Some SPSU2_e45);
  (19, 49, 1, 0, "xi", Some (cN (-1)));
  (19, 50, 1, 0, "xi", Some SPSU2_e51);
  (20, 6, 1, 0, "xi", Some SPSU2_e46);
  (20, 50, 1, 0, "xi", Some SPSU2_e45);
  (20, 51, 1, 0, "xi", Some (cN (-1)));
  (21, 8, 1, 0, "xi", Some SPSU2_e13);
  (22, 8, 1, 0, "xi", Some SPSU2_e14);
  (23, 9, 1, 0, "xi", Some SPSU2_e45);
  (23, 52, 1, 0, "xi", Some (cN (-1)));
  (23, 53, 1, 0, "xi", Some SPSU2_e51);
  (24, 9, 1, 0, "xi", Some SPSU2_e46);
  (24, 53, 1, 0, "xi", Some SPSU2_e45);
  (24, 54, 1, 0, "xi", Some (cN (-1)));
  (27, 11, 1, 0, "xi", Some SPSU2_e133);
  (27, 55, 1, 0, "xi", Some SPSU2_e22);
  (27, 56, 1, 0, "xi", Some SPSU2_e134);
  (28, 11, 1, 0, "xi", Some SPSU2_e135);
  (28, 56, 1, 0, "xi", Some SPSU2_e136);
  (28, 57, 1, 0, "xi", Some SPSU2_e22);
  (29, 12, 1, 0, "xi", Some SPSU2_e45);
  (29, 58, 1, 0, "xi", Some (cN 1));
  (29, 59, 1, 0, "xi", Some SPSU2_e46);
  (30, 12, 1, 0, "xi", Some SPSU2_e46);
  (30, 59, 1, 0, "xi", Some SPSU2_e47);
  (30, 60, 1, 0, "xi", Some (cN 1));
  (31, 11, 1, 0, "xi", Some SPSU2_e154);
  (31, 55, 1, 0, "xi", Some (cD (cN 1) (cR (cN 6))));
  (31, 56, 1, 0, "xi", Some SPSU2_e155);
  (32, 11, 1, 0, "xi", Some SPSU2_e156);
  (32, 56, 1, 0, "xi", Some SPSU2_e157);
  (32, 57, 1, 0, "xi", Some (cD (cN 1) (cR (cN 6))));
  (35, 13, 1, 0, "xi", Some SPSU2_e13);
  (36, 13, 1, 0, "xi", Some SPSU2_e14);
  (39, 14, 1, 0, "xi", Some SPSU2_e13);
  (40, 14, 1, 0, "xi", Some SPSU2_e14);
  (43, 25, 1, 0, "xi", Some SPSU2_e48);
  (44, 25, 1, 0, "xi", Some SPSU2_e32);
  (44, 26, 1, 0, "xi", Some SPSU2_e49);
  (45, 26, 1, 0, "xi", Some SPSU2_e50);
  (46, 27, 1, 0, "xi", Some SPSU2_e31);
  (46, 31, 1, 0, "xi", Some SPSU2_e158);
  (46, 61, 1, 0, "xi", Some (cN (-1)));
  (46, 62, 1, 0, "xi", Some SPSU2_e159);
  (47, 27, 1, 0, "xi", Some SPSU2_e142);
  (47, 28, 1, 0, "xi", Some SPSU2_e143);
  (47, 31, 1, 0, "xi", Some SPSU2_e97);
  (47, 32, 1, 0, "xi", Some SPSU2_e160);
  (47, 62, 1, 0, "xi", Some SPSU2_e111);
  (47, 63, 1, 0, "xi", Some SPSU2_e161);
  (48, 28, 1, 0, "xi", Some SPSU2_e27);
  (48, 32, 1, 0, "xi", Some SPSU2_e162);
  (48, 63, 1, 0, "xi", Some SPSU2_e163);
  (48, 64, 1, 0, "xi", Some (cN (-1)));
  (49, 33, 1, 0, "xi", Some SPSU2_e52);
  (50, 33, 1, 0, "xi", Some SPSU2_e30);
  (50, 34, 1, 0, "xi", Some SPSU2_e53);
  (51, 34, 1, 0, "xi", Some SPSU2_e54);
  (52, 37, 1, 0, "xi", Some SPSU2_e52);
  (53, 37, 1, 0, "xi", Some SPSU2_e30);
  (53, 38, 1, 0, "xi", Some SPSU2_e53);
  (54, 38, 1, 0, "xi", Some SPSU2_e54);
  (58, 41, 1, 0, "xi", Some SPSU2_e48);
  (59, 41, 1, 0, "xi", Some SPSU2_e32);
  (59, 42, 1, 0, "xi", Some SPSU2_e49);
  (60, 42, 1, 0, "xi", Some SPSU2_e50);
  (61, 55, 1, 0, "xi", Some SPSU2_e164);
  (62, 55, 1, 0, "xi", Some SPSU2_e165);
  (62, 56, 1, 0, "xi", Some SPSU2_e166);
  (63, 56, 1, 0, "xi", Some SPSU2_e167);
  (63, 57, 1, 0, "xi", Some SPSU2_e168);
  (64, 57, 1, 0, "xi", Some SPSU2_e169);
  (1, 15, 2, 0, "xi", Some (cN 1));
  (1, 16, 2, 0, "xi", Some (cN 1));
  (3, 21, 2, 0, "xi", Some SPSU2_e22);
  (3, 22, 2, 0, "xi", Some SPSU2_e22);
  (4, 23, 2, 0, "xi", Some SPSU2_e22);
  (4, 24, 2, 0, "xi", Some SPSU2_e22);
  (5, 25, 2, 0, "xi", Some (cN 1));
  (5, 26, 2, 0, "xi", Some (cN 1));
  (6, 27, 2, 0, "xi", Some (cN 1));
  (6, 28, 2, 0, "xi", Some (cN 1));
  (7, 29, 2, 0, "xi", Some (cN 1));
  (7, 30, 2, 0, "xi", Some (cN 1));
  (11, 37, 2, 0, "xi", Some SPSU2_e22);
  (11, 38, 2, 0, "xi", Some SPSU2_e22);
  (12, 39, 2, 0, "xi", Some SPSU2_e22);
  (12, 40, 2, 0, "xi", Some SPSU2_e22);
  (13, 41, 2, 0, "xi", Some (cN 1));
  (13, 42, 2, 0, "xi", Some (cN 1));
  (15, 2, 2, 0, "xi", Some SPSU2_e13);
  (16, 2, 2, 0, "xi", Some SPSU2_e14);
  (17, 3, 2, 0, "xi", Some SPSU2_e45);
  (17, 43, 2, 0, "xi", Some (cN (-1)));
  (17, 44, 2, 0, "xi", Some SPSU2_e51);
  (18, 3, 2, 0, "xi", Some SPSU2_e46);
  (18, 44, 2, 0, "xi", Some SPSU2_e45);
  (18, 45, 2, 0, "xi", Some (cN (-1)));
  (19, 4, 2, 0, "xi", Some SPSU2_e45);
  (19, 46, 2, 0, "xi", Some (cN (-1)));
  (19, 47, 2, 0, "xi", Some SPSU2_e51);
  (20, 4, 2, 0, "xi", Some SPSU2_e46);
  (20, 47, 2, 0, "xi", Some SPSU2_e45);
  (20, 48, 2, 0, "xi", Some (cN (-1)));
  (25, 8, 2, 0, "xi", Some SPSU2_e13);
  (26, 8, 2, 0, "xi", Some SPSU2_e14);
  (27, 9, 2, 0, "xi", Some SPSU2_e13);
  (28, 9, 2, 0, "xi", Some SPSU2_e14);
  (29, 10, 2, 0, "xi", Some SPSU2_e13);
  (30, 10, 2, 0, "xi", Some SPSU2_e14);
  (31, 52, 2, 0, "xi", Some (cR (cQ 2 3)));
  (31, 53, 2, 0, "xi", Some SPSU2_e170);
  (32, 53, 2, 0, "xi", Some SPSU2_e171);
  (32, 54, 2, 0, "xi", Some (cR (cQ 2 3)));
  (33, 11, 2, 0, "xi", Some SPSU2_e45);
  (33, 55, 2, 0, "xi", Some (cN (-1)));
  (33, 56, 2, 0, "xi", Some SPSU2_e51);
  (34, 11, 2, 0, "xi", Some SPSU2_e46);
  (34, 56, 2, 0, "xi", Some SPSU2_e45);
  (34, 57, 2, 0, "xi", Some (cN (-1)));
  (35, 12, 2, 0, "xi", Some SPSU2_e45);
  (35, 58, 2, 0, "xi", Some (cN (-1)));
  (35, 59, 2, 0, "xi", Some SPSU2_e51);
  (36, 12, 2, 0, "xi", Some SPSU2_e46);
  (36, 59, 2, 0, "xi", Some SPSU2_e45);
  (36, 60, 2, 0, "xi", Some (cN (-1)));
  (41, 14, 2, 0, "xi", Some SPSU2_e13);
  (42, 14, 2, 0, "xi", Some SPSU2_e14);
  (43, 21, 2, 0, "xi", Some SPSU2_e52);
  (44, 21, 2, 0, "xi", Some SPSU2_e30);
  (44, 22, 2, 0, "xi", Some SPSU2_e53);
  (45, 22, 2, 0, "xi", Some SPSU2_e54);
  (46, 23, 2, 0, "xi", Some SPSU2_e52);
  (47, 23, 2, 0, "xi", Some SPSU2_e30);
  (47, 24, 2, 0, "xi", Some SPSU2_e53);
  (48, 24, 2, 0, "xi", Some SPSU2_e54);
  (49, 31, 2, 0, "xi", Some SPSU2_e103);
  (49, 61, 2, 0, "xi", Some (cN 1));
  (49, 62, 2, 0, "xi", Some SPSU2_e113);
  (50, 31, 2, 0, "xi", Some SPSU2_e159);
  (50, 32, 2, 0, "xi", Some SPSU2_e147);
  (50, 62, 2, 0, "xi", Some SPSU2_e103);
  (50, 63, 2, 0, "xi", Some SPSU2_e145);
  (51, 32, 2, 0, "xi", Some SPSU2_e172);
  (51, 63, 2, 0, "xi", Some SPSU2_e147);
  (51, 64, 2, 0, "xi", Some (cN 1));
  (55, 37, 2, 0, "xi", Some SPSU2_e52);
  (56, 37, 2, 0, "xi", Some SPSU2_e30);
  (56, 38, 2, 0, "xi", Some SPSU2_e53);
  (57, 38, 2, 0, "xi", Some SPSU2_e54);
  (58, 39, 2, 0, "xi", Some SPSU2_e52);
  (59, 39, 2, 0, "xi", Some SPSU2_e30);
  (59, 40, 2, 0, "xi", Some SPSU2_e53);
  (60, 40, 2, 0, "xi", Some SPSU2_e54);
  (61, 52, 2, 0, "xi", Some SPSU2_e148);
  (62, 52, 2, 0, "xi", Some SPSU2_e149);
  (62, 53, 2, 0, "xi", Some SPSU2_e150);
  (63, 53, 2, 0, "xi", Some SPSU2_e151);
  (63, 54, 2, 0, "xi", Some SPSU2_e152);
  (64, 54, 2, 0, "xi", Some SPSU2_e153);
  (4, 15, 0, 0, "kappa", Some (cD (cN 1) (cR (cN 2))));
  (4, 16, 0, 0, "kappa", Some (cD (cN 1) (cR (cN 2))));
  (6, 17, 0, 0, "kappa", Some (cD (cN 1) (cR (cN 2))));
  (6, 18, 0, 0, "kappa", Some (cD (cN 1) (cR (cN 2))));
  (7, 19, 0, 0, "kappa", Some (cN 1));
  (7, 20, 0, 0, "kappa", Some (cN 1));
  (9, 21, 0, 0, "kappa", Some (cD (cN 1) (cR (cN 2))));
  (9, 22, 0, 0, "kappa", Some (cD (cN 1) (cR (cN 2))));
  (10, 23, 0, 0, "kappa", Some (cN 1));
  (10, 24, 0, 0, "kappa", Some (cN 1));
  (11, 25, 0, 0, "kappa", Some (cD (cN 1) (cR (cN 2))));
  (11, 26, 0, 0, "kappa", Some (cD (cN 1) (cR (cN 2))));
  (12, 27, 0, 0, "kappa", Some (cQ (-1) 2));
  (12, 28, 0, 0, "kappa", Some (cQ (-1) 2));
  (12, 31, 0, 0, "kappa", Some (cD (cR (cN 3)) (cN 2)));
  (12, 32, 0, 0, "kappa", Some (cD (cR (cN 3)) (cN 2)));
  (13, 33, 0, 0, "kappa", Some (cN 1));
  (13, 34, 0, 0, "kappa", Some (cN 1));
  (14, 37, 0, 0, "kappa", Some (cN 1));
  (14, 38, 0, 0, "kappa", Some (cN 1));
  (19, 1, 0, 0, "kappa", Some SPSU2_e15);
  (20, 1, 0, 0, "kappa", Some SPSU2_e16);
  (23, 2, 0, 0, "kappa", Some SPSU2_e15);
  (24, 2, 0, 0, "kappa", Some SPSU2_e16);
  (27, 3, 0, 0, "kappa", Some SPSU2_e136);
  (27, 43, 0, 0, "kappa", Some (cD (cN 1) (cR (cN 2))));
  (27, 44, 0, 0, "kappa", Some SPSU2_e173);
  (28, 3, 0, 0, "kappa", Some SPSU2_e174);
  (28, 44, 0, 0, "kappa", Some SPSU2_e175);
  (28, 45, 0, 0, "kappa", Some (cD (cN 1) (cR (cN 2))));
  (29, 4, 0, 0, "kappa", Some SPSU2_e45);
  (29, 46, 0, 0, "kappa", Some (cN 1));
  (29, 47, 0, 0, "kappa", Some SPSU2_e46);
  (30, 4, 0, 0, "kappa", Some SPSU2_e46);
  (30, 47, 0, 0, "kappa", Some SPSU2_e47);
  (30, 48, 0, 0, "kappa", Some (cN 1));
  (31, 3, 0, 0, "kappa", Some SPSU2_e154);
  (31, 43, 0, 0, "kappa", Some (cD (cN 1) (cR (cN 6))));
  (31, 44, 0, 0, "kappa", Some SPSU2_e155);
  (32, 3, 0, 0, "kappa", Some SPSU2_e156);
  (32, 44, 0, 0, "kappa", Some SPSU2_e157);
  (32, 45, 0, 0, "kappa", Some (cD (cN 1) (cR (cN 6))));
  (33, 5, 0, 0, "kappa", Some SPSU2_e15);
  (34, 5, 0, 0, "kappa", Some SPSU2_e16);
  (35, 6, 0, 0, "kappa", Some SPSU2_e45);
  (35, 49, 0, 0, "kappa", Some (cN 1));
  (35, 50, 0, 0, "kappa", Some SPSU2_e46);
  (36, 6, 0, 0, "kappa", Some SPSU2_e46);
  (36, 50, 0, 0, "kappa", Some SPSU2_e47);
  (36, 51, 0, 0, "kappa", Some (cN 1));
  (37, 8, 0, 0, "kappa", Some SPSU2_e15);
  (38, 8, 0, 0, "kappa", Some SPSU2_e16);
  (39, 9, 0, 0, "kappa", Some SPSU2_e45);
  (39, 52, 0, 0, "kappa", Some (cN 1));
  (39, 53, 0, 0, "kappa", Some SPSU2_e46);
  (40, 9, 0, 0, "kappa", Some SPSU2_e46);
  (40, 53, 0, 0, "kappa", Some SPSU2_e47);
  (40, 54, 0, 0, "kappa", Some (cN 1));
  (41, 11, 0, 0, "kappa", Some SPSU2_e45);
  (41, 55, 0, 0, "kappa", Some (cN 1));
  (41, 56, 0, 0, "kappa", Some SPSU2_e46);
  (42, 11, 0, 0, "kappa", Some SPSU2_e46);
  (42, 56, 0, 0, "kappa", Some SPSU2_e47);
  (42, 57, 0, 0, "kappa", Some (cN 1));
  (46, 15, 0, 0, "kappa", Some SPSU2_e52);
  (47, 15, 0, 0, "kappa", Some SPSU2_e30);
  (47, 16, 0, 0, "kappa", Some SPSU2_e53);
  (48, 16, 0, 0, "kappa", Some SPSU2_e54);
  (49, 17, 0, 0, "kappa", Some SPSU2_e52);
  (50, 17, 0, 0, "kappa", Some SPSU2_e30);
  (50, 18, 0, 0, "kappa", Some SPSU2_e53);
  (51, 18, 0, 0, "kappa", Some SPSU2_e54);
  (52, 21, 0, 0, "kappa", Some SPSU2_e52);
  (53, 21, 0, 0, "kappa", Some SPSU2_e30);
  (53, 22, 0, 0, "kappa", Some SPSU2_e53);
  (54, 22, 0, 0, "kappa", Some SPSU2_e54);
  (55, 25, 0, 0, "kappa", Some SPSU2_e52);
  (56, 25, 0, 0, "kappa", Some SPSU2_e30);
  (56, 26, 0, 0, "kappa", Some SPSU2_e53);
  (57, 26, 0, 0, "kappa", Some SPSU2_e54);
  (58, 27, 0, 0, "kappa", Some SPSU2_e31);
  (58, 31, 0, 0, "kappa", Some SPSU2_e141);
  (58, 61, 0, 0, "kappa", Some (cN 1));
  (58, 62, 0, 0, "kappa", Some SPSU2_e113);
  (59, 27, 0, 0, "kappa", Some SPSU2_e142);
  (59, 28, 0, 0, "kappa", Some SPSU2_e143);
  (59, 31, 0, 0, "kappa", Some SPSU2_e106);
  (59, 32, 0, 0, "kappa", Some SPSU2_e144);
  (59, 62, 0, 0, "kappa", Some SPSU2_e103);
  (59, 63, 0, 0, "kappa", Some SPSU2_e145);
  (60, 28, 0, 0, "kappa", Some SPSU2_e27);
  (60, 32, 0, 0, "kappa", Some SPSU2_e146);
  (60, 63, 0, 0, "kappa", Some SPSU2_e147);
  (60, 64, 0, 0, "kappa", Some (cN 1));
  (61, 43, 0, 0, "kappa", Some SPSU2_e164);
  (62, 43, 0, 0, "kappa", Some SPSU2_e165);
  (62, 44, 0, 0, "kappa", Some SPSU2_e166);
  (63, 44, 0, 0, "kappa", Some SPSU2_e167);
  (63, 45, 0, 0, "kappa", Some SPSU2_e168);
  (64, 45, 0, 0, "kappa", Some SPSU2_e169);
  (3, 15, 1, 0, "kappa", Some (cD (cN 1) (cR (cN 2))));
  (3, 16, 1, 0, "kappa", Some (cD (cN 1) (cR (cN 2))));
  (5, 17, 1, 0, "kappa", Some (cN 1));
  (5, 18, 1, 0, "kappa", Some (cN 1));
  (6, 19, 1, 0, "kappa", Some (cD (cN 1) (cR (cN 2))));
  (6, 20, 1, 0, "kappa", Some (cD (cN 1) (cR (cN 2))));
  (8, 21, 1, 0, "kappa", Some (cN 1));
  (8, 22, 1, 0, "kappa", Some (cN 1));
  (9, 23, 1, 0, "kappa", Some (cD (cN 1) (cR (cN 2))));
  (9, 24, 1, 0, "kappa", Some (cD (cN 1) (cR (cN 2))));
  (11, 27, 1, 0, "kappa", Some (cQ (-1) 2));
  (11, 28, 1, 0, "kappa", Some (cQ (-1) 2));
  (11, 31, 1, 0, "kappa", Some SPSU2_e80);
  (11, 32, 1, 0, "kappa", Some SPSU2_e80);
  (12, 29, 1, 0, "kappa", Some (cD (cN 1) (cR (cN 2))));
  (12, 30, 1, 0, "kappa", Some (cD (cN 1) (cR (cN 2))));
  (13, 35, 1, 0, "kappa", Some (cN 1));
  (13, 36, 1, 0, "kappa", Some (cN 1));
  (14, 39, 1, 0, "kappa", Some (cN 1));
  (14, 40, 1, 0, "kappa", Some (cN 1));
  (17, 1, 1, 0, "kappa", Some SPSU2_e15);
  (18, 1, 1, 0, "kappa", Some SPSU2_e16);
  (21, 2, 1, 0, "kappa", Some SPSU2_e15);
  (22, 2, 1, 0, "kappa", Some SPSU2_e16);
  (25, 3, 1, 0, "kappa", Some SPSU2_e45);
  (25, 43, 1, 0, "kappa", Some (cN 1));
  (25, 44, 1, 0, "kappa", Some SPSU2_e46);
  (26, 3, 1, 0, "kappa", Some SPSU2_e46);
  (26, 44, 1, 0, "kappa", Some SPSU2_e47);
  (26, 45, 1, 0, "kappa", Some (cN 1));
  (27, 4, 1, 0, "kappa", Some SPSU2_e136);
  (27, 46, 1, 0, "kappa", Some (cD (cN 1) (cR (cN 2))));
  (27, 47, 1, 0, "kappa", Some SPSU2_e173);
  (28, 4, 1, 0, "kappa", Some SPSU2_e174);
  (28, 47, 1, 0, "kappa", Some SPSU2_e175);
  (28, 48, 1, 0, "kappa", Some (cD (cN 1) (cR (cN 2))));
  (31, 4, 1, 0, "kappa", Some SPSU2_e137);
  (31, 46, 1, 0, "kappa", Some SPSU2_e83);
  (31, 47, 1, 0, "kappa", Some SPSU2_e138);
  (32, 4, 1, 0, "kappa", Some SPSU2_e139);
  (32, 47, 1, 0, "kappa", Some SPSU2_e140);
  (32, 48, 1, 0, "kappa", Some SPSU2_e83);
  (33, 6, 1, 0, "kappa", Some SPSU2_e45);
  (33, 49, 1, 0, "kappa", Some (cN (-1)));
  (33, 50, 1, 0, "kappa", Some SPSU2_e51);
  (34, 6, 1, 0, "kappa", Some SPSU2_e46);
  (34, 50, 1, 0, "kappa", Some SPSU2_e55);
  (34, 51, 1, 0, "kappa", Some (cN (-1)));
  (35, 7, 1, 0, "kappa", Some SPSU2_e15);
  (36, 7, 1, 0, "kappa", Some SPSU2_e16);
  (37, 9, 1, 0, "kappa", Some SPSU2_e45);
  (37, 52, 1, 0, "kappa", Some (cN (-1)));
  (37, 53, 1, 0, "kappa", Some SPSU2_e51);
  (38, 9, 1, 0, "kappa", Some SPSU2_e46);
  (38, 53, 1, 0, "kappa", Some SPSU2_e55);
  (38, 54, 1, 0, "kappa", Some (cN (-1)));
  (39, 10, 1, 0, "kappa", Some SPSU2_e15);
  (40, 10, 1, 0, "kappa", Some SPSU2_e16);
  (41, 12, 1, 0, "kappa", Some SPSU2_e45);
  (41, 58, 1, 0, "kappa", Some (cN 1));
  (41, 59, 1, 0, "kappa", Some SPSU2_e46);
  (42, 12, 1, 0, "kappa", Some SPSU2_e46);
  (42, 59, 1, 0, "kappa", Some SPSU2_e47);
  (42, 60, 1, 0, "kappa", Some (cN 1));
  (43, 15, 1, 0, "kappa", Some SPSU2_e52);
  (44, 15, 1, 0, "kappa", Some SPSU2_e30);
  (44, 16, 1, 0, "kappa", Some SPSU2_e53);
  (45, 16, 1, 0, "kappa", Some SPSU2_e54);
  (49, 19, 1, 0, "kappa", Some SPSU2_e48);
  (50, 19, 1, 0, "kappa", Some SPSU2_e32);
  (50, 20, 1, 0, "kappa", Some SPSU2_e49);
  (51, 20, 1, 0, "kappa", Some SPSU2_e50);
  (52, 23, 1, 0, "kappa", Some SPSU2_e48);
  (53, 23, 1, 0, "kappa", Some SPSU2_e32);
  (53, 24, 1, 0, "kappa", Some SPSU2_e49);
  (54, 24, 1, 0, "kappa", Some SPSU2_e50);
  (55, 27, 1, 0, "kappa", Some SPSU2_e31);
  (55, 31, 1, 0, "kappa", Some SPSU2_e158);
  (55, 61, 1, 0, "kappa", Some (cN (-1)));
  (55, 62, 1, 0, "kappa", Some SPSU2_e159);
  (56, 27, 1, 0, "kappa", Some SPSU2_e142);
  (56, 28, 1, 0, "kappa", Some SPSU2_e143);
  (56, 31, 1, 0, "kappa", Some SPSU2_e97);
  (56, 32, 1, 0, "kappa", Some SPSU2_e160);
  (56, 62, 1, 0, "kappa", Some SPSU2_e111);
  (56, 63, 1, 0, "kappa", Some SPSU2_e161);
  (57, 28, 1, 0, "kappa", Some SPSU2_e27);
  (57, 32, 1, 0, "kappa", Some SPSU2_e162);
  (57, 63, 1, 0, "kappa", Some SPSU2_e163);
  (57, 64, 1, 0, "kappa", Some (cN (-1)));
  (58, 29, 1, 0, "kappa", Some SPSU2_e52);
  (59, 29, 1, 0, "kappa", Some SPSU2_e30);
  (59, 30, 1, 0, "kappa", Some SPSU2_e53);
  (60, 30, 1, 0, "kappa", Some SPSU2_e54);
  (61, 46, 1, 0, "kappa", Some SPSU2_e148);
  (62, 46, 1, 0, "kappa", Some SPSU2_e149);
  (62, 47, 1, 0, "kappa", Some SPSU2_e150);
  (63, 47, 1, 0, "kappa", Some SPSU2_e151);
  (63, 48, 1, 0, "kappa", Some SPSU2_e152);
  (64, 48, 1, 0, "kappa", Some SPSU2_e153);
  (2, 15, 2, 0, "kappa", Some (cN 1));
  (2, 16, 2, 0, "kappa", Some (cN 1));
  (3, 17, 2, 0, "kappa", Some (cD (cN 1) (cR (cN 2))));
  (3, 18, 2, 0, "kappa", Some (cD (cN 1) (cR (cN 2))));
  (4, 19, 2, 0, "kappa", Some (cD (cN 1) (cR (cN 2))));
  (4, 20, 2, 0, "kappa", Some (cD (cN 1) (cR (cN 2))));
  (8, 25, 2, 0, "kappa", Some (cN 1));
  (8, 26, 2, 0, "kappa", Some (cN 1));
  (9, 27, 2, 0, "kappa", Some (cN 1));
  (9, 28, 2, 0, "kappa", Some (cN 1));
  (10, 29, 2, 0, "kappa", Some (cN 1));
  (10, 30, 2, 0, "kappa", Some (cN 1));
  (11, 33, 2, 0, "kappa", Some (cD (cN 1) (cR (cN 2))));
  (11, 34, 2, 0, "kappa", Some (cD (cN 1) (cR (cN 2))));
  (12, 35, 2, 0, "kappa", Some (cD (cN 1) (cR (cN 2))));
  (12, 36, 2, 0, "kappa", Some (cD (cN 1) (cR (cN 2))));
  (14, 41, 2, 0, "kappa", Some (cN 1));
  (14, 42, 2, 0, "kappa", Some (cN 1));
  (15, 1, 2, 0, "kappa", Some SPSU2_e15);
  (16, 1, 2, 0, "kappa", Some SPSU2_e16);
  (21, 3, 2, 0, "kappa", Some SPSU2_e45);
  (21, 43, 2, 0, "kappa", Some (cN (-1)));
  (21, 44, 2, 0, "kappa", Some SPSU2_e51);
  (22, 3, 2, 0, "kappa", Some SPSU2_e46);
  (22, 44, 2, 0, "kappa", Some SPSU2_e55);
  (22, 45, 2, 0, "kappa", Some (cN (-1)));
  (23, 4, 2, 0, "kappa", Some SPSU2_e45);
  (23, 46, 2, 0, "kappa", Some (cN (-1)));
  (23, 47, 2, 0, "kappa", Some SPSU2_e51);
  (24, 4, 2, 0, "kappa", Some SPSU2_e46);
  (24, 47, 2, 0, "kappa", Some SPSU2_e55);
  (24, 48, 2, 0, "kappa", Some (cN (-1)));
  (25, 5, 2, 0, "kappa", Some SPSU2_e15);
  (26, 5, 2, 0, "kappa", Some SPSU2_e16);
  (27, 6, 2, 0, "kappa", Some SPSU2_e15);
  (28, 6, 2, 0, "kappa", Some SPSU2_e16);
  (29, 7, 2, 0, "kappa", Some SPSU2_e15);
  (30, 7, 2, 0, "kappa", Some SPSU2_e16);
  (31, 49, 2, 0, "kappa", Some (cO (cR (cQ 2 3))));
  (31, 50, 2, 0, "kappa", Some SPSU2_e176);
  (32, 50, 2, 0, "kappa", Some SPSU2_e177);
  (32, 51, 2, 0, "kappa", Some (cO (cR (cQ 2 3))));
  (37, 11, 2, 0, "kappa", Some SPSU2_e45);
  (37, 55, 2, 0, "kappa", Some (cN (-1)));
  (37, 56, 2, 0, "kappa", Some SPSU2_e51);
  (38, 11, 2, 0, "kappa", Some SPSU2_e46);
  (38, 56, 2, 0, "kappa", Some SPSU2_e55);
  (38, 57, 2, 0, "kappa", Some (cN (-1)));
  (39, 12, 2, 0, "kappa", Some SPSU2_e45);
  (39, 58, 2, 0, "kappa", Some (cN (-1)));
  (39, 59, 2, 0, "kappa", Some SPSU2_e51);
  (40, 12, 2, 0, "kappa", Some SPSU2_e46);
  (40, 59, 2, 0, "kappa", Some SPSU2_e55);
  (40, 60, 2, 0, "kappa", Some (cN (-1)));
  (41, 13, 2, 0, "kappa", Some SPSU2_e15);
  (42, 13, 2, 0, "kappa", Some SPSU2_e16);
  (43, 17, 2, 0, "kappa", Some SPSU2_e48);
  (44, 17, 2, 0, "kappa", Some SPSU2_e32);
  (44, 18, 2, 0, "kappa", Some SPSU2_e49);
  (45, 18, 2, 0, "kappa", Some SPSU2_e50);
  (46, 19, 2, 0, "kappa", Some SPSU2_e48);
  (47, 19, 2, 0, "kappa", Some SPSU2_e32);
  (47, 20, 2, 0, "kappa", Some SPSU2_e49);
  (48, 20, 2, 0, "kappa", Some SPSU2_e50);
  (52, 31, 2, 0, "kappa", Some SPSU2_e103);
  (52, 61, 2, 0, "kappa", Some (cN 1));
  (52, 62, 2, 0, "kappa", Some SPSU2_e113);
  (53, 31, 2, 0, "kappa", Some SPSU2_e159);
  (53, 32, 2, 0, "kappa", Some SPSU2_e147);
  (53, 62, 2, 0, "kappa", Some SPSU2_e103);
  (53, 63, 2, 0, "kappa", Some SPSU2_e145);
  (54, 32, 2, 0, "kappa", Some SPSU2_e172);
  (54, 63, 2, 0, "kappa", Some SPSU2_e147);
  (54, 64, 2, 0, "kappa", Some (cN 1));
  (55, 33, 2, 0, "kappa", Some SPSU2_e48);
  (56, 33, 2, 0, "kappa", Some SPSU2_e32);
  (56, 34, 2, 0, "kappa", Some SPSU2_e49);
  (57, 34, 2, 0, "kappa", Some SPSU2_e50);
  (58, 35, 2, 0, "kappa", Some SPSU2_e48);
  (59, 35, 2, 0, "kappa", Some SPSU2_e32);
  (59, 36, 2, 0, "kappa", Some SPSU2_e49);
  (60, 36, 2, 0, "kappa", Some SPSU2_e50);
  (61, 49, 2, 0, "kappa", Some SPSU2_e164);
  (62, 49, 2, 0, "kappa", Some SPSU2_e165);
  (62, 50, 2, 0, "kappa", Some SPSU2_e166);
  (63, 50, 2, 0, "kappa", Some SPSU2_e167);
  (63, 51, 2, 0, "kappa", Some SPSU2_e168);
  (64, 51, 2, 0, "kappa", Some SPSU2_e169)].
(** /repo/c++/symmetry/sym-SPSU2-impl.hpp, make_matrix if (!P.substeps) *)
Definition spsu2_3ch_m0_d : list diag_line := [
  (1, 0, "zeta", Some (cN 0));
  (2, 0, "zeta", Some (cN 0));
  (3, 0, "zeta", Some (cN 0));
  (4, 0, "zeta", Some (cN 1));
  (5, 0, "zeta", Some (cN 0));
  (6, 0, "zeta", Some (cN 1));
  (7, 0, "zeta", Some (cN 2));
  (8, 0, "zeta", Some (cN 0));
  (9, 0, "zeta", Some (cN 1));
  (10, 0, "zeta", Some (cN 2));
  (11, 0, "zeta", Some (cN 1));
  (12, 0, "zeta", Some (cN 2));
  (13, 0, "zeta", Some (cN 2));
  (14, 0, "zeta", Some (cN 2));
  (15, 0, "zeta", Some (cN 0));
  (16, 0, "zeta", Some (cN 0));
  (17, 0, "zeta", Some (cN 0));
  (18, 0, "zeta", Some (cN 0));
  (19, 0, "zeta", Some (cN 1));
  (20, 0, "zeta", Some (cN 1));
  (21, 0, "zeta", Some (cN 0));
  (22, 0, "zeta", Some (cN 0));
  (23, 0, "zeta", Some (cN 1));
  (24, 0, "zeta", Some (cN 1));
  (25, 0, "zeta", Some (cN 0));
  (26, 0, "zeta", Some (cN 0));
  (27, 0, "zeta", Some (cN 1));
  (28, 0, "zeta", Some (cN 1));
  (29, 0, "zeta", Some (cN 2));
  (30, 0, "zeta", Some (cN 2));
  (31, 0, "zeta", Some (cN 1));
  (32, 0, "zeta", Some (cN 1));
  (33, 0, "zeta", Some (cN 1));
  (34, 0, "zeta", Some (cN 1));
  (35, 0, "zeta", Some (cN 2));
  (36, 0, "zeta", Some (cN 2));
  (37, 0, "zeta", Some (cN 1));
  (38, 0, "zeta", Some (cN 1));
  (39, 0, "zeta", Some (cN 2));
  (40, 0, "zeta", Some (cN 2));
  (41, 0, "zeta", Some (cN 2));
  (42, 0, "zeta", Some (cN 2));
  (43, 0, "zeta", Some (cN 0));
  (44, 0, "zeta", Some (cN 0));
  (45, 0, "zeta", Some (cN 0));
  (46, 0, "zeta", Some (cN 1));
  (47, 0, "zeta", Some (cN 1));
  (48, 0, "zeta", Some (cN 1));
  (49, 0, "zeta", Some (cN 1));
  (50, 0, "zeta", Some (cN 1));
  (51, 0, "zeta", Some (cN 1));
  (52, 0, "zeta", Some (cN 1));
  (53, 0, "zeta", Some (cN 1));
  (54, 0, "zeta", Some (cN 1));
  (55, 0, "zeta", Some (cN 1));
  (56, 0, "zeta", Some (cN 1));
  (57, 0, "zeta", Some (cN 1));
  (58, 0, "zeta", Some (cN 2));
  (59, 0, "zeta", Some (cN 2));
  (60, 0, "zeta", Some (cN 2));
  (61, 0, "zeta", Some (cN 1));
  (62, 0, "zeta", Some (cN 1));
  (63, 0, "zeta", Some (cN 1));
  (64, 0, "zeta", Some (cN 1));
  (1, 1, "zeta", Some (cN 0));
  (2, 1, "zeta", Some (cN 0));
  (3, 1, "zeta", Some (cN 1));
  (4, 1, "zeta", Some (cN 0));
  (5, 1, "zeta", Some (cN 2));
  (6, 1, "zeta", Some (cN 1));
  (7, 1, "zeta", Some (cN 0));
  (8, 1, "zeta", Some (cN 2));
  (9, 1, "zeta", Some (cN 1));
  (10, 1, "zeta", Some (cN 0));
  (11, 1, "zeta", Some (cN 2));
  (12, 1, "zeta", Some (cN 1));
  (13, 1, "zeta", Some (cN 2));
  (14, 1, "zeta", Some (cN 2));
  (15, 1, "zeta", Some (cN 0));
  (16, 1, "zeta", Some (cN 0));
  (17, 1, "zeta", Some (cN 1));
  (18, 1, "zeta", Some (cN 1));
  (19, 1, "zeta", Some (cN 0));
  (20, 1, "zeta", Some (cN 0));
  (21, 1, "zeta", Some (cN 1));
  (22, 1, "zeta", Some (cN 1));
  (23, 1, "zeta", Some (cN 0));
  (24, 1, "zeta", Some (cN 0));
  (25, 1, "zeta", Some (cN 2));
  (26, 1, "zeta", Some (cN 2));
  (27, 1, "zeta", Some (cN 1));
  (28, 1, "zeta", Some (cN 1));
  (29, 1, "zeta", Some (cN 0));
  (30, 1, "zeta", Some (cN 0));
  (31, 1, "zeta", Some (cN 1));
  (32, 1, "zeta", Some (cN 1));
  (33, 1, "zeta", Some (cN 2));
  (34, 1, "zeta", Some (cN 2));
  (35, 1, "zeta", Some (cN 1));
  (36, 1, "zeta", Some (cN 1));
  (37, 1, "zeta", Some (cN 2));
  (38, 1, "zeta", Some (cN 2));
  (39, 1, "zeta", Some (cN 1));
  (40, 1, "zeta", Some (cN 1));
  (41, 1, "zeta", Some (cN 2));
  (42, 1, "zeta", Some (cN 2));
  (43, 1, "zeta", Some (cN 1));
  (44, 1, "zeta", Some (cN 1));
  (45, 1, "zeta", Some (cN 1));
  (46, 1, "zeta", Some (cN 0));
  (47, 1, "zeta", Some (cN 0));
  (48, 1, "zeta", Some (cN 0));
  (49, 1, "zeta", Some (cN 1));
  (50, 1, "zeta", Some (cN 1));
  (51, 1, "zeta", Some (cN 1));
  (52, 1, "zeta", Some (cN 1));
  (53, 1, "zeta", Some (cN 1));
  (54, 1, "zeta", Some (cN 1));
  (55, 1, "zeta", Some (cN 2));
  (56, 1, "zeta", Some (cN 2));
  (57, 1, "zeta", Some (cN 2));
  (58, 1, "zeta", Some (cN 1));
  (59, 1, "zeta", Some (cN 1));
  (60, 1, "zeta", Some (cN 1));
  (61, 1, "zeta", Some (cN 1));
  (62, 1, "zeta", Some (cN 1));
  (63, 1, "zeta", Some (cN 1));
  (64, 1, "zeta", Some (cN 1));
  (1, 2, "zeta", Some (cN 0));
  (2, 2, "zeta", Some (cN 2));
  (3, 2, "zeta", Some (cN 1));
  (4, 2, "zeta", Some (cN 1));
  (5, 2, "zeta", Some (cN 0));
  (6, 2, "zeta", Some (cN 0));
  (7, 2, "zeta", Some (cN 0));
  (8, 2, "zeta", Some (cN 2));
  (9, 2, "zeta", Some (cN 2));
  (10, 2, "zeta", Some (cN 2));
  (11, 2, "zeta", Some (cN 1));
  (12, 2, "zeta", Some (cN 1));
  (13, 2, "zeta", Some (cN 0));
  (14, 2, "zeta", Some (cN 2));
  (15, 2, "zeta", Some (cN 1));
  (16, 2, "zeta", Some (cN 1));
  (17, 2, "zeta", Some (cN 0));
  (18, 2, "zeta", Some (cN 0));
  (19, 2, "zeta", Some (cN 0));
  (20, 2, "zeta", Some (cN 0));
  (21, 2, "zeta", Some (cN 2));
  (22, 2, "zeta", Some (cN 2));
  (23, 2, "zeta", Some (cN 2));
  (24, 2, "zeta", Some (cN 2));
  (25, 2, "zeta", Some (cN 1));
  (26, 2, "zeta", Some (cN 1));
  (27, 2, "zeta", Some (cN 1));
  (28, 2, "zeta", Some (cN 1));
  (29, 2, "zeta", Some (cN 1));
  (30, 2, "zeta", Some (cN 1));
  (31, 2, "zeta", Some (cN 1));
  (32, 2, "zeta", Some (cN 1));
  (33, 2, "zeta", Some (cN 0));
  (34, 2, "zeta", Some (cN 0));
  (35, 2, "zeta", Some (cN 0));
  (36, 2, "zeta", Some (cN 0));
  (37, 2, "zeta", Some (cN 2));
  (38, 2, "zeta", Some (cN 2));
  (39, 2, "zeta", Some (cN 2));
  (40, 2, "zeta", Some (cN 2));
  (41, 2, "zeta", Some (cN 1));
  (42, 2, "zeta", Some (cN 1));
  (43, 2, "zeta", Some (cN 1));
  (44, 2, "zeta", Some (cN 1));
  (45, 2, "zeta", Some (cN 1));
  (46, 2, "zeta", Some (cN 1));
  (47, 2, "zeta", Some (cN 1));
  (48, 2, "zeta", Some (cN 1));
  (49, 2, "zeta", Some (cN 0));
  (50, 2, "zeta", Some (cN 0));
  (51, 2, "zeta", Some (cN 0));
  (52, 2, "zeta", Some (cN 2));
  (53, 2, "zeta", Some (cN 2));
  (54, 2, "zeta", Some (cN 2));
  (55, 2, "zeta", Some (cN 1));
  (56, 2, "zeta", Some (cN 1));
  (57, 2, "zeta", Some (cN 1));
  (58, 2, "zeta", Some (cN 1));
  (59, 2, "zeta", Some (cN 1));
  (60, 2, "zeta", Some (cN 1));
  (61, 2, "zeta", Some (cN 1));
  (62, 2, "zeta", Some (cN 1));
  (63, 2, "zeta", Some (cN 1));
  (64, 2, "zeta", Some (cN 1))].
(** /repo/c++/symmetry/sym-SPSU2-impl.hpp, make_matrix if (!P.substeps) *)
Definition spsu2_3ch_m0_f : list dof_line := [
  (1, 7, 0, "2*conj delta", Some (cQ (-1) 2));
  (2, 10, 0, "2*conj delta", Some (cQ (-1) 2));
  (3, 12, 0, "2*conj delta", Some (cQ (-1) 2));
  (5, 13, 0, "2*conj delta", Some (cQ (-1) 2));
  (8, 14, 0, "2*conj delta", Some (cQ (-1) 2));
  (15, 29, 0, "2*conj delta", Some (cQ (-1) 2));
  (16, 30, 0, "2*conj delta", Some (cQ (-1) 2));
  (17, 35, 0, "2*conj delta", Some (cQ (-1) 2));
  (18, 36, 0, "2*conj delta", Some (cQ (-1) 2));
  (21, 39, 0, "2*conj delta", Some (cQ (-1) 2));
  (22, 40, 0, "2*conj delta", Some (cQ (-1) 2));
  (25, 41, 0, "2*conj delta", Some (cQ (-1) 2));
  (26, 42, 0, "2*conj delta", Some (cQ (-1) 2));
  (43, 58, 0, "2*conj delta", Some (cQ (-1) 2));
  (44, 59, 0, "2*conj delta", Some (cQ (-1) 2));
  (45, 60, 0, "2*conj delta", Some (cQ (-1) 2));
  (1, 5, 1, "2*conj delta", Some (cQ (-1) 2));
  (2, 8, 1, "2*conj delta", Some (cQ (-1) 2));
  (4, 11, 1, "2*conj delta", Some (cQ (-1) 2));
  (7, 13, 1, "2*conj delta", Some (cQ (-1) 2));
  (10, 14, 1, "2*conj delta", Some (cQ (-1) 2));
  (15, 25, 1, "2*conj delta", Some (cQ (-1) 2));
  (16, 26, 1, "2*conj delta", Some (cQ (-1) 2));
  (19, 33, 1, "2*conj delta", Some (cQ (-1) 2));
  (20, 34, 1, "2*conj delta", Some (cQ (-1) 2));
  (23, 37, 1, "2*conj delta", Some (cQ (-1) 2));
  (24, 38, 1, "2*conj delta", Some (cQ (-1) 2));
  (29, 41, 1, "2*conj delta", Some (cQ (-1) 2));
  (30, 42, 1, "2*conj delta", Some (cQ (-1) 2));
  (46, 55, 1, "2*conj delta", Some (cQ (-1) 2));
  (47, 56, 1, "2*conj delta", Some (cQ (-1) 2));
  (48, 57, 1, "2*conj delta", Some (cQ (-1) 2));
  (1, 2, 2, "2*conj delta", Some (cQ (-1) 2));
  (5, 8, 2, "2*conj delta", Some (cQ (-1) 2));
  (6, 9, 2, "2*conj delta", Some (cQ (-1) 2));
  (7, 10, 2, "2*conj delta", Some (cQ (-1) 2));
  (13, 14, 2, "2*conj delta", Some (cQ (-1) 2));
  (17, 21, 2, "2*conj delta", Some (cQ (-1) 2));
  (18, 22, 2, "2*conj delta", Some (cQ (-1) 2));
  (19, 23, 2, "2*conj delta", Some (cQ (-1) 2));
  (20, 24, 2, "2*conj delta", Some (cQ (-1) 2));
  (33, 37, 2, "2*conj delta", Some (cQ (-1) 2));
  (34, 38, 2, "2*conj delta", Some (cQ (-1) 2));
  (35, 39, 2, "2*conj delta", Some (cQ (-1) 2));
  (36, 40, 2, "2*conj delta", Some (cQ (-1) 2));
  (49, 52, 2, "2*conj delta", Some (cQ (-1) 2));
  (50, 53, 2, "2*conj delta", Some (cQ (-1) 2));
  (51, 54, 2, "2*conj delta", Some (cQ (-1) 2))].
Definition coef_spsu2_3ch : coef_set := mk_coef "SPSU2" 3%nat sym_SPSU2 {| tb_In := spsu2_3ch_In; tb_QN := spsu2_3ch_QN |}
  [spsu2_3ch_t2; spsu2_3ch_t3; spsu2_3ch_t4; spsu2_3ch_t5; spsu2_3ch_t6; spsu2_3ch_t7]
  [spsu2_3ch_t0; spsu2_3ch_t1; spsu2_3ch_t8; spsu2_3ch_t9]
  [mk_mode "default" spsu2_3ch_m0_o spsu2_3ch_m0_d spsu2_3ch_m0_f].
