(** Generated by gen/gen_coef.py from /repo/c++/symmetry/{sym-QS-impl.hpp, nrg-recalc-QS.hpp, coefnew}. Do not edit. *)
From Coq Require Import List ZArith String.
From Verif Require Import Base Invar_model Symmetry_model Symmetry_tables Coef_model.
Import ListNotations.
Local Open Scope string_scope.
Local Open Scope list_scope.
Local Open Scope Z_scope.

Definition QS_e0 := (cD (cM (cN (-2)) (cR (cM (cH 1) (cA (cN 1) (cH 1))))) (cA (cN 1) (cM (cN 2) (cH 1)))).
Definition QS_e1 := (cD (cN 1) (cA (cN 1) (cM (cN 2) (cH 1)))).
Definition QS_e2 := (cD (cN 1) (cB (cN (-1)) (cM (cN 2) (cH 1)))).
Definition QS_e3 := (cO (cD (cN 1) (cR (cA (cN 1) (cD (cN 1) (cA (cN 1) (cM (cN 2) (cH 1)))))))).
Definition QS_e4 := (cR (cA (cN 1) (cD (cN 1) (cM (cN 2) (cH 1))))).
Definition QS_e5 := (cD (cN 1) (cR (cD (cM (cH 1) (cA (cN 1) (cM (cN 2) (cH 1)))) (cA (cA (cN (-1)) (cH 1)) (cM (cN 2) (cW (cH 1) 4)))))).
Definition QS_e6 := (cD (cN 1) (cR (cM (cA (cN 1) (cH 1)) (cA (cN 1) (cM (cN 2) (cH 1)))))).
Definition QS_e7 := (cO (cD (cN 1) (cR (cM (cH 1) (cA (cN 1) (cM (cN 2) (cH 1))))))).
Definition QS_e8 := (cD (cA (cN 3) (cM (cN 2) (cH 1))) (cR (cD (cM (cA (cN 1) (cH 1)) (cA (cN 3) (cM (cM (cN 4) (cH 1)) (cA (cN 2) (cH 1))))) (cH 1)))).
Definition QS_e9 := (cD (cR (cD (cM (cM (cH 1) (cA (cN 1) (cH 1))) (cA (cN 3) (cM (cN 2) (cH 1)))) (cA (cN 1) (cM (cN 2) (cH 1))))) (cA (cN 1) (cH 1))).
Definition QS_e10 := (cD (cA (cO (cR (cM (cM (cA (cN 1) (cH 1)) (cA (cN 1) (cM (cN 2) (cH 1)))) (cA (cN 3) (cM (cN 2) (cH 1)))))) (cM (cM (cN 2) (cH 1)) (cR (cA (cA (cN 2) (cH 1)) (cD (cN 1) (cA (cN 1) (cM (cN 2) (cH 1)))))))) (cM (cA (cN 1) (cH 1)) (cR (cA (cN 3) (cM (cN 2) (cH 1)))))).
Definition QS_e11 := (cD (cN 1) (cR (cM (cH 1) (cA (cN 1) (cM (cN 2) (cH 1)))))).
Definition QS_e12 := (cO (cM (cR (cN 2)) (cR (cD (cH 1) (cA (cN 1) (cM (cN 2) (cH 1))))))).
Definition QS_e13 := (cD (cM (cN 2) (cA (cN 1) (cH 1))) (cR (cA (cA (cN 2) (cM (cN 6) (cH 1))) (cM (cN 4) (cW (cH 1) 4))))).
Definition QS_e14 := (cD (cR (cD (cM (cH 1) (cA (cN 3) (cM (cM (cN 4) (cH 1)) (cA (cN 2) (cH 1))))) (cA (cN 1) (cH 1)))) (cA (cN 1) (cM (cN 2) (cH 1)))).
Definition QS_e15 := (cO (cD (cN 1) (cR (cM (cA (cN 1) (cH 1)) (cA (cN 1) (cM (cN 2) (cH 1))))))).
Definition QS_e16 := (cD (cM (cA (cN 3) (cM (cN 2) (cH 1))) (cR (cD (cM (cH 1) (cA (cN 1) (cH 1))) (cA (cN 3) (cM (cM (cN 4) (cH 1)) (cA (cN 2) (cH 1))))))) (cA (cN 1) (cH 1))).
Definition QS_e17 := (cM (cQ (-1) 2) (cR (cB (cN 2) (cD (cN 1) (cA (cN 1) (cH 1)))))).
Definition QS_e18 := (cM (cQ (-1) 2) (cR (cA (cN 2) (cD (cN 1) (cA (cN 1) (cH 1)))))).
Definition QS_e19 := (cO (cD (cN 1) (cR (cN 2)))).
Definition QS_e20 := (cD (cH 1) (cM (cR (cN 2)) (cR (cM (cH 1) (cA (cN 1) (cH 1)))))).
Definition QS_e21 := (cD (cN 1) (cR (cA (cN 1) (cD (cN 1) (cA (cN 1) (cM (cN 2) (cH 1))))))).
Definition QS_e22 := (cD (cR (cA (cN 2) (cD (cN 1) (cA (cN 1) (cH 1))))) (cN 2)).
Definition QS_e23 := (cO (cD (cH 1) (cM (cR (cN 2)) (cR (cM (cH 1) (cA (cN 1) (cH 1))))))).
Definition QS_e24 := (cD (cR (cA (cN 2) (cD (cN 1) (cH 1)))) (cN 2)).
Definition QS_e25 := (cM (cQ (-1) 2) (cR (cB (cN 2) (cD (cN 1) (cH 1))))).
Definition QS_e26 := (cO (cD (cR (cA (cN 2) (cD (cN 1) (cH 1)))) (cR (cN 2)))).
Definition QS_e27 := (cO (cD (cR (cA (cN 1) (cD (cN 1) (cH 1)))) (cR (cN 2)))).
Definition QS_e28 := (cD (cR (cB (cN 2) (cD (cN 1) (cH 1)))) (cN 2)).
Definition QS_e29 := (cD (cR (cA (cN 1) (cD (cN 1) (cH 1)))) (cR (cN 2))).
Definition QS_e30 := (cD (cR (cA (cN (-1)) (cW (cH 1) 4))) (cH 1)).
Definition QS_e31 := (cD (cR (cB (cN 1) (cD (cN 2) (cA (cN 1) (cM (cN 2) (cH 1)))))) (cH 1)).
Definition QS_e32 := (cA (cB (cN 1) (cD (cN 1) (cH 1))) (cD (cN 1) (cA (cN 1) (cH 1)))).
Definition QS_e33 := (cD (cN 1) (cA (cN 1) (cH 1))).
Definition QS_e34 := (cO (cD (cR (cA (cN 3) (cM (cM (cN 4) (cH 1)) (cA (cN 2) (cH 1))))) (cM (cA (cN 1) (cH 1)) (cA (cN 1) (cM (cN 2) (cH 1)))))).
Definition QS_e35 := (cD (cR (cM (cH 1) (cA (cN 2) (cH 1)))) (cA (cN 1) (cH 1))).
Definition QS_e36 := (cD (cR (cA (cN (-3)) (cM (cM (cN 4) (cH 1)) (cA (cN 1) (cH 1))))) (cA (cN 1) (cM (cN 2) (cH 1)))).
Definition QS_e37 := (cO (cD (cR (cA (cN 1) (cD (cN 2) (cA (cN 1) (cM (cN 2) (cH 1)))))) (cA (cN 1) (cH 1)))).
Definition QS_e38 := (cD (cN 1) (cA (cA (cN 1) (cM (cN 3) (cH 1))) (cM (cN 2) (cW (cH 1) 4)))).
Definition QS_e39 := (cO (cD (cN 1) (cA (cN 1) (cH 1)))).
Definition QS_e40 := (cD (cN 1) (cA (cH 1) (cM (cN 2) (cW (cH 1) 4)))).
Definition QS_e41 := (cD (cA (cA (cR (cM (cM (cM (cH 1) (cA (cN 1) (cH 1))) (cA (cN (-1)) (cM (cN 2) (cH 1)))) (cA (cN 1) (cM (cN 2) (cH 1))))) (cR (cD (cM (cH 1) (cA (cN (-1)) (cM (cN 2) (cH 1)))) (cA (cA (cN 1) (cM (cN 3) (cH 1))) (cM (cN 2) (cW (cH 1) 4)))))) (cR (cD (cM (cH 1) (cA (cN (-1)) (cM (cN 4) (cW (cH 1) 4)))) (cA (cN 1) (cH 1))))) (cR (cM (cM (cM (cH 1) (cA (cN 1) (cH 1))) (cA (cN 1) (cM (cN 2) (cH 1)))) (cA (cN 3) (cM (cN 2) (cH 1)))))).
Definition QS_e42 := (cO (cR (cD (cH 1) (cA (cN 1) (cM (cN 2) (cH 1)))))).
Definition QS_e43 := (cD (cA (cN 1) (cH 1)) (cR (cM (cA (cN 1) (cH 1)) (cA (cN 1) (cM (cN 2) (cH 1)))))).
Definition QS_e44 := (cR (cD (cH 1) (cA (cN 1) (cM (cN 2) (cH 1))))).
Definition QS_e45 := (cO (cR (cB (cN 1) (cD (cN 1) (cM (cN 2) (cH 1)))))).
Definition QS_e46 := (cO (cD (cN 1) (cR (cA (cN 2) (cD (cN 2) (cH 1)))))).
Definition QS_e47 := (cR (cA (cN 1) (cD (cN 1) (cA (cN 2) (cM (cN 2) (cH 1)))))).
Definition QS_e48 := (cO (cD (cA (cN 1) (cH 1)) (cR (cM (cA (cN 1) (cH 1)) (cA (cN 1) (cM (cN 2) (cH 1))))))).
Definition QS_e49 := (cR (cB (cN 1) (cD (cN 1) (cM (cN 2) (cH 1))))).
Definition QS_e50 := (cD (cN 1) (cR (cA (cN 2) (cD (cN 2) (cH 1))))).
Definition QS_e51 := (cM (cQ (-1) 2) (cR (cA (cN 4) (cD (cN 2) (cA (cN 1) (cH 1)))))).
Definition QS_e52 := (cM (cN (-2)) (cR (cD (cA (cN (-1)) (cW (cH 1) 4)) (cA (cN (-1)) (cM (cN 4) (cW (cH 1) 4)))))).
Definition QS_e53 := (cD (cR (cN 3)) (cR (cA (cN (-1)) (cM (cN 4) (cW (cH 1) 4))))).
Definition QS_e54 := (cO (cD (cR (cA (cN (-3)) (cM (cM (cN 4) (cH 1)) (cA (cN 1) (cH 1))))) (cA (cN 1) (cM (cN 2) (cH 1))))).
Definition QS_e55 := (cD (cN 2) (cA (cN 1) (cM (cN 2) (cH 1)))).
Definition QS_e56 := (cD (cM (cM (cN (-2)) (cH 1)) (cA (cA (cM (cN (-3)) (cR (cD (cM (cA (cN 1) (cH 1)) (cA (cN 2) (cH 1))) (cA (cN 3) (cM (cN 2) (cH 1)))))) (cM (cN 7) (cR (cM (cM (cA (cN 1) (cH 1)) (cA (cN 2) (cH 1))) (cA (cN 3) (cM (cN 2) (cH 1))))))) (cM (cH 1) (cA (cA (cM (cN (-5)) (cR (cD (cM (cA (cN 1) (cH 1)) (cA (cN 2) (cH 1))) (cA (cN 3) (cM (cN 2) (cH 1)))))) (cM (cM (cM (cN 4) (cH 1)) (cA (cN 1) (cH 1))) (cR (cD (cM (cA (cN 1) (cH 1)) (cA (cN 2) (cH 1))) (cA (cN 3) (cM (cN 2) (cH 1))))))) (cM (cN 8) (cR (cM (cM (cA (cN 1) (cH 1)) (cA (cN 2) (cH 1))) (cA (cN 3) (cM (cN 2) (cH 1)))))))))) (cM (cM (cA (cN 2) (cH 1)) (cR (cM (cM (cH 1) (cA (cN 1) (cH 1))) (cA (cN 1) (cM (cN 2) (cH 1)))))) (cW (cA (cN 3) (cM (cN 2) (cH 1))) 4))).
Definition QS_e57 := (cD (cR (cN 3)) (cR (cA (cN 3) (cM (cM (cN 4) (cH 1)) (cA (cN 2) (cH 1)))))).
Definition QS_e58 := (cO (cD (cR (cN 3)) (cR (cA (cN (-1)) (cM (cN 4) (cW (cH 1) 4)))))).
Definition QS_e59 := (cD (cM (cN (-2)) (cA (cN (-1)) (cW (cH 1) 4))) (cR (cA (cB (cN 1) (cM (cN 5) (cW (cH 1) 4))) (cM (cN 4) (cW (cH 1) 8))))).
Definition QS_e60 := (cD (cN (-2)) (cA (cN 1) (cM (cN 2) (cH 1)))).
Definition QS_e61 := (cO (cD (cM (cR (cN 3)) (cA (cA (cM (cN 3) (cR (cM (cH 1) (cA (cN 1) (cH 1))))) (cM (cN 5) (cR (cM (cW (cH 1) 6) (cA (cN 1) (cH 1)))))) (cM (cN 2) (cR (cM (cW (cH 1) 10) (cA (cN 1) (cH 1))))))) (cR (cM (cM (cH 1) (cA (cN 1) (cM (cN 2) (cH 1)))) (cW (cA (cA (cN 3) (cM (cN 5) (cH 1))) (cM (cN 2) (cW (cH 1) 4))) 6))))).
Definition QS_e62 := (cM (cM (cN (-2)) (cA (cN 2) (cH 1))) (cR (cD (cH 1) (cA (cA (cA (cN 6) (cM (cN 19) (cH 1))) (cM (cN 16) (cW (cH 1) 4))) (cM (cN 4) (cW (cH 1) 6)))))).
Definition QS_e63 := (cD (cH 1) (cM (cN 2) (cR (cM (cH 1) (cA (cN 1) (cH 1)))))).
Definition QS_e64 := (cD (cR (cB (cN 2) (cD (cN 1) (cA (cN 1) (cH 1))))) (cN 2)).
Definition QS_e65 := (cD (cH 1) (cM (cM (cN 2) (cR (cN 3))) (cR (cM (cH 1) (cA (cN 1) (cH 1)))))).
Definition QS_e66 := (cD (cR (cB (cN 2) (cD (cN 1) (cA (cN 1) (cH 1))))) (cM (cN 2) (cR (cN 3)))).
Definition QS_e67 := (cR (cD (cA (cN 3) (cM (cN 2) (cH 1))) (cA (cN 3) (cM (cN 3) (cH 1))))).
Definition QS_e68 := (cD (cA (cN 2) (cH 1)) (cM (cR (cN 3)) (cR (cM (cA (cN 1) (cH 1)) (cA (cN 2) (cH 1)))))).
Definition QS_e69 := (cD (cN 1) (cM (cN 2) (cR (cA (cN 1) (cD (cN 1) (cA (cN 1) (cM (cN 2) (cH 1)))))))).
Definition QS_e70 := (cM (cQ (-1) 2) (cR (cB (cN 3) (cD (cN 3) (cM (cN 2) (cA (cN 1) (cH 1))))))).
Definition QS_e71 := (cD (cB (cN 1) (cM (cN 2) (cH 1))) (cM (cR (cN 6)) (cR (cA (cA (cN (-1)) (cH 1)) (cM (cN 2) (cW (cH 1) 4)))))).
Definition QS_e72 := (cD (cA (cN 3) (cM (cN 2) (cH 1))) (cM (cN 2) (cR (cA (cA (cN 6) (cM (cN 10) (cH 1))) (cM (cN 4) (cW (cH 1) 4)))))).
Definition QS_e73 := (cD (cR (cA (cN 2) (cD (cN 1) (cA (cN 1) (cH 1))))) (cM (cN 2) (cR (cN 6)))).
Definition QS_e74 := (cO (cD (cM (cH 1) (cA (cM (cN 3) (cR (cD (cA (cN 1) (cM (cN 2) (cH 1))) (cA (cA (cM (cN 3) (cH 1)) (cM (cN 5) (cW (cH 1) 4))) (cM (cN 2) (cW (cH 1) 6)))))) (cM (cN 2) (cR (cB (cA (cN 1) (cD (cN 1) (cA (cN 1) (cH 1)))) (cD (cN 6) (cA (cN 3) (cM (cN 2) (cH 1))))))))) (cR (cA (cQ 9 2) (cM (cM (cN 6) (cH 1)) (cA (cN 2) (cH 1))))))).
Definition QS_e75 := (cM (cQ (-1) 2) (cR (cN 3))).
Definition QS_e76 := (cD (cM (cQ (-1) 2) (cH 1)) (cM (cR (cN 3)) (cR (cM (cH 1) (cA (cN 1) (cH 1)))))).
Definition QS_e77 := (cD (cM (cQ (-1) 2) (cR (cB (cN 2) (cD (cN 1) (cA (cN 1) (cH 1)))))) (cR (cN 3))).
Definition QS_e78 := (cO (cD (cR (cA (cN 2) (cD (cN 1) (cA (cN 1) (cH 1))))) (cR (cN 3)))).
Definition QS_e79 := (cO (cD (cA (cN 2) (cH 1)) (cM (cR (cN 3)) (cR (cM (cA (cN 1) (cH 1)) (cA (cN 2) (cH 1))))))).
Definition QS_e80 := (cD (cR (cB (cN 3) (cD (cN 3) (cM (cN 2) (cA (cN 1) (cH 1)))))) (cN 2)).
Definition QS_e81 := (cO (cD (cN 1) (cR (cN 6)))).
Definition QS_e82 := (cD (cR (cA (cA (cN (-1)) (cH 1)) (cM (cN 2) (cW (cH 1) 4)))) (cM (cR (cN 6)) (cA (cN 1) (cH 1)))).
Definition QS_e83 := (cD (cM (cQ (-1) 2) (cR (cA (cN 2) (cD (cN 1) (cA (cN 1) (cH 1)))))) (cR (cN 6))).
Definition QS_e84 := (cD (cM (cH 1) (cA (cM (cN 3) (cR (cD (cA (cN 1) (cM (cN 2) (cH 1))) (cA (cA (cM (cN 3) (cH 1)) (cM (cN 5) (cW (cH 1) 4))) (cM (cN 2) (cW (cH 1) 6)))))) (cM (cN 2) (cR (cB (cA (cN 1) (cD (cN 1) (cA (cN 1) (cH 1)))) (cD (cN 6) (cA (cN 3) (cM (cN 2) (cH 1))))))))) (cR (cA (cQ 9 2) (cM (cM (cN 6) (cH 1)) (cA (cN 2) (cH 1)))))).
Definition QS_e85 := (cO (cD (cH 1) (cM (cR (cN 3)) (cR (cM (cH 1) (cA (cN 1) (cH 1))))))).
Definition QS_e86 := (cO (cD (cR (cB (cN 2) (cD (cN 1) (cA (cN 1) (cH 1))))) (cR (cN 3)))).
Definition QS_e87 := (cO (cD (cR (cA (cN 2) (cD (cN 1) (cA (cN 1) (cH 1))))) (cR (cN 6)))).
Definition QS_e88 := (cM (cQ (-1) 2) (cR (cA (cN 2) (cD (cN 1) (cH 1))))).
Definition QS_e89 := (cM (cQ (-1) 2) (cR (cA (cN 1) (cD (cN 1) (cH 1))))).
Definition QS_e90 := (cD (cM (cQ (-1) 2) (cR (cA (cN 2) (cD (cN 1) (cH 1))))) (cR (cN 3))).
Definition QS_e91 := (cD (cM (cQ (-1) 2) (cR (cA (cN 1) (cD (cN 1) (cH 1))))) (cR (cN 3))).
Definition QS_e92 := (cD (cR (cD (cA (cN (-1)) (cH 1)) (cH 1))) (cR (cN 3))).
Definition QS_e93 := (cD (cR (cB (cN 2) (cD (cN 1) (cH 1)))) (cR (cN 3))).
Definition QS_e94 := (cD (cM (cQ (-1) 2) (cR (cA (cN 2) (cD (cN 1) (cH 1))))) (cR (cN 2))).
Definition QS_e95 := (cD (cR (cA (cN 3) (cD (cN 3) (cM (cN 2) (cH 1))))) (cN 2)).
Definition QS_e96 := (cD (cR (cB (cN 1) (cD (cN 1) (cM (cN 2) (cH 1))))) (cN 2)).
Definition QS_e97 := (cD (cR (cB (cN 2) (cD (cN 1) (cH 1)))) (cM (cN 2) (cR (cN 6)))).
Definition QS_e98 := (cM (cR (cQ 2 3)) (cR (cA (cN 1) (cD (cN 1) (cH 1))))).
Definition QS_e99 := (cR (cA (cQ 1 3) (cD (cN 1) (cM (cN 2) (cH 1))))).
Definition QS_e100 := (cD (cR (cA (cN 2) (cD (cN 1) (cH 1)))) (cM (cN 2) (cR (cN 3)))).
Definition QS_e101 := (cD (cR (cA (cN 1) (cD (cN 1) (cH 1)))) (cM (cN 2) (cR (cN 3)))).
Definition QS_e102 := (cO (cD (cR (cD (cA (cN (-1)) (cH 1)) (cH 1))) (cR (cN 3)))).
Definition QS_e103 := (cO (cD (cR (cB (cN 2) (cD (cN 1) (cH 1)))) (cR (cN 3)))).
Definition QS_e104 := (cM (cQ (-1) 2) (cR (cA (cN 3) (cD (cN 3) (cM (cN 2) (cH 1)))))).
Definition QS_e105 := (cD (cM (cQ (-1) 2) (cR (cB (cN 2) (cD (cN 1) (cH 1))))) (cR (cN 6))).
Definition QS_e106 := (cO (cM (cR (cQ 2 3)) (cR (cA (cN 1) (cD (cN 1) (cH 1)))))).
Definition QS_e107 := (cO (cD (cR (cA (cN 2) (cD (cN 3) (cH 1)))) (cR (cN 6)))).
Definition QS_e108 := (cD (cR (cA (cN 2) (cD (cN 1) (cH 1)))) (cR (cN 3))).
Definition QS_e109 := (cD (cR (cA (cN 1) (cD (cN 1) (cH 1)))) (cR (cN 3))).
Definition QS_e110 := (cO (cD (cR (cB (cN 2) (cD (cN 1) (cH 1)))) (cR (cN 6)))).
Definition QS_e111 := (cR (cA (cA (cN 1) (cD (cN 6) (cB (cN 1) (cM (cN 2) (cH 1))))) (cD (cN 3) (cH 1)))).
Definition QS_e112 := (cD (cM (cR (cN 3)) (cR (cD (cA (cN (-1)) (cH 1)) (cA (cN (-1)) (cM (cN 2) (cH 1)))))) (cH 1)).
Definition QS_e113 := (cO (cD (cR (cN 3)) (cR (cM (cH 1) (cA (cN (-1)) (cM (cN 2) (cH 1))))))).
Definition QS_e114 := (cD (cA (cA (cN (-4)) (cH 1)) (cM (cN 2) (cW (cH 1) 4))) (cR (cM (cM (cH 1) (cA (cN 1) (cH 1))) (cA (cN (-1)) (cM (cN 4) (cW (cH 1) 4)))))).
Definition QS_e115 := (cD (cA (cA (cB (cM (cN 3) (cR (cD (cM (cM (cH 1) (cA (cN 1) (cH 1))) (cA (cN 3) (cM (cN 2) (cH 1)))) (cA (cN (-1)) (cM (cN 4) (cW (cH 1) 4)))))) (cM (cM (cN 10) (cH 1)) (cR (cD (cM (cM (cH 1) (cA (cN 1) (cH 1))) (cA (cN 3) (cM (cN 2) (cH 1)))) (cA (cN (-1)) (cM (cN 4) (cW (cH 1) 4))))))) (cM (cM (cN 8) (cW (cH 1) 4)) (cR (cD (cM (cM (cH 1) (cA (cN 1) (cH 1))) (cA (cN 3) (cM (cN 2) (cH 1)))) (cA (cN (-1)) (cM (cN 4) (cW (cH 1) 4))))))) (cM (cM (cN 9) (cA (cN 1) (cH 1))) (cR (cD (cM (cH 1) (cA (cN (-3)) (cM (cM (cN 4) (cH 1)) (cA (cN 1) (cH 1))))) (cM (cA (cN 1) (cH 1)) (cA (cN 1) (cM (cN 2) (cH 1)))))))) (cM (cM (cM (cN 2) (cH 1)) (cW (cA (cN 1) (cH 1)) 3)) (cA (cN 3) (cM (cN 2) (cH 1))))).
Definition QS_e116 := (cD (cA (cB (cA (cA (cB (cM (cN (-5)) (cR (cD (cM (cW (cH 1) 6) (cA (cN 3) (cM (cN 2) (cH 1)))) (cA (cN 1) (cM (cN 2) (cH 1)))))) (cM (cN 4) (cR (cD (cM (cW (cH 1) 10) (cA (cN 3) (cM (cN 2) (cH 1)))) (cA (cN 1) (cM (cN 2) (cH 1))))))) (cM (cN 4) (cR (cD (cM (cW (cH 1) 14) (cA (cN 3) (cM (cN 2) (cH 1)))) (cA (cN 1) (cM (cN 2) (cH 1))))))) (cR (cM (cW (cH 1) 6) (cA (cN 3) (cM (cM (cN 4) (cH 1)) (cA (cN 2) (cH 1))))))) (cM (cN 2) (cR (cM (cW (cH 1) 10) (cA (cN 3) (cM (cM (cN 4) (cH 1)) (cA (cN 2) (cH 1)))))))) (cM (cN 3) (cR (cA (cH 1) (cD (cM (cN 2) (cH 1)) (cA (cN 1) (cM (cN 2) (cH 1)))))))) (cM (cM (cH 1) (cA (cN 3) (cM (cN 2) (cH 1)))) (cR (cM (cH 1) (cA (cA (cN (-1)) (cH 1)) (cM (cN 2) (cW (cH 1) 4))))))).
Definition QS_e117 := (cD (cA (cN (-3)) (cM (cH 1) (cA (cN 3) (cM (cN 2) (cH 1))))) (cR (cM (cM (cM (cH 1) (cA (cN 1) (cH 1))) (cA (cN 1) (cM (cN 2) (cH 1)))) (cA (cN 3) (cM (cN 2) (cH 1)))))).
Definition QS_e118 := (cD (cR (cN 3)) (cR (cM (cA (cN 1) (cH 1)) (cA (cN 3) (cM (cN 2) (cH 1)))))).
Definition QS_e119 := (cD (cM (cQ (-1) 2) (cM (cR (cA (cA (cN (-9)) (cM (cN 6) (cH 1))) (cD (cN 15) (cA (cN 2) (cH 1))))) (cA (cA (cM (cN (-3)) (cR (cA (cA (cN (-3)) (cH 1)) (cM (cM (cN 4) (cW (cH 1) 4)) (cA (cN 2) (cH 1)))))) (cM (cN 9) (cR (cA (cA (cN 3) (cH 1)) (cD (cN 6) (cA (cN (-1)) (cM (cN 2) (cH 1)))))))) (cM (cM (cM (cN 4) (cH 1)) (cA (cN 5) (cH 1))) (cR (cA (cA (cN 3) (cH 1)) (cD (cN 6) (cA (cN (-1)) (cM (cN 2) (cH 1)))))))))) (cM (cW (cA (cN 1) (cH 1)) 4) (cW (cA (cN 3) (cM (cN 2) (cH 1))) 4))).
Definition QS_e120 := (cD (cA (cN 5) (cM (cN 2) (cH 1))) (cR (cD (cM (cM (cA (cN 1) (cH 1)) (cA (cN 3) (cM (cN 2) (cH 1)))) (cA (cN 5) (cM (cN 2) (cH 1)))) (cH 1)))).
Definition QS_e121 := (cD (cN 1) (cR (cD (cM (cH 1) (cA (cN 1) (cM (cN 2) (cH 1)))) (cA (cA (cN (-3)) (cH 1)) (cM (cN 2) (cW (cH 1) 4)))))).
Definition QS_e122 := (cO (cD (cR (cA (cA (cN 9) (cM (cN 15) (cH 1))) (cM (cN 6) (cW (cH 1) 4)))) (cM (cA (cN 1) (cH 1)) (cA (cN 1) (cM (cN 2) (cH 1)))))).
Definition QS_e123 := (cD (cR (cM (cM (cM (cH 1) (cA (cN 2) (cH 1))) (cA (cN (-1)) (cM (cN 2) (cH 1)))) (cA (cN 3) (cM (cN 2) (cH 1))))) (cM (cA (cN 1) (cH 1)) (cA (cN 1) (cM (cN 2) (cH 1))))).
Definition QS_e124 := (cD (cR (cN 3)) (cM (cR (cM (cH 1) (cA (cN 1) (cH 1)))) (cA (cN 1) (cM (cN 2) (cH 1))))).
Definition QS_e125 := (cD (cM (cN (-4)) (cR (cM (cM (cM (cH 1) (cA (cN 1) (cH 1))) (cA (cN 2) (cH 1))) (cA (cN 3) (cM (cN 2) (cH 1)))))) (cM (cA (cN 1) (cH 1)) (cA (cN 3) (cM (cM (cN 4) (cH 1)) (cA (cN 2) (cH 1)))))).
Definition QS_e126 := (cD (cM (cA (cN 5) (cM (cN 2) (cH 1))) (cR (cD (cM (cH 1) (cA (cN 1) (cH 1))) (cA (cA (cN 15) (cM (cN 16) (cH 1))) (cM (cN 4) (cW (cH 1) 4)))))) (cA (cN 1) (cH 1))).
Definition QS_e127 := (cD (cR (cN 3)) (cM (cA (cN 1) (cH 1)) (cR (cA (cN 3) (cM (cM (cN 4) (cH 1)) (cA (cN 2) (cH 1))))))).
Definition QS_e128 := (cO (cD (cR (cN 3)) (cR (cM (cA (cN 1) (cH 1)) (cA (cN 3) (cM (cN 2) (cH 1))))))).
Definition QS_e129 := (cD (cR (cN 3)) (cR (cM (cH 1) (cA (cN (-1)) (cM (cN 2) (cH 1)))))).
Definition QS_e130 := (cD (cR (cN 3)) (cM (cH 1) (cR (cA (cN (-1)) (cM (cN 4) (cW (cH 1) 4)))))).
Definition QS_e131 := (cD (cM (cN 2) (cA (cA (cR (cO (cD (cA (cN 1) (cH 1)) (cB (cA (cN 1) (cH 1)) (cM (cN 2) (cW (cH 1) 4)))))) (cM (cM (cH 1) (cA (cN (-3)) (cM (cN 2) (cH 1)))) (cR (cO (cD (cA (cN 1) (cH 1)) (cB (cA (cN 1) (cH 1)) (cM (cN 2) (cW (cH 1) 4)))))))) (cM (cN 3) (cR (cD (cA (cN (-1)) (cW (cH 1) 4)) (cA (cN 1) (cM (cN 2) (cH 1)))))))) (cM (cA (cN 1) (cH 1)) (cR (cM (cH 1) (cA (cN (-1)) (cM (cN 4) (cW (cH 1) 4))))))).
Definition QS_e132 := (cD (cA (cM (cN 3) (cR (cA (cD (cN 3) (cA (cN 1) (cM (cN 2) (cH 1)))) (cM (cH 1) (cA (cA (cN (-4)) (cH 1)) (cM (cN 2) (cW (cH 1) 4))))))) (cM (cM (cA (cN (-1)) (cH 1)) (cH 1)) (cA (cR (cD (cM (cM (cM (cA (cN 1) (cH 1)) (cA (cN (-1)) (cM (cN 2) (cH 1)))) (cA (cN 1) (cM (cN 2) (cH 1)))) (cA (cN 3) (cM (cN 2) (cH 1)))) (cA (cN (-1)) (cH 1)))) (cM (cN 4) (cR (cD (cA (cA (cN (-3)) (cH 1)) (cM (cM (cN 4) (cW (cH 1) 4)) (cA (cN 2) (cH 1)))) (cM (cA (cN (-1)) (cH 1)) (cA (cN 1) (cM (cN 2) (cH 1)))))))))) (cM (cM (cM (cH 1) (cA (cN 1) (cH 1))) (cR (cA (cN 1) (cM (cN 2) (cH 1))))) (cA (cN 3) (cM (cN 2) (cH 1))))).
Definition QS_e133 := (cD (cM (cR (cN 3)) (cA (cA (cR (cM (cM (cM (cW (cH 1) 6) (cA (cN 1) (cH 1))) (cA (cN (-1)) (cM (cN 2) (cH 1)))) (cA (cN 1) (cM (cN 2) (cH 1))))) (cM (cN 3) (cR (cD (cM (cH 1) (cA (cA (cN (-1)) (cH 1)) (cM (cN 2) (cW (cH 1) 4)))) (cA (cN 1) (cM (cN 2) (cH 1))))))) (cM (cM (cN 4) (cH 1)) (cR (cD (cM (cH 1) (cA (cA (cN (-1)) (cH 1)) (cM (cN 2) (cW (cH 1) 4)))) (cA (cN 1) (cM (cN 2) (cH 1)))))))) (cM (cM (cM (cH 1) (cW (cA (cN 1) (cH 1)) 3)) (cR (cA (cN 1) (cM (cN 2) (cH 1))))) (cA (cN 3) (cM (cN 2) (cH 1))))).
Definition QS_e134 := (cD (cA (cA (cA (cM (cM (cN 3) (cA (cN 1) (cM (cN 2) (cH 1)))) (cR (cD (cM (cH 1) (cA (cA (cN (-1)) (cH 1)) (cM (cN 2) (cW (cH 1) 4)))) (cA (cN 3) (cM (cN 2) (cH 1)))))) (cM (cN 3) (cR (cD (cM (cH 1) (cA (cN (-1)) (cM (cN 2) (cH 1)))) (cA (cA (cN 3) (cM (cN 5) (cH 1))) (cM (cN 2) (cW (cH 1) 4))))))) (cM (cM (cN 3) (cA (cN 1) (cM (cN 2) (cH 1)))) (cR (cD (cM (cH 1) (cA (cN (-1)) (cM (cN 2) (cH 1)))) (cA (cA (cN 3) (cM (cN 5) (cH 1))) (cM (cN 2) (cW (cH 1) 4))))))) (cM (cA (cN 1) (cM (cN 2) (cH 1))) (cR (cM (cH 1) (cA (cA (cN (-3)) (cH 1)) (cM (cM (cN 4) (cW (cH 1) 4)) (cA (cN 2) (cH 1)))))))) (cM (cM (cN 2) (cA (cN 1) (cH 1))) (cR (cM (cM (cM (cH 1) (cA (cN 2) (cH 1))) (cA (cN 1) (cM (cN 2) (cH 1)))) (cA (cN 3) (cM (cN 2) (cH 1))))))).
Definition QS_e135 := (cD (cM (cQ (-1) 2) (cR (cB (cN 2) (cD (cN 1) (cH 1))))) (cR (cN 3))).
Definition QS_e136 := (cD (cR (cA (cN 1) (cD (cN 1) (cH 1)))) (cN 2)).
Definition QS_e137 := (cM (cQ (-1) 2) (cR (cD (cH 1) (cA (cN 1) (cH 1))))).
Definition QS_e138 := (cD (cM (cQ (-1) 2) (cN 1)) (cR (cA (cN 3) (cD (cN 3) (cH 1))))).
Definition QS_e139 := (cD (cR (cA (cN 6) (cD (cN 3) (cA (cN 1) (cH 1))))) (cN 6)).
Definition QS_e140 := (cD (cN 1) (cR (cA (cN 3) (cD (cN 3) (cH 1))))).
Definition QS_e141 := (cD (cN 1) (cR (cA (cN 4) (cD (cN 2) (cH 1))))).
Definition QS_e142 := (cD (cB (cN (-1)) (cH 1)) (cR (cA (cA (cN 2) (cM (cN 6) (cH 1))) (cM (cN 4) (cW (cH 1) 4))))).
Definition QS_e143 := (cO (cR (cD (cA (cN 1) (cH 1)) (cA (cN 2) (cM (cN 4) (cH 1)))))).
Definition QS_e144 := (cO (cD (cN 1) (cR (cA (cN 4) (cD (cN 2) (cH 1)))))).
Definition QS_e145 := (cO (cM (cR (cN 3)) (cR (cD (cH 1) (cA (cN 2) (cM (cN 4) (cH 1))))))).
Definition QS_e146 := (cO (cD (cA (cN 1) (cH 1)) (cM (cR (cN 6)) (cR (cM (cA (cN 1) (cH 1)) (cA (cN 1) (cM (cN 2) (cH 1)))))))).
Definition QS_e147 := (cD (cM (cR (cN 3)) (cA (cN 1) (cH 1))) (cR (cA (cA (cN 2) (cM (cN 6) (cH 1))) (cM (cN 4) (cW (cH 1) 4))))).
Definition QS_e148 := (cO (cR (cD (cH 1) (cA (cN 6) (cM (cN 12) (cH 1)))))).
Definition QS_e149 := (cO (cR (cA (cN 1) (cD (cN 1) (cB (cN 1) (cM (cN 2) (cH 1))))))).
Definition QS_e150 := (cD (cM (cR (cQ 2 3)) (cA (cN 1) (cH 1))) (cR (cA (cA (cN (-1)) (cH 1)) (cM (cN 2) (cW (cH 1) 4))))).
Definition QS_e151 := (cD (cM (cR (cQ 2 3)) (cB (cN 1) (cM (cN 2) (cH 1)))) (cR (cA (cN (-1)) (cM (cN 4) (cW (cH 1) 4))))).
Definition QS_e152 := (cD (cM (cR (cN 2)) (cA (cN 3) (cM (cN 2) (cH 1)))) (cR (cA (cN 9) (cM (cM (cN 12) (cH 1)) (cA (cN 2) (cH 1)))))).
Definition QS_e153 := (cO (cD (cM (cR (cN 2)) (cH 1)) (cR (cA (cM (cN 9) (cH 1)) (cM (cN 6) (cW (cH 1) 4)))))).
Definition QS_e154 := (cD (cM (cR (cN 2)) (cA (cN 2) (cH 1))) (cR (cM (cA (cN 2) (cH 1)) (cA (cN 3) (cM (cN 2) (cH 1)))))).
Definition QS_e155 := (cD (cR (cB (cN 2) (cD (cN 1) (cH 1)))) (cM (cN 2) (cR (cN 3)))).
Definition QS_e156 := (cO (cD (cR (cA (cN 1) (cD (cN 1) (cH 1)))) (cR (cN 3)))).
Definition QS_e157 := (cD (cN 1) (cM (cN 2) (cR (cA (cN 3) (cD (cN 3) (cH 1)))))).
Definition QS_e158 := (cM (cQ (-1) 6) (cR (cA (cN 6) (cD (cN 3) (cA (cN 1) (cH 1)))))).
Definition QS_e159 := (cO (cD (cN 1) (cR (cA (cN 3) (cD (cN 3) (cH 1)))))).
Definition QS_e160 := (cM (cR (cN 3)) (cR (cD (cH 1) (cA (cN 2) (cM (cN 4) (cH 1)))))).
Definition QS_e161 := (cD (cA (cN 1) (cH 1)) (cM (cR (cN 6)) (cR (cM (cA (cN 1) (cH 1)) (cA (cN 1) (cM (cN 2) (cH 1))))))).
Definition QS_e162 := (cO (cD (cM (cR (cN 3)) (cA (cN 1) (cH 1))) (cR (cA (cA (cN 2) (cM (cN 6) (cH 1))) (cM (cN 4) (cW (cH 1) 4)))))).
Definition QS_e163 := (cD (cH 1) (cM (cR (cN 6)) (cR (cM (cH 1) (cA (cN 1) (cM (cN 2) (cH 1))))))).
Definition QS_e164 := (cR (cA (cN 1) (cD (cN 1) (cB (cN 1) (cM (cN 2) (cH 1)))))).
Definition QS_e165 := (cO (cD (cM (cR (cQ 2 3)) (cA (cN 1) (cH 1))) (cR (cA (cA (cN (-1)) (cH 1)) (cM (cN 2) (cW (cH 1) 4)))))).
Definition QS_e166 := (cD (cM (cR (cQ 2 3)) (cA (cN (-1)) (cM (cN 2) (cH 1)))) (cR (cA (cN (-1)) (cM (cN 4) (cW (cH 1) 4))))).
Definition QS_e167 := (cO (cD (cM (cR (cN 2)) (cA (cN 3) (cM (cN 2) (cH 1)))) (cR (cA (cN 9) (cM (cM (cN 12) (cH 1)) (cA (cN 2) (cH 1))))))).
Definition QS_e168 := (cD (cM (cR (cN 2)) (cH 1)) (cR (cA (cM (cN 9) (cH 1)) (cM (cN 6) (cW (cH 1) 4))))).
Definition QS_e169 := (cO (cD (cM (cR (cN 2)) (cA (cN 2) (cH 1))) (cR (cM (cA (cN 2) (cH 1)) (cA (cN 3) (cM (cN 2) (cH 1))))))).
Definition QS_e170 := (cM (cQ (-1) 3) (cR (cA (cN 6) (cD (cN 3) (cA (cN 1) (cH 1)))))).
Definition QS_e171 := (cD (cM (cR (cN 2)) (cA (cN 1) (cH 1))) (cR (cA (cA (cN 3) (cM (cN 9) (cH 1))) (cM (cN 6) (cW (cH 1) 4))))).
Definition QS_e172 := (cD (cM (cR (cN 2)) (cH 1)) (cR (cA (cM (cN 3) (cH 1)) (cM (cN 6) (cW (cH 1) 4))))).
Definition QS_e173 := (cR (cD (cB (cA (cN 3) (cH 1)) (cM (cN 2) (cW (cH 1) 4))) (cB (cA (cN 1) (cH 1)) (cM (cN 2) (cW (cH 1) 4))))).
Definition QS_e174 := (cO (cD (cR (cN 2)) (cR (cM (cA (cN (-1)) (cH 1)) (cA (cN 1) (cM (cN 2) (cH 1))))))).
Definition QS_e175 := (cD (cA (cA (cN (-3)) (cH 1)) (cM (cN 2) (cW (cH 1) 4))) (cR (cM (cM (cM (cA (cN (-1)) (cH 1)) (cH 1)) (cA (cN 1) (cM (cN 2) (cH 1)))) (cA (cN 3) (cM (cN 2) (cH 1)))))).
Definition QS_e176 := (cO (cD (cR (cN 3)) (cR (cM (cH 1) (cA (cN 1) (cM (cN 2) (cH 1))))))).
Definition QS_e177 := (cD (cA (cN (-1)) (cM (cN 2) (cH 1))) (cR (cD (cM (cA (cN 1) (cM (cN 2) (cH 1))) (cA (cA (cN (-1)) (cH 1)) (cM (cN 2) (cW (cH 1) 4)))) (cA (cN 2) (cH 1))))).
Definition QS_e178 := (cO (cD (cM (cR (cN 3)) (cA (cA (cM (cN 6) (cR (cM (cM (cM (cH 1) (cA (cN 2) (cH 1))) (cA (cN 1) (cM (cN 2) (cH 1)))) (cA (cN 3) (cM (cN 2) (cH 1)))))) (cM (cN 7) (cR (cM (cM (cM (cW (cH 1) 6) (cA (cN 2) (cH 1))) (cA (cN 1) (cM (cN 2) (cH 1)))) (cA (cN 3) (cM (cN 2) (cH 1))))))) (cM (cN 2) (cR (cM (cM (cM (cW (cH 1) 10) (cA (cN 2) (cH 1))) (cA (cN 1) (cM (cN 2) (cH 1)))) (cA (cN 3) (cM (cN 2) (cH 1)))))))) (cM (cM (cR (cM (cH 1) (cA (cN 1) (cH 1)))) (cA (cN 1) (cM (cN 2) (cH 1)))) (cW (cM (cA (cN 2) (cH 1)) (cA (cN 3) (cM (cN 2) (cH 1)))) 3)))).
Definition QS_e179 := (cM (cA (cN 5) (cM (cN 2) (cH 1))) (cR (cD (cH 1) (cA (cA (cA (cN 10) (cM (cN 29) (cH 1))) (cM (cN 20) (cW (cH 1) 4))) (cM (cN 4) (cW (cH 1) 6)))))).
Definition QS_e180 := (cO (cD (cR (cN 2)) (cR (cM (cA (cN 2) (cH 1)) (cA (cN 1) (cM (cN 2) (cH 1))))))).
Definition QS_e181 := (cD (cR (cN 2)) (cR (cM (cA (cN (-1)) (cH 1)) (cA (cN 1) (cM (cN 2) (cH 1)))))).
Definition QS_e182 := (cD (cM (cA (cN 1) (cH 1)) (cA (cN (-3)) (cM (cN 2) (cH 1)))) (cR (cM (cM (cM (cA (cN (-1)) (cH 1)) (cA (cN 1) (cH 1))) (cA (cN (-3)) (cM (cN 2) (cH 1)))) (cA (cN 1) (cM (cN 2) (cH 1)))))).
Definition QS_e183 := (cD (cR (cN 3)) (cR (cM (cH 1) (cA (cN 1) (cM (cN 2) (cH 1)))))).
Definition QS_e184 := (cD (cM (cA (cN (-1)) (cH 1)) (cA (cN 3) (cM (cN 2) (cH 1)))) (cR (cM (cM (cM (cA (cN (-1)) (cH 1)) (cH 1)) (cA (cN 1) (cM (cN 2) (cH 1)))) (cA (cN 3) (cM (cN 2) (cH 1)))))).
Definition QS_e185 := (cD (cR (cN 3)) (cR (cM (cA (cN 1) (cH 1)) (cA (cN 1) (cM (cN 2) (cH 1)))))).
Definition QS_e186 := (cD (cM (cA (cN 2) (cH 1)) (cA (cN (-1)) (cM (cN 2) (cH 1)))) (cR (cM (cM (cM (cA (cN 1) (cH 1)) (cA (cN 2) (cH 1))) (cA (cN (-1)) (cM (cN 2) (cH 1)))) (cA (cN 1) (cM (cN 2) (cH 1)))))).
Definition QS_e187 := (cD (cM (cR (cN 2)) (cA (cA (cA (cM (cN 6) (cR (cM (cM (cH 1) (cA (cN 1) (cH 1))) (cA (cN 3) (cM (cN 2) (cH 1)))))) (cM (cM (cN 12) (cH 1)) (cR (cM (cM (cH 1) (cA (cN 1) (cH 1))) (cA (cN 3) (cM (cN 2) (cH 1))))))) (cM (cN 6) (cR (cM (cM (cW (cH 1) 10) (cA (cN 1) (cH 1))) (cA (cN 3) (cM (cN 2) (cH 1))))))) (cR (cM (cM (cM (cW (cH 1) 6) (cW (cA (cN 1) (cH 1)) 6)) (cW (cA (cN 1) (cM (cN 2) (cH 1))) 4)) (cA (cN 3) (cM (cN 2) (cH 1))))))) (cR (cM (cM (cM (cM (cH 1) (cW (cA (cN 1) (cH 1)) 6)) (cW (cA (cN 2) (cH 1)) 6)) (cA (cN 1) (cM (cN 2) (cH 1)))) (cW (cA (cN 3) (cM (cN 2) (cH 1))) 6)))).
Definition QS_e188 := (cD (cM (cA (cN 5) (cM (cN 2) (cH 1))) (cR (cD (cM (cH 1) (cA (cN 2) (cH 1))) (cA (cA (cN 5) (cM (cN 12) (cH 1))) (cM (cN 4) (cW (cH 1) 4)))))) (cA (cN 2) (cH 1))).
Definition QS_e189 := (cD (cR (cB (cN 2) (cD (cN 1) (cA (cN 1) (cH 1))))) (cN 4)).
Definition QS_e190 := (cM (cQ (-1) 4) (cR (cB (cN 6) (cD (cN 3) (cA (cN 1) (cH 1)))))).
Definition QS_e191 := (cM (cQ (-1) 4) (cR (cB (cN 2) (cD (cN 1) (cA (cN 1) (cH 1)))))).
Definition QS_e192 := (cD (cN 1) (cM (cN 2) (cR (cN 3)))).
Definition QS_e193 := (cD (cB (cN 1) (cM (cN 2) (cH 1))) (cM (cM (cN 2) (cR (cN 3))) (cR (cA (cA (cN (-1)) (cH 1)) (cM (cN 2) (cW (cH 1) 4)))))).
Definition QS_e194 := (cD (cR (cA (cN 2) (cD (cN 1) (cA (cN 1) (cH 1))))) (cN 4)).
Definition QS_e195 := (cD (cA (cN 3) (cM (cN 2) (cH 1))) (cM (cN 4) (cR (cA (cA (cN 9) (cM (cN 15) (cH 1))) (cM (cN 6) (cW (cH 1) 4)))))).
Definition QS_e196 := (cO (cD (cM (cH 1) (cA (cM (cN 3) (cR (cD (cA (cN 1) (cM (cN 2) (cH 1))) (cA (cA (cM (cN 3) (cH 1)) (cM (cN 5) (cW (cH 1) 4))) (cM (cN 2) (cW (cH 1) 6)))))) (cM (cN 2) (cR (cB (cA (cN 1) (cD (cN 1) (cA (cN 1) (cH 1)))) (cD (cN 6) (cA (cN 3) (cM (cN 2) (cH 1))))))))) (cR (cA (cN 9) (cM (cM (cN 12) (cH 1)) (cA (cN 2) (cH 1))))))).
Definition QS_e197 := (cD (cB (cN 1) (cM (cN 2) (cH 1))) (cM (cN 6) (cR (cA (cA (cN (-1)) (cH 1)) (cM (cN 2) (cW (cH 1) 4)))))).
Definition QS_e198 := (cM (cQ (-1) 4) (cR (cA (cN 6) (cD (cN 3) (cA (cN 1) (cH 1)))))).
Definition QS_e199 := (cD (cR (cA (cN 2) (cD (cN 1) (cA (cN 1) (cH 1))))) (cN 12)).
Definition QS_e200 := (cD (cM (cQ (-1) 3) (cM (cH 1) (cA (cM (cN 3) (cR (cD (cA (cN 1) (cM (cN 2) (cH 1))) (cA (cA (cM (cN 3) (cH 1)) (cM (cN 5) (cW (cH 1) 4))) (cM (cN 2) (cW (cH 1) 6)))))) (cM (cN 2) (cR (cB (cA (cN 1) (cD (cN 1) (cA (cN 1) (cH 1)))) (cD (cN 6) (cA (cN 3) (cM (cN 2) (cH 1)))))))))) (cR (cA (cN 3) (cM (cM (cN 4) (cH 1)) (cA (cN 2) (cH 1)))))).
Definition QS_e201 := (cD (cM (cN (-2)) (cR (cN 2))) (cN 3)).
Definition QS_e202 := (cD (cB (cN 1) (cM (cN 2) (cH 1))) (cM (cM (cN 6) (cR (cN 2))) (cR (cA (cA (cN (-1)) (cH 1)) (cM (cN 2) (cW (cH 1) 4)))))).
Definition QS_e203 := (cM (cQ (-1) 3) (cR (cA (cN 4) (cD (cN 2) (cA (cN 1) (cH 1)))))).
Definition QS_e204 := (cD (cM (cQ (-1) 3) (cM (cH 1) (cA (cM (cN 3) (cR (cD (cA (cN 1) (cM (cN 2) (cH 1))) (cA (cA (cM (cN 3) (cH 1)) (cM (cN 5) (cW (cH 1) 4))) (cM (cN 2) (cW (cH 1) 6)))))) (cM (cN 2) (cR (cB (cA (cN 1) (cD (cN 1) (cA (cN 1) (cH 1)))) (cD (cN 6) (cA (cN 3) (cM (cN 2) (cH 1)))))))))) (cR (cA (cN 6) (cM (cM (cN 8) (cH 1)) (cA (cN 2) (cH 1)))))).
Definition QS_e205 := (cD (cM (cQ (-1) 2) (cN 1)) (cR (cA (cN 3) (cD (cN 3) (cA (cN 1) (cM (cN 2) (cH 1))))))).
Definition QS_e206 := (cM (cQ (-1) 2) (cR (cA (cN 3) (cD (cN 3) (cM (cN 2) (cA (cN 1) (cH 1))))))).
Definition QS_e207 := (cD (cB (cB (cM (cN (-7)) (cR (cD (cM (cW (cH 1) 6) (cA (cN 1) (cM (cN 2) (cH 1)))) (cA (cA (cN 3) (cM (cN 5) (cH 1))) (cM (cN 2) (cW (cH 1) 4)))))) (cM (cN 2) (cR (cD (cM (cW (cH 1) 10) (cA (cN 1) (cM (cN 2) (cH 1)))) (cA (cA (cN 3) (cM (cN 5) (cH 1))) (cM (cN 2) (cW (cH 1) 4))))))) (cM (cN 6) (cR (cB (cA (cN 1) (cD (cN 1) (cA (cN 1) (cH 1)))) (cD (cN 6) (cA (cN 3) (cM (cN 2) (cH 1)))))))) (cM (cR (cN 2)) (cR (cM (cM (cM (cH 1) (cA (cN 2) (cH 1))) (cA (cN 1) (cM (cN 2) (cH 1)))) (cA (cN 3) (cM (cN 2) (cH 1))))))).
Definition QS_e208 := (cD (cM (cQ (-1) 2) (cR (cA (cN 2) (cD (cN 3) (cA (cN 1) (cH 1)))))) (cR (cN 2))).
Definition QS_e209 := (cD (cN 1) (cM (cN 2) (cR (cN 2)))).
Definition QS_e210 := (cM (cQ (-1) 2) (cR (cQ 3 2))).
Definition QS_e211 := (cD (cM (cQ (-1) 2) (cH 1)) (cM (cR (cN 2)) (cR (cM (cH 1) (cA (cN 1) (cH 1)))))).
Definition QS_e212 := (cD (cM (cR (cQ 3 2)) (cH 1)) (cM (cN 2) (cR (cM (cH 1) (cA (cN 1) (cH 1)))))).
Definition QS_e213 := (cD (cM (cQ (-1) 2) (cN 1)) (cR (cA (cN 1) (cD (cN 1) (cA (cN 1) (cM (cN 2) (cH 1))))))).
Definition QS_e214 := (cD (cM (cQ (-1) 2) (cN 1)) (cR (cN 2))).
Definition QS_e215 := (cD (cM (cQ (-1) 2) (cH 1)) (cM (cR (cN 6)) (cR (cM (cH 1) (cA (cN 1) (cH 1)))))).
Definition QS_e216 := (cD (cM (cQ (-1) 6) (cH 1)) (cM (cR (cN 2)) (cR (cM (cH 1) (cA (cN 1) (cH 1)))))).
Definition QS_e217 := (cD (cM (cN 2) (cH 1)) (cM (cN 3) (cR (cM (cH 1) (cA (cN 1) (cH 1)))))).
Definition QS_e218 := (cD (cM (cQ (-1) 6) (cN 1)) (cR (cA (cN 1) (cD (cN 1) (cA (cN 1) (cM (cN 2) (cH 1))))))).
Definition QS_e219 := (cD (cM (cN 2) (cR (cB (cN 2) (cD (cN 1) (cA (cN 1) (cH 1)))))) (cN 3)).
Definition QS_e220 := (cD (cM (cQ (-1) 2) (cN 1)) (cR (cN 3))).
Definition QS_e221 := (cD (cA (cN (-1)) (cH 1)) (cM (cN 2) (cR (cA (cN (-1)) (cW (cH 1) 4))))).
Definition QS_e222 := (cD (cM (cQ (-1) 3) (cR (cA (cN 2) (cD (cN 1) (cA (cN 1) (cH 1)))))) (cR (cN 2))).
Definition QS_e223 := (cM (cQ (-1) 6) (cR (cA (cN 2) (cD (cN 1) (cA (cN 1) (cH 1)))))).
Definition QS_e224 := (cD (cR (cA (cA (cN (-1)) (cH 1)) (cM (cN 2) (cW (cH 1) 4)))) (cA (cN 2) (cM (cN 2) (cH 1)))).
Definition QS_e225 := (cO (cD (cA (cN 2) (cH 1)) (cM (cR (cN 6)) (cR (cM (cA (cN 1) (cH 1)) (cA (cN 2) (cH 1))))))).
Definition QS_e226 := (cD (cM (cQ (-1) 3) (cA (cN 2) (cH 1))) (cM (cR (cN 2)) (cR (cM (cA (cN 1) (cH 1)) (cA (cN 2) (cH 1)))))).
Definition QS_e227 := (cD (cM (cQ (-1) 6) (cA (cN 2) (cH 1))) (cR (cM (cA (cN 1) (cH 1)) (cA (cN 2) (cH 1))))).
Definition QS_e228 := (cM (cR (cN 3)) (cR (cD (cH 1) (cA (cN 4) (cM (cN 4) (cH 1)))))).
Definition QS_e229 := (cD (cR (cB (cN 6) (cD (cN 3) (cA (cN 1) (cH 1))))) (cN 4)).
Definition QS_e230 := (cD (cR (cA (cA (cN (-1)) (cH 1)) (cM (cN 2) (cW (cH 1) 4)))) (cA (cN 6) (cM (cN 6) (cH 1)))).
Definition QS_e231 := (cD (cR (cA (cN 6) (cD (cN 3) (cA (cN 1) (cH 1))))) (cN 4)).
Definition QS_e232 := (cM (cQ (-1) 12) (cR (cA (cN 2) (cD (cN 1) (cA (cN 1) (cH 1)))))).
Definition QS_e233 := (cD (cM (cH 1) (cA (cM (cN 3) (cR (cD (cA (cN 1) (cM (cN 2) (cH 1))) (cA (cA (cM (cN 3) (cH 1)) (cM (cN 5) (cW (cH 1) 4))) (cM (cN 2) (cW (cH 1) 6)))))) (cM (cN 2) (cR (cB (cA (cN 1) (cD (cN 1) (cA (cN 1) (cH 1)))) (cD (cN 6) (cA (cN 3) (cM (cN 2) (cH 1))))))))) (cM (cN 3) (cR (cA (cN 3) (cM (cM (cN 4) (cH 1)) (cA (cN 2) (cH 1))))))).
Definition QS_e234 := (cD (cM (cN 2) (cR (cN 2))) (cN 3)).
Definition QS_e235 := (cD (cR (cA (cA (cN (-1)) (cH 1)) (cM (cN 2) (cW (cH 1) 4)))) (cM (cR (cN 2)) (cA (cN 6) (cM (cN 6) (cH 1))))).
Definition QS_e236 := (cD (cR (cA (cN 4) (cD (cN 2) (cA (cN 1) (cH 1))))) (cN 3)).
Definition QS_e237 := (cD (cM (cH 1) (cA (cM (cN 3) (cR (cD (cA (cN 1) (cM (cN 2) (cH 1))) (cA (cA (cM (cN 3) (cH 1)) (cM (cN 5) (cW (cH 1) 4))) (cM (cN 2) (cW (cH 1) 6)))))) (cM (cN 2) (cR (cB (cA (cN 1) (cD (cN 1) (cA (cN 1) (cH 1)))) (cD (cN 6) (cA (cN 3) (cM (cN 2) (cH 1))))))))) (cM (cN 3) (cR (cA (cN 6) (cM (cM (cN 8) (cH 1)) (cA (cN 2) (cH 1))))))).
Definition QS_e238 := (cD (cN 1) (cM (cN 2) (cR (cA (cN 3) (cD (cN 3) (cA (cN 1) (cM (cN 2) (cH 1)))))))).
Definition QS_e239 := (cD (cR (cA (cN 3) (cD (cN 3) (cM (cN 2) (cA (cN 1) (cH 1)))))) (cN 2)).
Definition QS_e240 := (cD (cA (cA (cM (cN 7) (cR (cD (cM (cW (cH 1) 6) (cA (cN 1) (cM (cN 2) (cH 1)))) (cA (cA (cN 3) (cM (cN 5) (cH 1))) (cM (cN 2) (cW (cH 1) 4)))))) (cM (cN 2) (cR (cD (cM (cW (cH 1) 10) (cA (cN 1) (cM (cN 2) (cH 1)))) (cA (cA (cN 3) (cM (cN 5) (cH 1))) (cM (cN 2) (cW (cH 1) 4))))))) (cM (cN 6) (cR (cB (cA (cN 1) (cD (cN 1) (cA (cN 1) (cH 1)))) (cD (cN 6) (cA (cN 3) (cM (cN 2) (cH 1)))))))) (cM (cR (cN 2)) (cR (cM (cM (cM (cH 1) (cA (cN 2) (cH 1))) (cA (cN 1) (cM (cN 2) (cH 1)))) (cA (cN 3) (cM (cN 2) (cH 1))))))).
Definition QS_e241 := (cD (cR (cA (cN 2) (cD (cN 3) (cA (cN 1) (cH 1))))) (cM (cN 2) (cR (cN 2)))).
Definition QS_e242 := (cD (cR (cQ 3 2)) (cN 2)).
Definition QS_e243 := (cD (cM (cQ (-1) 2) (cM (cR (cQ 3 2)) (cH 1))) (cR (cM (cH 1) (cA (cN 1) (cH 1))))).
Definition QS_e244 := (cD (cH 1) (cM (cM (cN 6) (cR (cN 2))) (cR (cM (cH 1) (cA (cN 1) (cH 1)))))).
Definition QS_e245 := (cD (cM (cN (-2)) (cH 1)) (cM (cN 3) (cR (cM (cH 1) (cA (cN 1) (cH 1)))))).
Definition QS_e246 := (cD (cN 1) (cM (cN 6) (cR (cA (cN 1) (cD (cN 1) (cA (cN 1) (cM (cN 2) (cH 1)))))))).
Definition QS_e247 := (cD (cM (cN (-2)) (cR (cB (cN 2) (cD (cN 1) (cA (cN 1) (cH 1)))))) (cN 3)).
Definition QS_e248 := (cD (cM (cQ (-1) 2) (cA (cN (-1)) (cH 1))) (cR (cA (cN (-1)) (cW (cH 1) 4)))).
Definition QS_e249 := (cD (cR (cA (cN 2) (cD (cN 1) (cA (cN 1) (cH 1))))) (cM (cN 3) (cR (cN 2)))).
Definition QS_e250 := (cD (cR (cA (cN 2) (cD (cN 1) (cA (cN 1) (cH 1))))) (cN 6)).
Definition QS_e251 := (cO (cD (cR (cA (cA (cN (-1)) (cH 1)) (cM (cN 2) (cW (cH 1) 4)))) (cA (cN 2) (cM (cN 2) (cH 1))))).
Definition QS_e252 := (cD (cA (cN 2) (cH 1)) (cM (cM (cN 3) (cR (cN 2))) (cR (cM (cA (cN 1) (cH 1)) (cA (cN 2) (cH 1)))))).
Definition QS_e253 := (cD (cA (cN 2) (cH 1)) (cM (cN 6) (cR (cM (cA (cN 1) (cH 1)) (cA (cN 2) (cH 1)))))).
Definition QS_e254 := (cM (cQ (-1) 2) (cM (cR (cN 3)) (cR (cD (cH 1) (cA (cN 1) (cH 1)))))).
Definition QS_e255 := (cD (cR (cA (cA (cN (-1)) (cH 1)) (cM (cN 2) (cW (cH 1) 4)))) (cA (cN 3) (cM (cN 3) (cH 1)))).
Definition QS_e256 := (cD (cM (cN 2) (cR (cD (cH 1) (cA (cN 1) (cH 1))))) (cN 3)).
Definition QS_e257 := (cD (cR (cB (cN 2) (cD (cN 1) (cA (cN 1) (cH 1))))) (cR (cN 3))).
Definition QS_e258 := (cD (cH 1) (cM (cM (cN 3) (cR (cN 2))) (cR (cM (cH 1) (cA (cN 1) (cH 1)))))).
Definition QS_e259 := (cD (cN 1) (cM (cN 3) (cR (cA (cN 1) (cD (cN 1) (cA (cN 1) (cM (cN 2) (cH 1)))))))).
Definition QS_e260 := (cD (cM (cR (cN 2)) (cA (cN 2) (cH 1))) (cM (cN 3) (cR (cM (cA (cN 1) (cH 1)) (cA (cN 2) (cH 1)))))).
Definition QS_e261 := (cD (cB (cN 1) (cM (cN 2) (cH 1))) (cM (cM (cN 2) (cR (cN 2))) (cR (cA (cA (cN (-1)) (cH 1)) (cM (cN 2) (cW (cH 1) 4)))))).
Definition QS_e262 := (cO (cD (cM (cH 1) (cA (cM (cN 3) (cR (cD (cA (cN 1) (cM (cN 2) (cH 1))) (cA (cA (cM (cN 3) (cH 1)) (cM (cN 5) (cW (cH 1) 4))) (cM (cN 2) (cW (cH 1) 6)))))) (cM (cN 2) (cR (cB (cA (cN 1) (cD (cN 1) (cA (cN 1) (cH 1)))) (cD (cN 6) (cA (cN 3) (cM (cN 2) (cH 1))))))))) (cR (cA (cN 6) (cM (cM (cN 8) (cH 1)) (cA (cN 2) (cH 1))))))).
Definition QS_e263 := (cD (cM (cQ (-1) 2) (cA (cN 2) (cH 1))) (cR (cM (cA (cN 1) (cH 1)) (cA (cN 2) (cH 1))))).
Definition QS_e264 := (cM (cQ (-1) 4) (cR (cA (cN 2) (cD (cN 1) (cH 1))))).
Definition QS_e265 := (cD (cR (cA (cN 6) (cD (cN 3) (cH 1)))) (cN 4)).
Definition QS_e266 := (cD (cR (cA (cN 2) (cD (cN 1) (cH 1)))) (cN 4)).
Definition QS_e267 := (cD (cR (cB (cN 2) (cD (cN 1) (cH 1)))) (cN 4)).
Definition QS_e268 := (cD (cR (cB (cN 2) (cD (cN 1) (cH 1)))) (cM (cN 4) (cR (cN 3)))).
Definition QS_e269 := (cD (cR (cA (cQ 2 3) (cD (cN 1) (cH 1)))) (cN 2)).
Definition QS_e270 := (cM (cQ (-1) 4) (cR (cB (cN 6) (cD (cN 3) (cH 1))))).
Definition QS_e271 := (cD (cR (cB (cN 2) (cD (cN 1) (cH 1)))) (cN 12)).
Definition QS_e272 := (cD (cR (cA (cN 1) (cD (cN 1) (cH 1)))) (cN 3)).
Definition QS_e273 := (cD (cR (cA (cN 2) (cD (cN 3) (cH 1)))) (cN 6)).
Definition QS_e274 := (cD (cR (cA (cN 2) (cD (cN 1) (cH 1)))) (cM (cN 2) (cR (cN 6)))).
Definition QS_e275 := (cM (cQ (-1) 3) (cR (cB (cN 4) (cD (cN 2) (cH 1))))).
Definition QS_e276 := (cD (cR (cA (cN 1) (cD (cN 1) (cH 1)))) (cM (cN 3) (cR (cN 2)))).
Definition QS_e277 := (cD (cR (cA (cN 1) (cD (cN 3) (cM (cN 2) (cH 1))))) (cN 6)).
Definition QS_e278 := (cD (cM (cQ (-1) 2) (cR (cB (cN 2) (cD (cN 3) (cH 1))))) (cR (cN 2))).
Definition QS_e279 := (cO (cD (cR (cD (cA (cN (-1)) (cH 1)) (cH 1))) (cR (cN 2)))).
Definition QS_e280 := (cM (cQ (-1) 2) (cR (cB (cN 3) (cD (cN 3) (cM (cN 2) (cH 1)))))).
Definition QS_e281 := (cD (cR (cA (cN 1) (cD (cN 1) (cM (cN 2) (cH 1))))) (cN 2)).
Definition QS_e282 := (cD (cR (cA (cN 1) (cD (cN 1) (cH 1)))) (cM (cN 2) (cR (cN 2)))).
Definition QS_e283 := (cM (cQ (-1) 2) (cM (cR (cQ 3 2)) (cR (cA (cN 1) (cD (cN 1) (cH 1)))))).
Definition QS_e284 := (cD (cR (cA (cN 1) (cD (cN 1) (cM (cN 2) (cH 1))))) (cN 6)).
Definition QS_e285 := (cD (cM (cN (-2)) (cR (cA (cN 2) (cD (cN 1) (cH 1))))) (cN 3)).
Definition QS_e286 := (cD (cR (cA (cN 1) (cD (cN 1) (cH 1)))) (cM (cN 2) (cR (cN 6)))).
Definition QS_e287 := (cD (cR (cA (cN 1) (cD (cN 1) (cH 1)))) (cM (cN 6) (cR (cN 2)))).
Definition QS_e288 := (cD (cM (cN (-2)) (cR (cA (cN 1) (cD (cN 1) (cH 1))))) (cN 3)).
Definition QS_e289 := (cO (cD (cR (cD (cA (cN (-1)) (cH 1)) (cH 1))) (cR (cN 6)))).
Definition QS_e290 := (cD (cM (cQ (-1) 3) (cR (cD (cA (cN (-1)) (cH 1)) (cH 1)))) (cR (cN 2))).
Definition QS_e291 := (cM (cQ (-1) 6) (cR (cD (cA (cN (-1)) (cH 1)) (cH 1)))).
Definition QS_e292 := (cM (cQ (-1) 2) (cR (cA (cN 3) (cD (cN 3) (cH 1))))).
Definition QS_e293 := (cM (cQ (-1) 3) (cR (cB (cN 1) (cD (cN 1) (cM (cN 2) (cH 1)))))).
Definition QS_e294 := (cM (cQ (-1) 6) (cR (cB (cN 2) (cD (cN 1) (cH 1))))).
Definition QS_e295 := (cM (cQ (-1) 2) (cR (cA (cN 2) (cD (cN 3) (cH 1))))).
Definition QS_e296 := (cM (cQ (-1) 2) (cR (cD (cA (cN 2) (cH 1)) (cH 1)))).
Definition QS_e297 := (cM (cQ (-1) 4) (cR (cA (cN 6) (cD (cN 3) (cH 1))))).
Definition QS_e298 := (cD (cR (cB (cN 6) (cD (cN 3) (cH 1)))) (cN 4)).
Definition QS_e299 := (cM (cQ (-1) 12) (cR (cB (cN 2) (cD (cN 1) (cH 1))))).
Definition QS_e300 := (cM (cQ (-1) 3) (cR (cA (cN 1) (cD (cN 1) (cH 1))))).
Definition QS_e301 := (cM (cQ (-1) 6) (cR (cA (cN 2) (cD (cN 3) (cH 1))))).
Definition QS_e302 := (cD (cM (cQ (-1) 2) (cR (cA (cN 2) (cD (cN 1) (cH 1))))) (cR (cN 6))).
Definition QS_e303 := (cD (cR (cB (cN 4) (cD (cN 2) (cH 1)))) (cN 3)).
Definition QS_e304 := (cD (cM (cQ (-1) 3) (cR (cA (cN 1) (cD (cN 1) (cH 1))))) (cR (cN 2))).
Definition QS_e305 := (cD (cM (cQ (-1) 6) (cR (cA (cN 2) (cD (cN 3) (cH 1))))) (cR (cN 2))).
Definition QS_e306 := (cD (cR (cB (cN 2) (cD (cN 3) (cH 1)))) (cM (cN 2) (cR (cN 2)))).
Definition QS_e307 := (cD (cR (cD (cA (cN (-1)) (cH 1)) (cH 1))) (cR (cN 2))).
Definition QS_e308 := (cD (cR (cB (cN 3) (cD (cN 3) (cM (cN 2) (cH 1))))) (cN 2)).
Definition QS_e309 := (cD (cM (cR (cQ 3 2)) (cR (cA (cN 1) (cD (cN 1) (cH 1))))) (cN 2)).
Definition QS_e310 := (cD (cM (cQ (-1) 6) (cR (cA (cN 2) (cD (cN 1) (cH 1))))) (cR (cN 2))).
Definition QS_e311 := (cD (cM (cN 2) (cR (cA (cN 2) (cD (cN 1) (cH 1))))) (cN 3)).
Definition QS_e312 := (cD (cM (cQ (-1) 6) (cR (cA (cN 1) (cD (cN 1) (cH 1))))) (cR (cN 2))).
Definition QS_e313 := (cD (cM (cN 2) (cR (cA (cN 1) (cD (cN 1) (cH 1))))) (cN 3)).
Definition QS_e314 := (cD (cR (cD (cA (cN (-1)) (cH 1)) (cH 1))) (cM (cN 3) (cR (cN 2)))).
Definition QS_e315 := (cD (cR (cD (cA (cN (-1)) (cH 1)) (cH 1))) (cN 6)).
Definition QS_e316 := (cD (cR (cA (cN 3) (cD (cN 3) (cH 1)))) (cN 2)).
Definition QS_e317 := (cD (cR (cB (cN 1) (cD (cN 1) (cM (cN 2) (cH 1))))) (cN 3)).
Definition QS_e318 := (cD (cR (cB (cN 2) (cD (cN 1) (cH 1)))) (cN 6)).
Definition QS_e319 := (cD (cR (cA (cN 2) (cD (cN 3) (cH 1)))) (cN 2)).
Definition QS_e320 := (cD (cR (cD (cA (cN 2) (cH 1)) (cH 1))) (cN 2)).
Definition QS_e321 := (cO (cD (cR (cA (cN 2) (cD (cN 1) (cH 1)))) (cR (cN 3)))).
Definition QS_e322 := (cM (cQ (-1) 3) (cR (cA (cN 2) (cD (cN 3) (cH 1))))).
Definition QS_e323 := (cD (cM (cQ (-1) 3) (cR (cA (cN 2) (cD (cN 1) (cH 1))))) (cR (cN 2))).
Definition QS_e324 := (cD (cR (cB (cN 2) (cD (cN 2) (cH 1)))) (cN 3)).
Definition QS_e325 := (cD (cR (cA (cN 1) (cD (cN 3) (cM (cN 2) (cH 1))))) (cN 2)).
Definition QS_e326 := (cM (cQ (-1) 2) (cR (cD (cA (cN (-1)) (cH 1)) (cH 1)))).
Definition QS_e327 := (cR (cA (cB (cN 1) (cD (cN 2) (cA (cN (-1)) (cH 1)))) (cD (cN 2) (cH 1)))).
Definition QS_e328 := (cR (cD (cA (cN (-6)) (cM (cN 4) (cH 1))) (cA (cB (cH 1) (cM (cN 3) (cW (cH 1) 4))) (cM (cN 2) (cW (cH 1) 6))))).
Definition QS_e329 := (cO (cD (cR (cN 2)) (cR (cM (cA (cN (-1)) (cH 1)) (cH 1))))).
Definition QS_e330 := (cD (cA (cN (-3)) (cW (cH 1) 4)) (cM (cH 1) (cR (cA (cN (-1)) (cW (cH 1) 4))))).
Definition QS_e331 := (cD (cM (cR (cN 3)) (cA (cA (cN (-3)) (cH 1)) (cM (cN 2) (cW (cH 1) 4)))) (cM (cH 1) (cR (cM (cM (cM (cA (cN (-1)) (cH 1)) (cA (cN 1) (cH 1))) (cA (cN 1) (cM (cN 2) (cH 1)))) (cA (cN 3) (cM (cN 2) (cH 1))))))).
Definition QS_e332 := (cO (cD (cM (cR (cN 3)) (cA (cA (cN (-3)) (cH 1)) (cM (cN 2) (cW (cH 1) 4)))) (cM (cH 1) (cR (cM (cA (cN 1) (cH 1)) (cA (cB (cN 3) (cM (cN 7) (cH 1))) (cM (cN 4) (cW (cH 1) 6)))))))).
Definition QS_e333 := (cA (cB (cN 1) (cD (cN 3) (cH 1))) (cD (cN 3) (cA (cN 1) (cH 1)))).
Definition QS_e334 := (cD (cM (cR (cN 3)) (cR (cA (cB (cN 5) (cD (cN 6) (cH 1))) (cM (cM (cN 4) (cH 1)) (cA (cN 3) (cH 1)))))) (cM (cA (cN 1) (cH 1)) (cA (cN 3) (cM (cN 2) (cH 1))))).
Definition QS_e335 := (cO (cD (cM (cR (cN 3)) (cR (cA (cA (cB (cN (-1)) (cD (cN 2) (cH 1))) (cM (cN 8) (cH 1))) (cM (cN 4) (cW (cH 1) 4))))) (cA (cA (cN 1) (cM (cN 3) (cH 1))) (cM (cN 2) (cW (cH 1) 4))))).
Definition QS_e336 := (cD (cA (cN (-2)) (cM (cH 1) (cA (cN 2) (cH 1)))) (cM (cA (cN 1) (cH 1)) (cR (cM (cH 1) (cA (cN 2) (cH 1)))))).
Definition QS_e337 := (cD (cR (cN 2)) (cR (cM (cA (cN 1) (cH 1)) (cA (cN 2) (cH 1))))).
Definition QS_e338 := (cO (cD (cM (cR (cN 2)) (cA (cN 5) (cM (cN 2) (cH 1)))) (cR (cM (cM (cM (cA (cN 1) (cH 1)) (cA (cN 2) (cH 1))) (cA (cN 3) (cM (cN 2) (cH 1)))) (cA (cN 5) (cM (cN 2) (cH 1))))))).
Definition QS_e339 := (cD (cA (cN 3) (cH 1)) (cR (cD (cM (cM (cA (cN 1) (cH 1)) (cA (cN 2) (cH 1))) (cA (cN 3) (cH 1))) (cH 1)))).
Definition QS_e340 := (cR (cD (cB (cN 9) (cM (cN 4) (cW (cH 1) 4))) (cB (cN 1) (cM (cN 4) (cW (cH 1) 4))))).
Definition QS_e341 := (cO (cD (cR (cA (cA (cN 22) (cD (cN 6) (cH 1))) (cM (cM (cN 8) (cH 1)) (cA (cN 3) (cH 1))))) (cM (cA (cN 1) (cH 1)) (cA (cN 1) (cM (cN 2) (cH 1)))))).
Definition QS_e342 := (cD (cR (cD (cM (cA (cA (cN (-2)) (cH 1)) (cW (cH 1) 4)) (cA (cA (cN (-3)) (cH 1)) (cM (cM (cN 4) (cW (cH 1) 4)) (cA (cN 2) (cH 1))))) (cH 1))) (cM (cA (cN 1) (cH 1)) (cA (cN 1) (cM (cN 2) (cH 1))))).
Definition QS_e343 := (cD (cR (cN 6)) (cR (cM (cM (cH 1) (cA (cN 1) (cM (cN 2) (cH 1)))) (cA (cA (cN (-1)) (cH 1)) (cM (cN 2) (cW (cH 1) 4)))))).
Definition QS_e344 := (cM (cM (cR (cN 3)) (cR (cM (cA (cN 1) (cH 1)) (cA (cN 3) (cM (cN 2) (cH 1)))))) (cA (cA (cD (cM (cM (cM (cN (-2)) (cA (cN (-1)) (cH 1))) (cH 1)) (cA (cN (-1)) (cM (cN 2) (cH 1)))) (cM (cW (cA (cN 1) (cH 1)) 3) (cR (cM (cM (cM (cM (cH 1) (cA (cN 2) (cH 1))) (cA (cN (-1)) (cM (cN 2) (cH 1)))) (cA (cN 1) (cM (cN 2) (cH 1)))) (cA (cN 3) (cM (cN 2) (cH 1))))))) (cD (cM (cW (cB (cN 1) (cM (cN 2) (cH 1))) 4) (cA (cN (-4)) (cH 1))) (cM (cA (cN 1) (cH 1)) (cR (cM (cM (cM (cM (cM (cH 1) (cA (cN 1) (cH 1))) (cA (cN 2) (cH 1))) (cA (cN (-1)) (cM (cN 2) (cH 1)))) (cA (cN 1) (cM (cN 2) (cH 1)))) (cA (cN 3) (cM (cN 2) (cH 1)))))))) (cM (cN 6) (cR (cD (cM (cW (cA (cN (-1)) (cH 1)) 4) (cA (cN (-1)) (cM (cN 2) (cH 1)))) (cM (cM (cH 1) (cW (cA (cN 1) (cH 1)) 6)) (cA (cA (cA (cN 6) (cM (cN 19) (cH 1))) (cM (cN 16) (cW (cH 1) 4))) (cM (cN 4) (cW (cH 1) 6))))))))).
Definition QS_e345 := (cM (cR (cM (cA (cN 1) (cH 1)) (cA (cN 3) (cM (cN 2) (cH 1))))) (cA (cA (cD (cM (cN 9) (cA (cN 3) (cM (cM (cN 4) (cA (cN (-2)) (cH 1))) (cH 1)))) (cR (cD (cM (cM (cM (cM (cM (cW (cA (cN 1) (cH 1)) 6) (cA (cN 2) (cH 1))) (cA (cN (-1)) (cM (cN 2) (cH 1)))) (cA (cN 1) (cM (cN 2) (cH 1)))) (cW (cA (cN 3) (cM (cN 2) (cH 1))) 4)) (cA (cN 5) (cM (cN 2) (cH 1)))) (cH 1)))) (cD (cM (cN 36) (cR (cD (cM (cH 1) (cA (cN (-1)) (cM (cN 2) (cH 1)))) (cA (cA (cA (cA (cN 10) (cM (cN 39) (cH 1))) (cM (cN 49) (cW (cH 1) 4))) (cM (cN 24) (cW (cH 1) 6))) (cM (cN 4) (cW (cH 1) 8)))))) (cA (cA (cN 3) (cM (cN 5) (cH 1))) (cM (cN 2) (cW (cH 1) 4))))) (cD (cM (cM (cH 1) (cA (cN (-1)) (cM (cN 2) (cH 1)))) (cA (cN 1) (cM (cH 1) (cA (cN (-9)) (cM (cN 2) (cH 1)))))) (cR (cM (cM (cM (cM (cM (cM (cH 1) (cW (cA (cN 1) (cH 1)) 6)) (cA (cN 2) (cH 1))) (cA (cN (-1)) (cM (cN 2) (cH 1)))) (cA (cN 1) (cM (cN 2) (cH 1)))) (cW (cA (cN 3) (cM (cN 2) (cH 1))) 4)) (cA (cN 5) (cM (cN 2) (cH 1)))))))).
Definition QS_e346 := (cD (cN 3) (cA (cA (cN 1) (cM (cN 3) (cH 1))) (cM (cN 2) (cW (cH 1) 4)))).
Definition QS_e347 := (cO (cD (cM (cM (cR (cN 3)) (cA (cN 5) (cM (cN 2) (cH 1)))) (cR (cD (cH 1) (cA (cA (cA (cN 10) (cM (cN 29) (cH 1))) (cM (cN 20) (cW (cH 1) 4))) (cM (cN 4) (cW (cH 1) 6)))))) (cA (cN 1) (cH 1)))).
Definition QS_e348 := (cD (cM (cA (cN 3) (cH 1)) (cR (cD (cM (cH 1) (cA (cN 1) (cH 1))) (cA (cA (cN 6) (cM (cN 5) (cH 1))) (cW (cH 1) 4))))) (cA (cN 1) (cH 1))).
Definition QS_e349 := (cD (cR (cN 6)) (cR (cM (cM (cM (cA (cN 1) (cH 1)) (cA (cN 2) (cH 1))) (cA (cN 1) (cM (cN 2) (cH 1)))) (cA (cN 3) (cM (cN 2) (cH 1)))))).
Definition QS_e350 := (cO (cD (cR (cN 2)) (cR (cM (cA (cN 1) (cH 1)) (cA (cN 2) (cH 1)))))).
Definition QS_e351 := (cD (cR (cN 2)) (cR (cM (cA (cN (-1)) (cH 1)) (cH 1)))).
Definition QS_e352 := (cD (cR (cN 6)) (cR (cM (cM (cM (cA (cN (-1)) (cH 1)) (cH 1)) (cA (cN (-1)) (cM (cN 2) (cH 1)))) (cA (cN 1) (cM (cN 2) (cH 1)))))).
Definition QS_e353 := (cD (cM (cA (cN (-3)) (cM (cN 2) (cH 1))) (cR (cD (cA (cA (cN 3) (cM (cN 9) (cH 1))) (cM (cN 6) (cW (cH 1) 4))) (cA (cB (cN 3) (cM (cN 5) (cH 1))) (cM (cN 2) (cW (cH 1) 4)))))) (cM (cH 1) (cA (cN 1) (cM (cN 2) (cH 1))))).
Definition QS_e354 := (cD (cN 3) (cA (cH 1) (cM (cN 2) (cW (cH 1) 4)))).
Definition QS_e355 := (cD (cA (cB (cN 9) (cM (cN 13) (cW (cH 1) 4))) (cM (cN 4) (cW (cH 1) 8))) (cM (cH 1) (cR (cA (cN (-9)) (cM (cW (cH 1) 4) (cW (cB (cN 7) (cM (cN 4) (cW (cH 1) 4))) 4)))))).
Definition QS_e356 := (cM (cR (cN 3)) (cA (cA (cD (cM (cA (cN (-1)) (cH 1)) (cA (cN (-1)) (cM (cN 2) (cH 1)))) (cM (cW (cA (cN 1) (cH 1)) 3) (cR (cM (cM (cA (cN (-1)) (cH 1)) (cA (cN 1) (cM (cN 2) (cH 1)))) (cA (cN 3) (cM (cN 2) (cH 1))))))) (cD (cA (cB (cN 3) (cM (cN 9) (cH 1))) (cM (cN 6) (cW (cH 1) 4))) (cM (cM (cH 1) (cA (cN 1) (cH 1))) (cR (cM (cM (cM (cA (cN (-1)) (cH 1)) (cA (cN 1) (cH 1))) (cA (cN 1) (cM (cN 2) (cH 1)))) (cA (cN 3) (cM (cN 2) (cH 1)))))))) (cD (cM (cN 6) (cR (cD (cA (cN (-1)) (cH 1)) (cM (cW (cA (cN 1) (cH 1)) 6) (cA (cN 3) (cM (cM (cN 4) (cH 1)) (cA (cN 2) (cH 1)))))))) (cH 1)))).
Definition QS_e357 := (cD (cR (cN 6)) (cR (cM (cM (cM (cH 1) (cA (cN 1) (cH 1))) (cA (cN 1) (cM (cN 2) (cH 1)))) (cA (cN 3) (cM (cN 2) (cH 1)))))).
Definition QS_e358 := (cA (cA (cA (cM (cA (cN (-1)) (cH 1)) (cR (cD (cM (cH 1) (cA (cN (-1)) (cM (cN 2) (cH 1)))) (cM (cA (cN (-1)) (cW (cH 1) 4)) (cA (cA (cN 6) (cM (cN 7) (cH 1))) (cM (cN 2) (cW (cH 1) 4))))))) (cM (cM (cM (cN 3) (cA (cN (-1)) (cH 1))) (cH 1)) (cR (cD (cA (cN (-1)) (cM (cN 2) (cH 1))) (cM (cM (cH 1) (cW (cA (cN 1) (cH 1)) 6)) (cA (cA (cB (cN (-6)) (cH 1)) (cM (cN 5) (cW (cH 1) 4))) (cM (cN 2) (cW (cH 1) 6)))))))) (cD (cM (cN 6) (cR (cD (cA (cB (cN 1) (cM (cN 3) (cH 1))) (cM (cN 2) (cW (cH 1) 4))) (cM (cH 1) (cA (cA (cA (cN 6) (cM (cN 13) (cH 1))) (cM (cN 9) (cW (cH 1) 4))) (cM (cN 2) (cW (cH 1) 6))))))) (cA (cA (cN 1) (cM (cN 3) (cH 1))) (cM (cN 2) (cW (cH 1) 4))))) (cD (cM (cM (cN 9) (cA (cN (-1)) (cH 1))) (cR (cD (cM (cH 1) (cA (cN (-1)) (cM (cN 2) (cH 1)))) (cM (cW (cA (cN 1) (cM (cN 2) (cH 1))) 4) (cA (cA (cA (cB (cN (-6)) (cM (cN 7) (cH 1))) (cM (cN 4) (cW (cH 1) 4))) (cM (cN 7) (cW (cH 1) 6))) (cM (cN 2) (cW (cH 1) 8))))))) (cA (cN 1) (cH 1)))).
Definition QS_e359 := (cD (cM (cR (cN 2)) (cA (cA (cM (cN 6) (cR (cM (cH 1) (cA (cN (-3)) (cM (cM (cN 4) (cH 1)) (cA (cN 1) (cH 1))))))) (cM (cN 7) (cR (cM (cW (cH 1) 6) (cA (cN (-3)) (cM (cM (cN 4) (cH 1)) (cA (cN 1) (cH 1)))))))) (cM (cN 2) (cR (cM (cW (cH 1) 10) (cA (cN (-3)) (cM (cM (cN 4) (cH 1)) (cA (cN 1) (cH 1))))))))) (cM (cM (cM (cH 1) (cA (cN 2) (cH 1))) (cA (cN 3) (cM (cN 2) (cH 1)))) (cR (cM (cM (cA (cN 1) (cH 1)) (cA (cN 1) (cM (cN 2) (cH 1)))) (cA (cN 3) (cM (cN 2) (cH 1))))))).
Definition QS_e360 := (cD (cA (cA (cA (cR (cM (cM (cM (cH 1) (cA (cN 2) (cH 1))) (cA (cN (-1)) (cM (cN 2) (cH 1)))) (cA (cN 3) (cM (cN 2) (cH 1))))) (cM (cN 18) (cR (cD (cM (cH 1) (cA (cN (-1)) (cM (cN 2) (cH 1)))) (cA (cA (cN 6) (cM (cN 7) (cH 1))) (cM (cN 2) (cW (cH 1) 4))))))) (cM (cN 2) (cR (cD (cM (cH 1) (cA (cN (-3)) (cM (cM (cN 4) (cH 1)) (cA (cN 1) (cH 1))))) (cA (cN 2) (cH 1)))))) (cM (cM (cN 2) (cH 1)) (cA (cA (cR (cM (cM (cM (cH 1) (cA (cN 2) (cH 1))) (cA (cN (-1)) (cM (cN 2) (cH 1)))) (cA (cN 3) (cM (cN 2) (cH 1))))) (cM (cN 6) (cR (cD (cM (cH 1) (cA (cN (-1)) (cM (cN 2) (cH 1)))) (cA (cA (cN 6) (cM (cN 7) (cH 1))) (cM (cN 2) (cW (cH 1) 4))))))) (cM (cN 2) (cR (cD (cM (cH 1) (cA (cN (-3)) (cM (cM (cN 4) (cH 1)) (cA (cN 1) (cH 1))))) (cA (cN 2) (cH 1)))))))) (cM (cA (cN 3) (cM (cN 2) (cH 1))) (cR (cM (cM (cM (cH 1) (cA (cN 2) (cH 1))) (cA (cN 1) (cM (cN 2) (cH 1)))) (cA (cN 5) (cM (cN 2) (cH 1))))))).
Definition QS_e361 := (cD (cR (cD (cH 1) (cA (cN 1) (cM (cN 2) (cH 1))))) (cN 2)).
Definition QS_e362 := (cM (cQ (-1) 2) (cM (cR (cN 3)) (cR (cD (cH 1) (cA (cN 1) (cM (cN 2) (cH 1))))))).
Definition QS_e363 := (cD (cM (cQ (-1) 2) (cA (cN 1) (cH 1))) (cR (cM (cA (cN 1) (cH 1)) (cA (cN 1) (cM (cN 2) (cH 1)))))).
Definition QS_e364 := (cD (cM (cR (cN 3)) (cA (cN 1) (cH 1))) (cM (cN 2) (cR (cM (cA (cN 1) (cH 1)) (cA (cN 1) (cM (cN 2) (cH 1))))))).
Definition QS_e365 := (cM (cQ (-1) 2) (cR (cD (cH 1) (cA (cN 1) (cM (cN 2) (cH 1)))))).
Definition QS_e366 := (cD (cM (cR (cN 3)) (cH 1)) (cM (cN 2) (cR (cM (cH 1) (cA (cN 1) (cM (cN 2) (cH 1))))))).
Definition QS_e367 := (cD (cB (cN (-1)) (cH 1)) (cM (cN 2) (cR (cA (cA (cN 3) (cM (cN 9) (cH 1))) (cM (cN 6) (cW (cH 1) 4)))))).
Definition QS_e368 := (cD (cM (cQ (-1) 6) (cA (cN 1) (cH 1))) (cR (cM (cA (cN 1) (cH 1)) (cA (cN 1) (cM (cN 2) (cH 1)))))).
Definition QS_e369 := (cD (cM (cM (cN 2) (cR (cN 2))) (cA (cN 1) (cH 1))) (cM (cN 3) (cR (cM (cA (cN 1) (cH 1)) (cA (cN 1) (cM (cN 2) (cH 1))))))).
Definition QS_e370 := (cD (cA (cN 1) (cH 1)) (cM (cN 2) (cR (cM (cA (cN 1) (cH 1)) (cA (cN 1) (cM (cN 2) (cH 1))))))).
Definition QS_e371 := (cD (cM (cQ (-1) 2) (cN 1)) (cR (cA (cN 6) (cD (cN 3) (cH 1))))).
Definition QS_e372 := (cD (cM (cQ (-1) 6) (cH 1)) (cR (cM (cH 1) (cA (cN 1) (cM (cN 2) (cH 1)))))).
Definition QS_e373 := (cD (cM (cM (cN 2) (cR (cN 2))) (cH 1)) (cM (cN 3) (cR (cM (cH 1) (cA (cN 1) (cM (cN 2) (cH 1))))))).
Definition QS_e374 := (cO (cR (cD (cA (cN (-1)) (cH 1)) (cA (cN (-1)) (cM (cN 2) (cH 1)))))).
Definition QS_e375 := (cO (cR (cD (cA (cN (-1)) (cH 1)) (cA (cN (-3)) (cM (cN 6) (cH 1)))))).
Definition QS_e376 := (cO (cR (cD (cA (cN (-1)) (cH 1)) (cA (cN (-6)) (cM (cN 12) (cH 1)))))).
Definition QS_e377 := (cD (cA (cN 1) (cH 1)) (cM (cR (cN 2)) (cR (cA (cA (cN (-1)) (cH 1)) (cM (cN 2) (cW (cH 1) 4)))))).
Definition QS_e378 := (cD (cA (cN 1) (cH 1)) (cM (cR (cN 3)) (cR (cA (cA (cN (-1)) (cH 1)) (cM (cN 2) (cW (cH 1) 4)))))).
Definition QS_e379 := (cD (cB (cN 1) (cM (cN 2) (cH 1))) (cR (cA (cN (-3)) (cM (cN 12) (cW (cH 1) 4))))).
Definition QS_e380 := (cD (cA (cN 1) (cH 1)) (cM (cN 3) (cR (cA (cA (cN (-1)) (cH 1)) (cM (cN 2) (cW (cH 1) 4)))))).
Definition QS_e381 := (cD (cB (cN 1) (cM (cN 2) (cH 1))) (cM (cN 3) (cR (cA (cN (-1)) (cM (cN 4) (cW (cH 1) 4)))))).
Definition QS_e382 := (cD (cA (cN 1) (cH 1)) (cM (cM (cN 3) (cR (cN 2))) (cR (cA (cA (cN (-1)) (cH 1)) (cM (cN 2) (cW (cH 1) 4)))))).
Definition QS_e383 := (cD (cB (cN 1) (cM (cN 2) (cH 1))) (cM (cN 3) (cR (cA (cN (-2)) (cM (cN 8) (cW (cH 1) 4)))))).
Definition QS_e384 := (cD (cM (cR (cN 3)) (cA (cN (-1)) (cH 1))) (cR (cA (cB (cN 2) (cM (cN 6) (cH 1))) (cM (cN 4) (cW (cH 1) 4))))).
Definition QS_e385 := (cD (cA (cN 3) (cM (cN 2) (cH 1))) (cR (cA (cN 6) (cM (cM (cN 8) (cH 1)) (cA (cN 2) (cH 1)))))).
Definition QS_e386 := (cD (cA (cN 3) (cM (cN 2) (cH 1))) (cR (cA (cN 9) (cM (cM (cN 12) (cH 1)) (cA (cN 2) (cH 1)))))).
Definition QS_e387 := (cO (cD (cH 1) (cM (cR (cN 3)) (cR (cM (cH 1) (cA (cN 3) (cM (cN 2) (cH 1)))))))).
Definition QS_e388 := (cD (cA (cN 3) (cM (cN 2) (cH 1))) (cM (cN 3) (cR (cA (cN 3) (cM (cM (cN 4) (cH 1)) (cA (cN 2) (cH 1))))))).
Definition QS_e389 := (cM (cQ (-1) 3) (cR (cD (cH 1) (cA (cN 3) (cM (cN 2) (cH 1)))))).
Definition QS_e390 := (cD (cA (cN 3) (cM (cN 2) (cH 1))) (cM (cN 3) (cR (cA (cN 6) (cM (cM (cN 8) (cH 1)) (cA (cN 2) (cH 1))))))).
Definition QS_e391 := (cD (cM (cQ (-1) 3) (cN 1)) (cR (cA (cN 4) (cD (cN 6) (cH 1))))).
Definition QS_e392 := (cD (cA (cN (-1)) (cM (cN 2) (cH 1))) (cR (cA (cN (-2)) (cM (cN 8) (cW (cH 1) 4))))).
Definition QS_e393 := (cD (cM (cR (cQ 3 2)) (cA (cN 2) (cH 1))) (cR (cM (cA (cN 2) (cH 1)) (cA (cN 3) (cM (cN 2) (cH 1)))))).
Definition QS_e394 := (cD (cA (cN 2) (cH 1)) (cR (cM (cA (cN 2) (cH 1)) (cA (cN 3) (cM (cN 2) (cH 1)))))).
Definition QS_e395 := (cD (cA (cN 2) (cH 1)) (cM (cR (cN 3)) (cR (cM (cA (cN 2) (cH 1)) (cA (cN 3) (cM (cN 2) (cH 1))))))).
Definition QS_e396 := (cD (cA (cN 2) (cH 1)) (cM (cR (cN 6)) (cR (cM (cA (cN 2) (cH 1)) (cA (cN 3) (cM (cN 2) (cH 1))))))).
Definition QS_e397 := (cD (cN 1) (cR (cA (cN 4) (cD (cN 6) (cH 1))))).
Definition QS_e398 := (cO (cD (cR (cA (cN 1) (cD (cN 1) (cH 1)))) (cR (cN 6)))).
Definition QS_e399 := (cD (cM (cQ (-1) 2) (cR (cA (cN 1) (cD (cN 1) (cH 1))))) (cR (cN 2))).
Definition QS_e400 := (cD (cN 1) (cM (cN 2) (cR (cA (cN 2) (cD (cN 2) (cH 1)))))).
Definition QS_e401 := (cD (cM (cQ (-1) 2) (cR (cA (cN 1) (cD (cN 1) (cH 1))))) (cR (cN 6))).
Definition QS_e402 := (cD (cN 1) (cM (cN 2) (cR (cA (cN 6) (cD (cN 6) (cH 1)))))).
Definition QS_e403 := (cM (cQ (-1) 4) (cR (cA (cN 4) (cD (cN 2) (cA (cN 1) (cH 1)))))).
Definition QS_e404 := (cO (cD (cN 1) (cR (cA (cN 6) (cD (cN 6) (cH 1)))))).
Definition QS_e405 := (cD (cR (cB (cN 1) (cD (cN 1) (cM (cN 2) (cH 1))))) (cN 6)).
Definition QS_e406 := (cM (cQ (-1) 2) (cM (cR (cQ 3 2)) (cR (cD (cH 1) (cA (cN 1) (cH 1)))))).
Definition QS_e407 := (cD (cN 1) (cM (cN 6) (cR (cA (cN 2) (cD (cN 2) (cH 1)))))).
Definition QS_e408 := (cM (cQ (-1) 6) (cR (cA (cN 4) (cD (cN 2) (cA (cN 1) (cH 1)))))).
Definition QS_e409 := (cM (cQ (-1) 12) (cR (cA (cN 4) (cD (cN 2) (cA (cN 1) (cH 1)))))).
Definition QS_e410 := (cD (cM (cQ (-1) 3) (cN 1)) (cR (cA (cN 2) (cD (cN 2) (cH 1))))).
Definition QS_e411 := (cD (cM (cN (-2)) (cR (cB (cN 2) (cD (cN 1) (cH 1))))) (cN 3)).
Definition QS_e412 := (cM (cQ (-1) 6) (cR (cA (cN 1) (cD (cN 1) (cH 1))))).
Definition QS_e413 := (cD (cM (cN (-2)) (cR (cD (cH 1) (cA (cN 1) (cH 1))))) (cN 3)).
Definition QS_e414 := (cD (cM (cN 2) (cR (cA (cN 2) (cD (cN 1) (cA (cN 1) (cH 1)))))) (cN 3)).
Definition QS_e415 := (cM (cQ (-1) 6) (cR (cD (cH 1) (cA (cN 1) (cH 1))))).
Definition QS_e416 := (cO (cD (cN 1) (cR (cA (cN 1) (cD (cN 1) (cA (cN (-3)) (cM (cN 2) (cH 1)))))))).
Definition QS_e417 := (cD (cA (cN 1) (cH 1)) (cM (cN 2) (cR (cA (cN (-1)) (cW (cH 1) 4))))).
Definition QS_e418 := (cM (cQ (-1) 2) (cR (cB (cN 3) (cD (cN 3) (cH 1))))).
Definition QS_e419 := (cD (cR (cA (cN 3) (cD (cN 3) (cA (cN 1) (cH 1))))) (cN 2)).
Definition QS_e420 := (cM (cQ (-1) 2) (cR (cD (cH 1) (cA (cN 2) (cH 1))))).
Definition QS_e421 := (cR (cA (cN 1) (cD (cN 1) (cA (cN 4) (cM (cN 2) (cH 1)))))).
Definition QS_e422 := (cD (cM (cR (cN 3)) (cR (cD (cH 1) (cA (cN 1) (cM (cN 2) (cH 1)))))) (cN 2)).
Definition QS_e423 := (cD (cM (cQ (-1) 2) (cM (cR (cN 3)) (cA (cN 1) (cH 1)))) (cR (cM (cA (cN 1) (cH 1)) (cA (cN 1) (cM (cN 2) (cH 1)))))).
Definition QS_e424 := (cD (cA (cN 1) (cH 1)) (cM (cN 6) (cR (cM (cA (cN 1) (cH 1)) (cA (cN 1) (cM (cN 2) (cH 1))))))).
Definition QS_e425 := (cD (cM (cM (cN (-2)) (cR (cN 2))) (cA (cN 1) (cH 1))) (cM (cN 3) (cR (cM (cA (cN 1) (cH 1)) (cA (cN 1) (cM (cN 2) (cH 1))))))).
Definition QS_e426 := (cD (cH 1) (cM (cN 6) (cR (cM (cH 1) (cA (cN 1) (cM (cN 2) (cH 1))))))).
Definition QS_e427 := (cD (cM (cM (cN (-2)) (cR (cN 2))) (cR (cD (cH 1) (cA (cN 1) (cM (cN 2) (cH 1)))))) (cN 3)).
Definition QS_e428 := (cR (cD (cA (cN (-1)) (cH 1)) (cA (cN (-3)) (cM (cN 6) (cH 1))))).
Definition QS_e429 := (cR (cD (cA (cN (-1)) (cH 1)) (cA (cN (-6)) (cM (cN 12) (cH 1))))).
Definition QS_e430 := (cO (cD (cA (cN 1) (cH 1)) (cM (cR (cN 2)) (cR (cA (cA (cN (-1)) (cH 1)) (cM (cN 2) (cW (cH 1) 4))))))).
Definition QS_e431 := (cD (cM (cQ (-1) 3) (cA (cN 1) (cH 1))) (cR (cA (cA (cN (-1)) (cH 1)) (cM (cN 2) (cW (cH 1) 4))))).
Definition QS_e432 := (cD (cA (cN (-1)) (cM (cN 2) (cH 1))) (cM (cN 3) (cR (cA (cN (-1)) (cM (cN 4) (cW (cH 1) 4)))))).
Definition QS_e433 := (cD (cM (cQ (-1) 3) (cA (cN 1) (cH 1))) (cM (cR (cN 2)) (cR (cA (cA (cN (-1)) (cH 1)) (cM (cN 2) (cW (cH 1) 4)))))).
Definition QS_e434 := (cD (cA (cN (-1)) (cM (cN 2) (cH 1))) (cM (cN 3) (cR (cA (cN (-2)) (cM (cN 8) (cW (cH 1) 4)))))).
Definition QS_e435 := (cO (cD (cM (cR (cN 3)) (cA (cN (-1)) (cH 1))) (cR (cA (cB (cN 2) (cM (cN 6) (cH 1))) (cM (cN 4) (cW (cH 1) 4)))))).
Definition QS_e436 := (cD (cB (cN (-3)) (cM (cN 2) (cH 1))) (cR (cA (cN 6) (cM (cM (cN 8) (cH 1)) (cA (cN 2) (cH 1)))))).
Definition QS_e437 := (cD (cB (cN (-3)) (cM (cN 2) (cH 1))) (cM (cN 3) (cR (cA (cN 3) (cM (cM (cN 4) (cH 1)) (cA (cN 2) (cH 1))))))).
Definition QS_e438 := (cD (cH 1) (cM (cN 3) (cR (cM (cH 1) (cA (cN 3) (cM (cN 2) (cH 1))))))).
Definition QS_e439 := (cD (cB (cN (-3)) (cM (cN 2) (cH 1))) (cM (cN 3) (cR (cA (cN 6) (cM (cM (cN 8) (cH 1)) (cA (cN 2) (cH 1))))))).
Definition QS_e440 := (cD (cN 1) (cM (cN 3) (cR (cA (cN 4) (cD (cN 6) (cH 1)))))).
Definition QS_e441 := (cD (cB (cN 1) (cM (cN 2) (cH 1))) (cR (cA (cN (-2)) (cM (cN 8) (cW (cH 1) 4))))).
Definition QS_e442 := (cO (cD (cM (cR (cQ 3 2)) (cA (cN 2) (cH 1))) (cR (cM (cA (cN 2) (cH 1)) (cA (cN 3) (cM (cN 2) (cH 1))))))).
Definition QS_e443 := (cO (cD (cA (cN 2) (cH 1)) (cM (cR (cN 3)) (cR (cM (cA (cN 2) (cH 1)) (cA (cN 3) (cM (cN 2) (cH 1)))))))).
Definition QS_e444 := (cO (cD (cA (cN 2) (cH 1)) (cM (cR (cN 6)) (cR (cM (cA (cN 2) (cH 1)) (cA (cN 3) (cM (cN 2) (cH 1)))))))).
Definition QS_e445 := (cO (cD (cN 1) (cR (cA (cN 4) (cD (cN 6) (cH 1)))))).
Definition QS_e446 := (cM (cQ (-1) 6) (cR (cB (cN 1) (cD (cN 1) (cM (cN 2) (cH 1)))))).
Definition QS_e447 := (cD (cM (cR (cQ 3 2)) (cR (cD (cH 1) (cA (cN 1) (cH 1))))) (cN 2)).
Definition QS_e448 := (cD (cM (cQ (-1) 6) (cN 1)) (cR (cA (cN 2) (cD (cN 2) (cH 1))))).
Definition QS_e449 := (cD (cR (cA (cN 4) (cD (cN 2) (cA (cN 1) (cH 1))))) (cN 6)).
Definition QS_e450 := (cD (cR (cA (cN 4) (cD (cN 2) (cA (cN 1) (cH 1))))) (cN 12)).
Definition QS_e451 := (cD (cN 1) (cM (cN 3) (cR (cA (cN 2) (cD (cN 2) (cH 1)))))).
Definition QS_e452 := (cD (cM (cN 2) (cR (cB (cN 2) (cD (cN 1) (cH 1))))) (cN 3)).
Definition QS_e453 := (cD (cR (cA (cN 1) (cD (cN 1) (cH 1)))) (cN 6)).
Definition QS_e454 := (cD (cM (cN (-2)) (cR (cA (cN 2) (cD (cN 1) (cA (cN 1) (cH 1)))))) (cN 3)).
Definition QS_e455 := (cD (cR (cD (cH 1) (cA (cN 1) (cH 1)))) (cN 6)).
Definition QS_e456 := (cD (cN 1) (cR (cA (cN 1) (cD (cN 1) (cA (cN (-3)) (cM (cN 2) (cH 1))))))).
Definition QS_e457 := (cD (cM (cQ (-1) 2) (cA (cN 1) (cH 1))) (cR (cA (cN (-1)) (cW (cH 1) 4)))).
Definition QS_e458 := (cD (cR (cB (cN 3) (cD (cN 3) (cH 1)))) (cN 2)).
Definition QS_e459 := (cM (cQ (-1) 2) (cR (cA (cN 3) (cD (cN 3) (cA (cN 1) (cH 1)))))).
Definition QS_e460 := (cD (cR (cD (cH 1) (cA (cN 2) (cH 1)))) (cN 2)).
Definition QS_e461 := (cO (cD (cR (cA (cN 2) (cD (cN 1) (cA (cN 2) (cH 1))))) (cR (cN 2)))).
Definition QS_e462 := (cD (cA (cN 1) (cH 1)) (cM (cN 3) (cR (cM (cA (cN 1) (cH 1)) (cA (cN 1) (cM (cN 2) (cH 1))))))).
Definition QS_e463 := (cD (cH 1) (cM (cN 3) (cR (cM (cH 1) (cA (cN 1) (cM (cN 2) (cH 1))))))).
Definition QS_e464 := (cM (cN 2) (cR (cD (cA (cN (-1)) (cH 1)) (cA (cN (-3)) (cM (cN 6) (cH 1)))))).
Definition QS_e465 := (cD (cM (cN (-2)) (cA (cN 1) (cH 1))) (cM (cN 3) (cR (cA (cA (cN (-1)) (cH 1)) (cM (cN 2) (cW (cH 1) 4)))))).
Definition QS_e466 := (cD (cM (cN 2) (cA (cN (-1)) (cM (cN 2) (cH 1)))) (cM (cN 3) (cR (cA (cN (-1)) (cM (cN 4) (cW (cH 1) 4)))))).
Definition QS_e467 := (cD (cB (cN (-6)) (cM (cN 4) (cH 1))) (cM (cN 3) (cR (cA (cN 3) (cM (cM (cN 4) (cH 1)) (cA (cN 2) (cH 1))))))).
Definition QS_e468 := (cD (cM (cN 2) (cH 1)) (cM (cN 3) (cR (cM (cH 1) (cA (cN 3) (cM (cN 2) (cH 1))))))).
Definition QS_e469 := (cD (cM (cN (-2)) (cA (cN 2) (cH 1))) (cM (cR (cN 3)) (cR (cM (cA (cN 2) (cH 1)) (cA (cN 3) (cM (cN 2) (cH 1))))))).
Definition QS_e470 := (cD (cR (cA (cN 2) (cD (cN 2) (cH 1)))) (cN 3)).
Definition QS_e471 := (cD (cR (cA (cA (cN 6) (cM (cN 10) (cH 1))) (cM (cN 4) (cW (cH 1) 4)))) (cM (cN 3) (cA (cN 1) (cH 1)))).
Definition QS_e472 := (cD (cM (cR (cN 2)) (cR (cD (cH 1) (cA (cN 1) (cH 1))))) (cN 3)).
Definition QS_e473 := (cO (cM (cR (cN 3)) (cR (cD (cA (cN (-1)) (cH 1)) (cA (cN (-2)) (cM (cN 4) (cH 1))))))).
Definition QS_e474 := (cO (cD (cH 1) (cM (cR (cN 2)) (cR (cM (cH 1) (cA (cN 3) (cM (cN 2) (cH 1)))))))).
Definition QS_e475 := (cD (cR (cA (cA (cN 9) (cD (cM (cN 21) (cH 1)) (cN 2))) (cM (cN 3) (cW (cH 1) 4)))) (cA (cN 3) (cM (cN 2) (cH 1)))).

(** /repo/c++/symmetry/nrg-recalc-QS.hpp recalc_doublet, qs/qs-1ch-doubletp.dat *)
Definition qs_1ch_t0 : ten_table := mk_ten "doublet" [ShLin 0%nat 1 (-1); ShLin 1%nat 1 1] [1; 2] [
  (1, 1, [ShLin 0%nat 1 1; ShLin 1%nat 1 0], [ShLin 0%nat 1 0; ShLin 1%nat 1 1], Some (cN 1));
  (2, 2, [ShLin 0%nat 1 0; ShLin 1%nat 1 (-1)], [ShLin 0%nat 1 (-1); ShLin 1%nat 1 0], Some QS_e0);
  (3, 2, [ShLin 0%nat 1 0; ShLin 1%nat 1 1], [ShLin 0%nat 1 (-1); ShLin 1%nat 1 0], Some QS_e1);
  (3, 3, [ShLin 0%nat 1 0; ShLin 1%nat 1 1], [ShLin 0%nat 1 (-1); ShLin 1%nat 1 2], Some (cN (-1)));
  (4, 4, [ShLin 0%nat 1 (-1); ShLin 1%nat 1 0], [ShLin 0%nat 1 (-2); ShLin 1%nat 1 1], Some (cN 1))].
(** /repo/c++/symmetry/nrg-recalc-QS.hpp recalc_doublet, qs/qs-1ch-doubletm.dat *)
Definition qs_1ch_t1 : ten_table := mk_ten "doublet" [ShLin 0%nat 1 (-1); ShLin 1%nat 1 (-1)] [1; 2] [
  (1, 1, [ShLin 0%nat 1 1; ShLin 1%nat 1 0], [ShLin 0%nat 1 0; ShLin 1%nat 1 (-1)], Some (cN 1));
  (2, 2, [ShLin 0%nat 1 0; ShLin 1%nat 1 (-1)], [ShLin 0%nat 1 (-1); ShLin 1%nat 1 (-2)], Some (cN (-1)));
  (2, 3, [ShLin 0%nat 1 0; ShLin 1%nat 1 (-1)], [ShLin 0%nat 1 (-1); ShLin 1%nat 1 0], Some QS_e2);
  (3, 3, [ShLin 0%nat 1 0; ShLin 1%nat 1 1], [ShLin 0%nat 1 (-1); ShLin 1%nat 1 0], Some QS_e0);
  (4, 4, [ShLin 0%nat 1 (-1); ShLin 1%nat 1 0], [ShLin 0%nat 1 (-2); ShLin 1%nat 1 (-1)], Some (cN 1))].
(** /repo/c++/symmetry/nrg-recalc-QS.hpp recalc_irreduc, qs/qs-1ch-spinupa.dat *)
Definition qs_1ch_t2 : irr_table := mk_irr 0 0 [ShLin 0%nat 1 1; ShLin 1%nat 1 1]  [
  (2, 1, Some (cN 1));
  (4, 3, Some QS_e3)].
(** /repo/c++/symmetry/nrg-recalc-QS.hpp recalc_irreduc, qs/qs-1ch-spindowna.dat *)
Definition qs_1ch_t3 : irr_table := mk_irr 0 0 [ShLin 0%nat 1 1; ShLin 1%nat 1 (-1)]  [
  (3, 1, Some (cN 1));
  (4, 2, Some QS_e4)].
(** /repo/c++/symmetry/nrg-recalc-QS.hpp recalc_triplet, qs/qs-1ch-triplets.dat *)
Definition qs_1ch_t4 : ten_table := mk_ten "triplet" [ShLin 0%nat 1 0; ShLin 1%nat 1 0] [0; 3] [
  (1, 1, [ShLin 0%nat 1 1; ShLin 1%nat 1 0], [ShLin 0%nat 1 1; ShLin 1%nat 1 0], Some (cN 1));
  (2, 2, [ShLin 0%nat 1 0; ShLin 1%nat 1 (-1)], [ShLin 0%nat 1 0; ShLin 1%nat 1 (-1)], Some QS_e5);
  (2, 3, [ShLin 0%nat 1 0; ShLin 1%nat 1 (-1)], [ShLin 0%nat 1 0; ShLin 1%nat 1 1], Some QS_e6);
  (3, 2, [ShLin 0%nat 1 0; ShLin 1%nat 1 1], [ShLin 0%nat 1 0; ShLin 1%nat 1 (-1)], Some QS_e7);
  (3, 3, [ShLin 0%nat 1 0; ShLin 1%nat 1 1], [ShLin 0%nat 1 0; ShLin 1%nat 1 1], Some QS_e8);
  (4, 4, [ShLin 0%nat 1 (-1); ShLin 1%nat 1 0], [ShLin 0%nat 1 (-1); ShLin 1%nat 1 0], Some (cN 1))].
(** /repo/c++/symmetry/nrg-recalc-QS.hpp recalc_triplet, qs/qs-1ch-tripletp.dat *)
Definition qs_1ch_t5 : ten_table := mk_ten "triplet" [ShLin 0%nat 1 0; ShLin 1%nat 1 2] [0; 3] [
  (1, 1, [ShLin 0%nat 1 1; ShLin 1%nat 1 0], [ShLin 0%nat 1 1; ShLin 1%nat 1 2], Some (cN 1));
  (2, 2, [ShLin 0%nat 1 0; ShLin 1%nat 1 (-1)], [ShLin 0%nat 1 0; ShLin 1%nat 1 1], Some QS_e9);
  (3, 2, [ShLin 0%nat 1 0; ShLin 1%nat 1 1], [ShLin 0%nat 1 0; ShLin 1%nat 1 1], Some QS_e10);
  (3, 3, [ShLin 0%nat 1 0; ShLin 1%nat 1 1], [ShLin 0%nat 1 0; ShLin 1%nat 1 3], Some (cN 1));
  (4, 4, [ShLin 0%nat 1 (-1); ShLin 1%nat 1 0], [ShLin 0%nat 1 (-1); ShLin 1%nat 1 2], Some (cN 1))].
(** /repo/c++/symmetry/nrg-recalc-QS.hpp recalc_triplet, qs/qs-1ch-tripletm.dat *)
Definition qs_1ch_t6 : ten_table := mk_ten "triplet" [ShLin 0%nat 1 0; ShLin 1%nat 1 (-2)] [0; 3] [
  (1, 1, [ShLin 0%nat 1 1; ShLin 1%nat 1 0], [ShLin 0%nat 1 1; ShLin 1%nat 1 (-2)], Some (cN 1));
  (2, 2, [ShLin 0%nat 1 0; ShLin 1%nat 1 (-1)], [ShLin 0%nat 1 0; ShLin 1%nat 1 (-3)], Some (cN 1));
  (2, 3, [ShLin 0%nat 1 0; ShLin 1%nat 1 (-1)], [ShLin 0%nat 1 0; ShLin 1%nat 1 (-1)], Some QS_e11);
  (3, 3, [ShLin 0%nat 1 0; ShLin 1%nat 1 1], [ShLin 0%nat 1 0; ShLin 1%nat 1 (-1)], Some QS_e5);
  (4, 4, [ShLin 0%nat 1 (-1); ShLin 1%nat 1 0], [ShLin 0%nat 1 (-1); ShLin 1%nat 1 (-2)], Some (cN 1))].
(** /repo/c++/symmetry/sym-QS-impl.hpp, make_matrix if (!P.substeps) *)
Definition qs_1ch_m0_o : list off_line := [
  (1, 2, 0, 0, "xi", Some (cN 1));
  (1, 3, 0, 0, "xi", Some (cN 1));
  (2, 4, 0, 0, "xi", Some QS_e12);
  (3, 4, 0, 0, "xi", Some QS_e13)].
(** /repo/c++/symmetry/sym-QS-impl.hpp, make_matrix if (!P.substeps) *)
Definition qs_1ch_m0_d : list diag_line := [
  (1, 0, "zeta", Some (cN 0));
  (2, 0, "zeta", Some (cN 1));
  (3, 0, "zeta", Some (cN 1));
  (4, 0, "zeta", Some (cN 2))].
(** /repo/c++/symmetry/sym-QS-impl.hpp, make_matrix if (!P.substeps) *)
Definition qs_1ch_m0_f : list dof_line := [
  ].
Definition coef_qs_1ch : coef_set := mk_coef "QS" 1%nat sym_QS {| tb_In := qs_1ch_In; tb_QN := qs_1ch_QN |}
  [qs_1ch_t2; qs_1ch_t3]
  [qs_1ch_t0; qs_1ch_t1; qs_1ch_t4; qs_1ch_t5; qs_1ch_t6]
  [mk_mode "default" qs_1ch_m0_o qs_1ch_m0_d qs_1ch_m0_f].
(** /repo/c++/symmetry/nrg-recalc-QS.hpp recalc_doublet, qs/qs-2ch-doubletp.dat *)
Definition qs_2ch_t0 : ten_table := mk_ten "doublet" [ShLin 0%nat 1 (-1); ShLin 1%nat 1 1] [1; 2] [
  (1, 1, [ShLin 0%nat 1 2; ShLin 1%nat 1 0], [ShLin 0%nat 1 1; ShLin 1%nat 1 1], Some (cN 1));
  (2, 2, [ShLin 0%nat 1 1; ShLin 1%nat 1 (-1)], [ShLin 0%nat 1 0; ShLin 1%nat 1 0], Some QS_e0);
  (3, 2, [ShLin 0%nat 1 1; ShLin 1%nat 1 1], [ShLin 0%nat 1 0; ShLin 1%nat 1 0], Some QS_e1);
  (3, 3, [ShLin 0%nat 1 1; ShLin 1%nat 1 1], [ShLin 0%nat 1 0; ShLin 1%nat 1 2], Some (cN (-1)));
  (4, 4, [ShLin 0%nat 1 1; ShLin 1%nat 1 (-1)], [ShLin 0%nat 1 0; ShLin 1%nat 1 0], Some QS_e0);
  (5, 4, [ShLin 0%nat 1 1; ShLin 1%nat 1 1], [ShLin 0%nat 1 0; ShLin 1%nat 1 0], Some QS_e1);
  (5, 5, [ShLin 0%nat 1 1; ShLin 1%nat 1 1], [ShLin 0%nat 1 0; ShLin 1%nat 1 2], Some (cN (-1)));
  (6, 6, [ShLin 0%nat 1 0; ShLin 1%nat 1 0], [ShLin 0%nat 1 (-1); ShLin 1%nat 1 1], Some (cN 1));
  (7, 7, [ShLin 0%nat 1 0; ShLin 1%nat 1 0], [ShLin 0%nat 1 (-1); ShLin 1%nat 1 1], Some (cN 1));
  (8, 8, [ShLin 0%nat 1 0; ShLin 1%nat 1 0], [ShLin 0%nat 1 (-1); ShLin 1%nat 1 1], Some (cN 1));
  (9, 9, [ShLin 0%nat 1 0; ShLin 1%nat 1 (-2)], [ShLin 0%nat 1 (-1); ShLin 1%nat 1 (-1)], Some QS_e5);
  (10, 9, [ShLin 0%nat 1 0; ShLin 1%nat 1 0], [ShLin 0%nat 1 (-1); ShLin 1%nat 1 (-1)], Some QS_e7);
  (10, 10, [ShLin 0%nat 1 0; ShLin 1%nat 1 0], [ShLin 0%nat 1 (-1); ShLin 1%nat 1 1], Some QS_e14);
  (11, 10, [ShLin 0%nat 1 0; ShLin 1%nat 1 2], [ShLin 0%nat 1 (-1); ShLin 1%nat 1 1], Some QS_e15);
  (11, 11, [ShLin 0%nat 1 0; ShLin 1%nat 1 2], [ShLin 0%nat 1 (-1); ShLin 1%nat 1 3], Some (cN 1));
  (12, 12, [ShLin 0%nat 1 (-1); ShLin 1%nat 1 (-1)], [ShLin 0%nat 1 (-2); ShLin 1%nat 1 0], Some QS_e0);
  (13, 12, [ShLin 0%nat 1 (-1); ShLin 1%nat 1 1], [ShLin 0%nat 1 (-2); ShLin 1%nat 1 0], Some QS_e1);
  (13, 13, [ShLin 0%nat 1 (-1); ShLin 1%nat 1 1], [ShLin 0%nat 1 (-2); ShLin 1%nat 1 2], Some (cN (-1)));
  (14, 14, [ShLin 0%nat 1 (-1); ShLin 1%nat 1 (-1)], [ShLin 0%nat 1 (-2); ShLin 1%nat 1 0], Some QS_e0);
  (15, 14, [ShLin 0%nat 1 (-1); ShLin 1%nat 1 1], [ShLin 0%nat 1 (-2); ShLin 1%nat 1 0], Some QS_e1);
  (15, 15, [ShLin 0%nat 1 (-1); ShLin 1%nat 1 1], [ShLin 0%nat 1 (-2); ShLin 1%nat 1 2], Some (cN (-1)));
  (16, 16, [ShLin 0%nat 1 (-2); ShLin 1%nat 1 0], [ShLin 0%nat 1 (-3); ShLin 1%nat 1 1], Some (cN 1))].
(** /repo/c++/symmetry/nrg-recalc-QS.hpp recalc_doublet, qs/qs-2ch-doubletm.dat *)
Definition qs_2ch_t1 : ten_table := mk_ten "doublet" [ShLin 0%nat 1 (-1); ShLin 1%nat 1 (-1)] [1; 2] [
  (1, 1, [ShLin 0%nat 1 2; ShLin 1%nat 1 0], [ShLin 0%nat 1 1; ShLin 1%nat 1 (-1)], Some (cN 1));
  (2, 2, [ShLin 0%nat 1 1; ShLin 1%nat 1 (-1)], [ShLin 0%nat 1 0; ShLin 1%nat 1 (-2)], Some (cN (-1)));
  (2, 3, [ShLin 0%nat 1 1; ShLin 1%nat 1 (-1)], [ShLin 0%nat 1 0; ShLin 1%nat 1 0], Some QS_e2);
  (3, 3, [ShLin 0%nat 1 1; ShLin 1%nat 1 1], [ShLin 0%nat 1 0; ShLin 1%nat 1 0], Some QS_e0);
  (4, 4, [ShLin 0%nat 1 1; ShLin 1%nat 1 (-1)], [ShLin 0%nat 1 0; ShLin 1%nat 1 (-2)], Some (cN (-1)));
  (4, 5, [ShLin 0%nat 1 1; ShLin 1%nat 1 (-1)], [ShLin 0%nat 1 0; ShLin 1%nat 1 0], Some QS_e2);
  (5, 5, [ShLin 0%nat 1 1; ShLin 1%nat 1 1], [ShLin 0%nat 1 0; ShLin 1%nat 1 0], Some QS_e0);
  (6, 6, [ShLin 0%nat 1 0; ShLin 1%nat 1 0], [ShLin 0%nat 1 (-1); ShLin 1%nat 1 (-1)], Some (cN 1));
  (7, 7, [ShLin 0%nat 1 0; ShLin 1%nat 1 0], [ShLin 0%nat 1 (-1); ShLin 1%nat 1 (-1)], Some (cN 1));
  (8, 8, [ShLin 0%nat 1 0; ShLin 1%nat 1 0], [ShLin 0%nat 1 (-1); ShLin 1%nat 1 (-1)], Some (cN 1));
  (9, 9, [ShLin 0%nat 1 0; ShLin 1%nat 1 (-2)], [ShLin 0%nat 1 (-1); ShLin 1%nat 1 (-3)], Some (cN 1));
  (9, 10, [ShLin 0%nat 1 0; ShLin 1%nat 1 (-2)], [ShLin 0%nat 1 (-1); ShLin 1%nat 1 (-1)], Some QS_e11);
  (10, 10, [ShLin 0%nat 1 0; ShLin 1%nat 1 0], [ShLin 0%nat 1 (-1); ShLin 1%nat 1 (-1)], Some QS_e5);
  (10, 11, [ShLin 0%nat 1 0; ShLin 1%nat 1 0], [ShLin 0%nat 1 (-1); ShLin 1%nat 1 1], Some QS_e6);
  (11, 11, [ShLin 0%nat 1 0; ShLin 1%nat 1 2], [ShLin 0%nat 1 (-1); ShLin 1%nat 1 1], Some QS_e16);
  (12, 12, [ShLin 0%nat 1 (-1); ShLin 1%nat 1 (-1)], [ShLin 0%nat 1 (-2); ShLin 1%nat 1 (-2)], Some (cN (-1)));
  (12, 13, [ShLin 0%nat 1 (-1); ShLin 1%nat 1 (-1)], [ShLin 0%nat 1 (-2); ShLin 1%nat 1 0], Some QS_e2);
  (13, 13, [ShLin 0%nat 1 (-1); ShLin 1%nat 1 1], [ShLin 0%nat 1 (-2); ShLin 1%nat 1 0], Some QS_e0);
  (14, 14, [ShLin 0%nat 1 (-1); ShLin 1%nat 1 (-1)], [ShLin 0%nat 1 (-2); ShLin 1%nat 1 (-2)], Some (cN (-1)));
  (14, 15, [ShLin 0%nat 1 (-1); ShLin 1%nat 1 (-1)], [ShLin 0%nat 1 (-2); ShLin 1%nat 1 0], Some QS_e2);
  (15, 15, [ShLin 0%nat 1 (-1); ShLin 1%nat 1 1], [ShLin 0%nat 1 (-2); ShLin 1%nat 1 0], Some QS_e0);
  (16, 16, [ShLin 0%nat 1 (-2); ShLin 1%nat 1 0], [ShLin 0%nat 1 (-3); ShLin 1%nat 1 (-1)], Some (cN 1))].
(** /repo/c++/symmetry/nrg-recalc-QS.hpp recalc_irreduc, qs/qs-2ch-spinupa.dat *)
Definition qs_2ch_t2 : irr_table := mk_irr 0 0 [ShLin 0%nat 1 1; ShLin 1%nat 1 1]  [
  (4, 1, Some (cN 1));
  (7, 3, Some QS_e17);
  (8, 5, Some QS_e3);
  (9, 2, Some (cN (-1)));
  (10, 3, Some QS_e18);
  (12, 6, Some (cN 1));
  (14, 7, Some QS_e19);
  (14, 10, Some QS_e20);
  (15, 11, Some QS_e21);
  (16, 13, Some QS_e3)].
(** /repo/c++/symmetry/nrg-recalc-QS.hpp recalc_irreduc, qs/qs-2ch-spinupb.dat *)
Definition qs_2ch_t3 : irr_table := mk_irr 1 0 [ShLin 0%nat 1 1; ShLin 1%nat 1 1]  [
  (2, 1, Some (cN 1));
  (6, 3, Some QS_e3);
  (7, 5, Some QS_e17);
  (9, 4, Some (cN 1));
  (10, 5, Some QS_e22);
  (12, 7, Some QS_e19);
  (12, 10, Some QS_e23);
  (13, 11, Some QS_e3);
  (14, 8, Some (cN 1));
  (16, 15, Some QS_e3)].
(** /repo/c++/symmetry/nrg-recalc-QS.hpp recalc_irreduc, qs/qs-2ch-spindowna.dat *)
Definition qs_2ch_t4 : irr_table := mk_irr 0 0 [ShLin 0%nat 1 1; ShLin 1%nat 1 (-1)]  [
  (5, 1, Some (cN 1));
  (7, 2, Some QS_e24);
  (8, 4, Some QS_e4);
  (10, 2, Some QS_e25);
  (11, 3, Some (cN (-1)));
  (13, 6, Some (cN 1));
  (14, 9, Some QS_e26);
  (15, 7, Some QS_e19);
  (15, 10, Some QS_e27);
  (16, 12, Some QS_e4)].
(** /repo/c++/symmetry/nrg-recalc-QS.hpp recalc_irreduc, qs/qs-2ch-spindownb.dat *)
Definition qs_2ch_t5 : irr_table := mk_irr 1 0 [ShLin 0%nat 1 1; ShLin 1%nat 1 (-1)]  [
  (3, 1, Some (cN 1));
  (6, 2, Some QS_e4);
  (7, 4, Some QS_e24);
  (10, 4, Some QS_e28);
  (11, 5, Some (cN 1));
  (12, 9, Some QS_e4);
  (13, 7, Some QS_e19);
  (13, 10, Some QS_e29);
  (15, 8, Some (cN 1));
  (16, 14, Some QS_e4)].
(** /repo/c++/symmetry/nrg-recalc-QS.hpp recalc_triplet, qs/qs-2ch-triplets.dat *)
Definition qs_2ch_t6 : ten_table := mk_ten "triplet" [ShLin 0%nat 1 0; ShLin 1%nat 1 0] [0; 3] [
  (1, 1, [ShLin 0%nat 1 2; ShLin 1%nat 1 0], [ShLin 0%nat 1 2; ShLin 1%nat 1 0], Some (cN 1));
  (2, 2, [ShLin 0%nat 1 1; ShLin 1%nat 1 (-1)], [ShLin 0%nat 1 1; ShLin 1%nat 1 (-1)], Some QS_e5);
  (2, 3, [ShLin 0%nat 1 1; ShLin 1%nat 1 (-1)], [ShLin 0%nat 1 1; ShLin 1%nat 1 1], Some QS_e6);
  (3, 2, [ShLin 0%nat 1 1; ShLin 1%nat 1 1], [ShLin 0%nat 1 1; ShLin 1%nat 1 (-1)], Some QS_e7);
  (3, 3, [ShLin 0%nat 1 1; ShLin 1%nat 1 1], [ShLin 0%nat 1 1; ShLin 1%nat 1 1], Some QS_e8);
  (4, 4, [ShLin 0%nat 1 1; ShLin 1%nat 1 (-1)], [ShLin 0%nat 1 1; ShLin 1%nat 1 (-1)], Some QS_e5);
  (4, 5, [ShLin 0%nat 1 1; ShLin 1%nat 1 (-1)], [ShLin 0%nat 1 1; ShLin 1%nat 1 1], Some QS_e6);
  (5, 4, [ShLin 0%nat 1 1; ShLin 1%nat 1 1], [ShLin 0%nat 1 1; ShLin 1%nat 1 (-1)], Some QS_e7);
  (5, 5, [ShLin 0%nat 1 1; ShLin 1%nat 1 1], [ShLin 0%nat 1 1; ShLin 1%nat 1 1], Some QS_e8);
  (6, 6, [ShLin 0%nat 1 0; ShLin 1%nat 1 0], [ShLin 0%nat 1 0; ShLin 1%nat 1 0], Some (cN 1));
  (7, 7, [ShLin 0%nat 1 0; ShLin 1%nat 1 0], [ShLin 0%nat 1 0; ShLin 1%nat 1 0], Some (cN 1));
  (8, 8, [ShLin 0%nat 1 0; ShLin 1%nat 1 0], [ShLin 0%nat 1 0; ShLin 1%nat 1 0], Some (cN 1));
  (9, 9, [ShLin 0%nat 1 0; ShLin 1%nat 1 (-2)], [ShLin 0%nat 1 0; ShLin 1%nat 1 (-2)], Some QS_e30);
  (9, 10, [ShLin 0%nat 1 0; ShLin 1%nat 1 (-2)], [ShLin 0%nat 1 0; ShLin 1%nat 1 0], Some QS_e31);
  (10, 9, [ShLin 0%nat 1 0; ShLin 1%nat 1 0], [ShLin 0%nat 1 0; ShLin 1%nat 1 (-2)], Some (cO (cD (cN 1) (cH 1))));
  (10, 10, [ShLin 0%nat 1 0; ShLin 1%nat 1 0], [ShLin 0%nat 1 0; ShLin 1%nat 1 0], Some QS_e32);
  (10, 11, [ShLin 0%nat 1 0; ShLin 1%nat 1 0], [ShLin 0%nat 1 0; ShLin 1%nat 1 2], Some QS_e33);
  (11, 10, [ShLin 0%nat 1 0; ShLin 1%nat 1 2], [ShLin 0%nat 1 0; ShLin 1%nat 1 0], Some QS_e34);
  (11, 11, [ShLin 0%nat 1 0; ShLin 1%nat 1 2], [ShLin 0%nat 1 0; ShLin 1%nat 1 2], Some QS_e35);
  (12, 12, [ShLin 0%nat 1 (-1); ShLin 1%nat 1 (-1)], [ShLin 0%nat 1 (-1); ShLin 1%nat 1 (-1)], Some QS_e5);
  (12, 13, [ShLin 0%nat 1 (-1); ShLin 1%nat 1 (-1)], [ShLin 0%nat 1 (-1); ShLin 1%nat 1 1], Some QS_e6);
  (13, 12, [ShLin 0%nat 1 (-1); ShLin 1%nat 1 1], [ShLin 0%nat 1 (-1); ShLin 1%nat 1 (-1)], Some QS_e7);
  (13, 13, [ShLin 0%nat 1 (-1); ShLin 1%nat 1 1], [ShLin 0%nat 1 (-1); ShLin 1%nat 1 1], Some QS_e8);
  (14, 14, [ShLin 0%nat 1 (-1); ShLin 1%nat 1 (-1)], [ShLin 0%nat 1 (-1); ShLin 1%nat 1 (-1)], Some QS_e5);
  (14, 15, [ShLin 0%nat 1 (-1); ShLin 1%nat 1 (-1)], [ShLin 0%nat 1 (-1); ShLin 1%nat 1 1], Some QS_e6);
  (15, 14, [ShLin 0%nat 1 (-1); ShLin 1%nat 1 1], [ShLin 0%nat 1 (-1); ShLin 1%nat 1 (-1)], Some QS_e7);
  (15, 15, [ShLin 0%nat 1 (-1); ShLin 1%nat 1 1], [ShLin 0%nat 1 (-1); ShLin 1%nat 1 1], Some QS_e8);
  (16, 16, [ShLin 0%nat 1 (-2); ShLin 1%nat 1 0], [ShLin 0%nat 1 (-2); ShLin 1%nat 1 0], Some (cN 1))].
(** /repo/c++/symmetry/nrg-recalc-QS.hpp recalc_triplet, qs/qs-2ch-tripletp.dat *)
Definition qs_2ch_t7 : ten_table := mk_ten "triplet" [ShLin 0%nat 1 0; ShLin 1%nat 1 2] [0; 3] [
  (1, 1, [ShLin 0%nat 1 2; ShLin 1%nat 1 0], [ShLin 0%nat 1 2; ShLin 1%nat 1 2], Some (cN 1));
  (2, 2, [ShLin 0%nat 1 1; ShLin 1%nat 1 (-1)], [ShLin 0%nat 1 1; ShLin 1%nat 1 1], Some QS_e9);
  (3, 2, [ShLin 0%nat 1 1; ShLin 1%nat 1 1], [ShLin 0%nat 1 1; ShLin 1%nat 1 1], Some QS_e10);
  (3, 3, [ShLin 0%nat 1 1; ShLin 1%nat 1 1], [ShLin 0%nat 1 1; ShLin 1%nat 1 3], Some (cN 1));
  (4, 4, [ShLin 0%nat 1 1; ShLin 1%nat 1 (-1)], [ShLin 0%nat 1 1; ShLin 1%nat 1 1], Some QS_e9);
  (5, 4, [ShLin 0%nat 1 1; ShLin 1%nat 1 1], [ShLin 0%nat 1 1; ShLin 1%nat 1 1], Some QS_e10);
  (5, 5, [ShLin 0%nat 1 1; ShLin 1%nat 1 1], [ShLin 0%nat 1 1; ShLin 1%nat 1 3], Some (cN 1));
  (6, 6, [ShLin 0%nat 1 0; ShLin 1%nat 1 0], [ShLin 0%nat 1 0; ShLin 1%nat 1 2], Some (cN 1));
  (7, 7, [ShLin 0%nat 1 0; ShLin 1%nat 1 0], [ShLin 0%nat 1 0; ShLin 1%nat 1 2], Some (cN 1));
  (8, 8, [ShLin 0%nat 1 0; ShLin 1%nat 1 0], [ShLin 0%nat 1 0; ShLin 1%nat 1 2], Some (cN 1));
  (9, 9, [ShLin 0%nat 1 0; ShLin 1%nat 1 (-2)], [ShLin 0%nat 1 0; ShLin 1%nat 1 0], Some QS_e36);
  (10, 9, [ShLin 0%nat 1 0; ShLin 1%nat 1 0], [ShLin 0%nat 1 0; ShLin 1%nat 1 0], Some QS_e37);
  (10, 10, [ShLin 0%nat 1 0; ShLin 1%nat 1 0], [ShLin 0%nat 1 0; ShLin 1%nat 1 2], Some QS_e35);
  (11, 9, [ShLin 0%nat 1 0; ShLin 1%nat 1 2], [ShLin 0%nat 1 0; ShLin 1%nat 1 0], Some QS_e38);
  (11, 10, [ShLin 0%nat 1 0; ShLin 1%nat 1 2], [ShLin 0%nat 1 0; ShLin 1%nat 1 2], Some QS_e39);
  (11, 11, [ShLin 0%nat 1 0; ShLin 1%nat 1 2], [ShLin 0%nat 1 0; ShLin 1%nat 1 4], Some (cN 1));
  (12, 12, [ShLin 0%nat 1 (-1); ShLin 1%nat 1 (-1)], [ShLin 0%nat 1 (-1); ShLin 1%nat 1 1], Some QS_e9);
  (13, 12, [ShLin 0%nat 1 (-1); ShLin 1%nat 1 1], [ShLin 0%nat 1 (-1); ShLin 1%nat 1 1], Some QS_e10);
  (13, 13, [ShLin 0%nat 1 (-1); ShLin 1%nat 1 1], [ShLin 0%nat 1 (-1); ShLin 1%nat 1 3], Some (cN 1));
  (14, 14, [ShLin 0%nat 1 (-1); ShLin 1%nat 1 (-1)], [ShLin 0%nat 1 (-1); ShLin 1%nat 1 1], Some QS_e9);
  (15, 14, [ShLin 0%nat 1 (-1); ShLin 1%nat 1 1], [ShLin 0%nat 1 (-1); ShLin 1%nat 1 1], Some QS_e10);
  (15, 15, [ShLin 0%nat 1 (-1); ShLin 1%nat 1 1], [ShLin 0%nat 1 (-1); ShLin 1%nat 1 3], Some (cN 1));
  (16, 16, [ShLin 0%nat 1 (-2); ShLin 1%nat 1 0], [ShLin 0%nat 1 (-2); ShLin 1%nat 1 2], Some (cN 1))].
(** /repo/c++/symmetry/nrg-recalc-QS.hpp recalc_triplet, qs/qs-2ch-tripletm.dat *)
Definition qs_2ch_t8 : ten_table := mk_ten "triplet" [ShLin 0%nat 1 0; ShLin 1%nat 1 (-2)] [0; 3] [
  (1, 1, [ShLin 0%nat 1 2; ShLin 1%nat 1 0], [ShLin 0%nat 1 2; ShLin 1%nat 1 (-2)], Some (cN 1));
  (2, 2, [ShLin 0%nat 1 1; ShLin 1%nat 1 (-1)], [ShLin 0%nat 1 1; ShLin 1%nat 1 (-3)], Some (cN 1));
  (2, 3, [ShLin 0%nat 1 1; ShLin 1%nat 1 (-1)], [ShLin 0%nat 1 1; ShLin 1%nat 1 (-1)], Some QS_e11);
  (3, 3, [ShLin 0%nat 1 1; ShLin 1%nat 1 1], [ShLin 0%nat 1 1; ShLin 1%nat 1 (-1)], Some QS_e5);
  (4, 4, [ShLin 0%nat 1 1; ShLin 1%nat 1 (-1)], [ShLin 0%nat 1 1; ShLin 1%nat 1 (-3)], Some (cN 1));
  (4, 5, [ShLin 0%nat 1 1; ShLin 1%nat 1 (-1)], [ShLin 0%nat 1 1; ShLin 1%nat 1 (-1)], Some QS_e11);
  (5, 5, [ShLin 0%nat 1 1; ShLin 1%nat 1 1], [ShLin 0%nat 1 1; ShLin 1%nat 1 (-1)], Some QS_e5);
  (6, 6, [ShLin 0%nat 1 0; ShLin 1%nat 1 0], [ShLin 0%nat 1 0; ShLin 1%nat 1 (-2)], Some (cN 1));
  (7, 7, [ShLin 0%nat 1 0; ShLin 1%nat 1 0], [ShLin 0%nat 1 0; ShLin 1%nat 1 (-2)], Some (cN 1));
  (8, 8, [ShLin 0%nat 1 0; ShLin 1%nat 1 0], [ShLin 0%nat 1 0; ShLin 1%nat 1 (-2)], Some (cN 1));
  (9, 9, [ShLin 0%nat 1 0; ShLin 1%nat 1 (-2)], [ShLin 0%nat 1 0; ShLin 1%nat 1 (-4)], Some (cN 1));
  (9, 10, [ShLin 0%nat 1 0; ShLin 1%nat 1 (-2)], [ShLin 0%nat 1 0; ShLin 1%nat 1 (-2)], Some (cD (cN 1) (cH 1)));
  (9, 11, [ShLin 0%nat 1 0; ShLin 1%nat 1 (-2)], [ShLin 0%nat 1 0; ShLin 1%nat 1 0], Some QS_e40);
  (10, 10, [ShLin 0%nat 1 0; ShLin 1%nat 1 0], [ShLin 0%nat 1 0; ShLin 1%nat 1 (-2)], Some QS_e30);
  (10, 11, [ShLin 0%nat 1 0; ShLin 1%nat 1 0], [ShLin 0%nat 1 0; ShLin 1%nat 1 0], Some QS_e31);
  (11, 11, [ShLin 0%nat 1 0; ShLin 1%nat 1 2], [ShLin 0%nat 1 0; ShLin 1%nat 1 0], Some QS_e41);
  (12, 12, [ShLin 0%nat 1 (-1); ShLin 1%nat 1 (-1)], [ShLin 0%nat 1 (-1); ShLin 1%nat 1 (-3)], Some (cN 1));
  (12, 13, [ShLin 0%nat 1 (-1); ShLin 1%nat 1 (-1)], [ShLin 0%nat 1 (-1); ShLin 1%nat 1 (-1)], Some QS_e11);
  (13, 13, [ShLin 0%nat 1 (-1); ShLin 1%nat 1 1], [ShLin 0%nat 1 (-1); ShLin 1%nat 1 (-1)], Some QS_e5);
  (14, 14, [ShLin 0%nat 1 (-1); ShLin 1%nat 1 (-1)], [ShLin 0%nat 1 (-1); ShLin 1%nat 1 (-3)], Some (cN 1));
  (14, 15, [ShLin 0%nat 1 (-1); ShLin 1%nat 1 (-1)], [ShLin 0%nat 1 (-1); ShLin 1%nat 1 (-1)], Some QS_e11);
  (15, 15, [ShLin 0%nat 1 (-1); ShLin 1%nat 1 1], [ShLin 0%nat 1 (-1); ShLin 1%nat 1 (-1)], Some QS_e5);
  (16, 16, [ShLin 0%nat 1 (-2); ShLin 1%nat 1 0], [ShLin 0%nat 1 (-2); ShLin 1%nat 1 (-2)], Some (cN 1))].
(** /repo/c++/symmetry/sym-QS-impl.hpp, make_matrix if (!P.substeps) *)
Definition qs_2ch_m0_o : list off_line := [
  (1, 4, 0, 0, "xi", Some (cN 1));
  (1, 5, 0, 0, "xi", Some (cN 1));
  (2, 7, 0, 0, "xi", Some QS_e42);
  (2, 9, 0, 0, "xi", Some (cN 1));
  (2, 10, 0, 0, "xi", Some QS_e43);
  (3, 7, 0, 0, "xi", Some QS_e43);
  (3, 10, 0, 0, "xi", Some QS_e44);
  (3, 11, 0, 0, "xi", Some (cN 1));
  (4, 8, 0, 0, "xi", Some QS_e12);
  (5, 8, 0, 0, "xi", Some QS_e13);
  (6, 12, 0, 0, "xi", Some (cN 1));
  (6, 13, 0, 0, "xi", Some (cN 1));
  (7, 14, 0, 0, "xi", Some QS_e19);
  (7, 15, 0, 0, "xi", Some QS_e19);
  (9, 14, 0, 0, "xi", Some QS_e45);
  (10, 14, 0, 0, "xi", Some QS_e29);
  (10, 15, 0, 0, "xi", Some QS_e46);
  (11, 15, 0, 0, "xi", Some QS_e47);
  (12, 16, 0, 0, "xi", Some QS_e12);
  (13, 16, 0, 0, "xi", Some QS_e13);
  (1, 2, 1, 0, "xi", Some (cN 1));
  (1, 3, 1, 0, "xi", Some (cN 1));
  (2, 6, 1, 0, "xi", Some QS_e12);
  (3, 6, 1, 0, "xi", Some QS_e13);
  (4, 7, 1, 0, "xi", Some QS_e42);
  (4, 9, 1, 0, "xi", Some (cN (-1)));
  (4, 10, 1, 0, "xi", Some QS_e48);
  (5, 7, 1, 0, "xi", Some QS_e43);
  (5, 10, 1, 0, "xi", Some QS_e42);
  (5, 11, 1, 0, "xi", Some (cN (-1)));
  (7, 12, 1, 0, "xi", Some QS_e19);
  (7, 13, 1, 0, "xi", Some QS_e19);
  (8, 14, 1, 0, "xi", Some (cN 1));
  (8, 15, 1, 0, "xi", Some (cN 1));
  (9, 12, 1, 0, "xi", Some QS_e49);
  (10, 12, 1, 0, "xi", Some QS_e27);
  (10, 13, 1, 0, "xi", Some QS_e50);
  (11, 13, 1, 0, "xi", Some QS_e51);
  (14, 16, 1, 0, "xi", Some QS_e12);
  (15, 16, 1, 0, "xi", Some QS_e13)].
(** /repo/c++/symmetry/sym-QS-impl.hpp, make_matrix if (!P.substeps) *)
Definition qs_2ch_m0_d : list diag_line := [
  (1, 0, "zeta", Some (cN 0));
  (2, 0, "zeta", Some (cN 0));
  (3, 0, "zeta", Some (cN 0));
  (4, 0, "zeta", Some (cN 1));
  (5, 0, "zeta", Some (cN 1));
  (6, 0, "zeta", Some (cN 0));
  (7, 0, "zeta", Some (cN 1));
  (8, 0, "zeta", Some (cN 2));
  (9, 0, "zeta", Some (cN 1));
  (10, 0, "zeta", Some (cN 1));
  (11, 0, "zeta", Some (cN 1));
  (12, 0, "zeta", Some (cN 1));
  (13, 0, "zeta", Some (cN 1));
  (14, 0, "zeta", Some (cN 2));
  (15, 0, "zeta", Some (cN 2));
  (16, 0, "zeta", Some (cN 2));
  (1, 1, "zeta", Some (cN 0));
  (2, 1, "zeta", Some (cN 1));
  (3, 1, "zeta", Some (cN 1));
  (4, 1, "zeta", Some (cN 0));
  (5, 1, "zeta", Some (cN 0));
  (6, 1, "zeta", Some (cN 2));
  (7, 1, "zeta", Some (cN 1));
  (8, 1, "zeta", Some (cN 0));
  (9, 1, "zeta", Some (cN 1));
  (10, 1, "zeta", Some (cN 1));
  (11, 1, "zeta", Some (cN 1));
  (12, 1, "zeta", Some (cN 2));
  (13, 1, "zeta", Some (cN 2));
  (14, 1, "zeta", Some (cN 1));
  (15, 1, "zeta", Some (cN 1));
  (16, 1, "zeta", Some (cN 2))].
(** /repo/c++/symmetry/sym-QS-impl.hpp, make_matrix if (!P.substeps) *)
Definition qs_2ch_m0_f : list dof_line := [
  ].
(** /repo/c++/symmetry/sym-QS-impl.hpp, make_matrix if (!P.substeps) && if (P.rungs) *)
Definition qs_2ch_m1_o : list off_line := [
  (1, 2, 0, 0, "xiR", Some (cN 1));
  (1, 3, 0, 0, "xiR", Some (cN 1));
  (2, 6, 0, 0, "xiR", Some QS_e12);
  (3, 6, 0, 0, "xiR", Some QS_e13);
  (4, 7, 0, 0, "xiR", Some QS_e42);
  (4, 9, 0, 0, "xiR", Some (cN (-1)));
  (4, 10, 0, 0, "xiR", Some QS_e48);
  (5, 7, 0, 0, "xiR", Some QS_e43);
  (5, 10, 0, 0, "xiR", Some QS_e42);
  (5, 11, 0, 0, "xiR", Some (cN (-1)));
  (7, 12, 0, 0, "xiR", Some QS_e19);
  (7, 13, 0, 0, "xiR", Some QS_e19);
  (8, 14, 0, 0, "xiR", Some (cN 1));
  (8, 15, 0, 0, "xiR", Some (cN 1));
  (9, 12, 0, 0, "xiR", Some QS_e49);
  (10, 12, 0, 0, "xiR", Some QS_e27);
  (10, 13, 0, 0, "xiR", Some QS_e50);
  (11, 13, 0, 0, "xiR", Some QS_e51);
  (14, 16, 0, 0, "xiR", Some QS_e12);
  (15, 16, 0, 0, "xiR", Some QS_e13);
  (1, 4, 1, 0, "xiR", Some (cN 1));
  (1, 5, 1, 0, "xiR", Some (cN 1));
  (2, 7, 1, 0, "xiR", Some QS_e42);
  (2, 9, 1, 0, "xiR", Some (cN 1));
  (2, 10, 1, 0, "xiR", Some QS_e43);
  (3, 7, 1, 0, "xiR", Some QS_e43);
  (3, 10, 1, 0, "xiR", Some QS_e44);
  (3, 11, 1, 0, "xiR", Some (cN 1));
  (4, 8, 1, 0, "xiR", Some QS_e12);
  (5, 8, 1, 0, "xiR", Some QS_e13);
  (6, 12, 1, 0, "xiR", Some (cN 1));
  (6, 13, 1, 0, "xiR", Some (cN 1));
  (7, 14, 1, 0, "xiR", Some QS_e19);
  (7, 15, 1, 0, "xiR", Some QS_e19);
  (9, 14, 1, 0, "xiR", Some QS_e45);
  (10, 14, 1, 0, "xiR", Some QS_e29);
  (10, 15, 1, 0, "xiR", Some QS_e46);
  (11, 15, 1, 0, "xiR", Some QS_e47);
  (12, 16, 1, 0, "xiR", Some QS_e12);
  (13, 16, 1, 0, "xiR", Some QS_e13)].
(** /repo/c++/symmetry/sym-QS-impl.hpp, make_matrix if (!P.substeps) && if (P.rungs) *)
Definition qs_2ch_m1_d : list diag_line := [
  ].
(** /repo/c++/symmetry/sym-QS-impl.hpp, make_matrix if (!P.substeps) && if (P.rungs) *)
Definition qs_2ch_m1_f : list dof_line := [
  (2, 4, 0, "zetaR", Some (cN 1));
  (3, 5, 0, "zetaR", Some (cN 1));
  (4, 2, 0, "zetaR", Some (cN 1));
  (5, 3, 0, "zetaR", Some (cN 1));
  (6, 7, 0, "zetaR", Some (cR (cN 2)));
  (7, 6, 0, "zetaR", Some (cR (cN 2)));
  (7, 8, 0, "zetaR", Some (cR (cN 2)));
  (8, 7, 0, "zetaR", Some (cR (cN 2)));
  (12, 14, 0, "zetaR", Some (cN (-1)));
  (13, 15, 0, "zetaR", Some (cN (-1)));
  (14, 12, 0, "zetaR", Some (cN (-1)));
  (15, 13, 0, "zetaR", Some (cN (-1)))].
Definition coef_qs_2ch : coef_set := mk_coef "QS" 2%nat sym_QS {| tb_In := qs_2ch_In; tb_QN := qs_2ch_QN |}
  [qs_2ch_t2; qs_2ch_t3; qs_2ch_t4; qs_2ch_t5]
  [qs_2ch_t0; qs_2ch_t1; qs_2ch_t6; qs_2ch_t7; qs_2ch_t8]
  [mk_mode "default" qs_2ch_m0_o qs_2ch_m0_d qs_2ch_m0_f;
   mk_mode "default rungs" qs_2ch_m1_o qs_2ch_m1_d qs_2ch_m1_f].
(** /repo/c++/symmetry/nrg-recalc-QS.hpp recalc_doublet, qs/qs-3ch-doubletp.dat *)
Definition qs_3ch_t0 : ten_table := mk_ten "doublet" [ShLin 0%nat 1 (-1); ShLin 1%nat 1 1] [1; 2] [
  (1, 1, [ShLin 0%nat 1 3; ShLin 1%nat 1 0], [ShLin 0%nat 1 2; ShLin 1%nat 1 1], Some (cN 1));
  (2, 2, [ShLin 0%nat 1 2; ShLin 1%nat 1 (-1)], [ShLin 0%nat 1 1; ShLin 1%nat 1 0], Some QS_e0);
  (3, 2, [ShLin 0%nat 1 2; ShLin 1%nat 1 1], [ShLin 0%nat 1 1; ShLin 1%nat 1 0], Some QS_e1);
  (3, 3, [ShLin 0%nat 1 2; ShLin 1%nat 1 1], [ShLin 0%nat 1 1; ShLin 1%nat 1 2], Some (cN (-1)));
  (4, 4, [ShLin 0%nat 1 2; ShLin 1%nat 1 (-1)], [ShLin 0%nat 1 1; ShLin 1%nat 1 0], Some QS_e0);
  (5, 4, [ShLin 0%nat 1 2; ShLin 1%nat 1 1], [ShLin 0%nat 1 1; ShLin 1%nat 1 0], Some QS_e1);
  (5, 5, [ShLin 0%nat 1 2; ShLin 1%nat 1 1], [ShLin 0%nat 1 1; ShLin 1%nat 1 2], Some (cN (-1)));
  (6, 6, [ShLin 0%nat 1 2; ShLin 1%nat 1 (-1)], [ShLin 0%nat 1 1; ShLin 1%nat 1 0], Some QS_e0);
  (7, 6, [ShLin 0%nat 1 2; ShLin 1%nat 1 1], [ShLin 0%nat 1 1; ShLin 1%nat 1 0], Some QS_e1);
  (7, 7, [ShLin 0%nat 1 2; ShLin 1%nat 1 1], [ShLin 0%nat 1 1; ShLin 1%nat 1 2], Some (cN (-1)));
  (8, 8, [ShLin 0%nat 1 1; ShLin 1%nat 1 0], [ShLin 0%nat 1 0; ShLin 1%nat 1 1], Some (cN 1));
  (9, 9, [ShLin 0%nat 1 1; ShLin 1%nat 1 0], [ShLin 0%nat 1 0; ShLin 1%nat 1 1], Some (cN 1));
  (10, 10, [ShLin 0%nat 1 1; ShLin 1%nat 1 0], [ShLin 0%nat 1 0; ShLin 1%nat 1 1], Some (cN 1));
  (11, 11, [ShLin 0%nat 1 1; ShLin 1%nat 1 0], [ShLin 0%nat 1 0; ShLin 1%nat 1 1], Some (cN 1));
  (12, 12, [ShLin 0%nat 1 1; ShLin 1%nat 1 0], [ShLin 0%nat 1 0; ShLin 1%nat 1 1], Some (cN 1));
  (13, 13, [ShLin 0%nat 1 1; ShLin 1%nat 1 0], [ShLin 0%nat 1 0; ShLin 1%nat 1 1], Some (cN 1));
  (14, 14, [ShLin 0%nat 1 1; ShLin 1%nat 1 (-2)], [ShLin 0%nat 1 0; ShLin 1%nat 1 (-1)], Some QS_e5);
  (15, 14, [ShLin 0%nat 1 1; ShLin 1%nat 1 0], [ShLin 0%nat 1 0; ShLin 1%nat 1 (-1)], Some QS_e7);
  (15, 15, [ShLin 0%nat 1 1; ShLin 1%nat 1 0], [ShLin 0%nat 1 0; ShLin 1%nat 1 1], Some QS_e14);
  (16, 15, [ShLin 0%nat 1 1; ShLin 1%nat 1 2], [ShLin 0%nat 1 0; ShLin 1%nat 1 1], Some QS_e15);
  (16, 16, [ShLin 0%nat 1 1; ShLin 1%nat 1 2], [ShLin 0%nat 1 0; ShLin 1%nat 1 3], Some (cN 1));
  (17, 17, [ShLin 0%nat 1 1; ShLin 1%nat 1 (-2)], [ShLin 0%nat 1 0; ShLin 1%nat 1 (-1)], Some QS_e5);
  (18, 17, [ShLin 0%nat 1 1; ShLin 1%nat 1 0], [ShLin 0%nat 1 0; ShLin 1%nat 1 (-1)], Some QS_e7);
  (18, 18, [ShLin 0%nat 1 1; ShLin 1%nat 1 0], [ShLin 0%nat 1 0; ShLin 1%nat 1 1], Some QS_e14);
  (19, 18, [ShLin 0%nat 1 1; ShLin 1%nat 1 2], [ShLin 0%nat 1 0; ShLin 1%nat 1 1], Some QS_e15);
  (19, 19, [ShLin 0%nat 1 1; ShLin 1%nat 1 2], [ShLin 0%nat 1 0; ShLin 1%nat 1 3], Some (cN 1));
  (20, 20, [ShLin 0%nat 1 1; ShLin 1%nat 1 (-2)], [ShLin 0%nat 1 0; ShLin 1%nat 1 (-1)], Some QS_e5);
  (21, 20, [ShLin 0%nat 1 1; ShLin 1%nat 1 0], [ShLin 0%nat 1 0; ShLin 1%nat 1 (-1)], Some QS_e7);
  (21, 21, [ShLin 0%nat 1 1; ShLin 1%nat 1 0], [ShLin 0%nat 1 0; ShLin 1%nat 1 1], Some QS_e14);
  (22, 21, [ShLin 0%nat 1 1; ShLin 1%nat 1 2], [ShLin 0%nat 1 0; ShLin 1%nat 1 1], Some QS_e15);
  (22, 22, [ShLin 0%nat 1 1; ShLin 1%nat 1 2], [ShLin 0%nat 1 0; ShLin 1%nat 1 3], Some (cN 1));
  (23, 23, [ShLin 0%nat 1 0; ShLin 1%nat 1 (-1)], [ShLin 0%nat 1 (-1); ShLin 1%nat 1 0], Some QS_e0);
  (24, 23, [ShLin 0%nat 1 0; ShLin 1%nat 1 1], [ShLin 0%nat 1 (-1); ShLin 1%nat 1 0], Some QS_e1);
  (24, 24, [ShLin 0%nat 1 0; ShLin 1%nat 1 1], [ShLin 0%nat 1 (-1); ShLin 1%nat 1 2], Some (cN (-1)));
  (25, 25, [ShLin 0%nat 1 0; ShLin 1%nat 1 (-1)], [ShLin 0%nat 1 (-1); ShLin 1%nat 1 0], Some QS_e0);
  (26, 25, [ShLin 0%nat 1 0; ShLin 1%nat 1 1], [ShLin 0%nat 1 (-1); ShLin 1%nat 1 0], Some QS_e1);
  (26, 26, [ShLin 0%nat 1 0; ShLin 1%nat 1 1], [ShLin 0%nat 1 (-1); ShLin 1%nat 1 2], Some (cN (-1)));
  (27, 27, [ShLin 0%nat 1 0; ShLin 1%nat 1 (-1)], [ShLin 0%nat 1 (-1); ShLin 1%nat 1 0], Some QS_e0);
  (28, 27, [ShLin 0%nat 1 0; ShLin 1%nat 1 1], [ShLin 0%nat 1 (-1); ShLin 1%nat 1 0], Some QS_e1);
  (28, 28, [ShLin 0%nat 1 0; ShLin 1%nat 1 1], [ShLin 0%nat 1 (-1); ShLin 1%nat 1 2], Some (cN (-1)));
  (29, 29, [ShLin 0%nat 1 0; ShLin 1%nat 1 (-1)], [ShLin 0%nat 1 (-1); ShLin 1%nat 1 0], Some QS_e0);
  (30, 29, [ShLin 0%nat 1 0; ShLin 1%nat 1 1], [ShLin 0%nat 1 (-1); ShLin 1%nat 1 0], Some QS_e1);
  (30, 30, [ShLin 0%nat 1 0; ShLin 1%nat 1 1], [ShLin 0%nat 1 (-1); ShLin 1%nat 1 2], Some (cN (-1)));
  (31, 31, [ShLin 0%nat 1 0; ShLin 1%nat 1 (-1)], [ShLin 0%nat 1 (-1); ShLin 1%nat 1 0], Some QS_e0);
  (32, 31, [ShLin 0%nat 1 0; ShLin 1%nat 1 1], [ShLin 0%nat 1 (-1); ShLin 1%nat 1 0], Some QS_e1);
  (32, 32, [ShLin 0%nat 1 0; ShLin 1%nat 1 1], [ShLin 0%nat 1 (-1); ShLin 1%nat 1 2], Some (cN (-1)));
  (33, 33, [ShLin 0%nat 1 0; ShLin 1%nat 1 (-1)], [ShLin 0%nat 1 (-1); ShLin 1%nat 1 0], Some QS_e0);
  (34, 33, [ShLin 0%nat 1 0; ShLin 1%nat 1 1], [ShLin 0%nat 1 (-1); ShLin 1%nat 1 0], Some QS_e1);
  (34, 34, [ShLin 0%nat 1 0; ShLin 1%nat 1 1], [ShLin 0%nat 1 (-1); ShLin 1%nat 1 2], Some (cN (-1)));
  (35, 35, [ShLin 0%nat 1 0; ShLin 1%nat 1 (-1)], [ShLin 0%nat 1 (-1); ShLin 1%nat 1 0], Some QS_e0);
  (36, 35, [ShLin 0%nat 1 0; ShLin 1%nat 1 1], [ShLin 0%nat 1 (-1); ShLin 1%nat 1 0], Some QS_e1);
  (36, 36, [ShLin 0%nat 1 0; ShLin 1%nat 1 1], [ShLin 0%nat 1 (-1); ShLin 1%nat 1 2], Some (cN (-1)));
  (37, 37, [ShLin 0%nat 1 0; ShLin 1%nat 1 (-1)], [ShLin 0%nat 1 (-1); ShLin 1%nat 1 0], Some QS_e0);
  (38, 37, [ShLin 0%nat 1 0; ShLin 1%nat 1 1], [ShLin 0%nat 1 (-1); ShLin 1%nat 1 0], Some QS_e1);
  (38, 38, [ShLin 0%nat 1 0; ShLin 1%nat 1 1], [ShLin 0%nat 1 (-1); ShLin 1%nat 1 2], Some (cN (-1)));
  (39, 39, [ShLin 0%nat 1 0; ShLin 1%nat 1 (-3)], [ShLin 0%nat 1 (-1); ShLin 1%nat 1 (-2)], Some QS_e52);
  (40, 39, [ShLin 0%nat 1 0; ShLin 1%nat 1 (-1)], [ShLin 0%nat 1 (-1); ShLin 1%nat 1 (-2)], Some QS_e53);
  (40, 40, [ShLin 0%nat 1 0; ShLin 1%nat 1 (-1)], [ShLin 0%nat 1 (-1); ShLin 1%nat 1 0], Some QS_e54);
  (41, 40, [ShLin 0%nat 1 0; ShLin 1%nat 1 1], [ShLin 0%nat 1 (-1); ShLin 1%nat 1 0], Some QS_e55);
  (41, 41, [ShLin 0%nat 1 0; ShLin 1%nat 1 1], [ShLin 0%nat 1 (-1); ShLin 1%nat 1 2], Some QS_e56);
  (42, 41, [ShLin 0%nat 1 0; ShLin 1%nat 1 3], [ShLin 0%nat 1 (-1); ShLin 1%nat 1 2], Some QS_e57);
  (42, 42, [ShLin 0%nat 1 0; ShLin 1%nat 1 3], [ShLin 0%nat 1 (-1); ShLin 1%nat 1 4], Some (cN (-1)));
  (43, 43, [ShLin 0%nat 1 (-1); ShLin 1%nat 1 0], [ShLin 0%nat 1 (-2); ShLin 1%nat 1 1], Some (cN 1));
  (44, 44, [ShLin 0%nat 1 (-1); ShLin 1%nat 1 0], [ShLin 0%nat 1 (-2); ShLin 1%nat 1 1], Some (cN 1));
  (45, 45, [ShLin 0%nat 1 (-1); ShLin 1%nat 1 0], [ShLin 0%nat 1 (-2); ShLin 1%nat 1 1], Some (cN 1));
  (46, 46, [ShLin 0%nat 1 (-1); ShLin 1%nat 1 0], [ShLin 0%nat 1 (-2); ShLin 1%nat 1 1], Some (cN 1));
  (47, 47, [ShLin 0%nat 1 (-1); ShLin 1%nat 1 0], [ShLin 0%nat 1 (-2); ShLin 1%nat 1 1], Some (cN 1));
  (48, 48, [ShLin 0%nat 1 (-1); ShLin 1%nat 1 0], [ShLin 0%nat 1 (-2); ShLin 1%nat 1 1], Some (cN 1));
  (49, 49, [ShLin 0%nat 1 (-1); ShLin 1%nat 1 (-2)], [ShLin 0%nat 1 (-2); ShLin 1%nat 1 (-1)], Some QS_e5);
  (50, 49, [ShLin 0%nat 1 (-1); ShLin 1%nat 1 0], [ShLin 0%nat 1 (-2); ShLin 1%nat 1 (-1)], Some QS_e7);
  (50, 50, [ShLin 0%nat 1 (-1); ShLin 1%nat 1 0], [ShLin 0%nat 1 (-2); ShLin 1%nat 1 1], Some QS_e14);
  (51, 50, [ShLin 0%nat 1 (-1); ShLin 1%nat 1 2], [ShLin 0%nat 1 (-2); ShLin 1%nat 1 1], Some QS_e15);
  (51, 51, [ShLin 0%nat 1 (-1); ShLin 1%nat 1 2], [ShLin 0%nat 1 (-2); ShLin 1%nat 1 3], Some (cN 1));
  (52, 52, [ShLin 0%nat 1 (-1); ShLin 1%nat 1 (-2)], [ShLin 0%nat 1 (-2); ShLin 1%nat 1 (-1)], Some QS_e5);
  (53, 52, [ShLin 0%nat 1 (-1); ShLin 1%nat 1 0], [ShLin 0%nat 1 (-2); ShLin 1%nat 1 (-1)], Some QS_e7);
  (53, 53, [ShLin 0%nat 1 (-1); ShLin 1%nat 1 0], [ShLin 0%nat 1 (-2); ShLin 1%nat 1 1], Some QS_e14);
  (54, 53, [ShLin 0%nat 1 (-1); ShLin 1%nat 1 2], [ShLin 0%nat 1 (-2); ShLin 1%nat 1 1], Some QS_e15);
  (54, 54, [ShLin 0%nat 1 (-1); ShLin 1%nat 1 2], [ShLin 0%nat 1 (-2); ShLin 1%nat 1 3], Some (cN 1));
  (55, 55, [ShLin 0%nat 1 (-1); ShLin 1%nat 1 (-2)], [ShLin 0%nat 1 (-2); ShLin 1%nat 1 (-1)], Some QS_e5);
  (56, 55, [ShLin 0%nat 1 (-1); ShLin 1%nat 1 0], [ShLin 0%nat 1 (-2); ShLin 1%nat 1 (-1)], Some QS_e7);
  (56, 56, [ShLin 0%nat 1 (-1); ShLin 1%nat 1 0], [ShLin 0%nat 1 (-2); ShLin 1%nat 1 1], Some QS_e14);
  (57, 56, [ShLin 0%nat 1 (-1); ShLin 1%nat 1 2], [ShLin 0%nat 1 (-2); ShLin 1%nat 1 1], Some QS_e15);
  (57, 57, [ShLin 0%nat 1 (-1); ShLin 1%nat 1 2], [ShLin 0%nat 1 (-2); ShLin 1%nat 1 3], Some (cN 1));
  (58, 58, [ShLin 0%nat 1 (-2); ShLin 1%nat 1 (-1)], [ShLin 0%nat 1 (-3); ShLin 1%nat 1 0], Some QS_e0);
  (59, 58, [ShLin 0%nat 1 (-2); ShLin 1%nat 1 1], [ShLin 0%nat 1 (-3); ShLin 1%nat 1 0], Some QS_e1);
  (59, 59, [ShLin 0%nat 1 (-2); ShLin 1%nat 1 1], [ShLin 0%nat 1 (-3); ShLin 1%nat 1 2], Some (cN (-1)));
  (60, 60, [ShLin 0%nat 1 (-2); ShLin 1%nat 1 (-1)], [ShLin 0%nat 1 (-3); ShLin 1%nat 1 0], Some QS_e0);
  (61, 60, [ShLin 0%nat 1 (-2); ShLin 1%nat 1 1], [ShLin 0%nat 1 (-3); ShLin 1%nat 1 0], Some QS_e1);
  (61, 61, [ShLin 0%nat 1 (-2); ShLin 1%nat 1 1], [ShLin 0%nat 1 (-3); ShLin 1%nat 1 2], Some (cN (-1)));
  (62, 62, [ShLin 0%nat 1 (-2); ShLin 1%nat 1 (-1)], [ShLin 0%nat 1 (-3); ShLin 1%nat 1 0], Some QS_e0);
  (63, 62, [ShLin 0%nat 1 (-2); ShLin 1%nat 1 1], [ShLin 0%nat 1 (-3); ShLin 1%nat 1 0], Some QS_e1);
  (63, 63, [ShLin 0%nat 1 (-2); ShLin 1%nat 1 1], [ShLin 0%nat 1 (-3); ShLin 1%nat 1 2], Some (cN (-1)));
  (64, 64, [ShLin 0%nat 1 (-3); ShLin 1%nat 1 0], [ShLin 0%nat 1 (-4); ShLin 1%nat 1 1], Some (cN 1))].
(** /repo/c++/symmetry/nrg-recalc-QS.hpp recalc_doublet, qs/qs-3ch-doubletm.dat *)
Definition qs_3ch_t1 : ten_table := mk_ten "doublet" [ShLin 0%nat 1 (-1); ShLin 1%nat 1 (-1)] [1; 2] [
  (1, 1, [ShLin 0%nat 1 3; ShLin 1%nat 1 0], [ShLin 0%nat 1 2; ShLin 1%nat 1 (-1)], Some (cN 1));
  (2, 2, [ShLin 0%nat 1 2; ShLin 1%nat 1 (-1)], [ShLin 0%nat 1 1; ShLin 1%nat 1 (-2)], Some (cN (-1)));
  (2, 3, [ShLin 0%nat 1 2; ShLin 1%nat 1 (-1)], [ShLin 0%nat 1 1; ShLin 1%nat 1 0], Some QS_e2);
  (3, 3, [ShLin 0%nat 1 2; ShLin 1%nat 1 1], [ShLin 0%nat 1 1; ShLin 1%nat 1 0], Some QS_e0);
  (4, 4, [ShLin 0%nat 1 2; ShLin 1%nat 1 (-1)], [ShLin 0%nat 1 1; ShLin 1%nat 1 (-2)], Some (cN (-1)));
  (4, 5, [ShLin 0%nat 1 2; ShLin 1%nat 1 (-1)], [ShLin 0%nat 1 1; ShLin 1%nat 1 0], Some QS_e2);
  (5, 5, [ShLin 0%nat 1 2; ShLin 1%nat 1 1], [ShLin 0%nat 1 1; ShLin 1%nat 1 0], Some QS_e0);
  (6, 6, [ShLin 0%nat 1 2; ShLin 1%nat 1 (-1)], [ShLin 0%nat 1 1; ShLin 1%nat 1 (-2)], Some (cN (-1)));
  (6, 7, [ShLin 0%nat 1 2; ShLin 1%nat 1 (-1)], [ShLin 0%nat 1 1; ShLin 1%nat 1 0], Some QS_e2);
  (7, 7, [ShLin 0%nat 1 2; ShLin 1%nat 1 1], [ShLin 0%nat 1 1; ShLin 1%nat 1 0], Some QS_e0);
  (8, 8, [ShLin 0%nat 1 1; ShLin 1%nat 1 0], [ShLin 0%nat 1 0; ShLin 1%nat 1 (-1)], Some (cN 1));
  (9, 9, [ShLin 0%nat 1 1; ShLin 1%nat 1 0], [ShLin 0%nat 1 0; ShLin 1%nat 1 (-1)], Some (cN 1));
  (10, 10, [ShLin 0%nat 1 1; ShLin 1%nat 1 0], [ShLin 0%nat 1 0; ShLin 1%nat 1 (-1)], Some (cN 1));
  (11, 11, [ShLin 0%nat 1 1; ShLin 1%nat 1 0], [ShLin 0%nat 1 0; ShLin 1%nat 1 (-1)], Some (cN 1));
  (12, 12, [ShLin 0%nat 1 1; ShLin 1%nat 1 0], [ShLin 0%nat 1 0; ShLin 1%nat 1 (-1)], Some (cN 1));
  (13, 13, [ShLin 0%nat 1 1; ShLin 1%nat 1 0], [ShLin 0%nat 1 0; ShLin 1%nat 1 (-1)], Some (cN 1));
  (14, 14, [ShLin 0%nat 1 1; ShLin 1%nat 1 (-2)], [ShLin 0%nat 1 0; ShLin 1%nat 1 (-3)], Some (cN 1));
  (14, 15, [ShLin 0%nat 1 1; ShLin 1%nat 1 (-2)], [ShLin 0%nat 1 0; ShLin 1%nat 1 (-1)], Some QS_e11);
  (15, 15, [ShLin 0%nat 1 1; ShLin 1%nat 1 0], [ShLin 0%nat 1 0; ShLin 1%nat 1 (-1)], Some QS_e5);
  (15, 16, [ShLin 0%nat 1 1; ShLin 1%nat 1 0], [ShLin 0%nat 1 0; ShLin 1%nat 1 1], Some QS_e6);
  (16, 16, [ShLin 0%nat 1 1; ShLin 1%nat 1 2], [ShLin 0%nat 1 0; ShLin 1%nat 1 1], Some QS_e16);
  (17, 17, [ShLin 0%nat 1 1; ShLin 1%nat 1 (-2)], [ShLin 0%nat 1 0; ShLin 1%nat 1 (-3)], Some (cN 1));
  (17, 18, [ShLin 0%nat 1 1; ShLin 1%nat 1 (-2)], [ShLin 0%nat 1 0; ShLin 1%nat 1 (-1)], Some QS_e11);
  (18, 18, [ShLin 0%nat 1 1; ShLin 1%nat 1 0], [ShLin 0%nat 1 0; ShLin 1%nat 1 (-1)], Some QS_e5);
  (18, 19, [ShLin 0%nat 1 1; ShLin 1%nat 1 0], [ShLin 0%nat 1 0; ShLin 1%nat 1 1], Some QS_e6);
  (19, 19, [ShLin 0%nat 1 1; ShLin 1%nat 1 2], [ShLin 0%nat 1 0; ShLin 1%nat 1 1], Some QS_e16);
  (20, 20, [ShLin 0%nat 1 1; ShLin 1%nat 1 (-2)], [ShLin 0%nat 1 0; ShLin 1%nat 1 (-3)], Some (cN 1));
  (20, 21, [ShLin 0%nat 1 1; ShLin 1%nat 1 (-2)], [ShLin 0%nat 1 0; ShLin 1%nat 1 (-1)], Some QS_e11);
  (21, 21, [ShLin 0%nat 1 1; ShLin 1%nat 1 0], [ShLin 0%nat 1 0; ShLin 1%nat 1 (-1)], Some QS_e5);
  (21, 22, [ShLin 0%nat 1 1; ShLin 1%nat 1 0], [ShLin 0%nat 1 0; ShLin 1%nat 1 1], Some QS_e6);
  (22, 22, [ShLin 0%nat 1 1; ShLin 1%nat 1 2], [ShLin 0%nat 1 0; ShLin 1%nat 1 1], Some QS_e16);
  (23, 23, [ShLin 0%nat 1 0; ShLin 1%nat 1 (-1)], [ShLin 0%nat 1 (-1); ShLin 1%nat 1 (-2)], Some (cN (-1)));
  (23, 24, [ShLin 0%nat 1 0; ShLin 1%nat 1 (-1)], [ShLin 0%nat 1 (-1); ShLin 1%nat 1 0], Some QS_e2);
  (24, 24, [ShLin 0%nat 1 0; ShLin 1%nat 1 1], [ShLin 0%nat 1 (-1); ShLin 1%nat 1 0], Some QS_e0);
  (25, 25, [ShLin 0%nat 1 0; ShLin 1%nat 1 (-1)], [ShLin 0%nat 1 (-1); ShLin 1%nat 1 (-2)], Some (cN (-1)));
  (25, 26, [ShLin 0%nat 1 0; ShLin 1%nat 1 (-1)], [ShLin 0%nat 1 (-1); ShLin 1%nat 1 0], Some QS_e2);
  (26, 26, [ShLin 0%nat 1 0; ShLin 1%nat 1 1], [ShLin 0%nat 1 (-1); ShLin 1%nat 1 0], Some QS_e0);
  (27, 27, [ShLin 0%nat 1 0; ShLin 1%nat 1 (-1)], [ShLin 0%nat 1 (-1); ShLin 1%nat 1 (-2)], Some (cN (-1)));
  (27, 28, [ShLin 0%nat 1 0; ShLin 1%nat 1 (-1)], [ShLin 0%nat 1 (-1); ShLin 1%nat 1 0], Some QS_e2);
  (28, 28, [ShLin 0%nat 1 0; ShLin 1%nat 1 1], [ShLin 0%nat 1 (-1); ShLin 1%nat 1 0], Some QS_e0);
  (29, 29, [ShLin 0%nat 1 0; ShLin 1%nat 1 (-1)], [ShLin 0%nat 1 (-1); ShLin 1%nat 1 (-2)], Some (cN (-1)));
  (29, 30, [ShLin 0%nat 1 0; ShLin 1%nat 1 (-1)], [ShLin 0%nat 1 (-1); ShLin 1%nat 1 0], Some QS_e2);
  (30, 30, [ShLin 0%nat 1 0; ShLin 1%nat 1 1], [ShLin 0%nat 1 (-1); ShLin 1%nat 1 0], Some QS_e0);
  (31, 31, [ShLin 0%nat 1 0; ShLin 1%nat 1 (-1)], [ShLin 0%nat 1 (-1); ShLin 1%nat 1 (-2)], Some (cN (-1)));
  (31, 32, [ShLin 0%nat 1 0; ShLin 1%nat 1 (-1)], [ShLin 0%nat 1 (-1); ShLin 1%nat 1 0], Some QS_e2);
  (32, 32, [ShLin 0%nat 1 0; ShLin 1%nat 1 1], [ShLin 0%nat 1 (-1); ShLin 1%nat 1 0], Some QS_e0);
  (33, 33, [ShLin 0%nat 1 0; ShLin 1%nat 1 (-1)], [ShLin 0%nat 1 (-1); ShLin 1%nat 1 (-2)], Some (cN (-1)));
  (33, 34, [ShLin 0%nat 1 0; ShLin 1%nat 1 (-1)], [ShLin 0%nat 1 (-1); ShLin 1%nat 1 0], Some QS_e2);
  (34, 34, [ShLin 0%nat 1 0; ShLin 1%nat 1 1], [ShLin 0%nat 1 (-1); ShLin 1%nat 1 0], Some QS_e0);
  (35, 35, [ShLin 0%nat 1 0; ShLin 1%nat 1 (-1)], [ShLin 0%nat 1 (-1); ShLin 1%nat 1 (-2)], Some (cN (-1)));
  (35, 36, [ShLin 0%nat 1 0; ShLin 1%nat 1 (-1)], [ShLin 0%nat 1 (-1); ShLin 1%nat 1 0], Some QS_e2);
  (36, 36, [ShLin 0%nat 1 0; ShLin 1%nat 1 1], [ShLin 0%nat 1 (-1); ShLin 1%nat 1 0], Some QS_e0);
  (37, 37, [ShLin 0%nat 1 0; ShLin 1%nat 1 (-1)], [ShLin 0%nat 1 (-1); ShLin 1%nat 1 (-2)], Some (cN (-1)));
  (37, 38, [ShLin 0%nat 1 0; ShLin 1%nat 1 (-1)], [ShLin 0%nat 1 (-1); ShLin 1%nat 1 0], Some QS_e2);
  (38, 38, [ShLin 0%nat 1 0; ShLin 1%nat 1 1], [ShLin 0%nat 1 (-1); ShLin 1%nat 1 0], Some QS_e0);
  (39, 39, [ShLin 0%nat 1 0; ShLin 1%nat 1 (-3)], [ShLin 0%nat 1 (-1); ShLin 1%nat 1 (-4)], Some (cN (-1)));
  (39, 40, [ShLin 0%nat 1 0; ShLin 1%nat 1 (-3)], [ShLin 0%nat 1 (-1); ShLin 1%nat 1 (-2)], Some QS_e58);
  (40, 40, [ShLin 0%nat 1 0; ShLin 1%nat 1 (-1)], [ShLin 0%nat 1 (-1); ShLin 1%nat 1 (-2)], Some QS_e59);
  (40, 41, [ShLin 0%nat 1 0; ShLin 1%nat 1 (-1)], [ShLin 0%nat 1 (-1); ShLin 1%nat 1 0], Some QS_e60);
  (41, 41, [ShLin 0%nat 1 0; ShLin 1%nat 1 1], [ShLin 0%nat 1 (-1); ShLin 1%nat 1 0], Some QS_e54);
  (41, 42, [ShLin 0%nat 1 0; ShLin 1%nat 1 1], [ShLin 0%nat 1 (-1); ShLin 1%nat 1 2], Some QS_e61);
  (42, 42, [ShLin 0%nat 1 0; ShLin 1%nat 1 3], [ShLin 0%nat 1 (-1); ShLin 1%nat 1 2], Some QS_e62);
  (43, 43, [ShLin 0%nat 1 (-1); ShLin 1%nat 1 0], [ShLin 0%nat 1 (-2); ShLin 1%nat 1 (-1)], Some (cN 1));
  (44, 44, [ShLin 0%nat 1 (-1); ShLin 1%nat 1 0], [ShLin 0%nat 1 (-2); ShLin 1%nat 1 (-1)], Some (cN 1));
  (45, 45, [ShLin 0%nat 1 (-1); ShLin 1%nat 1 0], [ShLin 0%nat 1 (-2); ShLin 1%nat 1 (-1)], Some (cN 1));
  (46, 46, [ShLin 0%nat 1 (-1); ShLin 1%nat 1 0], [ShLin 0%nat 1 (-2); ShLin 1%nat 1 (-1)], Some (cN 1));
  (47, 47, [ShLin 0%nat 1 (-1); ShLin 1%nat 1 0], [ShLin 0%nat 1 (-2); ShLin 1%nat 1 (-1)], Some (cN 1));
  (48, 48, [ShLin 0%nat 1 (-1); ShLin 1%nat 1 0], [ShLin 0%nat 1 (-2); ShLin 1%nat 1 (-1)], Some (cN 1));
  (49, 49, [ShLin 0%nat 1 (-1); ShLin 1%nat 1 (-2)], [ShLin 0%nat 1 (-2); ShLin 1%nat 1 (-3)], Some (cN 1));
  (49, 50, [ShLin 0%nat 1 (-1); ShLin 1%nat 1 (-2)], [ShLin 0%nat 1 (-2); ShLin 1%nat 1 (-1)], Some QS_e11);
  (50, 50, [ShLin 0%nat 1 (-1); ShLin 1%nat 1 0], [ShLin 0%nat 1 (-2); ShLin 1%nat 1 (-1)], Some QS_e5);
  (50, 51, [ShLin 0%nat 1 (-1); ShLin 1%nat 1 0], [ShLin 0%nat 1 (-2); ShLin 1%nat 1 1], Some QS_e6);
  (51, 51, [ShLin 0%nat 1 (-1); ShLin 1%nat 1 2], [ShLin 0%nat 1 (-2); ShLin 1%nat 1 1], Some QS_e16);
  (52, 52, [ShLin 0%nat 1 (-1); ShLin 1%nat 1 (-2)], [ShLin 0%nat 1 (-2); ShLin 1%nat 1 (-3)], Some (cN 1));
  (52, 53, [ShLin 0%nat 1 (-1); ShLin 1%nat 1 (-2)], [ShLin 0%nat 1 (-2); ShLin 1%nat 1 (-1)], Some QS_e11);
  (53, 53, [ShLin 0%nat 1 (-1); ShLin 1%nat 1 0], [ShLin 0%nat 1 (-2); ShLin 1%nat 1 (-1)], Some QS_e5);
  (53, 54, [ShLin 0%nat 1 (-1); ShLin 1%nat 1 0], [ShLin 0%nat 1 (-2); ShLin 1%nat 1 1], Some QS_e6);
  (54, 54, [ShLin 0%nat 1 (-1); ShLin 1%nat 1 2], [ShLin 0%nat 1 (-2); ShLin 1%nat 1 1], Some QS_e16);
  (55, 55, [ShLin 0%nat 1 (-1); ShLin 1%nat 1 (-2)], [ShLin 0%nat 1 (-2); ShLin 1%nat 1 (-3)], Some (cN 1));
  (55, 56, [ShLin 0%nat 1 (-1); ShLin 1%nat 1 (-2)], [ShLin 0%nat 1 (-2); ShLin 1%nat 1 (-1)], Some QS_e11);
  (56, 56, [ShLin 0%nat 1 (-1); ShLin 1%nat 1 0], [ShLin 0%nat 1 (-2); ShLin 1%nat 1 (-1)], Some QS_e5);
  (56, 57, [ShLin 0%nat 1 (-1); ShLin 1%nat 1 0], [ShLin 0%nat 1 (-2); ShLin 1%nat 1 1], Some QS_e6);
  (57, 57, [ShLin 0%nat 1 (-1); ShLin 1%nat 1 2], [ShLin 0%nat 1 (-2); ShLin 1%nat 1 1], Some QS_e16);
  (58, 58, [ShLin 0%nat 1 (-2); ShLin 1%nat 1 (-1)], [ShLin 0%nat 1 (-3); ShLin 1%nat 1 (-2)], Some (cN (-1)));
  (58, 59, [ShLin 0%nat 1 (-2); ShLin 1%nat 1 (-1)], [ShLin 0%nat 1 (-3); ShLin 1%nat 1 0], Some QS_e2);
  (59, 59, [ShLin 0%nat 1 (-2); ShLin 1%nat 1 1], [ShLin 0%nat 1 (-3); ShLin 1%nat 1 0], Some QS_e0);
  (60, 60, [ShLin 0%nat 1 (-2); ShLin 1%nat 1 (-1)], [ShLin 0%nat 1 (-3); ShLin 1%nat 1 (-2)], Some (cN (-1)));
  (60, 61, [ShLin 0%nat 1 (-2); ShLin 1%nat 1 (-1)], [ShLin 0%nat 1 (-3); ShLin 1%nat 1 0], Some QS_e2);
  (61, 61, [ShLin 0%nat 1 (-2); ShLin 1%nat 1 1], [ShLin 0%nat 1 (-3); ShLin 1%nat 1 0], Some QS_e0);
  (62, 62, [ShLin 0%nat 1 (-2); ShLin 1%nat 1 (-1)], [ShLin 0%nat 1 (-3); ShLin 1%nat 1 (-2)], Some (cN (-1)));
  (62, 63, [ShLin 0%nat 1 (-2); ShLin 1%nat 1 (-1)], [ShLin 0%nat 1 (-3); ShLin 1%nat 1 0], Some QS_e2);
  (63, 63, [ShLin 0%nat 1 (-2); ShLin 1%nat 1 1], [ShLin 0%nat 1 (-3); ShLin 1%nat 1 0], Some QS_e0);
  (64, 64, [ShLin 0%nat 1 (-3); ShLin 1%nat 1 0], [ShLin 0%nat 1 (-4); ShLin 1%nat 1 (-1)], Some (cN 1))].
(** /repo/c++/symmetry/nrg-recalc-QS.hpp recalc_irreduc, qs/qs-3ch-spinupa.dat *)
Definition qs_3ch_t2 : irr_table := mk_irr 0 0 [ShLin 0%nat 1 1; ShLin 1%nat 1 1]  [
  (6, 1, Some (cN 1));
  (10, 3, Some QS_e17);
  (12, 5, Some QS_e17);
  (13, 7, Some QS_e3);
  (17, 2, Some (cN (-1)));
  (18, 3, Some QS_e18);
  (20, 4, Some (cN (-1)));
  (21, 5, Some QS_e18);
  (25, 8, Some (cN 1));
  (29, 9, Some (cQ (-1) 2));
  (29, 15, Some QS_e63);
  (30, 16, Some QS_e64);
  (31, 10, Some QS_e19);
  (31, 18, Some QS_e20);
  (32, 19, Some QS_e21);
  (33, 9, Some (cD (cR (cN 3)) (cN 2)));
  (33, 15, Some QS_e65);
  (34, 16, Some QS_e66);
  (35, 11, Some (cN 1));
  (37, 12, Some QS_e19);
  (37, 21, Some QS_e20);
  (38, 22, Some QS_e21);
  (39, 14, Some (cN 1));
  (40, 15, Some QS_e67);
  (41, 16, Some QS_e68);
  (44, 24, Some QS_e17);
  (45, 26, Some QS_e3);
  (46, 28, Some QS_e17);
  (47, 30, Some QS_e69);
  (47, 34, Some QS_e70);
  (48, 36, Some QS_e3);
  (49, 23, Some (cN (-1)));
  (50, 24, Some QS_e18);
  (52, 27, Some (cN (-1)));
  (53, 28, Some QS_e18);
  (55, 29, Some (cD (cN 1) (cR (cN 2))));
  (55, 33, Some (cD (cN 1) (cR (cN 6))));
  (55, 40, Some QS_e71);
  (56, 30, Some QS_e72);
  (56, 34, Some QS_e73);
  (56, 41, Some QS_e74);
  (57, 42, Some QS_e3);
  (58, 43, Some (cN 1));
  (60, 44, Some QS_e19);
  (60, 50, Some QS_e20);
  (61, 51, Some QS_e21);
  (62, 46, Some QS_e19);
  (62, 53, Some QS_e20);
  (63, 54, Some QS_e21);
  (64, 59, Some QS_e3)].
(** /repo/c++/symmetry/nrg-recalc-QS.hpp recalc_irreduc, qs/qs-3ch-spinupb.dat *)
Definition qs_3ch_t3 : irr_table := mk_irr 1 0 [ShLin 0%nat 1 1; ShLin 1%nat 1 1]  [
  (4, 1, Some (cN 1));
  (9, 3, Some QS_e17);
  (11, 5, Some QS_e3);
  (12, 7, Some QS_e17);
  (14, 2, Some (cN (-1)));
  (15, 3, Some QS_e18);
  (20, 6, Some (cN 1));
  (21, 7, Some QS_e22);
  (23, 8, Some (cN 1));
  (27, 9, Some QS_e19);
  (27, 15, Some QS_e20);
  (28, 16, Some QS_e21);
  (29, 10, Some (cQ (-1) 2));
  (29, 18, Some QS_e63);
  (30, 19, Some QS_e64);
  (33, 10, Some QS_e75);
  (33, 18, Some QS_e76);
  (34, 19, Some QS_e77);
  (35, 12, Some QS_e19);
  (35, 21, Some QS_e23);
  (36, 22, Some QS_e3);
  (37, 13, Some (cN 1));
  (39, 17, Some (cN (-1)));
  (40, 18, Some QS_e78);
  (41, 19, Some QS_e79);
  (43, 24, Some QS_e3);
  (44, 26, Some QS_e17);
  (46, 30, Some QS_e69);
  (46, 34, Some QS_e80);
  (47, 32, Some QS_e17);
  (48, 38, Some QS_e3);
  (49, 25, Some (cN 1));
  (50, 26, Some QS_e22);
  (52, 29, Some (cD (cN 1) (cR (cN 2))));
  (52, 33, Some QS_e81);
  (52, 40, Some QS_e82);
  (53, 30, Some QS_e72);
  (53, 34, Some QS_e83);
  (53, 41, Some QS_e84);
  (54, 42, Some QS_e21);
  (55, 31, Some (cN (-1)));
  (56, 32, Some QS_e18);
  (58, 44, Some QS_e19);
  (58, 50, Some QS_e23);
  (59, 51, Some QS_e3);
  (60, 45, Some (cN 1));
  (62, 47, Some QS_e19);
  (62, 56, Some QS_e20);
  (63, 57, Some QS_e21);
  (64, 61, Some QS_e3)].
(** /repo/c++/symmetry/nrg-recalc-QS.hpp recalc_irreduc, qs/qs-3ch-spinupc.dat *)
Definition qs_3ch_t4 : irr_table := mk_irr 2 0 [ShLin 0%nat 1 1; ShLin 1%nat 1 1]  [
  (2, 1, Some (cN 1));
  (8, 3, Some QS_e3);
  (9, 5, Some QS_e17);
  (10, 7, Some QS_e17);
  (14, 4, Some (cN 1));
  (15, 5, Some QS_e22);
  (17, 6, Some (cN 1));
  (18, 7, Some QS_e22);
  (23, 9, Some QS_e19);
  (23, 15, Some QS_e23);
  (24, 16, Some QS_e3);
  (25, 10, Some QS_e19);
  (25, 18, Some QS_e23);
  (26, 19, Some QS_e3);
  (27, 11, Some (cN 1));
  (29, 12, Some (cN 1));
  (31, 13, Some (cN 1));
  (33, 21, Some QS_e85);
  (34, 22, Some QS_e86);
  (39, 20, Some (cN 1));
  (40, 21, Some QS_e67);
  (41, 22, Some QS_e68);
  (43, 28, Some QS_e3);
  (44, 30, Some QS_e3);
  (45, 32, Some QS_e3);
  (46, 36, Some QS_e17);
  (47, 38, Some QS_e17);
  (49, 33, Some (cO (cR (cQ 2 3))));
  (49, 40, Some QS_e71);
  (50, 34, Some QS_e87);
  (50, 41, Some QS_e74);
  (51, 42, Some QS_e3);
  (52, 35, Some (cN 1));
  (53, 36, Some QS_e22);
  (55, 37, Some (cN 1));
  (56, 38, Some QS_e22);
  (58, 46, Some QS_e19);
  (58, 53, Some QS_e23);
  (59, 54, Some QS_e3);
  (60, 47, Some QS_e19);
  (60, 56, Some QS_e23);
  (61, 57, Some QS_e3);
  (62, 48, Some (cN 1));
  (64, 63, Some QS_e3)].
(** /repo/c++/symmetry/nrg-recalc-QS.hpp recalc_irreduc, qs/qs-3ch-spindowna.dat *)
Definition qs_3ch_t5 : irr_table := mk_irr 0 0 [ShLin 0%nat 1 1; ShLin 1%nat 1 (-1)]  [
  (7, 1, Some (cN 1));
  (10, 2, Some QS_e24);
  (12, 4, Some QS_e24);
  (13, 6, Some QS_e4);
  (18, 2, Some QS_e25);
  (19, 3, Some (cN (-1)));
  (21, 4, Some QS_e25);
  (22, 5, Some (cN (-1)));
  (26, 8, Some (cN 1));
  (29, 14, Some QS_e88);
  (30, 9, Some (cQ (-1) 2));
  (30, 15, Some QS_e89);
  (31, 17, Some QS_e26);
  (32, 10, Some QS_e19);
  (32, 18, Some QS_e27);
  (33, 14, Some QS_e90);
  (34, 9, Some (cD (cR (cN 3)) (cN 2)));
  (34, 15, Some QS_e91);
  (36, 11, Some (cN 1));
  (37, 20, Some QS_e26);
  (38, 12, Some QS_e19);
  (38, 21, Some QS_e27);
  (40, 14, Some QS_e92);
  (41, 15, Some QS_e93);
  (42, 16, Some (cN 1));
  (44, 23, Some QS_e24);
  (45, 25, Some QS_e4);
  (46, 27, Some QS_e24);
  (47, 29, Some QS_e94);
  (47, 33, Some QS_e95);
  (48, 35, Some QS_e4);
  (50, 23, Some QS_e25);
  (51, 24, Some (cN (-1)));
  (53, 27, Some QS_e25);
  (54, 28, Some (cN (-1)));
  (55, 39, Some QS_e4);
  (56, 29, Some QS_e96);
  (56, 33, Some QS_e97);
  (56, 40, Some QS_e98);
  (57, 30, Some (cD (cN 1) (cR (cN 2))));
  (57, 34, Some (cD (cN 1) (cR (cN 6))));
  (57, 41, Some QS_e99);
  (59, 43, Some (cN 1));
  (60, 49, Some QS_e26);
  (61, 44, Some QS_e19);
  (61, 50, Some QS_e27);
  (62, 52, Some QS_e26);
  (63, 46, Some QS_e19);
  (63, 53, Some QS_e27);
  (64, 58, Some QS_e4)].
(** /repo/c++/symmetry/nrg-recalc-QS.hpp recalc_irreduc, qs/qs-3ch-spindownb.dat *)
Definition qs_3ch_t6 : irr_table := mk_irr 1 0 [ShLin 0%nat 1 1; ShLin 1%nat 1 (-1)]  [
  (5, 1, Some (cN 1));
  (9, 2, Some QS_e24);
  (11, 4, Some QS_e4);
  (12, 6, Some QS_e24);
  (15, 2, Some QS_e25);
  (16, 3, Some (cN (-1)));
  (21, 6, Some QS_e28);
  (22, 7, Some (cN 1));
  (24, 8, Some (cN 1));
  (27, 14, Some QS_e26);
  (28, 9, Some QS_e19);
  (28, 15, Some QS_e27);
  (29, 17, Some QS_e88);
  (30, 10, Some (cQ (-1) 2));
  (30, 18, Some QS_e89);
  (33, 17, Some QS_e100);
  (34, 10, Some QS_e75);
  (34, 18, Some QS_e101);
  (35, 20, Some QS_e4);
  (36, 12, Some QS_e19);
  (36, 21, Some QS_e29);
  (38, 13, Some (cN 1));
  (40, 17, Some QS_e102);
  (41, 18, Some QS_e103);
  (42, 19, Some (cN (-1)));
  (43, 23, Some QS_e4);
  (44, 25, Some QS_e24);
  (46, 29, Some QS_e94);
  (46, 33, Some QS_e104);
  (47, 31, Some QS_e24);
  (48, 37, Some QS_e4);
  (50, 25, Some QS_e28);
  (51, 26, Some (cN 1));
  (52, 39, Some QS_e26);
  (53, 29, Some QS_e96);
  (53, 33, Some QS_e105);
  (53, 40, Some QS_e106);
  (54, 30, Some (cD (cN 1) (cR (cN 2))));
  (54, 34, Some QS_e81);
  (54, 41, Some QS_e107);
  (56, 31, Some QS_e25);
  (57, 32, Some (cN (-1)));
  (58, 49, Some QS_e4);
  (59, 44, Some QS_e19);
  (59, 50, Some QS_e29);
  (61, 45, Some (cN 1));
  (62, 55, Some QS_e26);
  (63, 47, Some QS_e19);
  (63, 56, Some QS_e27);
  (64, 60, Some QS_e4)].
(** /repo/c++/symmetry/nrg-recalc-QS.hpp recalc_irreduc, qs/qs-3ch-spindownc.dat *)
Definition qs_3ch_t7 : irr_table := mk_irr 2 0 [ShLin 0%nat 1 1; ShLin 1%nat 1 (-1)]  [
  (3, 1, Some (cN 1));
  (8, 2, Some QS_e4);
  (9, 4, Some QS_e24);
  (10, 6, Some QS_e24);
  (15, 4, Some QS_e28);
  (16, 5, Some (cN 1));
  (18, 6, Some QS_e28);
  (19, 7, Some (cN 1));
  (23, 14, Some QS_e4);
  (24, 9, Some QS_e19);
  (24, 15, Some QS_e29);
  (25, 17, Some QS_e4);
  (26, 10, Some QS_e19);
  (26, 18, Some QS_e29);
  (28, 11, Some (cN 1));
  (30, 12, Some (cN 1));
  (32, 13, Some (cN 1));
  (33, 20, Some QS_e108);
  (34, 21, Some QS_e109);
  (40, 20, Some QS_e92);
  (41, 21, Some QS_e93);
  (42, 22, Some (cN 1));
  (43, 27, Some QS_e4);
  (44, 29, Some QS_e4);
  (45, 31, Some QS_e4);
  (46, 35, Some QS_e24);
  (47, 37, Some QS_e24);
  (49, 39, Some QS_e4);
  (50, 33, Some QS_e110);
  (50, 40, Some QS_e98);
  (51, 34, Some (cO (cR (cQ 2 3))));
  (51, 41, Some QS_e99);
  (53, 35, Some QS_e28);
  (54, 36, Some (cN 1));
  (56, 37, Some QS_e28);
  (57, 38, Some (cN 1));
  (58, 52, Some QS_e4);
  (59, 46, Some QS_e19);
  (59, 53, Some QS_e29);
  (60, 55, Some QS_e4);
  (61, 47, Some QS_e19);
  (61, 56, Some QS_e29);
  (63, 48, Some (cN 1));
  (64, 62, Some QS_e4)].
(** /repo/c++/symmetry/nrg-recalc-QS.hpp recalc_triplet, qs/qs-3ch-triplets.dat *)
Definition qs_3ch_t8 : ten_table := mk_ten "triplet" [ShLin 0%nat 1 0; ShLin 1%nat 1 0] [0; 3] [
  (1, 1, [ShLin 0%nat 1 3; ShLin 1%nat 1 0], [ShLin 0%nat 1 3; ShLin 1%nat 1 0], Some (cN 1));
  (2, 2, [ShLin 0%nat 1 2; ShLin 1%nat 1 (-1)], [ShLin 0%nat 1 2; ShLin 1%nat 1 (-1)], Some QS_e5);
  (2, 3, [ShLin 0%nat 1 2; ShLin 1%nat 1 (-1)], [ShLin 0%nat 1 2; ShLin 1%nat 1 1], Some QS_e6);
  (3, 2, [ShLin 0%nat 1 2; ShLin 1%nat 1 1], [ShLin 0%nat 1 2; ShLin 1%nat 1 (-1)], Some QS_e7);
  (3, 3, [ShLin 0%nat 1 2; ShLin 1%nat 1 1], [ShLin 0%nat 1 2; ShLin 1%nat 1 1], Some QS_e8);
  (4, 4, [ShLin 0%nat 1 2; ShLin 1%nat 1 (-1)], [ShLin 0%nat 1 2; ShLin 1%nat 1 (-1)], Some QS_e5);
  (4, 5, [ShLin 0%nat 1 2; ShLin 1%nat 1 (-1)], [ShLin 0%nat 1 2; ShLin 1%nat 1 1], Some QS_e6);
  (5, 4, [ShLin 0%nat 1 2; ShLin 1%nat 1 1], [ShLin 0%nat 1 2; ShLin 1%nat 1 (-1)], Some QS_e7);
  (5, 5, [ShLin 0%nat 1 2; ShLin 1%nat 1 1], [ShLin 0%nat 1 2; ShLin 1%nat 1 1], Some QS_e8);
  (6, 6, [ShLin 0%nat 1 2; ShLin 1%nat 1 (-1)], [ShLin 0%nat 1 2; ShLin 1%nat 1 (-1)], Some QS_e5);
  (6, 7, [ShLin 0%nat 1 2; ShLin 1%nat 1 (-1)], [ShLin 0%nat 1 2; ShLin 1%nat 1 1], Some QS_e6);
  (7, 6, [ShLin 0%nat 1 2; ShLin 1%nat 1 1], [ShLin 0%nat 1 2; ShLin 1%nat 1 (-1)], Some QS_e7);
  (7, 7, [ShLin 0%nat 1 2; ShLin 1%nat 1 1], [ShLin 0%nat 1 2; ShLin 1%nat 1 1], Some QS_e8);
  (8, 8, [ShLin 0%nat 1 1; ShLin 1%nat 1 0], [ShLin 0%nat 1 1; ShLin 1%nat 1 0], Some (cN 1));
  (9, 9, [ShLin 0%nat 1 1; ShLin 1%nat 1 0], [ShLin 0%nat 1 1; ShLin 1%nat 1 0], Some (cN 1));
  (10, 10, [ShLin 0%nat 1 1; ShLin 1%nat 1 0], [ShLin 0%nat 1 1; ShLin 1%nat 1 0], Some (cN 1));
  (11, 11, [ShLin 0%nat 1 1; ShLin 1%nat 1 0], [ShLin 0%nat 1 1; ShLin 1%nat 1 0], Some (cN 1));
  (12, 12, [ShLin 0%nat 1 1; ShLin 1%nat 1 0], [ShLin 0%nat 1 1; ShLin 1%nat 1 0], Some (cN 1));
  (13, 13, [ShLin 0%nat 1 1; ShLin 1%nat 1 0], [ShLin 0%nat 1 1; ShLin 1%nat 1 0], Some (cN 1));
  (14, 14, [ShLin 0%nat 1 1; ShLin 1%nat 1 (-2)], [ShLin 0%nat 1 1; ShLin 1%nat 1 (-2)], Some QS_e30);
  (14, 15, [ShLin 0%nat 1 1; ShLin 1%nat 1 (-2)], [ShLin 0%nat 1 1; ShLin 1%nat 1 0], Some QS_e31);
  (15, 14, [ShLin 0%nat 1 1; ShLin 1%nat 1 0], [ShLin 0%nat 1 1; ShLin 1%nat 1 (-2)], Some (cO (cD (cN 1) (cH 1))));
  (15, 15, [ShLin 0%nat 1 1; ShLin 1%nat 1 0], [ShLin 0%nat 1 1; ShLin 1%nat 1 0], Some QS_e32);
  (15, 16, [ShLin 0%nat 1 1; ShLin 1%nat 1 0], [ShLin 0%nat 1 1; ShLin 1%nat 1 2], Some QS_e33);
  (16, 15, [ShLin 0%nat 1 1; ShLin 1%nat 1 2], [ShLin 0%nat 1 1; ShLin 1%nat 1 0], Some QS_e34);
  (16, 16, [ShLin 0%nat 1 1; ShLin 1%nat 1 2], [ShLin 0%nat 1 1; ShLin 1%nat 1 2], Some QS_e35);
  (17, 17, [ShLin 0%nat 1 1; ShLin 1%nat 1 (-2)], [ShLin 0%nat 1 1; ShLin 1%nat 1 (-2)], Some QS_e30);
  (17, 18, [ShLin 0%nat 1 1; ShLin 1%nat 1 (-2)], [ShLin 0%nat 1 1; ShLin 1%nat 1 0], Some QS_e31);
  (18, 17, [ShLin 0%nat 1 1; ShLin 1%nat 1 0], [ShLin 0%nat 1 1; ShLin 1%nat 1 (-2)], Some (cO (cD (cN 1) (cH 1))));
  (18, 18, [ShLin 0%nat 1 1; ShLin 1%nat 1 0], [ShLin 0%nat 1 1; ShLin 1%nat 1 0], Some QS_e32);
  (18, 19, [ShLin 0%nat 1 1; ShLin 1%nat 1 0], [ShLin 0%nat 1 1; ShLin 1%nat 1 2], Some QS_e33);
  (19, 18, [ShLin 0%nat 1 1; ShLin 1%nat 1 2], [ShLin 0%nat 1 1; ShLin 1%nat 1 0], Some QS_e34);
  (19, 19, [ShLin 0%nat 1 1; ShLin 1%nat 1 2], [ShLin 0%nat 1 1; ShLin 1%nat 1 2], Some QS_e35);
  (20, 20, [ShLin 0%nat 1 1; ShLin 1%nat 1 (-2)], [ShLin 0%nat 1 1; ShLin 1%nat 1 (-2)], Some QS_e30);
  (20, 21, [ShLin 0%nat 1 1; ShLin 1%nat 1 (-2)], [ShLin 0%nat 1 1; ShLin 1%nat 1 0], Some QS_e31);
  (21, 20, [ShLin 0%nat 1 1; ShLin 1%nat 1 0], [ShLin 0%nat 1 1; ShLin 1%nat 1 (-2)], Some (cO (cD (cN 1) (cH 1))));
  (21, 21, [ShLin 0%nat 1 1; ShLin 1%nat 1 0], [ShLin 0%nat 1 1; ShLin 1%nat 1 0], Some QS_e32);
  (21, 22, [ShLin 0%nat 1 1; ShLin 1%nat 1 0], [ShLin 0%nat 1 1; ShLin 1%nat 1 2], Some QS_e33);
  (22, 21, [ShLin 0%nat 1 1; ShLin 1%nat 1 2], [ShLin 0%nat 1 1; ShLin 1%nat 1 0], Some QS_e34);
  (22, 22, [ShLin 0%nat 1 1; ShLin 1%nat 1 2], [ShLin 0%nat 1 1; ShLin 1%nat 1 2], Some QS_e35);
  (23, 23, [ShLin 0%nat 1 0; ShLin 1%nat 1 (-1)], [ShLin 0%nat 1 0; ShLin 1%nat 1 (-1)], Some QS_e5);
  (23, 24, [ShLin 0%nat 1 0; ShLin 1%nat 1 (-1)], [ShLin 0%nat 1 0; ShLin 1%nat 1 1], Some QS_e6);
  (24, 23, [ShLin 0%nat 1 0; ShLin 1%nat 1 1], [ShLin 0%nat 1 0; ShLin 1%nat 1 (-1)], Some QS_e7);
  (24, 24, [ShLin 0%nat 1 0; ShLin 1%nat 1 1], [ShLin 0%nat 1 0; ShLin 1%nat 1 1], Some QS_e8);
  (25, 25, [ShLin 0%nat 1 0; ShLin 1%nat 1 (-1)], [ShLin 0%nat 1 0; ShLin 1%nat 1 (-1)], Some QS_e5);
  (25, 26, [ShLin 0%nat 1 0; ShLin 1%nat 1 (-1)], [ShLin 0%nat 1 0; ShLin 1%nat 1 1], Some QS_e6);
  (26, 25, [ShLin 0%nat 1 0; ShLin 1%nat 1 1], [ShLin 0%nat 1 0; ShLin 1%nat 1 (-1)], Some QS_e7);
  (26, 26, [ShLin 0%nat 1 0; ShLin 1%nat 1 1], [ShLin 0%nat 1 0; ShLin 1%nat 1 1], Some QS_e8);
  (27, 27, [ShLin 0%nat 1 0; ShLin 1%nat 1 (-1)], [ShLin 0%nat 1 0; ShLin 1%nat 1 (-1)], Some QS_e5);
  (27, 28, [ShLin 0%nat 1 0; ShLin 1%nat 1 (-1)], [ShLin 0%nat 1 0; ShLin 1%nat 1 1], Some QS_e6);
  (28, 27, [ShLin 0%nat 1 0; ShLin 1%nat 1 1], [ShLin 0%nat 1 0; ShLin 1%nat 1 (-1)], Some QS_e7);
  (28, 28, [ShLin 0%nat 1 0; ShLin 1%nat 1 1], [ShLin 0%nat 1 0; ShLin 1%nat 1 1], Some QS_e8);
  (29, 29, [ShLin 0%nat 1 0; ShLin 1%nat 1 (-1)], [ShLin 0%nat 1 0; ShLin 1%nat 1 (-1)], Some QS_e5);
  (29, 30, [ShLin 0%nat 1 0; ShLin 1%nat 1 (-1)], [ShLin 0%nat 1 0; ShLin 1%nat 1 1], Some QS_e6);
  (30, 29, [ShLin 0%nat 1 0; ShLin 1%nat 1 1], [ShLin 0%nat 1 0; ShLin 1%nat 1 (-1)], Some QS_e7);
  (30, 30, [ShLin 0%nat 1 0; ShLin 1%nat 1 1], [ShLin 0%nat 1 0; ShLin 1%nat 1 1], Some QS_e8);
  (31, 31, [ShLin 0%nat 1 0; ShLin 1%nat 1 (-1)], [ShLin 0%nat 1 0; ShLin 1%nat 1 (-1)], Some QS_e5);
  (31, 32, [ShLin 0%nat 1 0; ShLin 1%nat 1 (-1)], [ShLin 0%nat 1 0; ShLin 1%nat 1 1], Some QS_e6);
  (32, 31, [ShLin 0%nat 1 0; ShLin 1%nat 1 1], [ShLin 0%nat 1 0; ShLin 1%nat 1 (-1)], Some QS_e7);
  (32, 32, [ShLin 0%nat 1 0; ShLin 1%nat 1 1], [ShLin 0%nat 1 0; ShLin 1%nat 1 1], Some QS_e8);
  (33, 33, [ShLin 0%nat 1 0; ShLin 1%nat 1 (-1)], [ShLin 0%nat 1 0; ShLin 1%nat 1 (-1)], Some QS_e5);
  (33, 34, [ShLin 0%nat 1 0; ShLin 1%nat 1 (-1)], [ShLin 0%nat 1 0; ShLin 1%nat 1 1], Some QS_e6);
  (34, 33, [ShLin 0%nat 1 0; ShLin 1%nat 1 1], [ShLin 0%nat 1 0; ShLin 1%nat 1 (-1)], Some QS_e7);
  (34, 34, [ShLin 0%nat 1 0; ShLin 1%nat 1 1], [ShLin 0%nat 1 0; ShLin 1%nat 1 1], Some QS_e8);
  (35, 35, [ShLin 0%nat 1 0; ShLin 1%nat 1 (-1)], [ShLin 0%nat 1 0; ShLin 1%nat 1 (-1)], Some QS_e5);
  (35, 36, [ShLin 0%nat 1 0; ShLin 1%nat 1 (-1)], [ShLin 0%nat 1 0; ShLin 1%nat 1 1], Some QS_e6);
  (36, 35, [ShLin 0%nat 1 0; ShLin 1%nat 1 1], [ShLin 0%nat 1 0; ShLin 1%nat 1 (-1)], Some QS_e7);
  (36, 36, [ShLin 0%nat 1 0; ShLin 1%nat 1 1], [ShLin 0%nat 1 0; ShLin 1%nat 1 1], Some QS_e8);
  (37, 37, [ShLin 0%nat 1 0; ShLin 1%nat 1 (-1)], [ShLin 0%nat 1 0; ShLin 1%nat 1 (-1)], Some QS_e5);
  (37, 38, [ShLin 0%nat 1 0; ShLin 1%nat 1 (-1)], [ShLin 0%nat 1 0; ShLin 1%nat 1 1], Some QS_e6);
  (38, 37, [ShLin 0%nat 1 0; ShLin 1%nat 1 1], [ShLin 0%nat 1 0; ShLin 1%nat 1 (-1)], Some QS_e7);
  (38, 38, [ShLin 0%nat 1 0; ShLin 1%nat 1 1], [ShLin 0%nat 1 0; ShLin 1%nat 1 1], Some QS_e8);
  (39, 39, [ShLin 0%nat 1 0; ShLin 1%nat 1 (-3)], [ShLin 0%nat 1 0; ShLin 1%nat 1 (-3)], Some QS_e111);
  (39, 40, [ShLin 0%nat 1 0; ShLin 1%nat 1 (-3)], [ShLin 0%nat 1 0; ShLin 1%nat 1 (-1)], Some QS_e112);
  (40, 39, [ShLin 0%nat 1 0; ShLin 1%nat 1 (-1)], [ShLin 0%nat 1 0; ShLin 1%nat 1 (-3)], Some QS_e113);
  (40, 40, [ShLin 0%nat 1 0; ShLin 1%nat 1 (-1)], [ShLin 0%nat 1 0; ShLin 1%nat 1 (-1)], Some QS_e114);
  (40, 41, [ShLin 0%nat 1 0; ShLin 1%nat 1 (-1)], [ShLin 0%nat 1 0; ShLin 1%nat 1 1], Some QS_e115);
  (41, 40, [ShLin 0%nat 1 0; ShLin 1%nat 1 1], [ShLin 0%nat 1 0; ShLin 1%nat 1 (-1)], Some QS_e116);
  (41, 41, [ShLin 0%nat 1 0; ShLin 1%nat 1 1], [ShLin 0%nat 1 0; ShLin 1%nat 1 1], Some QS_e117);
  (41, 42, [ShLin 0%nat 1 0; ShLin 1%nat 1 1], [ShLin 0%nat 1 0; ShLin 1%nat 1 3], Some QS_e118);
  (42, 41, [ShLin 0%nat 1 0; ShLin 1%nat 1 3], [ShLin 0%nat 1 0; ShLin 1%nat 1 1], Some QS_e119);
  (42, 42, [ShLin 0%nat 1 0; ShLin 1%nat 1 3], [ShLin 0%nat 1 0; ShLin 1%nat 1 3], Some QS_e120);
  (43, 43, [ShLin 0%nat 1 (-1); ShLin 1%nat 1 0], [ShLin 0%nat 1 (-1); ShLin 1%nat 1 0], Some (cN 1));
  (44, 44, [ShLin 0%nat 1 (-1); ShLin 1%nat 1 0], [ShLin 0%nat 1 (-1); ShLin 1%nat 1 0], Some (cN 1));
  (45, 45, [ShLin 0%nat 1 (-1); ShLin 1%nat 1 0], [ShLin 0%nat 1 (-1); ShLin 1%nat 1 0], Some (cN 1));
  (46, 46, [ShLin 0%nat 1 (-1); ShLin 1%nat 1 0], [ShLin 0%nat 1 (-1); ShLin 1%nat 1 0], Some (cN 1));
  (47, 47, [ShLin 0%nat 1 (-1); ShLin 1%nat 1 0], [ShLin 0%nat 1 (-1); ShLin 1%nat 1 0], Some (cN 1));
  (48, 48, [ShLin 0%nat 1 (-1); ShLin 1%nat 1 0], [ShLin 0%nat 1 (-1); ShLin 1%nat 1 0], Some (cN 1));
  (49, 49, [ShLin 0%nat 1 (-1); ShLin 1%nat 1 (-2)], [ShLin 0%nat 1 (-1); ShLin 1%nat 1 (-2)], Some QS_e30);
  (49, 50, [ShLin 0%nat 1 (-1); ShLin 1%nat 1 (-2)], [ShLin 0%nat 1 (-1); ShLin 1%nat 1 0], Some QS_e31);
  (50, 49, [ShLin 0%nat 1 (-1); ShLin 1%nat 1 0], [ShLin 0%nat 1 (-1); ShLin 1%nat 1 (-2)], Some (cO (cD (cN 1) (cH 1))));
  (50, 50, [ShLin 0%nat 1 (-1); ShLin 1%nat 1 0], [ShLin 0%nat 1 (-1); ShLin 1%nat 1 0], Some QS_e32);
  (50, 51, [ShLin 0%nat 1 (-1); ShLin 1%nat 1 0], [ShLin 0%nat 1 (-1); ShLin 1%nat 1 2], Some QS_e33);
  (51, 50, [ShLin 0%nat 1 (-1); ShLin 1%nat 1 2], [ShLin 0%nat 1 (-1); ShLin 1%nat 1 0], Some QS_e34);
  (51, 51, [ShLin 0%nat 1 (-1); ShLin 1%nat 1 2], [ShLin 0%nat 1 (-1); ShLin 1%nat 1 2], Some QS_e35);
  (52, 52, [ShLin 0%nat 1 (-1); ShLin 1%nat 1 (-2)], [ShLin 0%nat 1 (-1); ShLin 1%nat 1 (-2)], Some QS_e30);
  (52, 53, [ShLin 0%nat 1 (-1); ShLin 1%nat 1 (-2)], [ShLin 0%nat 1 (-1); ShLin 1%nat 1 0], Some QS_e31);
  (53, 52, [ShLin 0%nat 1 (-1); ShLin 1%nat 1 0], [ShLin 0%nat 1 (-1); ShLin 1%nat 1 (-2)], Some (cO (cD (cN 1) (cH 1))));
  (53, 53, [ShLin 0%nat 1 (-1); ShLin 1%nat 1 0], [ShLin 0%nat 1 (-1); ShLin 1%nat 1 0], Some QS_e32);
  (53, 54, [ShLin 0%nat 1 (-1); ShLin 1%nat 1 0], [ShLin 0%nat 1 (-1); ShLin 1%nat 1 2], Some QS_e33);
  (54, 53, [ShLin 0%nat 1 (-1); ShLin 1%nat 1 2], [ShLin 0%nat 1 (-1); ShLin 1%nat 1 0], Some QS_e34);
  (54, 54, [ShLin 0%nat 1 (-1); ShLin 1%nat 1 2], [ShLin 0%nat 1 (-1); ShLin 1%nat 1 2], Some QS_e35);
  (55, 55, [ShLin 0%nat 1 (-1); ShLin 1%nat 1 (-2)], [ShLin 0%nat 1 (-1); ShLin 1%nat 1 (-2)], Some QS_e30);
  (55, 56, [ShLin 0%nat 1 (-1); ShLin 1%nat 1 (-2)], [ShLin 0%nat 1 (-1); ShLin 1%nat 1 0], Some QS_e31);
  (56, 55, [ShLin 0%nat 1 (-1); ShLin 1%nat 1 0], [ShLin 0%nat 1 (-1); ShLin 1%nat 1 (-2)], Some (cO (cD (cN 1) (cH 1))));
  (56, 56, [ShLin 0%nat 1 (-1); ShLin 1%nat 1 0], [ShLin 0%nat 1 (-1); ShLin 1%nat 1 0], Some QS_e32);
  (56, 57, [ShLin 0%nat 1 (-1); ShLin 1%nat 1 0], [ShLin 0%nat 1 (-1); ShLin 1%nat 1 2], Some QS_e33);
  (57, 56, [ShLin 0%nat 1 (-1); ShLin 1%nat 1 2], [ShLin 0%nat 1 (-1); ShLin 1%nat 1 0], Some QS_e34);
  (57, 57, [ShLin 0%nat 1 (-1); ShLin 1%nat 1 2], [ShLin 0%nat 1 (-1); ShLin 1%nat 1 2], Some QS_e35);
  (58, 58, [ShLin 0%nat 1 (-2); ShLin 1%nat 1 (-1)], [ShLin 0%nat 1 (-2); ShLin 1%nat 1 (-1)], Some QS_e5);
  (58, 59, [ShLin 0%nat 1 (-2); ShLin 1%nat 1 (-1)], [ShLin 0%nat 1 (-2); ShLin 1%nat 1 1], Some QS_e6);
  (59, 58, [ShLin 0%nat 1 (-2); ShLin 1%nat 1 1], [ShLin 0%nat 1 (-2); ShLin 1%nat 1 (-1)], Some QS_e7);
  (59, 59, [ShLin 0%nat 1 (-2); ShLin 1%nat 1 1], [ShLin 0%nat 1 (-2); ShLin 1%nat 1 1], Some QS_e8);
  (60, 60, [ShLin 0%nat 1 (-2); ShLin 1%nat 1 (-1)], [ShLin 0%nat 1 (-2); ShLin 1%nat 1 (-1)], Some QS_e5);
  (60, 61, [ShLin 0%nat 1 (-2); ShLin 1%nat 1 (-1)], [ShLin 0%nat 1 (-2); ShLin 1%nat 1 1], Some QS_e6);
  (61, 60, [ShLin 0%nat 1 (-2); ShLin 1%nat 1 1], [ShLin 0%nat 1 (-2); ShLin 1%nat 1 (-1)], Some QS_e7);
  (61, 61, [ShLin 0%nat 1 (-2); ShLin 1%nat 1 1], [ShLin 0%nat 1 (-2); ShLin 1%nat 1 1], Some QS_e8);
  (62, 62, [ShLin 0%nat 1 (-2); ShLin 1%nat 1 (-1)], [ShLin 0%nat 1 (-2); ShLin 1%nat 1 (-1)], Some QS_e5);
  (62, 63, [ShLin 0%nat 1 (-2); ShLin 1%nat 1 (-1)], [ShLin 0%nat 1 (-2); ShLin 1%nat 1 1], Some QS_e6);
  (63, 62, [ShLin 0%nat 1 (-2); ShLin 1%nat 1 1], [ShLin 0%nat 1 (-2); ShLin 1%nat 1 (-1)], Some QS_e7);
  (63, 63, [ShLin 0%nat 1 (-2); ShLin 1%nat 1 1], [ShLin 0%nat 1 (-2); ShLin 1%nat 1 1], Some QS_e8);
  (64, 64, [ShLin 0%nat 1 (-3); ShLin 1%nat 1 0], [ShLin 0%nat 1 (-3); ShLin 1%nat 1 0], Some (cN 1))].
(** /repo/c++/symmetry/nrg-recalc-QS.hpp recalc_triplet, qs/qs-3ch-tripletp.dat *)
Definition qs_3ch_t9 : ten_table := mk_ten "triplet" [ShLin 0%nat 1 0; ShLin 1%nat 1 2] [0; 3] [
  (1, 1, [ShLin 0%nat 1 3; ShLin 1%nat 1 0], [ShLin 0%nat 1 3; ShLin 1%nat 1 2], Some (cN 1));
  (2, 2, [ShLin 0%nat 1 2; ShLin 1%nat 1 (-1)], [ShLin 0%nat 1 2; ShLin 1%nat 1 1], Some QS_e9);
  (3, 2, [ShLin 0%nat 1 2; ShLin 1%nat 1 1], [ShLin 0%nat 1 2; ShLin 1%nat 1 1], Some QS_e10);
  (3, 3, [ShLin 0%nat 1 2; ShLin 1%nat 1 1], [ShLin 0%nat 1 2; ShLin 1%nat 1 3], Some (cN 1));
  (4, 4, [ShLin 0%nat 1 2; ShLin 1%nat 1 (-1)], [ShLin 0%nat 1 2; ShLin 1%nat 1 1], Some QS_e9);
  (5, 4, [ShLin 0%nat 1 2; ShLin 1%nat 1 1], [ShLin 0%nat 1 2; ShLin 1%nat 1 1], Some QS_e10);
  (5, 5, [ShLin 0%nat 1 2; ShLin 1%nat 1 1], [ShLin 0%nat 1 2; ShLin 1%nat 1 3], Some (cN 1));
  (6, 6, [ShLin 0%nat 1 2; ShLin 1%nat 1 (-1)], [ShLin 0%nat 1 2; ShLin 1%nat 1 1], Some QS_e9);
  (7, 6, [ShLin 0%nat 1 2; ShLin 1%nat 1 1], [ShLin 0%nat 1 2; ShLin 1%nat 1 1], Some QS_e10);
  (7, 7, [ShLin 0%nat 1 2; ShLin 1%nat 1 1], [ShLin 0%nat 1 2; ShLin 1%nat 1 3], Some (cN 1));
  (8, 8, [ShLin 0%nat 1 1; ShLin 1%nat 1 0], [ShLin 0%nat 1 1; ShLin 1%nat 1 2], Some (cN 1));
  (9, 9, [ShLin 0%nat 1 1; ShLin 1%nat 1 0], [ShLin 0%nat 1 1; ShLin 1%nat 1 2], Some (cN 1));
  (10, 10, [ShLin 0%nat 1 1; ShLin 1%nat 1 0], [ShLin 0%nat 1 1; ShLin 1%nat 1 2], Some (cN 1));
  (11, 11, [ShLin 0%nat 1 1; ShLin 1%nat 1 0], [ShLin 0%nat 1 1; ShLin 1%nat 1 2], Some (cN 1));
  (12, 12, [ShLin 0%nat 1 1; ShLin 1%nat 1 0], [ShLin 0%nat 1 1; ShLin 1%nat 1 2], Some (cN 1));
  (13, 13, [ShLin 0%nat 1 1; ShLin 1%nat 1 0], [ShLin 0%nat 1 1; ShLin 1%nat 1 2], Some (cN 1));
  (14, 14, [ShLin 0%nat 1 1; ShLin 1%nat 1 (-2)], [ShLin 0%nat 1 1; ShLin 1%nat 1 0], Some QS_e36);
  (15, 14, [ShLin 0%nat 1 1; ShLin 1%nat 1 0], [ShLin 0%nat 1 1; ShLin 1%nat 1 0], Some QS_e37);
  (15, 15, [ShLin 0%nat 1 1; ShLin 1%nat 1 0], [ShLin 0%nat 1 1; ShLin 1%nat 1 2], Some QS_e35);
  (16, 14, [ShLin 0%nat 1 1; ShLin 1%nat 1 2], [ShLin 0%nat 1 1; ShLin 1%nat 1 0], Some QS_e38);
  (16, 15, [ShLin 0%nat 1 1; ShLin 1%nat 1 2], [ShLin 0%nat 1 1; ShLin 1%nat 1 2], Some QS_e39);
  (16, 16, [ShLin 0%nat 1 1; ShLin 1%nat 1 2], [ShLin 0%nat 1 1; ShLin 1%nat 1 4], Some (cN 1));
  (17, 17, [ShLin 0%nat 1 1; ShLin 1%nat 1 (-2)], [ShLin 0%nat 1 1; ShLin 1%nat 1 0], Some QS_e36);
  (18, 17, [ShLin 0%nat 1 1; ShLin 1%nat 1 0], [ShLin 0%nat 1 1; ShLin 1%nat 1 0], Some QS_e37);
  (18, 18, [ShLin 0%nat 1 1; ShLin 1%nat 1 0], [ShLin 0%nat 1 1; ShLin 1%nat 1 2], Some QS_e35);
  (19, 17, [ShLin 0%nat 1 1; ShLin 1%nat 1 2], [ShLin 0%nat 1 1; ShLin 1%nat 1 0], Some QS_e38);
  (19, 18, [ShLin 0%nat 1 1; ShLin 1%nat 1 2], [ShLin 0%nat 1 1; ShLin 1%nat 1 2], Some QS_e39);
  (19, 19, [ShLin 0%nat 1 1; ShLin 1%nat 1 2], [ShLin 0%nat 1 1; ShLin 1%nat 1 4], Some (cN 1));
  (20, 20, [ShLin 0%nat 1 1; ShLin 1%nat 1 (-2)], [ShLin 0%nat 1 1; ShLin 1%nat 1 0], Some QS_e36);
  (21, 20, [ShLin 0%nat 1 1; ShLin 1%nat 1 0], [ShLin 0%nat 1 1; ShLin 1%nat 1 0], Some QS_e37);
  (21, 21, [ShLin 0%nat 1 1; ShLin 1%nat 1 0], [ShLin 0%nat 1 1; ShLin 1%nat 1 2], Some QS_e35);
  (22, 20, [ShLin 0%nat 1 1; ShLin 1%nat 1 2], [ShLin 0%nat 1 1; ShLin 1%nat 1 0], Some QS_e38);
  (22, 21, [ShLin 0%nat 1 1; ShLin 1%nat 1 2], [ShLin 0%nat 1 1; ShLin 1%nat 1 2], Some QS_e39);
  (22, 22, [ShLin 0%nat 1 1; ShLin 1%nat 1 2], [ShLin 0%nat 1 1; ShLin 1%nat 1 4], Some (cN 1));
  (23, 23, [ShLin 0%nat 1 0; ShLin 1%nat 1 (-1)], [ShLin 0%nat 1 0; ShLin 1%nat 1 1], Some QS_e9);
  (24, 23, [ShLin 0%nat 1 0; ShLin 1%nat 1 1], [ShLin 0%nat 1 0; ShLin 1%nat 1 1], Some QS_e10);
  (24, 24, [ShLin 0%nat 1 0; ShLin 1%nat 1 1], [ShLin 0%nat 1 0; ShLin 1%nat 1 3], Some (cN 1));
  (25, 25, [ShLin 0%nat 1 0; ShLin 1%nat 1 (-1)], [ShLin 0%nat 1 0; ShLin 1%nat 1 1], Some QS_e9);
  (26, 25, [ShLin 0%nat 1 0; ShLin 1%nat 1 1], [ShLin 0%nat 1 0; ShLin 1%nat 1 1], Some QS_e10);
  (26, 26, [ShLin 0%nat 1 0; ShLin 1%nat 1 1], [ShLin 0%nat 1 0; ShLin 1%nat 1 3], Some (cN 1));
  (27, 27, [ShLin 0%nat 1 0; ShLin 1%nat 1 (-1)], [ShLin 0%nat 1 0; ShLin 1%nat 1 1], Some QS_e9);
  (28, 27, [ShLin 0%nat 1 0; ShLin 1%nat 1 1], [ShLin 0%nat 1 0; ShLin 1%nat 1 1], Some QS_e10);
  (28, 28, [ShLin 0%nat 1 0; ShLin 1%nat 1 1], [ShLin 0%nat 1 0; ShLin 1%nat 1 3], Some (cN 1));
  (29, 29, [ShLin 0%nat 1 0; ShLin 1%nat 1 (-1)], [ShLin 0%nat 1 0; ShLin 1%nat 1 1], Some QS_e9);
  (30, 29, [ShLin 0%nat 1 0; ShLin 1%nat 1 1], [ShLin 0%nat 1 0; ShLin 1%nat 1 1], Some QS_e10);
  (30, 30, [ShLin 0%nat 1 0; ShLin 1%nat 1 1], [ShLin 0%nat 1 0; ShLin 1%nat 1 3], Some (cN 1));
  (31, 31, [ShLin 0%nat 1 0; ShLin 1%nat 1 (-1)], [ShLin 0%nat 1 0; ShLin 1%nat 1 1], Some QS_e9);
  (32, 31, [ShLin 0%nat 1 0; ShLin 1%nat 1 1], [ShLin 0%nat 1 0; ShLin 1%nat 1 1], Some QS_e10);
  (32, 32, [ShLin 0%nat 1 0; ShLin 1%nat 1 1], [ShLin 0%nat 1 0; ShLin 1%nat 1 3], Some (cN 1));
  (33, 33, [ShLin 0%nat 1 0; ShLin 1%nat 1 (-1)], [ShLin 0%nat 1 0; ShLin 1%nat 1 1], Some QS_e9);
  (34, 33, [ShLin 0%nat 1 0; ShLin 1%nat 1 1], [ShLin 0%nat 1 0; ShLin 1%nat 1 1], Some QS_e10);
  (34, 34, [ShLin 0%nat 1 0; ShLin 1%nat 1 1], [ShLin 0%nat 1 0; ShLin 1%nat 1 3], Some (cN 1));
  (35, 35, [ShLin 0%nat 1 0; ShLin 1%nat 1 (-1)], [ShLin 0%nat 1 0; ShLin 1%nat 1 1], Some QS_e9);
  (36, 35, [ShLin 0%nat 1 0; ShLin 1%nat 1 1], [ShLin 0%nat 1 0; ShLin 1%nat 1 1], Some QS_e10);
  (36, 36, [ShLin 0%nat 1 0; ShLin 1%nat 1 1], [ShLin 0%nat 1 0; ShLin 1%nat 1 3], Some (cN 1));
  (37, 37, [ShLin 0%nat 1 0; ShLin 1%nat 1 (-1)], [ShLin 0%nat 1 0; ShLin 1%nat 1 1], Some QS_e9);
  (38, 37, [ShLin 0%nat 1 0; ShLin 1%nat 1 1], [ShLin 0%nat 1 0; ShLin 1%nat 1 1], Some QS_e10);
  (38, 38, [ShLin 0%nat 1 0; ShLin 1%nat 1 1], [ShLin 0%nat 1 0; ShLin 1%nat 1 3], Some (cN 1));
  (39, 39, [ShLin 0%nat 1 0; ShLin 1%nat 1 (-3)], [ShLin 0%nat 1 0; ShLin 1%nat 1 (-1)], Some QS_e121);
  (40, 39, [ShLin 0%nat 1 0; ShLin 1%nat 1 (-1)], [ShLin 0%nat 1 0; ShLin 1%nat 1 (-1)], Some QS_e122);
  (40, 40, [ShLin 0%nat 1 0; ShLin 1%nat 1 (-1)], [ShLin 0%nat 1 0; ShLin 1%nat 1 1], Some QS_e123);
  (41, 39, [ShLin 0%nat 1 0; ShLin 1%nat 1 1], [ShLin 0%nat 1 0; ShLin 1%nat 1 (-1)], Some QS_e124);
  (41, 40, [ShLin 0%nat 1 0; ShLin 1%nat 1 1], [ShLin 0%nat 1 0; ShLin 1%nat 1 1], Some QS_e125);
  (41, 41, [ShLin 0%nat 1 0; ShLin 1%nat 1 1], [ShLin 0%nat 1 0; ShLin 1%nat 1 3], Some QS_e126);
  (42, 40, [ShLin 0%nat 1 0; ShLin 1%nat 1 3], [ShLin 0%nat 1 0; ShLin 1%nat 1 1], Some QS_e127);
  (42, 41, [ShLin 0%nat 1 0; ShLin 1%nat 1 3], [ShLin 0%nat 1 0; ShLin 1%nat 1 3], Some QS_e128);
  (42, 42, [ShLin 0%nat 1 0; ShLin 1%nat 1 3], [ShLin 0%nat 1 0; ShLin 1%nat 1 5], Some (cN 1));
  (43, 43, [ShLin 0%nat 1 (-1); ShLin 1%nat 1 0], [ShLin 0%nat 1 (-1); ShLin 1%nat 1 2], Some (cN 1));
  (44, 44, [ShLin 0%nat 1 (-1); ShLin 1%nat 1 0], [ShLin 0%nat 1 (-1); ShLin 1%nat 1 2], Some (cN 1));
  (45, 45, [ShLin 0%nat 1 (-1); ShLin 1%nat 1 0], [ShLin 0%nat 1 (-1); ShLin 1%nat 1 2], Some (cN 1));
  (46, 46, [ShLin 0%nat 1 (-1); ShLin 1%nat 1 0], [ShLin 0%nat 1 (-1); ShLin 1%nat 1 2], Some (cN 1));
  (47, 47, [ShLin 0%nat 1 (-1); ShLin 1%nat 1 0], [ShLin 0%nat 1 (-1); ShLin 1%nat 1 2], Some (cN 1));
  (48, 48, [ShLin 0%nat 1 (-1); ShLin 1%nat 1 0], [ShLin 0%nat 1 (-1); ShLin 1%nat 1 2], Some (cN 1));
  (49, 49, [ShLin 0%nat 1 (-1); ShLin 1%nat 1 (-2)], [ShLin 0%nat 1 (-1); ShLin 1%nat 1 0], Some QS_e36);
  (50, 49, [ShLin 0%nat 1 (-1); ShLin 1%nat 1 0], [ShLin 0%nat 1 (-1); ShLin 1%nat 1 0], Some QS_e37);
  (50, 50, [ShLin 0%nat 1 (-1); ShLin 1%nat 1 0], [ShLin 0%nat 1 (-1); ShLin 1%nat 1 2], Some QS_e35);
  (51, 49, [ShLin 0%nat 1 (-1); ShLin 1%nat 1 2], [ShLin 0%nat 1 (-1); ShLin 1%nat 1 0], Some QS_e38);
  (51, 50, [ShLin 0%nat 1 (-1); ShLin 1%nat 1 2], [ShLin 0%nat 1 (-1); ShLin 1%nat 1 2], Some QS_e39);
  (51, 51, [ShLin 0%nat 1 (-1); ShLin 1%nat 1 2], [ShLin 0%nat 1 (-1); ShLin 1%nat 1 4], Some (cN 1));
  (52, 52, [ShLin 0%nat 1 (-1); ShLin 1%nat 1 (-2)], [ShLin 0%nat 1 (-1); ShLin 1%nat 1 0], Some QS_e36);
  (53, 52, [ShLin 0%nat 1 (-1); ShLin 1%nat 1 0], [ShLin 0%nat 1 (-1); ShLin 1%nat 1 0], Some QS_e37);
  (53, 53, [ShLin 0%nat 1 (-1); ShLin 1%nat 1 0], [ShLin 0%nat 1 (-1); ShLin 1%nat 1 2], Some QS_e35);
  (54, 52, [ShLin 0%nat 1 (-1); ShLin 1%nat 1 2], [ShLin 0%nat 1 (-1); ShLin 1%nat 1 0], Some QS_e38);
  (54, 53, [ShLin 0%nat 1 (-1); ShLin 1%nat 1 2], [ShLin 0%nat 1 (-1); ShLin 1%nat 1 2], Some QS_e39);
  (54, 54, [ShLin 0%nat 1 (-1); ShLin 1%nat 1 2], [ShLin 0%nat 1 (-1); ShLin 1%nat 1 4], Some (cN 1));
  (55, 55, [ShLin 0%nat 1 (-1); ShLin 1%nat 1 (-2)], [ShLin 0%nat 1 (-1); ShLin 1%nat 1 0], Some QS_e36);
  (56, 55, [ShLin 0%nat 1 (-1); ShLin 1%nat 1 0], [ShLin 0%nat 1 (-1); ShLin 1%nat 1 0], Some QS_e37);
  (56, 56, [ShLin 0%nat 1 (-1); ShLin 1%nat 1 0], [ShLin 0%nat 1 (-1); ShLin 1%nat 1 2], Some QS_e35);
  (57, 55, [ShLin 0%nat 1 (-1); ShLin 1%nat 1 2], [ShLin 0%nat 1 (-1); ShLin 1%nat 1 0], Some QS_e38);
  (57, 56, [ShLin 0%nat 1 (-1); ShLin 1%nat 1 2], [ShLin 0%nat 1 (-1); ShLin 1%nat 1 2], Some QS_e39);
  (57, 57, [ShLin 0%nat 1 (-1); ShLin 1%nat 1 2], [ShLin 0%nat 1 (-1); ShLin 1%nat 1 4], Some (cN 1));
  (58, 58, [ShLin 0%nat 1 (-2); ShLin 1%nat 1 (-1)], [ShLin 0%nat 1 (-2); ShLin 1%nat 1 1], Some QS_e9);
  (59, 58, [ShLin 0%nat 1 (-2); ShLin 1%nat 1 1], [ShLin 0%nat 1 (-2); ShLin 1%nat 1 1], Some QS_e10);
  (59, 59, [ShLin 0%nat 1 (-2); ShLin 1%nat 1 1], [ShLin 0%nat 1 (-2); ShLin 1%nat 1 3], Some (cN 1));
  (60, 60, [ShLin 0%nat 1 (-2); ShLin 1%nat 1 (-1)], [ShLin 0%nat 1 (-2); ShLin 1%nat 1 1], Some QS_e9);
  (61, 60, [ShLin 0%nat 1 (-2); ShLin 1%nat 1 1], [ShLin 0%nat 1 (-2); ShLin 1%nat 1 1], Some QS_e10);
  (61, 61, [ShLin 0%nat 1 (-2); ShLin 1%nat 1 1], [ShLin 0%nat 1 (-2); ShLin 1%nat 1 3], Some (cN 1));
  (62, 62, [ShLin 0%nat 1 (-2); ShLin 1%nat 1 (-1)], [ShLin 0%nat 1 (-2); ShLin 1%nat 1 1], Some QS_e9);
  (63, 62, [ShLin 0%nat 1 (-2); ShLin 1%nat 1 1], [ShLin 0%nat 1 (-2); ShLin 1%nat 1 1], Some QS_e10);
  (63, 63, [ShLin 0%nat 1 (-2); ShLin 1%nat 1 1], [ShLin 0%nat 1 (-2); ShLin 1%nat 1 3], Some (cN 1));
  (64, 64, [ShLin 0%nat 1 (-3); ShLin 1%nat 1 0], [ShLin 0%nat 1 (-3); ShLin 1%nat 1 2], Some (cN 1))].
(** /repo/c++/symmetry/nrg-recalc-QS.hpp recalc_triplet, qs/qs-3ch-tripletm.dat *)
Definition qs_3ch_t10 : ten_table := mk_ten "triplet" [ShLin 0%nat 1 0; ShLin 1%nat 1 (-2)] [0; 3] [
  (1, 1, [ShLin 0%nat 1 3; ShLin 1%nat 1 0], [ShLin 0%nat 1 3; ShLin 1%nat 1 (-2)], Some (cN 1));
  (2, 2, [ShLin 0%nat 1 2; ShLin 1%nat 1 (-1)], [ShLin 0%nat 1 2; ShLin 1%nat 1 (-3)], Some (cN 1));
  (2, 3, [ShLin 0%nat 1 2; ShLin 1%nat 1 (-1)], [ShLin 0%nat 1 2; ShLin 1%nat 1 (-1)], Some QS_e11);
  (3, 3, [ShLin 0%nat 1 2; ShLin 1%nat 1 1], [ShLin 0%nat 1 2; ShLin 1%nat 1 (-1)], Some QS_e5);
  (4, 4, [ShLin 0%nat 1 2; ShLin 1%nat 1 (-1)], [ShLin 0%nat 1 2; ShLin 1%nat 1 (-3)], Some (cN 1));
  (4, 5, [ShLin 0%nat 1 2; ShLin 1%nat 1 (-1)], [ShLin 0%nat 1 2; ShLin 1%nat 1 (-1)], Some QS_e11);
  (5, 5, [ShLin 0%nat 1 2; ShLin 1%nat 1 1], [ShLin 0%nat 1 2; ShLin 1%nat 1 (-1)], Some QS_e5);
  (6, 6, [ShLin 0%nat 1 2; ShLin 1%nat 1 (-1)], [ShLin 0%nat 1 2; ShLin 1%nat 1 (-3)], Some (cN 1));
  (6, 7, [ShLin 0%nat 1 2; ShLin 1%nat 1 (-1)], [ShLin 0%nat 1 2; ShLin 1%nat 1 (-1)], Some QS_e11);
  (7, 7, [ShLin 0%nat 1 2; ShLin 1%nat 1 1], [ShLin 0%nat 1 2; ShLin 1%nat 1 (-1)], Some QS_e5);
  (8, 8, [ShLin 0%nat 1 1; ShLin 1%nat 1 0], [ShLin 0%nat 1 1; ShLin 1%nat 1 (-2)], Some (cN 1));
  (9, 9, [ShLin 0%nat 1 1; ShLin 1%nat 1 0], [ShLin 0%nat 1 1; ShLin 1%nat 1 (-2)], Some (cN 1));
  (10, 10, [ShLin 0%nat 1 1; ShLin 1%nat 1 0], [ShLin 0%nat 1 1; ShLin 1%nat 1 (-2)], Some (cN 1));
  (11, 11, [ShLin 0%nat 1 1; ShLin 1%nat 1 0], [ShLin 0%nat 1 1; ShLin 1%nat 1 (-2)], Some (cN 1));
  (12, 12, [ShLin 0%nat 1 1; ShLin 1%nat 1 0], [ShLin 0%nat 1 1; ShLin 1%nat 1 (-2)], Some (cN 1));
  (13, 13, [ShLin 0%nat 1 1; ShLin 1%nat 1 0], [ShLin 0%nat 1 1; ShLin 1%nat 1 (-2)], Some (cN 1));
  (14, 14, [ShLin 0%nat 1 1; ShLin 1%nat 1 (-2)], [ShLin 0%nat 1 1; ShLin 1%nat 1 (-4)], Some (cN 1));
  (14, 15, [ShLin 0%nat 1 1; ShLin 1%nat 1 (-2)], [ShLin 0%nat 1 1; ShLin 1%nat 1 (-2)], Some (cD (cN 1) (cH 1)));
  (14, 16, [ShLin 0%nat 1 1; ShLin 1%nat 1 (-2)], [ShLin 0%nat 1 1; ShLin 1%nat 1 0], Some QS_e40);
  (15, 15, [ShLin 0%nat 1 1; ShLin 1%nat 1 0], [ShLin 0%nat 1 1; ShLin 1%nat 1 (-2)], Some QS_e30);
  (15, 16, [ShLin 0%nat 1 1; ShLin 1%nat 1 0], [ShLin 0%nat 1 1; ShLin 1%nat 1 0], Some QS_e31);
  (16, 16, [ShLin 0%nat 1 1; ShLin 1%nat 1 2], [ShLin 0%nat 1 1; ShLin 1%nat 1 0], Some QS_e41);
  (17, 17, [ShLin 0%nat 1 1; ShLin 1%nat 1 (-2)], [ShLin 0%nat 1 1; ShLin 1%nat 1 (-4)], Some (cN 1));
  (17, 18, [ShLin 0%nat 1 1; ShLin 1%nat 1 (-2)], [ShLin 0%nat 1 1; ShLin 1%nat 1 (-2)], Some (cD (cN 1) (cH 1)));
  (17, 19, [ShLin 0%nat 1 1; ShLin 1%nat 1 (-2)], [ShLin 0%nat 1 1; ShLin 1%nat 1 0], Some QS_e40);
  (18, 18, [ShLin 0%nat 1 1; ShLin 1%nat 1 0], [ShLin 0%nat 1 1; ShLin 1%nat 1 (-2)], Some QS_e30);
  (18, 19, [ShLin 0%nat 1 1; ShLin 1%nat 1 0], [ShLin 0%nat 1 1; ShLin 1%nat 1 0], Some QS_e31);
  (19, 19, [ShLin 0%nat 1 1; ShLin 1%nat 1 2], [ShLin 0%nat 1 1; ShLin 1%nat 1 0], Some QS_e41);
  (20, 20, [ShLin 0%nat 1 1; ShLin 1%nat 1 (-2)], [ShLin 0%nat 1 1; ShLin 1%nat 1 (-4)], Some (cN 1));
  (20, 21, [ShLin 0%nat 1 1; ShLin 1%nat 1 (-2)], [ShLin 0%nat 1 1; ShLin 1%nat 1 (-2)], Some (cD (cN 1) (cH 1)));
  (20, 22, [ShLin 0%nat 1 1; ShLin 1%nat 1 (-2)], [ShLin 0%nat 1 1; ShLin 1%nat 1 0], Some QS_e40);
  (21, 21, [ShLin 0%nat 1 1; ShLin 1%nat 1 0], [ShLin 0%nat 1 1; ShLin 1%nat 1 (-2)], Some QS_e30);
  (21, 22, [ShLin 0%nat 1 1; ShLin 1%nat 1 0], [ShLin 0%nat 1 1; ShLin 1%nat 1 0], Some QS_e31);
  (22, 22, [ShLin 0%nat 1 1; ShLin 1%nat 1 2], [ShLin 0%nat 1 1; ShLin 1%nat 1 0], Some QS_e41);
  (23, 23, [ShLin 0%nat 1 0; ShLin 1%nat 1 (-1)], [ShLin 0%nat 1 0; ShLin 1%nat 1 (-3)], Some (cN 1));
  (23, 24, [ShLin 0%nat 1 0; ShLin 1%nat 1 (-1)], [ShLin 0%nat 1 0; ShLin 1%nat 1 (-1)], Some QS_e11);
  (24, 24, [ShLin 0%nat 1 0; ShLin 1%nat 1 1], [ShLin 0%nat 1 0; ShLin 1%nat 1 (-1)], Some QS_e5);
  (25, 25, [ShLin 0%nat 1 0; ShLin 1%nat 1 (-1)], [ShLin 0%nat 1 0; ShLin 1%nat 1 (-3)], Some (cN 1));
  (25, 26, [ShLin 0%nat 1 0; ShLin 1%nat 1 (-1)], [ShLin 0%nat 1 0; ShLin 1%nat 1 (-1)], Some QS_e11);
  (26, 26, [ShLin 0%nat 1 0; ShLin 1%nat 1 1], [ShLin 0%nat 1 0; ShLin 1%nat 1 (-1)], Some QS_e5);
  (27, 27, [ShLin 0%nat 1 0; ShLin 1%nat 1 (-1)], [ShLin 0%nat 1 0; ShLin 1%nat 1 (-3)], Some (cN 1));
  (27, 28, [ShLin 0%nat 1 0; ShLin 1%nat 1 (-1)], [ShLin 0%nat 1 0; ShLin 1%nat 1 (-1)], Some QS_e11);
  (28, 28, [ShLin 0%nat 1 0; ShLin 1%nat 1 1], [ShLin 0%nat 1 0; ShLin 1%nat 1 (-1)], Some QS_e5);
  (29, 29, [ShLin 0%nat 1 0; ShLin 1%nat 1 (-1)], [ShLin 0%nat 1 0; ShLin 1%nat 1 (-3)], Some (cN 1));
  (29, 30, [ShLin 0%nat 1 0; ShLin 1%nat 1 (-1)], [ShLin 0%nat 1 0; ShLin 1%nat 1 (-1)], Some QS_e11);
  (30, 30, [ShLin 0%nat 1 0; ShLin 1%nat 1 1], [ShLin 0%nat 1 0; ShLin 1%nat 1 (-1)], Some QS_e5);
  (31, 31, [ShLin 0%nat 1 0; ShLin 1%nat 1 (-1)], [ShLin 0%nat 1 0; ShLin 1%nat 1 (-3)], Some (cN 1));
  (31, 32, [ShLin 0%nat 1 0; ShLin 1%nat 1 (-1)], [ShLin 0%nat 1 0; ShLin 1%nat 1 (-1)], Some QS_e11);
  (32, 32, [ShLin 0%nat 1 0; ShLin 1%nat 1 1], [ShLin 0%nat 1 0; ShLin 1%nat 1 (-1)], Some QS_e5);
  (33, 33, [ShLin 0%nat 1 0; ShLin 1%nat 1 (-1)], [ShLin 0%nat 1 0; ShLin 1%nat 1 (-3)], Some (cN 1));
  (33, 34, [ShLin 0%nat 1 0; ShLin 1%nat 1 (-1)], [ShLin 0%nat 1 0; ShLin 1%nat 1 (-1)], Some QS_e11);
  (34, 34, [ShLin 0%nat 1 0; ShLin 1%nat 1 1], [ShLin 0%nat 1 0; ShLin 1%nat 1 (-1)], Some QS_e5);
  (35, 35, [ShLin 0%nat 1 0; ShLin 1%nat 1 (-1)], [ShLin 0%nat 1 0; ShLin 1%nat 1 (-3)], Some (cN 1));
  (35, 36, [ShLin 0%nat 1 0; ShLin 1%nat 1 (-1)], [ShLin 0%nat 1 0; ShLin 1%nat 1 (-1)], Some QS_e11);
  (36, 36, [ShLin 0%nat 1 0; ShLin 1%nat 1 1], [ShLin 0%nat 1 0; ShLin 1%nat 1 (-1)], Some QS_e5);
  (37, 37, [ShLin 0%nat 1 0; ShLin 1%nat 1 (-1)], [ShLin 0%nat 1 0; ShLin 1%nat 1 (-3)], Some (cN 1));
  (37, 38, [ShLin 0%nat 1 0; ShLin 1%nat 1 (-1)], [ShLin 0%nat 1 0; ShLin 1%nat 1 (-1)], Some QS_e11);
  (38, 38, [ShLin 0%nat 1 0; ShLin 1%nat 1 1], [ShLin 0%nat 1 0; ShLin 1%nat 1 (-1)], Some QS_e5);
  (39, 39, [ShLin 0%nat 1 0; ShLin 1%nat 1 (-3)], [ShLin 0%nat 1 0; ShLin 1%nat 1 (-5)], Some (cN 1));
  (39, 40, [ShLin 0%nat 1 0; ShLin 1%nat 1 (-3)], [ShLin 0%nat 1 0; ShLin 1%nat 1 (-3)], Some QS_e129);
  (39, 41, [ShLin 0%nat 1 0; ShLin 1%nat 1 (-3)], [ShLin 0%nat 1 0; ShLin 1%nat 1 (-1)], Some QS_e130);
  (40, 40, [ShLin 0%nat 1 0; ShLin 1%nat 1 (-1)], [ShLin 0%nat 1 0; ShLin 1%nat 1 (-3)], Some QS_e111);
  (40, 41, [ShLin 0%nat 1 0; ShLin 1%nat 1 (-1)], [ShLin 0%nat 1 0; ShLin 1%nat 1 (-1)], Some QS_e131);
  (40, 42, [ShLin 0%nat 1 0; ShLin 1%nat 1 (-1)], [ShLin 0%nat 1 0; ShLin 1%nat 1 1], Some QS_e124);
  (41, 41, [ShLin 0%nat 1 0; ShLin 1%nat 1 1], [ShLin 0%nat 1 0; ShLin 1%nat 1 (-1)], Some QS_e132);
  (41, 42, [ShLin 0%nat 1 0; ShLin 1%nat 1 1], [ShLin 0%nat 1 0; ShLin 1%nat 1 1], Some QS_e133);
  (42, 42, [ShLin 0%nat 1 0; ShLin 1%nat 1 3], [ShLin 0%nat 1 0; ShLin 1%nat 1 1], Some QS_e134);
  (43, 43, [ShLin 0%nat 1 (-1); ShLin 1%nat 1 0], [ShLin 0%nat 1 (-1); ShLin 1%nat 1 (-2)], Some (cN 1));
  (44, 44, [ShLin 0%nat 1 (-1); ShLin 1%nat 1 0], [ShLin 0%nat 1 (-1); ShLin 1%nat 1 (-2)], Some (cN 1));
  (45, 45, [ShLin 0%nat 1 (-1); ShLin 1%nat 1 0], [ShLin 0%nat 1 (-1); ShLin 1%nat 1 (-2)], Some (cN 1));
  (46, 46, [ShLin 0%nat 1 (-1); ShLin 1%nat 1 0], [ShLin 0%nat 1 (-1); ShLin 1%nat 1 (-2)], Some (cN 1));
  (47, 47, [ShLin 0%nat 1 (-1); ShLin 1%nat 1 0], [ShLin 0%nat 1 (-1); ShLin 1%nat 1 (-2)], Some (cN 1));
  (48, 48, [ShLin 0%nat 1 (-1); ShLin 1%nat 1 0], [ShLin 0%nat 1 (-1); ShLin 1%nat 1 (-2)], Some (cN 1));
  (49, 49, [ShLin 0%nat 1 (-1); ShLin 1%nat 1 (-2)], [ShLin 0%nat 1 (-1); ShLin 1%nat 1 (-4)], Some (cN 1));
  (49, 50, [ShLin 0%nat 1 (-1); ShLin 1%nat 1 (-2)], [ShLin 0%nat 1 (-1); ShLin 1%nat 1 (-2)], Some (cD (cN 1) (cH 1)));
  (49, 51, [ShLin 0%nat 1 (-1); ShLin 1%nat 1 (-2)], [ShLin 0%nat 1 (-1); ShLin 1%nat 1 0], Some QS_e40);
  (50, 50, [ShLin 0%nat 1 (-1); ShLin 1%nat 1 0], [ShLin 0%nat 1 (-1); ShLin 1%nat 1 (-2)], Some QS_e30);
  (50, 51, [ShLin 0%nat 1 (-1); ShLin 1%nat 1 0], [ShLin 0%nat 1 (-1); ShLin 1%nat 1 0], Some QS_e31);
  (51, 51, [ShLin 0%nat 1 (-1); ShLin 1%nat 1 2], [ShLin 0%nat 1 (-1); ShLin 1%nat 1 0], Some QS_e41);
  (52, 52, [ShLin 0%nat 1 (-1); ShLin 1%nat 1 (-2)], [ShLin 0%nat 1 (-1); ShLin 1%nat 1 (-4)], Some (cN 1));
  (52, 53, [ShLin 0%nat 1 (-1); ShLin 1%nat 1 (-2)], [ShLin 0%nat 1 (-1); ShLin 1%nat 1 (-2)], Some (cD (cN 1) (cH 1)));
  (52, 54, [ShLin 0%nat 1 (-1); ShLin 1%nat 1 (-2)], [ShLin 0%nat 1 (-1); ShLin 1%nat 1 0], Some QS_e40);
  (53, 53, [ShLin 0%nat 1 (-1); ShLin 1%nat 1 0], [ShLin 0%nat 1 (-1); ShLin 1%nat 1 (-2)], Some QS_e30);
  (53, 54, [ShLin 0%nat 1 (-1); ShLin 1%nat 1 0], [ShLin 0%nat 1 (-1); ShLin 1%nat 1 0], Some QS_e31);
  (54, 54, [ShLin 0%nat 1 (-1); ShLin 1%nat 1 2], [ShLin 0%nat 1 (-1); ShLin 1%nat 1 0], Some QS_e41);
  (55, 55, [ShLin 0%nat 1 (-1); ShLin 1%nat 1 (-2)], [ShLin 0%nat 1 (-1); ShLin 1%nat 1 (-4)], Some (cN 1));
  (55, 56, [ShLin 0%nat 1 (-1); ShLin 1%nat 1 (-2)], [ShLin 0%nat 1 (-1); ShLin 1%nat 1 (-2)], Some (cD (cN 1) (cH 1)));
  (55, 57, [ShLin 0%nat 1 (-1); ShLin 1%nat 1 (-2)], [ShLin 0%nat 1 (-1); ShLin 1%nat 1 0], Some QS_e40);
  (56, 56, [ShLin 0%nat 1 (-1); ShLin 1%nat 1 0], [ShLin 0%nat 1 (-1); ShLin 1%nat 1 (-2)], Some QS_e30);
  (56, 57, [ShLin 0%nat 1 (-1); ShLin 1%nat 1 0], [ShLin 0%nat 1 (-1); ShLin 1%nat 1 0], Some QS_e31);
  (57, 57, [ShLin 0%nat 1 (-1); ShLin 1%nat 1 2], [ShLin 0%nat 1 (-1); ShLin 1%nat 1 0], Some QS_e41);
  (58, 58, [ShLin 0%nat 1 (-2); ShLin 1%nat 1 (-1)], [ShLin 0%nat 1 (-2); ShLin 1%nat 1 (-3)], Some (cN 1));
  (58, 59, [ShLin 0%nat 1 (-2); ShLin 1%nat 1 (-1)], [ShLin 0%nat 1 (-2); ShLin 1%nat 1 (-1)], Some QS_e11);
  (59, 59, [ShLin 0%nat 1 (-2); ShLin 1%nat 1 1], [ShLin 0%nat 1 (-2); ShLin 1%nat 1 (-1)], Some QS_e5);
  (60, 60, [ShLin 0%nat 1 (-2); ShLin 1%nat 1 (-1)], [ShLin 0%nat 1 (-2); ShLin 1%nat 1 (-3)], Some (cN 1));
  (60, 61, [ShLin 0%nat 1 (-2); ShLin 1%nat 1 (-1)], [ShLin 0%nat 1 (-2); ShLin 1%nat 1 (-1)], Some QS_e11);
  (61, 61, [ShLin 0%nat 1 (-2); ShLin 1%nat 1 1], [ShLin 0%nat 1 (-2); ShLin 1%nat 1 (-1)], Some QS_e5);
  (62, 62, [ShLin 0%nat 1 (-2); ShLin 1%nat 1 (-1)], [ShLin 0%nat 1 (-2); ShLin 1%nat 1 (-3)], Some (cN 1));
  (62, 63, [ShLin 0%nat 1 (-2); ShLin 1%nat 1 (-1)], [ShLin 0%nat 1 (-2); ShLin 1%nat 1 (-1)], Some QS_e11);
  (63, 63, [ShLin 0%nat 1 (-2); ShLin 1%nat 1 1], [ShLin 0%nat 1 (-2); ShLin 1%nat 1 (-1)], Some QS_e5);
  (64, 64, [ShLin 0%nat 1 (-3); ShLin 1%nat 1 0], [ShLin 0%nat 1 (-3); ShLin 1%nat 1 (-2)], Some (cN 1))].
(** /repo/c++/symmetry/sym-QS-impl.hpp, make_matrix if (!P.substeps) *)
Definition qs_3ch_m0_o : list off_line := [
  (1, 6, 0, 0, "xi", Some (cN 1));
  (1, 7, 0, 0, "xi", Some (cN 1));
  (2, 10, 0, 0, "xi", Some QS_e42);
  (2, 17, 0, 0, "xi", Some (cN 1));
  (2, 18, 0, 0, "xi", Some QS_e43);
  (3, 10, 0, 0, "xi", Some QS_e43);
  (3, 18, 0, 0, "xi", Some QS_e44);
  (3, 19, 0, 0, "xi", Some (cN 1));
  (4, 12, 0, 0, "xi", Some QS_e42);
  (4, 20, 0, 0, "xi", Some (cN 1));
  (4, 21, 0, 0, "xi", Some QS_e43);
  (5, 12, 0, 0, "xi", Some QS_e43);
  (5, 21, 0, 0, "xi", Some QS_e44);
  (5, 22, 0, 0, "xi", Some (cN 1));
  (6, 13, 0, 0, "xi", Some QS_e12);
  (7, 13, 0, 0, "xi", Some QS_e13);
  (8, 25, 0, 0, "xi", Some (cN 1));
  (8, 26, 0, 0, "xi", Some (cN 1));
  (9, 29, 0, 0, "xi", Some (cQ (-1) 2));
  (9, 30, 0, 0, "xi", Some (cQ (-1) 2));
  (9, 33, 0, 0, "xi", Some (cD (cR (cN 3)) (cN 2)));
  (9, 34, 0, 0, "xi", Some (cD (cR (cN 3)) (cN 2)));
  (10, 31, 0, 0, "xi", Some QS_e19);
  (10, 32, 0, 0, "xi", Some QS_e19);
  (11, 35, 0, 0, "xi", Some (cN 1));
  (11, 36, 0, 0, "xi", Some (cN 1));
  (12, 37, 0, 0, "xi", Some QS_e19);
  (12, 38, 0, 0, "xi", Some QS_e19);
  (14, 29, 0, 0, "xi", Some QS_e25);
  (14, 33, 0, 0, "xi", Some QS_e135);
  (14, 39, 0, 0, "xi", Some (cN 1));
  (14, 40, 0, 0, "xi", Some QS_e109);
  (15, 29, 0, 0, "xi", Some QS_e136);
  (15, 30, 0, 0, "xi", Some QS_e137);
  (15, 33, 0, 0, "xi", Some QS_e101);
  (15, 34, 0, 0, "xi", Some QS_e138);
  (15, 40, 0, 0, "xi", Some QS_e93);
  (15, 41, 0, 0, "xi", Some QS_e67);
  (16, 30, 0, 0, "xi", Some QS_e22);
  (16, 34, 0, 0, "xi", Some QS_e139);
  (16, 41, 0, 0, "xi", Some QS_e140);
  (16, 42, 0, 0, "xi", Some (cN 1));
  (17, 31, 0, 0, "xi", Some QS_e45);
  (18, 31, 0, 0, "xi", Some QS_e29);
  (18, 32, 0, 0, "xi", Some QS_e46);
  (19, 32, 0, 0, "xi", Some QS_e47);
  (20, 37, 0, 0, "xi", Some QS_e45);
  (21, 37, 0, 0, "xi", Some QS_e29);
  (21, 38, 0, 0, "xi", Some QS_e46);
  (22, 38, 0, 0, "xi", Some QS_e47);
  (23, 44, 0, 0, "xi", Some QS_e42);
  (23, 49, 0, 0, "xi", Some (cN 1));
  (23, 50, 0, 0, "xi", Some QS_e43);
  (24, 44, 0, 0, "xi", Some QS_e43);
  (24, 50, 0, 0, "xi", Some QS_e44);
  (24, 51, 0, 0, "xi", Some (cN 1));
  (25, 45, 0, 0, "xi", Some QS_e12);
  (26, 45, 0, 0, "xi", Some QS_e13);
  (27, 46, 0, 0, "xi", Some QS_e42);
  (27, 52, 0, 0, "xi", Some (cN 1));
  (27, 53, 0, 0, "xi", Some QS_e43);
  (28, 46, 0, 0, "xi", Some QS_e43);
  (28, 53, 0, 0, "xi", Some QS_e44);
  (28, 54, 0, 0, "xi", Some (cN 1));
  (29, 47, 0, 0, "xi", Some QS_e141);
  (29, 55, 0, 0, "xi", Some QS_e19);
  (29, 56, 0, 0, "xi", Some QS_e142);
  (30, 47, 0, 0, "xi", Some QS_e143);
  (30, 56, 0, 0, "xi", Some QS_e144);
  (30, 57, 0, 0, "xi", Some QS_e19);
  (33, 47, 0, 0, "xi", Some QS_e145);
  (33, 55, 0, 0, "xi", Some QS_e81);
  (33, 56, 0, 0, "xi", Some QS_e146);
  (34, 47, 0, 0, "xi", Some QS_e147);
  (34, 56, 0, 0, "xi", Some QS_e148);
  (34, 57, 0, 0, "xi", Some QS_e81);
  (35, 48, 0, 0, "xi", Some QS_e12);
  (36, 48, 0, 0, "xi", Some QS_e13);
  (39, 55, 0, 0, "xi", Some QS_e149);
  (40, 55, 0, 0, "xi", Some QS_e150);
  (40, 56, 0, 0, "xi", Some QS_e151);
  (41, 56, 0, 0, "xi", Some QS_e152);
  (41, 57, 0, 0, "xi", Some QS_e153);
  (42, 57, 0, 0, "xi", Some QS_e154);
  (43, 58, 0, 0, "xi", Some (cN 1));
  (43, 59, 0, 0, "xi", Some (cN 1));
  (44, 60, 0, 0, "xi", Some QS_e19);
  (44, 61, 0, 0, "xi", Some QS_e19);
  (46, 62, 0, 0, "xi", Some QS_e19);
  (46, 63, 0, 0, "xi", Some QS_e19);
  (49, 60, 0, 0, "xi", Some QS_e45);
  (50, 60, 0, 0, "xi", Some QS_e29);
  (50, 61, 0, 0, "xi", Some QS_e46);
  (51, 61, 0, 0, "xi", Some QS_e47);
  (52, 62, 0, 0, "xi", Some QS_e45);
  (53, 62, 0, 0, "xi", Some QS_e29);
  (53, 63, 0, 0, "xi", Some QS_e46);
  (54, 63, 0, 0, "xi", Some QS_e47);
  (58, 64, 0, 0, "xi", Some QS_e12);
  (59, 64, 0, 0, "xi", Some QS_e13);
  (1, 4, 1, 0, "xi", Some (cN 1));
  (1, 5, 1, 0, "xi", Some (cN 1));
  (2, 9, 1, 0, "xi", Some QS_e42);
  (2, 14, 1, 0, "xi", Some (cN 1));
  (2, 15, 1, 0, "xi", Some QS_e43);
  (3, 9, 1, 0, "xi", Some QS_e43);
  (3, 15, 1, 0, "xi", Some QS_e44);
  (3, 16, 1, 0, "xi", Some (cN 1));
  (4, 11, 1, 0, "xi", Some QS_e12);
  (5, 11, 1, 0, "xi", Some QS_e13);
  (6, 12, 1, 0, "xi", Some QS_e42);
  (6, 20, 1, 0, "xi", Some (cN (-1)));
  (6, 21, 1, 0, "xi", Some QS_e48);
  (7, 12, 1, 0, "xi", Some QS_e43);
  (7, 21, 1, 0, "xi", Some QS_e42);
  (7, 22, 1, 0, "xi", Some (cN (-1)));
  (8, 23, 1, 0, "xi", Some (cN 1));
  (8, 24, 1, 0, "xi", Some (cN 1));
  (9, 27, 1, 0, "xi", Some QS_e19);
  (9, 28, 1, 0, "xi", Some QS_e19);
  (10, 29, 1, 0, "xi", Some (cQ (-1) 2));
  (10, 30, 1, 0, "xi", Some (cQ (-1) 2));
  (10, 33, 1, 0, "xi", Some QS_e75);
  (10, 34, 1, 0, "xi", Some QS_e75);
  (12, 35, 1, 0, "xi", Some QS_e19);
  (12, 36, 1, 0, "xi", Some QS_e19);
  (13, 37, 1, 0, "xi", Some (cN 1));
  (13, 38, 1, 0, "xi", Some (cN 1));
  (14, 27, 1, 0, "xi", Some QS_e45);
  (15, 27, 1, 0, "xi", Some QS_e29);
  (15, 28, 1, 0, "xi", Some QS_e46);
  (16, 28, 1, 0, "xi", Some QS_e47);
  (17, 29, 1, 0, "xi", Some QS_e25);
  (17, 33, 1, 0, "xi", Some QS_e155);
  (17, 39, 1, 0, "xi", Some (cN (-1)));
  (17, 40, 1, 0, "xi", Some QS_e156);
  (18, 29, 1, 0, "xi", Some QS_e136);
  (18, 30, 1, 0, "xi", Some QS_e137);
  (18, 33, 1, 0, "xi", Some QS_e91);
  (18, 34, 1, 0, "xi", Some QS_e157);
  (18, 40, 1, 0, "xi", Some QS_e103);
  (18, 41, 1, 0, "xi", Some QS_e78);
  (19, 30, 1, 0, "xi", Some QS_e22);
  (19, 34, 1, 0, "xi", Some QS_e158);
  (19, 41, 1, 0, "xi", Some QS_e159);
  (19, 42, 1, 0, "xi", Some (cN (-1)));
  (20, 35, 1, 0, "xi", Some QS_e49);
  (21, 35, 1, 0, "xi", Some QS_e27);
  (21, 36, 1, 0, "xi", Some QS_e50);
  (22, 36, 1, 0, "xi", Some QS_e51);
  (23, 43, 1, 0, "xi", Some QS_e12);
  (24, 43, 1, 0, "xi", Some QS_e13);
  (25, 44, 1, 0, "xi", Some QS_e42);
  (25, 49, 1, 0, "xi", Some (cN (-1)));
  (25, 50, 1, 0, "xi", Some QS_e48);
  (26, 44, 1, 0, "xi", Some QS_e43);
  (26, 50, 1, 0, "xi", Some QS_e42);
  (26, 51, 1, 0, "xi", Some (cN (-1)));
  (29, 46, 1, 0, "xi", Some QS_e141);
  (29, 52, 1, 0, "xi", Some QS_e19);
  (29, 53, 1, 0, "xi", Some QS_e142);
  (30, 46, 1, 0, "xi", Some QS_e143);
  (30, 53, 1, 0, "xi", Some QS_e144);
  (30, 54, 1, 0, "xi", Some QS_e19);
  (31, 47, 1, 0, "xi", Some QS_e42);
  (31, 55, 1, 0, "xi", Some (cN 1));
  (31, 56, 1, 0, "xi", Some QS_e43);
  (32, 47, 1, 0, "xi", Some QS_e43);
  (32, 56, 1, 0, "xi", Some QS_e44);
  (32, 57, 1, 0, "xi", Some (cN 1));
  (33, 46, 1, 0, "xi", Some QS_e160);
  (33, 52, 1, 0, "xi", Some (cD (cN 1) (cR (cN 6))));
  (33, 53, 1, 0, "xi", Some QS_e161);
  (34, 46, 1, 0, "xi", Some QS_e162);
  (34, 53, 1, 0, "xi", Some QS_e163);
  (34, 54, 1, 0, "xi", Some (cD (cN 1) (cR (cN 6))));
  (37, 48, 1, 0, "xi", Some QS_e12);
  (38, 48, 1, 0, "xi", Some QS_e13);
  (39, 52, 1, 0, "xi", Some QS_e164);
  (40, 52, 1, 0, "xi", Some QS_e165);
  (40, 53, 1, 0, "xi", Some QS_e166);
  (41, 53, 1, 0, "xi", Some QS_e167);
  (41, 54, 1, 0, "xi", Some QS_e168);
  (42, 54, 1, 0, "xi", Some QS_e169);
  (44, 58, 1, 0, "xi", Some QS_e19);
  (44, 59, 1, 0, "xi", Some QS_e19);
  (45, 60, 1, 0, "xi", Some (cN 1));
  (45, 61, 1, 0, "xi", Some (cN 1));
  (47, 62, 1, 0, "xi", Some QS_e19);
  (47, 63, 1, 0, "xi", Some QS_e19);
  (49, 58, 1, 0, "xi", Some QS_e49);
  (50, 58, 1, 0, "xi", Some QS_e27);
  (50, 59, 1, 0, "xi", Some QS_e50);
  (51, 59, 1, 0, "xi", Some QS_e51);
  (55, 62, 1, 0, "xi", Some QS_e45);
  (56, 62, 1, 0, "xi", Some QS_e29);
  (56, 63, 1, 0, "xi", Some QS_e46);
  (57, 63, 1, 0, "xi", Some QS_e47);
  (60, 64, 1, 0, "xi", Some QS_e12);
  (61, 64, 1, 0, "xi", Some QS_e13);
  (1, 2, 2, 0, "xi", Some (cN 1));
  (1, 3, 2, 0, "xi", Some (cN 1));
  (2, 8, 2, 0, "xi", Some QS_e12);
  (3, 8, 2, 0, "xi", Some QS_e13);
  (4, 9, 2, 0, "xi", Some QS_e42);
  (4, 14, 2, 0, "xi", Some (cN (-1)));
  (4, 15, 2, 0, "xi", Some QS_e48);
  (5, 9, 2, 0, "xi", Some QS_e43);
  (5, 15, 2, 0, "xi", Some QS_e42);
  (5, 16, 2, 0, "xi", Some (cN (-1)));
  (6, 10, 2, 0, "xi", Some QS_e42);
  (6, 17, 2, 0, "xi", Some (cN (-1)));
  (6, 18, 2, 0, "xi", Some QS_e48);
  (7, 10, 2, 0, "xi", Some QS_e43);
  (7, 18, 2, 0, "xi", Some QS_e42);
  (7, 19, 2, 0, "xi", Some (cN (-1)));
  (9, 23, 2, 0, "xi", Some QS_e19);
  (9, 24, 2, 0, "xi", Some QS_e19);
  (10, 25, 2, 0, "xi", Some QS_e19);
  (10, 26, 2, 0, "xi", Some QS_e19);
  (11, 27, 2, 0, "xi", Some (cN 1));
  (11, 28, 2, 0, "xi", Some (cN 1));
  (12, 29, 2, 0, "xi", Some (cN 1));
  (12, 30, 2, 0, "xi", Some (cN 1));
  (13, 31, 2, 0, "xi", Some (cN 1));
  (13, 32, 2, 0, "xi", Some (cN 1));
  (14, 23, 2, 0, "xi", Some QS_e49);
  (15, 23, 2, 0, "xi", Some QS_e27);
  (15, 24, 2, 0, "xi", Some QS_e50);
  (16, 24, 2, 0, "xi", Some QS_e51);
  (17, 25, 2, 0, "xi", Some QS_e49);
  (18, 25, 2, 0, "xi", Some QS_e27);
  (18, 26, 2, 0, "xi", Some QS_e50);
  (19, 26, 2, 0, "xi", Some QS_e51);
  (20, 33, 2, 0, "xi", Some QS_e93);
  (20, 39, 2, 0, "xi", Some (cN 1));
  (20, 40, 2, 0, "xi", Some QS_e109);
  (21, 33, 2, 0, "xi", Some QS_e156);
  (21, 34, 2, 0, "xi", Some QS_e140);
  (21, 40, 2, 0, "xi", Some QS_e93);
  (21, 41, 2, 0, "xi", Some QS_e67);
  (22, 34, 2, 0, "xi", Some QS_e170);
  (22, 41, 2, 0, "xi", Some QS_e140);
  (22, 42, 2, 0, "xi", Some (cN 1));
  (27, 43, 2, 0, "xi", Some QS_e12);
  (28, 43, 2, 0, "xi", Some QS_e13);
  (29, 44, 2, 0, "xi", Some QS_e12);
  (30, 44, 2, 0, "xi", Some QS_e13);
  (31, 45, 2, 0, "xi", Some QS_e12);
  (32, 45, 2, 0, "xi", Some QS_e13);
  (33, 49, 2, 0, "xi", Some (cR (cQ 2 3)));
  (33, 50, 2, 0, "xi", Some QS_e171);
  (34, 50, 2, 0, "xi", Some QS_e172);
  (34, 51, 2, 0, "xi", Some (cR (cQ 2 3)));
  (35, 46, 2, 0, "xi", Some QS_e42);
  (35, 52, 2, 0, "xi", Some (cN (-1)));
  (35, 53, 2, 0, "xi", Some QS_e48);
  (36, 46, 2, 0, "xi", Some QS_e43);
  (36, 53, 2, 0, "xi", Some QS_e42);
  (36, 54, 2, 0, "xi", Some (cN (-1)));
  (37, 47, 2, 0, "xi", Some QS_e42);
  (37, 55, 2, 0, "xi", Some (cN (-1)));
  (37, 56, 2, 0, "xi", Some QS_e48);
  (38, 47, 2, 0, "xi", Some QS_e43);
  (38, 56, 2, 0, "xi", Some QS_e42);
  (38, 57, 2, 0, "xi", Some (cN (-1)));
  (39, 49, 2, 0, "xi", Some QS_e149);
  (40, 49, 2, 0, "xi", Some QS_e150);
  (40, 50, 2, 0, "xi", Some QS_e151);
  (41, 50, 2, 0, "xi", Some QS_e152);
  (41, 51, 2, 0, "xi", Some QS_e153);
  (42, 51, 2, 0, "xi", Some QS_e154);
  (46, 58, 2, 0, "xi", Some QS_e19);
  (46, 59, 2, 0, "xi", Some QS_e19);
  (47, 60, 2, 0, "xi", Some QS_e19);
  (47, 61, 2, 0, "xi", Some QS_e19);
  (48, 62, 2, 0, "xi", Some (cN 1));
  (48, 63, 2, 0, "xi", Some (cN 1));
  (52, 58, 2, 0, "xi", Some QS_e49);
  (53, 58, 2, 0, "xi", Some QS_e27);
  (53, 59, 2, 0, "xi", Some QS_e50);
  (54, 59, 2, 0, "xi", Some QS_e51);
  (55, 60, 2, 0, "xi", Some QS_e49);
  (56, 60, 2, 0, "xi", Some QS_e27);
  (56, 61, 2, 0, "xi", Some QS_e50);
  (57, 61, 2, 0, "xi", Some QS_e51);
  (62, 64, 2, 0, "xi", Some QS_e12);
  (63, 64, 2, 0, "xi", Some QS_e13)].
(** /repo/c++/symmetry/sym-QS-impl.hpp, make_matrix if (!P.substeps) *)
Definition qs_3ch_m0_d : list diag_line := [
  (1, 0, "zeta", Some (cN 0));
  (2, 0, "zeta", Some (cN 0));
  (3, 0, "zeta", Some (cN 0));
  (4, 0, "zeta", Some (cN 0));
  (5, 0, "zeta", Some (cN 0));
  (6, 0, "zeta", Some (cN 1));
  (7, 0, "zeta", Some (cN 1));
  (8, 0, "zeta", Some (cN 0));
  (9, 0, "zeta", Some (cN 0));
  (10, 0, "zeta", Some (cN 1));
  (11, 0, "zeta", Some (cN 0));
  (12, 0, "zeta", Some (cN 1));
  (13, 0, "zeta", Some (cN 2));
  (14, 0, "zeta", Some (cN 0));
  (15, 0, "zeta", Some (cN 0));
  (16, 0, "zeta", Some (cN 0));
  (17, 0, "zeta", Some (cN 1));
  (18, 0, "zeta", Some (cN 1));
  (19, 0, "zeta", Some (cN 1));
  (20, 0, "zeta", Some (cN 1));
  (21, 0, "zeta", Some (cN 1));
  (22, 0, "zeta", Some (cN 1));
  (23, 0, "zeta", Some (cN 0));
  (24, 0, "zeta", Some (cN 0));
  (25, 0, "zeta", Some (cN 1));
  (26, 0, "zeta", Some (cN 1));
  (27, 0, "zeta", Some (cN 0));
  (28, 0, "zeta", Some (cN 0));
  (29, 0, "zeta", Some (cN 1));
  (30, 0, "zeta", Some (cN 1));
  (31, 0, "zeta", Some (cN 2));
  (32, 0, "zeta", Some (cN 2));
  (33, 0, "zeta", Some (cN 1));
  (34, 0, "zeta", Some (cN 1));
  (35, 0, "zeta", Some (cN 1));
  (36, 0, "zeta", Some (cN 1));
  (37, 0, "zeta", Some (cN 2));
  (38, 0, "zeta", Some (cN 2));
  (39, 0, "zeta", Some (cN 1));
  (40, 0, "zeta", Some (cN 1));
  (41, 0, "zeta", Some (cN 1));
  (42, 0, "zeta", Some (cN 1));
  (43, 0, "zeta", Some (cN 0));
  (44, 0, "zeta", Some (cN 1));
  (45, 0, "zeta", Some (cN 2));
  (46, 0, "zeta", Some (cN 1));
  (47, 0, "zeta", Some (cN 2));
  (48, 0, "zeta", Some (cN 2));
  (49, 0, "zeta", Some (cN 1));
  (50, 0, "zeta", Some (cN 1));
  (51, 0, "zeta", Some (cN 1));
  (52, 0, "zeta", Some (cN 1));
  (53, 0, "zeta", Some (cN 1));
  (54, 0, "zeta", Some (cN 1));
  (55, 0, "zeta", Some (cN 2));
  (56, 0, "zeta", Some (cN 2));
  (57, 0, "zeta", Some (cN 2));
  (58, 0, "zeta", Some (cN 1));
  (59, 0, "zeta", Some (cN 1));
  (60, 0, "zeta", Some (cN 2));
  (61, 0, "zeta", Some (cN 2));
  (62, 0, "zeta", Some (cN 2));
  (63, 0, "zeta", Some (cN 2));
  (64, 0, "zeta", Some (cN 2));
  (1, 1, "zeta", Some (cN 0));
  (2, 1, "zeta", Some (cN 0));
  (3, 1, "zeta", Some (cN 0));
  (4, 1, "zeta", Some (cN 1));
  (5, 1, "zeta", Some (cN 1));
  (6, 1, "zeta", Some (cN 0));
  (7, 1, "zeta", Some (cN 0));
  (8, 1, "zeta", Some (cN 0));
  (9, 1, "zeta", Some (cN 1));
  (10, 1, "zeta", Some (cN 0));
  (11, 1, "zeta", Some (cN 2));
  (12, 1, "zeta", Some (cN 1));
  (13, 1, "zeta", Some (cN 0));
  (14, 1, "zeta", Some (cN 1));
  (15, 1, "zeta", Some (cN 1));
  (16, 1, "zeta", Some (cN 1));
  (17, 1, "zeta", Some (cN 0));
  (18, 1, "zeta", Some (cN 0));
  (19, 1, "zeta", Some (cN 0));
  (20, 1, "zeta", Some (cN 1));
  (21, 1, "zeta", Some (cN 1));
  (22, 1, "zeta", Some (cN 1));
  (23, 1, "zeta", Some (cN 1));
  (24, 1, "zeta", Some (cN 1));
  (25, 1, "zeta", Some (cN 0));
  (26, 1, "zeta", Some (cN 0));
  (27, 1, "zeta", Some (cN 2));
  (28, 1, "zeta", Some (cN 2));
  (29, 1, "zeta", Some (cN 1));
  (30, 1, "zeta", Some (cN 1));
  (31, 1, "zeta", Some (cN 0));
  (32, 1, "zeta", Some (cN 0));
  (33, 1, "zeta", Some (cN 1));
  (34, 1, "zeta", Some (cN 1));
  (35, 1, "zeta", Some (cN 2));
  (36, 1, "zeta", Some (cN 2));
  (37, 1, "zeta", Some (cN 1));
  (38, 1, "zeta", Some (cN 1));
  (39, 1, "zeta", Some (cN 1));
  (40, 1, "zeta", Some (cN 1));
  (41, 1, "zeta", Some (cN 1));
  (42, 1, "zeta", Some (cN 1));
  (43, 1, "zeta", Some (cN 2));
  (44, 1, "zeta", Some (cN 1));
  (45, 1, "zeta", Some (cN 0));
  (46, 1, "zeta", Some (cN 2));
  (47, 1, "zeta", Some (cN 1));
  (48, 1, "zeta", Some (cN 2));
  (49, 1, "zeta", Some (cN 1));
  (50, 1, "zeta", Some (cN 1));
  (51, 1, "zeta", Some (cN 1));
  (52, 1, "zeta", Some (cN 2));
  (53, 1, "zeta", Some (cN 2));
  (54, 1, "zeta", Some (cN 2));
  (55, 1, "zeta", Some (cN 1));
  (56, 1, "zeta", Some (cN 1));
  (57, 1, "zeta", Some (cN 1));
  (58, 1, "zeta", Some (cN 2));
  (59, 1, "zeta", Some (cN 2));
  (60, 1, "zeta", Some (cN 1));
  (61, 1, "zeta", Some (cN 1));
  (62, 1, "zeta", Some (cN 2));
  (63, 1, "zeta", Some (cN 2));
  (64, 1, "zeta", Some (cN 2));
  (1, 2, "zeta", Some (cN 0));
  (2, 2, "zeta", Some (cN 1));
  (3, 2, "zeta", Some (cN 1));
  (4, 2, "zeta", Some (cN 0));
  (5, 2, "zeta", Some (cN 0));
  (6, 2, "zeta", Some (cN 0));
  (7, 2, "zeta", Some (cN 0));
  (8, 2, "zeta", Some (cN 2));
  (9, 2, "zeta", Some (cN 1));
  (10, 2, "zeta", Some (cN 1));
  (11, 2, "zeta", Some (cN 0));
  (12, 2, "zeta", Some (cN 0));
  (13, 2, "zeta", Some (cN 0));
  (14, 2, "zeta", Some (cN 1));
  (15, 2, "zeta", Some (cN 1));
  (16, 2, "zeta", Some (cN 1));
  (17, 2, "zeta", Some (cN 1));
  (18, 2, "zeta", Some (cN 1));
  (19, 2, "zeta", Some (cN 1));
  (20, 2, "zeta", Some (cN 0));
  (21, 2, "zeta", Some (cN 0));
  (22, 2, "zeta", Some (cN 0));
  (23, 2, "zeta", Some (cN 2));
  (24, 2, "zeta", Some (cN 2));
  (25, 2, "zeta", Some (cN 2));
  (26, 2, "zeta", Some (cN 2));
  (27, 2, "zeta", Some (cN 1));
  (28, 2, "zeta", Some (cN 1));
  (29, 2, "zeta", Some (cN 1));
  (30, 2, "zeta", Some (cN 1));
  (31, 2, "zeta", Some (cN 1));
  (32, 2, "zeta", Some (cN 1));
  (33, 2, "zeta", Some (cN 1));
  (34, 2, "zeta", Some (cN 1));
  (35, 2, "zeta", Some (cN 0));
  (36, 2, "zeta", Some (cN 0));
  (37, 2, "zeta", Some (cN 0));
  (38, 2, "zeta", Some (cN 0));
  (39, 2, "zeta", Some (cN 1));
  (40, 2, "zeta", Some (cN 1));
  (41, 2, "zeta", Some (cN 1));
  (42, 2, "zeta", Some (cN 1));
  (43, 2, "zeta", Some (cN 2));
  (44, 2, "zeta", Some (cN 2));
  (45, 2, "zeta", Some (cN 2));
  (46, 2, "zeta", Some (cN 1));
  (47, 2, "zeta", Some (cN 1));
  (48, 2, "zeta", Some (cN 0));
  (49, 2, "zeta", Some (cN 2));
  (50, 2, "zeta", Some (cN 2));
  (51, 2, "zeta", Some (cN 2));
  (52, 2, "zeta", Some (cN 1));
  (53, 2, "zeta", Some (cN 1));
  (54, 2, "zeta", Some (cN 1));
  (55, 2, "zeta", Some (cN 1));
  (56, 2, "zeta", Some (cN 1));
  (57, 2, "zeta", Some (cN 1));
  (58, 2, "zeta", Some (cN 2));
  (59, 2, "zeta", Some (cN 2));
  (60, 2, "zeta", Some (cN 2));
  (61, 2, "zeta", Some (cN 2));
  (62, 2, "zeta", Some (cN 1));
  (63, 2, "zeta", Some (cN 1));
  (64, 2, "zeta", Some (cN 2))].
(** /repo/c++/symmetry/sym-QS-impl.hpp, make_matrix if (!P.substeps) *)
Definition qs_3ch_m0_f : list dof_line := [
  ].
Definition coef_qs_3ch : coef_set := mk_coef "QS" 3%nat sym_QS {| tb_In := qs_3ch_In; tb_QN := qs_3ch_QN |}
  [qs_3ch_t2; qs_3ch_t3; qs_3ch_t4; qs_3ch_t5; qs_3ch_t6; qs_3ch_t7]
  [qs_3ch_t0; qs_3ch_t1; qs_3ch_t8; qs_3ch_t9; qs_3ch_t10]
  [mk_mode "default" qs_3ch_m0_o qs_3ch_m0_d qs_3ch_m0_f].
(** /repo/c++/symmetry/nrg-recalc-QS.hpp recalc_doublet, qs/qs-4ch-doubletp.dat *)
Definition qs_4ch_t0 : ten_table := mk_ten "doublet" [ShLin 0%nat 1 (-1); ShLin 1%nat 1 1] [1; 2] [
  (1, 1, [ShLin 0%nat 1 4; ShLin 1%nat 1 0], [ShLin 0%nat 1 3; ShLin 1%nat 1 1], Some (cN 1));
  (2, 2, [ShLin 0%nat 1 3; ShLin 1%nat 1 (-1)], [ShLin 0%nat 1 2; ShLin 1%nat 1 0], Some QS_e0);
  (3, 2, [ShLin 0%nat 1 3; ShLin 1%nat 1 1], [ShLin 0%nat 1 2; ShLin 1%nat 1 0], Some QS_e1);
  (3, 3, [ShLin 0%nat 1 3; ShLin 1%nat 1 1], [ShLin 0%nat 1 2; ShLin 1%nat 1 2], Some (cN (-1)));
  (4, 4, [ShLin 0%nat 1 3; ShLin 1%nat 1 (-1)], [ShLin 0%nat 1 2; ShLin 1%nat 1 0], Some QS_e0);
  (5, 4, [ShLin 0%nat 1 3; ShLin 1%nat 1 1], [ShLin 0%nat 1 2; ShLin 1%nat 1 0], Some QS_e1);
  (5, 5, [ShLin 0%nat 1 3; ShLin 1%nat 1 1], [ShLin 0%nat 1 2; ShLin 1%nat 1 2], Some (cN (-1)));
  (6, 6, [ShLin 0%nat 1 3; ShLin 1%nat 1 (-1)], [ShLin 0%nat 1 2; ShLin 1%nat 1 0], Some QS_e0);
  (7, 6, [ShLin 0%nat 1 3; ShLin 1%nat 1 1], [ShLin 0%nat 1 2; ShLin 1%nat 1 0], Some QS_e1);
  (7, 7, [ShLin 0%nat 1 3; ShLin 1%nat 1 1], [ShLin 0%nat 1 2; ShLin 1%nat 1 2], Some (cN (-1)));
  (8, 8, [ShLin 0%nat 1 3; ShLin 1%nat 1 (-1)], [ShLin 0%nat 1 2; ShLin 1%nat 1 0], Some QS_e0);
  (9, 8, [ShLin 0%nat 1 3; ShLin 1%nat 1 1], [ShLin 0%nat 1 2; ShLin 1%nat 1 0], Some QS_e1);
  (9, 9, [ShLin 0%nat 1 3; ShLin 1%nat 1 1], [ShLin 0%nat 1 2; ShLin 1%nat 1 2], Some (cN (-1)));
  (10, 10, [ShLin 0%nat 1 2; ShLin 1%nat 1 0], [ShLin 0%nat 1 1; ShLin 1%nat 1 1], Some (cN 1));
  (11, 11, [ShLin 0%nat 1 2; ShLin 1%nat 1 0], [ShLin 0%nat 1 1; ShLin 1%nat 1 1], Some (cN 1));
  (12, 12, [ShLin 0%nat 1 2; ShLin 1%nat 1 0], [ShLin 0%nat 1 1; ShLin 1%nat 1 1], Some (cN 1));
  (13, 13, [ShLin 0%nat 1 2; ShLin 1%nat 1 0], [ShLin 0%nat 1 1; ShLin 1%nat 1 1], Some (cN 1));
  (14, 14, [ShLin 0%nat 1 2; ShLin 1%nat 1 0], [ShLin 0%nat 1 1; ShLin 1%nat 1 1], Some (cN 1));
  (15, 15, [ShLin 0%nat 1 2; ShLin 1%nat 1 0], [ShLin 0%nat 1 1; ShLin 1%nat 1 1], Some (cN 1));
  (16, 16, [ShLin 0%nat 1 2; ShLin 1%nat 1 0], [ShLin 0%nat 1 1; ShLin 1%nat 1 1], Some (cN 1));
  (17, 17, [ShLin 0%nat 1 2; ShLin 1%nat 1 0], [ShLin 0%nat 1 1; ShLin 1%nat 1 1], Some (cN 1));
  (18, 18, [ShLin 0%nat 1 2; ShLin 1%nat 1 0], [ShLin 0%nat 1 1; ShLin 1%nat 1 1], Some (cN 1));
  (19, 19, [ShLin 0%nat 1 2; ShLin 1%nat 1 0], [ShLin 0%nat 1 1; ShLin 1%nat 1 1], Some (cN 1));
  (20, 20, [ShLin 0%nat 1 2; ShLin 1%nat 1 (-2)], [ShLin 0%nat 1 1; ShLin 1%nat 1 (-1)], Some QS_e5);
  (21, 20, [ShLin 0%nat 1 2; ShLin 1%nat 1 0], [ShLin 0%nat 1 1; ShLin 1%nat 1 (-1)], Some QS_e7);
  (21, 21, [ShLin 0%nat 1 2; ShLin 1%nat 1 0], [ShLin 0%nat 1 1; ShLin 1%nat 1 1], Some QS_e14);
  (22, 21, [ShLin 0%nat 1 2; ShLin 1%nat 1 2], [ShLin 0%nat 1 1; ShLin 1%nat 1 1], Some QS_e15);
  (22, 22, [ShLin 0%nat 1 2; ShLin 1%nat 1 2], [ShLin 0%nat 1 1; ShLin 1%nat 1 3], Some (cN 1));
  (23, 23, [ShLin 0%nat 1 2; ShLin 1%nat 1 (-2)], [ShLin 0%nat 1 1; ShLin 1%nat 1 (-1)], Some QS_e5);
  (24, 23, [ShLin 0%nat 1 2; ShLin 1%nat 1 0], [ShLin 0%nat 1 1; ShLin 1%nat 1 (-1)], Some QS_e7);
  (24, 24, [ShLin 0%nat 1 2; ShLin 1%nat 1 0], [ShLin 0%nat 1 1; ShLin 1%nat 1 1], Some QS_e14);
  (25, 24, [ShLin 0%nat 1 2; ShLin 1%nat 1 2], [ShLin 0%nat 1 1; ShLin 1%nat 1 1], Some QS_e15);
  (25, 25, [ShLin 0%nat 1 2; ShLin 1%nat 1 2], [ShLin 0%nat 1 1; ShLin 1%nat 1 3], Some (cN 1));
  (26, 26, [ShLin 0%nat 1 2; ShLin 1%nat 1 (-2)], [ShLin 0%nat 1 1; ShLin 1%nat 1 (-1)], Some QS_e5);
  (27, 26, [ShLin 0%nat 1 2; ShLin 1%nat 1 0], [ShLin 0%nat 1 1; ShLin 1%nat 1 (-1)], Some QS_e7);
  (27, 27, [ShLin 0%nat 1 2; ShLin 1%nat 1 0], [ShLin 0%nat 1 1; ShLin 1%nat 1 1], Some QS_e14);
  (28, 27, [ShLin 0%nat 1 2; ShLin 1%nat 1 2], [ShLin 0%nat 1 1; ShLin 1%nat 1 1], Some QS_e15);
  (28, 28, [ShLin 0%nat 1 2; ShLin 1%nat 1 2], [ShLin 0%nat 1 1; ShLin 1%nat 1 3], Some (cN 1));
  (29, 29, [ShLin 0%nat 1 2; ShLin 1%nat 1 (-2)], [ShLin 0%nat 1 1; ShLin 1%nat 1 (-1)], Some QS_e5);
  (30, 29, [ShLin 0%nat 1 2; ShLin 1%nat 1 0], [ShLin 0%nat 1 1; ShLin 1%nat 1 (-1)], Some QS_e7);
  (30, 30, [ShLin 0%nat 1 2; ShLin 1%nat 1 0], [ShLin 0%nat 1 1; ShLin 1%nat 1 1], Some QS_e14);
  (31, 30, [ShLin 0%nat 1 2; ShLin 1%nat 1 2], [ShLin 0%nat 1 1; ShLin 1%nat 1 1], Some QS_e15);
  (31, 31, [ShLin 0%nat 1 2; ShLin 1%nat 1 2], [ShLin 0%nat 1 1; ShLin 1%nat 1 3], Some (cN 1));
  (32, 32, [ShLin 0%nat 1 2; ShLin 1%nat 1 (-2)], [ShLin 0%nat 1 1; ShLin 1%nat 1 (-1)], Some QS_e5);
  (33, 32, [ShLin 0%nat 1 2; ShLin 1%nat 1 0], [ShLin 0%nat 1 1; ShLin 1%nat 1 (-1)], Some QS_e7);
  (33, 33, [ShLin 0%nat 1 2; ShLin 1%nat 1 0], [ShLin 0%nat 1 1; ShLin 1%nat 1 1], Some QS_e14);
  (34, 33, [ShLin 0%nat 1 2; ShLin 1%nat 1 2], [ShLin 0%nat 1 1; ShLin 1%nat 1 1], Some QS_e15);
  (34, 34, [ShLin 0%nat 1 2; ShLin 1%nat 1 2], [ShLin 0%nat 1 1; ShLin 1%nat 1 3], Some (cN 1));
  (35, 35, [ShLin 0%nat 1 2; ShLin 1%nat 1 (-2)], [ShLin 0%nat 1 1; ShLin 1%nat 1 (-1)], Some QS_e5);
  (36, 35, [ShLin 0%nat 1 2; ShLin 1%nat 1 0], [ShLin 0%nat 1 1; ShLin 1%nat 1 (-1)], Some QS_e7);
  (36, 36, [ShLin 0%nat 1 2; ShLin 1%nat 1 0], [ShLin 0%nat 1 1; ShLin 1%nat 1 1], Some QS_e14);
  (37, 36, [ShLin 0%nat 1 2; ShLin 1%nat 1 2], [ShLin 0%nat 1 1; ShLin 1%nat 1 1], Some QS_e15);
  (37, 37, [ShLin 0%nat 1 2; ShLin 1%nat 1 2], [ShLin 0%nat 1 1; ShLin 1%nat 1 3], Some (cN 1));
  (38, 38, [ShLin 0%nat 1 1; ShLin 1%nat 1 (-1)], [ShLin 0%nat 1 0; ShLin 1%nat 1 0], Some QS_e0);
  (39, 38, [ShLin 0%nat 1 1; ShLin 1%nat 1 1], [ShLin 0%nat 1 0; ShLin 1%nat 1 0], Some QS_e1);
  (39, 39, [ShLin 0%nat 1 1; ShLin 1%nat 1 1], [ShLin 0%nat 1 0; ShLin 1%nat 1 2], Some (cN (-1)));
  (40, 40, [ShLin 0%nat 1 1; ShLin 1%nat 1 (-1)], [ShLin 0%nat 1 0; ShLin 1%nat 1 0], Some QS_e0);
  (41, 40, [ShLin 0%nat 1 1; ShLin 1%nat 1 1], [ShLin 0%nat 1 0; ShLin 1%nat 1 0], Some QS_e1);
  (41, 41, [ShLin 0%nat 1 1; ShLin 1%nat 1 1], [ShLin 0%nat 1 0; ShLin 1%nat 1 2], Some (cN (-1)));
  (42, 42, [ShLin 0%nat 1 1; ShLin 1%nat 1 (-1)], [ShLin 0%nat 1 0; ShLin 1%nat 1 0], Some QS_e0);
  (43, 42, [ShLin 0%nat 1 1; ShLin 1%nat 1 1], [ShLin 0%nat 1 0; ShLin 1%nat 1 0], Some QS_e1);
  (43, 43, [ShLin 0%nat 1 1; ShLin 1%nat 1 1], [ShLin 0%nat 1 0; ShLin 1%nat 1 2], Some (cN (-1)));
  (44, 44, [ShLin 0%nat 1 1; ShLin 1%nat 1 (-1)], [ShLin 0%nat 1 0; ShLin 1%nat 1 0], Some QS_e0);
  (45, 44, [ShLin 0%nat 1 1; ShLin 1%nat 1 1], [ShLin 0%nat 1 0; ShLin 1%nat 1 0], Some QS_e1);
  (45, 45, [ShLin 0%nat 1 1; ShLin 1%nat 1 1], [ShLin 0%nat 1 0; ShLin 1%nat 1 2], Some (cN (-1)));
  (46, 46, [ShLin 0%nat 1 1; ShLin 1%nat 1 (-1)], [ShLin 0%nat 1 0; ShLin 1%nat 1 0], Some QS_e0);
  (47, 46, [ShLin 0%nat 1 1; ShLin 1%nat 1 1], [ShLin 0%nat 1 0; ShLin 1%nat 1 0], Some QS_e1);
  (47, 47, [ShLin 0%nat 1 1; ShLin 1%nat 1 1], [ShLin 0%nat 1 0; ShLin 1%nat 1 2], Some (cN (-1)));
  (48, 48, [ShLin 0%nat 1 1; ShLin 1%nat 1 (-1)], [ShLin 0%nat 1 0; ShLin 1%nat 1 0], Some QS_e0);
  (49, 48, [ShLin 0%nat 1 1; ShLin 1%nat 1 1], [ShLin 0%nat 1 0; ShLin 1%nat 1 0], Some QS_e1);
  (49, 49, [ShLin 0%nat 1 1; ShLin 1%nat 1 1], [ShLin 0%nat 1 0; ShLin 1%nat 1 2], Some (cN (-1)));
  (50, 50, [ShLin 0%nat 1 1; ShLin 1%nat 1 (-1)], [ShLin 0%nat 1 0; ShLin 1%nat 1 0], Some QS_e0);
  (51, 50, [ShLin 0%nat 1 1; ShLin 1%nat 1 1], [ShLin 0%nat 1 0; ShLin 1%nat 1 0], Some QS_e1);
  (51, 51, [ShLin 0%nat 1 1; ShLin 1%nat 1 1], [ShLin 0%nat 1 0; ShLin 1%nat 1 2], Some (cN (-1)));
  (52, 52, [ShLin 0%nat 1 1; ShLin 1%nat 1 (-1)], [ShLin 0%nat 1 0; ShLin 1%nat 1 0], Some QS_e0);
  (53, 52, [ShLin 0%nat 1 1; ShLin 1%nat 1 1], [ShLin 0%nat 1 0; ShLin 1%nat 1 0], Some QS_e1);
  (53, 53, [ShLin 0%nat 1 1; ShLin 1%nat 1 1], [ShLin 0%nat 1 0; ShLin 1%nat 1 2], Some (cN (-1)));
  (54, 54, [ShLin 0%nat 1 1; ShLin 1%nat 1 (-1)], [ShLin 0%nat 1 0; ShLin 1%nat 1 0], Some QS_e0);
  (55, 54, [ShLin 0%nat 1 1; ShLin 1%nat 1 1], [ShLin 0%nat 1 0; ShLin 1%nat 1 0], Some QS_e1);
  (55, 55, [ShLin 0%nat 1 1; ShLin 1%nat 1 1], [ShLin 0%nat 1 0; ShLin 1%nat 1 2], Some (cN (-1)));
  (56, 56, [ShLin 0%nat 1 1; ShLin 1%nat 1 (-1)], [ShLin 0%nat 1 0; ShLin 1%nat 1 0], Some QS_e0);
  (57, 56, [ShLin 0%nat 1 1; ShLin 1%nat 1 1], [ShLin 0%nat 1 0; ShLin 1%nat 1 0], Some QS_e1);
  (57, 57, [ShLin 0%nat 1 1; ShLin 1%nat 1 1], [ShLin 0%nat 1 0; ShLin 1%nat 1 2], Some (cN (-1)));
  (58, 58, [ShLin 0%nat 1 1; ShLin 1%nat 1 (-1)], [ShLin 0%nat 1 0; ShLin 1%nat 1 0], Some QS_e0);
  (59, 58, [ShLin 0%nat 1 1; ShLin 1%nat 1 1], [ShLin 0%nat 1 0; ShLin 1%nat 1 0], Some QS_e1);
  (59, 59, [ShLin 0%nat 1 1; ShLin 1%nat 1 1], [ShLin 0%nat 1 0; ShLin 1%nat 1 2], Some (cN (-1)));
  (60, 60, [ShLin 0%nat 1 1; ShLin 1%nat 1 (-1)], [ShLin 0%nat 1 0; ShLin 1%nat 1 0], Some QS_e0);
  (61, 60, [ShLin 0%nat 1 1; ShLin 1%nat 1 1], [ShLin 0%nat 1 0; ShLin 1%nat 1 0], Some QS_e1);
  (61, 61, [ShLin 0%nat 1 1; ShLin 1%nat 1 1], [ShLin 0%nat 1 0; ShLin 1%nat 1 2], Some (cN (-1)));
  (62, 62, [ShLin 0%nat 1 1; ShLin 1%nat 1 (-1)], [ShLin 0%nat 1 0; ShLin 1%nat 1 0], Some QS_e0);
  (63, 62, [ShLin 0%nat 1 1; ShLin 1%nat 1 1], [ShLin 0%nat 1 0; ShLin 1%nat 1 0], Some QS_e1);
  (63, 63, [ShLin 0%nat 1 1; ShLin 1%nat 1 1], [ShLin 0%nat 1 0; ShLin 1%nat 1 2], Some (cN (-1)));
  (64, 64, [ShLin 0%nat 1 1; ShLin 1%nat 1 (-1)], [ShLin 0%nat 1 0; ShLin 1%nat 1 0], Some QS_e0);
  (65, 64, [ShLin 0%nat 1 1; ShLin 1%nat 1 1], [ShLin 0%nat 1 0; ShLin 1%nat 1 0], Some QS_e1);
  (65, 65, [ShLin 0%nat 1 1; ShLin 1%nat 1 1], [ShLin 0%nat 1 0; ShLin 1%nat 1 2], Some (cN (-1)));
  (66, 66, [ShLin 0%nat 1 1; ShLin 1%nat 1 (-1)], [ShLin 0%nat 1 0; ShLin 1%nat 1 0], Some QS_e0);
  (67, 66, [ShLin 0%nat 1 1; ShLin 1%nat 1 1], [ShLin 0%nat 1 0; ShLin 1%nat 1 0], Some QS_e1);
  (67, 67, [ShLin 0%nat 1 1; ShLin 1%nat 1 1], [ShLin 0%nat 1 0; ShLin 1%nat 1 2], Some (cN (-1)));
  (68, 68, [ShLin 0%nat 1 1; ShLin 1%nat 1 (-1)], [ShLin 0%nat 1 0; ShLin 1%nat 1 0], Some QS_e0);
  (69, 68, [ShLin 0%nat 1 1; ShLin 1%nat 1 1], [ShLin 0%nat 1 0; ShLin 1%nat 1 0], Some QS_e1);
  (69, 69, [ShLin 0%nat 1 1; ShLin 1%nat 1 1], [ShLin 0%nat 1 0; ShLin 1%nat 1 2], Some (cN (-1)));
  (70, 70, [ShLin 0%nat 1 1; ShLin 1%nat 1 (-1)], [ShLin 0%nat 1 0; ShLin 1%nat 1 0], Some QS_e0);
  (71, 70, [ShLin 0%nat 1 1; ShLin 1%nat 1 1], [ShLin 0%nat 1 0; ShLin 1%nat 1 0], Some QS_e1);
  (71, 71, [ShLin 0%nat 1 1; ShLin 1%nat 1 1], [ShLin 0%nat 1 0; ShLin 1%nat 1 2], Some (cN (-1)));
  (72, 72, [ShLin 0%nat 1 1; ShLin 1%nat 1 (-1)], [ShLin 0%nat 1 0; ShLin 1%nat 1 0], Some QS_e0);
  (73, 72, [ShLin 0%nat 1 1; ShLin 1%nat 1 1], [ShLin 0%nat 1 0; ShLin 1%nat 1 0], Some QS_e1);
  (73, 73, [ShLin 0%nat 1 1; ShLin 1%nat 1 1], [ShLin 0%nat 1 0; ShLin 1%nat 1 2], Some (cN (-1)));
  (74, 74, [ShLin 0%nat 1 1; ShLin 1%nat 1 (-1)], [ShLin 0%nat 1 0; ShLin 1%nat 1 0], Some QS_e0);
  (75, 74, [ShLin 0%nat 1 1; ShLin 1%nat 1 1], [ShLin 0%nat 1 0; ShLin 1%nat 1 0], Some QS_e1);
  (75, 75, [ShLin 0%nat 1 1; ShLin 1%nat 1 1], [ShLin 0%nat 1 0; ShLin 1%nat 1 2], Some (cN (-1)));
  (76, 76, [ShLin 0%nat 1 1; ShLin 1%nat 1 (-1)], [ShLin 0%nat 1 0; ShLin 1%nat 1 0], Some QS_e0);
  (77, 76, [ShLin 0%nat 1 1; ShLin 1%nat 1 1], [ShLin 0%nat 1 0; ShLin 1%nat 1 0], Some QS_e1);
  (77, 77, [ShLin 0%nat 1 1; ShLin 1%nat 1 1], [ShLin 0%nat 1 0; ShLin 1%nat 1 2], Some (cN (-1)));
  (78, 78, [ShLin 0%nat 1 1; ShLin 1%nat 1 (-3)], [ShLin 0%nat 1 0; ShLin 1%nat 1 (-2)], Some QS_e52);
  (79, 78, [ShLin 0%nat 1 1; ShLin 1%nat 1 (-1)], [ShLin 0%nat 1 0; ShLin 1%nat 1 (-2)], Some QS_e53);
  (79, 79, [ShLin 0%nat 1 1; ShLin 1%nat 1 (-1)], [ShLin 0%nat 1 0; ShLin 1%nat 1 0], Some QS_e54);
  (80, 79, [ShLin 0%nat 1 1; ShLin 1%nat 1 1], [ShLin 0%nat 1 0; ShLin 1%nat 1 0], Some QS_e55);
  (80, 80, [ShLin 0%nat 1 1; ShLin 1%nat 1 1], [ShLin 0%nat 1 0; ShLin 1%nat 1 2], Some QS_e56);
  (81, 80, [ShLin 0%nat 1 1; ShLin 1%nat 1 3], [ShLin 0%nat 1 0; ShLin 1%nat 1 2], Some QS_e57);
  (81, 81, [ShLin 0%nat 1 1; ShLin 1%nat 1 3], [ShLin 0%nat 1 0; ShLin 1%nat 1 4], Some (cN (-1)));
  (82, 82, [ShLin 0%nat 1 1; ShLin 1%nat 1 (-3)], [ShLin 0%nat 1 0; ShLin 1%nat 1 (-2)], Some QS_e52);
  (83, 82, [ShLin 0%nat 1 1; ShLin 1%nat 1 (-1)], [ShLin 0%nat 1 0; ShLin 1%nat 1 (-2)], Some QS_e53);
  (83, 83, [ShLin 0%nat 1 1; ShLin 1%nat 1 (-1)], [ShLin 0%nat 1 0; ShLin 1%nat 1 0], Some QS_e54);
  (84, 83, [ShLin 0%nat 1 1; ShLin 1%nat 1 1], [ShLin 0%nat 1 0; ShLin 1%nat 1 0], Some QS_e55);
  (84, 84, [ShLin 0%nat 1 1; ShLin 1%nat 1 1], [ShLin 0%nat 1 0; ShLin 1%nat 1 2], Some QS_e56);
  (85, 84, [ShLin 0%nat 1 1; ShLin 1%nat 1 3], [ShLin 0%nat 1 0; ShLin 1%nat 1 2], Some QS_e57);
  (85, 85, [ShLin 0%nat 1 1; ShLin 1%nat 1 3], [ShLin 0%nat 1 0; ShLin 1%nat 1 4], Some (cN (-1)));
  (86, 86, [ShLin 0%nat 1 1; ShLin 1%nat 1 (-3)], [ShLin 0%nat 1 0; ShLin 1%nat 1 (-2)], Some QS_e52);
  (87, 86, [ShLin 0%nat 1 1; ShLin 1%nat 1 (-1)], [ShLin 0%nat 1 0; ShLin 1%nat 1 (-2)], Some QS_e53);
  (87, 87, [ShLin 0%nat 1 1; ShLin 1%nat 1 (-1)], [ShLin 0%nat 1 0; ShLin 1%nat 1 0], Some QS_e54);
  (88, 87, [ShLin 0%nat 1 1; ShLin 1%nat 1 1], [ShLin 0%nat 1 0; ShLin 1%nat 1 0], Some QS_e55);
  (88, 88, [ShLin 0%nat 1 1; ShLin 1%nat 1 1], [ShLin 0%nat 1 0; ShLin 1%nat 1 2], Some QS_e56);
  (89, 88, [ShLin 0%nat 1 1; ShLin 1%nat 1 3], [ShLin 0%nat 1 0; ShLin 1%nat 1 2], Some QS_e57);
  (89, 89, [ShLin 0%nat 1 1; ShLin 1%nat 1 3], [ShLin 0%nat 1 0; ShLin 1%nat 1 4], Some (cN (-1)));
  (90, 90, [ShLin 0%nat 1 1; ShLin 1%nat 1 (-3)], [ShLin 0%nat 1 0; ShLin 1%nat 1 (-2)], Some QS_e52);
  (91, 90, [ShLin 0%nat 1 1; ShLin 1%nat 1 (-1)], [ShLin 0%nat 1 0; ShLin 1%nat 1 (-2)], Some QS_e53);
  (91, 91, [ShLin 0%nat 1 1; ShLin 1%nat 1 (-1)], [ShLin 0%nat 1 0; ShLin 1%nat 1 0], Some QS_e54);
  (92, 91, [ShLin 0%nat 1 1; ShLin 1%nat 1 1], [ShLin 0%nat 1 0; ShLin 1%nat 1 0], Some QS_e55);
  (92, 92, [ShLin 0%nat 1 1; ShLin 1%nat 1 1], [ShLin 0%nat 1 0; ShLin 1%nat 1 2], Some QS_e56);
  (93, 92, [ShLin 0%nat 1 1; ShLin 1%nat 1 3], [ShLin 0%nat 1 0; ShLin 1%nat 1 2], Some QS_e57);
  (93, 93, [ShLin 0%nat 1 1; ShLin 1%nat 1 3], [ShLin 0%nat 1 0; ShLin 1%nat 1 4], Some (cN (-1)));
  (94, 94, [ShLin 0%nat 1 0; ShLin 1%nat 1 0], [ShLin 0%nat 1 (-1); ShLin 1%nat 1 1], Some (cN 1));
  (95, 95, [ShLin 0%nat 1 0; ShLin 1%nat 1 0], [ShLin 0%nat 1 (-1); ShLin 1%nat 1 1], Some (cN 1));
  (96, 96, [ShLin 0%nat 1 0; ShLin 1%nat 1 0], [ShLin 0%nat 1 (-1); ShLin 1%nat 1 1], Some (cN 1));
  (97, 97, [ShLin 0%nat 1 0; ShLin 1%nat 1 0], [ShLin 0%nat 1 (-1); ShLin 1%nat 1 1], Some (cN 1));
  (98, 98, [ShLin 0%nat 1 0; ShLin 1%nat 1 0], [ShLin 0%nat 1 (-1); ShLin 1%nat 1 1], Some (cN 1));
  (99, 99, [ShLin 0%nat 1 0; ShLin 1%nat 1 0], [ShLin 0%nat 1 (-1); ShLin 1%nat 1 1], Some (cN 1));
  (100, 100, [ShLin 0%nat 1 0; ShLin 1%nat 1 0], [ShLin 0%nat 1 (-1); ShLin 1%nat 1 1], Some (cN 1));
  (101, 101, [ShLin 0%nat 1 0; ShLin 1%nat 1 0], [ShLin 0%nat 1 (-1); ShLin 1%nat 1 1], Some (cN 1));
  (102, 102, [ShLin 0%nat 1 0; ShLin 1%nat 1 0], [ShLin 0%nat 1 (-1); ShLin 1%nat 1 1], Some (cN 1));
  (103, 103, [ShLin 0%nat 1 0; ShLin 1%nat 1 0], [ShLin 0%nat 1 (-1); ShLin 1%nat 1 1], Some (cN 1));
  (104, 104, [ShLin 0%nat 1 0; ShLin 1%nat 1 0], [ShLin 0%nat 1 (-1); ShLin 1%nat 1 1], Some (cN 1));
  (105, 105, [ShLin 0%nat 1 0; ShLin 1%nat 1 0], [ShLin 0%nat 1 (-1); ShLin 1%nat 1 1], Some (cN 1));
  (106, 106, [ShLin 0%nat 1 0; ShLin 1%nat 1 0], [ShLin 0%nat 1 (-1); ShLin 1%nat 1 1], Some (cN 1));
  (107, 107, [ShLin 0%nat 1 0; ShLin 1%nat 1 0], [ShLin 0%nat 1 (-1); ShLin 1%nat 1 1], Some (cN 1));
  (108, 108, [ShLin 0%nat 1 0; ShLin 1%nat 1 0], [ShLin 0%nat 1 (-1); ShLin 1%nat 1 1], Some (cN 1));
  (109, 109, [ShLin 0%nat 1 0; ShLin 1%nat 1 0], [ShLin 0%nat 1 (-1); ShLin 1%nat 1 1], Some (cN 1));
  (110, 110, [ShLin 0%nat 1 0; ShLin 1%nat 1 0], [ShLin 0%nat 1 (-1); ShLin 1%nat 1 1], Some (cN 1));
  (111, 111, [ShLin 0%nat 1 0; ShLin 1%nat 1 0], [ShLin 0%nat 1 (-1); ShLin 1%nat 1 1], Some (cN 1));
  (112, 112, [ShLin 0%nat 1 0; ShLin 1%nat 1 0], [ShLin 0%nat 1 (-1); ShLin 1%nat 1 1], Some (cN 1));
  (113, 113, [ShLin 0%nat 1 0; ShLin 1%nat 1 0], [ShLin 0%nat 1 (-1); ShLin 1%nat 1 1], Some (cN 1));
  (114, 114, [ShLin 0%nat 1 0; ShLin 1%nat 1 (-2)], [ShLin 0%nat 1 (-1); ShLin 1%nat 1 (-1)], Some QS_e5);
  (115, 114, [ShLin 0%nat 1 0; ShLin 1%nat 1 0], [ShLin 0%nat 1 (-1); ShLin 1%nat 1 (-1)], Some QS_e7);
  (115, 115, [ShLin 0%nat 1 0; ShLin 1%nat 1 0], [ShLin 0%nat 1 (-1); ShLin 1%nat 1 1], Some QS_e14);
  (116, 115, [ShLin 0%nat 1 0; ShLin 1%nat 1 2], [ShLin 0%nat 1 (-1); ShLin 1%nat 1 1], Some QS_e15);
  (116, 116, [ShLin 0%nat 1 0; ShLin 1%nat 1 2], [ShLin 0%nat 1 (-1); ShLin 1%nat 1 3], Some (cN 1));
  (117, 117, [ShLin 0%nat 1 0; ShLin 1%nat 1 (-2)], [ShLin 0%nat 1 (-1); ShLin 1%nat 1 (-1)], Some QS_e5);
  (118, 117, [ShLin 0%nat 1 0; ShLin 1%nat 1 0], [ShLin 0%nat 1 (-1); ShLin 1%nat 1 (-1)], Some QS_e7);
  (118, 118, [ShLin 0%nat 1 0; ShLin 1%nat 1 0], [ShLin 0%nat 1 (-1); ShLin 1%nat 1 1], Some QS_e14);
  (119, 118, [ShLin 0%nat 1 0; ShLin 1%nat 1 2], [ShLin 0%nat 1 (-1); ShLin 1%nat 1 1], Some QS_e15);
  (119, 119, [ShLin 0%nat 1 0; ShLin 1%nat 1 2], [ShLin 0%nat 1 (-1); ShLin 1%nat 1 3], Some (cN 1));
  (120, 120, [ShLin 0%nat 1 0; ShLin 1%nat 1 (-2)], [ShLin 0%nat 1 (-1); ShLin 1%nat 1 (-1)], Some QS_e5);
  (121, 120, [ShLin 0%nat 1 0; ShLin 1%nat 1 0], [ShLin 0%nat 1 (-1); ShLin 1%nat 1 (-1)], Some QS_e7);
  (121, 121, [ShLin 0%nat 1 0; ShLin 1%nat 1 0], [ShLin 0%nat 1 (-1); ShLin 1%nat 1 1], Some QS_e14);
  (122, 121, [ShLin 0%nat 1 0; ShLin 1%nat 1 2], [ShLin 0%nat 1 (-1); ShLin 1%nat 1 1], Some QS_e15);
  (122, 122, [ShLin 0%nat 1 0; ShLin 1%nat 1 2], [ShLin 0%nat 1 (-1); ShLin 1%nat 1 3], Some (cN 1));
  (123, 123, [ShLin 0%nat 1 0; ShLin 1%nat 1 (-2)], [ShLin 0%nat 1 (-1); ShLin 1%nat 1 (-1)], Some QS_e5);
  (124, 123, [ShLin 0%nat 1 0; ShLin 1%nat 1 0], [ShLin 0%nat 1 (-1); ShLin 1%nat 1 (-1)], Some QS_e7);
  (124, 124, [ShLin 0%nat 1 0; ShLin 1%nat 1 0], [ShLin 0%nat 1 (-1); ShLin 1%nat 1 1], Some QS_e14);
  (125, 124, [ShLin 0%nat 1 0; ShLin 1%nat 1 2], [ShLin 0%nat 1 (-1); ShLin 1%nat 1 1], Some QS_e15);
  (125, 125, [ShLin 0%nat 1 0; ShLin 1%nat 1 2], [ShLin 0%nat 1 (-1); ShLin 1%nat 1 3], Some (cN 1));
  (126, 126, [ShLin 0%nat 1 0; ShLin 1%nat 1 (-2)], [ShLin 0%nat 1 (-1); ShLin 1%nat 1 (-1)], Some QS_e5);
  (127, 126, [ShLin 0%nat 1 0; ShLin 1%nat 1 0], [ShLin 0%nat 1 (-1); ShLin 1%nat 1 (-1)], Some QS_e7);
  (127, 127, [ShLin 0%nat 1 0; ShLin 1%nat 1 0], [ShLin 0%nat 1 (-1); ShLin 1%nat 1 1], Some QS_e14);
  (128, 127, [ShLin 0%nat 1 0; ShLin 1%nat 1 2], [ShLin 0%nat 1 (-1); ShLin 1%nat 1 1], Some QS_e15);
  (128, 128, [ShLin 0%nat 1 0; ShLin 1%nat 1 2], [ShLin 0%nat 1 (-1); ShLin 1%nat 1 3], Some (cN 1));
  (129, 129, [ShLin 0%nat 1 0; ShLin 1%nat 1 (-2)], [ShLin 0%nat 1 (-1); ShLin 1%nat 1 (-1)], Some QS_e5);
  (130, 129, [ShLin 0%nat 1 0; ShLin 1%nat 1 0], [ShLin 0%nat 1 (-1); ShLin 1%nat 1 (-1)], Some QS_e7);
  (130, 130, [ShLin 0%nat 1 0; ShLin 1%nat 1 0], [ShLin 0%nat 1 (-1); ShLin 1%nat 1 1], Some QS_e14);
  (131, 130, [ShLin 0%nat 1 0; ShLin 1%nat 1 2], [ShLin 0%nat 1 (-1); ShLin 1%nat 1 1], Some QS_e15);
  (131, 131, [ShLin 0%nat 1 0; ShLin 1%nat 1 2], [ShLin 0%nat 1 (-1); ShLin 1%nat 1 3], Some (cN 1));
  (132, 132, [ShLin 0%nat 1 0; ShLin 1%nat 1 (-2)], [ShLin 0%nat 1 (-1); ShLin 1%nat 1 (-1)], Some QS_e5);
  (133, 132, [ShLin 0%nat 1 0; ShLin 1%nat 1 0], [ShLin 0%nat 1 (-1); ShLin 1%nat 1 (-1)], Some QS_e7);
  (133, 133, [ShLin 0%nat 1 0; ShLin 1%nat 1 0], [ShLin 0%nat 1 (-1); ShLin 1%nat 1 1], Some QS_e14);
  (134, 133, [ShLin 0%nat 1 0; ShLin 1%nat 1 2], [ShLin 0%nat 1 (-1); ShLin 1%nat 1 1], Some QS_e15);
  (134, 134, [ShLin 0%nat 1 0; ShLin 1%nat 1 2], [ShLin 0%nat 1 (-1); ShLin 1%nat 1 3], Some (cN 1));
  (135, 135, [ShLin 0%nat 1 0; ShLin 1%nat 1 (-2)], [ShLin 0%nat 1 (-1); ShLin 1%nat 1 (-1)], Some QS_e5);
  (136, 135, [ShLin 0%nat 1 0; ShLin 1%nat 1 0], [ShLin 0%nat 1 (-1); ShLin 1%nat 1 (-1)], Some QS_e7);
  (136, 136, [ShLin 0%nat 1 0; ShLin 1%nat 1 0], [ShLin 0%nat 1 (-1); ShLin 1%nat 1 1], Some QS_e14);
  (137, 136, [ShLin 0%nat 1 0; ShLin 1%nat 1 2], [ShLin 0%nat 1 (-1); ShLin 1%nat 1 1], Some QS_e15);
  (137, 137, [ShLin 0%nat 1 0; ShLin 1%nat 1 2], [ShLin 0%nat 1 (-1); ShLin 1%nat 1 3], Some (cN 1));
  (138, 138, [ShLin 0%nat 1 0; ShLin 1%nat 1 (-2)], [ShLin 0%nat 1 (-1); ShLin 1%nat 1 (-1)], Some QS_e5);
  (139, 138, [ShLin 0%nat 1 0; ShLin 1%nat 1 0], [ShLin 0%nat 1 (-1); ShLin 1%nat 1 (-1)], Some QS_e7);
  (139, 139, [ShLin 0%nat 1 0; ShLin 1%nat 1 0], [ShLin 0%nat 1 (-1); ShLin 1%nat 1 1], Some QS_e14);
  (140, 139, [ShLin 0%nat 1 0; ShLin 1%nat 1 2], [ShLin 0%nat 1 (-1); ShLin 1%nat 1 1], Some QS_e15);
  (140, 140, [ShLin 0%nat 1 0; ShLin 1%nat 1 2], [ShLin 0%nat 1 (-1); ShLin 1%nat 1 3], Some (cN 1));
  (141, 141, [ShLin 0%nat 1 0; ShLin 1%nat 1 (-2)], [ShLin 0%nat 1 (-1); ShLin 1%nat 1 (-1)], Some QS_e5);
  (142, 141, [ShLin 0%nat 1 0; ShLin 1%nat 1 0], [ShLin 0%nat 1 (-1); ShLin 1%nat 1 (-1)], Some QS_e7);
  (142, 142, [ShLin 0%nat 1 0; ShLin 1%nat 1 0], [ShLin 0%nat 1 (-1); ShLin 1%nat 1 1], Some QS_e14);
  (143, 142, [ShLin 0%nat 1 0; ShLin 1%nat 1 2], [ShLin 0%nat 1 (-1); ShLin 1%nat 1 1], Some QS_e15);
  (143, 143, [ShLin 0%nat 1 0; ShLin 1%nat 1 2], [ShLin 0%nat 1 (-1); ShLin 1%nat 1 3], Some (cN 1));
  (144, 144, [ShLin 0%nat 1 0; ShLin 1%nat 1 (-2)], [ShLin 0%nat 1 (-1); ShLin 1%nat 1 (-1)], Some QS_e5);
  (145, 144, [ShLin 0%nat 1 0; ShLin 1%nat 1 0], [ShLin 0%nat 1 (-1); ShLin 1%nat 1 (-1)], Some QS_e7);
  (145, 145, [ShLin 0%nat 1 0; ShLin 1%nat 1 0], [ShLin 0%nat 1 (-1); ShLin 1%nat 1 1], Some QS_e14);
  (146, 145, [ShLin 0%nat 1 0; ShLin 1%nat 1 2], [ShLin 0%nat 1 (-1); ShLin 1%nat 1 1], Some QS_e15);
  (146, 146, [ShLin 0%nat 1 0; ShLin 1%nat 1 2], [ShLin 0%nat 1 (-1); ShLin 1%nat 1 3], Some (cN 1));
  (147, 147, [ShLin 0%nat 1 0; ShLin 1%nat 1 (-2)], [ShLin 0%nat 1 (-1); ShLin 1%nat 1 (-1)], Some QS_e5);
  (148, 147, [ShLin 0%nat 1 0; ShLin 1%nat 1 0], [ShLin 0%nat 1 (-1); ShLin 1%nat 1 (-1)], Some QS_e7);
  (148, 148, [ShLin 0%nat 1 0; ShLin 1%nat 1 0], [ShLin 0%nat 1 (-1); ShLin 1%nat 1 1], Some QS_e14);
  (149, 148, [ShLin 0%nat 1 0; ShLin 1%nat 1 2], [ShLin 0%nat 1 (-1); ShLin 1%nat 1 1], Some QS_e15);
  (149, 149, [ShLin 0%nat 1 0; ShLin 1%nat 1 2], [ShLin 0%nat 1 (-1); ShLin 1%nat 1 3], Some (cN 1));
  (150, 150, [ShLin 0%nat 1 0; ShLin 1%nat 1 (-2)], [ShLin 0%nat 1 (-1); ShLin 1%nat 1 (-1)], Some QS_e5);
  (151, 150, [ShLin 0%nat 1 0; ShLin 1%nat 1 0], [ShLin 0%nat 1 (-1); ShLin 1%nat 1 (-1)], Some QS_e7);
  (151, 151, [ShLin 0%nat 1 0; ShLin 1%nat 1 0], [ShLin 0%nat 1 (-1); ShLin 1%nat 1 1], Some QS_e14);
  (152, 151, [ShLin 0%nat 1 0; ShLin 1%nat 1 2], [ShLin 0%nat 1 (-1); ShLin 1%nat 1 1], Some QS_e15);
  (152, 152, [ShLin 0%nat 1 0; ShLin 1%nat 1 2], [ShLin 0%nat 1 (-1); ShLin 1%nat 1 3], Some (cN 1));
  (153, 153, [ShLin 0%nat 1 0; ShLin 1%nat 1 (-2)], [ShLin 0%nat 1 (-1); ShLin 1%nat 1 (-1)], Some QS_e5);
  (154, 153, [ShLin 0%nat 1 0; ShLin 1%nat 1 0], [ShLin 0%nat 1 (-1); ShLin 1%nat 1 (-1)], Some QS_e7);
  (154, 154, [ShLin 0%nat 1 0; ShLin 1%nat 1 0], [ShLin 0%nat 1 (-1); ShLin 1%nat 1 1], Some QS_e14);
  (155, 154, [ShLin 0%nat 1 0; ShLin 1%nat 1 2], [ShLin 0%nat 1 (-1); ShLin 1%nat 1 1], Some QS_e15);
  (155, 155, [ShLin 0%nat 1 0; ShLin 1%nat 1 2], [ShLin 0%nat 1 (-1); ShLin 1%nat 1 3], Some (cN 1));
  (156, 156, [ShLin 0%nat 1 0; ShLin 1%nat 1 (-2)], [ShLin 0%nat 1 (-1); ShLin 1%nat 1 (-1)], Some QS_e5);
  (157, 156, [ShLin 0%nat 1 0; ShLin 1%nat 1 0], [ShLin 0%nat 1 (-1); ShLin 1%nat 1 (-1)], Some QS_e7);
  (157, 157, [ShLin 0%nat 1 0; ShLin 1%nat 1 0], [ShLin 0%nat 1 (-1); ShLin 1%nat 1 1], Some QS_e14);
  (158, 157, [ShLin 0%nat 1 0; ShLin 1%nat 1 2], [ShLin 0%nat 1 (-1); ShLin 1%nat 1 1], Some QS_e15);
  (158, 158, [ShLin 0%nat 1 0; ShLin 1%nat 1 2], [ShLin 0%nat 1 (-1); ShLin 1%nat 1 3], Some (cN 1));
  (159, 159, [ShLin 0%nat 1 0; ShLin 1%nat 1 (-4)], [ShLin 0%nat 1 (-1); ShLin 1%nat 1 (-3)], Some QS_e173);
  (160, 159, [ShLin 0%nat 1 0; ShLin 1%nat 1 (-2)], [ShLin 0%nat 1 (-1); ShLin 1%nat 1 (-3)], Some QS_e174);
  (160, 160, [ShLin 0%nat 1 0; ShLin 1%nat 1 (-2)], [ShLin 0%nat 1 (-1); ShLin 1%nat 1 (-1)], Some QS_e175);
  (161, 160, [ShLin 0%nat 1 0; ShLin 1%nat 1 0], [ShLin 0%nat 1 (-1); ShLin 1%nat 1 (-1)], Some QS_e176);
  (161, 161, [ShLin 0%nat 1 0; ShLin 1%nat 1 0], [ShLin 0%nat 1 (-1); ShLin 1%nat 1 1], Some QS_e177);
  (162, 161, [ShLin 0%nat 1 0; ShLin 1%nat 1 2], [ShLin 0%nat 1 (-1); ShLin 1%nat 1 1], Some QS_e178);
  (162, 162, [ShLin 0%nat 1 0; ShLin 1%nat 1 2], [ShLin 0%nat 1 (-1); ShLin 1%nat 1 3], Some QS_e179);
  (163, 162, [ShLin 0%nat 1 0; ShLin 1%nat 1 4], [ShLin 0%nat 1 (-1); ShLin 1%nat 1 3], Some QS_e180);
  (163, 163, [ShLin 0%nat 1 0; ShLin 1%nat 1 4], [ShLin 0%nat 1 (-1); ShLin 1%nat 1 5], Some (cN 1));
  (164, 164, [ShLin 0%nat 1 (-1); ShLin 1%nat 1 (-1)], [ShLin 0%nat 1 (-2); ShLin 1%nat 1 0], Some QS_e0);
  (165, 164, [ShLin 0%nat 1 (-1); ShLin 1%nat 1 1], [ShLin 0%nat 1 (-2); ShLin 1%nat 1 0], Some QS_e1);
  (165, 165, [ShLin 0%nat 1 (-1); ShLin 1%nat 1 1], [ShLin 0%nat 1 (-2); ShLin 1%nat 1 2], Some (cN (-1)));
  (166, 166, [ShLin 0%nat 1 (-1); ShLin 1%nat 1 (-1)], [ShLin 0%nat 1 (-2); ShLin 1%nat 1 0], Some QS_e0);
  (167, 166, [ShLin 0%nat 1 (-1); ShLin 1%nat 1 1], [ShLin 0%nat 1 (-2); ShLin 1%nat 1 0], Some QS_e1);
  (167, 167, [ShLin 0%nat 1 (-1); ShLin 1%nat 1 1], [ShLin 0%nat 1 (-2); ShLin 1%nat 1 2], Some (cN (-1)));
  (168, 168, [ShLin 0%nat 1 (-1); ShLin 1%nat 1 (-1)], [ShLin 0%nat 1 (-2); ShLin 1%nat 1 0], Some QS_e0);
  (169, 168, [ShLin 0%nat 1 (-1); ShLin 1%nat 1 1], [ShLin 0%nat 1 (-2); ShLin 1%nat 1 0], Some QS_e1);
  (169, 169, [ShLin 0%nat 1 (-1); ShLin 1%nat 1 1], [ShLin 0%nat 1 (-2); ShLin 1%nat 1 2], Some (cN (-1)));
  (170, 170, [ShLin 0%nat 1 (-1); ShLin 1%nat 1 (-1)], [ShLin 0%nat 1 (-2); ShLin 1%nat 1 0], Some QS_e0);
  (171, 170, [ShLin 0%nat 1 (-1); ShLin 1%nat 1 1], [ShLin 0%nat 1 (-2); ShLin 1%nat 1 0], Some QS_e1);
  (171, 171, [ShLin 0%nat 1 (-1); ShLin 1%nat 1 1], [ShLin 0%nat 1 (-2); ShLin 1%nat 1 2], Some (cN (-1)));
  (172, 172, [ShLin 0%nat 1 (-1); ShLin 1%nat 1 (-1)], [ShLin 0%nat 1 (-2); ShLin 1%nat 1 0], Some QS_e0);
  (173, 172, [ShLin 0%nat 1 (-1); ShLin 1%nat 1 1], [ShLin 0%nat 1 (-2); ShLin 1%nat 1 0], Some QS_e1);
  (173, 173, [ShLin 0%nat 1 (-1); ShLin 1%nat 1 1], [ShLin 0%nat 1 (-2); ShLin 1%nat 1 2], Some (cN (-1)));
  (174, 174, [ShLin 0%nat 1 (-1); ShLin 1%nat 1 (-1)], [ShLin 0%nat 1 (-2); ShLin 1%nat 1 0], Some QS_e0);
  (175, 174, [ShLin 0%nat 1 (-1); ShLin 1%nat 1 1], [ShLin 0%nat 1 (-2); ShLin 1%nat 1 0], Some QS_e1);
  (175, 175, [ShLin 0%nat 1 (-1); ShLin 1%nat 1 1], [ShLin 0%nat 1 (-2); ShLin 1%nat 1 2], Some (cN (-1)));
  (176, 176, [ShLin 0%nat 1 (-1); ShLin 1%nat 1 (-1)], [ShLin 0%nat 1 (-2); ShLin 1%nat 1 0], Some QS_e0);
  (177, 176, [ShLin 0%nat 1 (-1); ShLin 1%nat 1 1], [ShLin 0%nat 1 (-2); ShLin 1%nat 1 0], Some QS_e1);
  (177, 177, [ShLin 0%nat 1 (-1); ShLin 1%nat 1 1], [ShLin 0%nat 1 (-2); ShLin 1%nat 1 2], Some (cN (-1)));
  (178, 178, [ShLin 0%nat 1 (-1); ShLin 1%nat 1 (-1)], [ShLin 0%nat 1 (-2); ShLin 1%nat 1 0], Some QS_e0);
  (179, 178, [ShLin 0%nat 1 (-1); ShLin 1%nat 1 1], [ShLin 0%nat 1 (-2); ShLin 1%nat 1 0], Some QS_e1);
  (179, 179, [ShLin 0%nat 1 (-1); ShLin 1%nat 1 1], [ShLin 0%nat 1 (-2); ShLin 1%nat 1 2], Some (cN (-1)));
  (180, 180, [ShLin 0%nat 1 (-1); ShLin 1%nat 1 (-1)], [ShLin 0%nat 1 (-2); ShLin 1%nat 1 0], Some QS_e0);
  (181, 180, [ShLin 0%nat 1 (-1); ShLin 1%nat 1 1], [ShLin 0%nat 1 (-2); ShLin 1%nat 1 0], Some QS_e1);
  (181, 181, [ShLin 0%nat 1 (-1); ShLin 1%nat 1 1], [ShLin 0%nat 1 (-2); ShLin 1%nat 1 2], Some (cN (-1)));
  (182, 182, [ShLin 0%nat 1 (-1); ShLin 1%nat 1 (-1)], [ShLin 0%nat 1 (-2); ShLin 1%nat 1 0], Some QS_e0);
  (183, 182, [ShLin 0%nat 1 (-1); ShLin 1%nat 1 1], [ShLin 0%nat 1 (-2); ShLin 1%nat 1 0], Some QS_e1);
  (183, 183, [ShLin 0%nat 1 (-1); ShLin 1%nat 1 1], [ShLin 0%nat 1 (-2); ShLin 1%nat 1 2], Some (cN (-1)));
  (184, 184, [ShLin 0%nat 1 (-1); ShLin 1%nat 1 (-1)], [ShLin 0%nat 1 (-2); ShLin 1%nat 1 0], Some QS_e0);
  (185, 184, [ShLin 0%nat 1 (-1); ShLin 1%nat 1 1], [ShLin 0%nat 1 (-2); ShLin 1%nat 1 0], Some QS_e1);
  (185, 185, [ShLin 0%nat 1 (-1); ShLin 1%nat 1 1], [ShLin 0%nat 1 (-2); ShLin 1%nat 1 2], Some (cN (-1)));
  (186, 186, [ShLin 0%nat 1 (-1); ShLin 1%nat 1 (-1)], [ShLin 0%nat 1 (-2); ShLin 1%nat 1 0], Some QS_e0);
  (187, 186, [ShLin 0%nat 1 (-1); ShLin 1%nat 1 1], [ShLin 0%nat 1 (-2); ShLin 1%nat 1 0], Some QS_e1);
  (187, 187, [ShLin 0%nat 1 (-1); ShLin 1%nat 1 1], [ShLin 0%nat 1 (-2); ShLin 1%nat 1 2], Some (cN (-1)));
  (188, 188, [ShLin 0%nat 1 (-1); ShLin 1%nat 1 (-1)], [ShLin 0%nat 1 (-2); ShLin 1%nat 1 0], Some QS_e0);
  (189, 188, [ShLin 0%nat 1 (-1); ShLin 1%nat 1 1], [ShLin 0%nat 1 (-2); ShLin 1%nat 1 0], Some QS_e1);
  (189, 189, [ShLin 0%nat 1 (-1); ShLin 1%nat 1 1], [ShLin 0%nat 1 (-2); ShLin 1%nat 1 2], Some (cN (-1)));
  (190, 190, [ShLin 0%nat 1 (-1); ShLin 1%nat 1 (-1)], [ShLin 0%nat 1 (-2); ShLin 1%nat 1 0], Some QS_e0);
  (191, 190, [ShLin 0%nat 1 (-1); ShLin 1%nat 1 1], [ShLin 0%nat 1 (-2); ShLin 1%nat 1 0], Some QS_e1);
  (191, 191, [ShLin 0%nat 1 (-1); ShLin 1%nat 1 1], [ShLin 0%nat 1 (-2); ShLin 1%nat 1 2], Some (cN (-1)));
  (192, 192, [ShLin 0%nat 1 (-1); ShLin 1%nat 1 (-1)], [ShLin 0%nat 1 (-2); ShLin 1%nat 1 0], Some QS_e0);
  (193, 192, [ShLin 0%nat 1 (-1); ShLin 1%nat 1 1], [ShLin 0%nat 1 (-2); ShLin 1%nat 1 0], Some QS_e1);
  (193, 193, [ShLin 0%nat 1 (-1); ShLin 1%nat 1 1], [ShLin 0%nat 1 (-2); ShLin 1%nat 1 2], Some (cN (-1)));
  (194, 194, [ShLin 0%nat 1 (-1); ShLin 1%nat 1 (-1)], [ShLin 0%nat 1 (-2); ShLin 1%nat 1 0], Some QS_e0);
  (195, 194, [ShLin 0%nat 1 (-1); ShLin 1%nat 1 1], [ShLin 0%nat 1 (-2); ShLin 1%nat 1 0], Some QS_e1);
  (195, 195, [ShLin 0%nat 1 (-1); ShLin 1%nat 1 1], [ShLin 0%nat 1 (-2); ShLin 1%nat 1 2], Some (cN (-1)));
  (196, 196, [ShLin 0%nat 1 (-1); ShLin 1%nat 1 (-1)], [ShLin 0%nat 1 (-2); ShLin 1%nat 1 0], Some QS_e0);
  (197, 196, [ShLin 0%nat 1 (-1); ShLin 1%nat 1 1], [ShLin 0%nat 1 (-2); ShLin 1%nat 1 0], Some QS_e1);
  (197, 197, [ShLin 0%nat 1 (-1); ShLin 1%nat 1 1], [ShLin 0%nat 1 (-2); ShLin 1%nat 1 2], Some (cN (-1)));
  (198, 198, [ShLin 0%nat 1 (-1); ShLin 1%nat 1 (-1)], [ShLin 0%nat 1 (-2); ShLin 1%nat 1 0], Some QS_e0);
  (199, 198, [ShLin 0%nat 1 (-1); ShLin 1%nat 1 1], [ShLin 0%nat 1 (-2); ShLin 1%nat 1 0], Some QS_e1);
  (199, 199, [ShLin 0%nat 1 (-1); ShLin 1%nat 1 1], [ShLin 0%nat 1 (-2); ShLin 1%nat 1 2], Some (cN (-1)));
  (200, 200, [ShLin 0%nat 1 (-1); ShLin 1%nat 1 (-1)], [ShLin 0%nat 1 (-2); ShLin 1%nat 1 0], Some QS_e0);
  (201, 200, [ShLin 0%nat 1 (-1); ShLin 1%nat 1 1], [ShLin 0%nat 1 (-2); ShLin 1%nat 1 0], Some QS_e1);
  (201, 201, [ShLin 0%nat 1 (-1); ShLin 1%nat 1 1], [ShLin 0%nat 1 (-2); ShLin 1%nat 1 2], Some (cN (-1)));
  (202, 202, [ShLin 0%nat 1 (-1); ShLin 1%nat 1 (-1)], [ShLin 0%nat 1 (-2); ShLin 1%nat 1 0], Some QS_e0);
  (203, 202, [ShLin 0%nat 1 (-1); ShLin 1%nat 1 1], [ShLin 0%nat 1 (-2); ShLin 1%nat 1 0], Some QS_e1);
  (203, 203, [ShLin 0%nat 1 (-1); ShLin 1%nat 1 1], [ShLin 0%nat 1 (-2); ShLin 1%nat 1 2], Some (cN (-1)));
  (204, 204, [ShLin 0%nat 1 (-1); ShLin 1%nat 1 (-3)], [ShLin 0%nat 1 (-2); ShLin 1%nat 1 (-2)], Some QS_e52);
  (205, 204, [ShLin 0%nat 1 (-1); ShLin 1%nat 1 (-1)], [ShLin 0%nat 1 (-2); ShLin 1%nat 1 (-2)], Some QS_e53);
  (205, 205, [ShLin 0%nat 1 (-1); ShLin 1%nat 1 (-1)], [ShLin 0%nat 1 (-2); ShLin 1%nat 1 0], Some QS_e54);
  (206, 205, [ShLin 0%nat 1 (-1); ShLin 1%nat 1 1], [ShLin 0%nat 1 (-2); ShLin 1%nat 1 0], Some QS_e55);
  (206, 206, [ShLin 0%nat 1 (-1); ShLin 1%nat 1 1], [ShLin 0%nat 1 (-2); ShLin 1%nat 1 2], Some QS_e56);
  (207, 206, [ShLin 0%nat 1 (-1); ShLin 1%nat 1 3], [ShLin 0%nat 1 (-2); ShLin 1%nat 1 2], Some QS_e57);
  (207, 207, [ShLin 0%nat 1 (-1); ShLin 1%nat 1 3], [ShLin 0%nat 1 (-2); ShLin 1%nat 1 4], Some (cN (-1)));
  (208, 208, [ShLin 0%nat 1 (-1); ShLin 1%nat 1 (-3)], [ShLin 0%nat 1 (-2); ShLin 1%nat 1 (-2)], Some QS_e52);
  (209, 208, [ShLin 0%nat 1 (-1); ShLin 1%nat 1 (-1)], [ShLin 0%nat 1 (-2); ShLin 1%nat 1 (-2)], Some QS_e53);
  (209, 209, [ShLin 0%nat 1 (-1); ShLin 1%nat 1 (-1)], [ShLin 0%nat 1 (-2); ShLin 1%nat 1 0], Some QS_e54);
  (210, 209, [ShLin 0%nat 1 (-1); ShLin 1%nat 1 1], [ShLin 0%nat 1 (-2); ShLin 1%nat 1 0], Some QS_e55);
  (210, 210, [ShLin 0%nat 1 (-1); ShLin 1%nat 1 1], [ShLin 0%nat 1 (-2); ShLin 1%nat 1 2], Some QS_e56);
  (211, 210, [ShLin 0%nat 1 (-1); ShLin 1%nat 1 3], [ShLin 0%nat 1 (-2); ShLin 1%nat 1 2], Some QS_e57);
  (211, 211, [ShLin 0%nat 1 (-1); ShLin 1%nat 1 3], [ShLin 0%nat 1 (-2); ShLin 1%nat 1 4], Some (cN (-1)));
  (212, 212, [ShLin 0%nat 1 (-1); ShLin 1%nat 1 (-3)], [ShLin 0%nat 1 (-2); ShLin 1%nat 1 (-2)], Some QS_e52);
  (213, 212, [ShLin 0%nat 1 (-1); ShLin 1%nat 1 (-1)], [ShLin 0%nat 1 (-2); ShLin 1%nat 1 (-2)], Some QS_e53);
  (213, 213, [ShLin 0%nat 1 (-1); ShLin 1%nat 1 (-1)], [ShLin 0%nat 1 (-2); ShLin 1%nat 1 0], Some QS_e54);
  (214, 213, [ShLin 0%nat 1 (-1); ShLin 1%nat 1 1], [ShLin 0%nat 1 (-2); ShLin 1%nat 1 0], Some QS_e55);
  (214, 214, [ShLin 0%nat 1 (-1); ShLin 1%nat 1 1], [ShLin 0%nat 1 (-2); ShLin 1%nat 1 2], Some QS_e56);
  (215, 214, [ShLin 0%nat 1 (-1); ShLin 1%nat 1 3], [ShLin 0%nat 1 (-2); ShLin 1%nat 1 2], Some QS_e57);
  (215, 215, [ShLin 0%nat 1 (-1); ShLin 1%nat 1 3], [ShLin 0%nat 1 (-2); ShLin 1%nat 1 4], Some (cN (-1)));
  (216, 216, [ShLin 0%nat 1 (-1); ShLin 1%nat 1 (-3)], [ShLin 0%nat 1 (-2); ShLin 1%nat 1 (-2)], Some QS_e52);
  (217, 216, [ShLin 0%nat 1 (-1); ShLin 1%nat 1 (-1)], [ShLin 0%nat 1 (-2); ShLin 1%nat 1 (-2)], Some QS_e53);
  (217, 217, [ShLin 0%nat 1 (-1); ShLin 1%nat 1 (-1)], [ShLin 0%nat 1 (-2); ShLin 1%nat 1 0], Some QS_e54);
  (218, 217, [ShLin 0%nat 1 (-1); ShLin 1%nat 1 1], [ShLin 0%nat 1 (-2); ShLin 1%nat 1 0], Some QS_e55);
  (218, 218, [ShLin 0%nat 1 (-1); ShLin 1%nat 1 1], [ShLin 0%nat 1 (-2); ShLin 1%nat 1 2], Some QS_e56);
  (219, 218, [ShLin 0%nat 1 (-1); ShLin 1%nat 1 3], [ShLin 0%nat 1 (-2); ShLin 1%nat 1 2], Some QS_e57);
  (219, 219, [ShLin 0%nat 1 (-1); ShLin 1%nat 1 3], [ShLin 0%nat 1 (-2); ShLin 1%nat 1 4], Some (cN (-1)));
  (220, 220, [ShLin 0%nat 1 (-2); ShLin 1%nat 1 0], [ShLin 0%nat 1 (-3); ShLin 1%nat 1 1], Some (cN 1));
  (221, 221, [ShLin 0%nat 1 (-2); ShLin 1%nat 1 0], [ShLin 0%nat 1 (-3); ShLin 1%nat 1 1], Some (cN 1));
  (222, 222, [ShLin 0%nat 1 (-2); ShLin 1%nat 1 0], [ShLin 0%nat 1 (-3); ShLin 1%nat 1 1], Some (cN 1));
  (223, 223, [ShLin 0%nat 1 (-2); ShLin 1%nat 1 0], [ShLin 0%nat 1 (-3); ShLin 1%nat 1 1], Some (cN 1));
  (224, 224, [ShLin 0%nat 1 (-2); ShLin 1%nat 1 0], [ShLin 0%nat 1 (-3); ShLin 1%nat 1 1], Some (cN 1));
  (225, 225, [ShLin 0%nat 1 (-2); ShLin 1%nat 1 0], [ShLin 0%nat 1 (-3); ShLin 1%nat 1 1], Some (cN 1));
  (226, 226, [ShLin 0%nat 1 (-2); ShLin 1%nat 1 0], [ShLin 0%nat 1 (-3); ShLin 1%nat 1 1], Some (cN 1));
  (227, 227, [ShLin 0%nat 1 (-2); ShLin 1%nat 1 0], [ShLin 0%nat 1 (-3); ShLin 1%nat 1 1], Some (cN 1));
  (228, 228, [ShLin 0%nat 1 (-2); ShLin 1%nat 1 0], [ShLin 0%nat 1 (-3); ShLin 1%nat 1 1], Some (cN 1));
  (229, 229, [ShLin 0%nat 1 (-2); ShLin 1%nat 1 0], [ShLin 0%nat 1 (-3); ShLin 1%nat 1 1], Some (cN 1));
  (230, 230, [ShLin 0%nat 1 (-2); ShLin 1%nat 1 (-2)], [ShLin 0%nat 1 (-3); ShLin 1%nat 1 (-1)], Some QS_e5);
  (231, 230, [ShLin 0%nat 1 (-2); ShLin 1%nat 1 0], [ShLin 0%nat 1 (-3); ShLin 1%nat 1 (-1)], Some QS_e7);
  (231, 231, [ShLin 0%nat 1 (-2); ShLin 1%nat 1 0], [ShLin 0%nat 1 (-3); ShLin 1%nat 1 1], Some QS_e14);
  (232, 231, [ShLin 0%nat 1 (-2); ShLin 1%nat 1 2], [ShLin 0%nat 1 (-3); ShLin 1%nat 1 1], Some QS_e15);
  (232, 232, [ShLin 0%nat 1 (-2); ShLin 1%nat 1 2], [ShLin 0%nat 1 (-3); ShLin 1%nat 1 3], Some (cN 1));
  (233, 233, [ShLin 0%nat 1 (-2); ShLin 1%nat 1 (-2)], [ShLin 0%nat 1 (-3); ShLin 1%nat 1 (-1)], Some QS_e5);
  (234, 233, [ShLin 0%nat 1 (-2); ShLin 1%nat 1 0], [ShLin 0%nat 1 (-3); ShLin 1%nat 1 (-1)], Some QS_e7);
  (234, 234, [ShLin 0%nat 1 (-2); ShLin 1%nat 1 0], [ShLin 0%nat 1 (-3); ShLin 1%nat 1 1], Some QS_e14);
  (235, 234, [ShLin 0%nat 1 (-2); ShLin 1%nat 1 2], [ShLin 0%nat 1 (-3); ShLin 1%nat 1 1], Some QS_e15);
  (235, 235, [ShLin 0%nat 1 (-2); ShLin 1%nat 1 2], [ShLin 0%nat 1 (-3); ShLin 1%nat 1 3], Some (cN 1));
  (236, 236, [ShLin 0%nat 1 (-2); ShLin 1%nat 1 (-2)], [ShLin 0%nat 1 (-3); ShLin 1%nat 1 (-1)], Some QS_e5);
  (237, 236, [ShLin 0%nat 1 (-2); ShLin 1%nat 1 0], [ShLin 0%nat 1 (-3); ShLin 1%nat 1 (-1)], Some QS_e7);
  (237, 237, [ShLin 0%nat 1 (-2); ShLin 1%nat 1 0], [ShLin 0%nat 1 (-3); ShLin 1%nat 1 1], Some QS_e14);
  (238, 237, [ShLin 0%nat 1 (-2); ShLin 1%nat 1 2], [ShLin 0%nat 1 (-3); ShLin 1%nat 1 1], Some QS_e15);
  (238, 238, [ShLin 0%nat 1 (-2); ShLin 1%nat 1 2], [ShLin 0%nat 1 (-3); ShLin 1%nat 1 3], Some (cN 1));
  (239, 239, [ShLin 0%nat 1 (-2); ShLin 1%nat 1 (-2)], [ShLin 0%nat 1 (-3); ShLin 1%nat 1 (-1)], Some QS_e5);
  (240, 239, [ShLin 0%nat 1 (-2); ShLin 1%nat 1 0], [ShLin 0%nat 1 (-3); ShLin 1%nat 1 (-1)], Some QS_e7);
  (240, 240, [ShLin 0%nat 1 (-2); ShLin 1%nat 1 0], [ShLin 0%nat 1 (-3); ShLin 1%nat 1 1], Some QS_e14);
  (241, 240, [ShLin 0%nat 1 (-2); ShLin 1%nat 1 2], [ShLin 0%nat 1 (-3); ShLin 1%nat 1 1], Some QS_e15);
  (241, 241, [ShLin 0%nat 1 (-2); ShLin 1%nat 1 2], [ShLin 0%nat 1 (-3); ShLin 1%nat 1 3], Some (cN 1));
  (242, 242, [ShLin 0%nat 1 (-2); ShLin 1%nat 1 (-2)], [ShLin 0%nat 1 (-3); ShLin 1%nat 1 (-1)], Some QS_e5);
  (243, 242, [ShLin 0%nat 1 (-2); ShLin 1%nat 1 0], [ShLin 0%nat 1 (-3); ShLin 1%nat 1 (-1)], Some QS_e7);
  (243, 243, [ShLin 0%nat 1 (-2); ShLin 1%nat 1 0], [ShLin 0%nat 1 (-3); ShLin 1%nat 1 1], Some QS_e14);
  (244, 243, [ShLin 0%nat 1 (-2); ShLin 1%nat 1 2], [ShLin 0%nat 1 (-3); ShLin 1%nat 1 1], Some QS_e15);
  (244, 244, [ShLin 0%nat 1 (-2); ShLin 1%nat 1 2], [ShLin 0%nat 1 (-3); ShLin 1%nat 1 3], Some (cN 1));
  (245, 245, [ShLin 0%nat 1 (-2); ShLin 1%nat 1 (-2)], [ShLin 0%nat 1 (-3); ShLin 1%nat 1 (-1)], Some QS_e5);
  (246, 245, [ShLin 0%nat 1 (-2); ShLin 1%nat 1 0], [ShLin 0%nat 1 (-3); ShLin 1%nat 1 (-1)], Some QS_e7);
  (246, 246, [ShLin 0%nat 1 (-2); ShLin 1%nat 1 0], [ShLin 0%nat 1 (-3); ShLin 1%nat 1 1], Some QS_e14);
  (247, 246, [ShLin 0%nat 1 (-2); ShLin 1%nat 1 2], [ShLin 0%nat 1 (-3); ShLin 1%nat 1 1], Some QS_e15);
  (247, 247, [ShLin 0%nat 1 (-2); ShLin 1%nat 1 2], [ShLin 0%nat 1 (-3); ShLin 1%nat 1 3], Some (cN 1));
  (248, 248, [ShLin 0%nat 1 (-3); ShLin 1%nat 1 (-1)], [ShLin 0%nat 1 (-4); ShLin 1%nat 1 0], Some QS_e0);
  (249, 248, [ShLin 0%nat 1 (-3); ShLin 1%nat 1 1], [ShLin 0%nat 1 (-4); ShLin 1%nat 1 0], Some QS_e1);
  (249, 249, [ShLin 0%nat 1 (-3); ShLin 1%nat 1 1], [ShLin 0%nat 1 (-4); ShLin 1%nat 1 2], Some (cN (-1)));
  (250, 250, [ShLin 0%nat 1 (-3); ShLin 1%nat 1 (-1)], [ShLin 0%nat 1 (-4); ShLin 1%nat 1 0], Some QS_e0);
  (251, 250, [ShLin 0%nat 1 (-3); ShLin 1%nat 1 1], [ShLin 0%nat 1 (-4); ShLin 1%nat 1 0], Some QS_e1);
  (251, 251, [ShLin 0%nat 1 (-3); ShLin 1%nat 1 1], [ShLin 0%nat 1 (-4); ShLin 1%nat 1 2], Some (cN (-1)));
  (252, 252, [ShLin 0%nat 1 (-3); ShLin 1%nat 1 (-1)], [ShLin 0%nat 1 (-4); ShLin 1%nat 1 0], Some QS_e0);
  (253, 252, [ShLin 0%nat 1 (-3); ShLin 1%nat 1 1], [ShLin 0%nat 1 (-4); ShLin 1%nat 1 0], Some QS_e1);
  (253, 253, [ShLin 0%nat 1 (-3); ShLin 1%nat 1 1], [ShLin 0%nat 1 (-4); ShLin 1%nat 1 2], Some (cN (-1)));
  (254, 254, [ShLin 0%nat 1 (-3); ShLin 1%nat 1 (-1)], [ShLin 0%nat 1 (-4); ShLin 1%nat 1 0], Some QS_e0);
  (255, 254, [ShLin 0%nat 1 (-3); ShLin 1%nat 1 1], [ShLin 0%nat 1 (-4); ShLin 1%nat 1 0], Some QS_e1);
  (255, 255, [ShLin 0%nat 1 (-3); ShLin 1%nat 1 1], [ShLin 0%nat 1 (-4); ShLin 1%nat 1 2], Some (cN (-1)));
  (256, 256, [ShLin 0%nat 1 (-4); ShLin 1%nat 1 0], [ShLin 0%nat 1 (-5); ShLin 1%nat 1 1], Some (cN 1))].
(** /repo/c++/symmetry/nrg-recalc-QS.hpp recalc_doublet, qs/qs-4ch-doubletm.dat *)
Definition qs_4ch_t1 : ten_table := mk_ten "doublet" [ShLin 0%nat 1 (-1); ShLin 1%nat 1 (-1)] [1; 2] [
  (1, 1, [ShLin 0%nat 1 4; ShLin 1%nat 1 0], [ShLin 0%nat 1 3; ShLin 1%nat 1 (-1)], Some (cN 1));
  (2, 2, [ShLin 0%nat 1 3; ShLin 1%nat 1 (-1)], [ShLin 0%nat 1 2; ShLin 1%nat 1 (-2)], Some (cN (-1)));
  (2, 3, [ShLin 0%nat 1 3; ShLin 1%nat 1 (-1)], [ShLin 0%nat 1 2; ShLin 1%nat 1 0], Some QS_e2);
  (3, 3, [ShLin 0%nat 1 3; ShLin 1%nat 1 1], [ShLin 0%nat 1 2; ShLin 1%nat 1 0], Some QS_e0);
  (4, 4, [ShLin 0%nat 1 3; ShLin 1%nat 1 (-1)], [ShLin 0%nat 1 2; ShLin 1%nat 1 (-2)], Some (cN (-1)));
  (4, 5, [ShLin 0%nat 1 3; ShLin 1%nat 1 (-1)], [ShLin 0%nat 1 2; ShLin 1%nat 1 0], Some QS_e2);
  (5, 5, [ShLin 0%nat 1 3; ShLin 1%nat 1 1], [ShLin 0%nat 1 2; ShLin 1%nat 1 0], Some QS_e0);
  (6, 6, [ShLin 0%nat 1 3; ShLin 1%nat 1 (-1)], [ShLin 0%nat 1 2; ShLin 1%nat 1 (-2)], Some (cN (-1)));
  (6, 7, [ShLin 0%nat 1 3; ShLin 1%nat 1 (-1)], [ShLin 0%nat 1 2; ShLin 1%nat 1 0], Some QS_e2);
  (7, 7, [ShLin 0%nat 1 3; ShLin 1%nat 1 1], [ShLin 0%nat 1 2; ShLin 1%nat 1 0], Some QS_e0);
  (8, 8, [ShLin 0%nat 1 3; ShLin 1%nat 1 (-1)], [ShLin 0%nat 1 2; ShLin 1%nat 1 (-2)], Some (cN (-1)));
  (8, 9, [ShLin 0%nat 1 3; ShLin 1%nat 1 (-1)], [ShLin 0%nat 1 2; ShLin 1%nat 1 0], Some QS_e2);
  (9, 9, [ShLin 0%nat 1 3; ShLin 1%nat 1 1], [ShLin 0%nat 1 2; ShLin 1%nat 1 0], Some QS_e0);
  (10, 10, [ShLin 0%nat 1 2; ShLin 1%nat 1 0], [ShLin 0%nat 1 1; ShLin 1%nat 1 (-1)], Some (cN 1));
  (11, 11, [ShLin 0%nat 1 2; ShLin 1%nat 1 0], [ShLin 0%nat 1 1; ShLin 1%nat 1 (-1)], Some (cN 1));
  (12, 12, [ShLin 0%nat 1 2; ShLin 1%nat 1 0], [ShLin 0%nat 1 1; ShLin 1%nat 1 (-1)], Some (cN 1));
  (13, 13, [ShLin 0%nat 1 2; ShLin 1%nat 1 0], [ShLin 0%nat 1 1; ShLin 1%nat 1 (-1)], Some (cN 1));
  (14, 14, [ShLin 0%nat 1 2; ShLin 1%nat 1 0], [ShLin 0%nat 1 1; ShLin 1%nat 1 (-1)], Some (cN 1));
  (15, 15, [ShLin 0%nat 1 2; ShLin 1%nat 1 0], [ShLin 0%nat 1 1; ShLin 1%nat 1 (-1)], Some (cN 1));
  (16, 16, [ShLin 0%nat 1 2; ShLin 1%nat 1 0], [ShLin 0%nat 1 1; ShLin 1%nat 1 (-1)], Some (cN 1));
  (17, 17, [ShLin 0%nat 1 2; ShLin 1%nat 1 0], [ShLin 0%nat 1 1; ShLin 1%nat 1 (-1)], Some (cN 1));
  (18, 18, [ShLin 0%nat 1 2; ShLin 1%nat 1 0], [ShLin 0%nat 1 1; ShLin 1%nat 1 (-1)], Some (cN 1));
  (19, 19, [ShLin 0%nat 1 2; ShLin 1%nat 1 0], [ShLin 0%nat 1 1; ShLin 1%nat 1 (-1)], Some (cN 1));
  (20, 20, [ShLin 0%nat 1 2; ShLin 1%nat 1 (-2)], [ShLin 0%nat 1 1; ShLin 1%nat 1 (-3)], Some (cN 1));
  (20, 21, [ShLin 0%nat 1 2; ShLin 1%nat 1 (-2)], [ShLin 0%nat 1 1; ShLin 1%nat 1 (-1)], Some QS_e11);
  (21, 21, [ShLin 0%nat 1 2; ShLin 1%nat 1 0], [ShLin 0%nat 1 1; ShLin 1%nat 1 (-1)], Some QS_e5);
  (21, 22, [ShLin 0%nat 1 2; ShLin 1%nat 1 0], [ShLin 0%nat 1 1; ShLin 1%nat 1 1], Some QS_e6);
  (22, 22, [ShLin 0%nat 1 2; ShLin 1%nat 1 2], [ShLin 0%nat 1 1; ShLin 1%nat 1 1], Some QS_e16);
  (23, 23, [ShLin 0%nat 1 2; ShLin 1%nat 1 (-2)], [ShLin 0%nat 1 1; ShLin 1%nat 1 (-3)], Some (cN 1));
  (23, 24, [ShLin 0%nat 1 2; ShLin 1%nat 1 (-2)], [ShLin 0%nat 1 1; ShLin 1%nat 1 (-1)], Some QS_e11);
  (24, 24, [ShLin 0%nat 1 2; ShLin 1%nat 1 0], [ShLin 0%nat 1 1; ShLin 1%nat 1 (-1)], Some QS_e5);
  (24, 25, [ShLin 0%nat 1 2; ShLin 1%nat 1 0], [ShLin 0%nat 1 1; ShLin 1%nat 1 1], Some QS_e6);
  (25, 25, [ShLin 0%nat 1 2; ShLin 1%nat 1 2], [ShLin 0%nat 1 1; ShLin 1%nat 1 1], Some QS_e16);
  (26, 26, [ShLin 0%nat 1 2; ShLin 1%nat 1 (-2)], [ShLin 0%nat 1 1; ShLin 1%nat 1 (-3)], Some (cN 1));
  (26, 27, [ShLin 0%nat 1 2; ShLin 1%nat 1 (-2)], [ShLin 0%nat 1 1; ShLin 1%nat 1 (-1)], Some QS_e11);
  (27, 27, [ShLin 0%nat 1 2; ShLin 1%nat 1 0], [ShLin 0%nat 1 1; ShLin 1%nat 1 (-1)], Some QS_e5);
  (27, 28, [ShLin 0%nat 1 2; ShLin 1%nat 1 0], [ShLin 0%nat 1 1; ShLin 1%nat 1 1], Some QS_e6);
  (28, 28, [ShLin 0%nat 1 2; ShLin 1%nat 1 2], [ShLin 0%nat 1 1; ShLin 1%nat 1 1], Some QS_e16);
  (29, 29, [ShLin 0%nat 1 2; ShLin 1%nat 1 (-2)], [ShLin 0%nat 1 1; ShLin 1%nat 1 (-3)], Some (cN 1));
  (29, 30, [ShLin 0%nat 1 2; ShLin 1%nat 1 (-2)], [ShLin 0%nat 1 1; ShLin 1%nat 1 (-1)], Some QS_e11);
  (30, 30, [ShLin 0%nat 1 2; ShLin 1%nat 1 0], [ShLin 0%nat 1 1; ShLin 1%nat 1 (-1)], Some QS_e5);
  (30, 31, [ShLin 0%nat 1 2; ShLin 1%nat 1 0], [ShLin 0%nat 1 1; ShLin 1%nat 1 1], Some QS_e6);
  (31, 31, [ShLin 0%nat 1 2; ShLin 1%nat 1 2], [ShLin 0%nat 1 1; ShLin 1%nat 1 1], Some QS_e16);
  (32, 32, [ShLin 0%nat 1 2; ShLin 1%nat 1 (-2)], [ShLin 0%nat 1 1; ShLin 1%nat 1 (-3)], Some (cN 1));
  (32, 33, [ShLin 0%nat 1 2; ShLin 1%nat 1 (-2)], [ShLin 0%nat 1 1; ShLin 1%nat 1 (-1)], Some QS_e11);
  (33, 33, [ShLin 0%nat 1 2; ShLin 1%nat 1 0], [ShLin 0%nat 1 1; ShLin 1%nat 1 (-1)], Some QS_e5);
  (33, 34, [ShLin 0%nat 1 2; ShLin 1%nat 1 0], [ShLin 0%nat 1 1; ShLin 1%nat 1 1], Some QS_e6);
  (34, 34, [ShLin 0%nat 1 2; ShLin 1%nat 1 2], [ShLin 0%nat 1 1; ShLin 1%nat 1 1], Some QS_e16);
  (35, 35, [ShLin 0%nat 1 2; ShLin 1%nat 1 (-2)], [ShLin 0%nat 1 1; ShLin 1%nat 1 (-3)], Some (cN 1));
  (35, 36, [ShLin 0%nat 1 2; ShLin 1%nat 1 (-2)], [ShLin 0%nat 1 1; ShLin 1%nat 1 (-1)], Some QS_e11);
  (36, 36, [ShLin 0%nat 1 2; ShLin 1%nat 1 0], [ShLin 0%nat 1 1; ShLin 1%nat 1 (-1)], Some QS_e5);
  (36, 37, [ShLin 0%nat 1 2; ShLin 1%nat 1 0], [ShLin 0%nat 1 1; ShLin 1%nat 1 1], Some QS_e6);
  (37, 37, [ShLin 0%nat 1 2; ShLin 1%nat 1 2], [ShLin 0%nat 1 1; ShLin 1%nat 1 1], Some QS_e16);
  (38, 38, [ShLin 0%nat 1 1; ShLin 1%nat 1 (-1)], [ShLin 0%nat 1 0; ShLin 1%nat 1 (-2)], Some (cN (-1)));
  (38, 39, [ShLin 0%nat 1 1; ShLin 1%nat 1 (-1)], [ShLin 0%nat 1 0; ShLin 1%nat 1 0], Some QS_e2);
  (39, 39, [ShLin 0%nat 1 1; ShLin 1%nat 1 1], [ShLin 0%nat 1 0; ShLin 1%nat 1 0], Some QS_e0);
  (40, 40, [ShLin 0%nat 1 1; ShLin 1%nat 1 (-1)], [ShLin 0%nat 1 0; ShLin 1%nat 1 (-2)], Some (cN (-1)));
  (40, 41, [ShLin 0%nat 1 1; ShLin 1%nat 1 (-1)], [ShLin 0%nat 1 0; ShLin 1%nat 1 0], Some QS_e2);
  (41, 41, [ShLin 0%nat 1 1; ShLin 1%nat 1 1], [ShLin 0%nat 1 0; ShLin 1%nat 1 0], Some QS_e0);
  (42, 42, [ShLin 0%nat 1 1; ShLin 1%nat 1 (-1)], [ShLin 0%nat 1 0; ShLin 1%nat 1 (-2)], Some (cN (-1)));
  (42, 43, [ShLin 0%nat 1 1; ShLin 1%nat 1 (-1)], [ShLin 0%nat 1 0; ShLin 1%nat 1 0], Some QS_e2);
  (43, 43, [ShLin 0%nat 1 1; ShLin 1%nat 1 1], [ShLin 0%nat 1 0; ShLin 1%nat 1 0], Some QS_e0);
  (44, 44, [ShLin 0%nat 1 1; ShLin 1%nat 1 (-1)], [ShLin 0%nat 1 0; ShLin 1%nat 1 (-2)], Some (cN (-1)));
  (44, 45, [ShLin 0%nat 1 1; ShLin 1%nat 1 (-1)], [ShLin 0%nat 1 0; ShLin 1%nat 1 0], Some QS_e2);
  (45, 45, [ShLin 0%nat 1 1; ShLin 1%nat 1 1], [ShLin 0%nat 1 0; ShLin 1%nat 1 0], Some QS_e0);
  (46, 46, [ShLin 0%nat 1 1; ShLin 1%nat 1 (-1)], [ShLin 0%nat 1 0; ShLin 1%nat 1 (-2)], Some (cN (-1)));
  (46, 47, [ShLin 0%nat 1 1; ShLin 1%nat 1 (-1)], [ShLin 0%nat 1 0; ShLin 1%nat 1 0], Some QS_e2);
  (47, 47, [ShLin 0%nat 1 1; ShLin 1%nat 1 1], [ShLin 0%nat 1 0; ShLin 1%nat 1 0], Some QS_e0);
  (48, 48, [ShLin 0%nat 1 1; ShLin 1%nat 1 (-1)], [ShLin 0%nat 1 0; ShLin 1%nat 1 (-2)], Some (cN (-1)));
  (48, 49, [ShLin 0%nat 1 1; ShLin 1%nat 1 (-1)], [ShLin 0%nat 1 0; ShLin 1%nat 1 0], Some QS_e2);
  (49, 49, [ShLin 0%nat 1 1; ShLin 1%nat 1 1], [ShLin 0%nat 1 0; ShLin 1%nat 1 0], Some QS_e0);
  (50, 50, [ShLin 0%nat 1 1; ShLin 1%nat 1 (-1)], [ShLin 0%nat 1 0; ShLin 1%nat 1 (-2)], Some (cN (-1)));
  (50, 51, [ShLin 0%nat 1 1; ShLin 1%nat 1 (-1)], [ShLin 0%nat 1 0; ShLin 1%nat 1 0], Some QS_e2);
  (51, 51, [ShLin 0%nat 1 1; ShLin 1%nat 1 1], [ShLin 0%nat 1 0; ShLin 1%nat 1 0], Some QS_e0);
  (52, 52, [ShLin 0%nat 1 1; ShLin 1%nat 1 (-1)], [ShLin 0%nat 1 0; ShLin 1%nat 1 (-2)], Some (cN (-1)));
  (52, 53, [ShLin 0%nat 1 1; ShLin 1%nat 1 (-1)], [ShLin 0%nat 1 0; ShLin 1%nat 1 0], Some QS_e2);
  (53, 53, [ShLin 0%nat 1 1; ShLin 1%nat 1 1], [ShLin 0%nat 1 0; ShLin 1%nat 1 0], Some QS_e0);
  (54, 54, [ShLin 0%nat 1 1; ShLin 1%nat 1 (-1)], [ShLin 0%nat 1 0; ShLin 1%nat 1 (-2)], Some (cN (-1)));
  (54, 55, [ShLin 0%nat 1 1; ShLin 1%nat 1 (-1)], [ShLin 0%nat 1 0; ShLin 1%nat 1 0], Some QS_e2);
  (55, 55, [ShLin 0%nat 1 1; ShLin 1%nat 1 1], [ShLin 0%nat 1 0; ShLin 1%nat 1 0], Some QS_e0);
  (56, 56, [ShLin 0%nat 1 1; ShLin 1%nat 1 (-1)], [ShLin 0%nat 1 0; ShLin 1%nat 1 (-2)], Some (cN (-1)));
  (56, 57, [ShLin 0%nat 1 1; ShLin 1%nat 1 (-1)], [ShLin 0%nat 1 0; ShLin 1%nat 1 0], Some QS_e2);
  (57, 57, [ShLin 0%nat 1 1; ShLin 1%nat 1 1], [ShLin 0%nat 1 0; ShLin 1%nat 1 0], Some QS_e0);
  (58, 58, [ShLin 0%nat 1 1; ShLin 1%nat 1 (-1)], [ShLin 0%nat 1 0; ShLin 1%nat 1 (-2)], Some (cN (-1)));
  (58, 59, [ShLin 0%nat 1 1; ShLin 1%nat 1 (-1)], [ShLin 0%nat 1 0; ShLin 1%nat 1 0], Some QS_e2);
  (59, 59, [ShLin 0%nat 1 1; ShLin 1%nat 1 1], [ShLin 0%nat 1 0; ShLin 1%nat 1 0], Some QS_e0);
  (60, 60, [ShLin 0%nat 1 1; ShLin 1%nat 1 (-1)], [ShLin 0%nat 1 0; ShLin 1%nat 1 (-2)], Some (cN (-1)));
  (60, 61, [ShLin 0%nat 1 1; ShLin 1%nat 1 (-1)], [ShLin 0%nat 1 0; ShLin 1%nat 1 0], Some QS_e2);
  (61, 61, [ShLin 0%nat 1 1; ShLin 1%nat 1 1], [ShLin 0%nat 1 0; ShLin 1%nat 1 0], Some QS_e0);
  (62, 62, [ShLin 0%nat 1 1; ShLin 1%nat 1 (-1)], [ShLin 0%nat 1 0; ShLin 1%nat 1 (-2)], Some (cN (-1)));
  (62, 63, [ShLin 0%nat 1 1; ShLin 1%nat 1 (-1)], [ShLin 0%nat 1 0; ShLin 1%nat 1 0], Some QS_e2);
  (63, 63, [ShLin 0%nat 1 1; ShLin 1%nat 1 1], [ShLin 0%nat 1 0; ShLin 1%nat 1 0], Some QS_e0);
  (64, 64, [ShLin 0%nat 1 1; ShLin 1%nat 1 (-1)], [ShLin 0%nat 1 0; ShLin 1%nat 1 (-2)], Some (cN (-1)));
  (64, 65, [ShLin 0%nat 1 1; ShLin 1%nat 1 (-1)], [ShLin 0%nat 1 0; ShLin 1%nat 1 0], Some QS_e2);
  (65, 65, [ShLin 0%nat 1 1; ShLin 1%nat 1 1], [ShLin 0%nat 1 0; ShLin 1%nat 1 0], Some QS_e0);
  (66, 66, [ShLin 0%nat 1 1; ShLin 1%nat 1 (-1)], [ShLin 0%nat 1 0; ShLin 1%nat 1 (-2)], Some (cN (-1)));
  (66, 67, [ShLin 0%nat 1 1; ShLin 1%nat 1 (-1)], [ShLin 0%nat 1 0; ShLin 1%nat 1 0], Some QS_e2);
  (67, 67, [ShLin 0%nat 1 1; ShLin 1%nat 1 1], [ShLin 0%nat 1 0; ShLin 1%nat 1 0], Some QS_e0);
  (68, 68, [ShLin 0%nat 1 1; ShLin 1%nat 1 (-1)], [ShLin 0%nat 1 0; ShLin 1%nat 1 (-2)], Some (cN (-1)));
  (68, 69, [ShLin 0%nat 1 1; ShLin 1%nat 1 (-1)], [ShLin 0%nat 1 0; ShLin 1%nat 1 0], Some QS_e2);
  (69, 69, [ShLin 0%nat 1 1; ShLin 1%nat 1 1], [ShLin 0%nat 1 0; ShLin 1%nat 1 0], Some QS_e0);
  (70, 70, [ShLin 0%nat 1 1; ShLin 1%nat 1 (-1)], [ShLin 0%nat 1 0; ShLin 1%nat 1 (-2)], Some (cN (-1)));
  (70, 71, [ShLin 0%nat 1 1; ShLin 1%nat 1 (-1)], [ShLin 0%nat 1 0; ShLin 1%nat 1 0], Some QS_e2);
  (71, 71, [ShLin 0%nat 1 1; ShLin 1%nat 1 1], [ShLin 0%nat 1 0; ShLin 1%nat 1 0], Some QS_e0);
  (72, 72, [ShLin 0%nat 1 1; ShLin 1%nat 1 (-1)], [ShLin 0%nat 1 0; ShLin 1%nat 1 (-2)], Some (cN (-1)));
  (72, 73, [ShLin 0%nat 1 1; ShLin 1%nat 1 (-1)], [ShLin 0%nat 1 0; ShLin 1%nat 1 0], Some QS_e2);
  (73, 73, [ShLin 0%nat 1 1; ShLin 1%nat 1 1], [ShLin 0%nat 1 0; ShLin 1%nat 1 0], Some QS_e0);
  (74, 74, [ShLin 0%nat 1 1; ShLin 1%nat 1 (-1)], [ShLin 0%nat 1 0; ShLin 1%nat 1 (-2)], Some (cN (-1)));
  (74, 75, [ShLin 0%nat 1 1; ShLin 1%nat 1 (-1)], [ShLin 0%nat 1 0; ShLin 1%nat 1 0], Some QS_e2);
  (75, 75, [ShLin 0%nat 1 1; ShLin 1%nat 1 1], [ShLin 0%nat 1 0; ShLin 1%nat 1 0], Some QS_e0);
  (76, 76, [ShLin 0%nat 1 1; ShLin 1%nat 1 (-1)], [ShLin 0%nat 1 0; ShLin 1%nat 1 (-2)], Some (cN (-1)));
  (76, 77, [ShLin 0%nat 1 1; ShLin 1%nat 1 (-1)], [ShLin 0%nat 1 0; ShLin 1%nat 1 0], Some QS_e2);
  (77, 77, [ShLin 0%nat 1 1; ShLin 1%nat 1 1], [ShLin 0%nat 1 0; ShLin 1%nat 1 0], Some QS_e0);
  (78, 78, [ShLin 0%nat 1 1; ShLin 1%nat 1 (-3)], [ShLin 0%nat 1 0; ShLin 1%nat 1 (-4)], Some (cN (-1)));
  (78, 79, [ShLin 0%nat 1 1; ShLin 1%nat 1 (-3)], [ShLin 0%nat 1 0; ShLin 1%nat 1 (-2)], Some QS_e58);
  (79, 79, [ShLin 0%nat 1 1; ShLin 1%nat 1 (-1)], [ShLin 0%nat 1 0; ShLin 1%nat 1 (-2)], Some QS_e59);
  (79, 80, [ShLin 0%nat 1 1; ShLin 1%nat 1 (-1)], [ShLin 0%nat 1 0; ShLin 1%nat 1 0], Some QS_e60);
  (80, 80, [ShLin 0%nat 1 1; ShLin 1%nat 1 1], [ShLin 0%nat 1 0; ShLin 1%nat 1 0], Some QS_e54);
  (80, 81, [ShLin 0%nat 1 1; ShLin 1%nat 1 1], [ShLin 0%nat 1 0; ShLin 1%nat 1 2], Some QS_e61);
  (81, 81, [ShLin 0%nat 1 1; ShLin 1%nat 1 3], [ShLin 0%nat 1 0; ShLin 1%nat 1 2], Some QS_e62);
  (82, 82, [ShLin 0%nat 1 1; ShLin 1%nat 1 (-3)], [ShLin 0%nat 1 0; ShLin 1%nat 1 (-4)], Some (cN (-1)));
  (82, 83, [ShLin 0%nat 1 1; ShLin 1%nat 1 (-3)], [ShLin 0%nat 1 0; ShLin 1%nat 1 (-2)], Some QS_e58);
  (83, 83, [ShLin 0%nat 1 1; ShLin 1%nat 1 (-1)], [ShLin 0%nat 1 0; ShLin 1%nat 1 (-2)], Some QS_e59);
  (83, 84, [ShLin 0%nat 1 1; ShLin 1%nat 1 (-1)], [ShLin 0%nat 1 0; ShLin 1%nat 1 0], Some QS_e60);
  (84, 84, [ShLin 0%nat 1 1; ShLin 1%nat 1 1], [ShLin 0%nat 1 0; ShLin 1%nat 1 0], Some QS_e54);
  (84, 85, [ShLin 0%nat 1 1; ShLin 1%nat 1 1], [ShLin 0%nat 1 0; ShLin 1%nat 1 2], Some QS_e61);
  (85, 85, [ShLin 0%nat 1 1; ShLin 1%nat 1 3], [ShLin 0%nat 1 0; ShLin 1%nat 1 2], Some QS_e62);
  (86, 86, [ShLin 0%nat 1 1; ShLin 1%nat 1 (-3)], [ShLin 0%nat 1 0; ShLin 1%nat 1 (-4)], Some (cN (-1)));
  (86, 87, [ShLin 0%nat 1 1; ShLin 1%nat 1 (-3)], [ShLin 0%nat 1 0; ShLin 1%nat 1 (-2)], Some QS_e58);
  (87, 87, [ShLin 0%nat 1 1; ShLin 1%nat 1 (-1)], [ShLin 0%nat 1 0; ShLin 1%nat 1 (-2)], Some QS_e59);
  (87, 88, [ShLin 0%nat 1 1; ShLin 1%nat 1 (-1)], [ShLin 0%nat 1 0; ShLin 1%nat 1 0], Some QS_e60);
  (88, 88, [ShLin 0%nat 1 1; ShLin 1%nat 1 1], [ShLin 0%nat 1 0; ShLin 1%nat 1 0], Some QS_e54);
  (88, 89, [ShLin 0%nat 1 1; ShLin 1%nat 1 1], [ShLin 0%nat 1 0; ShLin 1%nat 1 2], Some QS_e61);
  (89, 89, [ShLin 0%nat 1 1; ShLin 1%nat 1 3], [ShLin 0%nat 1 0; ShLin 1%nat 1 2], Some QS_e62);
  (90, 90, [ShLin 0%nat 1 1; ShLin 1%nat 1 (-3)], [ShLin 0%nat 1 0; ShLin 1%nat 1 (-4)], Some (cN (-1)));
  (90, 91, [ShLin 0%nat 1 1; ShLin 1%nat 1 (-3)], [ShLin 0%nat 1 0; ShLin 1%nat 1 (-2)], Some QS_e58);
  (91, 91, [ShLin 0%nat 1 1; ShLin 1%nat 1 (-1)], [ShLin 0%nat 1 0; ShLin 1%nat 1 (-2)], Some QS_e59);
  (91, 92, [ShLin 0%nat 1 1; ShLin 1%nat 1 (-1)], [ShLin 0%nat 1 0; ShLin 1%nat 1 0], Some QS_e60);
  (92, 92, [ShLin 0%nat 1 1; ShLin 1%nat 1 1], [ShLin 0%nat 1 0; ShLin 1%nat 1 0], Some QS_e54);
  (92, 93, [ShLin 0%nat 1 1; ShLin 1%nat 1 1], [ShLin 0%nat 1 0; ShLin 1%nat 1 2], Some QS_e61);
  (93, 93, [ShLin 0%nat 1 1; ShLin 1%nat 1 3], [ShLin 0%nat 1 0; ShLin 1%nat 1 2], Some QS_e62);
  (94, 94, [ShLin 0%nat 1 0; ShLin 1%nat 1 0], [ShLin 0%nat 1 (-1); ShLin 1%nat 1 (-1)], Some (cN 1));
  (95, 95, [ShLin 0%nat 1 0; ShLin 1%nat 1 0], [ShLin 0%nat 1 (-1); ShLin 1%nat 1 (-1)], Some (cN 1));
  (96, 96, [ShLin 0%nat 1 0; ShLin 1%nat 1 0], [ShLin 0%nat 1 (-1); ShLin 1%nat 1 (-1)], Some (cN 1));
  (97, 97, [ShLin 0%nat 1 0; ShLin 1%nat 1 0], [ShLin 0%nat 1 (-1); ShLin 1%nat 1 (-1)], Some (cN 1));
  (98, 98, [ShLin 0%nat 1 0; ShLin 1%nat 1 0], [ShLin 0%nat 1 (-1); ShLin 1%nat 1 (-1)], Some (cN 1));
  (99, 99, [ShLin 0%nat 1 0; ShLin 1%nat 1 0], [ShLin 0%nat 1 (-1); ShLin 1%nat 1 (-1)], Some (cN 1));
  (100, 100, [ShLin 0%nat 1 0; ShLin 1%nat 1 0], [ShLin 0%nat 1 (-1); ShLin 1%nat 1 (-1)], Some (cN 1));
  (101, 101, [ShLin 0%nat 1 0; ShLin 1%nat 1 0], [ShLin 0%nat 1 (-1); ShLin 1%nat 1 (-1)], Some (cN 1));
  (102, 102, [ShLin 0%nat 1 0; ShLin 1%nat 1 0], [ShLin 0%nat 1 (-1); ShLin 1%nat 1 (-1)], Some (cN 1));
  (103, 103, [ShLin 0%nat 1 0; ShLin 1%nat 1 0], [ShLin 0%nat 1 (-1); ShLin 1%nat 1 (-1)], Some (cN 1));
  (104, 104, [ShLin 0%nat 1 0; ShLin 1%nat 1 0], [ShLin 0%nat 1 (-1); ShLin 1%nat 1 (-1)], Some (cN 1));
  (105, 105, [ShLin 0%nat 1 0; ShLin 1%nat 1 0], [ShLin 0%nat 1 (-1); ShLin 1%nat 1 (-1)], Some (cN 1));
  (106, 106, [ShLin 0%nat 1 0; ShLin 1%nat 1 0], [ShLin 0%nat 1 (-1); ShLin 1%nat 1 (-1)], Some (cN 1));
  (107, 107, [ShLin 0%nat 1 0; ShLin 1%nat 1 0], [ShLin 0%nat 1 (-1); ShLin 1%nat 1 (-1)], Some (cN 1));
  (108, 108, [ShLin 0%nat 1 0; ShLin 1%nat 1 0], [ShLin 0%nat 1 (-1); ShLin 1%nat 1 (-1)], Some (cN 1));
  (109, 109, [ShLin 0%nat 1 0; ShLin 1%nat 1 0], [ShLin 0%nat 1 (-1); ShLin 1%nat 1 (-1)], Some (cN 1));
  (110, 110, [ShLin 0%nat 1 0; ShLin 1%nat 1 0], [ShLin 0%nat 1 (-1); ShLin 1%nat 1 (-1)], Some (cN 1));
  (111, 111, [ShLin 0%nat 1 0; ShLin 1%nat 1 0], [ShLin 0%nat 1 (-1); ShLin 1%nat 1 (-1)], Some (cN 1));
  (112, 112, [ShLin 0%nat 1 0; ShLin 1%nat 1 0], [ShLin 0%nat 1 (-1); ShLin 1%nat 1 (-1)], Some (cN 1));
  (113, 113, [ShLin 0%nat 1 0; ShLin 1%nat 1 0], [ShLin 0%nat 1 (-1); ShLin 1%nat 1 (-1)], Some (cN 1));
  (114, 114, [ShLin 0%nat 1 0; ShLin 1%nat 1 (-2)], [ShLin 0%nat 1 (-1); ShLin 1%nat 1 (-3)], Some (cN 1));
  (114, 115, [ShLin 0%nat 1 0; ShLin 1%nat 1 (-2)], [ShLin 0%nat 1 (-1); ShLin 1%nat 1 (-1)], Some QS_e11);
  (115, 115, [ShLin 0%nat 1 0; ShLin 1%nat 1 0], [ShLin 0%nat 1 (-1); ShLin 1%nat 1 (-1)], Some QS_e5);
  (115, 116, [ShLin 0%nat 1 0; ShLin 1%nat 1 0], [ShLin 0%nat 1 (-1); ShLin 1%nat 1 1], Some QS_e6);
  (116, 116, [ShLin 0%nat 1 0; ShLin 1%nat 1 2], [ShLin 0%nat 1 (-1); ShLin 1%nat 1 1], Some QS_e16);
  (117, 117, [ShLin 0%nat 1 0; ShLin 1%nat 1 (-2)], [ShLin 0%nat 1 (-1); ShLin 1%nat 1 (-3)], Some (cN 1));
  (117, 118, [ShLin 0%nat 1 0; ShLin 1%nat 1 (-2)], [ShLin 0%nat 1 (-1); ShLin 1%nat 1 (-1)], Some QS_e11);
  (118, 118, [ShLin 0%nat 1 0; ShLin 1%nat 1 0], [ShLin 0%nat 1 (-1); ShLin 1%nat 1 (-1)], Some QS_e5);
  (118, 119, [ShLin 0%nat 1 0; ShLin 1%nat 1 0], [ShLin 0%nat 1 (-1); ShLin 1%nat 1 1], Some QS_e6);
  (119, 119, [ShLin 0%nat 1 0; ShLin 1%nat 1 2], [ShLin 0%nat 1 (-1); ShLin 1%nat 1 1], Some QS_e16);
  (120, 120, [ShLin 0%nat 1 0; ShLin 1%nat 1 (-2)], [ShLin 0%nat 1 (-1); ShLin 1%nat 1 (-3)], Some (cN 1));
  (120, 121, [ShLin 0%nat 1 0; ShLin 1%nat 1 (-2)], [ShLin 0%nat 1 (-1); ShLin 1%nat 1 (-1)], Some QS_e11);
  (121, 121, [ShLin 0%nat 1 0; ShLin 1%nat 1 0], [ShLin 0%nat 1 (-1); ShLin 1%nat 1 (-1)], Some QS_e5);
  (121, 122, [ShLin 0%nat 1 0; ShLin 1%nat 1 0], [ShLin 0%nat 1 (-1); ShLin 1%nat 1 1], Some QS_e6);
  (122, 122, [ShLin 0%nat 1 0; ShLin 1%nat 1 2], [ShLin 0%nat 1 (-1); ShLin 1%nat 1 1], Some QS_e16);
  (123, 123, [ShLin 0%nat 1 0; ShLin 1%nat 1 (-2)], [ShLin 0%nat 1 (-1); ShLin 1%nat 1 (-3)], Some (cN 1));
  (123, 124, [ShLin 0%nat 1 0; ShLin 1%nat 1 (-2)], [ShLin 0%nat 1 (-1); ShLin 1%nat 1 (-1)], Some QS_e11);
  (124, 124, [ShLin 0%nat 1 0; ShLin 1%nat 1 0], [ShLin 0%nat 1 (-1); ShLin 1%nat 1 (-1)], Some QS_e5);
  (124, 125, [ShLin 0%nat 1 0; ShLin 1%nat 1 0], [ShLin 0%nat 1 (-1); ShLin 1%nat 1 1], Some QS_e6);
  (125, 125, [ShLin 0%nat 1 0; ShLin 1%nat 1 2], [ShLin 0%nat 1 (-1); ShLin 1%nat 1 1], Some QS_e16);
  (126, 126, [ShLin 0%nat 1 0; ShLin 1%nat 1 (-2)], [ShLin 0%nat 1 (-1); ShLin 1%nat 1 (-3)], Some (cN 1));
  (126, 127, [ShLin 0%nat 1 0; ShLin 1%nat 1 (-2)], [ShLin 0%nat 1 (-1); ShLin 1%nat 1 (-1)], Some QS_e11);
  (127, 127, [ShLin 0%nat 1 0; ShLin 1%nat 1 0], [ShLin 0%nat 1 (-1); ShLin 1%nat 1 (-1)], Some QS_e5);
  (127, 128, [ShLin 0%nat 1 0; ShLin 1%nat 1 0], [ShLin 0%nat 1 (-1); ShLin 1%nat 1 1], Some QS_e6);
  (128, 128, [ShLin 0%nat 1 0; ShLin 1%nat 1 2], [ShLin 0%nat 1 (-1); ShLin 1%nat 1 1], Some QS_e16);
  (129, 129, [ShLin 0%nat 1 0; ShLin 1%nat 1 (-2)], [ShLin 0%nat 1 (-1); ShLin 1%nat 1 (-3)], Some (cN 1));
  (129, 130, [ShLin 0%nat 1 0; ShLin 1%nat 1 (-2)], [ShLin 0%nat 1 (-1); ShLin 1%nat 1 (-1)], Some QS_e11);
  (130, 130, [ShLin 0%nat 1 0; ShLin 1%nat 1 0], [ShLin 0%nat 1 (-1); ShLin 1%nat 1 (-1)], Some QS_e5);
  (130, 131, [ShLin 0%nat 1 0; ShLin 1%nat 1 0], [ShLin 0%nat 1 (-1); ShLin 1%nat 1 1], Some QS_e6);
  (131, 131, [ShLin 0%nat 1 0; ShLin 1%nat 1 2], [ShLin 0%nat 1 (-1); ShLin 1%nat 1 1], Some QS_e16);
  (132, 132, [ShLin 0%nat 1 0; ShLin 1%nat 1 (-2)], [ShLin 0%nat 1 (-1); ShLin 1%nat 1 (-3)], Some (cN 1));
  (132, 133, [ShLin 0%nat 1 0; ShLin 1%nat 1 (-2)], [ShLin 0%nat 1 (-1); ShLin 1%nat 1 (-1)], Some QS_e11);
  (133, 133, [ShLin 0%nat 1 0; ShLin 1%nat 1 0], [ShLin 0%nat 1 (-1); ShLin 1%nat 1 (-1)], Some QS_e5);
  (133, 134, [ShLin 0%nat 1 0; ShLin 1%nat 1 0], [ShLin 0%nat 1 (-1); ShLin 1%nat 1 1], Some QS_e6);
  (134, 134, [ShLin 0%nat 1 0; ShLin 1%nat 1 2], [ShLin 0%nat 1 (-1); ShLin 1%nat 1 1], Some QS_e16);
  (135, 135, [ShLin 0%nat 1 0; ShLin 1%nat 1 (-2)], [ShLin 0%nat 1 (-1); ShLin 1%nat 1 (-3)], Some (cN 1));
  (135, 136, [ShLin 0%nat 1 0; ShLin 1%nat 1 (-2)], [ShLin 0%nat 1 (-1); ShLin 1%nat 1 (-1)], Some QS_e11);
  (136, 136, [ShLin 0%nat 1 0; ShLin 1%nat 1 0], [ShLin 0%nat 1 (-1); ShLin 1%nat 1 (-1)], Some QS_e5);
  (136, 137, [ShLin 0%nat 1 0; ShLin 1%nat 1 0], [ShLin 0%nat 1 (-1); ShLin 1%nat 1 1], Some QS_e6);
  (137, 137, [ShLin 0%nat 1 0; ShLin 1%nat 1 2], [ShLin 0%nat 1 (-1); ShLin 1%nat 1 1], Some QS_e16);
  (138, 138, [ShLin 0%nat 1 0; ShLin 1%nat 1 (-2)], [ShLin 0%nat 1 (-1); ShLin 1%nat 1 (-3)], Some (cN 1));
  (138, 139, [ShLin 0%nat 1 0; ShLin 1%nat 1 (-2)], [ShLin 0%nat 1 (-1); ShLin 1%nat 1 (-1)], Some QS_e11);
  (139, 139, [ShLin 0%nat 1 0; ShLin 1%nat 1 0], [ShLin 0%nat 1 (-1); ShLin 1%nat 1 (-1)], Some QS_e5);
  (139, 140, [ShLin 0%nat 1 0; ShLin 1%nat 1 0], [ShLin 0%nat 1 (-1); ShLin 1%nat 1 1], Some QS_e6);
  (140, 140, [ShLin 0%nat 1 0; ShLin 1%nat 1 2], [ShLin 0%nat 1 (-1); ShLin 1%nat 1 1], Some QS_e16);
  (141, 141, [ShLin 0%nat 1 0; ShLin 1%nat 1 (-2)], [ShLin 0%nat 1 (-1); ShLin 1%nat 1 (-3)], Some (cN 1));
  (141, 142, [ShLin 0%nat 1 0; ShLin 1%nat 1 (-2)], [ShLin 0%nat 1 (-1); ShLin 1%nat 1 (-1)], Some QS_e11);
  (142, 142, [ShLin 0%nat 1 0; ShLin 1%nat 1 0], [ShLin 0%nat 1 (-1); ShLin 1%nat 1 (-1)], Some QS_e5);
  (142, 143, [ShLin 0%nat 1 0; ShLin 1%nat 1 0], [ShLin 0%nat 1 (-1); ShLin 1%nat 1 1], Some QS_e6);
  (143, 143, [ShLin 0%nat 1 0; ShLin 1%nat 1 2], [ShLin 0%nat 1 (-1); ShLin 1%nat 1 1], Some QS_e16);
  (144, 144, [ShLin 0%nat 1 0; ShLin 1%nat 1 (-2)], [ShLin 0%nat 1 (-1); ShLin 1%nat 1 (-3)], Some (cN 1));
  (144, 145, [ShLin 0%nat 1 0; ShLin 1%nat 1 (-2)], [ShLin 0%nat 1 (-1); ShLin 1%nat 1 (-1)], Some QS_e11);
  (145, 145, [ShLin 0%nat 1 0; ShLin 1%nat 1 0], [ShLin 0%nat 1 (-1); ShLin 1%nat 1 (-1)], Some QS_e5);
  (145, 146, [ShLin 0%nat 1 0; ShLin 1%nat 1 0], [ShLin 0%nat 1 (-1); ShLin 1%nat 1 1], Some QS_e6);
  (146, 146, [ShLin 0%nat 1 0; ShLin 1%nat 1 2], [ShLin 0%nat 1 (-1); ShLin 1%nat 1 1], Some QS_e16);
  (147, 147, [ShLin 0%nat 1 0; ShLin 1%nat 1 (-2)], [ShLin 0%nat 1 (-1); ShLin 1%nat 1 (-3)], Some (cN 1));
  (147, 148, [ShLin 0%nat 1 0; ShLin 1%nat 1 (-2)], [ShLin 0%nat 1 (-1); ShLin 1%nat 1 (-1)], Some QS_e11);
  (148, 148, [ShLin 0%nat 1 0; ShLin 1%nat 1 0], [ShLin 0%nat 1 (-1); ShLin 1%nat 1 (-1)], Some QS_e5);
  (148, 149, [ShLin 0%nat 1 0; ShLin 1%nat 1 0], [ShLin 0%nat 1 (-1); ShLin 1%nat 1 1], Some QS_e6);
  (149, 149, [ShLin 0%nat 1 0; ShLin 1%nat 1 2], [ShLin 0%nat 1 (-1); ShLin 1%nat 1 1], Some QS_e16);
  (150, 150, [ShLin 0%nat 1 0; ShLin 1%nat 1 (-2)], [ShLin 0%nat 1 (-1); ShLin 1%nat 1 (-3)], Some (cN 1));
  (150, 151, [ShLin 0%nat 1 0; ShLin 1%nat 1 (-2)], [ShLin 0%nat 1 (-1); ShLin 1%nat 1 (-1)], Some QS_e11);
  (151, 151, [ShLin 0%nat 1 0; ShLin 1%nat 1 0], [ShLin 0%nat 1 (-1); ShLin 1%nat 1 (-1)], Some QS_e5);
  (151, 152, [ShLin 0%nat 1 0; ShLin 1%nat 1 0], [ShLin 0%nat 1 (-1); ShLin 1%nat 1 1], Some QS_e6);
  (152, 152, [ShLin 0%nat 1 0; ShLin 1%nat 1 2], [ShLin 0%nat 1 (-1); ShLin 1%nat 1 1], Some QS_e16);
  (153, 153, [ShLin 0%nat 1 0; ShLin 1%nat 1 (-2)], [ShLin 0%nat 1 (-1); ShLin 1%nat 1 (-3)], Some (cN 1));
  (153, 154, [ShLin 0%nat 1 0; ShLin 1%nat 1 (-2)], [ShLin 0%nat 1 (-1); ShLin 1%nat 1 (-1)], Some QS_e11);
  (154, 154, [ShLin 0%nat 1 0; ShLin 1%nat 1 0], [ShLin 0%nat 1 (-1); ShLin 1%nat 1 (-1)], Some QS_e5);
  (154, 155, [ShLin 0%nat 1 0; ShLin 1%nat 1 0], [ShLin 0%nat 1 (-1); ShLin 1%nat 1 1], Some QS_e6);
  (155, 155, [ShLin 0%nat 1 0; ShLin 1%nat 1 2], [ShLin 0%nat 1 (-1); ShLin 1%nat 1 1], Some QS_e16);
  (156, 156, [ShLin 0%nat 1 0; ShLin 1%nat 1 (-2)], [ShLin 0%nat 1 (-1); ShLin 1%nat 1 (-3)], Some (cN 1));
  (156, 157, [ShLin 0%nat 1 0; ShLin 1%nat 1 (-2)], [ShLin 0%nat 1 (-1); ShLin 1%nat 1 (-1)], Some QS_e11);
  (157, 157, [ShLin 0%nat 1 0; ShLin 1%nat 1 0], [ShLin 0%nat 1 (-1); ShLin 1%nat 1 (-1)], Some QS_e5);
  (157, 158, [ShLin 0%nat 1 0; ShLin 1%nat 1 0], [ShLin 0%nat 1 (-1); ShLin 1%nat 1 1], Some QS_e6);
  (158, 158, [ShLin 0%nat 1 0; ShLin 1%nat 1 2], [ShLin 0%nat 1 (-1); ShLin 1%nat 1 1], Some QS_e16);
  (159, 159, [ShLin 0%nat 1 0; ShLin 1%nat 1 (-4)], [ShLin 0%nat 1 (-1); ShLin 1%nat 1 (-5)], Some (cN 1));
  (159, 160, [ShLin 0%nat 1 0; ShLin 1%nat 1 (-4)], [ShLin 0%nat 1 (-1); ShLin 1%nat 1 (-3)], Some QS_e181);
  (160, 160, [ShLin 0%nat 1 0; ShLin 1%nat 1 (-2)], [ShLin 0%nat 1 (-1); ShLin 1%nat 1 (-3)], Some QS_e182);
  (160, 161, [ShLin 0%nat 1 0; ShLin 1%nat 1 (-2)], [ShLin 0%nat 1 (-1); ShLin 1%nat 1 (-1)], Some QS_e183);
  (161, 161, [ShLin 0%nat 1 0; ShLin 1%nat 1 0], [ShLin 0%nat 1 (-1); ShLin 1%nat 1 (-1)], Some QS_e184);
  (161, 162, [ShLin 0%nat 1 0; ShLin 1%nat 1 0], [ShLin 0%nat 1 (-1); ShLin 1%nat 1 1], Some QS_e185);
  (162, 162, [ShLin 0%nat 1 0; ShLin 1%nat 1 2], [ShLin 0%nat 1 (-1); ShLin 1%nat 1 1], Some QS_e186);
  (162, 163, [ShLin 0%nat 1 0; ShLin 1%nat 1 2], [ShLin 0%nat 1 (-1); ShLin 1%nat 1 3], Some QS_e187);
  (163, 163, [ShLin 0%nat 1 0; ShLin 1%nat 1 4], [ShLin 0%nat 1 (-1); ShLin 1%nat 1 3], Some QS_e188);
  (164, 164, [ShLin 0%nat 1 (-1); ShLin 1%nat 1 (-1)], [ShLin 0%nat 1 (-2); ShLin 1%nat 1 (-2)], Some (cN (-1)));
  (164, 165, [ShLin 0%nat 1 (-1); ShLin 1%nat 1 (-1)], [ShLin 0%nat 1 (-2); ShLin 1%nat 1 0], Some QS_e2);
  (165, 165, [ShLin 0%nat 1 (-1); ShLin 1%nat 1 1], [ShLin 0%nat 1 (-2); ShLin 1%nat 1 0], Some QS_e0);
  (166, 166, [ShLin 0%nat 1 (-1); ShLin 1%nat 1 (-1)], [ShLin 0%nat 1 (-2); ShLin 1%nat 1 (-2)], Some (cN (-1)));
  (166, 167, [ShLin 0%nat 1 (-1); ShLin 1%nat 1 (-1)], [ShLin 0%nat 1 (-2); ShLin 1%nat 1 0], Some QS_e2);
  (167, 167, [ShLin 0%nat 1 (-1); ShLin 1%nat 1 1], [ShLin 0%nat 1 (-2); ShLin 1%nat 1 0], Some QS_e0);
  (168, 168, [ShLin 0%nat 1 (-1); ShLin 1%nat 1 (-1)], [ShLin 0%nat 1 (-2); ShLin 1%nat 1 (-2)], Some (cN (-1)));
  (168, 169, [ShLin 0%nat 1 (-1); ShLin 1%nat 1 (-1)], [ShLin 0%nat 1 (-2); ShLin 1%nat 1 0], Some QS_e2);
  (169, 169, [ShLin 0%nat 1 (-1); ShLin 1%nat 1 1], [ShLin 0%nat 1 (-2); ShLin 1%nat 1 0], Some QS_e0);
  (170, 170, [ShLin 0%nat 1 (-1); ShLin 1%nat 1 (-1)], [ShLin 0%nat 1 (-2); ShLin 1%nat 1 (-2)], Some (cN (-1)));
  (170, 171, [ShLin 0%nat 1 (-1); ShLin 1%nat 1 (-1)], [ShLin 0%nat 1 (-2); ShLin 1%nat 1 0], Some QS_e2);
  (171, 171, [ShLin 0%nat 1 (-1); ShLin 1%nat 1 1], [ShLin 0%nat 1 (-2); ShLin 1%nat 1 0], Some QS_e0);
  (172, 172, [ShLin 0%nat 1 (-1); ShLin 1%nat 1 (-1)], [ShLin 0%nat 1 (-2); ShLin 1%nat 1 (-2)], Some (cN (-1)));
  (172, 173, [ShLin 0%nat 1 (-1); ShLin 1%nat 1 (-1)], [ShLin 0%nat 1 (-2); ShLin 1%nat 1 0], Some QS_e2);
  (173, 173, [ShLin 0%nat 1 (-1); ShLin 1%nat 1 1], [ShLin 0%nat 1 (-2); ShLin 1%nat 1 0], Some QS_e0);
  (174, 174, [ShLin 0%nat 1 (-1); ShLin 1%nat 1 (-1)], [ShLin 0%nat 1 (-2); ShLin 1%nat 1 (-2)], Some (cN (-1)));
  (174, 175, [ShLin 0%nat 1 (-1); ShLin 1%nat 1 (-1)], [ShLin 0%nat 1 (-2); ShLin 1%nat 1 0], Some QS_e2);
  (175, 175, [ShLin 0%nat 1 (-1); ShLin 1%nat 1 1], [ShLin 0%nat 1 (-2); ShLin 1%nat 1 0], Some QS_e0);
  (176, 176, [ShLin 0%nat 1 (-1); ShLin 1%nat 1 (-1)], [ShLin 0%nat 1 (-2); ShLin 1%nat 1 (-2)], Some (cN (-1)));
  (176, 177, [ShLin 0%nat 1 (-1); ShLin 1%nat 1 (-1)], [ShLin 0%nat 1 (-2); ShLin 1%nat 1 0], Some QS_e2);
  (177, 177, [ShLin 0%nat 1 (-1); ShLin 1%nat 1 1], [ShLin 0%nat 1 (-2); ShLin 1%nat 1 0], Some QS_e0);
  (178, 178, [ShLin 0%nat 1 (-1); ShLin 1%nat 1 (-1)], [ShLin 0%nat 1 (-2); ShLin 1%nat 1 (-2)], Some (cN (-1)));
  (178, 179, [ShLin 0%nat 1 (-1); ShLin 1%nat 1 (-1)], [ShLin 0%nat 1 (-2); ShLin 1%nat 1 0], Some QS_e2);
  (179, 179, [ShLin 0%nat 1 (-1); ShLin 1%nat 1 1], [ShLin 0%nat 1 (-2); ShLin 1%nat 1 0], Some QS_e0);
  (180, 180, [ShLin 0%nat 1 (-1); ShLin 1%nat 1 (-1)], [ShLin 0%nat 1 (-2); ShLin 1%nat 1 (-2)], Some (cN (-1)));
  (180, 181, [ShLin 0%nat 1 (-1); ShLin 1%nat 1 (-1)], [ShLin 0%nat 1 (-2); ShLin 1%nat 1 0], Some QS_e2);
  (181, 181, [ShLin 0%nat 1 (-1); ShLin 1%nat 1 1], [ShLin 0%nat 1 (-2); ShLin 1%nat 1 0], Some QS_e0);
  (182, 182, [ShLin 0%nat 1 (-1); ShLin 1%nat 1 (-1)], [ShLin 0%nat 1 (-2); ShLin 1%nat 1 (-2)], Some (cN (-1)));
  (182, 183, [ShLin 0%nat 1 (-1); ShLin 1%nat 1 (-1)], [ShLin 0%nat 1 (-2); ShLin 1%nat 1 0], Some QS_e2);
  (183, 183, [ShLin 0%nat 1 (-1); ShLin 1%nat 1 1], [ShLin 0%nat 1 (-2); ShLin 1%nat 1 0], Some QS_e0);
  (184, 184, [ShLin 0%nat 1 (-1); ShLin 1%nat 1 (-1)], [ShLin 0%nat 1 (-2); ShLin 1%nat 1 (-2)], Some (cN (-1)));
  (184, 185, [ShLin 0%nat 1 (-1); ShLin 1%nat 1 (-1)], [ShLin 0%nat 1 (-2); ShLin 1%nat 1 0], Some QS_e2);
  (185, 185, [ShLin 0%nat 1 (-1); ShLin 1%nat 1 1], [ShLin 0%nat 1 (-2); ShLin 1%nat 1 0], Some QS_e0);
  (186, 186, [ShLin 0%nat 1 (-1); ShLin 1%nat 1 (-1)], [ShLin 0%nat 1 (-2); ShLin 1%nat 1 (-2)], Some (cN (-1)));
  (186, 187, [ShLin 0%nat 1 (-1); ShLin 1%nat 1 (-1)], [ShLin 0%nat 1 (-2); ShLin 1%nat 1 0], Some QS_e2);
  (187, 187, [ShLin 0%nat 1 (-1); ShLin 1%nat 1 1], [ShLin 0%nat 1 (-2); ShLin 1%nat 1 0], Some QS_e0);
  (188, 188, [ShLin 0%nat 1 (-1); ShLin 1%nat 1 (-1)], [ShLin 0%nat 1 (-2); ShLin 1%nat 1 (-2)], Some (cN (-1)));
  (188, 189, [ShLin 0%nat 1 (-1); ShLin 1%nat 1 (-1)], [ShLin 0%nat 1 (-2); ShLin 1%nat 1 0], Some QS_e2);
  (189, 189, [ShLin 0%nat 1 (-1); ShLin 1%nat 1 1], [ShLin 0%nat 1 (-2); ShLin 1%nat 1 0], Some QS_e0);
  (190, 190, [ShLin 0%nat 1 (-1); ShLin 1%nat 1 (-1)], [ShLin 0%nat 1 (-2); ShLin 1%nat 1 (-2)], Some (cN (-1)));
  (190, 191, [ShLin 0%nat 1 (-1); ShLin 1%nat 1 (-1)], [ShLin 0%nat 1 (-2); ShLin 1%nat 1 0], Some QS_e2);
  (191, 191, [ShLin 0%nat 1 (-1); ShLin 1%nat 1 1], [ShLin 0%nat 1 (-2); ShLin 1%nat 1 0], Some QS_e0);
  (192, 192, [ShLin 0%nat 1 (-1); ShLin 1%nat 1 (-1)], [ShLin 0%nat 1 (-2); ShLin 1%nat 1 (-2)], Some (cN (-1)));
  (192, 193, [ShLin 0%nat 1 (-1); ShLin 1%nat 1 (-1)], [ShLin 0%nat 1 (-2); ShLin 1%nat 1 0], Some QS_e2);
  (193, 193, [ShLin 0%nat 1 (-1); ShLin 1%nat 1 1], [ShLin 0%nat 1 (-2); ShLin 1%nat 1 0], Some QS_e0);
  (194, 194, [ShLin 0%nat 1 (-1); ShLin 1%nat 1 (-1)], [ShLin 0%nat 1 (-2); ShLin 1%nat 1 (-2)], Some (cN (-1)));
  (194, 195, [ShLin 0%nat 1 (-1); ShLin 1%nat 1 (-1)], [ShLin 0%nat 1 (-2); ShLin 1%nat 1 0], Some QS_e2);
  (195, 195, [ShLin 0%nat 1 (-1); ShLin 1%nat 1 1], [ShLin 0%nat 1 (-2); ShLin 1%nat 1 0], Some QS_e0);
  (196, 196, [ShLin 0%nat 1 (-1); ShLin 1%nat 1 (-1)], [ShLin 0%nat 1 (-2); ShLin 1%nat 1 (-2)], Some (cN (-1)));
  (196, 197, [ShLin 0%nat 1 (-1); ShLin 1%nat 1 (-1)], [ShLin 0%nat 1 (-2); ShLin 1%nat 1 0], Some QS_e2);
  (197, 197, [ShLin 0%nat 1 (-1); ShLin 1%nat 1 1], [ShLin 0%nat 1 (-2); ShLin 1%nat 1 0], Some QS_e0);
  (198, 198, [ShLin 0%nat 1 (-1); ShLin 1%nat 1 (-1)], [ShLin 0%nat 1 (-2); ShLin 1%nat 1 (-2)], Some (cN (-1)));
  (198, 199, [ShLin 0%nat 1 (-1); ShLin 1%nat 1 (-1)], [ShLin 0%nat 1 (-2); ShLin 1%nat 1 0], Some QS_e2);
  (199, 199, [ShLin 0%nat 1 (-1); ShLin 1%nat 1 1], [ShLin 0%nat 1 (-2); ShLin 1%nat 1 0], Some QS_e0);
  (200, 200, [ShLin 0%nat 1 (-1); ShLin 1%nat 1 (-1)], [ShLin 0%nat 1 (-2); ShLin 1%nat 1 (-2)], Some (cN (-1)));
  (200, 201, [ShLin 0%nat 1 (-1); ShLin 1%nat 1 (-1)], [ShLin 0%nat 1 (-2); ShLin 1%nat 1 0], Some QS_e2);
  (201, 201, [ShLin 0%nat 1 (-1); ShLin 1%nat 1 1], [ShLin 0%nat 1 (-2); ShLin 1%nat 1 0], Some QS_e0);
  (202, 202, [ShLin 0%nat 1 (-1); ShLin 1%nat 1 (-1)], [ShLin 0%nat 1 (-2); ShLin 1%nat 1 (-2)], Some (cN (-1)));
  (202, 203, [ShLin 0%nat 1 (-1); ShLin 1%nat 1 (-1)], [ShLin 0%nat 1 (-2); ShLin 1%nat 1 0], Some QS_e2);
  (203, 203, [ShLin 0%nat 1 (-1); ShLin 1%nat 1 1], [ShLin 0%nat 1 (-2); ShLin 1%nat 1 0], Some QS_e0);
  (204, 204, [ShLin 0%nat 1 (-1); ShLin 1%nat 1 (-3)], [ShLin 0%nat 1 (-2); ShLin 1%nat 1 (-4)], Some (cN (-1)));
  (204, 205, [ShLin 0%nat 1 (-1); ShLin 1%nat 1 (-3)], [ShLin 0%nat 1 (-2); ShLin 1%nat 1 (-2)], Some QS_e58);
  (205, 205, [ShLin 0%nat 1 (-1); ShLin 1%nat 1 (-1)], [ShLin 0%nat 1 (-2); ShLin 1%nat 1 (-2)], Some QS_e59);
  (205, 206, [ShLin 0%nat 1 (-1); ShLin 1%nat 1 (-1)], [ShLin 0%nat 1 (-2); ShLin 1%nat 1 0], Some QS_e60);
  (206, 206, [ShLin 0%nat 1 (-1); ShLin 1%nat 1 1], [ShLin 0%nat 1 (-2); ShLin 1%nat 1 0], Some QS_e54);
  (206, 207, [ShLin 0%nat 1 (-1); ShLin 1%nat 1 1], [ShLin 0%nat 1 (-2); ShLin 1%nat 1 2], Some QS_e61);
  (207, 207, [ShLin 0%nat 1 (-1); ShLin 1%nat 1 3], [ShLin 0%nat 1 (-2); ShLin 1%nat 1 2], Some QS_e62);
  (208, 208, [ShLin 0%nat 1 (-1); ShLin 1%nat 1 (-3)], [ShLin 0%nat 1 (-2); ShLin 1%nat 1 (-4)], Some (cN (-1)));
  (208, 209, [ShLin 0%nat 1 (-1); ShLin 1%nat 1 (-3)], [ShLin 0%nat 1 (-2); ShLin 1%nat 1 (-2)], Some QS_e58);
  (209, 209, [ShLin 0%nat 1 (-1); ShLin 1%nat 1 (-1)], [ShLin 0%nat 1 (-2); ShLin 1%nat 1 (-2)], Some QS_e59);
  (209, 210, [ShLin 0%nat 1 (-1); ShLin 1%nat 1 (-1)], [ShLin 0%nat 1 (-2); ShLin 1%nat 1 0], Some QS_e60);
  (210, 210, [ShLin 0%nat 1 (-1); ShLin 1%nat 1 1], [ShLin 0%nat 1 (-2); ShLin 1%nat 1 0], Some QS_e54);
  (210, 211, [ShLin 0%nat 1 (-1); ShLin 1%nat 1 1], [ShLin 0%nat 1 (-2); ShLin 1%nat 1 2], Some QS_e61);
  (211, 211, [ShLin 0%nat 1 (-1); ShLin 1%nat 1 3], [ShLin 0%nat 1 (-2); ShLin 1%nat 1 2], Some QS_e62);
  (212, 212, [ShLin 0%nat 1 (-1); ShLin 1%nat 1 (-3)], [ShLin 0%nat 1 (-2); ShLin 1%nat 1 (-4)], Some (cN (-1)));
  (212, 213, [ShLin 0%nat 1 (-1); ShLin 1%nat 1 (-3)], [ShLin 0%nat 1 (-2); ShLin 1%nat 1 (-2)], Some QS_e58);
  (213, 213, [ShLin 0%nat 1 (-1); ShLin 1%nat 1 (-1)], [ShLin 0%nat 1 (-2); ShLin 1%nat 1 (-2)], Some QS_e59);
  (213, 214, [ShLin 0%nat 1 (-1); ShLin 1%nat 1 (-1)], [ShLin 0%nat 1 (-2); ShLin 1%nat 1 0], Some QS_e60);
  (214, 214, [ShLin 0%nat 1 (-1); ShLin 1%nat 1 1], [ShLin 0%nat 1 (-2); ShLin 1%nat 1 0], Some QS_e54);
  (214, 215, [ShLin 0%nat 1 (-1); ShLin 1%nat 1 1], [ShLin 0%nat 1 (-2); ShLin 1%nat 1 2], Some QS_e61);
  (215, 215, [ShLin 0%nat 1 (-1); ShLin 1%nat 1 3], [ShLin 0%nat 1 (-2); ShLin 1%nat 1 2], Some QS_e62);
  (216, 216, [ShLin 0%nat 1 (-1); ShLin 1%nat 1 (-3)], [ShLin 0%nat 1 (-2); ShLin 1%nat 1 (-4)], Some (cN (-1)));
  (216, 217, [ShLin 0%nat 1 (-1); ShLin 1%nat 1 (-3)], [ShLin 0%nat 1 (-2); ShLin 1%nat 1 (-2)], Some QS_e58);
  (217, 217, [ShLin 0%nat 1 (-1); ShLin 1%nat 1 (-1)], [ShLin 0%nat 1 (-2); ShLin 1%nat 1 (-2)], Some QS_e59);
  (217, 218, [ShLin 0%nat 1 (-1); ShLin 1%nat 1 (-1)], [ShLin 0%nat 1 (-2); ShLin 1%nat 1 0], Some QS_e60);
  (218, 218, [ShLin 0%nat 1 (-1); ShLin 1%nat 1 1], [ShLin 0%nat 1 (-2); ShLin 1%nat 1 0], Some QS_e54);
  (218, 219, [ShLin 0%nat 1 (-1); ShLin 1%nat 1 1], [ShLin 0%nat 1 (-2); ShLin 1%nat 1 2], Some QS_e61);
  (219, 219, [ShLin 0%nat 1 (-1); ShLin 1%nat 1 3], [ShLin 0%nat 1 (-2); ShLin 1%nat 1 2], Some QS_e62);
  (220, 220, [ShLin 0%nat 1 (-2); ShLin 1%nat 1 0], [ShLin 0%nat 1 (-3); ShLin 1%nat 1 (-1)], Some (cN 1));
  (221, 221, [ShLin 0%nat 1 (-2); ShLin 1%nat 1 0], [ShLin 0%nat 1 (-3); ShLin 1%nat 1 (-1)], Some (cN 1));
  (222, 222, [ShLin 0%nat 1 (-2); ShLin 1%nat 1 0], [ShLin 0%nat 1 (-3); ShLin 1%nat 1 (-1)], Some (cN 1));
  (223, 223, [ShLin 0%nat 1 (-2); ShLin 1%nat 1 0], [ShLin 0%nat 1 (-3); ShLin 1%nat 1 (-1)], Some (cN 1));
  (224, 224, [ShLin 0%nat 1 (-2); ShLin 1%nat 1 0], [ShLin 0%nat 1 (-3); ShLin 1%nat 1 (-1)], Some (cN 1));
  (225, 225, [ShLin 0%nat 1 (-2); ShLin 1%nat 1 0], [ShLin 0%nat 1 (-3); ShLin 1%nat 1 (-1)], Some (cN 1));
  (226, 226, [ShLin 0%nat 1 (-2); ShLin 1%nat 1 0], [ShLin 0%nat 1 (-3); ShLin 1%nat 1 (-1)], Some (cN 1));
  (227, 227, [ShLin 0%nat 1 (-2); ShLin 1%nat 1 0], [ShLin 0%nat 1 (-3); ShLin 1%nat 1 (-1)], Some (cN 1));
  (228, 228, [ShLin 0%nat 1 (-2); ShLin 1%nat 1 0], [ShLin 0%nat 1 (-3); ShLin 1%nat 1 (-1)], Some (cN 1));
  (229, 229, [ShLin 0%nat 1 (-2); ShLin 1%nat 1 0], [ShLin 0%nat 1 (-3); ShLin 1%nat 1 (-1)], Some (cN 1));
  (230, 230, [ShLin 0%nat 1 (-2); ShLin 1%nat 1 (-2)], [ShLin 0%nat 1 (-3); ShLin 1%nat 1 (-3)], Some (cN 1));
  (230, 231, [ShLin 0%nat 1 (-2); ShLin 1%nat 1 (-2)], [ShLin 0%nat 1 (-3); ShLin 1%nat 1 (-1)], Some QS_e11);
  (231, 231, [ShLin 0%nat 1 (-2); ShLin 1%nat 1 0], [ShLin 0%nat 1 (-3); ShLin 1%nat 1 (-1)], Some QS_e5);
  (231, 232, [ShLin 0%nat 1 (-2); ShLin 1%nat 1 0], [ShLin 0%nat 1 (-3); ShLin 1%nat 1 1], Some QS_e6);
  (232, 232, [ShLin 0%nat 1 (-2); ShLin 1%nat 1 2], [ShLin 0%nat 1 (-3); ShLin 1%nat 1 1], Some QS_e16);
  (233, 233, [ShLin 0%nat 1 (-2); ShLin 1%nat 1 (-2)], [ShLin 0%nat 1 (-3); ShLin 1%nat 1 (-3)], Some (cN 1));
  (233, 234, [ShLin 0%nat 1 (-2); ShLin 1%nat 1 (-2)], [ShLin 0%nat 1 (-3); ShLin 1%nat 1 (-1)], Some QS_e11);
  (234, 234, [ShLin 0%nat 1 (-2); ShLin 1%nat 1 0], [ShLin 0%nat 1 (-3); ShLin 1%nat 1 (-1)], Some QS_e5);
  (234, 235, [ShLin 0%nat 1 (-2); ShLin 1%nat 1 0], [ShLin 0%nat 1 (-3); ShLin 1%nat 1 1], Some QS_e6);
  (235, 235, [ShLin 0%nat 1 (-2); ShLin 1%nat 1 2], [ShLin 0%nat 1 (-3); ShLin 1%nat 1 1], Some QS_e16);
  (236, 236, [ShLin 0%nat 1 (-2); ShLin 1%nat 1 (-2)], [ShLin 0%nat 1 (-3); ShLin 1%nat 1 (-3)], Some (cN 1));
  (236, 237, [ShLin 0%nat 1 (-2); ShLin 1%nat 1 (-2)], [ShLin 0%nat 1 (-3); ShLin 1%nat 1 (-1)], Some QS_e11);
  (237, 237, [ShLin 0%nat 1 (-2); ShLin 1%nat 1 0], [ShLin 0%nat 1 (-3); ShLin 1%nat 1 (-1)], Some QS_e5);
  (237, 238, [ShLin 0%nat 1 (-2); ShLin 1%nat 1 0], [ShLin 0%nat 1 (-3); ShLin 1%nat 1 1], Some QS_e6);
  (238, 238, [ShLin 0%nat 1 (-2); ShLin 1%nat 1 2], [ShLin 0%nat 1 (-3); ShLin 1%nat 1 1], Some QS_e16);
  (239, 239, [ShLin 0%nat 1 (-2); ShLin 1%nat 1 (-2)], [ShLin 0%nat 1 (-3); ShLin 1%nat 1 (-3)], Some (cN 1));
  (239, 240, [ShLin 0%nat 1 (-2); ShLin 1%nat 1 (-2)], [ShLin 0%nat 1 (-3); ShLin 1%nat 1 (-1)], Some QS_e11);
  (240, 240, [ShLin 0%nat 1 (-2); ShLin 1%nat 1 0], [ShLin 0%nat 1 (-3); ShLin 1%nat 1 (-1)], Some QS_e5);
  (240, 241, [ShLin 0%nat 1 (-2); ShLin 1%nat 1 0], [ShLin 0%nat 1 (-3); ShLin 1%nat 1 1], Some QS_e6);
  (241, 241, [ShLin 0%nat 1 (-2); ShLin 1%nat 1 2], [ShLin 0%nat 1 (-3); ShLin 1%nat 1 1], Some QS_e16);
  (242, 242, [ShLin 0%nat 1 (-2); ShLin 1%nat 1 (-2)], [ShLin 0%nat 1 (-3); ShLin 1%nat 1 (-3)], Some (cN 1));
  (242, 243, [ShLin 0%nat 1 (-2); ShLin 1%nat 1 (-2)], [ShLin 0%nat 1 (-3); ShLin 1%nat 1 (-1)], Some QS_e11);
  (243, 243, [ShLin 0%nat 1 (-2); ShLin 1%nat 1 0], [ShLin 0%nat 1 (-3); ShLin 1%nat 1 (-1)], Some QS_e5);
  (243, 244, [ShLin 0%nat 1 (-2); ShLin 1%nat 1 0], [ShLin 0%nat 1 (-3); ShLin 1%nat 1 1], Some QS_e6);
  (244, 244, [ShLin 0%nat 1 (-2); ShLin 1%nat 1 2], [ShLin 0%nat 1 (-3); ShLin 1%nat 1 1], Some QS_e16);
  (245, 245, [ShLin 0%nat 1 (-2); ShLin 1%nat 1 (-2)], [ShLin 0%nat 1 (-3); ShLin 1%nat 1 (-3)], Some (cN 1));
  (245, 246, [ShLin 0%nat 1 (-2); ShLin 1%nat 1 (-2)], [ShLin 0%nat 1 (-3); ShLin 1%nat 1 (-1)], Some QS_e11);
  (246, 246, [ShLin 0%nat 1 (-2); ShLin 1%nat 1 0], [ShLin 0%nat 1 (-3); ShLin 1%nat 1 (-1)], Some QS_e5);
  (246, 247, [ShLin 0%nat 1 (-2); ShLin 1%nat 1 0], [ShLin 0%nat 1 (-3); ShLin 1%nat 1 1], Some QS_e6);
  (247, 247, [ShLin 0%nat 1 (-2); ShLin 1%nat 1 2], [ShLin 0%nat 1 (-3); ShLin 1%nat 1 1], Some QS_e16);
  (248, 248, [ShLin 0%nat 1 (-3); ShLin 1%nat 1 (-1)], [ShLin 0%nat 1 (-4); ShLin 1%nat 1 (-2)], Some (cN (-1)));
  (248, 249, [ShLin 0%nat 1 (-3); ShLin 1%nat 1 (-1)], [ShLin 0%nat 1 (-4); ShLin 1%nat 1 0], Some QS_e2);
  (249, 249, [ShLin 0%nat 1 (-3); ShLin 1%nat 1 1], [ShLin 0%nat 1 (-4); ShLin 1%nat 1 0], Some QS_e0);
  (250, 250, [ShLin 0%nat 1 (-3); ShLin 1%nat 1 (-1)], [ShLin 0%nat 1 (-4); ShLin 1%nat 1 (-2)], Some (cN (-1)));
  (250, 251, [ShLin 0%nat 1 (-3); ShLin 1%nat 1 (-1)], [ShLin 0%nat 1 (-4); ShLin 1%nat 1 0], Some QS_e2);
  (251, 251, [ShLin 0%nat 1 (-3); ShLin 1%nat 1 1], [ShLin 0%nat 1 (-4); ShLin 1%nat 1 0], Some QS_e0);
  (252, 252, [ShLin 0%nat 1 (-3); ShLin 1%nat 1 (-1)], [ShLin 0%nat 1 (-4); ShLin 1%nat 1 (-2)], Some (cN (-1)));
  (252, 253, [ShLin 0%nat 1 (-3); ShLin 1%nat 1 (-1)], [ShLin 0%nat 1 (-4); ShLin 1%nat 1 0], Some QS_e2);
  (253, 253, [ShLin 0%nat 1 (-3); ShLin 1%nat 1 1], [ShLin 0%nat 1 (-4); ShLin 1%nat 1 0], Some QS_e0);
  (254, 254, [ShLin 0%nat 1 (-3); ShLin 1%nat 1 (-1)], [ShLin 0%nat 1 (-4); ShLin 1%nat 1 (-2)], Some (cN (-1)));
  (254, 255, [ShLin 0%nat 1 (-3); ShLin 1%nat 1 (-1)], [ShLin 0%nat 1 (-4); ShLin 1%nat 1 0], Some QS_e2);
  (255, 255, [ShLin 0%nat 1 (-3); ShLin 1%nat 1 1], [ShLin 0%nat 1 (-4); ShLin 1%nat 1 0], Some QS_e0);
  (256, 256, [ShLin 0%nat 1 (-4); ShLin 1%nat 1 0], [ShLin 0%nat 1 (-5); ShLin 1%nat 1 (-1)], Some (cN 1))].
(** /repo/c++/symmetry/nrg-recalc-QS.hpp recalc_irreduc, qs/qs-4ch-spinupa.dat *)
Definition qs_4ch_t2 : irr_table := mk_irr 0 0 [ShLin 0%nat 1 1; ShLin 1%nat 1 1]  [
  (8, 1, Some (cN 1));
  (13, 3, Some QS_e17);
  (16, 5, Some QS_e17);
  (18, 7, Some QS_e17);
  (19, 9, Some QS_e3);
  (26, 2, Some (cN (-1)));
  (27, 3, Some QS_e18);
  (32, 4, Some (cN (-1)));
  (33, 5, Some QS_e18);
  (35, 6, Some (cN (-1)));
  (36, 7, Some QS_e18);
  (42, 10, Some (cN 1));
  (48, 11, Some (cQ (-1) 2));
  (48, 21, Some QS_e63);
  (49, 22, Some QS_e64);
  (52, 12, Some (cQ (-1) 2));
  (52, 24, Some QS_e63);
  (53, 25, Some QS_e64);
  (54, 13, Some QS_e19);
  (54, 27, Some QS_e20);
  (55, 28, Some QS_e21);
  (58, 11, Some (cD (cR (cN 3)) (cN 2)));
  (58, 21, Some QS_e65);
  (59, 22, Some QS_e66);
  (60, 12, Some (cD (cR (cN 3)) (cN 2)));
  (60, 24, Some QS_e65);
  (61, 25, Some QS_e66);
  (64, 14, Some (cN 1));
  (68, 15, Some (cQ (-1) 2));
  (68, 30, Some QS_e63);
  (69, 31, Some QS_e64);
  (70, 16, Some QS_e19);
  (70, 33, Some QS_e20);
  (71, 34, Some QS_e21);
  (72, 15, Some (cD (cR (cN 3)) (cN 2)));
  (72, 30, Some QS_e65);
  (73, 31, Some QS_e66);
  (74, 17, Some (cN 1));
  (76, 18, Some QS_e19);
  (76, 36, Some QS_e20);
  (77, 37, Some QS_e21);
  (82, 20, Some (cN 1));
  (83, 21, Some QS_e67);
  (84, 22, Some QS_e68);
  (86, 23, Some (cN 1));
  (87, 24, Some QS_e67);
  (88, 25, Some QS_e68);
  (90, 29, Some (cN 1));
  (91, 30, Some QS_e67);
  (92, 31, Some QS_e68);
  (96, 39, Some QS_e17);
  (98, 41, Some QS_e17);
  (99, 43, Some QS_e3);
  (101, 45, Some QS_e17);
  (103, 47, Some QS_e189);
  (103, 57, Some QS_e190);
  (104, 49, Some QS_e69);
  (104, 59, Some QS_e70);
  (105, 47, Some QS_e190);
  (105, 57, Some QS_e191);
  (106, 51, Some QS_e17);
  (107, 53, Some QS_e69);
  (107, 61, Some QS_e70);
  (109, 63, Some QS_e17);
  (110, 65, Some QS_e3);
  (111, 67, Some QS_e17);
  (112, 69, Some QS_e69);
  (112, 73, Some QS_e70);
  (113, 75, Some QS_e3);
  (117, 38, Some (cN (-1)));
  (118, 39, Some QS_e18);
  (120, 40, Some (cN (-1)));
  (121, 41, Some QS_e18);
  (126, 44, Some (cN (-1)));
  (127, 45, Some QS_e18);
  (132, 46, Some (cQ 1 2));
  (132, 56, Some QS_e192);
  (132, 79, Some QS_e193);
  (133, 47, Some QS_e194);
  (133, 57, Some QS_e195);
  (133, 80, Some QS_e196);
  (134, 81, Some QS_e17);
  (135, 48, Some (cD (cN 1) (cR (cN 2))));
  (135, 58, Some (cD (cN 1) (cR (cN 6))));
  (135, 83, Some QS_e71);
  (136, 49, Some QS_e72);
  (136, 59, Some QS_e73);
  (136, 84, Some QS_e74);
  (137, 85, Some QS_e3);
  (138, 46, Some QS_e75);
  (138, 56, Some (cQ 1 6));
  (138, 79, Some QS_e197);
  (139, 47, Some QS_e198);
  (139, 57, Some QS_e199);
  (139, 80, Some QS_e200);
  (140, 81, Some QS_e77);
  (141, 50, Some (cN (-1)));
  (142, 51, Some QS_e18);
  (144, 52, Some (cD (cN 1) (cR (cN 2))));
  (144, 60, Some (cD (cN 1) (cR (cN 6))));
  (144, 87, Some QS_e71);
  (145, 53, Some QS_e72);
  (145, 61, Some QS_e73);
  (145, 88, Some QS_e74);
  (146, 89, Some QS_e3);
  (147, 56, Some QS_e201);
  (147, 79, Some QS_e202);
  (148, 57, Some QS_e203);
  (148, 80, Some QS_e204);
  (149, 81, Some QS_e205);
  (150, 62, Some (cN (-1)));
  (151, 63, Some QS_e18);
  (153, 66, Some (cN (-1)));
  (154, 67, Some QS_e18);
  (156, 68, Some (cD (cN 1) (cR (cN 2))));
  (156, 72, Some (cD (cN 1) (cR (cN 6))));
  (156, 91, Some QS_e71);
  (157, 69, Some QS_e72);
  (157, 73, Some QS_e73);
  (157, 92, Some QS_e74);
  (158, 93, Some QS_e3);
  (159, 78, Some (cN (-1)));
  (160, 79, Some QS_e206);
  (161, 80, Some QS_e207);
  (162, 81, Some QS_e208);
  (166, 94, Some (cN 1));
  (170, 95, Some (cQ (-1) 2));
  (170, 115, Some QS_e63);
  (171, 116, Some QS_e64);
  (172, 96, Some QS_e19);
  (172, 118, Some QS_e20);
  (173, 119, Some QS_e21);
  (174, 95, Some (cD (cR (cN 3)) (cN 2)));
  (174, 115, Some QS_e65);
  (175, 116, Some QS_e66);
  (176, 97, Some (cN 1));
  (178, 98, Some QS_e19);
  (178, 121, Some QS_e20);
  (179, 122, Some QS_e21);
  (182, 100, Some (cQ (-1) 2));
  (182, 124, Some QS_e63);
  (183, 125, Some QS_e64);
  (184, 101, Some QS_e19);
  (184, 127, Some QS_e20);
  (185, 128, Some QS_e21);
  (186, 102, Some (cQ (-1) 2));
  (186, 130, Some QS_e63);
  (187, 131, Some QS_e64);
  (188, 103, Some QS_e209);
  (188, 105, Some QS_e210);
  (188, 133, Some QS_e211);
  (188, 139, Some QS_e212);
  (189, 134, Some QS_e213);
  (189, 140, Some QS_e80);
  (190, 106, Some QS_e19);
  (190, 142, Some QS_e20);
  (191, 143, Some QS_e21);
  (192, 100, Some (cD (cR (cN 3)) (cN 2)));
  (192, 124, Some QS_e65);
  (193, 125, Some QS_e66);
  (194, 102, Some (cD (cR (cN 3)) (cN 2)));
  (194, 130, Some QS_e65);
  (195, 131, Some QS_e66);
  (196, 103, Some QS_e210);
  (196, 105, Some QS_e214);
  (196, 133, Some QS_e215);
  (196, 139, Some QS_e216);
  (196, 148, Some QS_e217);
  (197, 134, Some QS_e205);
  (197, 140, Some QS_e218);
  (197, 149, Some QS_e219);
  (198, 108, Some (cN 1));
  (200, 109, Some QS_e19);
  (200, 151, Some QS_e20);
  (201, 152, Some QS_e21);
  (202, 111, Some QS_e19);
  (202, 154, Some QS_e20);
  (203, 155, Some QS_e21);
  (204, 114, Some (cN 1));
  (205, 115, Some QS_e67);
  (206, 116, Some QS_e68);
  (208, 123, Some (cN 1));
  (209, 124, Some QS_e67);
  (210, 125, Some QS_e68);
  (212, 129, Some (cN 1));
  (213, 130, Some QS_e67);
  (214, 131, Some QS_e68);
  (216, 132, Some QS_e19);
  (216, 138, Some QS_e81);
  (216, 147, Some QS_e220);
  (216, 160, Some QS_e221);
  (217, 133, Some QS_e87);
  (217, 139, Some QS_e222);
  (217, 148, Some QS_e223);
  (217, 161, Some QS_e224);
  (218, 134, Some QS_e225);
  (218, 140, Some QS_e226);
  (218, 149, Some QS_e227);
  (218, 162, Some QS_e228);
  (219, 163, Some QS_e21);
  (221, 165, Some QS_e17);
  (222, 167, Some QS_e3);
  (223, 169, Some QS_e17);
  (224, 171, Some QS_e69);
  (224, 175, Some QS_e70);
  (225, 177, Some QS_e3);
  (226, 181, Some QS_e17);
  (227, 183, Some QS_e69);
  (227, 193, Some QS_e70);
  (228, 187, Some QS_e69);
  (228, 195, Some QS_e70);
  (229, 199, Some QS_e3);
  (230, 164, Some (cN (-1)));
  (231, 165, Some QS_e18);
  (233, 168, Some (cN (-1)));
  (234, 169, Some QS_e18);
  (236, 170, Some (cD (cN 1) (cR (cN 2))));
  (236, 174, Some (cD (cN 1) (cR (cN 6))));
  (236, 205, Some QS_e71);
  (237, 171, Some QS_e72);
  (237, 175, Some QS_e73);
  (237, 206, Some QS_e74);
  (238, 207, Some QS_e3);
  (239, 180, Some (cN (-1)));
  (240, 181, Some QS_e18);
  (242, 182, Some (cD (cN 1) (cR (cN 2))));
  (242, 192, Some (cD (cN 1) (cR (cN 6))));
  (242, 209, Some QS_e71);
  (243, 183, Some QS_e72);
  (243, 193, Some QS_e73);
  (243, 210, Some QS_e74);
  (244, 211, Some QS_e3);
  (245, 186, Some (cD (cN 1) (cR (cN 2))));
  (245, 194, Some (cD (cN 1) (cR (cN 6))));
  (245, 213, Some QS_e71);
  (246, 187, Some QS_e72);
  (246, 195, Some QS_e73);
  (246, 214, Some QS_e74);
  (247, 215, Some QS_e3);
  (248, 220, Some (cN 1));
  (250, 221, Some QS_e19);
  (250, 231, Some QS_e20);
  (251, 232, Some QS_e21);
  (252, 223, Some QS_e19);
  (252, 234, Some QS_e20);
  (253, 235, Some QS_e21);
  (254, 226, Some QS_e19);
  (254, 240, Some QS_e20);
  (255, 241, Some QS_e21);
  (256, 249, Some QS_e3)].
(** /repo/c++/symmetry/nrg-recalc-QS.hpp recalc_irreduc, qs/qs-4ch-spinupb.dat *)
Definition qs_4ch_t3 : irr_table := mk_irr 1 0 [ShLin 0%nat 1 1; ShLin 1%nat 1 1]  [
  (6, 1, Some (cN 1));
  (12, 3, Some QS_e17);
  (15, 5, Some QS_e17);
  (17, 7, Some QS_e3);
  (18, 9, Some QS_e17);
  (23, 2, Some (cN (-1)));
  (24, 3, Some QS_e18);
  (29, 4, Some (cN (-1)));
  (30, 5, Some QS_e18);
  (35, 8, Some (cN 1));
  (36, 9, Some QS_e22);
  (40, 10, Some (cN 1));
  (46, 11, Some (cQ (-1) 2));
  (46, 21, Some QS_e63);
  (47, 22, Some QS_e64);
  (50, 12, Some QS_e19);
  (50, 24, Some QS_e20);
  (51, 25, Some QS_e21);
  (52, 13, Some (cQ (-1) 2));
  (52, 27, Some QS_e63);
  (53, 28, Some QS_e64);
  (56, 11, Some (cD (cR (cN 3)) (cN 2)));
  (56, 21, Some QS_e65);
  (57, 22, Some QS_e66);
  (60, 13, Some QS_e75);
  (60, 27, Some QS_e76);
  (61, 28, Some QS_e77);
  (62, 14, Some (cN 1));
  (66, 15, Some QS_e19);
  (66, 30, Some QS_e20);
  (67, 31, Some QS_e21);
  (68, 16, Some (cQ (-1) 2));
  (68, 33, Some QS_e63);
  (69, 34, Some QS_e64);
  (72, 16, Some QS_e75);
  (72, 33, Some QS_e76);
  (73, 34, Some QS_e77);
  (74, 18, Some QS_e19);
  (74, 36, Some QS_e23);
  (75, 37, Some QS_e3);
  (76, 19, Some (cN 1));
  (78, 20, Some (cN 1));
  (79, 21, Some QS_e67);
  (80, 22, Some QS_e68);
  (86, 26, Some (cN (-1)));
  (87, 27, Some QS_e78);
  (88, 28, Some QS_e79);
  (90, 32, Some (cN (-1)));
  (91, 33, Some QS_e78);
  (92, 34, Some QS_e79);
  (95, 39, Some QS_e17);
  (97, 41, Some QS_e3);
  (98, 43, Some QS_e17);
  (100, 45, Some QS_e17);
  (102, 47, Some QS_e69);
  (102, 57, Some QS_e70);
  (103, 49, Some QS_e189);
  (103, 59, Some QS_e190);
  (105, 49, Some QS_e229);
  (105, 59, Some QS_e189);
  (106, 53, Some QS_e69);
  (106, 61, Some QS_e80);
  (107, 55, Some QS_e17);
  (108, 63, Some QS_e3);
  (109, 65, Some QS_e17);
  (111, 69, Some QS_e69);
  (111, 73, Some QS_e80);
  (112, 71, Some QS_e17);
  (113, 77, Some QS_e3);
  (114, 38, Some (cN (-1)));
  (115, 39, Some QS_e18);
  (120, 42, Some (cN 1));
  (121, 43, Some QS_e22);
  (123, 44, Some (cN (-1)));
  (124, 45, Some QS_e18);
  (129, 46, Some (cD (cN 1) (cR (cN 2))));
  (129, 56, Some (cD (cN 1) (cR (cN 6))));
  (129, 79, Some QS_e71);
  (130, 47, Some QS_e72);
  (130, 57, Some QS_e73);
  (130, 80, Some QS_e74);
  (131, 81, Some QS_e3);
  (132, 48, Some (cQ 1 2));
  (132, 58, Some QS_e192);
  (132, 83, Some QS_e193);
  (133, 49, Some QS_e194);
  (133, 59, Some QS_e195);
  (133, 84, Some QS_e196);
  (134, 85, Some QS_e17);
  (138, 48, Some (cD (cR (cN 3)) (cN 2)));
  (138, 58, Some (cQ (-1) 6));
  (138, 83, Some QS_e230);
  (139, 49, Some QS_e231);
  (139, 59, Some QS_e232);
  (139, 84, Some QS_e233);
  (140, 85, Some QS_e66);
  (141, 52, Some (cD (cN 1) (cR (cN 2))));
  (141, 60, Some QS_e81);
  (141, 87, Some QS_e82);
  (142, 53, Some QS_e72);
  (142, 61, Some QS_e83);
  (142, 88, Some QS_e84);
  (143, 89, Some QS_e21);
  (144, 54, Some (cN (-1)));
  (145, 55, Some QS_e18);
  (147, 58, Some QS_e234);
  (147, 83, Some QS_e235);
  (148, 59, Some QS_e236);
  (148, 84, Some QS_e237);
  (149, 85, Some QS_e238);
  (150, 64, Some (cN 1));
  (151, 65, Some QS_e22);
  (153, 68, Some (cD (cN 1) (cR (cN 2))));
  (153, 72, Some QS_e81);
  (153, 91, Some QS_e82);
  (154, 69, Some QS_e72);
  (154, 73, Some QS_e83);
  (154, 92, Some QS_e84);
  (155, 93, Some QS_e21);
  (156, 70, Some (cN (-1)));
  (157, 71, Some QS_e18);
  (159, 82, Some (cN 1));
  (160, 83, Some QS_e239);
  (161, 84, Some QS_e240);
  (162, 85, Some QS_e241);
  (164, 94, Some (cN 1));
  (168, 95, Some QS_e19);
  (168, 115, Some QS_e20);
  (169, 116, Some QS_e21);
  (170, 96, Some (cQ (-1) 2));
  (170, 118, Some QS_e63);
  (171, 119, Some QS_e64);
  (174, 96, Some QS_e75);
  (174, 118, Some QS_e76);
  (175, 119, Some QS_e77);
  (176, 98, Some QS_e19);
  (176, 121, Some QS_e23);
  (177, 122, Some QS_e3);
  (178, 99, Some (cN 1));
  (180, 100, Some QS_e19);
  (180, 124, Some QS_e20);
  (181, 125, Some QS_e21);
  (182, 101, Some (cQ (-1) 2));
  (182, 127, Some QS_e63);
  (183, 128, Some QS_e64);
  (186, 103, Some QS_e209);
  (186, 105, Some QS_e242);
  (186, 133, Some QS_e211);
  (186, 139, Some QS_e243);
  (187, 134, Some QS_e213);
  (187, 140, Some QS_e70);
  (188, 104, Some (cQ (-1) 2));
  (188, 136, Some QS_e63);
  (189, 137, Some QS_e64);
  (190, 107, Some QS_e19);
  (190, 145, Some QS_e20);
  (191, 146, Some QS_e21);
  (192, 101, Some QS_e75);
  (192, 127, Some QS_e76);
  (193, 128, Some QS_e77);
  (194, 103, Some QS_e210);
  (194, 105, Some QS_e209);
  (194, 133, Some QS_e215);
  (194, 139, Some QS_e244);
  (194, 148, Some QS_e245);
  (195, 134, Some QS_e205);
  (195, 140, Some QS_e246);
  (195, 149, Some QS_e247);
  (196, 104, Some (cD (cR (cN 3)) (cN 2)));
  (196, 136, Some QS_e65);
  (197, 137, Some QS_e66);
  (198, 109, Some QS_e19);
  (198, 151, Some QS_e23);
  (199, 152, Some QS_e3);
  (200, 110, Some (cN 1));
  (202, 112, Some QS_e19);
  (202, 157, Some QS_e20);
  (203, 158, Some QS_e21);
  (204, 117, Some (cN (-1)));
  (205, 118, Some QS_e78);
  (206, 119, Some QS_e79);
  (208, 126, Some (cN (-1)));
  (209, 127, Some QS_e78);
  (210, 128, Some QS_e79);
  (212, 132, Some QS_e19);
  (212, 138, Some (cD (cN 1) (cR (cN 6))));
  (212, 147, Some QS_e192);
  (212, 160, Some QS_e248);
  (213, 133, Some QS_e87);
  (213, 139, Some QS_e249);
  (213, 148, Some QS_e250);
  (213, 161, Some QS_e251);
  (214, 134, Some QS_e225);
  (214, 140, Some QS_e252);
  (214, 149, Some QS_e253);
  (214, 162, Some QS_e254);
  (215, 163, Some QS_e3);
  (216, 135, Some (cN 1));
  (217, 136, Some QS_e67);
  (218, 137, Some QS_e68);
  (220, 165, Some QS_e3);
  (221, 167, Some QS_e17);
  (223, 171, Some QS_e69);
  (223, 175, Some QS_e80);
  (224, 173, Some QS_e17);
  (225, 179, Some QS_e3);
  (226, 183, Some QS_e69);
  (226, 193, Some QS_e80);
  (227, 185, Some QS_e17);
  (228, 189, Some QS_e69);
  (228, 197, Some QS_e70);
  (229, 201, Some QS_e3);
  (230, 166, Some (cN 1));
  (231, 167, Some QS_e22);
  (233, 170, Some (cD (cN 1) (cR (cN 2))));
  (233, 174, Some QS_e81);
  (233, 205, Some QS_e82);
  (234, 171, Some QS_e72);
  (234, 175, Some QS_e83);
  (234, 206, Some QS_e84);
  (235, 207, Some QS_e21);
  (236, 172, Some (cN (-1)));
  (237, 173, Some QS_e18);
  (239, 182, Some (cD (cN 1) (cR (cN 2))));
  (239, 192, Some QS_e81);
  (239, 209, Some QS_e82);
  (240, 183, Some QS_e72);
  (240, 193, Some QS_e83);
  (240, 210, Some QS_e84);
  (241, 211, Some QS_e21);
  (242, 184, Some (cN (-1)));
  (243, 185, Some QS_e18);
  (245, 188, Some (cD (cN 1) (cR (cN 2))));
  (245, 196, Some (cD (cN 1) (cR (cN 6))));
  (245, 217, Some QS_e71);
  (246, 189, Some QS_e72);
  (246, 197, Some QS_e73);
  (246, 218, Some QS_e74);
  (247, 219, Some QS_e3);
  (248, 221, Some QS_e19);
  (248, 231, Some QS_e23);
  (249, 232, Some QS_e3);
  (250, 222, Some (cN 1));
  (252, 224, Some QS_e19);
  (252, 237, Some QS_e20);
  (253, 238, Some QS_e21);
  (254, 227, Some QS_e19);
  (254, 243, Some QS_e20);
  (255, 244, Some QS_e21);
  (256, 251, Some QS_e3)].
(** /repo/c++/symmetry/nrg-recalc-QS.hpp recalc_irreduc, qs/qs-4ch-spinupc.dat *)
Definition qs_4ch_t4 : irr_table := mk_irr 2 0 [ShLin 0%nat 1 1; ShLin 1%nat 1 1]  [
  (4, 1, Some (cN 1));
  (11, 3, Some QS_e17);
  (14, 5, Some QS_e3);
  (15, 7, Some QS_e17);
  (16, 9, Some QS_e17);
  (20, 2, Some (cN (-1)));
  (21, 3, Some QS_e18);
  (29, 6, Some (cN 1));
  (30, 7, Some QS_e22);
  (32, 8, Some (cN 1));
  (33, 9, Some QS_e22);
  (38, 10, Some (cN 1));
  (44, 11, Some QS_e19);
  (44, 21, Some QS_e20);
  (45, 22, Some QS_e21);
  (46, 12, Some (cQ (-1) 2));
  (46, 24, Some QS_e63);
  (47, 25, Some QS_e64);
  (48, 13, Some (cQ (-1) 2));
  (48, 27, Some QS_e63);
  (49, 28, Some QS_e64);
  (56, 12, Some QS_e75);
  (56, 24, Some QS_e76);
  (57, 25, Some QS_e77);
  (58, 13, Some QS_e75);
  (58, 27, Some QS_e76);
  (59, 28, Some QS_e77);
  (62, 15, Some QS_e19);
  (62, 30, Some QS_e23);
  (63, 31, Some QS_e3);
  (64, 16, Some QS_e19);
  (64, 33, Some QS_e23);
  (65, 34, Some QS_e3);
  (66, 17, Some (cN 1));
  (68, 18, Some (cN 1));
  (70, 19, Some (cN 1));
  (72, 36, Some QS_e85);
  (73, 37, Some QS_e86);
  (78, 23, Some (cN (-1)));
  (79, 24, Some QS_e78);
  (80, 25, Some QS_e79);
  (82, 26, Some (cN (-1)));
  (83, 27, Some QS_e78);
  (84, 28, Some QS_e79);
  (90, 35, Some (cN 1));
  (91, 36, Some QS_e67);
  (92, 37, Some QS_e68);
  (94, 39, Some QS_e3);
  (95, 41, Some QS_e17);
  (96, 43, Some QS_e17);
  (100, 47, Some QS_e69);
  (100, 57, Some QS_e80);
  (101, 49, Some QS_e69);
  (101, 59, Some QS_e80);
  (102, 51, Some QS_e17);
  (103, 53, Some QS_e17);
  (104, 55, Some QS_e17);
  (105, 61, Some QS_e64);
  (108, 67, Some QS_e3);
  (109, 69, Some QS_e3);
  (110, 71, Some QS_e3);
  (111, 75, Some QS_e17);
  (112, 77, Some QS_e17);
  (114, 40, Some (cN 1));
  (115, 41, Some QS_e22);
  (117, 42, Some (cN 1));
  (118, 43, Some QS_e22);
  (123, 46, Some (cD (cN 1) (cR (cN 2))));
  (123, 56, Some QS_e81);
  (123, 79, Some QS_e82);
  (124, 47, Some QS_e72);
  (124, 57, Some QS_e83);
  (124, 80, Some QS_e84);
  (125, 81, Some QS_e21);
  (126, 48, Some (cD (cN 1) (cR (cN 2))));
  (126, 58, Some QS_e81);
  (126, 83, Some QS_e82);
  (127, 49, Some QS_e72);
  (127, 59, Some QS_e83);
  (127, 84, Some QS_e84);
  (128, 85, Some QS_e21);
  (129, 50, Some (cN (-1)));
  (130, 51, Some QS_e18);
  (132, 52, Some (cN (-1)));
  (133, 53, Some QS_e18);
  (135, 54, Some (cN (-1)));
  (136, 55, Some QS_e18);
  (138, 60, Some (cQ (-1) 3));
  (138, 87, Some QS_e255);
  (139, 61, Some QS_e223);
  (139, 88, Some QS_e256);
  (140, 89, Some QS_e257);
  (147, 60, Some QS_e201);
  (147, 87, Some QS_e202);
  (148, 61, Some QS_e203);
  (148, 88, Some QS_e204);
  (149, 89, Some QS_e205);
  (150, 72, Some (cO (cR (cQ 2 3))));
  (150, 91, Some QS_e71);
  (151, 73, Some QS_e87);
  (151, 92, Some QS_e74);
  (152, 93, Some QS_e3);
  (153, 74, Some (cN 1));
  (154, 75, Some QS_e22);
  (156, 76, Some (cN 1));
  (157, 77, Some QS_e22);
  (159, 86, Some (cN (-1)));
  (160, 87, Some QS_e206);
  (161, 88, Some QS_e207);
  (162, 89, Some QS_e208);
  (164, 95, Some QS_e19);
  (164, 115, Some QS_e23);
  (165, 116, Some QS_e3);
  (166, 96, Some QS_e19);
  (166, 118, Some QS_e23);
  (167, 119, Some QS_e3);
  (168, 97, Some (cN 1));
  (170, 98, Some (cN 1));
  (172, 99, Some (cN 1));
  (174, 121, Some QS_e85);
  (175, 122, Some QS_e86);
  (180, 102, Some QS_e19);
  (180, 130, Some QS_e20);
  (181, 131, Some QS_e21);
  (182, 103, Some QS_e19);
  (182, 133, Some QS_e20);
  (183, 134, Some QS_e21);
  (184, 104, Some QS_e19);
  (184, 136, Some QS_e20);
  (185, 137, Some QS_e21);
  (186, 106, Some (cQ (-1) 2));
  (186, 142, Some QS_e63);
  (187, 143, Some QS_e64);
  (188, 107, Some (cQ (-1) 2));
  (188, 145, Some QS_e63);
  (189, 146, Some QS_e64);
  (192, 105, Some (cD (cN 1) (cR (cN 2))));
  (192, 139, Some QS_e258);
  (192, 148, Some QS_e217);
  (193, 140, Some QS_e259);
  (193, 149, Some QS_e219);
  (194, 106, Some QS_e75);
  (194, 142, Some QS_e76);
  (195, 143, Some QS_e77);
  (196, 107, Some QS_e75);
  (196, 145, Some QS_e76);
  (197, 146, Some QS_e77);
  (198, 111, Some QS_e19);
  (198, 154, Some QS_e23);
  (199, 155, Some QS_e3);
  (200, 112, Some QS_e19);
  (200, 157, Some QS_e23);
  (201, 158, Some QS_e3);
  (202, 113, Some (cN 1));
  (204, 120, Some (cN 1));
  (205, 121, Some QS_e67);
  (206, 122, Some QS_e68);
  (208, 138, Some (cR (cQ 2 3)));
  (208, 147, Some QS_e220);
  (208, 160, Some QS_e221);
  (209, 139, Some QS_e236);
  (209, 148, Some QS_e223);
  (209, 161, Some QS_e224);
  (210, 140, Some QS_e260);
  (210, 149, Some QS_e227);
  (210, 162, Some QS_e228);
  (211, 163, Some QS_e21);
  (212, 141, Some (cN (-1)));
  (213, 142, Some QS_e78);
  (214, 143, Some QS_e79);
  (216, 144, Some (cN (-1)));
  (217, 145, Some QS_e78);
  (218, 146, Some QS_e79);
  (220, 169, Some QS_e3);
  (221, 171, Some QS_e3);
  (222, 173, Some QS_e3);
  (223, 177, Some QS_e17);
  (224, 179, Some QS_e17);
  (226, 187, Some QS_e69);
  (226, 195, Some QS_e80);
  (227, 189, Some QS_e69);
  (227, 197, Some QS_e80);
  (228, 191, Some QS_e17);
  (229, 203, Some QS_e3);
  (230, 174, Some (cO (cR (cQ 2 3))));
  (230, 205, Some QS_e71);
  (231, 175, Some QS_e87);
  (231, 206, Some QS_e74);
  (232, 207, Some QS_e3);
  (233, 176, Some (cN 1));
  (234, 177, Some QS_e22);
  (236, 178, Some (cN 1));
  (237, 179, Some QS_e22);
  (239, 186, Some (cD (cN 1) (cR (cN 2))));
  (239, 194, Some QS_e81);
  (239, 213, Some QS_e82);
  (240, 187, Some QS_e72);
  (240, 195, Some QS_e83);
  (240, 214, Some QS_e84);
  (241, 215, Some QS_e21);
  (242, 188, Some (cD (cN 1) (cR (cN 2))));
  (242, 196, Some QS_e81);
  (242, 217, Some QS_e82);
  (243, 189, Some QS_e72);
  (243, 197, Some QS_e83);
  (243, 218, Some QS_e84);
  (244, 219, Some QS_e21);
  (245, 190, Some (cN (-1)));
  (246, 191, Some QS_e18);
  (248, 223, Some QS_e19);
  (248, 234, Some QS_e23);
  (249, 235, Some QS_e3);
  (250, 224, Some QS_e19);
  (250, 237, Some QS_e23);
  (251, 238, Some QS_e3);
  (252, 225, Some (cN 1));
  (254, 228, Some QS_e19);
  (254, 246, Some QS_e20);
  (255, 247, Some QS_e21);
  (256, 253, Some QS_e3)].
(** /repo/c++/symmetry/nrg-recalc-QS.hpp recalc_irreduc, qs/qs-4ch-spinupd.dat *)
Definition qs_4ch_t5 : irr_table := mk_irr 3 0 [ShLin 0%nat 1 1; ShLin 1%nat 1 1]  [
  (2, 1, Some (cN 1));
  (10, 3, Some QS_e3);
  (11, 5, Some QS_e17);
  (12, 7, Some QS_e17);
  (13, 9, Some QS_e17);
  (20, 4, Some (cN 1));
  (21, 5, Some QS_e22);
  (23, 6, Some (cN 1));
  (24, 7, Some QS_e22);
  (26, 8, Some (cN 1));
  (27, 9, Some QS_e22);
  (38, 11, Some QS_e19);
  (38, 21, Some QS_e23);
  (39, 22, Some QS_e3);
  (40, 12, Some QS_e19);
  (40, 24, Some QS_e23);
  (41, 25, Some QS_e3);
  (42, 13, Some QS_e19);
  (42, 27, Some QS_e23);
  (43, 28, Some QS_e3);
  (44, 14, Some (cN 1));
  (46, 15, Some (cN 1));
  (48, 16, Some (cN 1));
  (50, 17, Some (cN 1));
  (52, 18, Some (cN 1));
  (54, 19, Some (cN 1));
  (56, 30, Some QS_e85);
  (57, 31, Some QS_e86);
  (58, 33, Some QS_e85);
  (59, 34, Some QS_e86);
  (60, 36, Some QS_e85);
  (61, 37, Some QS_e86);
  (78, 29, Some (cN 1));
  (79, 30, Some QS_e67);
  (80, 31, Some QS_e68);
  (82, 32, Some (cN 1));
  (83, 33, Some QS_e67);
  (84, 34, Some QS_e68);
  (86, 35, Some (cN 1));
  (87, 36, Some QS_e67);
  (88, 37, Some QS_e68);
  (94, 45, Some QS_e3);
  (95, 47, Some QS_e3);
  (96, 49, Some QS_e3);
  (97, 51, Some QS_e3);
  (98, 53, Some QS_e3);
  (99, 55, Some QS_e3);
  (100, 63, Some QS_e17);
  (101, 65, Some QS_e17);
  (102, 67, Some QS_e17);
  (103, 69, Some QS_e17);
  (104, 71, Some QS_e17);
  (105, 73, Some QS_e17);
  (106, 75, Some QS_e17);
  (107, 77, Some QS_e17);
  (114, 56, Some (cO (cR (cQ 2 3))));
  (114, 79, Some QS_e71);
  (115, 57, Some QS_e87);
  (115, 80, Some QS_e74);
  (116, 81, Some QS_e3);
  (117, 58, Some (cO (cR (cQ 2 3))));
  (117, 83, Some QS_e71);
  (118, 59, Some QS_e87);
  (118, 84, Some QS_e74);
  (119, 85, Some QS_e3);
  (120, 60, Some (cO (cR (cQ 2 3))));
  (120, 87, Some QS_e71);
  (121, 61, Some QS_e87);
  (121, 88, Some QS_e74);
  (122, 89, Some QS_e3);
  (123, 62, Some (cN 1));
  (124, 63, Some QS_e22);
  (126, 64, Some (cN 1));
  (127, 65, Some QS_e22);
  (129, 66, Some (cN 1));
  (130, 67, Some QS_e22);
  (132, 68, Some (cN 1));
  (133, 69, Some QS_e22);
  (135, 70, Some (cN 1));
  (136, 71, Some QS_e22);
  (138, 72, Some (cN 1));
  (139, 73, Some QS_e22);
  (141, 74, Some (cN 1));
  (142, 75, Some QS_e22);
  (144, 76, Some (cN 1));
  (145, 77, Some QS_e22);
  (147, 91, Some QS_e261);
  (148, 92, Some QS_e262);
  (149, 93, Some QS_e70);
  (159, 90, Some (cN 1));
  (160, 91, Some QS_e239);
  (161, 92, Some QS_e240);
  (162, 93, Some QS_e241);
  (164, 100, Some QS_e19);
  (164, 124, Some QS_e23);
  (165, 125, Some QS_e3);
  (166, 101, Some QS_e19);
  (166, 127, Some QS_e23);
  (167, 128, Some QS_e3);
  (168, 102, Some QS_e19);
  (168, 130, Some QS_e23);
  (169, 131, Some QS_e3);
  (170, 103, Some QS_e19);
  (170, 133, Some QS_e23);
  (171, 134, Some QS_e3);
  (172, 104, Some QS_e19);
  (172, 136, Some QS_e23);
  (173, 137, Some QS_e3);
  (174, 105, Some QS_e19);
  (174, 139, Some QS_e23);
  (175, 140, Some QS_e3);
  (176, 106, Some QS_e19);
  (176, 142, Some QS_e23);
  (177, 143, Some QS_e3);
  (178, 107, Some QS_e19);
  (178, 145, Some QS_e23);
  (179, 146, Some QS_e3);
  (180, 108, Some (cN 1));
  (182, 109, Some (cN 1));
  (184, 110, Some (cN 1));
  (186, 111, Some (cN 1));
  (188, 112, Some (cN 1));
  (190, 113, Some (cN 1));
  (192, 151, Some QS_e85);
  (193, 152, Some QS_e86);
  (194, 154, Some QS_e85);
  (195, 155, Some QS_e86);
  (196, 157, Some QS_e85);
  (197, 158, Some QS_e86);
  (204, 147, Some QS_e75);
  (204, 160, Some QS_e248);
  (205, 148, Some QS_e18);
  (205, 161, Some QS_e251);
  (206, 149, Some QS_e263);
  (206, 162, Some QS_e254);
  (207, 163, Some QS_e3);
  (208, 150, Some (cN 1));
  (209, 151, Some QS_e67);
  (210, 152, Some QS_e68);
  (212, 153, Some (cN 1));
  (213, 154, Some QS_e67);
  (214, 155, Some QS_e68);
  (216, 156, Some (cN 1));
  (217, 157, Some QS_e67);
  (218, 158, Some QS_e68);
  (220, 181, Some QS_e3);
  (221, 183, Some QS_e3);
  (222, 185, Some QS_e3);
  (223, 187, Some QS_e3);
  (224, 189, Some QS_e3);
  (225, 191, Some QS_e3);
  (226, 199, Some QS_e17);
  (227, 201, Some QS_e17);
  (228, 203, Some QS_e17);
  (230, 192, Some (cO (cR (cQ 2 3))));
  (230, 209, Some QS_e71);
  (231, 193, Some QS_e87);
  (231, 210, Some QS_e74);
  (232, 211, Some QS_e3);
  (233, 194, Some (cO (cR (cQ 2 3))));
  (233, 213, Some QS_e71);
  (234, 195, Some QS_e87);
  (234, 214, Some QS_e74);
  (235, 215, Some QS_e3);
  (236, 196, Some (cO (cR (cQ 2 3))));
  (236, 217, Some QS_e71);
  (237, 197, Some QS_e87);
  (237, 218, Some QS_e74);
  (238, 219, Some QS_e3);
  (239, 198, Some (cN 1));
  (240, 199, Some QS_e22);
  (242, 200, Some (cN 1));
  (243, 201, Some QS_e22);
  (245, 202, Some (cN 1));
  (246, 203, Some QS_e22);
  (248, 226, Some QS_e19);
  (248, 240, Some QS_e23);
  (249, 241, Some QS_e3);
  (250, 227, Some QS_e19);
  (250, 243, Some QS_e23);
  (251, 244, Some QS_e3);
  (252, 228, Some QS_e19);
  (252, 246, Some QS_e23);
  (253, 247, Some QS_e3);
  (254, 229, Some (cN 1));
  (256, 255, Some QS_e3)].
(** /repo/c++/symmetry/nrg-recalc-QS.hpp recalc_irreduc, qs/qs-4ch-spindowna.dat *)
Definition qs_4ch_t6 : irr_table := mk_irr 0 0 [ShLin 0%nat 1 1; ShLin 1%nat 1 (-1)]  [
  (9, 1, Some (cN 1));
  (13, 2, Some QS_e24);
  (16, 4, Some QS_e24);
  (18, 6, Some QS_e24);
  (19, 8, Some QS_e4);
  (27, 2, Some QS_e25);
  (28, 3, Some (cN (-1)));
  (33, 4, Some QS_e25);
  (34, 5, Some (cN (-1)));
  (36, 6, Some QS_e25);
  (37, 7, Some (cN (-1)));
  (43, 10, Some (cN 1));
  (48, 20, Some QS_e88);
  (49, 11, Some (cQ (-1) 2));
  (49, 21, Some QS_e89);
  (52, 23, Some QS_e88);
  (53, 12, Some (cQ (-1) 2));
  (53, 24, Some QS_e89);
  (54, 26, Some QS_e26);
  (55, 13, Some QS_e19);
  (55, 27, Some QS_e27);
  (58, 20, Some QS_e90);
  (59, 11, Some (cD (cR (cN 3)) (cN 2)));
  (59, 21, Some QS_e91);
  (60, 23, Some QS_e90);
  (61, 12, Some (cD (cR (cN 3)) (cN 2)));
  (61, 24, Some QS_e91);
  (65, 14, Some (cN 1));
  (68, 29, Some QS_e88);
  (69, 15, Some (cQ (-1) 2));
  (69, 30, Some QS_e89);
  (70, 32, Some QS_e26);
  (71, 16, Some QS_e19);
  (71, 33, Some QS_e27);
  (72, 29, Some QS_e90);
  (73, 15, Some (cD (cR (cN 3)) (cN 2)));
  (73, 30, Some QS_e91);
  (75, 17, Some (cN 1));
  (76, 35, Some QS_e26);
  (77, 18, Some QS_e19);
  (77, 36, Some QS_e27);
  (83, 20, Some QS_e92);
  (84, 21, Some QS_e93);
  (85, 22, Some (cN 1));
  (87, 23, Some QS_e92);
  (88, 24, Some QS_e93);
  (89, 25, Some (cN 1));
  (91, 29, Some QS_e92);
  (92, 30, Some QS_e93);
  (93, 31, Some (cN 1));
  (96, 38, Some QS_e24);
  (98, 40, Some QS_e24);
  (99, 42, Some QS_e4);
  (101, 44, Some QS_e24);
  (103, 46, Some QS_e264);
  (103, 56, Some QS_e265);
  (104, 48, Some QS_e94);
  (104, 58, Some QS_e95);
  (105, 46, Some QS_e265);
  (105, 56, Some QS_e266);
  (106, 50, Some QS_e24);
  (107, 52, Some QS_e94);
  (107, 60, Some QS_e95);
  (109, 62, Some QS_e24);
  (110, 64, Some QS_e4);
  (111, 66, Some QS_e24);
  (112, 68, Some QS_e94);
  (112, 72, Some QS_e95);
  (113, 74, Some QS_e4);
  (118, 38, Some QS_e25);
  (119, 39, Some (cN (-1)));
  (121, 40, Some QS_e25);
  (122, 41, Some (cN (-1)));
  (127, 44, Some QS_e25);
  (128, 45, Some (cN (-1)));
  (132, 78, Some QS_e24);
  (133, 46, Some QS_e267);
  (133, 56, Some QS_e268);
  (133, 79, Some QS_e109);
  (134, 47, Some (cQ 1 2));
  (134, 57, Some QS_e192);
  (134, 80, Some QS_e269);
  (135, 82, Some QS_e4);
  (136, 48, Some QS_e96);
  (136, 58, Some QS_e97);
  (136, 83, Some QS_e98);
  (137, 49, Some (cD (cN 1) (cR (cN 2))));
  (137, 59, Some (cD (cN 1) (cR (cN 6))));
  (137, 84, Some QS_e99);
  (138, 78, Some QS_e100);
  (139, 46, Some QS_e270);
  (139, 56, Some QS_e271);
  (139, 79, Some QS_e272);
  (140, 47, Some QS_e75);
  (140, 57, Some (cQ 1 6));
  (140, 80, Some QS_e273);
  (142, 50, Some QS_e25);
  (143, 51, Some (cN (-1)));
  (144, 86, Some QS_e4);
  (145, 52, Some QS_e96);
  (145, 60, Some QS_e97);
  (145, 87, Some QS_e98);
  (146, 53, Some (cD (cN 1) (cR (cN 2))));
  (146, 61, Some (cD (cN 1) (cR (cN 6))));
  (146, 88, Some QS_e99);
  (147, 78, Some QS_e274);
  (148, 56, Some QS_e275);
  (148, 79, Some QS_e276);
  (149, 57, Some QS_e201);
  (149, 80, Some QS_e277);
  (151, 62, Some QS_e25);
  (152, 63, Some (cN (-1)));
  (154, 66, Some QS_e25);
  (155, 67, Some (cN (-1)));
  (156, 90, Some QS_e4);
  (157, 68, Some QS_e96);
  (157, 72, Some QS_e97);
  (157, 91, Some QS_e98);
  (158, 69, Some (cD (cN 1) (cR (cN 2))));
  (158, 73, Some (cD (cN 1) (cR (cN 6))));
  (158, 92, Some QS_e99);
  (160, 78, Some QS_e278);
  (161, 79, Some QS_e279);
  (162, 80, Some QS_e280);
  (163, 81, Some (cN (-1)));
  (167, 94, Some (cN 1));
  (170, 114, Some QS_e88);
  (171, 95, Some (cQ (-1) 2));
  (171, 115, Some QS_e89);
  (172, 117, Some QS_e26);
  (173, 96, Some QS_e19);
  (173, 118, Some QS_e27);
  (174, 114, Some QS_e90);
  (175, 95, Some (cD (cR (cN 3)) (cN 2)));
  (175, 115, Some QS_e91);
  (177, 97, Some (cN 1));
  (178, 120, Some QS_e26);
  (179, 98, Some QS_e19);
  (179, 121, Some QS_e27);
  (182, 123, Some QS_e88);
  (183, 100, Some (cQ (-1) 2));
  (183, 124, Some QS_e89);
  (184, 126, Some QS_e26);
  (185, 101, Some QS_e19);
  (185, 127, Some QS_e27);
  (186, 129, Some QS_e88);
  (187, 102, Some (cQ (-1) 2));
  (187, 130, Some QS_e89);
  (188, 132, Some QS_e281);
  (188, 138, Some QS_e104);
  (189, 103, Some QS_e209);
  (189, 105, Some QS_e210);
  (189, 133, Some QS_e282);
  (189, 139, Some QS_e283);
  (190, 141, Some QS_e26);
  (191, 106, Some QS_e19);
  (191, 142, Some QS_e27);
  (192, 123, Some QS_e90);
  (193, 100, Some (cD (cR (cN 3)) (cN 2)));
  (193, 124, Some QS_e91);
  (194, 129, Some QS_e90);
  (195, 102, Some (cD (cR (cN 3)) (cN 2)));
  (195, 130, Some QS_e91);
  (196, 132, Some QS_e274);
  (196, 138, Some QS_e284);
  (196, 147, Some QS_e285);
  (197, 103, Some QS_e210);
  (197, 105, Some QS_e214);
  (197, 133, Some QS_e286);
  (197, 139, Some QS_e287);
  (197, 148, Some QS_e288);
  (199, 108, Some (cN 1));
  (200, 150, Some QS_e26);
  (201, 109, Some QS_e19);
  (201, 151, Some QS_e27);
  (202, 153, Some QS_e26);
  (203, 111, Some QS_e19);
  (203, 154, Some QS_e27);
  (205, 114, Some QS_e92);
  (206, 115, Some QS_e93);
  (207, 116, Some (cN 1));
  (209, 123, Some QS_e92);
  (210, 124, Some QS_e93);
  (211, 125, Some (cN 1));
  (213, 129, Some QS_e92);
  (214, 130, Some QS_e93);
  (215, 131, Some (cN 1));
  (216, 159, Some QS_e26);
  (217, 132, Some QS_e289);
  (217, 138, Some QS_e290);
  (217, 147, Some QS_e291);
  (217, 160, Some QS_e292);
  (218, 133, Some QS_e110);
  (218, 139, Some QS_e293);
  (218, 148, Some QS_e294);
  (218, 161, Some QS_e295);
  (219, 134, Some QS_e19);
  (219, 140, Some QS_e81);
  (219, 149, Some QS_e220);
  (219, 162, Some QS_e296);
  (221, 164, Some QS_e24);
  (222, 166, Some QS_e4);
  (223, 168, Some QS_e24);
  (224, 170, Some QS_e94);
  (224, 174, Some QS_e95);
  (225, 176, Some QS_e4);
  (226, 180, Some QS_e24);
  (227, 182, Some QS_e94);
  (227, 192, Some QS_e95);
  (228, 186, Some QS_e94);
  (228, 194, Some QS_e95);
  (229, 198, Some QS_e4);
  (231, 164, Some QS_e25);
  (232, 165, Some (cN (-1)));
  (234, 168, Some QS_e25);
  (235, 169, Some (cN (-1)));
  (236, 204, Some QS_e4);
  (237, 170, Some QS_e96);
  (237, 174, Some QS_e97);
  (237, 205, Some QS_e98);
  (238, 171, Some (cD (cN 1) (cR (cN 2))));
  (238, 175, Some (cD (cN 1) (cR (cN 6))));
  (238, 206, Some QS_e99);
  (240, 180, Some QS_e25);
  (241, 181, Some (cN (-1)));
  (242, 208, Some QS_e4);
  (243, 182, Some QS_e96);
  (243, 192, Some QS_e97);
  (243, 209, Some QS_e98);
  (244, 183, Some (cD (cN 1) (cR (cN 2))));
  (244, 193, Some (cD (cN 1) (cR (cN 6))));
  (244, 210, Some QS_e99);
  (245, 212, Some QS_e4);
  (246, 186, Some QS_e96);
  (246, 194, Some QS_e97);
  (246, 213, Some QS_e98);
  (247, 187, Some (cD (cN 1) (cR (cN 2))));
  (247, 195, Some (cD (cN 1) (cR (cN 6))));
  (247, 214, Some QS_e99);
  (249, 220, Some (cN 1));
  (250, 230, Some QS_e26);
  (251, 221, Some QS_e19);
  (251, 231, Some QS_e27);
  (252, 233, Some QS_e26);
  (253, 223, Some QS_e19);
  (253, 234, Some QS_e27);
  (254, 239, Some QS_e26);
  (255, 226, Some QS_e19);
  (255, 240, Some QS_e27);
  (256, 248, Some QS_e4)].
(** /repo/c++/symmetry/nrg-recalc-QS.hpp recalc_irreduc, qs/qs-4ch-spindownb.dat *)
Definition qs_4ch_t7 : irr_table := mk_irr 1 0 [ShLin 0%nat 1 1; ShLin 1%nat 1 (-1)]  [
  (7, 1, Some (cN 1));
  (12, 2, Some QS_e24);
  (15, 4, Some QS_e24);
  (17, 6, Some QS_e4);
  (18, 8, Some QS_e24);
  (24, 2, Some QS_e25);
  (25, 3, Some (cN (-1)));
  (30, 4, Some QS_e25);
  (31, 5, Some (cN (-1)));
  (36, 8, Some QS_e28);
  (37, 9, Some (cN 1));
  (41, 10, Some (cN 1));
  (46, 20, Some QS_e88);
  (47, 11, Some (cQ (-1) 2));
  (47, 21, Some QS_e89);
  (50, 23, Some QS_e26);
  (51, 12, Some QS_e19);
  (51, 24, Some QS_e27);
  (52, 26, Some QS_e88);
  (53, 13, Some (cQ (-1) 2));
  (53, 27, Some QS_e89);
  (56, 20, Some QS_e90);
  (57, 11, Some (cD (cR (cN 3)) (cN 2)));
  (57, 21, Some QS_e91);
  (60, 26, Some QS_e100);
  (61, 13, Some QS_e75);
  (61, 27, Some QS_e101);
  (63, 14, Some (cN 1));
  (66, 29, Some QS_e26);
  (67, 15, Some QS_e19);
  (67, 30, Some QS_e27);
  (68, 32, Some QS_e88);
  (69, 16, Some (cQ (-1) 2));
  (69, 33, Some QS_e89);
  (72, 32, Some QS_e100);
  (73, 16, Some QS_e75);
  (73, 33, Some QS_e101);
  (74, 35, Some QS_e4);
  (75, 18, Some QS_e19);
  (75, 36, Some QS_e29);
  (77, 19, Some (cN 1));
  (79, 20, Some QS_e92);
  (80, 21, Some QS_e93);
  (81, 22, Some (cN 1));
  (87, 26, Some QS_e102);
  (88, 27, Some QS_e103);
  (89, 28, Some (cN (-1)));
  (91, 32, Some QS_e102);
  (92, 33, Some QS_e103);
  (93, 34, Some (cN (-1)));
  (95, 38, Some QS_e24);
  (97, 40, Some QS_e4);
  (98, 42, Some QS_e24);
  (100, 44, Some QS_e24);
  (102, 46, Some QS_e94);
  (102, 56, Some QS_e95);
  (103, 48, Some QS_e264);
  (103, 58, Some QS_e265);
  (105, 48, Some QS_e297);
  (105, 58, Some QS_e264);
  (106, 52, Some QS_e94);
  (106, 60, Some QS_e104);
  (107, 54, Some QS_e24);
  (108, 62, Some QS_e4);
  (109, 64, Some QS_e24);
  (111, 68, Some QS_e94);
  (111, 72, Some QS_e104);
  (112, 70, Some QS_e24);
  (113, 76, Some QS_e4);
  (115, 38, Some QS_e25);
  (116, 39, Some (cN (-1)));
  (121, 42, Some QS_e28);
  (122, 43, Some (cN 1));
  (124, 44, Some QS_e25);
  (125, 45, Some (cN (-1)));
  (129, 78, Some QS_e4);
  (130, 46, Some QS_e96);
  (130, 56, Some QS_e97);
  (130, 79, Some QS_e98);
  (131, 47, Some (cD (cN 1) (cR (cN 2))));
  (131, 57, Some (cD (cN 1) (cR (cN 6))));
  (131, 80, Some QS_e99);
  (132, 82, Some QS_e24);
  (133, 48, Some QS_e267);
  (133, 58, Some QS_e268);
  (133, 83, Some QS_e109);
  (134, 49, Some (cQ 1 2));
  (134, 59, Some QS_e192);
  (134, 84, Some QS_e269);
  (138, 82, Some QS_e90);
  (139, 48, Some QS_e298);
  (139, 58, Some QS_e299);
  (139, 83, Some QS_e300);
  (140, 49, Some (cD (cR (cN 3)) (cN 2)));
  (140, 59, Some (cQ (-1) 6));
  (140, 84, Some QS_e301);
  (141, 86, Some QS_e26);
  (142, 52, Some QS_e96);
  (142, 60, Some QS_e105);
  (142, 87, Some QS_e106);
  (143, 53, Some (cD (cN 1) (cR (cN 2))));
  (143, 61, Some QS_e81);
  (143, 88, Some QS_e107);
  (145, 54, Some QS_e25);
  (146, 55, Some (cN (-1)));
  (147, 82, Some QS_e302);
  (148, 58, Some QS_e303);
  (148, 83, Some QS_e304);
  (149, 59, Some QS_e234);
  (149, 84, Some QS_e305);
  (151, 64, Some QS_e28);
  (152, 65, Some (cN 1));
  (153, 90, Some QS_e26);
  (154, 68, Some QS_e96);
  (154, 72, Some QS_e105);
  (154, 91, Some QS_e106);
  (155, 69, Some (cD (cN 1) (cR (cN 2))));
  (155, 73, Some QS_e81);
  (155, 92, Some QS_e107);
  (157, 70, Some QS_e25);
  (158, 71, Some (cN (-1)));
  (160, 82, Some QS_e306);
  (161, 83, Some QS_e307);
  (162, 84, Some QS_e308);
  (163, 85, Some (cN 1));
  (165, 94, Some (cN 1));
  (168, 114, Some QS_e26);
  (169, 95, Some QS_e19);
  (169, 115, Some QS_e27);
  (170, 117, Some QS_e88);
  (171, 96, Some (cQ (-1) 2));
  (171, 118, Some QS_e89);
  (174, 117, Some QS_e100);
  (175, 96, Some QS_e75);
  (175, 118, Some QS_e101);
  (176, 120, Some QS_e4);
  (177, 98, Some QS_e19);
  (177, 121, Some QS_e29);
  (179, 99, Some (cN 1));
  (180, 123, Some QS_e26);
  (181, 100, Some QS_e19);
  (181, 124, Some QS_e27);
  (182, 126, Some QS_e88);
  (183, 101, Some (cQ (-1) 2));
  (183, 127, Some QS_e89);
  (186, 132, Some QS_e281);
  (186, 138, Some QS_e95);
  (187, 103, Some QS_e209);
  (187, 105, Some QS_e242);
  (187, 133, Some QS_e282);
  (187, 139, Some QS_e309);
  (188, 135, Some QS_e88);
  (189, 104, Some (cQ (-1) 2));
  (189, 136, Some QS_e89);
  (190, 144, Some QS_e26);
  (191, 107, Some QS_e19);
  (191, 145, Some QS_e27);
  (192, 126, Some QS_e100);
  (193, 101, Some QS_e75);
  (193, 127, Some QS_e101);
  (194, 132, Some QS_e274);
  (194, 138, Some QS_e310);
  (194, 147, Some QS_e311);
  (195, 103, Some QS_e210);
  (195, 105, Some QS_e209);
  (195, 133, Some QS_e286);
  (195, 139, Some QS_e312);
  (195, 148, Some QS_e313);
  (196, 135, Some QS_e90);
  (197, 104, Some (cD (cR (cN 3)) (cN 2)));
  (197, 136, Some QS_e91);
  (198, 150, Some QS_e4);
  (199, 109, Some QS_e19);
  (199, 151, Some QS_e29);
  (201, 110, Some (cN 1));
  (202, 156, Some QS_e26);
  (203, 112, Some QS_e19);
  (203, 157, Some QS_e27);
  (205, 117, Some QS_e102);
  (206, 118, Some QS_e103);
  (207, 119, Some (cN (-1)));
  (209, 126, Some QS_e102);
  (210, 127, Some QS_e103);
  (211, 128, Some (cN (-1)));
  (212, 159, Some QS_e4);
  (213, 132, Some QS_e289);
  (213, 138, Some QS_e314);
  (213, 147, Some QS_e315);
  (213, 160, Some QS_e316);
  (214, 133, Some QS_e110);
  (214, 139, Some QS_e317);
  (214, 148, Some QS_e318);
  (214, 161, Some QS_e319);
  (215, 134, Some QS_e19);
  (215, 140, Some (cD (cN 1) (cR (cN 6))));
  (215, 149, Some QS_e192);
  (215, 162, Some QS_e320);
  (217, 135, Some QS_e92);
  (218, 136, Some QS_e93);
  (219, 137, Some (cN 1));
  (220, 164, Some QS_e4);
  (221, 166, Some QS_e24);
  (223, 170, Some QS_e94);
  (223, 174, Some QS_e104);
  (224, 172, Some QS_e24);
  (225, 178, Some QS_e4);
  (226, 182, Some QS_e94);
  (226, 192, Some QS_e104);
  (227, 184, Some QS_e24);
  (228, 188, Some QS_e94);
  (228, 196, Some QS_e95);
  (229, 200, Some QS_e4);
  (231, 166, Some QS_e28);
  (232, 167, Some (cN 1));
  (233, 204, Some QS_e26);
  (234, 170, Some QS_e96);
  (234, 174, Some QS_e105);
  (234, 205, Some QS_e106);
  (235, 171, Some (cD (cN 1) (cR (cN 2))));
  (235, 175, Some QS_e81);
  (235, 206, Some QS_e107);
  (237, 172, Some QS_e25);
  (238, 173, Some (cN (-1)));
  (239, 208, Some QS_e26);
  (240, 182, Some QS_e96);
  (240, 192, Some QS_e105);
  (240, 209, Some QS_e106);
  (241, 183, Some (cD (cN 1) (cR (cN 2))));
  (241, 193, Some QS_e81);
  (241, 210, Some QS_e107);
  (243, 184, Some QS_e25);
  (244, 185, Some (cN (-1)));
  (245, 216, Some QS_e4);
  (246, 188, Some QS_e96);
  (246, 196, Some QS_e97);
  (246, 217, Some QS_e98);
  (247, 189, Some (cD (cN 1) (cR (cN 2))));
  (247, 197, Some (cD (cN 1) (cR (cN 6))));
  (247, 218, Some QS_e99);
  (248, 230, Some QS_e4);
  (249, 221, Some QS_e19);
  (249, 231, Some QS_e29);
  (251, 222, Some (cN 1));
  (252, 236, Some QS_e26);
  (253, 224, Some QS_e19);
  (253, 237, Some QS_e27);
  (254, 242, Some QS_e26);
  (255, 227, Some QS_e19);
  (255, 243, Some QS_e27);
  (256, 250, Some QS_e4)].
(** /repo/c++/symmetry/nrg-recalc-QS.hpp recalc_irreduc, qs/qs-4ch-spindownc.dat *)
Definition qs_4ch_t8 : irr_table := mk_irr 2 0 [ShLin 0%nat 1 1; ShLin 1%nat 1 (-1)]  [
  (5, 1, Some (cN 1));
  (11, 2, Some QS_e24);
  (14, 4, Some QS_e4);
  (15, 6, Some QS_e24);
  (16, 8, Some QS_e24);
  (21, 2, Some QS_e25);
  (22, 3, Some (cN (-1)));
  (30, 6, Some QS_e28);
  (31, 7, Some (cN 1));
  (33, 8, Some QS_e28);
  (34, 9, Some (cN 1));
  (39, 10, Some (cN 1));
  (44, 20, Some QS_e26);
  (45, 11, Some QS_e19);
  (45, 21, Some QS_e27);
  (46, 23, Some QS_e88);
  (47, 12, Some (cQ (-1) 2));
  (47, 24, Some QS_e89);
  (48, 26, Some QS_e88);
  (49, 13, Some (cQ (-1) 2));
  (49, 27, Some QS_e89);
  (56, 23, Some QS_e100);
  (57, 12, Some QS_e75);
  (57, 24, Some QS_e101);
  (58, 26, Some QS_e100);
  (59, 13, Some QS_e75);
  (59, 27, Some QS_e101);
  (62, 29, Some QS_e4);
  (63, 15, Some QS_e19);
  (63, 30, Some QS_e29);
  (64, 32, Some QS_e4);
  (65, 16, Some QS_e19);
  (65, 33, Some QS_e29);
  (67, 17, Some (cN 1));
  (69, 18, Some (cN 1));
  (71, 19, Some (cN 1));
  (72, 35, Some QS_e108);
  (73, 36, Some QS_e109);
  (79, 23, Some QS_e102);
  (80, 24, Some QS_e103);
  (81, 25, Some (cN (-1)));
  (83, 26, Some QS_e102);
  (84, 27, Some QS_e103);
  (85, 28, Some (cN (-1)));
  (91, 35, Some QS_e92);
  (92, 36, Some QS_e93);
  (93, 37, Some (cN 1));
  (94, 38, Some QS_e4);
  (95, 40, Some QS_e24);
  (96, 42, Some QS_e24);
  (100, 46, Some QS_e94);
  (100, 56, Some QS_e104);
  (101, 48, Some QS_e94);
  (101, 58, Some QS_e104);
  (102, 50, Some QS_e24);
  (103, 52, Some QS_e24);
  (104, 54, Some QS_e24);
  (105, 60, Some QS_e88);
  (108, 66, Some QS_e4);
  (109, 68, Some QS_e4);
  (110, 70, Some QS_e4);
  (111, 74, Some QS_e24);
  (112, 76, Some QS_e24);
  (115, 40, Some QS_e28);
  (116, 41, Some (cN 1));
  (118, 42, Some QS_e28);
  (119, 43, Some (cN 1));
  (123, 78, Some QS_e26);
  (124, 46, Some QS_e96);
  (124, 56, Some QS_e105);
  (124, 79, Some QS_e106);
  (125, 47, Some (cD (cN 1) (cR (cN 2))));
  (125, 57, Some QS_e81);
  (125, 80, Some QS_e107);
  (126, 82, Some QS_e26);
  (127, 48, Some QS_e96);
  (127, 58, Some QS_e105);
  (127, 83, Some QS_e106);
  (128, 49, Some (cD (cN 1) (cR (cN 2))));
  (128, 59, Some QS_e81);
  (128, 84, Some QS_e107);
  (130, 50, Some QS_e25);
  (131, 51, Some (cN (-1)));
  (133, 52, Some QS_e25);
  (134, 53, Some (cN (-1)));
  (136, 54, Some QS_e25);
  (137, 55, Some (cN (-1)));
  (138, 86, Some QS_e321);
  (139, 60, Some QS_e294);
  (139, 87, Some QS_e288);
  (140, 61, Some (cQ (-1) 3));
  (140, 88, Some QS_e322);
  (147, 86, Some QS_e274);
  (148, 60, Some QS_e275);
  (148, 87, Some QS_e276);
  (149, 61, Some QS_e201);
  (149, 88, Some QS_e277);
  (150, 90, Some QS_e4);
  (151, 72, Some QS_e110);
  (151, 91, Some QS_e98);
  (152, 73, Some (cO (cR (cQ 2 3))));
  (152, 92, Some QS_e99);
  (154, 74, Some QS_e28);
  (155, 75, Some (cN 1));
  (157, 76, Some QS_e28);
  (158, 77, Some (cN 1));
  (160, 86, Some QS_e278);
  (161, 87, Some QS_e279);
  (162, 88, Some QS_e280);
  (163, 89, Some (cN (-1)));
  (164, 114, Some QS_e4);
  (165, 95, Some QS_e19);
  (165, 115, Some QS_e29);
  (166, 117, Some QS_e4);
  (167, 96, Some QS_e19);
  (167, 118, Some QS_e29);
  (169, 97, Some (cN 1));
  (171, 98, Some (cN 1));
  (173, 99, Some (cN 1));
  (174, 120, Some QS_e108);
  (175, 121, Some QS_e109);
  (180, 129, Some QS_e26);
  (181, 102, Some QS_e19);
  (181, 130, Some QS_e27);
  (182, 132, Some QS_e26);
  (183, 103, Some QS_e19);
  (183, 133, Some QS_e27);
  (184, 135, Some QS_e26);
  (185, 104, Some QS_e19);
  (185, 136, Some QS_e27);
  (186, 141, Some QS_e88);
  (187, 106, Some (cQ (-1) 2));
  (187, 142, Some QS_e89);
  (188, 144, Some QS_e88);
  (189, 107, Some (cQ (-1) 2));
  (189, 145, Some QS_e89);
  (192, 138, Some QS_e323);
  (192, 147, Some QS_e285);
  (193, 105, Some (cD (cN 1) (cR (cN 2))));
  (193, 139, Some QS_e304);
  (193, 148, Some QS_e288);
  (194, 141, Some QS_e100);
  (195, 106, Some QS_e75);
  (195, 142, Some QS_e101);
  (196, 144, Some QS_e100);
  (197, 107, Some QS_e75);
  (197, 145, Some QS_e101);
  (198, 153, Some QS_e4);
  (199, 111, Some QS_e19);
  (199, 154, Some QS_e29);
  (200, 156, Some QS_e4);
  (201, 112, Some QS_e19);
  (201, 157, Some QS_e29);
  (203, 113, Some (cN 1));
  (205, 120, Some QS_e92);
  (206, 121, Some QS_e93);
  (207, 122, Some (cN 1));
  (208, 159, Some QS_e26);
  (209, 138, Some QS_e324);
  (209, 147, Some QS_e291);
  (209, 160, Some QS_e292);
  (210, 139, Some QS_e303);
  (210, 148, Some QS_e294);
  (210, 161, Some QS_e295);
  (211, 140, Some (cR (cQ 2 3)));
  (211, 149, Some QS_e220);
  (211, 162, Some QS_e296);
  (213, 141, Some QS_e102);
  (214, 142, Some QS_e103);
  (215, 143, Some (cN (-1)));
  (217, 144, Some QS_e102);
  (218, 145, Some QS_e103);
  (219, 146, Some (cN (-1)));
  (220, 168, Some QS_e4);
  (221, 170, Some QS_e4);
  (222, 172, Some QS_e4);
  (223, 176, Some QS_e24);
  (224, 178, Some QS_e24);
  (226, 186, Some QS_e94);
  (226, 194, Some QS_e104);
  (227, 188, Some QS_e94);
  (227, 196, Some QS_e104);
  (228, 190, Some QS_e24);
  (229, 202, Some QS_e4);
  (230, 204, Some QS_e4);
  (231, 174, Some QS_e110);
  (231, 205, Some QS_e98);
  (232, 175, Some (cO (cR (cQ 2 3))));
  (232, 206, Some QS_e99);
  (234, 176, Some QS_e28);
  (235, 177, Some (cN 1));
  (237, 178, Some QS_e28);
  (238, 179, Some (cN 1));
  (239, 212, Some QS_e26);
  (240, 186, Some QS_e96);
  (240, 194, Some QS_e105);
  (240, 213, Some QS_e106);
  (241, 187, Some (cD (cN 1) (cR (cN 2))));
  (241, 195, Some QS_e81);
  (241, 214, Some QS_e107);
  (242, 216, Some QS_e26);
  (243, 188, Some QS_e96);
  (243, 196, Some QS_e105);
  (243, 217, Some QS_e106);
  (244, 189, Some (cD (cN 1) (cR (cN 2))));
  (244, 197, Some QS_e81);
  (244, 218, Some QS_e107);
  (246, 190, Some QS_e25);
  (247, 191, Some (cN (-1)));
  (248, 233, Some QS_e4);
  (249, 223, Some QS_e19);
  (249, 234, Some QS_e29);
  (250, 236, Some QS_e4);
  (251, 224, Some QS_e19);
  (251, 237, Some QS_e29);
  (253, 225, Some (cN 1));
  (254, 245, Some QS_e26);
  (255, 228, Some QS_e19);
  (255, 246, Some QS_e27);
  (256, 252, Some QS_e4)].
(** /repo/c++/symmetry/nrg-recalc-QS.hpp recalc_irreduc, qs/qs-4ch-spindownd.dat *)
Definition qs_4ch_t9 : irr_table := mk_irr 3 0 [ShLin 0%nat 1 1; ShLin 1%nat 1 (-1)]  [
  (3, 1, Some (cN 1));
  (10, 2, Some QS_e4);
  (11, 4, Some QS_e24);
  (12, 6, Some QS_e24);
  (13, 8, Some QS_e24);
  (21, 4, Some QS_e28);
  (22, 5, Some (cN 1));
  (24, 6, Some QS_e28);
  (25, 7, Some (cN 1));
  (27, 8, Some QS_e28);
  (28, 9, Some (cN 1));
  (38, 20, Some QS_e4);
  (39, 11, Some QS_e19);
  (39, 21, Some QS_e29);
  (40, 23, Some QS_e4);
  (41, 12, Some QS_e19);
  (41, 24, Some QS_e29);
  (42, 26, Some QS_e4);
  (43, 13, Some QS_e19);
  (43, 27, Some QS_e29);
  (45, 14, Some (cN 1));
  (47, 15, Some (cN 1));
  (49, 16, Some (cN 1));
  (51, 17, Some (cN 1));
  (53, 18, Some (cN 1));
  (55, 19, Some (cN 1));
  (56, 29, Some QS_e108);
  (57, 30, Some QS_e109);
  (58, 32, Some QS_e108);
  (59, 33, Some QS_e109);
  (60, 35, Some QS_e108);
  (61, 36, Some QS_e109);
  (79, 29, Some QS_e92);
  (80, 30, Some QS_e93);
  (81, 31, Some (cN 1));
  (83, 32, Some QS_e92);
  (84, 33, Some QS_e93);
  (85, 34, Some (cN 1));
  (87, 35, Some QS_e92);
  (88, 36, Some QS_e93);
  (89, 37, Some (cN 1));
  (94, 44, Some QS_e4);
  (95, 46, Some QS_e4);
  (96, 48, Some QS_e4);
  (97, 50, Some QS_e4);
  (98, 52, Some QS_e4);
  (99, 54, Some QS_e4);
  (100, 62, Some QS_e24);
  (101, 64, Some QS_e24);
  (102, 66, Some QS_e24);
  (103, 68, Some QS_e24);
  (104, 70, Some QS_e24);
  (105, 72, Some QS_e24);
  (106, 74, Some QS_e24);
  (107, 76, Some QS_e24);
  (114, 78, Some QS_e4);
  (115, 56, Some QS_e110);
  (115, 79, Some QS_e98);
  (116, 57, Some (cO (cR (cQ 2 3))));
  (116, 80, Some QS_e99);
  (117, 82, Some QS_e4);
  (118, 58, Some QS_e110);
  (118, 83, Some QS_e98);
  (119, 59, Some (cO (cR (cQ 2 3))));
  (119, 84, Some QS_e99);
  (120, 86, Some QS_e4);
  (121, 60, Some QS_e110);
  (121, 87, Some QS_e98);
  (122, 61, Some (cO (cR (cQ 2 3))));
  (122, 88, Some QS_e99);
  (124, 62, Some QS_e28);
  (125, 63, Some (cN 1));
  (127, 64, Some QS_e28);
  (128, 65, Some (cN 1));
  (130, 66, Some QS_e28);
  (131, 67, Some (cN 1));
  (133, 68, Some QS_e28);
  (134, 69, Some (cN 1));
  (136, 70, Some QS_e28);
  (137, 71, Some (cN 1));
  (139, 72, Some QS_e28);
  (140, 73, Some (cN 1));
  (142, 74, Some QS_e28);
  (143, 75, Some (cN 1));
  (145, 76, Some QS_e28);
  (146, 77, Some (cN 1));
  (147, 90, Some QS_e95);
  (148, 91, Some QS_e29);
  (149, 92, Some QS_e325);
  (160, 90, Some QS_e306);
  (161, 91, Some QS_e307);
  (162, 92, Some QS_e308);
  (163, 93, Some (cN 1));
  (164, 123, Some QS_e4);
  (165, 100, Some QS_e19);
  (165, 124, Some QS_e29);
  (166, 126, Some QS_e4);
  (167, 101, Some QS_e19);
  (167, 127, Some QS_e29);
  (168, 129, Some QS_e4);
  (169, 102, Some QS_e19);
  (169, 130, Some QS_e29);
  (170, 132, Some QS_e4);
  (171, 103, Some QS_e19);
  (171, 133, Some QS_e29);
  (172, 135, Some QS_e4);
  (173, 104, Some QS_e19);
  (173, 136, Some QS_e29);
  (174, 138, Some QS_e4);
  (175, 105, Some QS_e19);
  (175, 139, Some QS_e29);
  (176, 141, Some QS_e4);
  (177, 106, Some QS_e19);
  (177, 142, Some QS_e29);
  (178, 144, Some QS_e4);
  (179, 107, Some QS_e19);
  (179, 145, Some QS_e29);
  (181, 108, Some (cN 1));
  (183, 109, Some (cN 1));
  (185, 110, Some (cN 1));
  (187, 111, Some (cN 1));
  (189, 112, Some (cN 1));
  (191, 113, Some (cN 1));
  (192, 150, Some QS_e108);
  (193, 151, Some QS_e109);
  (194, 153, Some QS_e108);
  (195, 154, Some QS_e109);
  (196, 156, Some QS_e108);
  (197, 157, Some QS_e109);
  (204, 159, Some QS_e4);
  (205, 147, Some QS_e326);
  (205, 160, Some QS_e316);
  (206, 148, Some QS_e25);
  (206, 161, Some QS_e319);
  (207, 149, Some QS_e75);
  (207, 162, Some QS_e320);
  (209, 150, Some QS_e92);
  (210, 151, Some QS_e93);
  (211, 152, Some (cN 1));
  (213, 153, Some QS_e92);
  (214, 154, Some QS_e93);
  (215, 155, Some (cN 1));
  (217, 156, Some QS_e92);
  (218, 157, Some QS_e93);
  (219, 158, Some (cN 1));
  (220, 180, Some QS_e4);
  (221, 182, Some QS_e4);
  (222, 184, Some QS_e4);
  (223, 186, Some QS_e4);
  (224, 188, Some QS_e4);
  (225, 190, Some QS_e4);
  (226, 198, Some QS_e24);
  (227, 200, Some QS_e24);
  (228, 202, Some QS_e24);
  (230, 208, Some QS_e4);
  (231, 192, Some QS_e110);
  (231, 209, Some QS_e98);
  (232, 193, Some (cO (cR (cQ 2 3))));
  (232, 210, Some QS_e99);
  (233, 212, Some QS_e4);
  (234, 194, Some QS_e110);
  (234, 213, Some QS_e98);
  (235, 195, Some (cO (cR (cQ 2 3))));
  (235, 214, Some QS_e99);
  (236, 216, Some QS_e4);
  (237, 196, Some QS_e110);
  (237, 217, Some QS_e98);
  (238, 197, Some (cO (cR (cQ 2 3))));
  (238, 218, Some QS_e99);
  (240, 198, Some QS_e28);
  (241, 199, Some (cN 1));
  (243, 200, Some QS_e28);
  (244, 201, Some (cN 1));
  (246, 202, Some QS_e28);
  (247, 203, Some (cN 1));
  (248, 239, Some QS_e4);
  (249, 226, Some QS_e19);
  (249, 240, Some QS_e29);
  (250, 242, Some QS_e4);
  (251, 227, Some QS_e19);
  (251, 243, Some QS_e29);
  (252, 245, Some QS_e4);
  (253, 228, Some QS_e19);
  (253, 246, Some QS_e29);
  (255, 229, Some (cN 1));
  (256, 254, Some QS_e4)].
(** /repo/c++/symmetry/nrg-recalc-QS.hpp recalc_triplet, qs/qs-4ch-triplets.dat *)
Definition qs_4ch_t10 : ten_table := mk_ten "triplet" [ShLin 0%nat 1 0; ShLin 1%nat 1 0] [0; 3] [
  (1, 1, [ShLin 0%nat 1 4; ShLin 1%nat 1 0], [ShLin 0%nat 1 4; ShLin 1%nat 1 0], Some (cN 1));
  (2, 2, [ShLin 0%nat 1 3; ShLin 1%nat 1 (-1)], [ShLin 0%nat 1 3; ShLin 1%nat 1 (-1)], Some QS_e5);
  (2, 3, [ShLin 0%nat 1 3; ShLin 1%nat 1 (-1)], [ShLin 0%nat 1 3; ShLin 1%nat 1 1], Some QS_e6);
  (3, 2, [ShLin 0%nat 1 3; ShLin 1%nat 1 1], [ShLin 0%nat 1 3; ShLin 1%nat 1 (-1)], Some QS_e7);
  (3, 3, [ShLin 0%nat 1 3; ShLin 1%nat 1 1], [ShLin 0%nat 1 3; ShLin 1%nat 1 1], Some QS_e8);
  (4, 4, [ShLin 0%nat 1 3; ShLin 1%nat 1 (-1)], [ShLin 0%nat 1 3; ShLin 1%nat 1 (-1)], Some QS_e5);
  (4, 5, [ShLin 0%nat 1 3; ShLin 1%nat 1 (-1)], [ShLin 0%nat 1 3; ShLin 1%nat 1 1], Some QS_e6);
  (5, 4, [ShLin 0%nat 1 3; ShLin 1%nat 1 1], [ShLin 0%nat 1 3; ShLin 1%nat 1 (-1)], Some QS_e7);
  (5, 5, [ShLin 0%nat 1 3; ShLin 1%nat 1 1], [ShLin 0%nat 1 3; ShLin 1%nat 1 1], Some QS_e8);
  (6, 6, [ShLin 0%nat 1 3; ShLin 1%nat 1 (-1)], [ShLin 0%nat 1 3; ShLin 1%nat 1 (-1)], Some QS_e5);
  (6, 7, [ShLin 0%nat 1 3; ShLin 1%nat 1 (-1)], [ShLin 0%nat 1 3; ShLin 1%nat 1 1], Some QS_e6);
  (7, 6, [ShLin 0%nat 1 3; ShLin 1%nat 1 1], [ShLin 0%nat 1 3; ShLin 1%nat 1 (-1)], Some QS_e7);
  (7, 7, [ShLin 0%nat 1 3; ShLin 1%nat 1 1], [ShLin 0%nat 1 3; ShLin 1%nat 1 1], Some QS_e8);
  (8, 8, [ShLin 0%nat 1 3; ShLin 1%nat 1 (-1)], [ShLin 0%nat 1 3; ShLin 1%nat 1 (-1)], Some QS_e5);
  (8, 9, [ShLin 0%nat 1 3; ShLin 1%nat 1 (-1)], [ShLin 0%nat 1 3; ShLin 1%nat 1 1], Some QS_e6);
  (9, 8, [ShLin 0%nat 1 3; ShLin 1%nat 1 1], [ShLin 0%nat 1 3; ShLin 1%nat 1 (-1)], Some QS_e7);
  (9, 9, [ShLin 0%nat 1 3; ShLin 1%nat 1 1], [ShLin 0%nat 1 3; ShLin 1%nat 1 1], Some QS_e8);
  (10, 10, [ShLin 0%nat 1 2; ShLin 1%nat 1 0], [ShLin 0%nat 1 2; ShLin 1%nat 1 0], Some (cN 1));
  (11, 11, [ShLin 0%nat 1 2; ShLin 1%nat 1 0], [ShLin 0%nat 1 2; ShLin 1%nat 1 0], Some (cN 1));
  (12, 12, [ShLin 0%nat 1 2; ShLin 1%nat 1 0], [ShLin 0%nat 1 2; ShLin 1%nat 1 0], Some (cN 1));
  (13, 13, [ShLin 0%nat 1 2; ShLin 1%nat 1 0], [ShLin 0%nat 1 2; ShLin 1%nat 1 0], Some (cN 1));
  (14, 14, [ShLin 0%nat 1 2; ShLin 1%nat 1 0], [ShLin 0%nat 1 2; ShLin 1%nat 1 0], Some (cN 1));
  (15, 15, [ShLin 0%nat 1 2; ShLin 1%nat 1 0], [ShLin 0%nat 1 2; ShLin 1%nat 1 0], Some (cN 1));
  (16, 16, [ShLin 0%nat 1 2; ShLin 1%nat 1 0], [ShLin 0%nat 1 2; ShLin 1%nat 1 0], Some (cN 1));
  (17, 17, [ShLin 0%nat 1 2; ShLin 1%nat 1 0], [ShLin 0%nat 1 2; ShLin 1%nat 1 0], Some (cN 1));
  (18, 18, [ShLin 0%nat 1 2; ShLin 1%nat 1 0], [ShLin 0%nat 1 2; ShLin 1%nat 1 0], Some (cN 1));
  (19, 19, [ShLin 0%nat 1 2; ShLin 1%nat 1 0], [ShLin 0%nat 1 2; ShLin 1%nat 1 0], Some (cN 1));
  (20, 20, [ShLin 0%nat 1 2; ShLin 1%nat 1 (-2)], [ShLin 0%nat 1 2; ShLin 1%nat 1 (-2)], Some QS_e30);
  (20, 21, [ShLin 0%nat 1 2; ShLin 1%nat 1 (-2)], [ShLin 0%nat 1 2; ShLin 1%nat 1 0], Some QS_e31);
  (21, 20, [ShLin 0%nat 1 2; ShLin 1%nat 1 0], [ShLin 0%nat 1 2; ShLin 1%nat 1 (-2)], Some (cO (cD (cN 1) (cH 1))));
  (21, 21, [ShLin 0%nat 1 2; ShLin 1%nat 1 0], [ShLin 0%nat 1 2; ShLin 1%nat 1 0], Some QS_e32);
  (21, 22, [ShLin 0%nat 1 2; ShLin 1%nat 1 0], [ShLin 0%nat 1 2; ShLin 1%nat 1 2], Some QS_e33);
  (22, 21, [ShLin 0%nat 1 2; ShLin 1%nat 1 2], [ShLin 0%nat 1 2; ShLin 1%nat 1 0], Some QS_e34);
  (22, 22, [ShLin 0%nat 1 2; ShLin 1%nat 1 2], [ShLin 0%nat 1 2; ShLin 1%nat 1 2], Some QS_e35);
  (23, 23, [ShLin 0%nat 1 2; ShLin 1%nat 1 (-2)], [ShLin 0%nat 1 2; ShLin 1%nat 1 (-2)], Some QS_e30);
  (23, 24, [ShLin 0%nat 1 2; ShLin 1%nat 1 (-2)], [ShLin 0%nat 1 2; ShLin 1%nat 1 0], Some QS_e31);
  (24, 23, [ShLin 0%nat 1 2; ShLin 1%nat 1 0], [ShLin 0%nat 1 2; ShLin 1%nat 1 (-2)], Some (cO (cD (cN 1) (cH 1))));
  (24, 24, [ShLin 0%nat 1 2; ShLin 1%nat 1 0], [ShLin 0%nat 1 2; ShLin 1%nat 1 0], Some QS_e32);
  (24, 25, [ShLin 0%nat 1 2; ShLin 1%nat 1 0], [ShLin 0%nat 1 2; ShLin 1%nat 1 2], Some QS_e33);
  (25, 24, [ShLin 0%nat 1 2; ShLin 1%nat 1 2], [ShLin 0%nat 1 2; ShLin 1%nat 1 0], Some QS_e34);
  (25, 25, [ShLin 0%nat 1 2; ShLin 1%nat 1 2], [ShLin 0%nat 1 2; ShLin 1%nat 1 2], Some QS_e35);
  (26, 26, [ShLin 0%nat 1 2; ShLin 1%nat 1 (-2)], [ShLin 0%nat 1 2; ShLin 1%nat 1 (-2)], Some QS_e30);
  (26, 27, [ShLin 0%nat 1 2; ShLin 1%nat 1 (-2)], [ShLin 0%nat 1 2; ShLin 1%nat 1 0], Some QS_e31);
  (27, 26, [ShLin 0%nat 1 2; ShLin 1%nat 1 0], [ShLin 0%nat 1 2; ShLin 1%nat 1 (-2)], Some (cO (cD (cN 1) (cH 1))));
  (27, 27, [ShLin 0%nat 1 2; ShLin 1%nat 1 0], [ShLin 0%nat 1 2; ShLin 1%nat 1 0], Some QS_e32);
  (27, 28, [ShLin 0%nat 1 2; ShLin 1%nat 1 0], [ShLin 0%nat 1 2; ShLin 1%nat 1 2], Some QS_e33);
  (28, 27, [ShLin 0%nat 1 2; ShLin 1%nat 1 2], [ShLin 0%nat 1 2; ShLin 1%nat 1 0], Some QS_e34);
  (28, 28, [ShLin 0%nat 1 2; ShLin 1%nat 1 2], [ShLin 0%nat 1 2; ShLin 1%nat 1 2], Some QS_e35);
  (29, 29, [ShLin 0%nat 1 2; ShLin 1%nat 1 (-2)], [ShLin 0%nat 1 2; ShLin 1%nat 1 (-2)], Some QS_e30);
  (29, 30, [ShLin 0%nat 1 2; ShLin 1%nat 1 (-2)], [ShLin 0%nat 1 2; ShLin 1%nat 1 0], Some QS_e31);
  (30, 29, [ShLin 0%nat 1 2; ShLin 1%nat 1 0], [ShLin 0%nat 1 2; ShLin 1%nat 1 (-2)], Some (cO (cD (cN 1) (cH 1))));
  (30, 30, [ShLin 0%nat 1 2; ShLin 1%nat 1 0], [ShLin 0%nat 1 2; ShLin 1%nat 1 0], Some QS_e32);
  (30, 31, [ShLin 0%nat 1 2; ShLin 1%nat 1 0], [ShLin 0%nat 1 2; ShLin 1%nat 1 2], Some QS_e33);
  (31, 30, [ShLin 0%nat 1 2; ShLin 1%nat 1 2], [ShLin 0%nat 1 2; ShLin 1%nat 1 0], Some QS_e34);
  (31, 31, [ShLin 0%nat 1 2; ShLin 1%nat 1 2], [ShLin 0%nat 1 2; ShLin 1%nat 1 2], Some QS_e35);
  (32, 32, [ShLin 0%nat 1 2; ShLin 1%nat 1 (-2)], [ShLin 0%nat 1 2; ShLin 1%nat 1 (-2)], Some QS_e30);
  (32, 33, [ShLin 0%nat 1 2; ShLin 1%nat 1 (-2)], [ShLin 0%nat 1 2; ShLin 1%nat 1 0], Some QS_e31);
  (33, 32, [ShLin 0%nat 1 2; ShLin 1%nat 1 0], [ShLin 0%nat 1 2; ShLin 1%nat 1 (-2)], Some (cO (cD (cN 1) (cH 1))));
  (33, 33, [ShLin 0%nat 1 2; ShLin 1%nat 1 0], [ShLin 0%nat 1 2; ShLin 1%nat 1 0], Some QS_e32);
  (33, 34, [ShLin 0%nat 1 2; ShLin 1%nat 1 0], [ShLin 0%nat 1 2; ShLin 1%nat 1 2], Some QS_e33);
  (34, 33, [ShLin 0%nat 1 2; ShLin 1%nat 1 2], [ShLin 0%nat 1 2; ShLin 1%nat 1 0], Some QS_e34);
  (34, 34, [ShLin 0%nat 1 2; ShLin 1%nat 1 2], [ShLin 0%nat 1 2; ShLin 1%nat 1 2], Some QS_e35);
  (35, 35, [ShLin 0%nat 1 2; ShLin 1%nat 1 (-2)], [ShLin 0%nat 1 2; ShLin 1%nat 1 (-2)], Some QS_e30);
  (35, 36, [ShLin 0%nat 1 2; ShLin 1%nat 1 (-2)], [ShLin 0%nat 1 2; ShLin 1%nat 1 0], Some QS_e31);
  (36, 35, [ShLin 0%nat 1 2; ShLin 1%nat 1 0], [ShLin 0%nat 1 2; ShLin 1%nat 1 (-2)], Some (cO (cD (cN 1) (cH 1))));
  (36, 36, [ShLin 0%nat 1 2; ShLin 1%nat 1 0], [ShLin 0%nat 1 2; ShLin 1%nat 1 0], Some QS_e32);
  (36, 37, [ShLin 0%nat 1 2; ShLin 1%nat 1 0], [ShLin 0%nat 1 2; ShLin 1%nat 1 2], Some QS_e33);
  (37, 36, [ShLin 0%nat 1 2; ShLin 1%nat 1 2], [ShLin 0%nat 1 2; ShLin 1%nat 1 0], Some QS_e34);
  (37, 37, [ShLin 0%nat 1 2; ShLin 1%nat 1 2], [ShLin 0%nat 1 2; ShLin 1%nat 1 2], Some QS_e35);
  (38, 38, [ShLin 0%nat 1 1; ShLin 1%nat 1 (-1)], [ShLin 0%nat 1 1; ShLin 1%nat 1 (-1)], Some QS_e5);
  (38, 39, [ShLin 0%nat 1 1; ShLin 1%nat 1 (-1)], [ShLin 0%nat 1 1; ShLin 1%nat 1 1], Some QS_e6);
  (39, 38, [ShLin 0%nat 1 1; ShLin 1%nat 1 1], [ShLin 0%nat 1 1; ShLin 1%nat 1 (-1)], Some QS_e7);
  (39, 39, [ShLin 0%nat 1 1; ShLin 1%nat 1 1], [ShLin 0%nat 1 1; ShLin 1%nat 1 1], Some QS_e8);
  (40, 40, [ShLin 0%nat 1 1; ShLin 1%nat 1 (-1)], [ShLin 0%nat 1 1; ShLin 1%nat 1 (-1)], Some QS_e5);
  (40, 41, [ShLin 0%nat 1 1; ShLin 1%nat 1 (-1)], [ShLin 0%nat 1 1; ShLin 1%nat 1 1], Some QS_e6);
  (41, 40, [ShLin 0%nat 1 1; ShLin 1%nat 1 1], [ShLin 0%nat 1 1; ShLin 1%nat 1 (-1)], Some QS_e7);
  (41, 41, [ShLin 0%nat 1 1; ShLin 1%nat 1 1], [ShLin 0%nat 1 1; ShLin 1%nat 1 1], Some QS_e8);
  (42, 42, [ShLin 0%nat 1 1; ShLin 1%nat 1 (-1)], [ShLin 0%nat 1 1; ShLin 1%nat 1 (-1)], Some QS_e5);
  (42, 43, [ShLin 0%nat 1 1; ShLin 1%nat 1 (-1)], [ShLin 0%nat 1 1; ShLin 1%nat 1 1], Some QS_e6);
  (43, 42, [ShLin 0%nat 1 1; ShLin 1%nat 1 1], [ShLin 0%nat 1 1; ShLin 1%nat 1 (-1)], Some QS_e7);
  (43, 43, [ShLin 0%nat 1 1; ShLin 1%nat 1 1], [ShLin 0%nat 1 1; ShLin 1%nat 1 1], Some QS_e8);
  (44, 44, [ShLin 0%nat 1 1; ShLin 1%nat 1 (-1)], [ShLin 0%nat 1 1; ShLin 1%nat 1 (-1)], Some QS_e5);
  (44, 45, [ShLin 0%nat 1 1; ShLin 1%nat 1 (-1)], [ShLin 0%nat 1 1; ShLin 1%nat 1 1], Some QS_e6);
  (45, 44, [ShLin 0%nat 1 1; ShLin 1%nat 1 1], [ShLin 0%nat 1 1; ShLin 1%nat 1 (-1)], Some QS_e7);
  (45, 45, [ShLin 0%nat 1 1; ShLin 1%nat 1 1], [ShLin 0%nat 1 1; ShLin 1%nat 1 1], Some QS_e8);
  (46, 46, [ShLin 0%nat 1 1; ShLin 1%nat 1 (-1)], [ShLin 0%nat 1 1; ShLin 1%nat 1 (-1)], Some QS_e5);
  (46, 47, [ShLin 0%nat 1 1; ShLin 1%nat 1 (-1)], [ShLin 0%nat 1 1; ShLin 1%nat 1 1], Some QS_e6);
  (47, 46, [ShLin 0%nat 1 1; ShLin 1%nat 1 1], [ShLin 0%nat 1 1; ShLin 1%nat 1 (-1)], Some QS_e7);
  (47, 47, [ShLin 0%nat 1 1; ShLin 1%nat 1 1], [ShLin 0%nat 1 1; ShLin 1%nat 1 1], Some QS_e8);
  (48, 48, [ShLin 0%nat 1 1; ShLin 1%nat 1 (-1)], [ShLin 0%nat 1 1; ShLin 1%nat 1 (-1)], Some QS_e5);
  (48, 49, [ShLin 0%nat 1 1; ShLin 1%nat 1 (-1)], [ShLin 0%nat 1 1; ShLin 1%nat 1 1], Some QS_e6);
  (49, 48, [ShLin 0%nat 1 1; ShLin 1%nat 1 1], [ShLin 0%nat 1 1; ShLin 1%nat 1 (-1)], Some QS_e7);
  (49, 49, [ShLin 0%nat 1 1; ShLin 1%nat 1 1], [ShLin 0%nat 1 1; ShLin 1%nat 1 1], Some QS_e8);
  (50, 50, [ShLin 0%nat 1 1; ShLin 1%nat 1 (-1)], [ShLin 0%nat 1 1; ShLin 1%nat 1 (-1)], Some QS_e5);
  (50, 51, [ShLin 0%nat 1 1; ShLin 1%nat 1 (-1)], [ShLin 0%nat 1 1; ShLin 1%nat 1 1], Some QS_e6);
  (51, 50, [ShLin 0%nat 1 1; ShLin 1%nat 1 1], [ShLin 0%nat 1 1; ShLin 1%nat 1 (-1)], Some QS_e7);
  (51, 51, [ShLin 0%nat 1 1; ShLin 1%nat 1 1], [ShLin 0%nat 1 1; ShLin 1%nat 1 1], Some QS_e8);
  (52, 52, [ShLin 0%nat 1 1; ShLin 1%nat 1 (-1)], [ShLin 0%nat 1 1; ShLin 1%nat 1 (-1)], Some QS_e5);
  (52, 53, [ShLin 0%nat 1 1; ShLin 1%nat 1 (-1)], [ShLin 0%nat 1 1; ShLin 1%nat 1 1], Some QS_e6);
  (53, 52, [ShLin 0%nat 1 1; ShLin 1%nat 1 1], [ShLin 0%nat 1 1; ShLin 1%nat 1 (-1)], Some QS_e7);
  (53, 53, [ShLin 0%nat 1 1; ShLin 1%nat 1 1], [ShLin 0%nat 1 1; ShLin 1%nat 1 1], Some QS_e8);
  (54, 54, [ShLin 0%nat 1 1; ShLin 1%nat 1 (-1)], [ShLin 0%nat 1 1; ShLin 1%nat 1 (-1)], Some QS_e5);
  (54, 55, [ShLin 0%nat 1 1; ShLin 1%nat 1 (-1)], [ShLin 0%nat 1 1; ShLin 1%nat 1 1], Some QS_e6);
  (55, 54, [ShLin 0%nat 1 1; ShLin 1%nat 1 1], [ShLin 0%nat 1 1; ShLin 1%nat 1 (-1)], Some QS_e7);
  (55, 55, [ShLin 0%nat 1 1; ShLin 1%nat 1 1], [ShLin 0%nat 1 1; ShLin 1%nat 1 1], Some QS_e8);
  (56, 56, [ShLin 0%nat 1 1; ShLin 1%nat 1 (-1)], [ShLin 0%nat 1 1; ShLin 1%nat 1 (-1)], Some QS_e5);
  (56, 57, [ShLin 0%nat 1 1; ShLin 1%nat 1 (-1)], [ShLin 0%nat 1 1; ShLin 1%nat 1 1], Some QS_e6);
  (57, 56, [ShLin 0%nat 1 1; ShLin 1%nat 1 1], [ShLin 0%nat 1 1; ShLin 1%nat 1 (-1)], Some QS_e7);
  (57, 57, [ShLin 0%nat 1 1; ShLin 1%nat 1 1], [ShLin 0%nat 1 1; ShLin 1%nat 1 1], Some QS_e8);
  (58, 58, [ShLin 0%nat 1 1; ShLin 1%nat 1 (-1)], [ShLin 0%nat 1 1; ShLin 1%nat 1 (-1)], Some QS_e5);
  (58, 59, [ShLin 0%nat 1 1; ShLin 1%nat 1 (-1)], [ShLin 0%nat 1 1; ShLin 1%nat 1 1], Some QS_e6);
  (59, 58, [ShLin 0%nat 1 1; ShLin 1%nat 1 1], [ShLin 0%nat 1 1; ShLin 1%nat 1 (-1)], Some QS_e7);
  (59, 59, [ShLin 0%nat 1 1; ShLin 1%nat 1 1], [ShLin 0%nat 1 1; ShLin 1%nat 1 1], Some QS_e8);
  (60, 60, [ShLin 0%nat 1 1; ShLin 1%nat 1 (-1)], [ShLin 0%nat 1 1; ShLin 1%nat 1 (-1)], Some QS_e5);
  (60, 61, [ShLin 0%nat 1 1; ShLin 1%nat 1 (-1)], [ShLin 0%nat 1 1; ShLin 1%nat 1 1], Some QS_e6);
  (61, 60, [ShLin 0%nat 1 1; ShLin 1%nat 1 1], [ShLin 0%nat 1 1; ShLin 1%nat 1 (-1)], Some QS_e7);
  (61, 61, [ShLin 0%nat 1 1; ShLin 1%nat 1 1], [ShLin 0%nat 1 1; ShLin 1%nat 1 1], Some QS_e8);
  (62, 62, [ShLin 0%nat 1 1; ShLin 1%nat 1 (-1)], [ShLin 0%nat 1 1; ShLin 1%nat 1 (-1)], Some QS_e5);
  (62, 63, [ShLin 0%nat 1 1; ShLin 1%nat 1 (-1)], [ShLin 0%nat 1 1; ShLin 1%nat 1 1], Some QS_e6);
  (63, 62, [ShLin 0%nat 1 1; ShLin 1%nat 1 1], [ShLin 0%nat 1 1; ShLin 1%nat 1 (-1)], Some QS_e7);
  (63, 63, [ShLin 0%nat 1 1; ShLin 1%nat 1 1], [ShLin 0%nat 1 1; ShLin 1%nat 1 1], Some QS_e8);
  (64, 64, [ShLin 0%nat 1 1; ShLin 1%nat 1 (-1)], [ShLin 0%nat 1 1; ShLin 1%nat 1 (-1)], Some QS_e5);
  (64, 65, [ShLin 0%nat 1 1; ShLin 1%nat 1 (-1)], [ShLin 0%nat 1 1; ShLin 1%nat 1 1], Some QS_e6);
  (65, 64, [ShLin 0%nat 1 1; ShLin 1%nat 1 1], [ShLin 0%nat 1 1; ShLin 1%nat 1 (-1)], Some QS_e7);
  (65, 65, [ShLin 0%nat 1 1; ShLin 1%nat 1 1], [ShLin 0%nat 1 1; ShLin 1%nat 1 1], Some QS_e8);
  (66, 66, [ShLin 0%nat 1 1; ShLin 1%nat 1 (-1)], [ShLin 0%nat 1 1; ShLin 1%nat 1 (-1)], Some QS_e5);
  (66, 67, [ShLin 0%nat 1 1; ShLin 1%nat 1 (-1)], [ShLin 0%nat 1 1; ShLin 1%nat 1 1], Some QS_e6);
  (67, 66, [ShLin 0%nat 1 1; ShLin 1%nat 1 1], [ShLin 0%nat 1 1; ShLin 1%nat 1 (-1)], Some QS_e7);
  (67, 67, [ShLin 0%nat 1 1; ShLin 1%nat 1 1], [ShLin 0%nat 1 1; ShLin 1%nat 1 1], Some QS_e8);
  (68, 68, [ShLin 0%nat 1 1; ShLin 1%nat 1 (-1)], [ShLin 0%nat 1 1; ShLin 1%nat 1 (-1)], Some QS_e5);
  (68, 69, [ShLin 0%nat 1 1; ShLin 1%nat 1 (-1)], [ShLin 0%nat 1 1; ShLin 1%nat 1 1], Some QS_e6);
  (69, 68, [ShLin 0%nat 1 1; ShLin 1%nat 1 1], [ShLin 0%nat 1 1; ShLin 1%nat 1 (-1)], Some QS_e7);
  (69, 69, [ShLin 0%nat 1 1; ShLin 1%nat 1 1], [ShLin 0%nat 1 1; ShLin 1%nat 1 1], Some QS_e8);
  (70, 70, [ShLin 0%nat 1 1; ShLin 1%nat 1 (-1)], [ShLin 0%nat 1 1; ShLin 1%nat 1 (-1)], Some QS_e5);
  (70, 71, [ShLin 0%nat 1 1; ShLin 1%nat 1 (-1)], [ShLin 0%nat 1 1; ShLin 1%nat 1 1], Some QS_e6);
  (71, 70, [ShLin 0%nat 1 1; ShLin 1%nat 1 1], [ShLin 0%nat 1 1; ShLin 1%nat 1 (-1)], Some QS_e7);
  (71, 71, [ShLin 0%nat 1 1; ShLin 1%nat 1 1], [ShLin 0%nat 1 1; ShLin 1%nat 1 1], Some QS_e8);
  (72, 72, [ShLin 0%nat 1 1; ShLin 1%nat 1 (-1)], [ShLin 0%nat 1 1; ShLin 1%nat 1 (-1)], Some QS_e5);
  (72, 73, [ShLin 0%nat 1 1; ShLin 1%nat 1 (-1)], [ShLin 0%nat 1 1; ShLin 1%nat 1 1], Some QS_e6);
  (73, 72, [ShLin 0%nat 1 1; ShLin 1%nat 1 1], [ShLin 0%nat 1 1; ShLin 1%nat 1 (-1)], Some QS_e7);
  (73, 73, [ShLin 0%nat 1 1; ShLin 1%nat 1 1], [ShLin 0%nat 1 1; ShLin 1%nat 1 1], Some QS_e8);
  (74, 74, [ShLin 0%nat 1 1; ShLin 1%nat 1 (-1)], [ShLin 0%nat 1 1; ShLin 1%nat 1 (-1)], Some QS_e5);
  (74, 75, [ShLin 0%nat 1 1; ShLin 1%nat 1 (-1)], [ShLin 0%nat 1 1; ShLin 1%nat 1 1], Some QS_e6);
  (75, 74, [ShLin 0%nat 1 1; ShLin 1%nat 1 1], [ShLin 0%nat 1 1; ShLin 1%nat 1 (-1)], Some QS_e7);
  (75, 75, [ShLin 0%nat 1 1; ShLin 1%nat 1 1], [ShLin 0%nat 1 1; ShLin 1%nat 1 1], Some QS_e8);
  (76, 76, [ShLin 0%nat 1 1; ShLin 1%nat 1 (-1)], [ShLin 0%nat 1 1; ShLin 1%nat 1 (-1)], Some QS_e5);
  (76, 77, [ShLin 0%nat 1 1; ShLin 1%nat 1 (-1)], [ShLin 0%nat 1 1; ShLin 1%nat 1 1], Some QS_e6);
  (77, 76, [ShLin 0%nat 1 1; ShLin 1%nat 1 1], [ShLin 0%nat 1 1; ShLin 1%nat 1 (-1)], Some QS_e7);
  (77, 77, [ShLin 0%nat 1 1; ShLin 1%nat 1 1], [ShLin 0%nat 1 1; ShLin 1%nat 1 1], Some QS_e8);
  (78, 78, [ShLin 0%nat 1 1; ShLin 1%nat 1 (-3)], [ShLin 0%nat 1 1; ShLin 1%nat 1 (-3)], Some QS_e111);
  (78, 79, [ShLin 0%nat 1 1; ShLin 1%nat 1 (-3)], [ShLin 0%nat 1 1; ShLin 1%nat 1 (-1)], Some QS_e112);
  (79, 78, [ShLin 0%nat 1 1; ShLin 1%nat 1 (-1)], [ShLin 0%nat 1 1; ShLin 1%nat 1 (-3)], Some QS_e113);
  (79, 79, [ShLin 0%nat 1 1; ShLin 1%nat 1 (-1)], [ShLin 0%nat 1 1; ShLin 1%nat 1 (-1)], Some QS_e114);
  (79, 80, [ShLin 0%nat 1 1; ShLin 1%nat 1 (-1)], [ShLin 0%nat 1 1; ShLin 1%nat 1 1], Some QS_e115);
  (80, 79, [ShLin 0%nat 1 1; ShLin 1%nat 1 1], [ShLin 0%nat 1 1; ShLin 1%nat 1 (-1)], Some QS_e116);
  (80, 80, [ShLin 0%nat 1 1; ShLin 1%nat 1 1], [ShLin 0%nat 1 1; ShLin 1%nat 1 1], Some QS_e117);
  (80, 81, [ShLin 0%nat 1 1; ShLin 1%nat 1 1], [ShLin 0%nat 1 1; ShLin 1%nat 1 3], Some QS_e118);
  (81, 80, [ShLin 0%nat 1 1; ShLin 1%nat 1 3], [ShLin 0%nat 1 1; ShLin 1%nat 1 1], Some QS_e119);
  (81, 81, [ShLin 0%nat 1 1; ShLin 1%nat 1 3], [ShLin 0%nat 1 1; ShLin 1%nat 1 3], Some QS_e120);
  (82, 82, [ShLin 0%nat 1 1; ShLin 1%nat 1 (-3)], [ShLin 0%nat 1 1; ShLin 1%nat 1 (-3)], Some QS_e111);
  (82, 83, [ShLin 0%nat 1 1; ShLin 1%nat 1 (-3)], [ShLin 0%nat 1 1; ShLin 1%nat 1 (-1)], Some QS_e112);
  (83, 82, [ShLin 0%nat 1 1; ShLin 1%nat 1 (-1)], [ShLin 0%nat 1 1; ShLin 1%nat 1 (-3)], Some QS_e113);
  (83, 83, [ShLin 0%nat 1 1; ShLin 1%nat 1 (-1)], [ShLin 0%nat 1 1; ShLin 1%nat 1 (-1)], Some QS_e114);
  (83, 84, [ShLin 0%nat 1 1; ShLin 1%nat 1 (-1)], [ShLin 0%nat 1 1; ShLin 1%nat 1 1], Some QS_e115);
  (84, 83, [ShLin 0%nat 1 1; ShLin 1%nat 1 1], [ShLin 0%nat 1 1; ShLin 1%nat 1 (-1)], Some QS_e116);
  (84, 84, [ShLin 0%nat 1 1; ShLin 1%nat 1 1], [ShLin 0%nat 1 1; ShLin 1%nat 1 1], Some QS_e117);
  (84, 85, [ShLin 0%nat 1 1; ShLin 1%nat 1 1], [ShLin 0%nat 1 1; ShLin 1%nat 1 3], Some QS_e118);
  (85, 84, [ShLin 0%nat 1 1; ShLin 1%nat 1 3], [ShLin 0%nat 1 1; ShLin 1%nat 1 1], Some QS_e119);
  (85, 85, [ShLin 0%nat 1 1; ShLin 1%nat 1 3], [ShLin 0%nat 1 1; ShLin 1%nat 1 3], Some QS_e120);
  (86, 86, [ShLin 0%nat 1 1; ShLin 1%nat 1 (-3)], [ShLin 0%nat 1 1; ShLin 1%nat 1 (-3)], Some QS_e111);
  (86, 87, [ShLin 0%nat 1 1; ShLin 1%nat 1 (-3)], [ShLin 0%nat 1 1; ShLin 1%nat 1 (-1)], Some QS_e112);
  (87, 86, [ShLin 0%nat 1 1; ShLin 1%nat 1 (-1)], [ShLin 0%nat 1 1; ShLin 1%nat 1 (-3)], Some QS_e113);
  (87, 87, [ShLin 0%nat 1 1; ShLin 1%nat 1 (-1)], [ShLin 0%nat 1 1; ShLin 1%nat 1 (-1)], Some QS_e114);
  (87, 88, [ShLin 0%nat 1 1; ShLin 1%nat 1 (-1)], [ShLin 0%nat 1 1; ShLin 1%nat 1 1], Some QS_e115);
  (88, 87, [ShLin 0%nat 1 1; ShLin 1%nat 1 1], [ShLin 0%nat 1 1; ShLin 1%nat 1 (-1)], Some QS_e116);
  (88, 88, [ShLin 0%nat 1 1; ShLin 1%nat 1 1], [ShLin 0%nat 1 1; ShLin 1%nat 1 1], Some QS_e117);
  (88, 89, [ShLin 0%nat 1 1; ShLin 1%nat 1 1], [ShLin 0%nat 1 1; ShLin 1%nat 1 3], Some QS_e118);
  (89, 88, [ShLin 0%nat 1 1; ShLin 1%nat 1 3], [ShLin 0%nat 1 1; ShLin 1%nat 1 1], Some QS_e119);
  (89, 89, [ShLin 0%nat 1 1; ShLin 1%nat 1 3], [ShLin 0%nat 1 1; ShLin 1%nat 1 3], Some QS_e120);
  (90, 90, [ShLin 0%nat 1 1; ShLin 1%nat 1 (-3)], [ShLin 0%nat 1 1; ShLin 1%nat 1 (-3)], Some QS_e111);
  (90, 91, [ShLin 0%nat 1 1; ShLin 1%nat 1 (-3)], [ShLin 0%nat 1 1; ShLin 1%nat 1 (-1)], Some QS_e112);
  (91, 90, [ShLin 0%nat 1 1; ShLin 1%nat 1 (-1)], [ShLin 0%nat 1 1; ShLin 1%nat 1 (-3)], Some QS_e113);
  (91, 91, [ShLin 0%nat 1 1; ShLin 1%nat 1 (-1)], [ShLin 0%nat 1 1; ShLin 1%nat 1 (-1)], Some QS_e114);
  (91, 92, [ShLin 0%nat 1 1; ShLin 1%nat 1 (-1)], [ShLin 0%nat 1 1; ShLin 1%nat 1 1], Some QS_e115);
  (92, 91, [ShLin 0%nat 1 1; ShLin 1%nat 1 1], [ShLin 0%nat 1 1; ShLin 1%nat 1 (-1)], Some QS_e116);
  (92, 92, [ShLin 0%nat 1 1; ShLin 1%nat 1 1], [ShLin 0%nat 1 1; ShLin 1%nat 1 1], Some QS_e117);
  (92, 93, [ShLin 0%nat 1 1; ShLin 1%nat 1 1], [ShLin 0%nat 1 1; ShLin 1%nat 1 3], Some QS_e118);
  (93, 92, [ShLin 0%nat 1 1; ShLin 1%nat 1 3], [ShLin 0%nat 1 1; ShLin 1%nat 1 1], Some QS_e119);
  (93, 93, [ShLin 0%nat 1 1; ShLin 1%nat 1 3], [ShLin 0%nat 1 1; ShLin 1%nat 1 3], Some QS_e120);
  (94, 94, [ShLin 0%nat 1 0; ShLin 1%nat 1 0], [ShLin 0%nat 1 0; ShLin 1%nat 1 0], Some (cN 1));
  (95, 95, [ShLin 0%nat 1 0; ShLin 1%nat 1 0], [ShLin 0%nat 1 0; ShLin 1%nat 1 0], Some (cN 1));
  (96, 96, [ShLin 0%nat 1 0; ShLin 1%nat 1 0], [ShLin 0%nat 1 0; ShLin 1%nat 1 0], Some (cN 1));
  (97, 97, [ShLin 0%nat 1 0; ShLin 1%nat 1 0], [ShLin 0%nat 1 0; ShLin 1%nat 1 0], Some (cN 1));
  (98, 98, [ShLin 0%nat 1 0; ShLin 1%nat 1 0], [ShLin 0%nat 1 0; ShLin 1%nat 1 0], Some (cN 1));
  (99, 99, [ShLin 0%nat 1 0; ShLin 1%nat 1 0], [ShLin 0%nat 1 0; ShLin 1%nat 1 0], Some (cN 1));
  (100, 100, [ShLin 0%nat 1 0; ShLin 1%nat 1 0], [ShLin 0%nat 1 0; ShLin 1%nat 1 0], Some (cN 1));
  (101, 101, [ShLin 0%nat 1 0; ShLin 1%nat 1 0], [ShLin 0%nat 1 0; ShLin 1%nat 1 0], Some (cN 1));
  (102, 102, [ShLin 0%nat 1 0; ShLin 1%nat 1 0], [ShLin 0%nat 1 0; ShLin 1%nat 1 0], Some (cN 1));
  (103, 103, [ShLin 0%nat 1 0; ShLin 1%nat 1 0], [ShLin 0%nat 1 0; ShLin 1%nat 1 0], Some (cN 1));
  (104, 104, [ShLin 0%nat 1 0; ShLin 1%nat 1 0], [ShLin 0%nat 1 0; ShLin 1%nat 1 0], Some (cN 1));
  (105, 105, [ShLin 0%nat 1 0; ShLin 1%nat 1 0], [ShLin 0%nat 1 0; ShLin 1%nat 1 0], Some (cN 1));
  (106, 106, [ShLin 0%nat 1 0; ShLin 1%nat 1 0], [ShLin 0%nat 1 0; ShLin 1%nat 1 0], Some (cN 1));
  (107, 107, [ShLin 0%nat 1 0; ShLin 1%nat 1 0], [ShLin 0%nat 1 0; ShLin 1%nat 1 0], Some (cN 1));
  (108, 108, [ShLin 0%nat 1 0; ShLin 1%nat 1 0], [ShLin 0%nat 1 0; ShLin 1%nat 1 0], Some (cN 1));
  (109, 109, [ShLin 0%nat 1 0; ShLin 1%nat 1 0], [ShLin 0%nat 1 0; ShLin 1%nat 1 0], Some (cN 1));
  (110, 110, [ShLin 0%nat 1 0; ShLin 1%nat 1 0], [ShLin 0%nat 1 0; ShLin 1%nat 1 0], Some (cN 1));
  (111, 111, [ShLin 0%nat 1 0; ShLin 1%nat 1 0], [ShLin 0%nat 1 0; ShLin 1%nat 1 0], Some (cN 1));
  (112, 112, [ShLin 0%nat 1 0; ShLin 1%nat 1 0], [ShLin 0%nat 1 0; ShLin 1%nat 1 0], Some (cN 1));
  (113, 113, [ShLin 0%nat 1 0; ShLin 1%nat 1 0], [ShLin 0%nat 1 0; ShLin 1%nat 1 0], Some (cN 1));
  (114, 114, [ShLin 0%nat 1 0; ShLin 1%nat 1 (-2)], [ShLin 0%nat 1 0; ShLin 1%nat 1 (-2)], Some QS_e30);
  (114, 115, [ShLin 0%nat 1 0; ShLin 1%nat 1 (-2)], [ShLin 0%nat 1 0; ShLin 1%nat 1 0], Some QS_e31);
  (115, 114, [ShLin 0%nat 1 0; ShLin 1%nat 1 0], [ShLin 0%nat 1 0; ShLin 1%nat 1 (-2)], Some (cO (cD (cN 1) (cH 1))));
  (115, 115, [ShLin 0%nat 1 0; ShLin 1%nat 1 0], [ShLin 0%nat 1 0; ShLin 1%nat 1 0], Some QS_e32);
  (115, 116, [ShLin 0%nat 1 0; ShLin 1%nat 1 0], [ShLin 0%nat 1 0; ShLin 1%nat 1 2], Some QS_e33);
  (116, 115, [ShLin 0%nat 1 0; ShLin 1%nat 1 2], [ShLin 0%nat 1 0; ShLin 1%nat 1 0], Some QS_e34);
  (116, 116, [ShLin 0%nat 1 0; ShLin 1%nat 1 2], [ShLin 0%nat 1 0; ShLin 1%nat 1 2], Some QS_e35);
  (117, 117, [ShLin 0%nat 1 0; ShLin 1%nat 1 (-2)], [ShLin 0%nat 1 0; ShLin 1%nat 1 (-2)], Some QS_e30);
  (117, 118, [ShLin 0%nat 1 0; ShLin 1%nat 1 (-2)], [ShLin 0%nat 1 0; ShLin 1%nat 1 0], Some QS_e31);
  (118, 117, [ShLin 0%nat 1 0; ShLin 1%nat 1 0], [ShLin 0%nat 1 0; ShLin 1%nat 1 (-2)], Some (cO (cD (cN 1) (cH 1))));
  (118, 118, [ShLin 0%nat 1 0; ShLin 1%nat 1 0], [ShLin 0%nat 1 0; ShLin 1%nat 1 0], Some QS_e32);
  (118, 119, [ShLin 0%nat 1 0; ShLin 1%nat 1 0], [ShLin 0%nat 1 0; ShLin 1%nat 1 2], Some QS_e33);
  (119, 118, [ShLin 0%nat 1 0; ShLin 1%nat 1 2], [ShLin 0%nat 1 0; ShLin 1%nat 1 0], Some QS_e34);
  (119, 119, [ShLin 0%nat 1 0; ShLin 1%nat 1 2], [ShLin 0%nat 1 0; ShLin 1%nat 1 2], Some QS_e35);
  (120, 120, [ShLin 0%nat 1 0; ShLin 1%nat 1 (-2)], [ShLin 0%nat 1 0; ShLin 1%nat 1 (-2)], Some QS_e30);
  (120, 121, [ShLin 0%nat 1 0; ShLin 1%nat 1 (-2)], [ShLin 0%nat 1 0; ShLin 1%nat 1 0], Some QS_e31);
  (121, 120, [ShLin 0%nat 1 0; ShLin 1%nat 1 0], [ShLin 0%nat 1 0; ShLin 1%nat 1 (-2)], Some (cO (cD (cN 1) (cH 1))));
  (121, 121, [ShLin 0%nat 1 0; ShLin 1%nat 1 0], [ShLin 0%nat 1 0; ShLin 1%nat 1 0], Some QS_e32);
  (121, 122, [ShLin 0%nat 1 0; ShLin 1%nat 1 0], [ShLin 0%nat 1 0; ShLin 1%nat 1 2], Some QS_e33);
  (122, 121, [ShLin 0%nat 1 0; ShLin 1%nat 1 2], [ShLin 0%nat 1 0; ShLin 1%nat 1 0], Some QS_e34);
  (122, 122, [ShLin 0%nat 1 0; ShLin 1%nat 1 2], [ShLin 0%nat 1 0; ShLin 1%nat 1 2], Some QS_e35);
  (123, 123, [ShLin 0%nat 1 0; ShLin 1%nat 1 (-2)], [ShLin 0%nat 1 0; ShLin 1%nat 1 (-2)], Some QS_e30);
  (123, 124, [ShLin 0%nat 1 0; ShLin 1%nat 1 (-2)], [ShLin 0%nat 1 0; ShLin 1%nat 1 0], Some QS_e31);
  (124, 123, [ShLin 0%nat 1 0; ShLin 1%nat 1 0], [ShLin 0%nat 1 0; ShLin 1%nat 1 (-2)], Some (cO (cD (cN 1) (cH 1))));
  (124, 124, [ShLin 0%nat 1 0; ShLin 1%nat 1 0], [ShLin 0%nat 1 0; ShLin 1%nat 1 0], Some QS_e32);
  (124, 125, [ShLin 0%nat 1 0; ShLin 1%nat 1 0], [ShLin 0%nat 1 0; ShLin 1%nat 1 2], Some QS_e33);
  (125, 124, [ShLin 0%nat 1 0; ShLin 1%nat 1 2], [ShLin 0%nat 1 0; ShLin 1%nat 1 0], Some QS_e34);
  (125, 125, [ShLin 0%nat 1 0; ShLin 1%nat 1 2], [ShLin 0%nat 1 0; ShLin 1%nat 1 2], Some QS_e35);
  (126, 126, [ShLin 0%nat 1 0; ShLin 1%nat 1 (-2)], [ShLin 0%nat 1 0; ShLin 1%nat 1 (-2)], Some QS_e30);
  (126, 127, [ShLin 0%nat 1 0; ShLin 1%nat 1 (-2)], [ShLin 0%nat 1 0; ShLin 1%nat 1 0], Some QS_e31);
  (127, 126, [ShLin 0%nat 1 0; ShLin 1%nat 1 0], [ShLin 0%nat 1 0; ShLin 1%nat 1 (-2)], Some (cO (cD (cN 1) (cH 1))));
  (127, 127, [ShLin 0%nat 1 0; ShLin 1%nat 1 0], [ShLin 0%nat 1 0; ShLin 1%nat 1 0], Some QS_e32);
  (127, 128, [ShLin 0%nat 1 0; ShLin 1%nat 1 0], [ShLin 0%nat 1 0; ShLin 1%nat 1 2], Some QS_e33);
  (128, 127, [ShLin 0%nat 1 0; ShLin 1%nat 1 2], [ShLin 0%nat 1 0; ShLin 1%nat 1 0], Some QS_e34);
  (128, 128, [ShLin 0%nat 1 0; ShLin 1%nat 1 2], [ShLin 0%nat 1 0; ShLin 1%nat 1 2], Some QS_e35);
  (129, 129, [ShLin 0%nat 1 0; ShLin 1%nat 1 (-2)], [ShLin 0%nat 1 0; ShLin 1%nat 1 (-2)], Some QS_e30);
  (129, 130, [ShLin 0%nat 1 0; ShLin 1%nat 1 (-2)], [ShLin 0%nat 1 0; ShLin 1%nat 1 0], Some QS_e31);
  (130, 129, [ShLin 0%nat 1 0; ShLin 1%nat 1 0], [ShLin 0%nat 1 0; ShLin 1%nat 1 (-2)], Some (cO (cD (cN 1) (cH 1))));
  (130, 130, [ShLin 0%nat 1 0; ShLin 1%nat 1 0], [ShLin 0%nat 1 0; ShLin 1%nat 1 0], Some QS_e32);
  (130, 131, [ShLin 0%nat 1 0; ShLin 1%nat 1 0], [ShLin 0%nat 1 0; ShLin 1%nat 1 2], Some QS_e33);
  (131, 130, [ShLin 0%nat 1 0; ShLin 1%nat 1 2], [ShLin 0%nat 1 0; ShLin 1%nat 1 0], Some QS_e34);
  (131, 131, [ShLin 0%nat 1 0; ShLin 1%nat 1 2], [ShLin 0%nat 1 0; ShLin 1%nat 1 2], Some QS_e35);
  (132, 132, [ShLin 0%nat 1 0; ShLin 1%nat 1 (-2)], [ShLin 0%nat 1 0; ShLin 1%nat 1 (-2)], Some QS_e30);
  (132, 133, [ShLin 0%nat 1 0; ShLin 1%nat 1 (-2)], [ShLin 0%nat 1 0; ShLin 1%nat 1 0], Some QS_e31);
  (133, 132, [ShLin 0%nat 1 0; ShLin 1%nat 1 0], [ShLin 0%nat 1 0; ShLin 1%nat 1 (-2)], Some (cO (cD (cN 1) (cH 1))));
  (133, 133, [ShLin 0%nat 1 0; ShLin 1%nat 1 0], [ShLin 0%nat 1 0; ShLin 1%nat 1 0], Some QS_e32);
  (133, 134, [ShLin 0%nat 1 0; ShLin 1%nat 1 0], [ShLin 0%nat 1 0; ShLin 1%nat 1 2], Some QS_e33);
  (134, 133, [ShLin 0%nat 1 0; ShLin 1%nat 1 2], [ShLin 0%nat 1 0; ShLin 1%nat 1 0], Some QS_e34);
  (134, 134, [ShLin 0%nat 1 0; ShLin 1%nat 1 2], [ShLin 0%nat 1 0; ShLin 1%nat 1 2], Some QS_e35);
  (135, 135, [ShLin 0%nat 1 0; ShLin 1%nat 1 (-2)], [ShLin 0%nat 1 0; ShLin 1%nat 1 (-2)], Some QS_e30);
  (135, 136, [ShLin 0%nat 1 0; ShLin 1%nat 1 (-2)], [ShLin 0%nat 1 0; ShLin 1%nat 1 0], Some QS_e31);
  (136, 135, [ShLin 0%nat 1 0; ShLin 1%nat 1 0], [ShLin 0%nat 1 0; ShLin 1%nat 1 (-2)], Some (cO (cD (cN 1) (cH 1))));
  (136, 136, [ShLin 0%nat 1 0; ShLin 1%nat 1 0], [ShLin 0%nat 1 0; ShLin 1%nat 1 0], Some QS_e32);
  (136, 137, [ShLin 0%nat 1 0; ShLin 1%nat 1 0], [ShLin 0%nat 1 0; ShLin 1%nat 1 2], Some QS_e33);
  (137, 136, [ShLin 0%nat 1 0; ShLin 1%nat 1 2], [ShLin 0%nat 1 0; ShLin 1%nat 1 0], Some QS_e34);
  (137, 137, [ShLin 0%nat 1 0; ShLin 1%nat 1 2], [ShLin 0%nat 1 0; ShLin 1%nat 1 2], Some QS_e35);
  (138, 138, [ShLin 0%nat 1 0; ShLin 1%nat 1 (-2)], [ShLin 0%nat 1 0; ShLin 1%nat 1 (-2)], Some QS_e30);
  (138, 139, [ShLin 0%nat 1 0; ShLin 1%nat 1 (-2)], [ShLin 0%nat 1 0; ShLin 1%nat 1 0], Some QS_e31);
  (139, 138, [ShLin 0%nat 1 0; ShLin 1%nat 1 0], [ShLin 0%nat 1 0; ShLin 1%nat 1 (-2)], Some (cO (cD (cN 1) (cH 1))));
  (139, 139, [ShLin 0%nat 1 0; ShLin 1%nat 1 0], [ShLin 0%nat 1 0; ShLin 1%nat 1 0], Some QS_e32);
  (139, 140, [ShLin 0%nat 1 0; ShLin 1%nat 1 0], [ShLin 0%nat 1 0; ShLin 1%nat 1 2], Some QS_e33);
  (140, 139, [ShLin 0%nat 1 0; ShLin 1%nat 1 2], [ShLin 0%nat 1 0; ShLin 1%nat 1 0], Some QS_e34);
  (140, 140, [ShLin 0%nat 1 0; ShLin 1%nat 1 2], [ShLin 0%nat 1 0; ShLin 1%nat 1 2], Some QS_e35);
  (141, 141, [ShLin 0%nat 1 0; ShLin 1%nat 1 (-2)], [ShLin 0%nat 1 0; ShLin 1%nat 1 (-2)], Some QS_e30);
  (141, 142, [ShLin 0%nat 1 0; ShLin 1%nat 1 (-2)], [ShLin 0%nat 1 0; ShLin 1%nat 1 0], Some QS_e31);
  (142, 141, [ShLin 0%nat 1 0; ShLin 1%nat 1 0], [ShLin 0%nat 1 0; ShLin 1%nat 1 (-2)], Some (cO (cD (cN 1) (cH 1))));
  (142, 142, [ShLin 0%nat 1 0; ShLin 1%nat 1 0], [ShLin 0%nat 1 0; ShLin 1%nat 1 0], Some QS_e32);
  (142, 143, [ShLin 0%nat 1 0; ShLin 1%nat 1 0], [ShLin 0%nat 1 0; ShLin 1%nat 1 2], Some QS_e33);
  (143, 142, [ShLin 0%nat 1 0; ShLin 1%nat 1 2], [ShLin 0%nat 1 0; ShLin 1%nat 1 0], Some QS_e34);
  (143, 143, [ShLin 0%nat 1 0; ShLin 1%nat 1 2], [ShLin 0%nat 1 0; ShLin 1%nat 1 2], Some QS_e35);
  (144, 144, [ShLin 0%nat 1 0; ShLin 1%nat 1 (-2)], [ShLin 0%nat 1 0; ShLin 1%nat 1 (-2)], Some QS_e30);
  (144, 145, [ShLin 0%nat 1 0; ShLin 1%nat 1 (-2)], [ShLin 0%nat 1 0; ShLin 1%nat 1 0], Some QS_e31);
  (145, 144, [ShLin 0%nat 1 0; ShLin 1%nat 1 0], [ShLin 0%nat 1 0; ShLin 1%nat 1 (-2)], Some (cO (cD (cN 1) (cH 1))));
  (145, 145, [ShLin 0%nat 1 0; ShLin 1%nat 1 0], [ShLin 0%nat 1 0; ShLin 1%nat 1 0], Some QS_e32);
  (145, 146, [ShLin 0%nat 1 0; ShLin 1%nat 1 0], [ShLin 0%nat 1 0; ShLin 1%nat 1 2], Some QS_e33);
  (146, 145, [ShLin 0%nat 1 0; ShLin 1%nat 1 2], [ShLin 0%nat 1 0; ShLin 1%nat 1 0], Some QS_e34);
  (146, 146, [ShLin 0%nat 1 0; ShLin 1%nat 1 2], [ShLin 0%nat 1 0; ShLin 1%nat 1 2], Some QS_e35);
  (147, 147, [ShLin 0%nat 1 0; ShLin 1%nat 1 (-2)], [ShLin 0%nat 1 0; ShLin 1%nat 1 (-2)], Some QS_e30);
  (147, 148, [ShLin 0%nat 1 0; ShLin 1%nat 1 (-2)], [ShLin 0%nat 1 0; ShLin 1%nat 1 0], Some QS_e31);
  (148, 147, [ShLin 0%nat 1 0; ShLin 1%nat 1 0], [ShLin 0%nat 1 0; ShLin 1%nat 1 (-2)], Some (cO (cD (cN 1) (cH 1))));
  (148, 148, [ShLin 0%nat 1 0; ShLin 1%nat 1 0], [ShLin 0%nat 1 0; ShLin 1%nat 1 0], Some QS_e32);
  (148, 149, [ShLin 0%nat 1 0; ShLin 1%nat 1 0], [ShLin 0%nat 1 0; ShLin 1%nat 1 2], Some QS_e33);
  (149, 148, [ShLin 0%nat 1 0; ShLin 1%nat 1 2], [ShLin 0%nat 1 0; ShLin 1%nat 1 0], Some QS_e34);
  (149, 149, [ShLin 0%nat 1 0; ShLin 1%nat 1 2], [ShLin 0%nat 1 0; ShLin 1%nat 1 2], Some QS_e35);
  (150, 150, [ShLin 0%nat 1 0; ShLin 1%nat 1 (-2)], [ShLin 0%nat 1 0; ShLin 1%nat 1 (-2)], Some QS_e30);
  (150, 151, [ShLin 0%nat 1 0; ShLin 1%nat 1 (-2)], [ShLin 0%nat 1 0; ShLin 1%nat 1 0], Some QS_e31);
  (151, 150, [ShLin 0%nat 1 0; ShLin 1%nat 1 0], [ShLin 0%nat 1 0; ShLin 1%nat 1 (-2)], Some (cO (cD (cN 1) (cH 1))));
  (151, 151, [ShLin 0%nat 1 0; ShLin 1%nat 1 0], [ShLin 0%nat 1 0; ShLin 1%nat 1 0], Some QS_e32);
  (151, 152, [ShLin 0%nat 1 0; ShLin 1%nat 1 0], [ShLin 0%nat 1 0; ShLin 1%nat 1 2], Some QS_e33);
  (152, 151, [ShLin 0%nat 1 0; ShLin 1%nat 1 2], [ShLin 0%nat 1 0; ShLin 1%nat 1 0], Some QS_e34);
  (152, 152, [ShLin 0%nat 1 0; ShLin 1%nat 1 2], [ShLin 0%nat 1 0; ShLin 1%nat 1 2], Some QS_e35);
  (153, 153, [ShLin 0%nat 1 0; ShLin 1%nat 1 (-2)], [ShLin 0%nat 1 0; ShLin 1%nat 1 (-2)], Some QS_e30);
  (153, 154, [ShLin 0%nat 1 0; ShLin 1%nat 1 (-2)], [ShLin 0%nat 1 0; ShLin 1%nat 1 0], Some QS_e31);
  (154, 153, [ShLin 0%nat 1 0; ShLin 1%nat 1 0], [ShLin 0%nat 1 0; ShLin 1%nat 1 (-2)], Some (cO (cD (cN 1) (cH 1))));
  (154, 154, [ShLin 0%nat 1 0; ShLin 1%nat 1 0], [ShLin 0%nat 1 0; ShLin 1%nat 1 0], Some QS_e32);
  (154, 155, [ShLin 0%nat 1 0; ShLin 1%nat 1 0], [ShLin 0%nat 1 0; ShLin 1%nat 1 2], Some QS_e33);
  (155, 154, [ShLin 0%nat 1 0; ShLin 1%nat 1 2], [ShLin 0%nat 1 0; ShLin 1%nat 1 0], Some QS_e34);
  (155, 155, [ShLin 0%nat 1 0; ShLin 1%nat 1 2], [ShLin 0%nat 1 0; ShLin 1%nat 1 2], Some QS_e35);
  (156, 156, [ShLin 0%nat 1 0; ShLin 1%nat 1 (-2)], [ShLin 0%nat 1 0; ShLin 1%nat 1 (-2)], Some QS_e30);
  (156, 157, [ShLin 0%nat 1 0; ShLin 1%nat 1 (-2)], [ShLin 0%nat 1 0; ShLin 1%nat 1 0], Some QS_e31);
  (157, 156, [ShLin 0%nat 1 0; ShLin 1%nat 1 0], [ShLin 0%nat 1 0; ShLin 1%nat 1 (-2)], Some (cO (cD (cN 1) (cH 1))));
  (157, 157, [ShLin 0%nat 1 0; ShLin 1%nat 1 0], [ShLin 0%nat 1 0; ShLin 1%nat 1 0], Some QS_e32);
  (157, 158, [ShLin 0%nat 1 0; ShLin 1%nat 1 0], [ShLin 0%nat 1 0; ShLin 1%nat 1 2], Some QS_e33);
  (158, 157, [ShLin 0%nat 1 0; ShLin 1%nat 1 2], [ShLin 0%nat 1 0; ShLin 1%nat 1 0], Some QS_e34);
  (158, 158, [ShLin 0%nat 1 0; ShLin 1%nat 1 2], [ShLin 0%nat 1 0; ShLin 1%nat 1 2], Some QS_e35);
  (159, 159, [ShLin 0%nat 1 0; ShLin 1%nat 1 (-4)], [ShLin 0%nat 1 0; ShLin 1%nat 1 (-4)], Some QS_e327);
  (159, 160, [ShLin 0%nat 1 0; ShLin 1%nat 1 (-4)], [ShLin 0%nat 1 0; ShLin 1%nat 1 (-2)], Some QS_e328);
  (160, 159, [ShLin 0%nat 1 0; ShLin 1%nat 1 (-2)], [ShLin 0%nat 1 0; ShLin 1%nat 1 (-4)], Some QS_e329);
  (160, 160, [ShLin 0%nat 1 0; ShLin 1%nat 1 (-2)], [ShLin 0%nat 1 0; ShLin 1%nat 1 (-2)], Some QS_e330);
  (160, 161, [ShLin 0%nat 1 0; ShLin 1%nat 1 (-2)], [ShLin 0%nat 1 0; ShLin 1%nat 1 0], Some QS_e331);
  (161, 160, [ShLin 0%nat 1 0; ShLin 1%nat 1 0], [ShLin 0%nat 1 0; ShLin 1%nat 1 (-2)], Some QS_e332);
  (161, 161, [ShLin 0%nat 1 0; ShLin 1%nat 1 0], [ShLin 0%nat 1 0; ShLin 1%nat 1 0], Some QS_e333);
  (161, 162, [ShLin 0%nat 1 0; ShLin 1%nat 1 0], [ShLin 0%nat 1 0; ShLin 1%nat 1 2], Some QS_e334);
  (162, 161, [ShLin 0%nat 1 0; ShLin 1%nat 1 2], [ShLin 0%nat 1 0; ShLin 1%nat 1 0], Some QS_e335);
  (162, 162, [ShLin 0%nat 1 0; ShLin 1%nat 1 2], [ShLin 0%nat 1 0; ShLin 1%nat 1 2], Some QS_e336);
  (162, 163, [ShLin 0%nat 1 0; ShLin 1%nat 1 2], [ShLin 0%nat 1 0; ShLin 1%nat 1 4], Some QS_e337);
  (163, 162, [ShLin 0%nat 1 0; ShLin 1%nat 1 4], [ShLin 0%nat 1 0; ShLin 1%nat 1 2], Some QS_e338);
  (163, 163, [ShLin 0%nat 1 0; ShLin 1%nat 1 4], [ShLin 0%nat 1 0; ShLin 1%nat 1 4], Some QS_e339);
  (164, 164, [ShLin 0%nat 1 (-1); ShLin 1%nat 1 (-1)], [ShLin 0%nat 1 (-1); ShLin 1%nat 1 (-1)], Some QS_e5);
  (164, 165, [ShLin 0%nat 1 (-1); ShLin 1%nat 1 (-1)], [ShLin 0%nat 1 (-1); ShLin 1%nat 1 1], Some QS_e6);
  (165, 164, [ShLin 0%nat 1 (-1); ShLin 1%nat 1 1], [ShLin 0%nat 1 (-1); ShLin 1%nat 1 (-1)], Some QS_e7);
  (165, 165, [ShLin 0%nat 1 (-1); ShLin 1%nat 1 1], [ShLin 0%nat 1 (-1); ShLin 1%nat 1 1], Some QS_e8);
  (166, 166, [ShLin 0%nat 1 (-1); ShLin 1%nat 1 (-1)], [ShLin 0%nat 1 (-1); ShLin 1%nat 1 (-1)], Some QS_e5);
  (166, 167, [ShLin 0%nat 1 (-1); ShLin 1%nat 1 (-1)], [ShLin 0%nat 1 (-1); ShLin 1%nat 1 1], Some QS_e6);
  (167, 166, [ShLin 0%nat 1 (-1); ShLin 1%nat 1 1], [ShLin 0%nat 1 (-1); ShLin 1%nat 1 (-1)], Some QS_e7);
  (167, 167, [ShLin 0%nat 1 (-1); ShLin 1%nat 1 1], [ShLin 0%nat 1 (-1); ShLin 1%nat 1 1], Some QS_e8);
  (168, 168, [ShLin 0%nat 1 (-1); ShLin 1%nat 1 (-1)], [ShLin 0%nat 1 (-1); ShLin 1%nat 1 (-1)], Some QS_e5);
  (168, 169, [ShLin 0%nat 1 (-1); ShLin 1%nat 1 (-1)], [ShLin 0%nat 1 (-1); ShLin 1%nat 1 1], Some QS_e6);
  (169, 168, [ShLin 0%nat 1 (-1); ShLin 1%nat 1 1], [ShLin 0%nat 1 (-1); ShLin 1%nat 1 (-1)], Some QS_e7);
  (169, 169, [ShLin 0%nat 1 (-1); ShLin 1%nat 1 1], [ShLin 0%nat 1 (-1); ShLin 1%nat 1 1], Some QS_e8);
  (170, 170, [ShLin 0%nat 1 (-1); ShLin 1%nat 1 (-1)], [ShLin 0%nat 1 (-1); ShLin 1%nat 1 (-1)], Some QS_e5);
  (170, 171, [ShLin 0%nat 1 (-1); ShLin 1%nat 1 (-1)], [ShLin 0%nat 1 (-1); ShLin 1%nat 1 1], Some QS_e6);
  (171, 170, [ShLin 0%nat 1 (-1); ShLin 1%nat 1 1], [ShLin 0%nat 1 (-1); ShLin 1%nat 1 (-1)], Some QS_e7);
  (171, 171, [ShLin 0%nat 1 (-1); ShLin 1%nat 1 1], [ShLin 0%nat 1 (-1); ShLin 1%nat 1 1], Some QS_e8);
  (172, 172, [ShLin 0%nat 1 (-1); ShLin 1%nat 1 (-1)], [ShLin 0%nat 1 (-1); ShLin 1%nat 1 (-1)], Some QS_e5);
  (172, 173, [ShLin 0%nat 1 (-1); ShLin 1%nat 1 (-1)], [ShLin 0%nat 1 (-1); ShLin 1%nat 1 1], Some QS_e6);
  (173, 172, [ShLin 0%nat 1 (-1); ShLin 1%nat 1 1], [ShLin 0%nat 1 (-1); ShLin 1%nat 1 (-1)], Some QS_e7);
  (173, 173, [ShLin 0%nat 1 (-1); ShLin 1%nat 1 1], [ShLin 0%nat 1 (-1); ShLin 1%nat 1 1], Some QS_e8);
  (174, 174, [ShLin 0%nat 1 (-1); ShLin 1%nat 1 (-1)], [ShLin 0%nat 1 (-1); ShLin 1%nat 1 (-1)], Some QS_e5);
  (174, 175, [ShLin 0%nat 1 (-1); ShLin 1%nat 1 (-1)], [ShLin 0%nat 1 (-1); ShLin 1%nat 1 1], Some QS_e6);
  (175, 174, [ShLin 0%nat 1 (-1); ShLin 1%nat 1 1], [ShLin 0%nat 1 (-1); ShLin 1%nat 1 (-1)], Some QS_e7);
  (175, 175, [ShLin 0%nat 1 (-1); ShLin 1%nat 1 1], [ShLin 0%nat 1 (-1); ShLin 1%nat 1 1], Some QS_e8);
  (176, 176, [ShLin 0%nat 1 (-1); ShLin 1%nat 1 (-1)], [ShLin 0%nat 1 (-1); ShLin 1%nat 1 (-1)], Some QS_e5);
  (176, 177, [ShLin 0%nat 1 (-1); ShLin 1%nat 1 (-1)], [ShLin 0%nat 1 (-1); ShLin 1%nat 1 1], Some QS_e6);
  (177, 176, [ShLin 0%nat 1 (-1); ShLin 1%nat 1 1], [ShLin 0%nat 1 (-1); ShLin 1%nat 1 (-1)], Some QS_e7);
  (177, 177, [ShLin 0%nat 1 (-1); ShLin 1%nat 1 1], [ShLin 0%nat 1 (-1); ShLin 1%nat 1 1], Some QS_e8);
  (178, 178, [ShLin 0%nat 1 (-1); ShLin 1%nat 1 (-1)], [ShLin 0%nat 1 (-1); ShLin 1%nat 1 (-1)], Some QS_e5);
  (178, 179, [ShLin 0%nat 1 (-1); ShLin 1%nat 1 (-1)], [ShLin 0%nat 1 (-1); ShLin 1%nat 1 1], Some QS_e6);
  (179, 178, [ShLin 0%nat 1 (-1); ShLin 1%nat 1 1], [ShLin 0%nat 1 (-1); ShLin 1%nat 1 (-1)], Some QS_e7);
  (179, 179, [ShLin 0%nat 1 (-1); ShLin 1%nat 1 1], [ShLin 0%nat 1 (-1); ShLin 1%nat 1 1], Some QS_e8);
  (180, 180, [ShLin 0%nat 1 (-1); ShLin 1%nat 1 (-1)], [ShLin 0%nat 1 (-1); ShLin 1%nat 1 (-1)], Some QS_e5);
  (180, 181, [ShLin 0%nat 1 (-1); ShLin 1%nat 1 (-1)], [ShLin 0%nat 1 (-1); ShLin 1%nat 1 1], Some QS_e6);
  (181, 180, [ShLin 0%nat 1 (-1); ShLin 1%nat 1 1], [ShLin 0%nat 1 (-1); ShLin 1%nat 1 (-1)], Some QS_e7);
  (181, 181, [ShLin 0%nat 1 (-1); ShLin 1%nat 1 1], [ShLin 0%nat 1 (-1); ShLin 1%nat 1 1], Some QS_e8);
  (182, 182, [ShLin 0%nat 1 (-1); ShLin 1%nat 1 (-1)], [ShLin 0%nat 1 (-1); ShLin 1%nat 1 (-1)], Some QS_e5);
  (182, 183, [ShLin 0%nat 1 (-1); ShLin 1%nat 1 (-1)], [ShLin 0%nat 1 (-1); ShLin 1%nat 1 1], Some QS_e6);
  (183, 182, [ShLin 0%nat 1 (-1); ShLin 1%nat 1 1], [ShLin 0%nat 1 (-1); ShLin 1%nat 1 (-1)], Some QS_e7);
  (183, 183, [ShLin 0%nat 1 (-1); ShLin 1%nat 1 1], [ShLin 0%nat 1 (-1); ShLin 1%nat 1 1], Some QS_e8);
  (184, 184, [ShLin 0%nat 1 (-1); ShLin 1%nat 1 (-1)], [ShLin 0%nat 1 (-1); ShLin 1%nat 1 (-1)], Some QS_e5);
  (184, 185, [ShLin 0%nat 1 (-1); ShLin 1%nat 1 (-1)], [ShLin 0%nat 1 (-1); ShLin 1%nat 1 1], Some QS_e6);
  (185, 184, [ShLin 0%nat 1 (-1); ShLin 1%nat 1 1], [ShLin 0%nat 1 (-1); ShLin 1%nat 1 (-1)], Some QS_e7);
  (185, 185, [ShLin 0%nat 1 (-1); ShLin 1%nat 1 1], [ShLin 0%nat 1 (-1); ShLin 1%nat 1 1], Some QS_e8);
  (186, 186, [ShLin 0%nat 1 (-1); ShLin 1%nat 1 (-1)], [ShLin 0%nat 1 (-1); ShLin 1%nat 1 (-1)], Some QS_e5);
  (186, 187, [ShLin 0%nat 1 (-1); ShLin 1%nat 1 (-1)], [ShLin 0%nat 1 (-1); ShLin 1%nat 1 1], Some QS_e6);
  (187, 186, [ShLin 0%nat 1 (-1); ShLin 1%nat 1 1], [ShLin 0%nat 1 (-1); ShLin 1%nat 1 (-1)], Some QS_e7);
  (187, 187, [ShLin 0%nat 1 (-1); ShLin 1%nat 1 1], [ShLin 0%nat 1 (-1); ShLin 1%nat 1 1], Some QS_e8);
  (188, 188, [ShLin 0%nat 1 (-1); ShLin 1%nat 1 (-1)], [ShLin 0%nat 1 (-1); ShLin 1%nat 1 (-1)], Some QS_e5);
  (188, 189, [ShLin 0%nat 1 (-1); ShLin 1%nat 1 (-1)], [ShLin 0%nat 1 (-1); ShLin 1%nat 1 1], Some QS_e6);
  (189, 188, [ShLin 0%nat 1 (-1); ShLin 1%nat 1 1], [ShLin 0%nat 1 (-1); ShLin 1%nat 1 (-1)], Some QS_e7);
  (189, 189, [ShLin 0%nat 1 (-1); ShLin 1%nat 1 1], [ShLin 0%nat 1 (-1); ShLin 1%nat 1 1], Some QS_e8);
  (190, 190, [ShLin 0%nat 1 (-1); ShLin 1%nat 1 (-1)], [ShLin 0%nat 1 (-1); ShLin 1%nat 1 (-1)], Some QS_e5);
  (190, 191, [ShLin 0%nat 1 (-1); ShLin 1%nat 1 (-1)], [ShLin 0%nat 1 (-1); ShLin 1%nat 1 1], Some QS_e6);
  (191, 190, [ShLin 0%nat 1 (-1); ShLin 1%nat 1 1], [ShLin 0%nat 1 (-1); ShLin 1%nat 1 (-1)], Some QS_e7);
  (191, 191, [ShLin 0%nat 1 (-1); ShLin 1%nat 1 1], [ShLin 0%nat 1 (-1); ShLin 1%nat 1 1], Some QS_e8);
  (192, 192, [ShLin 0%nat 1 (-1); ShLin 1%nat 1 (-1)], [ShLin 0%nat 1 (-1); ShLin 1%nat 1 (-1)], Some QS_e5);
  (192, 193, [ShLin 0%nat 1 (-1); ShLin 1%nat 1 (-1)], [ShLin 0%nat 1 (-1); ShLin 1%nat 1 1], Some QS_e6);
  (193, 192, [ShLin 0%nat 1 (-1); ShLin 1%nat 1 1], [ShLin 0%nat 1 (-1); ShLin 1%nat 1 (-1)], Some QS_e7);
  (193, 193, [ShLin 0%nat 1 (-1); ShLin 1%nat 1 1], [ShLin 0%nat 1 (-1); ShLin 1%nat 1 1], Some QS_e8);
  (194, 194, [ShLin 0%nat 1 (-1); ShLin 1%nat 1 (-1)], [ShLin 0%nat 1 (-1); ShLin 1%nat 1 (-1)], Some QS_e5);
  (194, 195, [ShLin 0%nat 1 (-1); ShLin 1%nat 1 (-1)], [ShLin 0%nat 1 (-1); ShLin 1%nat 1 1], Some QS_e6);
  (195, 194, [ShLin 0%nat 1 (-1); ShLin 1%nat 1 1], [ShLin 0%nat 1 (-1); ShLin 1%nat 1 (-1)], Some QS_e7);
  (195, 195, [ShLin 0%nat 1 (-1); ShLin 1%nat 1 1], [ShLin 0%nat 1 (-1); ShLin 1%nat 1 1], Some QS_e8);
  (196, 196, [ShLin 0%nat 1 (-1); ShLin 1%nat 1 (-1)], [ShLin 0%nat 1 (-1); ShLin 1%nat 1 (-1)], Some QS_e5);
  (196, 197, [ShLin 0%nat 1 (-1); ShLin 1%nat 1 (-1)], [ShLin 0%nat 1 (-1); ShLin 1%nat 1 1], Some QS_e6);
  (197, 196, [ShLin 0%nat 1 (-1); ShLin 1%nat 1 1], [ShLin 0%nat 1 (-1); ShLin 1%nat 1 (-1)], Some QS_e7);
  (197, 197, [ShLin 0%nat 1 (-1); ShLin 1%nat 1 1], [ShLin 0%nat 1 (-1); ShLin 1%nat 1 1], Some QS_e8);
  (198, 198, [ShLin 0%nat 1 (-1); ShLin 1%nat 1 (-1)], [ShLin 0%nat 1 (-1); ShLin 1%nat 1 (-1)], Some QS_e5);
  (198, 199, [ShLin 0%nat 1 (-1); ShLin 1%nat 1 (-1)], [ShLin 0%nat 1 (-1); ShLin 1%nat 1 1], Some QS_e6);
  (199, 198, [ShLin 0%nat 1 (-1); ShLin 1%nat 1 1], [ShLin 0%nat 1 (-1); ShLin 1%nat 1 (-1)], Some QS_e7);
  (199, 199, [ShLin 0%nat 1 (-1); ShLin 1%nat 1 1], [ShLin 0%nat 1 (-1); ShLin 1%nat 1 1], Some QS_e8);
  (200, 200, [ShLin 0%nat 1 (-1); ShLin 1%nat 1 (-1)], [ShLin 0%nat 1 (-1); ShLin 1%nat 1 (-1)], Some QS_e5);
  (200, 201, [ShLin 0%nat 1 (-1); ShLin 1%nat 1 (-1)], [ShLin 0%nat 1 (-1); ShLin 1%nat 1 1], Some QS_e6);
  (201, 200, [ShLin 0%nat 1 (-1); ShLin 1%nat 1 1], [ShLin 0%nat 1 (-1); ShLin 1%nat 1 (-1)], Some QS_e7);
  (201, 201, [ShLin 0%nat 1 (-1); ShLin 1%nat 1 1], [ShLin 0%nat 1 (-1); ShLin 1%nat 1 1], Some QS_e8);
  (202, 202, [ShLin 0%nat 1 (-1); ShLin 1%nat 1 (-1)], [ShLin 0%nat 1 (-1); ShLin 1%nat 1 (-1)], Some QS_e5);
  (202, 203, [ShLin 0%nat 1 (-1); ShLin 1%nat 1 (-1)], [ShLin 0%nat 1 (-1); ShLin 1%nat 1 1], Some QS_e6);
  (203, 202, [ShLin 0%nat 1 (-1); ShLin 1%nat 1 1], [ShLin 0%nat 1 (-1); ShLin 1%nat 1 (-1)], Some QS_e7);
  (203, 203, [ShLin 0%nat 1 (-1); ShLin 1%nat 1 1], [ShLin 0%nat 1 (-1); ShLin 1%nat 1 1], Some QS_e8);
  (204, 204, [ShLin 0%nat 1 (-1); ShLin 1%nat 1 (-3)], [ShLin 0%nat 1 (-1); ShLin 1%nat 1 (-3)], Some QS_e111);
  (204, 205, [ShLin 0%nat 1 (-1); ShLin 1%nat 1 (-3)], [ShLin 0%nat 1 (-1); ShLin 1%nat 1 (-1)], Some QS_e112);
  (205, 204, [ShLin 0%nat 1 (-1); ShLin 1%nat 1 (-1)], [ShLin 0%nat 1 (-1); ShLin 1%nat 1 (-3)], Some QS_e113);
  (205, 205, [ShLin 0%nat 1 (-1); ShLin 1%nat 1 (-1)], [ShLin 0%nat 1 (-1); ShLin 1%nat 1 (-1)], Some QS_e114);
  (205, 206, [ShLin 0%nat 1 (-1); ShLin 1%nat 1 (-1)], [ShLin 0%nat 1 (-1); ShLin 1%nat 1 1], Some QS_e115);
  (206, 205, [ShLin 0%nat 1 (-1); ShLin 1%nat 1 1], [ShLin 0%nat 1 (-1); ShLin 1%nat 1 (-1)], Some QS_e116);
  (206, 206, [ShLin 0%nat 1 (-1); ShLin 1%nat 1 1], [ShLin 0%nat 1 (-1); ShLin 1%nat 1 1], Some QS_e117);
  (206, 207, [ShLin 0%nat 1 (-1); ShLin 1%nat 1 1], [ShLin 0%nat 1 (-1); ShLin 1%nat 1 3], Some QS_e118);
  (207, 206, [ShLin 0%nat 1 (-1); ShLin 1%nat 1 3], [ShLin 0%nat 1 (-1); ShLin 1%nat 1 1], Some QS_e119);
  (207, 207, [ShLin 0%nat 1 (-1); ShLin 1%nat 1 3], [ShLin 0%nat 1 (-1); ShLin 1%nat 1 3], Some QS_e120);
  (208, 208, [ShLin 0%nat 1 (-1); ShLin 1%nat 1 (-3)], [ShLin 0%nat 1 (-1); ShLin 1%nat 1 (-3)], Some QS_e111);
  (208, 209, [ShLin 0%nat 1 (-1); ShLin 1%nat 1 (-3)], [ShLin 0%nat 1 (-1); ShLin 1%nat 1 (-1)], Some QS_e112);
  (209, 208, [ShLin 0%nat 1 (-1); ShLin 1%nat 1 (-1)], [ShLin 0%nat 1 (-1); ShLin 1%nat 1 (-3)], Some QS_e113);
  (209, 209, [ShLin 0%nat 1 (-1); ShLin 1%nat 1 (-1)], [ShLin 0%nat 1 (-1); ShLin 1%nat 1 (-1)], Some QS_e114);
  (209, 210, [ShLin 0%nat 1 (-1); ShLin 1%nat 1 (-1)], [ShLin 0%nat 1 (-1); ShLin 1%nat 1 1], Some QS_e115);
  (210, 209, [ShLin 0%nat 1 (-1); ShLin 1%nat 1 1], [ShLin 0%nat 1 (-1); ShLin 1%nat 1 (-1)], Some QS_e116);
  (210, 210, [ShLin 0%nat 1 (-1); ShLin 1%nat 1 1], [ShLin 0%nat 1 (-1); ShLin 1%nat 1 1], Some QS_e117);
  (210, 211, [ShLin 0%nat 1 (-1); ShLin 1%nat 1 1], [ShLin 0%nat 1 (-1); ShLin 1%nat 1 3], Some QS_e118);
  (211, 210, [ShLin 0%nat 1 (-1); ShLin 1%nat 1 3], [ShLin 0%nat 1 (-1); ShLin 1%nat 1 1], Some QS_e119);
  (211, 211, [ShLin 0%nat 1 (-1); ShLin 1%nat 1 3], [ShLin 0%nat 1 (-1); ShLin 1%nat 1 3], Some QS_e120);
  (212, 212, [ShLin 0%nat 1 (-1); ShLin 1%nat 1 (-3)], [ShLin 0%nat 1 (-1); ShLin 1%nat 1 (-3)], Some QS_e111);
  (212, 213, [ShLin 0%nat 1 (-1); ShLin 1%nat 1 (-3)], [ShLin 0%nat 1 (-1); ShLin 1%nat 1 (-1)], Some QS_e112);
  (213, 212, [ShLin 0%nat 1 (-1); ShLin 1%nat 1 (-1)], [ShLin 0%nat 1 (-1); ShLin 1%nat 1 (-3)], Some QS_e113);
  (213, 213, [ShLin 0%nat 1 (-1); ShLin 1%nat 1 (-1)], [ShLin 0%nat 1 (-1); ShLin 1%nat 1 (-1)], Some QS_e114);
  (213, 214, [ShLin 0%nat 1 (-1); ShLin 1%nat 1 (-1)], [ShLin 0%nat 1 (-1); ShLin 1%nat 1 1], Some QS_e115);
  (214, 213, [ShLin 0%nat 1 (-1); ShLin 1%nat 1 1], [ShLin 0%nat 1 (-1); ShLin 1%nat 1 (-1)], Some QS_e116);
  (214, 214, [ShLin 0%nat 1 (-1); ShLin 1%nat 1 1], [ShLin 0%nat 1 (-1); ShLin 1%nat 1 1], Some QS_e117);
  (214, 215, [ShLin 0%nat 1 (-1); ShLin 1%nat 1 1], [ShLin 0%nat 1 (-1); ShLin 1%nat 1 3], Some QS_e118);
  (215, 214, [ShLin 0%nat 1 (-1); ShLin 1%nat 1 3], [ShLin 0%nat 1 (-1); ShLin 1%nat 1 1], Some QS_e119);
  (215, 215, [ShLin 0%nat 1 (-1); ShLin 1%nat 1 3], [ShLin 0%nat 1 (-1); ShLin 1%nat 1 3], Some QS_e120);
  (216, 216, [ShLin 0%nat 1 (-1); ShLin 1%nat 1 (-3)], [ShLin 0%nat 1 (-1); ShLin 1%nat 1 (-3)], Some QS_e111);
  (216, 217, [ShLin 0%nat 1 (-1); ShLin 1%nat 1 (-3)], [ShLin 0%nat 1 (-1); ShLin 1%nat 1 (-1)], Some QS_e112);
  (217, 216, [ShLin 0%nat 1 (-1); ShLin 1%nat 1 (-1)], [ShLin 0%nat 1 (-1); ShLin 1%nat 1 (-3)], Some QS_e113);
  (217, 217, [ShLin 0%nat 1 (-1); ShLin 1%nat 1 (-1)], [ShLin 0%nat 1 (-1); ShLin 1%nat 1 (-1)], Some QS_e114);
  (217, 218, [ShLin 0%nat 1 (-1); ShLin 1%nat 1 (-1)], [ShLin 0%nat 1 (-1); ShLin 1%nat 1 1], Some QS_e115);
  (218, 217, [ShLin 0%nat 1 (-1); ShLin 1%nat 1 1], [ShLin 0%nat 1 (-1); ShLin 1%nat 1 (-1)], Some QS_e116);
  (218, 218, [ShLin 0%nat 1 (-1); ShLin 1%nat 1 1], [ShLin 0%nat 1 (-1); ShLin 1%nat 1 1], Some QS_e117);
  (218, 219, [ShLin 0%nat 1 (-1); ShLin 1%nat 1 1], [ShLin 0%nat 1 (-1); ShLin 1%nat 1 3], Some QS_e118);
  (219, 218, [ShLin 0%nat 1 (-1); ShLin 1%nat 1 3], [ShLin 0%nat 1 (-1); ShLin 1%nat 1 1], Some QS_e119);
  (219, 219, [ShLin 0%nat 1 (-1); ShLin 1%nat 1 3], [ShLin 0%nat 1 (-1); ShLin 1%nat 1 3], Some QS_e120);
  (220, 220, [ShLin 0%nat 1 (-2); ShLin 1%nat 1 0], [ShLin 0%nat 1 (-2); ShLin 1%nat 1 0], Some (cN 1));
  (221, 221, [ShLin 0%nat 1 (-2); ShLin 1%nat 1 0], [ShLin 0%nat 1 (-2); ShLin 1%nat 1 0], Some (cN 1));
  (222, 222, [ShLin 0%nat 1 (-2); ShLin 1%nat 1 0], [ShLin 0%nat 1 (-2); ShLin 1%nat 1 0], Some (cN 1));
  (223, 223, [ShLin 0%nat 1 (-2); ShLin 1%nat 1 0], [ShLin 0%nat 1 (-2); ShLin 1%nat 1 0], Some (cN 1));
  (224, 224, [ShLin 0%nat 1 (-2); ShLin 1%nat 1 0], [ShLin 0%nat 1 (-2); ShLin 1%nat 1 0], Some (cN 1));
  (225, 225, [ShLin 0%nat 1 (-2); ShLin 1%nat 1 0], [ShLin 0%nat 1 (-2); ShLin 1%nat 1 0], Some (cN 1));
  (226, 226, [ShLin 0%nat 1 (-2); ShLin 1%nat 1 0], [ShLin 0%nat 1 (-2); ShLin 1%nat 1 0], Some (cN 1));
  (227, 227, [ShLin 0%nat 1 (-2); ShLin 1%nat 1 0], [ShLin 0%nat 1 (-2); ShLin 1%nat 1 0], Some (cN 1));
  (228, 228, [ShLin 0%nat 1 (-2); ShLin 1%nat 1 0], [ShLin 0%nat 1 (-2); ShLin 1%nat 1 0], Some (cN 1));
  (229, 229, [ShLin 0%nat 1 (-2); ShLin 1%nat 1 0], [ShLin 0%nat 1 (-2); ShLin 1%nat 1 0], Some (cN 1));
  (230, 230, [ShLin 0%nat 1 (-2); ShLin 1%nat 1 (-2)], [ShLin 0%nat 1 (-2); ShLin 1%nat 1 (-2)], Some QS_e30);
  (230, 231, [ShLin 0%nat 1 (-2); ShLin 1%nat 1 (-2)], [ShLin 0%nat 1 (-2); ShLin 1%nat 1 0], Some QS_e31);
  (231, 230, [ShLin 0%nat 1 (-2); ShLin 1%nat 1 0], [ShLin 0%nat 1 (-2); ShLin 1%nat 1 (-2)], Some (cO (cD (cN 1) (cH 1))));
  (231, 231, [ShLin 0%nat 1 (-2); ShLin 1%nat 1 0], [ShLin 0%nat 1 (-2); ShLin 1%nat 1 0], Some QS_e32);
  (231, 232, [ShLin 0%nat 1 (-2); ShLin 1%nat 1 0], [ShLin 0%nat 1 (-2); ShLin 1%nat 1 2], Some QS_e33);
  (232, 231, [ShLin 0%nat 1 (-2); ShLin 1%nat 1 2], [ShLin 0%nat 1 (-2); ShLin 1%nat 1 0], Some QS_e34);
  (232, 232, [ShLin 0%nat 1 (-2); ShLin 1%nat 1 2], [ShLin 0%nat 1 (-2); ShLin 1%nat 1 2], Some QS_e35);
  (233, 233, [ShLin 0%nat 1 (-2); ShLin 1%nat 1 (-2)], [ShLin 0%nat 1 (-2); ShLin 1%nat 1 (-2)], Some QS_e30);
  (233, 234, [ShLin 0%nat 1 (-2); ShLin 1%nat 1 (-2)], [ShLin 0%nat 1 (-2); ShLin 1%nat 1 0], Some QS_e31);
  (234, 233, [ShLin 0%nat 1 (-2); ShLin 1%nat 1 0], [ShLin 0%nat 1 (-2); ShLin 1%nat 1 (-2)], Some (cO (cD (cN 1) (cH 1))));
  (234, 234, [ShLin 0%nat 1 (-2); ShLin 1%nat 1 0], [ShLin 0%nat 1 (-2); ShLin 1%nat 1 0], Some QS_e32);
  (234, 235, [ShLin 0%nat 1 (-2); ShLin 1%nat 1 0], [ShLin 0%nat 1 (-2); ShLin 1%nat 1 2], Some QS_e33);
  (235, 234, [ShLin 0%nat 1 (-2); ShLin 1%nat 1 2], [ShLin 0%nat 1 (-2); ShLin 1%nat 1 0], Some QS_e34);
  (235, 235, [ShLin 0%nat 1 (-2); ShLin 1%nat 1 2], [ShLin 0%nat 1 (-2); ShLin 1%nat 1 2], Some QS_e35);
  (236, 236, [ShLin 0%nat 1 (-2); ShLin 1%nat 1 (-2)], [ShLin 0%nat 1 (-2); ShLin 1%nat 1 (-2)], Some QS_e30);
  (236, 237, [ShLin 0%nat 1 (-2); ShLin 1%nat 1 (-2)], [ShLin 0%nat 1 (-2); ShLin 1%nat 1 0], Some QS_e31);
  (237, 236, [ShLin 0%nat 1 (-2); ShLin 1%nat 1 0], [ShLin 0%nat 1 (-2); ShLin 1%nat 1 (-2)], Some (cO (cD (cN 1) (cH 1))));
  (237, 237, [ShLin 0%nat 1 (-2); ShLin 1%nat 1 0], [ShLin 0%nat 1 (-2); ShLin 1%nat 1 0], Some QS_e32);
  (237, 238, [ShLin 0%nat 1 (-2); ShLin 1%nat 1 0], [ShLin 0%nat 1 (-2); ShLin 1%nat 1 2], Some QS_e33);
  (238, 237, [ShLin 0%nat 1 (-2); ShLin 1%nat 1 2], [ShLin 0%nat 1 (-2); ShLin 1%nat 1 0], Some QS_e34);
  (238, 238, [ShLin 0%nat 1 (-2); ShLin 1%nat 1 2], [ShLin 0%nat 1 (-2); ShLin 1%nat 1 2], Some QS_e35);
  (239, 239, [ShLin 0%nat 1 (-2); ShLin 1%nat 1 (-2)], [ShLin 0%nat 1 (-2); ShLin 1%nat 1 (-2)], Some QS_e30);
  (239, 240, [ShLin 0%nat 1 (-2); ShLin 1%nat 1 (-2)], [ShLin 0%nat 1 (-2); ShLin 1%nat 1 0], Some QS_e31);
  (240, 239, [ShLin 0%nat 1 (-2); ShLin 1%nat 1 0], [ShLin 0%nat 1 (-2); ShLin 1%nat 1 (-2)], Some (cO (cD (cN 1) (cH 1))));
  (240, 240, [ShLin 0%nat 1 (-2); ShLin 1%nat 1 0], [ShLin 0%nat 1 (-2); ShLin 1%nat 1 0], Some QS_e32);
  (240, 241, [ShLin 0%nat 1 (-2); ShLin 1%nat 1 0], [ShLin 0%nat 1 (-2); ShLin 1%nat 1 2], Some QS_e33);
  (241, 240, [ShLin 0%nat 1 (-2); ShLin 1%nat 1 2], [ShLin 0%nat 1 (-2); ShLin 1%nat 1 0], Some QS_e34);
  (241, 241, [ShLin 0%nat 1 (-2); ShLin 1%nat 1 2], [ShLin 0%nat 1 (-2); ShLin 1%nat 1 2], Some QS_e35);
  (242, 242, [ShLin 0%nat 1 (-2); ShLin 1%nat 1 (-2)], [ShLin 0%nat 1 (-2); ShLin 1%nat 1 (-2)], Some QS_e30);
  (242, 243, [ShLin 0%nat 1 (-2); ShLin 1%nat 1 (-2)], [ShLin 0%nat 1 (-2); ShLin 1%nat 1 0], Some QS_e31);
  (243, 242, [ShLin 0%nat 1 (-2); ShLin 1%nat 1 0], [ShLin 0%nat 1 (-2); ShLin 1%nat 1 (-2)], Some (cO (cD (cN 1) (cH 1))));
  (243, 243, [ShLin 0%nat 1 (-2); ShLin 1%nat 1 0], [ShLin 0%nat 1 (-2); ShLin 1%nat 1 0], Some QS_e32);
  (243, 244, [ShLin 0%nat 1 (-2); ShLin 1%nat 1 0], [ShLin 0%nat 1 (-2); ShLin 1%nat 1 2], Some QS_e33);
  (244, 243, [ShLin 0%nat 1 (-2); ShLin 1%nat 1 2], [ShLin 0%nat 1 (-2); ShLin 1%nat 1 0], Some QS_e34);
  (244, 244, [ShLin 0%nat 1 (-2); ShLin 1%nat 1 2], [ShLin 0%nat 1 (-2); ShLin 1%nat 1 2], Some QS_e35);
  (245, 245, [ShLin 0%nat 1 (-2); ShLin 1%nat 1 (-2)], [ShLin 0%nat 1 (-2); ShLin 1%nat 1 (-2)], Some QS_e30);
  (245, 246, [ShLin 0%nat 1 (-2); ShLin 1%nat 1 (-2)], [ShLin 0%nat 1 (-2); ShLin 1%nat 1 0], Some QS_e31);
  (246, 245, [ShLin 0%nat 1 (-2); ShLin 1%nat 1 0], [ShLin 0%nat 1 (-2); ShLin 1%nat 1 (-2)], Some (cO (cD (cN 1) (cH 1))));
  (246, 246, [ShLin 0%nat 1 (-2); ShLin 1%nat 1 0], [ShLin 0%nat 1 (-2); ShLin 1%nat 1 0], Some QS_e32);
  (246, 247, [ShLin 0%nat 1 (-2); ShLin 1%nat 1 0], [ShLin 0%nat 1 (-2); ShLin 1%nat 1 2], Some QS_e33);
  (247, 246, [ShLin 0%nat 1 (-2); ShLin 1%nat 1 2], [ShLin 0%nat 1 (-2); ShLin 1%nat 1 0], Some QS_e34);
  (247, 247, [ShLin 0%nat 1 (-2); ShLin 1%nat 1 2], [ShLin 0%nat 1 (-2); ShLin 1%nat 1 2], Some QS_e35);
  (248, 248, [ShLin 0%nat 1 (-3); ShLin 1%nat 1 (-1)], [ShLin 0%nat 1 (-3); ShLin 1%nat 1 (-1)], Some QS_e5);
  (248, 249, [ShLin 0%nat 1 (-3); ShLin 1%nat 1 (-1)], [ShLin 0%nat 1 (-3); ShLin 1%nat 1 1], Some QS_e6);
  (249, 248, [ShLin 0%nat 1 (-3); ShLin 1%nat 1 1], [ShLin 0%nat 1 (-3); ShLin 1%nat 1 (-1)], Some QS_e7);
  (249, 249, [ShLin 0%nat 1 (-3); ShLin 1%nat 1 1], [ShLin 0%nat 1 (-3); ShLin 1%nat 1 1], Some QS_e8);
  (250, 250, [ShLin 0%nat 1 (-3); ShLin 1%nat 1 (-1)], [ShLin 0%nat 1 (-3); ShLin 1%nat 1 (-1)], Some QS_e5);
  (250, 251, [ShLin 0%nat 1 (-3); ShLin 1%nat 1 (-1)], [ShLin 0%nat 1 (-3); ShLin 1%nat 1 1], Some QS_e6);
  (251, 250, [ShLin 0%nat 1 (-3); ShLin 1%nat 1 1], [ShLin 0%nat 1 (-3); ShLin 1%nat 1 (-1)], Some QS_e7);
  (251, 251, [ShLin 0%nat 1 (-3); ShLin 1%nat 1 1], [ShLin 0%nat 1 (-3); ShLin 1%nat 1 1], Some QS_e8);
  (252, 252, [ShLin 0%nat 1 (-3); ShLin 1%nat 1 (-1)], [ShLin 0%nat 1 (-3); ShLin 1%nat 1 (-1)], Some QS_e5);
  (252, 253, [ShLin 0%nat 1 (-3); ShLin 1%nat 1 (-1)], [ShLin 0%nat 1 (-3); ShLin 1%nat 1 1], Some QS_e6);
  (253, 252, [ShLin 0%nat 1 (-3); ShLin 1%nat 1 1], [ShLin 0%nat 1 (-3); ShLin 1%nat 1 (-1)], Some QS_e7);
  (253, 253, [ShLin 0%nat 1 (-3); ShLin 1%nat 1 1], [ShLin 0%nat 1 (-3); ShLin 1%nat 1 1], Some QS_e8);
  (254, 254, [ShLin 0%nat 1 (-3); ShLin 1%nat 1 (-1)], [ShLin 0%nat 1 (-3); ShLin 1%nat 1 (-1)], Some QS_e5);
  (254, 255, [ShLin 0%nat 1 (-3); ShLin 1%nat 1 (-1)], [ShLin 0%nat 1 (-3); ShLin 1%nat 1 1], Some QS_e6);
  (255, 254, [ShLin 0%nat 1 (-3); ShLin 1%nat 1 1], [ShLin 0%nat 1 (-3); ShLin 1%nat 1 (-1)], Some QS_e7);
  (255, 255, [ShLin 0%nat 1 (-3); ShLin 1%nat 1 1], [ShLin 0%nat 1 (-3); ShLin 1%nat 1 1], Some QS_e8);
  (256, 256, [ShLin 0%nat 1 (-4); ShLin 1%nat 1 0], [ShLin 0%nat 1 (-4); ShLin 1%nat 1 0], Some (cN 1))].
(** /repo/c++/symmetry/nrg-recalc-QS.hpp recalc_triplet, qs/qs-4ch-tripletp.dat *)
Definition qs_4ch_t11 : ten_table := mk_ten "triplet" [ShLin 0%nat 1 0; ShLin 1%nat 1 2] [0; 3] [
  (1, 1, [ShLin 0%nat 1 4; ShLin 1%nat 1 0], [ShLin 0%nat 1 4; ShLin 1%nat 1 2], Some (cN 1));
  (2, 2, [ShLin 0%nat 1 3; ShLin 1%nat 1 (-1)], [ShLin 0%nat 1 3; ShLin 1%nat 1 1], Some QS_e9);
  (3, 2, [ShLin 0%nat 1 3; ShLin 1%nat 1 1], [ShLin 0%nat 1 3; ShLin 1%nat 1 1], Some QS_e10);
  (3, 3, [ShLin 0%nat 1 3; ShLin 1%nat 1 1], [ShLin 0%nat 1 3; ShLin 1%nat 1 3], Some (cN 1));
  (4, 4, [ShLin 0%nat 1 3; ShLin 1%nat 1 (-1)], [ShLin 0%nat 1 3; ShLin 1%nat 1 1], Some QS_e9);
  (5, 4, [ShLin 0%nat 1 3; ShLin 1%nat 1 1], [ShLin 0%nat 1 3; ShLin 1%nat 1 1], Some QS_e10);
  (5, 5, [ShLin 0%nat 1 3; ShLin 1%nat 1 1], [ShLin 0%nat 1 3; ShLin 1%nat 1 3], Some (cN 1));
  (6, 6, [ShLin 0%nat 1 3; ShLin 1%nat 1 (-1)], [ShLin 0%nat 1 3; ShLin 1%nat 1 1], Some QS_e9);
  (7, 6, [ShLin 0%nat 1 3; ShLin 1%nat 1 1], [ShLin 0%nat 1 3; ShLin 1%nat 1 1], Some QS_e10);
  (7, 7, [ShLin 0%nat 1 3; ShLin 1%nat 1 1], [ShLin 0%nat 1 3; ShLin 1%nat 1 3], Some (cN 1));
  (8, 8, [ShLin 0%nat 1 3; ShLin 1%nat 1 (-1)], [ShLin 0%nat 1 3; ShLin 1%nat 1 1], Some QS_e9);
  (9, 8, [ShLin 0%nat 1 3; ShLin 1%nat 1 1], [ShLin 0%nat 1 3; ShLin 1%nat 1 1], Some QS_e10);
  (9, 9, [ShLin 0%nat 1 3; ShLin 1%nat 1 1], [ShLin 0%nat 1 3; ShLin 1%nat 1 3], Some (cN 1));
  (10, 10, [ShLin 0%nat 1 2; ShLin 1%nat 1 0], [ShLin 0%nat 1 2; ShLin 1%nat 1 2], Some (cN 1));
  (11, 11, [ShLin 0%nat 1 2; ShLin 1%nat 1 0], [ShLin 0%nat 1 2; ShLin 1%nat 1 2], Some (cN 1));
  (12, 12, [ShLin 0%nat 1 2; ShLin 1%nat 1 0], [ShLin 0%nat 1 2; ShLin 1%nat 1 2], Some (cN 1));
  (13, 13, [ShLin 0%nat 1 2; ShLin 1%nat 1 0], [ShLin 0%nat 1 2; ShLin 1%nat 1 2], Some (cN 1));
  (14, 14, [ShLin 0%nat 1 2; ShLin 1%nat 1 0], [ShLin 0%nat 1 2; ShLin 1%nat 1 2], Some (cN 1));
  (15, 15, [ShLin 0%nat 1 2; ShLin 1%nat 1 0], [ShLin 0%nat 1 2; ShLin 1%nat 1 2], Some (cN 1));
  (16, 16, [ShLin 0%nat 1 2; ShLin 1%nat 1 0], [ShLin 0%nat 1 2; ShLin 1%nat 1 2], Some (cN 1));
  (17, 17, [ShLin 0%nat 1 2; ShLin 1%nat 1 0], [ShLin 0%nat 1 2; ShLin 1%nat 1 2], Some (cN 1));
  (18, 18, [ShLin 0%nat 1 2; ShLin 1%nat 1 0], [ShLin 0%nat 1 2; ShLin 1%nat 1 2], Some (cN 1));
  (19, 19, [ShLin 0%nat 1 2; ShLin 1%nat 1 0], [ShLin 0%nat 1 2; ShLin 1%nat 1 2], Some (cN 1));
  (20, 20, [ShLin 0%nat 1 2; ShLin 1%nat 1 (-2)], [ShLin 0%nat 1 2; ShLin 1%nat 1 0], Some QS_e36);
  (21, 20, [ShLin 0%nat 1 2; ShLin 1%nat 1 0], [ShLin 0%nat 1 2; ShLin 1%nat 1 0], Some QS_e37);
  (21, 21, [ShLin 0%nat 1 2; ShLin 1%nat 1 0], [ShLin 0%nat 1 2; ShLin 1%nat 1 2], Some QS_e35);
  (22, 20, [ShLin 0%nat 1 2; ShLin 1%nat 1 2], [ShLin 0%nat 1 2; ShLin 1%nat 1 0], Some QS_e38);
  (22, 21, [ShLin 0%nat 1 2; ShLin 1%nat 1 2], [ShLin 0%nat 1 2; ShLin 1%nat 1 2], Some QS_e39);
  (22, 22, [ShLin 0%nat 1 2; ShLin 1%nat 1 2], [ShLin 0%nat 1 2; ShLin 1%nat 1 4], Some (cN 1));
  (23, 23, [ShLin 0%nat 1 2; ShLin 1%nat 1 (-2)], [ShLin 0%nat 1 2; ShLin 1%nat 1 0], Some QS_e36);
  (24, 23, [ShLin 0%nat 1 2; ShLin 1%nat 1 0], [ShLin 0%nat 1 2; ShLin 1%nat 1 0], Some QS_e37);
  (24, 24, [ShLin 0%nat 1 2; ShLin 1%nat 1 0], [ShLin 0%nat 1 2; ShLin 1%nat 1 2], Some QS_e35);
  (25, 23, [ShLin 0%nat 1 2; ShLin 1%nat 1 2], [ShLin 0%nat 1 2; ShLin 1%nat 1 0], Some QS_e38);
  (25, 24, [ShLin 0%nat 1 2; ShLin 1%nat 1 2], [ShLin 0%nat 1 2; ShLin 1%nat 1 2], Some QS_e39);
  (25, 25, [ShLin 0%nat 1 2; ShLin 1%nat 1 2], [ShLin 0%nat 1 2; ShLin 1%nat 1 4], Some (cN 1));
  (26, 26, [ShLin 0%nat 1 2; ShLin 1%nat 1 (-2)], [ShLin 0%nat 1 2; ShLin 1%nat 1 0], Some QS_e36);
  (27, 26, [ShLin 0%nat 1 2; ShLin 1%nat 1 0], [ShLin 0%nat 1 2; ShLin 1%nat 1 0], Some QS_e37);
  (27, 27, [ShLin 0%nat 1 2; ShLin 1%nat 1 0], [ShLin 0%nat 1 2; ShLin 1%nat 1 2], Some QS_e35);
  (28, 26, [ShLin 0%nat 1 2; ShLin 1%nat 1 2], [ShLin 0%nat 1 2; ShLin 1%nat 1 0], Some QS_e38);
  (28, 27, [ShLin 0%nat 1 2; ShLin 1%nat 1 2], [ShLin 0%nat 1 2; ShLin 1%nat 1 2], Some QS_e39);
  (28, 28, [ShLin 0%nat 1 2; ShLin 1%nat 1 2], [ShLin 0%nat 1 2; ShLin 1%nat 1 4], Some (cN 1));
  (29, 29, [ShLin 0%nat 1 2; ShLin 1%nat 1 (-2)], [ShLin 0%nat 1 2; ShLin 1%nat 1 0], Some QS_e36);
  (30, 29, [ShLin 0%nat 1 2; ShLin 1%nat 1 0], [ShLin 0%nat 1 2; ShLin 1%nat 1 0], Some QS_e37);
  (30, 30, [ShLin 0%nat 1 2; ShLin 1%nat 1 0], [ShLin 0%nat 1 2; ShLin 1%nat 1 2], Some QS_e35);
  (31, 29, [ShLin 0%nat 1 2; ShLin 1%nat 1 2], [ShLin 0%nat 1 2; ShLin 1%nat 1 0], Some QS_e38);
  (31, 30, [ShLin 0%nat 1 2; ShLin 1%nat 1 2], [ShLin 0%nat 1 2; ShLin 1%nat 1 2], Some QS_e39);
  (31, 31, [ShLin 0%nat 1 2; ShLin 1%nat 1 2], [ShLin 0%nat 1 2; ShLin 1%nat 1 4], Some (cN 1));
  (32, 32, [ShLin 0%nat 1 2; ShLin 1%nat 1 (-2)], [ShLin 0%nat 1 2; ShLin 1%nat 1 0], Some QS_e36);
  (33, 32, [ShLin 0%nat 1 2; ShLin 1%nat 1 0], [ShLin 0%nat 1 2; ShLin 1%nat 1 0], Some QS_e37);
  (33, 33, [ShLin 0%nat 1 2; ShLin 1%nat 1 0], [ShLin 0%nat 1 2; ShLin 1%nat 1 2], Some QS_e35);
  (34, 32, [ShLin 0%nat 1 2; ShLin 1%nat 1 2], [ShLin 0%nat 1 2; ShLin 1%nat 1 0], Some QS_e38);
  (34, 33, [ShLin 0%nat 1 2; ShLin 1%nat 1 2], [ShLin 0%nat 1 2; ShLin 1%nat 1 2], Some QS_e39);
  (34, 34, [ShLin 0%nat 1 2; ShLin 1%nat 1 2], [ShLin 0%nat 1 2; ShLin 1%nat 1 4], Some (cN 1));
  (35, 35, [ShLin 0%nat 1 2; ShLin 1%nat 1 (-2)], [ShLin 0%nat 1 2; ShLin 1%nat 1 0], Some QS_e36);
  (36, 35, [ShLin 0%nat 1 2; ShLin 1%nat 1 0], [ShLin 0%nat 1 2; ShLin 1%nat 1 0], Some QS_e37);
  (36, 36, [ShLin 0%nat 1 2; ShLin 1%nat 1 0], [ShLin 0%nat 1 2; ShLin 1%nat 1 2], Some QS_e35);
  (37, 35, [ShLin 0%nat 1 2; ShLin 1%nat 1 2], [ShLin 0%nat 1 2; ShLin 1%nat 1 0], Some QS_e38);
  (37, 36, [ShLin 0%nat 1 2; ShLin 1%nat 1 2], [ShLin 0%nat 1 2; ShLin 1%nat 1 2], Some QS_e39);
  (37, 37, [ShLin 0%nat 1 2; ShLin 1%nat 1 2], [ShLin 0%nat 1 2; ShLin 1%nat 1 4], Some (cN 1));
  (38, 38, [ShLin 0%nat 1 1; ShLin 1%nat 1 (-1)], [ShLin 0%nat 1 1; ShLin 1%nat 1 1], Some QS_e9);
  (39, 38, [ShLin 0%nat 1 1; ShLin 1%nat 1 1], [ShLin 0%nat 1 1; ShLin 1%nat 1 1], Some QS_e10);
  (39, 39, [ShLin 0%nat 1 1; ShLin 1%nat 1 1], [ShLin 0%nat 1 1; ShLin 1%nat 1 3], Some (cN 1));
  (40, 40, [ShLin 0%nat 1 1; ShLin 1%nat 1 (-1)], [ShLin 0%nat 1 1; ShLin 1%nat 1 1], Some QS_e9);
  (41, 40, [ShLin 0%nat 1 1; ShLin 1%nat 1 1], [ShLin 0%nat 1 1; ShLin 1%nat 1 1], Some QS_e10);
  (41, 41, [ShLin 0%nat 1 1; ShLin 1%nat 1 1], [ShLin 0%nat 1 1; ShLin 1%nat 1 3], Some (cN 1));
  (42, 42, [ShLin 0%nat 1 1; ShLin 1%nat 1 (-1)], [ShLin 0%nat 1 1; ShLin 1%nat 1 1], Some QS_e9);
  (43, 42, [ShLin 0%nat 1 1; ShLin 1%nat 1 1], [ShLin 0%nat 1 1; ShLin 1%nat 1 1], Some QS_e10);
  (43, 43, [ShLin 0%nat 1 1; ShLin 1%nat 1 1], [ShLin 0%nat 1 1; ShLin 1%nat 1 3], Some (cN 1));
  (44, 44, [ShLin 0%nat 1 1; ShLin 1%nat 1 (-1)], [ShLin 0%nat 1 1; ShLin 1%nat 1 1], Some QS_e9);
  (45, 44, [ShLin 0%nat 1 1; ShLin 1%nat 1 1], [ShLin 0%nat 1 1; ShLin 1%nat 1 1], Some QS_e10);
  (45, 45, [ShLin 0%nat 1 1; ShLin 1%nat 1 1], [ShLin 0%nat 1 1; ShLin 1%nat 1 3], Some (cN 1));
  (46, 46, [ShLin 0%nat 1 1; ShLin 1%nat 1 (-1)], [ShLin 0%nat 1 1; ShLin 1%nat 1 1], Some QS_e9);
  (47, 46, [ShLin 0%nat 1 1; ShLin 1%nat 1 1], [ShLin 0%nat 1 1; ShLin 1%nat 1 1], Some QS_e10);
  (47, 47, [ShLin 0%nat 1 1; ShLin 1%nat 1 1], [ShLin 0%nat 1 1; ShLin 1%nat 1 3], Some (cN 1));
  (48, 48, [ShLin 0%nat 1 1; ShLin 1%nat 1 (-1)], [ShLin 0%nat 1 1; ShLin 1%nat 1 1], Some QS_e9);
  (49, 48, [ShLin 0%nat 1 1; ShLin 1%nat 1 1], [ShLin 0%nat 1 1; ShLin 1%nat 1 1], Some QS_e10);
  (49, 49, [ShLin 0%nat 1 1; ShLin 1%nat 1 1], [ShLin 0%nat 1 1; ShLin 1%nat 1 3], Some (cN 1));
  (50, 50, [ShLin 0%nat 1 1; ShLin 1%nat 1 (-1)], [ShLin 0%nat 1 1; ShLin 1%nat 1 1], Some QS_e9);
  (51, 50, [ShLin 0%nat 1 1; ShLin 1%nat 1 1], [ShLin 0%nat 1 1; ShLin 1%nat 1 1], Some QS_e10);
  (51, 51, [ShLin 0%nat 1 1; ShLin 1%nat 1 1], [ShLin 0%nat 1 1; ShLin 1%nat 1 3], Some (cN 1));
  (52, 52, [ShLin 0%nat 1 1; ShLin 1%nat 1 (-1)], [ShLin 0%nat 1 1; ShLin 1%nat 1 1], Some QS_e9);
  (53, 52, [ShLin 0%nat 1 1; ShLin 1%nat 1 1], [ShLin 0%nat 1 1; ShLin 1%nat 1 1], Some QS_e10);
  (53, 53, [ShLin 0%nat 1 1; ShLin 1%nat 1 1], [ShLin 0%nat 1 1; ShLin 1%nat 1 3], Some (cN 1));
  (54, 54, [ShLin 0%nat 1 1; ShLin 1%nat 1 (-1)], [ShLin 0%nat 1 1; ShLin 1%nat 1 1], Some QS_e9);
  (55, 54, [ShLin 0%nat 1 1; ShLin 1%nat 1 1], [ShLin 0%nat 1 1; ShLin 1%nat 1 1], Some QS_e10);
  (55, 55, [ShLin 0%nat 1 1; ShLin 1%nat 1 1], [ShLin 0%nat 1 1; ShLin 1%nat 1 3], Some (cN 1));
  (56, 56, [ShLin 0%nat 1 1; ShLin 1%nat 1 (-1)], [ShLin 0%nat 1 1; ShLin 1%nat 1 1], Some QS_e9);
  (57, 56, [ShLin 0%nat 1 1; ShLin 1%nat 1 1], [ShLin 0%nat 1 1; ShLin 1%nat 1 1], Some QS_e10);
  (57, 57, [ShLin 0%nat 1 1; ShLin 1%nat 1 1], [ShLin 0%nat 1 1; ShLin 1%nat 1 3], Some (cN 1));
  (58, 58, [ShLin 0%nat 1 1; ShLin 1%nat 1 (-1)], [ShLin 0%nat 1 1; ShLin 1%nat 1 1], Some QS_e9);
  (59, 58, [ShLin 0%nat 1 1; ShLin 1%nat 1 1], [ShLin 0%nat 1 1; ShLin 1%nat 1 1], Some QS_e10);
  (59, 59, [ShLin 0%nat 1 1; ShLin 1%nat 1 1], [ShLin 0%nat 1 1; ShLin 1%nat 1 3], Some (cN 1));
  (60, 60, [ShLin 0%nat 1 1; ShLin 1%nat 1 (-1)], [ShLin 0%nat 1 1; ShLin 1%nat 1 1], Some QS_e9);
  (61, 60, [ShLin 0%nat 1 1; ShLin 1%nat 1 1], [ShLin 0%nat 1 1; ShLin 1%nat 1 1], Some QS_e10);
  (61, 61, [ShLin 0%nat 1 1; ShLin 1%nat 1 1], [ShLin 0%nat 1 1; ShLin 1%nat 1 3], Some (cN 1));
  (62, 62, [ShLin 0%nat 1 1; ShLin 1%nat 1 (-1)], [ShLin 0%nat 1 1; ShLin 1%nat 1 1], Some QS_e9);
  (63, 62, [ShLin 0%nat 1 1; ShLin 1%nat 1 1], [ShLin 0%nat 1 1; ShLin 1%nat 1 1], Some QS_e10);
  (63, 63, [ShLin 0%nat 1 1; ShLin 1%nat 1 1], [ShLin 0%nat 1 1; ShLin 1%nat 1 3], Some (cN 1));
  (64, 64, [ShLin 0%nat 1 1; ShLin 1%nat 1 (-1)], [ShLin 0%nat 1 1; ShLin 1%nat 1 1], Some QS_e9);
  (65, 64, [ShLin 0%nat 1 1; ShLin 1%nat 1 1], [ShLin 0%nat 1 1; ShLin 1%nat 1 1], Some QS_e10);
  (65, 65, [ShLin 0%nat 1 1; ShLin 1%nat 1 1], [ShLin 0%nat 1 1; ShLin 1%nat 1 3], Some (cN 1));
  (66, 66, [ShLin 0%nat 1 1; ShLin 1%nat 1 (-1)], [ShLin 0%nat 1 1; ShLin 1%nat 1 1], Some QS_e9);
  (67, 66, [ShLin 0%nat 1 1; ShLin 1%nat 1 1], [ShLin 0%nat 1 1; ShLin 1%nat 1 1], Some QS_e10);
  (67, 67, [ShLin 0%nat 1 1; ShLin 1%nat 1 1], [ShLin 0%nat 1 1; ShLin 1%nat 1 3], Some (cN 1));
  (68, 68, [ShLin 0%nat 1 1; ShLin 1%nat 1 (-1)], [ShLin 0%nat 1 1; ShLin 1%nat 1 1], Some QS_e9);
  (69, 68, [ShLin 0%nat 1 1; ShLin 1%nat 1 1], [ShLin 0%nat 1 1; ShLin 1%nat 1 1], Some QS_e10);
  (69, 69, [ShLin 0%nat 1 1; ShLin 1%nat 1 1], [ShLin 0%nat 1 1; ShLin 1%nat 1 3], Some (cN 1));
  (70, 70, [ShLin 0%nat 1 1; ShLin 1%nat 1 (-1)], [ShLin 0%nat 1 1; ShLin 1%nat 1 1], Some QS_e9);
  (71, 70, [ShLin 0%nat 1 1; ShLin 1%nat 1 1], [ShLin 0%nat 1 1; ShLin 1%nat 1 1], Some QS_e10);
  (71, 71, [ShLin 0%nat 1 1; ShLin 1%nat 1 1], [ShLin 0%nat 1 1; ShLin 1%nat 1 3], Some (cN 1));
  (72, 72, [ShLin 0%nat 1 1; ShLin 1%nat 1 (-1)], [ShLin 0%nat 1 1; ShLin 1%nat 1 1], Some QS_e9);
  (73, 72, [ShLin 0%nat 1 1; ShLin 1%nat 1 1], [ShLin 0%nat 1 1; ShLin 1%nat 1 1], Some QS_e10);
  (73, 73, [ShLin 0%nat 1 1; ShLin 1%nat 1 1], [ShLin 0%nat 1 1; ShLin 1%nat 1 3], Some (cN 1));
  (74, 74, [ShLin 0%nat 1 1; ShLin 1%nat 1 (-1)], [ShLin 0%nat 1 1; ShLin 1%nat 1 1], Some QS_e9);
  (75, 74, [ShLin 0%nat 1 1; ShLin 1%nat 1 1], [ShLin 0%nat 1 1; ShLin 1%nat 1 1], Some QS_e10);
  (75, 75, [ShLin 0%nat 1 1; ShLin 1%nat 1 1], [ShLin 0%nat 1 1; ShLin 1%nat 1 3], Some (cN 1));
  (76, 76, [ShLin 0%nat 1 1; ShLin 1%nat 1 (-1)], [ShLin 0%nat 1 1; ShLin 1%nat 1 1], Some QS_e9);
  (77, 76, [ShLin 0%nat 1 1; ShLin 1%nat 1 1], [ShLin 0%nat 1 1; ShLin 1%nat 1 1], Some QS_e10);
  (77, 77, [ShLin 0%nat 1 1; ShLin 1%nat 1 1], [ShLin 0%nat 1 1; ShLin 1%nat 1 3], Some (cN 1));
  (78, 78, [ShLin 0%nat 1 1; ShLin 1%nat 1 (-3)], [ShLin 0%nat 1 1; ShLin 1%nat 1 (-1)], Some QS_e121);
  (79, 78, [ShLin 0%nat 1 1; ShLin 1%nat 1 (-1)], [ShLin 0%nat 1 1; ShLin 1%nat 1 (-1)], Some QS_e122);
  (79, 79, [ShLin 0%nat 1 1; ShLin 1%nat 1 (-1)], [ShLin 0%nat 1 1; ShLin 1%nat 1 1], Some QS_e123);
  (80, 78, [ShLin 0%nat 1 1; ShLin 1%nat 1 1], [ShLin 0%nat 1 1; ShLin 1%nat 1 (-1)], Some QS_e124);
  (80, 79, [ShLin 0%nat 1 1; ShLin 1%nat 1 1], [ShLin 0%nat 1 1; ShLin 1%nat 1 1], Some QS_e125);
  (80, 80, [ShLin 0%nat 1 1; ShLin 1%nat 1 1], [ShLin 0%nat 1 1; ShLin 1%nat 1 3], Some QS_e126);
  (81, 79, [ShLin 0%nat 1 1; ShLin 1%nat 1 3], [ShLin 0%nat 1 1; ShLin 1%nat 1 1], Some QS_e127);
  (81, 80, [ShLin 0%nat 1 1; ShLin 1%nat 1 3], [ShLin 0%nat 1 1; ShLin 1%nat 1 3], Some QS_e128);
  (81, 81, [ShLin 0%nat 1 1; ShLin 1%nat 1 3], [ShLin 0%nat 1 1; ShLin 1%nat 1 5], Some (cN 1));
  (82, 82, [ShLin 0%nat 1 1; ShLin 1%nat 1 (-3)], [ShLin 0%nat 1 1; ShLin 1%nat 1 (-1)], Some QS_e121);
  (83, 82, [ShLin 0%nat 1 1; ShLin 1%nat 1 (-1)], [ShLin 0%nat 1 1; ShLin 1%nat 1 (-1)], Some QS_e122);
  (83, 83, [ShLin 0%nat 1 1; ShLin 1%nat 1 (-1)], [ShLin 0%nat 1 1; ShLin 1%nat 1 1], Some QS_e123);
  (84, 82, [ShLin 0%nat 1 1; ShLin 1%nat 1 1], [ShLin 0%nat 1 1; ShLin 1%nat 1 (-1)], Some QS_e124);
  (84, 83, [ShLin 0%nat 1 1; ShLin 1%nat 1 1], [ShLin 0%nat 1 1; ShLin 1%nat 1 1], Some QS_e125);
  (84, 84, [ShLin 0%nat 1 1; ShLin 1%nat 1 1], [ShLin 0%nat 1 1; ShLin 1%nat 1 3], Some QS_e126);
  (85, 83, [ShLin 0%nat 1 1; ShLin 1%nat 1 3], [ShLin 0%nat 1 1; ShLin 1%nat 1 1], Some QS_e127);
  (85, 84, [ShLin 0%nat 1 1; ShLin 1%nat 1 3], [ShLin 0%nat 1 1; ShLin 1%nat 1 3], Some QS_e128);
  (85, 85, [ShLin 0%nat 1 1; ShLin 1%nat 1 3], [ShLin 0%nat 1 1; ShLin 1%nat 1 5], Some (cN 1));
  (86, 86, [ShLin 0%nat 1 1; ShLin 1%nat 1 (-3)], [ShLin 0%nat 1 1; ShLin 1%nat 1 (-1)], Some QS_e121);
  (87, 86, [ShLin 0%nat 1 1; ShLin 1%nat 1 (-1)], [ShLin 0%nat 1 1; ShLin 1%nat 1 (-1)], Some QS_e122);
  (87, 87, [ShLin 0%nat 1 1; ShLin 1%nat 1 (-1)], [ShLin 0%nat 1 1; ShLin 1%nat 1 1], Some QS_e123);
  (88, 86, [ShLin 0%nat 1 1; ShLin 1%nat 1 1], [ShLin 0%nat 1 1; ShLin 1%nat 1 (-1)], Some QS_e124);
  (88, 87, [ShLin 0%nat 1 1; ShLin 1%nat 1 1], [ShLin 0%nat 1 1; ShLin 1%nat 1 1], Some QS_e125);
  (88, 88, [ShLin 0%nat 1 1; ShLin 1%nat 1 1], [ShLin 0%nat 1 1; ShLin 1%nat 1 3], Some QS_e126);
  (89, 87, [ShLin 0%nat 1 1; ShLin 1%nat 1 3], [ShLin 0%nat 1 1; ShLin 1%nat 1 1], Some QS_e127);
  (89, 88, [ShLin 0%nat 1 1; ShLin 1%nat 1 3], [ShLin 0%nat 1 1; ShLin 1%nat 1 3], Some QS_e128);
  (89, 89, [ShLin 0%nat 1 1; ShLin 1%nat 1 3], [ShLin 0%nat 1 1; ShLin 1%nat 1 5], Some (cN 1));
  (90, 90, [ShLin 0%nat 1 1; ShLin 1%nat 1 (-3)], [ShLin 0%nat 1 1; ShLin 1%nat 1 (-1)], Some QS_e121);
  (91, 90, [ShLin 0%nat 1 1; ShLin 1%nat 1 (-1)], [ShLin 0%nat 1 1; ShLin 1%nat 1 (-1)], Some QS_e122);
  (91, 91, [ShLin 0%nat 1 1; ShLin 1%nat 1 (-1)], [ShLin 0%nat 1 1; ShLin 1%nat 1 1], Some QS_e123);
  (92, 90, [ShLin 0%nat 1 1; ShLin 1%nat 1 1], [ShLin 0%nat 1 1; ShLin 1%nat 1 (-1)], Some QS_e124);
  (92, 91, [ShLin 0%nat 1 1; ShLin 1%nat 1 1], [ShLin 0%nat 1 1; ShLin 1%nat 1 1], Some QS_e125);
  (92, 92, [ShLin 0%nat 1 1; ShLin 1%nat 1 1], [ShLin 0%nat 1 1; ShLin 1%nat 1 3], Some QS_e126);
  (93, 91, [ShLin 0%nat 1 1; ShLin 1%nat 1 3], [ShLin 0%nat 1 1; ShLin 1%nat 1 1], Some QS_e127);
  (93, 92, [ShLin 0%nat 1 1; ShLin 1%nat 1 3], [ShLin 0%nat 1 1; ShLin 1%nat 1 3], Some QS_e128);
  (93, 93, [ShLin 0%nat 1 1; ShLin 1%nat 1 3], [ShLin 0%nat 1 1; ShLin 1%nat 1 5], Some (cN 1));
  (94, 94, [ShLin 0%nat 1 0; ShLin 1%nat 1 0], [ShLin 0%nat 1 0; ShLin 1%nat 1 2], Some (cN 1));
  (95, 95, [ShLin 0%nat 1 0; ShLin 1%nat 1 0], [ShLin 0%nat 1 0; ShLin 1%nat 1 2], Some (cN 1));
  (96, 96, [ShLin 0%nat 1 0; ShLin 1%nat 1 0], [ShLin 0%nat 1 0; ShLin 1%nat 1 2], Some (cN 1));
  (97, 97, [ShLin 0%nat 1 0; ShLin 1%nat 1 0], [ShLin 0%nat 1 0; ShLin 1%nat 1 2], Some (cN 1));
  (98, 98, [ShLin 0%nat 1 0; ShLin 1%nat 1 0], [ShLin 0%nat 1 0; ShLin 1%nat 1 2], Some (cN 1));
  (99, 99, [ShLin 0%nat 1 0; ShLin 1%nat 1 0], [ShLin 0%nat 1 0; ShLin 1%nat 1 2], Some (cN 1));
  (100, 100, [ShLin 0%nat 1 0; ShLin 1%nat 1 0], [ShLin 0%nat 1 0; ShLin 1%nat 1 2], Some (cN 1));
  (101, 101, [ShLin 0%nat 1 0; ShLin 1%nat 1 0], [ShLin 0%nat 1 0; ShLin 1%nat 1 2], Some (cN 1));
  (102, 102, [ShLin 0%nat 1 0; ShLin 1%nat 1 0], [ShLin 0%nat 1 0; ShLin 1%nat 1 2], Some (cN 1));
  (103, 103, [ShLin 0%nat 1 0; ShLin 1%nat 1 0], [ShLin 0%nat 1 0; ShLin 1%nat 1 2], Some (cN 1));
  (104, 104, [ShLin 0%nat 1 0; ShLin 1%nat 1 0], [ShLin 0%nat 1 0; ShLin 1%nat 1 2], Some (cN 1));
  (105, 105, [ShLin 0%nat 1 0; ShLin 1%nat 1 0], [ShLin 0%nat 1 0; ShLin 1%nat 1 2], Some (cN 1));
  (106, 106, [ShLin 0%nat 1 0; ShLin 1%nat 1 0], [ShLin 0%nat 1 0; ShLin 1%nat 1 2], Some (cN 1));
  (107, 107, [ShLin 0%nat 1 0; ShLin 1%nat 1 0], [ShLin 0%nat 1 0; ShLin 1%nat 1 2], Some (cN 1));
  (108, 108, [ShLin 0%nat 1 0; ShLin 1%nat 1 0], [ShLin 0%nat 1 0; ShLin 1%nat 1 2], Some (cN 1));
  (109, 109, [ShLin 0%nat 1 0; ShLin 1%nat 1 0], [ShLin 0%nat 1 0; ShLin 1%nat 1 2], Some (cN 1));
  (110, 110, [ShLin 0%nat 1 0; ShLin 1%nat 1 0], [ShLin 0%nat 1 0; ShLin 1%nat 1 2], Some (cN 1));
  (111, 111, [ShLin 0%nat 1 0; ShLin 1%nat 1 0], [ShLin 0%nat 1 0; ShLin 1%nat 1 2], Some (cN 1));
  (112, 112, [ShLin 0%nat 1 0; ShLin 1%nat 1 0], [ShLin 0%nat 1 0; ShLin 1%nat 1 2], Some (cN 1));
  (113, 113, [ShLin 0%nat 1 0; ShLin 1%nat 1 0], [ShLin 0%nat 1 0; ShLin 1%nat 1 2], Some (cN 1));
  (114, 114, [ShLin 0%nat 1 0; ShLin 1%nat 1 (-2)], [ShLin 0%nat 1 0; ShLin 1%nat 1 0], Some QS_e36);
  (115, 114, [ShLin 0%nat 1 0; ShLin 1%nat 1 0], [ShLin 0%nat 1 0; ShLin 1%nat 1 0], Some QS_e37);
  (115, 115, [ShLin 0%nat 1 0; ShLin 1%nat 1 0], [ShLin 0%nat 1 0; ShLin 1%nat 1 2], Some QS_e35);
  (116, 114, [ShLin 0%nat 1 0; ShLin 1%nat 1 2], [ShLin 0%nat 1 0; ShLin 1%nat 1 0], Some QS_e38);
  (116, 115, [ShLin 0%nat 1 0; ShLin 1%nat 1 2], [ShLin 0%nat 1 0; ShLin 1%nat 1 2], Some QS_e39);
  (116, 116, [ShLin 0%nat 1 0; ShLin 1%nat 1 2], [ShLin 0%nat 1 0; ShLin 1%nat 1 4], Some (cN 1));
  (117, 117, [ShLin 0%nat 1 0; ShLin 1%nat 1 (-2)], [ShLin 0%nat 1 0; ShLin 1%nat 1 0], Some QS_e36);
  (118, 117, [ShLin 0%nat 1 0; ShLin 1%nat 1 0], [ShLin 0%nat 1 0; ShLin 1%nat 1 0], Some QS_e37);
  (118, 118, [ShLin 0%nat 1 0; ShLin 1%nat 1 0], [ShLin 0%nat 1 0; ShLin 1%nat 1 2], Some QS_e35);
  (119, 117, [ShLin 0%nat 1 0; ShLin 1%nat 1 2], [ShLin 0%nat 1 0; ShLin 1%nat 1 0], Some QS_e38);
  (119, 118, [ShLin 0%nat 1 0; ShLin 1%nat 1 2], [ShLin 0%nat 1 0; ShLin 1%nat 1 2], Some QS_e39);
  (119, 119, [ShLin 0%nat 1 0; ShLin 1%nat 1 2], [ShLin 0%nat 1 0; ShLin 1%nat 1 4], Some (cN 1));
  (120, 120, [ShLin 0%nat 1 0; ShLin 1%nat 1 (-2)], [ShLin 0%nat 1 0; ShLin 1%nat 1 0], Some QS_e36);
  (121, 120, [ShLin 0%nat 1 0; ShLin 1%nat 1 0], [ShLin 0%nat 1 0; ShLin 1%nat 1 0], Some QS_e37);
  (121, 121, [ShLin 0%nat 1 0; ShLin 1%nat 1 0], [ShLin 0%nat 1 0; ShLin 1%nat 1 2], Some QS_e35);
  (122, 120, [ShLin 0%nat 1 0; ShLin 1%nat 1 2], [ShLin 0%nat 1 0; ShLin 1%nat 1 0], Some QS_e38);
  (122, 121, [ShLin 0%nat 1 0; ShLin 1%nat 1 2], [ShLin 0%nat 1 0; ShLin 1%nat 1 2], Some QS_e39);
  (122, 122, [ShLin 0%nat 1 0; ShLin 1%nat 1 2], [ShLin 0%nat 1 0; ShLin 1%nat 1 4], Some (cN 1));
  (123, 123, [ShLin 0%nat 1 0; ShLin 1%nat 1 (-2)], [ShLin 0%nat 1 0; ShLin 1%nat 1 0], Some QS_e36);
  (124, 123, [ShLin 0%nat 1 0; ShLin 1%nat 1 0], [ShLin 0%nat 1 0; ShLin 1%nat 1 0], Some QS_e37);
  (124, 124, [ShLin 0%nat 1 0; ShLin 1%nat 1 0], [ShLin 0%nat 1 0; ShLin 1%nat 1 2], Some QS_e35);
  (125, 123, [ShLin 0%nat 1 0; ShLin 1%nat 1 2], [ShLin 0%nat 1 0; ShLin 1%nat 1 0], Some QS_e38);
  (125, 124, [ShLin 0%nat 1 0; ShLin 1%nat 1 2], [ShLin 0%nat 1 0; ShLin 1%nat 1 2], Some QS_e39);
  (125, 125, [ShLin 0%nat 1 0; ShLin 1%nat 1 2], [ShLin 0%nat 1 0; ShLin 1%nat 1 4], Some (cN 1));
  (126, 126, [ShLin 0%nat 1 0; ShLin 1%nat 1 (-2)], [ShLin 0%nat 1 0; ShLin 1%nat 1 0], Some QS_e36);
  (127, 126, [ShLin 0%nat 1 0; ShLin 1%nat 1 0], [ShLin 0%nat 1 0; ShLin 1%nat 1 0], Some QS_e37);
  (127, 127, [ShLin 0%nat 1 0; ShLin 1%nat 1 0], [ShLin 0%nat 1 0; ShLin 1%nat 1 2], Some QS_e35);
  (128, 126, [ShLin 0%nat 1 0; ShLin 1%nat 1 2], [ShLin 0%nat 1 0; ShLin 1%nat 1 0], Some QS_e38);
  (128, 127, [ShLin 0%nat 1 0; ShLin 1%nat 1 2], [ShLin 0%nat 1 0; ShLin 1%nat 1 2], Some QS_e39);
  (128, 128, [ShLin 0%nat 1 0; ShLin 1%nat 1 2], [ShLin 0%nat 1 0; ShLin 1%nat 1 4], Some (cN 1));
  (129, 129, [ShLin 0%nat 1 0; ShLin 1%nat 1 (-2)], [ShLin 0%nat 1 0; ShLin 1%nat 1 0], Some QS_e36);
  (130, 129, [ShLin 0%nat 1 0; ShLin 1%nat 1 0], [ShLin 0%nat 1 0; ShLin 1%nat 1 0], Some QS_e37);
  (130, 130, [ShLin 0%nat 1 0; ShLin 1%nat 1 0], [ShLin 0%nat 1 0; ShLin 1%nat 1 2], Some QS_e35);
  (131, 129, [ShLin 0%nat 1 0; ShLin 1%nat 1 2], [ShLin 0%nat 1 0; ShLin 1%nat 1 0], Some QS_e38);
  (131, 130, [ShLin 0%nat 1 0; ShLin 1%nat 1 2], [ShLin 0%nat 1 0; ShLin 1%nat 1 2], Some QS_e39);
  (131, 131, [ShLin 0%nat 1 0; ShLin 1%nat 1 2], [ShLin 0%nat 1 0; ShLin 1%nat 1 4], Some (cN 1));
  (132, 132, [ShLin 0%nat 1 0; ShLin 1%nat 1 (-2)], [ShLin 0%nat 1 0; ShLin 1%nat 1 0], Some QS_e36);
  (133, 132, [ShLin 0%nat 1 0; ShLin 1%nat 1 0], [ShLin 0%nat 1 0; ShLin 1%nat 1 0], Some QS_e37);
  (133, 133, [ShLin 0%nat 1 0; ShLin 1%nat 1 0], [ShLin 0%nat 1 0; ShLin 1%nat 1 2], Some QS_e35);
  (134, 132, [ShLin 0%nat 1 0; ShLin 1%nat 1 2], [ShLin 0%nat 1 0; ShLin 1%nat 1 0], Some QS_e38);
  (134, 133, [ShLin 0%nat 1 0; ShLin 1%nat 1 2], [ShLin 0%nat 1 0; ShLin 1%nat 1 2], Some QS_e39);
  (134, 134, [ShLin 0%nat 1 0; ShLin 1%nat 1 2], [ShLin 0%nat 1 0; ShLin 1%nat 1 4], Some (cN 1));
  (135, 135, [ShLin 0%nat 1 0; ShLin 1%nat 1 (-2)], [ShLin 0%nat 1 0; ShLin 1%nat 1 0], Some QS_e36);
  (136, 135, [ShLin 0%nat 1 0; ShLin 1%nat 1 0], [ShLin 0%nat 1 0; ShLin 1%nat 1 0], Some QS_e37);
  (136, 136, [ShLin 0%nat 1 0; ShLin 1%nat 1 0], [ShLin 0%nat 1 0; ShLin 1%nat 1 2], Some QS_e35);
  (137, 135, [ShLin 0%nat 1 0; ShLin 1%nat 1 2], [ShLin 0%nat 1 0; ShLin 1%nat 1 0], Some QS_e38);
  (137, 136, [ShLin 0%nat 1 0; ShLin 1%nat 1 2], [ShLin 0%nat 1 0; ShLin 1%nat 1 2], Some QS_e39);
  (137, 137, [ShLin 0%nat 1 0; ShLin 1%nat 1 2], [ShLin 0%nat 1 0; ShLin 1%nat 1 4], Some (cN 1));
  (138, 138, [ShLin 0%nat 1 0; ShLin 1%nat 1 (-2)], [ShLin 0%nat 1 0; ShLin 1%nat 1 0], Some QS_e36);
  (139, 138, [ShLin 0%nat 1 0; ShLin 1%nat 1 0], [ShLin 0%nat 1 0; ShLin 1%nat 1 0], Some QS_e37);
  (139, 139, [ShLin 0%nat 1 0; ShLin 1%nat 1 0], [ShLin 0%nat 1 0; ShLin 1%nat 1 2], Some QS_e35);
  (140, 138, [ShLin 0%nat 1 0; ShLin 1%nat 1 2], [ShLin 0%nat 1 0; ShLin 1%nat 1 0], Some QS_e38);
  (140, 139, [ShLin 0%nat 1 0; ShLin 1%nat 1 2], [ShLin 0%nat 1 0; ShLin 1%nat 1 2], Some QS_e39);
  (140, 140, [ShLin 0%nat 1 0; ShLin 1%nat 1 2], [ShLin 0%nat 1 0; ShLin 1%nat 1 4], Some (cN 1));
  (141, 141, [ShLin 0%nat 1 0; ShLin 1%nat 1 (-2)], [ShLin 0%nat 1 0; ShLin 1%nat 1 0], Some QS_e36);
  (142, 141, [ShLin 0%nat 1 0; ShLin 1%nat 1 0], [ShLin 0%nat 1 0; ShLin 1%nat 1 0], Some QS_e37);
  (142, 142, [ShLin 0%nat 1 0; ShLin 1%nat 1 0], [ShLin 0%nat 1 0; ShLin 1%nat 1 2], Some QS_e35);
  (143, 141, [ShLin 0%nat 1 0; ShLin 1%nat 1 2], [ShLin 0%nat 1 0; ShLin 1%nat 1 0], Some QS_e38);
  (143, 142, [ShLin 0%nat 1 0; ShLin 1%nat 1 2], [ShLin 0%nat 1 0; ShLin 1%nat 1 2], Some QS_e39);
  (143, 143, [ShLin 0%nat 1 0; ShLin 1%nat 1 2], [ShLin 0%nat 1 0; ShLin 1%nat 1 4], Some (cN 1));
  (144, 144, [ShLin 0%nat 1 0; ShLin 1%nat 1 (-2)], [ShLin 0%nat 1 0; ShLin 1%nat 1 0], Some QS_e36);
  (145, 144, [ShLin 0%nat 1 0; ShLin 1%nat 1 0], [ShLin 0%nat 1 0; ShLin 1%nat 1 0], Some QS_e37);
  (145, 145, [ShLin 0%nat 1 0; ShLin 1%nat 1 0], [ShLin 0%nat 1 0; ShLin 1%nat 1 2], Some QS_e35);
  (146, 144, [ShLin 0%nat 1 0; ShLin 1%nat 1 2], [ShLin 0%nat 1 0; ShLin 1%nat 1 0], Some QS_e38);
  (146, 145, [ShLin 0%nat 1 0; ShLin 1%nat 1 2], [ShLin 0%nat 1 0; ShLin 1%nat 1 2], Some QS_e39);
  (146, 146, [ShLin 0%nat 1 0; ShLin 1%nat 1 2], [ShLin 0%nat 1 0; ShLin 1%nat 1 4], Some (cN 1));
  (147, 147, [ShLin 0%nat 1 0; ShLin 1%nat 1 (-2)], [ShLin 0%nat 1 0; ShLin 1%nat 1 0], Some QS_e36);
  (148, 147, [ShLin 0%nat 1 0; ShLin 1%nat 1 0], [ShLin 0%nat 1 0; ShLin 1%nat 1 0], Some QS_e37);
  (148, 148, [ShLin 0%nat 1 0; ShLin 1%nat 1 0], [ShLin 0%nat 1 0; ShLin 1%nat 1 2], Some QS_e35);
  (149, 147, [ShLin 0%nat 1 0; ShLin 1%nat 1 2], [ShLin 0%nat 1 0; ShLin 1%nat 1 0], Some QS_e38);
  (149, 148, [ShLin 0%nat 1 0; ShLin 1%nat 1 2], [ShLin 0%nat 1 0; ShLin 1%nat 1 2], Some QS_e39);
  (149, 149, [ShLin 0%nat 1 0; ShLin 1%nat 1 2], [ShLin 0%nat 1 0; ShLin 1%nat 1 4], Some (cN 1));
  (150, 150, [ShLin 0%nat 1 0; ShLin 1%nat 1 (-2)], [ShLin 0%nat 1 0; ShLin 1%nat 1 0], Some QS_e36);
  (151, 150, [ShLin 0%nat 1 0; ShLin 1%nat 1 0], [ShLin 0%nat 1 0; ShLin 1%nat 1 0], Some QS_e37);
  (151, 151, [ShLin 0%nat 1 0; ShLin 1%nat 1 0], [ShLin 0%nat 1 0; ShLin 1%nat 1 2], Some QS_e35);
  (152, 150, [ShLin 0%nat 1 0; ShLin 1%nat 1 2], [ShLin 0%nat 1 0; ShLin 1%nat 1 0], Some QS_e38);
  (152, 151, [ShLin 0%nat 1 0; ShLin 1%nat 1 2], [ShLin 0%nat 1 0; ShLin 1%nat 1 2], Some QS_e39);
  (152, 152, [ShLin 0%nat 1 0; ShLin 1%nat 1 2], [ShLin 0%nat 1 0; ShLin 1%nat 1 4], Some (cN 1));
  (153, 153, [ShLin 0%nat 1 0; ShLin 1%nat 1 (-2)], [ShLin 0%nat 1 0; ShLin 1%nat 1 0], Some QS_e36);
  (154, 153, [ShLin 0%nat 1 0; ShLin 1%nat 1 0], [ShLin 0%nat 1 0; ShLin 1%nat 1 0], Some QS_e37);
  (154, 154, [ShLin 0%nat 1 0; ShLin 1%nat 1 0], [ShLin 0%nat 1 0; ShLin 1%nat 1 2], Some QS_e35);
  (155, 153, [ShLin 0%nat 1 0; ShLin 1%nat 1 2], [ShLin 0%nat 1 0; ShLin 1%nat 1 0], Some QS_e38);
  (155, 154, [ShLin 0%nat 1 0; ShLin 1%nat 1 2], [ShLin 0%nat 1 0; ShLin 1%nat 1 2], Some QS_e39);
  (155, 155, [ShLin 0%nat 1 0; ShLin 1%nat 1 2], [ShLin 0%nat 1 0; ShLin 1%nat 1 4], Some (cN 1));
  (156, 156, [ShLin 0%nat 1 0; ShLin 1%nat 1 (-2)], [ShLin 0%nat 1 0; ShLin 1%nat 1 0], Some QS_e36);
  (157, 156, [ShLin 0%nat 1 0; ShLin 1%nat 1 0], [ShLin 0%nat 1 0; ShLin 1%nat 1 0], Some QS_e37);
  (157, 157, [ShLin 0%nat 1 0; ShLin 1%nat 1 0], [ShLin 0%nat 1 0; ShLin 1%nat 1 2], Some QS_e35);
  (158, 156, [ShLin 0%nat 1 0; ShLin 1%nat 1 2], [ShLin 0%nat 1 0; ShLin 1%nat 1 0], Some QS_e38);
  (158, 157, [ShLin 0%nat 1 0; ShLin 1%nat 1 2], [ShLin 0%nat 1 0; ShLin 1%nat 1 2], Some QS_e39);
  (158, 158, [ShLin 0%nat 1 0; ShLin 1%nat 1 2], [ShLin 0%nat 1 0; ShLin 1%nat 1 4], Some (cN 1));
  (159, 159, [ShLin 0%nat 1 0; ShLin 1%nat 1 (-4)], [ShLin 0%nat 1 0; ShLin 1%nat 1 (-2)], Some QS_e340);
  (160, 159, [ShLin 0%nat 1 0; ShLin 1%nat 1 (-2)], [ShLin 0%nat 1 0; ShLin 1%nat 1 (-2)], Some QS_e341);
  (160, 160, [ShLin 0%nat 1 0; ShLin 1%nat 1 (-2)], [ShLin 0%nat 1 0; ShLin 1%nat 1 0], Some QS_e342);
  (161, 159, [ShLin 0%nat 1 0; ShLin 1%nat 1 0], [ShLin 0%nat 1 0; ShLin 1%nat 1 (-2)], Some QS_e343);
  (161, 160, [ShLin 0%nat 1 0; ShLin 1%nat 1 0], [ShLin 0%nat 1 0; ShLin 1%nat 1 0], Some QS_e344);
  (161, 161, [ShLin 0%nat 1 0; ShLin 1%nat 1 0], [ShLin 0%nat 1 0; ShLin 1%nat 1 2], Some QS_e345);
  (162, 160, [ShLin 0%nat 1 0; ShLin 1%nat 1 2], [ShLin 0%nat 1 0; ShLin 1%nat 1 0], Some QS_e346);
  (162, 161, [ShLin 0%nat 1 0; ShLin 1%nat 1 2], [ShLin 0%nat 1 0; ShLin 1%nat 1 2], Some QS_e347);
  (162, 162, [ShLin 0%nat 1 0; ShLin 1%nat 1 2], [ShLin 0%nat 1 0; ShLin 1%nat 1 4], Some QS_e348);
  (163, 161, [ShLin 0%nat 1 0; ShLin 1%nat 1 4], [ShLin 0%nat 1 0; ShLin 1%nat 1 2], Some QS_e349);
  (163, 162, [ShLin 0%nat 1 0; ShLin 1%nat 1 4], [ShLin 0%nat 1 0; ShLin 1%nat 1 4], Some QS_e350);
  (163, 163, [ShLin 0%nat 1 0; ShLin 1%nat 1 4], [ShLin 0%nat 1 0; ShLin 1%nat 1 6], Some (cN 1));
  (164, 164, [ShLin 0%nat 1 (-1); ShLin 1%nat 1 (-1)], [ShLin 0%nat 1 (-1); ShLin 1%nat 1 1], Some QS_e9);
  (165, 164, [ShLin 0%nat 1 (-1); ShLin 1%nat 1 1], [ShLin 0%nat 1 (-1); ShLin 1%nat 1 1], Some QS_e10);
  (165, 165, [ShLin 0%nat 1 (-1); ShLin 1%nat 1 1], [ShLin 0%nat 1 (-1); ShLin 1%nat 1 3], Some (cN 1));
  (166, 166, [ShLin 0%nat 1 (-1); ShLin 1%nat 1 (-1)], [ShLin 0%nat 1 (-1); ShLin 1%nat 1 1], Some QS_e9);
  (167, 166, [ShLin 0%nat 1 (-1); ShLin 1%nat 1 1], [ShLin 0%nat 1 (-1); ShLin 1%nat 1 1], Some QS_e10);
  (167, 167, [ShLin 0%nat 1 (-1); ShLin 1%nat 1 1], [ShLin 0%nat 1 (-1); ShLin 1%nat 1 3], Some (cN 1));
  (168, 168, [ShLin 0%nat 1 (-1); ShLin 1%nat 1 (-1)], [ShLin 0%nat 1 (-1); ShLin 1%nat 1 1], Some QS_e9);
  (169, 168, [ShLin 0%nat 1 (-1); ShLin 1%nat 1 1], [ShLin 0%nat 1 (-1); ShLin 1%nat 1 1], Some QS_e10);
  (169, 169, [ShLin 0%nat 1 (-1); ShLin 1%nat 1 1], [ShLin 0%nat 1 (-1); ShLin 1%nat 1 3], Some (cN 1));
  (170, 170, [ShLin 0%nat 1 (-1); ShLin 1%nat 1 (-1)], [ShLin 0%nat 1 (-1); ShLin 1%nat 1 1], Some QS_e9);
  (171, 170, [ShLin 0%nat 1 (-1); ShLin 1%nat 1 1], [ShLin 0%nat 1 (-1); ShLin 1%nat 1 1], Some QS_e10);
  (171, 171, [ShLin 0%nat 1 (-1); ShLin 1%nat 1 1], [ShLin 0%nat 1 (-1); ShLin 1%nat 1 3], Some (cN 1));
  (172, 172, [ShLin 0%nat 1 (-1); ShLin 1%nat 1 (-1)], [ShLin 0%nat 1 (-1); ShLin 1%nat 1 1], Some QS_e9);
  (173, 172, [ShLin 0%nat 1 (-1); ShLin 1%nat 1 1], [ShLin 0%nat 1 (-1); ShLin 1%nat 1 1], Some QS_e10);
  (173, 173, [ShLin 0%nat 1 (-1); ShLin 1%nat 1 1], [ShLin 0%nat 1 (-1); ShLin 1%nat 1 3], Some (cN 1));
  (174, 174, [ShLin 0%nat 1 (-1); ShLin 1%nat 1 (-1)], [ShLin 0%nat 1 (-1); ShLin 1%nat 1 1], Some QS_e9);
  (175, 174, [ShLin 0%nat 1 (-1); ShLin 1%nat 1 1], [ShLin 0%nat 1 (-1); ShLin 1%nat 1 1], Some QS_e10);
  (175, 175, [ShLin 0%nat 1 (-1); ShLin 1%nat 1 1], [ShLin 0%nat 1 (-1); ShLin 1%nat 1 3], Some (cN 1));
  (176, 176, [ShLin 0%nat 1 (-1); ShLin 1%nat 1 (-1)], [ShLin 0%nat 1 (-1); ShLin 1%nat 1 1], Some QS_e9);
  (177, 176, [ShLin 0%nat 1 (-1); ShLin 1%nat 1 1], [ShLin 0%nat 1 (-1); ShLin 1%nat 1 1], Some QS_e10);
  (177, 177, [ShLin 0%nat 1 (-1); ShLin 1%nat 1 1], [ShLin 0%nat 1 (-1); ShLin 1%nat 1 3], Some (cN 1));
  (178, 178, [ShLin 0%nat 1 (-1); ShLin 1%nat 1 (-1)], [ShLin 0%nat 1 (-1); ShLin 1%nat 1 1], Some QS_e9);
  (179, 178, [ShLin 0%nat 1 (-1); ShLin 1%nat 1 1], [ShLin 0%nat 1 (-1); ShLin 1%nat 1 1], Some QS_e10);
  (179, 179, [ShLin 0%nat 1 (-1); ShLin 1%nat 1 1], [ShLin 0%nat 1 (-1); ShLin 1%nat 1 3], Some (cN 1));
  (180, 180, [ShLin 0%nat 1 (-1); ShLin 1%nat 1 (-1)], [ShLin 0%nat 1 (-1); ShLin 1%nat 1 1], Some QS_e9);
  (181, 180, [ShLin 0%nat 1 (-1); ShLin 1%nat 1 1], [ShLin 0%nat 1 (-1); ShLin 1%nat 1 1], Some QS_e10);
  (181, 181, [ShLin 0%nat 1 (-1); ShLin 1%nat 1 1], [ShLin 0%nat 1 (-1); ShLin 1%nat 1 3], Some (cN 1));
  (182, 182, [ShLin 0%nat 1 (-1); ShLin 1%nat 1 (-1)], [ShLin 0%nat 1 (-1); ShLin 1%nat 1 1], Some QS_e9);
  (183, 182, [ShLin 0%nat 1 (-1); ShLin 1%nat 1 1], [ShLin 0%nat 1 (-1); ShLin 1%nat 1 1], Some QS_e10);
  (183, 183, [ShLin 0%nat 1 (-1); ShLin 1%nat 1 1], [ShLin 0%nat 1 (-1); ShLin 1%nat 1 3], Some (cN 1));
  (184, 184, [ShLin 0%nat 1 (-1); ShLin 1%nat 1 (-1)], [ShLin 0%nat 1 (-1); ShLin 1%nat 1 1], Some QS_e9);
  (185, 184, [ShLin 0%nat 1 (-1); ShLin 1%nat 1 1], [ShLin 0%nat 1 (-1); ShLin 1%nat 1 1], Some QS_e10);
  (185, 185, [ShLin 0%nat 1 (-1); ShLin 1%nat 1 1], [ShLin 0%nat 1 (-1); ShLin 1%nat 1 3], Some (cN 1));
  (186, 186, [ShLin 0%nat 1 (-1); ShLin 1%nat 1 (-1)], [ShLin 0%nat 1 (-1); ShLin 1%nat 1 1], Some QS_e9);
  (187, 186, [ShLin 0%nat 1 (-1); ShLin 1%nat 1 1], [ShLin 0%nat 1 (-1); ShLin 1%nat 1 1], Some QS_e10);
  (187, 187, [ShLin 0%nat 1 (-1); ShLin 1%nat 1 1], [ShLin 0%nat 1 (-1); ShLin 1%nat 1 3], Some (cN 1));
  (188, 188, [ShLin 0%nat 1 (-1); ShLin 1%nat 1 (-1)], [ShLin 0%nat 1 (-1); ShLin 1%nat 1 1], Some QS_e9);
  (189, 188, [ShLin 0%nat 1 (-1); ShLin 1%nat 1 1], [ShLin 0%nat 1 (-1); ShLin 1%nat 1 1], Some QS_e10);
  (189, 189, [ShLin 0%nat 1 (-1); ShLin 1%nat 1 1], [ShLin 0%nat 1 (-1); ShLin 1%nat 1 3], Some (cN 1));
  (190, 190, [ShLin 0%nat 1 (-1); ShLin 1%nat 1 (-1)], [ShLin 0%nat 1 (-1); ShLin 1%nat 1 1], Some QS_e9);
  (191, 190, [ShLin 0%nat 1 (-1); ShLin 1%nat 1 1], [ShLin 0%nat 1 (-1); ShLin 1%nat 1 1], Some QS_e10);
  (191, 191, [ShLin 0%nat 1 (-1); ShLin 1%nat 1 1], [ShLin 0%nat 1 (-1); ShLin 1%nat 1 3], Some (cN 1));
  (192, 192, [ShLin 0%nat 1 (-1); ShLin 1%nat 1 (-1)], [ShLin 0%nat 1 (-1); ShLin 1%nat 1 1], Some QS_e9);
  (193, 192, [ShLin 0%nat 1 (-1); ShLin 1%nat 1 1], [ShLin 0%nat 1 (-1); ShLin 1%nat 1 1], Some QS_e10);
  (193, 193, [ShLin 0%nat 1 (-1); ShLin 1%nat 1 1], [ShLin 0%nat 1 (-1); ShLin 1%nat 1 3], Some (cN 1));
  (194, 194, [ShLin 0%nat 1 (-1); ShLin 1%nat 1 (-1)], [ShLin 0%nat 1 (-1); ShLin 1%nat 1 1], Some QS_e9);
  (195, 194, [ShLin 0%nat 1 (-1); ShLin 1%nat 1 1], [ShLin 0%nat 1 (-1); ShLin 1%nat 1 1], Some QS_e10);
  (195, 195, [ShLin 0%nat 1 (-1); ShLin 1%nat 1 1], [ShLin 0%nat 1 (-1); ShLin 1%nat 1 3], Some (cN 1));
  (196, 196, [ShLin 0%nat 1 (-1); ShLin 1%nat 1 (-1)], [ShLin 0%nat 1 (-1); ShLin 1%nat 1 1], Some QS_e9);
  (197, 196, [ShLin 0%nat 1 (-1); ShLin 1%nat 1 1], [ShLin 0%nat 1 (-1); ShLin 1%nat 1 1], Some QS_e10);
  (197, 197, [ShLin 0%nat 1 (-1); ShLin 1%nat 1 1], [ShLin 0%nat 1 (-1); ShLin 1%nat 1 3], Some (cN 1));
  (198, 198, [ShLin 0%nat 1 (-1); ShLin 1%nat 1 (-1)], [ShLin 0%nat 1 (-1); ShLin 1%nat 1 1], Some QS_e9);
  (199, 198, [ShLin 0%nat 1 (-1); ShLin 1%nat 1 1], [ShLin 0%nat 1 (-1); ShLin 1%nat 1 1], Some QS_e10);
  (199, 199, [ShLin 0%nat 1 (-1); ShLin 1%nat 1 1], [ShLin 0%nat 1 (-1); ShLin 1%nat 1 3], Some (cN 1));
  (200, 200, [ShLin 0%nat 1 (-1); ShLin 1%nat 1 (-1)], [ShLin 0%nat 1 (-1); ShLin 1%nat 1 1], Some QS_e9);
  (201, 200, [ShLin 0%nat 1 (-1); ShLin 1%nat 1 1], [ShLin 0%nat 1 (-1); ShLin 1%nat 1 1], Some QS_e10);
  (201, 201, [ShLin 0%nat 1 (-1); ShLin 1%nat 1 1], [ShLin 0%nat 1 (-1); ShLin 1%nat 1 3], Some (cN 1));
  (202, 202, [ShLin 0%nat 1 (-1); ShLin 1%nat 1 (-1)], [ShLin 0%nat 1 (-1); ShLin 1%nat 1 1], Some QS_e9);
  (203, 202, [ShLin 0%nat 1 (-1); ShLin 1%nat 1 1], [ShLin 0%nat 1 (-1); ShLin 1%nat 1 1], Some QS_e10);
  (203, 203, [ShLin 0%nat 1 (-1); ShLin 1%nat 1 1], [ShLin 0%nat 1 (-1); ShLin 1%nat 1 3], Some (cN 1));
  (204, 204, [ShLin 0%nat 1 (-1); ShLin 1%nat 1 (-3)], [ShLin 0%nat 1 (-1); ShLin 1%nat 1 (-1)], Some QS_e121);
  (205, 204, [ShLin 0%nat 1 (-1); ShLin 1%nat 1 (-1)], [ShLin 0%nat 1 (-1); ShLin 1%nat 1 (-1)], Some QS_e122);
  (205, 205, [ShLin 0%nat 1 (-1); ShLin 1%nat 1 (-1)], [ShLin 0%nat 1 (-1); ShLin 1%nat 1 1], Some QS_e123);
  (206, 204, [ShLin 0%nat 1 (-1); ShLin 1%nat 1 1], [ShLin 0%nat 1 (-1); ShLin 1%nat 1 (-1)], Some QS_e124);
  (206, 205, [ShLin 0%nat 1 (-1); ShLin 1%nat 1 1], [ShLin 0%nat 1 (-1); ShLin 1%nat 1 1], Some QS_e125);
  (206, 206, [ShLin 0%nat 1 (-1); ShLin 1%nat 1 1], [ShLin 0%nat 1 (-1); ShLin 1%nat 1 3], Some QS_e126);
  (207, 205, [ShLin 0%nat 1 (-1); ShLin 1%nat 1 3], [ShLin 0%nat 1 (-1); ShLin 1%nat 1 1], Some QS_e127);
  (207, 206, [ShLin 0%nat 1 (-1); ShLin 1%nat 1 3], [ShLin 0%nat 1 (-1); ShLin 1%nat 1 3], Some QS_e128);
  (207, 207, [ShLin 0%nat 1 (-1); ShLin 1%nat 1 3], [ShLin 0%nat 1 (-1); ShLin 1%nat 1 5], Some (cN 1));
  (208, 208, [ShLin 0%nat 1 (-1); ShLin 1%nat 1 (-3)], [ShLin 0%nat 1 (-1); ShLin 1%nat 1 (-1)], Some QS_e121);
  (209, 208, [ShLin 0%nat 1 (-1); ShLin 1%nat 1 (-1)], [ShLin 0%nat 1 (-1); ShLin 1%nat 1 (-1)], Some QS_e122);
  (209, 209, [ShLin 0%nat 1 (-1); ShLin 1%nat 1 (-1)], [ShLin 0%nat 1 (-1); ShLin 1%nat 1 1], Some QS_e123);
  (210, 208, [ShLin 0%nat 1 (-1); ShLin 1%nat 1 1], [ShLin 0%nat 1 (-1); ShLin 1%nat 1 (-1)], Some QS_e124);
  (210, 209, [ShLin 0%nat 1 (-1); ShLin 1%nat 1 1], [ShLin 0%nat 1 (-1); ShLin 1%nat 1 1], Some QS_e125);
  (210, 210, [ShLin 0%nat 1 (-1); ShLin 1%nat 1 1], [ShLin 0%nat 1 (-1); ShLin 1%nat 1 3], Some QS_e126);
  (211, 209, [ShLin 0%nat 1 (-1); ShLin 1%nat 1 3], [ShLin 0%nat 1 (-1); ShLin 1%nat 1 1], Some QS_e127);
  (211, 210, [ShLin 0%nat 1 (-1); ShLin 1%nat 1 3], [ShLin 0%nat 1 (-1); ShLin 1%nat 1 3], Some QS_e128);
  (211, 211, [ShLin 0%nat 1 (-1); ShLin 1%nat 1 3], [ShLin 0%nat 1 (-1); ShLin 1%nat 1 5], Some (cN 1));
  (212, 212, [ShLin 0%nat 1 (-1); ShLin 1%nat 1 (-3)], [ShLin 0%nat 1 (-1); ShLin 1%nat 1 (-1)], Some QS_e121);
  (213, 212, [ShLin 0%nat 1 (-1); ShLin 1%nat 1 (-1)], [ShLin 0%nat 1 (-1); ShLin 1%nat 1 (-1)], Some QS_e122);
  (213, 213, [ShLin 0%nat 1 (-1); ShLin 1%nat 1 (-1)], [ShLin 0%nat 1 (-1); ShLin 1%nat 1 1], Some QS_e123);
  (214, 212, [ShLin 0%nat 1 (-1); ShLin 1%nat 1 1], [ShLin 0%nat 1 (-1); ShLin 1%nat 1 (-1)], Some QS_e124);
  (214, 213, [ShLin 0%nat 1 (-1); ShLin 1%nat 1 1], [ShLin 0%nat 1 (-1); ShLin 1%nat 1 1], Some QS_e125);
  (214, 214, [ShLin 0%nat 1 (-1); ShLin 1%nat 1 1], [ShLin 0%nat 1 (-1); ShLin 1%nat 1 3], Some QS_e126);
  (215, 213, [ShLin 0%nat 1 (-1); ShLin 1%nat 1 3], [ShLin 0%nat 1 (-1); ShLin 1%nat 1 1], Some QS_e127);
  (215, 214, [ShLin 0%nat 1 (-1); ShLin 1%nat 1 3], [ShLin 0%nat 1 (-1); ShLin 1%nat 1 3], Some QS_e128);
  (215, 215, [ShLin 0%nat 1 (-1); ShLin 1%nat 1 3], [ShLin 0%nat 1 (-1); ShLin 1%nat 1 5], Some (cN 1));
  (216, 216, [ShLin 0%nat 1 (-1); ShLin 1%nat 1 (-3)], [ShLin 0%nat 1 (-1); ShLin 1%nat 1 (-1)], Some QS_e121);
  (217, 216, [ShLin 0%nat 1 (-1); ShLin 1%nat 1 (-1)], [ShLin 0%nat 1 (-1); ShLin 1%nat 1 (-1)], Some QS_e122);
  (217, 217, [ShLin 0%nat 1 (-1); ShLin 1%nat 1 (-1)], [ShLin 0%nat 1 (-1); ShLin 1%nat 1 1], Some QS_e123);
  (218, 216, [ShLin 0%nat 1 (-1); ShLin 1%nat 1 1], [ShLin 0%nat 1 (-1); ShLin 1%nat 1 (-1)], Some QS_e124);
  (218, 217, [ShLin 0%nat 1 (-1); ShLin 1%nat 1 1], [ShLin 0%nat 1 (-1); ShLin 1%nat 1 1], Some QS_e125);
  (218, 218, [ShLin 0%nat 1 (-1); ShLin 1%nat 1 1], [ShLin 0%nat 1 (-1); ShLin 1%nat 1 3], Some QS_e126);
  (219, 217, [ShLin 0%nat 1 (-1); ShLin 1%nat 1 3], [ShLin 0%nat 1 (-1); ShLin 1%nat 1 1], Some QS_e127);
  (219, 218, [ShLin 0%nat 1 (-1); ShLin 1%nat 1 3], [ShLin 0%nat 1 (-1); ShLin 1%nat 1 3], Some QS_e128);
  (219, 219, [ShLin 0%nat 1 (-1); ShLin 1%nat 1 3], [ShLin 0%nat 1 (-1); ShLin 1%nat 1 5], Some (cN 1));
  (220, 220, [ShLin 0%nat 1 (-2); ShLin 1%nat 1 0], [ShLin 0%nat 1 (-2); ShLin 1%nat 1 2], Some (cN 1));
  (221, 221, [ShLin 0%nat 1 (-2); ShLin 1%nat 1 0], [ShLin 0%nat 1 (-2); ShLin 1%nat 1 2], Some (cN 1));
  (222, 222, [ShLin 0%nat 1 (-2); ShLin 1%nat 1 0], [ShLin 0%nat 1 (-2); ShLin 1%nat 1 2], Some (cN 1));
  (223, 223, [ShLin 0%nat 1 (-2); ShLin 1%nat 1 0], [ShLin 0%nat 1 (-2); ShLin 1%nat 1 2], Some (cN 1));
  (224, 224, [ShLin 0%nat 1 (-2); ShLin 1%nat 1 0], [ShLin 0%nat 1 (-2); ShLin 1%nat 1 2], Some (cN 1));
  (225, 225, [ShLin 0%nat 1 (-2); ShLin 1%nat 1 0], [ShLin 0%nat 1 (-2); ShLin 1%nat 1 2], Some (cN 1));
  (226, 226, [ShLin 0%nat 1 (-2); ShLin 1%nat 1 0], [ShLin 0%nat 1 (-2); ShLin 1%nat 1 2], Some (cN 1));
  (227, 227, [ShLin 0%nat 1 (-2); ShLin 1%nat 1 0], [ShLin 0%nat 1 (-2); ShLin 1%nat 1 2], Some (cN 1));
  (228, 228, [ShLin 0%nat 1 (-2); ShLin 1%nat 1 0], [ShLin 0%nat 1 (-2); ShLin 1%nat 1 2], Some (cN 1));
  (229, 229, [ShLin 0%nat 1 (-2); ShLin 1%nat 1 0], [ShLin 0%nat 1 (-2); ShLin 1%nat 1 2], Some (cN 1));
  (230, 230, [ShLin 0%nat 1 (-2); ShLin 1%nat 1 (-2)], [ShLin 0%nat 1 (-2); ShLin 1%nat 1 0], Some QS_e36);
  (231, 230, [ShLin 0%nat 1 (-2); ShLin 1%nat 1 0], [ShLin 0%nat 1 (-2); ShLin 1%nat 1 0], Some QS_e37);
  (231, 231, [ShLin 0%nat 1 (-2); ShLin 1%nat 1 0], [ShLin 0%nat 1 (-2); ShLin 1%nat 1 2], Some QS_e35);
  (232, 230, [ShLin 0%nat 1 (-2); ShLin 1%nat 1 2], [ShLin 0%nat 1 (-2); ShLin 1%nat 1 0], Some QS_e38);
  (232, 231, [ShLin 0%nat 1 (-2); ShLin 1%nat 1 2], [ShLin 0%nat 1 (-2); ShLin 1%nat 1 2], Some QS_e39);
  (232, 232, [ShLin 0%nat 1 (-2); ShLin 1%nat 1 2], [ShLin 0%nat 1 (-2); ShLin 1%nat 1 4], Some (cN 1));
  (233, 233, [ShLin 0%nat 1 (-2); ShLin 1%nat 1 (-2)], [ShLin 0%nat 1 (-2); ShLin 1%nat 1 0], Some QS_e36);
  (234, 233, [ShLin 0%nat 1 (-2); ShLin 1%nat 1 0], [ShLin 0%nat 1 (-2); ShLin 1%nat 1 0], Some QS_e37);
  (234, 234, [ShLin 0%nat 1 (-2); ShLin 1%nat 1 0], [ShLin 0%nat 1 (-2); ShLin 1%nat 1 2], Some QS_e35);
  (235, 233, [ShLin 0%nat 1 (-2); ShLin 1%nat 1 2], [ShLin 0%nat 1 (-2); ShLin 1%nat 1 0], Some QS_e38);
  (235, 234, [ShLin 0%nat 1 (-2); ShLin 1%nat 1 2], [ShLin 0%nat 1 (-2); ShLin 1%nat 1 2], Some QS_e39);
  (235, 235, [ShLin 0%nat 1 (-2); ShLin 1%nat 1 2], [ShLin 0%nat 1 (-2); ShLin 1%nat 1 4], Some (cN 1));
  (236, 236, [ShLin 0%nat 1 (-2); ShLin 1%nat 1 (-2)], [ShLin 0%nat 1 (-2); ShLin 1%nat 1 0], Some QS_e36);
  (237, 236, [ShLin 0%nat 1 (-2); ShLin 1%nat 1 0], [ShLin 0%nat 1 (-2); ShLin 1%nat 1 0], Some QS_e37);
  (237, 237, [ShLin 0%nat 1 (-2); ShLin 1%nat 1 0], [ShLin 0%nat 1 (-2); ShLin 1%nat 1 2], Some QS_e35);
  (238, 236, [ShLin 0%nat 1 (-2); ShLin 1%nat 1 2], [ShLin 0%nat 1 (-2); ShLin 1%nat 1 0], Some QS_e38);
  (238, 237, [ShLin 0%nat 1 (-2); ShLin 1%nat 1 2], [ShLin 0%nat 1 (-2); ShLin 1%nat 1 2], Some QS_e39);
  (238, 238, [ShLin 0%nat 1 (-2); ShLin 1%nat 1 2], [ShLin 0%nat 1 (-2); ShLin 1%nat 1 4], Some (cN 1));
  (239, 239, [ShLin 0%nat 1 (-2); ShLin 1%nat 1 (-2)], [ShLin 0%nat 1 (-2); ShLin 1%nat 1 0], Some QS_e36);
  (240, 239, [ShLin 0%nat 1 (-2); ShLin 1%nat 1 0], [ShLin 0%nat 1 (-2); ShLin 1%nat 1 0], Some QS_e37);
  (240, 240, [ShLin 0%nat 1 (-2); ShLin 1%nat 1 0], [ShLin 0%nat 1 (-2); ShLin 1%nat 1 2], Some QS_e35);
  (241, 239, [ShLin 0%nat 1 (-2); ShLin 1%nat 1 2], [ShLin 0%nat 1 (-2); ShLin 1%nat 1 0], Some QS_e38);
  (241, 240, [ShLin 0%nat 1 (-2); ShLin 1%nat 1 2], [ShLin 0%nat 1 (-2); ShLin 1%nat 1 2], Some QS_e39);
  (241, 241, [ShLin 0%nat 1 (-2); ShLin 1%nat 1 2], [ShLin 0%nat 1 (-2); ShLin 1%nat 1 4], Some (cN 1));
  (242, 242, [ShLin 0%nat 1 (-2); ShLin 1%nat 1 (-2)], [ShLin 0%nat 1 (-2); ShLin 1%nat 1 0], Some QS_e36);
  (243, 242, [ShLin 0%nat 1 (-2); ShLin 1%nat 1 0], [ShLin 0%nat 1 (-2); ShLin 1%nat 1 0], Some QS_e37);
  (243, 243, [ShLin 0%nat 1 (-2); ShLin 1%nat 1 0], [ShLin 0%nat 1 (-2); ShLin 1%nat 1 2], Some QS_e35);
  (244, 242, [ShLin 0%nat 1 (-2); ShLin 1%nat 1 2], [ShLin 0%nat 1 (-2); ShLin 1%nat 1 0], Some QS_e38);
  (244, 243, [ShLin 0%nat 1 (-2); ShLin 1%nat 1 2], [ShLin 0%nat 1 (-2); ShLin 1%nat 1 2], Some QS_e39);
  (244, 244, [ShLin 0%nat 1 (-2); ShLin 1%nat 1 2], [ShLin 0%nat 1 (-2); ShLin 1%nat 1 4], Some (cN 1));
  (245, 245, [ShLin 0%nat 1 (-2); ShLin 1%nat 1 (-2)], [ShLin 0%nat 1 (-2); ShLin 1%nat 1 0], Some QS_e36);
  (246, 245, [ShLin 0%nat 1 (-2); ShLin 1%nat 1 0], [ShLin 0%nat 1 (-2); ShLin 1%nat 1 0], Some QS_e37);
  (246, 246, [ShLin 0%nat 1 (-2); ShLin 1%nat 1 0], [ShLin 0%nat 1 (-2); ShLin 1%nat 1 2], Some QS_e35);
  (247, 245, [ShLin 0%nat 1 (-2); ShLin 1%nat 1 2], [ShLin 0%nat 1 (-2); ShLin 1%nat 1 0], Some QS_e38);
  (247, 246, [ShLin 0%nat 1 (-2); ShLin 1%nat 1 2], [ShLin 0%nat 1 (-2); ShLin 1%nat 1 2], Some QS_e39);
  (247, 247, [ShLin 0%nat 1 (-2); ShLin 1%nat 1 2], [ShLin 0%nat 1 (-2); ShLin 1%nat 1 4], Some (cN 1));
  (248, 248, [ShLin 0%nat 1 (-3); ShLin 1%nat 1 (-1)], [ShLin 0%nat 1 (-3); ShLin 1%nat 1 1], Some QS_e9);
  (249, 248, [ShLin 0%nat 1 (-3); ShLin 1%nat 1 1], [ShLin 0%nat 1 (-3); ShLin 1%nat 1 1], Some QS_e10);
  (249, 249, [ShLin 0%nat 1 (-3); ShLin 1%nat 1 1], [ShLin 0%nat 1 (-3); ShLin 1%nat 1 3], Some (cN 1));
  (250, 250, [ShLin 0%nat 1 (-3); ShLin 1%nat 1 (-1)], [ShLin 0%nat 1 (-3); ShLin 1%nat 1 1], Some QS_e9);
  (251, 250, [ShLin 0%nat 1 (-3); ShLin 1%nat 1 1], [ShLin 0%nat 1 (-3); ShLin 1%nat 1 1], Some QS_e10);
  (251, 251, [ShLin 0%nat 1 (-3); ShLin 1%nat 1 1], [ShLin 0%nat 1 (-3); ShLin 1%nat 1 3], Some (cN 1));
  (252, 252, [ShLin 0%nat 1 (-3); ShLin 1%nat 1 (-1)], [ShLin 0%nat 1 (-3); ShLin 1%nat 1 1], Some QS_e9);
  (253, 252, [ShLin 0%nat 1 (-3); ShLin 1%nat 1 1], [ShLin 0%nat 1 (-3); ShLin 1%nat 1 1], Some QS_e10);
  (253, 253, [ShLin 0%nat 1 (-3); ShLin 1%nat 1 1], [ShLin 0%nat 1 (-3); ShLin 1%nat 1 3], Some (cN 1));
  (254, 254, [ShLin 0%nat 1 (-3); ShLin 1%nat 1 (-1)], [ShLin 0%nat 1 (-3); ShLin 1%nat 1 1], Some QS_e9);
  (255, 254, [ShLin 0%nat 1 (-3); ShLin 1%nat 1 1], [ShLin 0%nat 1 (-3); ShLin 1%nat 1 1], Some QS_e10);
  (255, 255, [ShLin 0%nat 1 (-3); ShLin 1%nat 1 1], [ShLin 0%nat 1 (-3); ShLin 1%nat 1 3], Some (cN 1));
  (256, 256, [ShLin 0%nat 1 (-4); ShLin 1%nat 1 0], [ShLin 0%nat 1 (-4); ShLin 1%nat 1 2], Some (cN 1))].
(** /repo/c++/symmetry/nrg-recalc-QS.hpp recalc_triplet, qs/qs-4ch-tripletm.dat *)
Definition qs_4ch_t12 : ten_table := mk_ten "triplet" [ShLin 0%nat 1 0; ShLin 1%nat 1 (-2)] [0; 3] [
  (1, 1, [ShLin 0%nat 1 4; ShLin 1%nat 1 0], [ShLin 0%nat 1 4; ShLin 1%nat 1 (-2)], Some (cN 1));
  (2, 2, [ShLin 0%nat 1 3; ShLin 1%nat 1 (-1)], [ShLin 0%nat 1 3; ShLin 1%nat 1 (-3)], Some (cN 1));
  (2, 3, [ShLin 0%nat 1 3; ShLin 1%nat 1 (-1)], [ShLin 0%nat 1 3; ShLin 1%nat 1 (-1)], Some QS_e11);
  (3, 3, [ShLin 0%nat 1 3; ShLin 1%nat 1 1], [ShLin 0%nat 1 3; ShLin 1%nat 1 (-1)], Some QS_e5);
  (4, 4, [ShLin 0%nat 1 3; ShLin 1%nat 1 (-1)], [ShLin 0%nat 1 3; ShLin 1%nat 1 (-3)], Some (cN 1));
  (4, 5, [ShLin 0%nat 1 3; ShLin 1%nat 1 (-1)], [ShLin 0%nat 1 3; ShLin 1%nat 1 (-1)], Some QS_e11);
  (5, 5, [ShLin 0%nat 1 3; ShLin 1%nat 1 1], [ShLin 0%nat 1 3; ShLin 1%nat 1 (-1)], Some QS_e5);
  (6, 6, [ShLin 0%nat 1 3; ShLin 1%nat 1 (-1)], [ShLin 0%nat 1 3; ShLin 1%nat 1 (-3)], Some (cN 1));
  (6, 7, [ShLin 0%nat 1 3; ShLin 1%nat 1 (-1)], [ShLin 0%nat 1 3; ShLin 1%nat 1 (-1)], Some QS_e11);
  (7, 7, [ShLin 0%nat 1 3; ShLin 1%nat 1 1], [ShLin 0%nat 1 3; ShLin 1%nat 1 (-1)], Some QS_e5);
  (8, 8, [ShLin 0%nat 1 3; ShLin 1%nat 1 (-1)], [ShLin 0%nat 1 3; ShLin 1%nat 1 (-3)], Some (cN 1));
  (8, 9, [ShLin 0%nat 1 3; ShLin 1%nat 1 (-1)], [ShLin 0%nat 1 3; ShLin 1%nat 1 (-1)], Some QS_e11);
  (9, 9, [ShLin 0%nat 1 3; ShLin 1%nat 1 1], [ShLin 0%nat 1 3; ShLin 1%nat 1 (-1)], Some QS_e5);
  (10, 10, [ShLin 0%nat 1 2; ShLin 1%nat 1 0], [ShLin 0%nat 1 2; ShLin 1%nat 1 (-2)], Some (cN 1));
  (11, 11, [ShLin 0%nat 1 2; ShLin 1%nat 1 0], [ShLin 0%nat 1 2; ShLin 1%nat 1 (-2)], Some (cN 1));
  (12, 12, [ShLin 0%nat 1 2; ShLin 1%nat 1 0], [ShLin 0%nat 1 2; ShLin 1%nat 1 (-2)], Some (cN 1));
  (13, 13, [ShLin 0%nat 1 2; ShLin 1%nat 1 0], [ShLin 0%nat 1 2; ShLin 1%nat 1 (-2)], Some (cN 1));
  (14, 14, [ShLin 0%nat 1 2; ShLin 1%nat 1 0], [ShLin 0%nat 1 2; ShLin 1%nat 1 (-2)], Some (cN 1));
  (15, 15, [ShLin 0%nat 1 2; ShLin 1%nat 1 0], [ShLin 0%nat 1 2; ShLin 1%nat 1 (-2)], Some (cN 1));
  (16, 16, [ShLin 0%nat 1 2; ShLin 1%nat 1 0], [ShLin 0%nat 1 2; ShLin 1%nat 1 (-2)], Some (cN 1));
  (17, 17, [ShLin 0%nat 1 2; ShLin 1%nat 1 0], [ShLin 0%nat 1 2; ShLin 1%nat 1 (-2)], Some (cN 1));
  (18, 18, [ShLin 0%nat 1 2; ShLin 1%nat 1 0], [ShLin 0%nat 1 2; ShLin 1%nat 1 (-2)], Some (cN 1));
  (19, 19, [ShLin 0%nat 1 2; ShLin 1%nat 1 0], [ShLin 0%nat 1 2; ShLin 1%nat 1 (-2)], Some (cN 1));
  (20, 20, [ShLin 0%nat 1 2; ShLin 1%nat 1 (-2)], [ShLin 0%nat 1 2; ShLin 1%nat 1 (-4)], Some (cN 1));
  (20, 21, [ShLin 0%nat 1 2; ShLin 1%nat 1 (-2)], [ShLin 0%nat 1 2; ShLin 1%nat 1 (-2)], Some (cD (cN 1) (cH 1)));
  (20, 22, [ShLin 0%nat 1 2; ShLin 1%nat 1 (-2)], [ShLin 0%nat 1 2; ShLin 1%nat 1 0], Some QS_e40);
  (21, 21, [ShLin 0%nat 1 2; ShLin 1%nat 1 0], [ShLin 0%nat 1 2; ShLin 1%nat 1 (-2)], Some QS_e30);
  (21, 22, [ShLin 0%nat 1 2; ShLin 1%nat 1 0], [ShLin 0%nat 1 2; ShLin 1%nat 1 0], Some QS_e31);
  (22, 22, [ShLin 0%nat 1 2; ShLin 1%nat 1 2], [ShLin 0%nat 1 2; ShLin 1%nat 1 0], Some QS_e41);
  (23, 23, [ShLin 0%nat 1 2; ShLin 1%nat 1 (-2)], [ShLin 0%nat 1 2; ShLin 1%nat 1 (-4)], Some (cN 1));
  (23, 24, [ShLin 0%nat 1 2; ShLin 1%nat 1 (-2)], [ShLin 0%nat 1 2; ShLin 1%nat 1 (-2)], Some (cD (cN 1) (cH 1)));
  (23, 25, [ShLin 0%nat 1 2; ShLin 1%nat 1 (-2)], [ShLin 0%nat 1 2; ShLin 1%nat 1 0], Some QS_e40);
  (24, 24, [ShLin 0%nat 1 2; ShLin 1%nat 1 0], [ShLin 0%nat 1 2; ShLin 1%nat 1 (-2)], Some QS_e30);
  (24, 25, [ShLin 0%nat 1 2; ShLin 1%nat 1 0], [ShLin 0%nat 1 2; ShLin 1%nat 1 0], Some QS_e31);
  (25, 25, [ShLin 0%nat 1 2; ShLin 1%nat 1 2], [ShLin 0%nat 1 2; ShLin 1%nat 1 0], Some QS_e41);
  (26, 26, [ShLin 0%nat 1 2; ShLin 1%nat 1 (-2)], [ShLin 0%nat 1 2; ShLin 1%nat 1 (-4)], Some (cN 1));
  (26, 27, [ShLin 0%nat 1 2; ShLin 1%nat 1 (-2)], [ShLin 0%nat 1 2; ShLin 1%nat 1 (-2)], Some (cD (cN 1) (cH 1)));
  (26, 28, [ShLin 0%nat 1 2; ShLin 1%nat 1 (-2)], [ShLin 0%nat 1 2; ShLin 1%nat 1 0], Some QS_e40);
  (27, 27, [ShLin 0%nat 1 2; ShLin 1%nat 1 0], [ShLin 0%nat 1 2; ShLin 1%nat 1 (-2)], Some QS_e30);
  (27, 28, [ShLin 0%nat 1 2; ShLin 1%nat 1 0], [ShLin 0%nat 1 2; ShLin 1%nat 1 0], Some QS_e31);
  (28, 28, [ShLin 0%nat 1 2; ShLin 1%nat 1 2], [ShLin 0%nat 1 2; ShLin 1%nat 1 0], Some QS_e41);
  (29, 29, [ShLin 0%nat 1 2; ShLin 1%nat 1 (-2)], [ShLin 0%nat 1 2; ShLin 1%nat 1 (-4)], Some (cN 1));
  (29, 30, [ShLin 0%nat 1 2; ShLin 1%nat 1 (-2)], [ShLin 0%nat 1 2; ShLin 1%nat 1 (-2)], Some (cD (cN 1) (cH 1)));
  (29, 31, [ShLin 0%nat 1 2; ShLin 1%nat 1 (-2)], [ShLin 0%nat 1 2; ShLin 1%nat 1 0], Some QS_e40);
  (30, 30, [ShLin 0%nat 1 2; ShLin 1%nat 1 0], [ShLin 0%nat 1 2; ShLin 1%nat 1 (-2)], Some QS_e30);
  (30, 31, [ShLin 0%nat 1 2; ShLin 1%nat 1 0], [ShLin 0%nat 1 2; ShLin 1%nat 1 0], Some QS_e31);
  (31, 31, [ShLin 0%nat 1 2; ShLin 1%nat 1 2], [ShLin 0%nat 1 2; ShLin 1%nat 1 0], Some QS_e41);
  (32, 32, [ShLin 0%nat 1 2; ShLin 1%nat 1 (-2)], [ShLin 0%nat 1 2; ShLin 1%nat 1 (-4)], Some (cN 1));
  (32, 33, [ShLin 0%nat 1 2; ShLin 1%nat 1 (-2)], [ShLin 0%nat 1 2; ShLin 1%nat 1 (-2)], Some (cD (cN 1) (cH 1)));
  (32, 34, [ShLin 0%nat 1 2; ShLin 1%nat 1 (-2)], [ShLin 0%nat 1 2; ShLin 1%nat 1 0], Some QS_e40);
  (33, 33, [ShLin 0%nat 1 2; ShLin 1%nat 1 0], [ShLin 0%nat 1 2; ShLin 1%nat 1 (-2)], Some QS_e30);
  (33, 34, [ShLin 0%nat 1 2; ShLin 1%nat 1 0], [ShLin 0%nat 1 2; ShLin 1%nat 1 0], Some QS_e31);
  (34, 34, [ShLin 0%nat 1 2; ShLin 1%nat 1 2], [ShLin 0%nat 1 2; ShLin 1%nat 1 0], Some QS_e41);
  (35, 35, [ShLin 0%nat 1 2; ShLin 1%nat 1 (-2)], [ShLin 0%nat 1 2; ShLin 1%nat 1 (-4)], Some (cN 1));
  (35, 36, [ShLin 0%nat 1 2; ShLin 1%nat 1 (-2)], [ShLin 0%nat 1 2; ShLin 1%nat 1 (-2)], Some (cD (cN 1) (cH 1)));
  (35, 37, [ShLin 0%nat 1 2; ShLin 1%nat 1 (-2)], [ShLin 0%nat 1 2; ShLin 1%nat 1 0], Some QS_e40);
  (36, 36, [ShLin 0%nat 1 2; ShLin 1%nat 1 0], [ShLin 0%nat 1 2; ShLin 1%nat 1 (-2)], Some QS_e30);
  (36, 37, [ShLin 0%nat 1 2; ShLin 1%nat 1 0], [ShLin 0%nat 1 2; ShLin 1%nat 1 0], Some QS_e31);
  (37, 37, [ShLin 0%nat 1 2; ShLin 1%nat 1 2], [ShLin 0%nat 1 2; ShLin 1%nat 1 0], Some QS_e41);
  (38, 38, [ShLin 0%nat 1 1; ShLin 1%nat 1 (-1)], [ShLin 0%nat 1 1; ShLin 1%nat 1 (-3)], Some (cN 1));
  (38, 39, [ShLin 0%nat 1 1; ShLin 1%nat 1 (-1)], [ShLin 0%nat 1 1; ShLin 1%nat 1 (-1)], Some QS_e11);
  (39, 39, [ShLin 0%nat 1 1; ShLin 1%nat 1 1], [ShLin 0%nat 1 1; ShLin 1%nat 1 (-1)], Some QS_e5);
  (40, 40, [ShLin 0%nat 1 1; ShLin 1%nat 1 (-1)], [ShLin 0%nat 1 1; ShLin 1%nat 1 (-3)], Some (cN 1));
  (40, 41, [ShLin 0%nat 1 1; ShLin 1%nat 1 (-1)], [ShLin 0%nat 1 1; ShLin 1%nat 1 (-1)], Some QS_e11);
  (41, 41, [ShLin 0%nat 1 1; ShLin 1%nat 1 1], [ShLin 0%nat 1 1; ShLin 1%nat 1 (-1)], Some QS_e5);
  (42, 42, [ShLin 0%nat 1 1; ShLin 1%nat 1 (-1)], [ShLin 0%nat 1 1; ShLin 1%nat 1 (-3)], Some (cN 1));
  (42, 43, [ShLin 0%nat 1 1; ShLin 1%nat 1 (-1)], [ShLin 0%nat 1 1; ShLin 1%nat 1 (-1)], Some QS_e11);
  (43, 43, [ShLin 0%nat 1 1; ShLin 1%nat 1 1], [ShLin 0%nat 1 1; ShLin 1%nat 1 (-1)], Some QS_e5);
  (44, 44, [ShLin 0%nat 1 1; ShLin 1%nat 1 (-1)], [ShLin 0%nat 1 1; ShLin 1%nat 1 (-3)], Some (cN 1));
  (44, 45, [ShLin 0%nat 1 1; ShLin 1%nat 1 (-1)], [ShLin 0%nat 1 1; ShLin 1%nat 1 (-1)], Some QS_e11);
  (45, 45, [ShLin 0%nat 1 1; ShLin 1%nat 1 1], [ShLin 0%nat 1 1; ShLin 1%nat 1 (-1)], Some QS_e5);
  (46, 46, [ShLin 0%nat 1 1; ShLin 1%nat 1 (-1)], [ShLin 0%nat 1 1; ShLin 1%nat 1 (-3)], Some (cN 1));
  (46, 47, [ShLin 0%nat 1 1; ShLin 1%nat 1 (-1)], [ShLin 0%nat 1 1; ShLin 1%nat 1 (-1)], Some QS_e11);
  (47, 47, [ShLin 0%nat 1 1; ShLin 1%nat 1 1], [ShLin 0%nat 1 1; ShLin 1%nat 1 (-1)], Some QS_e5);
  (48, 48, [ShLin 0%nat 1 1; ShLin 1%nat 1 (-1)], [ShLin 0%nat 1 1; ShLin 1%nat 1 (-3)], Some (cN 1));
  (48, 49, [ShLin 0%nat 1 1; ShLin 1%nat 1 (-1)], [ShLin 0%nat 1 1; ShLin 1%nat 1 (-1)], Some QS_e11);
  (49, 49, [ShLin 0%nat 1 1; ShLin 1%nat 1 1], [ShLin 0%nat 1 1; ShLin 1%nat 1 (-1)], Some QS_e5);
  (50, 50, [ShLin 0%nat 1 1; ShLin 1%nat 1 (-1)], [ShLin 0%nat 1 1; ShLin 1%nat 1 (-3)], Some (cN 1));
  (50, 51, [ShLin 0%nat 1 1; ShLin 1%nat 1 (-1)], [ShLin 0%nat 1 1; ShLin 1%nat 1 (-1)], Some QS_e11);
  (51, 51, [ShLin 0%nat 1 1; ShLin 1%nat 1 1], [ShLin 0%nat 1 1; ShLin 1%nat 1 (-1)], Some QS_e5);
  (52, 52, [ShLin 0%nat 1 1; ShLin 1%nat 1 (-1)], [ShLin 0%nat 1 1; ShLin 1%nat 1 (-3)], Some (cN 1));
  (52, 53, [ShLin 0%nat 1 1; ShLin 1%nat 1 (-1)], [ShLin 0%nat 1 1; ShLin 1%nat 1 (-1)], Some QS_e11);
  (53, 53, [ShLin 0%nat 1 1; ShLin 1%nat 1 1], [ShLin 0%nat 1 1; ShLin 1%nat 1 (-1)], Some QS_e5);
  (54, 54, [ShLin 0%nat 1 1; ShLin 1%nat 1 (-1)], [ShLin 0%nat 1 1; ShLin 1%nat 1 (-3)], Some (cN 1));
  (54, 55, [ShLin 0%nat 1 1; ShLin 1%nat 1 (-1)], [ShLin 0%nat 1 1; ShLin 1%nat 1 (-1)], Some QS_e11);
  (55, 55, [ShLin 0%nat 1 1; ShLin 1%nat 1 1], [ShLin 0%nat 1 1; ShLin 1%nat 1 (-1)], Some QS_e5);
  (56, 56, [ShLin 0%nat 1 1; ShLin 1%nat 1 (-1)], [ShLin 0%nat 1 1; ShLin 1%nat 1 (-3)], Some (cN 1));
  (56, 57, [ShLin 0%nat 1 1; ShLin 1%nat 1 (-1)], [ShLin 0%nat 1 1; ShLin 1%nat 1 (-1)], Some QS_e11);
  (57, 57, [ShLin 0%nat 1 1; ShLin 1%nat 1 1], [ShLin 0%nat 1 1; ShLin 1%nat 1 (-1)], Some QS_e5);
  (58, 58, [ShLin 0%nat 1 1; ShLin 1%nat 1 (-1)], [ShLin 0%nat 1 1; ShLin 1%nat 1 (-3)], Some (cN 1));
  (58, 59, [ShLin 0%nat 1 1; ShLin 1%nat 1 (-1)], [ShLin 0%nat 1 1; ShLin 1%nat 1 (-1)], Some QS_e11);
  (59, 59, [ShLin 0%nat 1 1; ShLin 1%nat 1 1], [ShLin 0%nat 1 1; ShLin 1%nat 1 (-1)], Some QS_e5);
  (60, 60, [ShLin 0%nat 1 1; ShLin 1%nat 1 (-1)], [ShLin 0%nat 1 1; ShLin 1%nat 1 (-3)], Some (cN 1));
  (60, 61, [ShLin 0%nat 1 1; ShLin 1%nat 1 (-1)], [ShLin 0%nat 1 1; ShLin 1%nat 1 (-1)], Some QS_e11);
  (61, 61, [ShLin 0%nat 1 1; ShLin 1%nat 1 1], [ShLin 0%nat 1 1; ShLin 1%nat 1 (-1)], Some QS_e5);
  (62, 62, [ShLin 0%nat 1 1; ShLin 1%nat 1 (-1)], [ShLin 0%nat 1 1; ShLin 1%nat 1 (-3)], Some (cN 1));
  (62, 63, [ShLin 0%nat 1 1; ShLin 1%nat 1 (-1)], [ShLin 0%nat 1 1; ShLin 1%nat 1 (-1)], Some QS_e11);
  (63, 63, [ShLin 0%nat 1 1; ShLin 1%nat 1 1], [ShLin 0%nat 1 1; ShLin 1%nat 1 (-1)], Some QS_e5);
  (64, 64, [ShLin 0%nat 1 1; ShLin 1%nat 1 (-1)], [ShLin 0%nat 1 1; ShLin 1%nat 1 (-3)], Some (cN 1));
  (64, 65, [ShLin 0%nat 1 1; ShLin 1%nat 1 (-1)], [ShLin 0%nat 1 1; ShLin 1%nat 1 (-1)], Some QS_e11);
  (65, 65, [ShLin 0%nat 1 1; ShLin 1%nat 1 1], [ShLin 0%nat 1 1; ShLin 1%nat 1 (-1)], Some QS_e5);
  (66, 66, [ShLin 0%nat 1 1; ShLin 1%nat 1 (-1)], [ShLin 0%nat 1 1; ShLin 1%nat 1 (-3)], Some (cN 1));
  (66, 67, [ShLin 0%nat 1 1; ShLin 1%nat 1 (-1)], [ShLin 0%nat 1 1; ShLin 1%nat 1 (-1)], Some QS_e11);
  (67, 67, [ShLin 0%nat 1 1; ShLin 1%nat 1 1], [ShLin 0%nat 1 1; ShLin 1%nat 1 (-1)], Some QS_e5);
  (68, 68, [ShLin 0%nat 1 1; ShLin 1%nat 1 (-1)], [ShLin 0%nat 1 1; ShLin 1%nat 1 (-3)], Some (cN 1));
  (68, 69, [ShLin 0%nat 1 1; ShLin 1%nat 1 (-1)], [ShLin 0%nat 1 1; ShLin 1%nat 1 (-1)], Some QS_e11);
  (69, 69, [ShLin 0%nat 1 1; ShLin 1%nat 1 1], [ShLin 0%nat 1 1; ShLin 1%nat 1 (-1)], Some QS_e5);
  (70, 70, [ShLin 0%nat 1 1; ShLin 1%nat 1 (-1)], [ShLin 0%nat 1 1; ShLin 1%nat 1 (-3)], Some (cN 1));
  (70, 71, [ShLin 0%nat 1 1; ShLin 1%nat 1 (-1)], [ShLin 0%nat 1 1; ShLin 1%nat 1 (-1)], Some QS_e11);
  (71, 71, [ShLin 0%nat 1 1; ShLin 1%nat 1 1], [ShLin 0%nat 1 1; ShLin 1%nat 1 (-1)], Some QS_e5);
  (72, 72, [ShLin 0%nat 1 1; ShLin 1%nat 1 (-1)], [ShLin 0%nat 1 1; ShLin 1%nat 1 (-3)], Some (cN 1));
  (72, 73, [ShLin 0%nat 1 1; ShLin 1%nat 1 (-1)], [ShLin 0%nat 1 1; ShLin 1%nat 1 (-1)], Some QS_e11);
  (73, 73, [ShLin 0%nat 1 1; ShLin 1%nat 1 1], [ShLin 0%nat 1 1; ShLin 1%nat 1 (-1)], Some QS_e5);
  (74, 74, [ShLin 0%nat 1 1; ShLin 1%nat 1 (-1)], [ShLin 0%nat 1 1; ShLin 1%nat 1 (-3)], Some (cN 1));
  (74, 75, [ShLin 0%nat 1 1; ShLin 1%nat 1 (-1)], [ShLin 0%nat 1 1; ShLin 1%nat 1 (-1)], Some QS_e11);
  (75, 75, [ShLin 0%nat 1 1; ShLin 1%nat 1 1], [ShLin 0%nat 1 1; ShLin 1%nat 1 (-1)], Some QS_e5);
  (76, 76, [ShLin 0%nat 1 1; ShLin 1%nat 1 (-1)], [ShLin 0%nat 1 1; ShLin 1%nat 1 (-3)], Some (cN 1));
  (76, 77, [ShLin 0%nat 1 1; ShLin 1%nat 1 (-1)], [ShLin 0%nat 1 1; ShLin 1%nat 1 (-1)], Some QS_e11);
  (77, 77, [ShLin 0%nat 1 1; ShLin 1%nat 1 1], [ShLin 0%nat 1 1; ShLin 1%nat 1 (-1)], Some QS_e5);
  (78, 78, [ShLin 0%nat 1 1; ShLin 1%nat 1 (-3)], [ShLin 0%nat 1 1; ShLin 1%nat 1 (-5)], Some (cN 1));
  (78, 79, [ShLin 0%nat 1 1; ShLin 1%nat 1 (-3)], [ShLin 0%nat 1 1; ShLin 1%nat 1 (-3)], Some QS_e129);
  (78, 80, [ShLin 0%nat 1 1; ShLin 1%nat 1 (-3)], [ShLin 0%nat 1 1; ShLin 1%nat 1 (-1)], Some QS_e130);
  (79, 79, [ShLin 0%nat 1 1; ShLin 1%nat 1 (-1)], [ShLin 0%nat 1 1; ShLin 1%nat 1 (-3)], Some QS_e111);
  (79, 80, [ShLin 0%nat 1 1; ShLin 1%nat 1 (-1)], [ShLin 0%nat 1 1; ShLin 1%nat 1 (-1)], Some QS_e131);
  (79, 81, [ShLin 0%nat 1 1; ShLin 1%nat 1 (-1)], [ShLin 0%nat 1 1; ShLin 1%nat 1 1], Some QS_e124);
  (80, 80, [ShLin 0%nat 1 1; ShLin 1%nat 1 1], [ShLin 0%nat 1 1; ShLin 1%nat 1 (-1)], Some QS_e132);
  (80, 81, [ShLin 0%nat 1 1; ShLin 1%nat 1 1], [ShLin 0%nat 1 1; ShLin 1%nat 1 1], Some QS_e133);
  (81, 81, [ShLin 0%nat 1 1; ShLin 1%nat 1 3], [ShLin 0%nat 1 1; ShLin 1%nat 1 1], Some QS_e134);
  (82, 82, [ShLin 0%nat 1 1; ShLin 1%nat 1 (-3)], [ShLin 0%nat 1 1; ShLin 1%nat 1 (-5)], Some (cN 1));
  (82, 83, [ShLin 0%nat 1 1; ShLin 1%nat 1 (-3)], [ShLin 0%nat 1 1; ShLin 1%nat 1 (-3)], Some QS_e129);
  (82, 84, [ShLin 0%nat 1 1; ShLin 1%nat 1 (-3)], [ShLin 0%nat 1 1; ShLin 1%nat 1 (-1)], Some QS_e130);
  (83, 83, [ShLin 0%nat 1 1; ShLin 1%nat 1 (-1)], [ShLin 0%nat 1 1; ShLin 1%nat 1 (-3)], Some QS_e111);
  (83, 84, [ShLin 0%nat 1 1; ShLin 1%nat 1 (-1)], [ShLin 0%nat 1 1; ShLin 1%nat 1 (-1)], Some QS_e131);
  (83, 85, [ShLin 0%nat 1 1; ShLin 1%nat 1 (-1)], [ShLin 0%nat 1 1; ShLin 1%nat 1 1], Some QS_e124);
  (84, 84, [ShLin 0%nat 1 1; ShLin 1%nat 1 1], [ShLin 0%nat 1 1; ShLin 1%nat 1 (-1)], Some QS_e132);
  (84, 85, [ShLin 0%nat 1 1; ShLin 1%nat 1 1], [ShLin 0%nat 1 1; ShLin 1%nat 1 1], Some QS_e133);
  (85, 85, [ShLin 0%nat 1 1; ShLin 1%nat 1 3], [ShLin 0%nat 1 1; ShLin 1%nat 1 1], Some QS_e134);
  (86, 86, [ShLin 0%nat 1 1; ShLin 1%nat 1 (-3)], [ShLin 0%nat 1 1; ShLin 1%nat 1 (-5)], Some (cN 1));
  (86, 87, [ShLin 0%nat 1 1; ShLin 1%nat 1 (-3)], [ShLin 0%nat 1 1; ShLin 1%nat 1 (-3)], Some QS_e129);
  (86, 88, [ShLin 0%nat 1 1; ShLin 1%nat 1 (-3)], [ShLin 0%nat 1 1; ShLin 1%nat 1 (-1)], Some QS_e130);
  (87, 87, [ShLin 0%nat 1 1; ShLin 1%nat 1 (-1)], [ShLin 0%nat 1 1; ShLin 1%nat 1 (-3)], Some QS_e111);
  (87, 88, [ShLin 0%nat 1 1; ShLin 1%nat 1 (-1)], [ShLin 0%nat 1 1; ShLin 1%nat 1 (-1)], Some QS_e131);
  (87, 89, [ShLin 0%nat 1 1; ShLin 1%nat 1 (-1)], [ShLin 0%nat 1 1; ShLin 1%nat 1 1], Some QS_e124);
  (88, 88, [ShLin 0%nat 1 1; ShLin 1%nat 1 1], [ShLin 0%nat 1 1; ShLin 1%nat 1 (-1)], Some QS_e132);
  (88, 89, [ShLin 0%nat 1 1; ShLin 1%nat 1 1], [ShLin 0%nat 1 1; ShLin 1%nat 1 1], Some QS_e133);
  (89, 89, [ShLin 0%nat 1 1; ShLin 1%nat 1 3], [ShLin 0%nat 1 1; ShLin 1%nat 1 1], Some QS_e134);
  (90, 90, [ShLin 0%nat 1 1; ShLin 1%nat 1 (-3)], [ShLin 0%nat 1 1; ShLin 1%nat 1 (-5)], Some (cN 1));
  (90, 91, [ShLin 0%nat 1 1; ShLin 1%nat 1 (-3)], [ShLin 0%nat 1 1; ShLin 1%nat 1 (-3)], Some QS_e129);
  (90, 92, [ShLin 0%nat 1 1; ShLin 1%nat 1 (-3)], [ShLin 0%nat 1 1; ShLin 1%nat 1 (-1)], Some QS_e130);
  (91, 91, [ShLin 0%nat 1 1; ShLin 1%nat 1 (-1)], [ShLin 0%nat 1 1; ShLin 1%nat 1 (-3)], Some QS_e111);
  (91, 92, [ShLin 0%nat 1 1; ShLin 1%nat 1 (-1)], [ShLin 0%nat 1 1; ShLin 1%nat 1 (-1)], Some QS_e131);
  (91, 93, [ShLin 0%nat 1 1; ShLin 1%nat 1 (-1)], [ShLin 0%nat 1 1; ShLin 1%nat 1 1], Some QS_e124);
  (92, 92, [ShLin 0%nat 1 1; ShLin 1%nat 1 1], [ShLin 0%nat 1 1; ShLin 1%nat 1 (-1)], Some QS_e132);
  (92, 93, [ShLin 0%nat 1 1; ShLin 1%nat 1 1], [ShLin 0%nat 1 1; ShLin 1%nat 1 1], Some QS_e133);
  (93, 93, [ShLin 0%nat 1 1; ShLin 1%nat 1 3], [ShLin 0%nat 1 1; ShLin 1%nat 1 1], Some QS_e134);
  (94, 94, [ShLin 0%nat 1 0; ShLin 1%nat 1 0], [ShLin 0%nat 1 0; ShLin 1%nat 1 (-2)], Some (cN 1));
  (95, 95, [ShLin 0%nat 1 0; ShLin 1%nat 1 0], [ShLin 0%nat 1 0; ShLin 1%nat 1 (-2)], Some (cN 1));
  (96, 96, [ShLin 0%nat 1 0; ShLin 1%nat 1 0], [ShLin 0%nat 1 0; ShLin 1%nat 1 (-2)], Some (cN 1));
  (97, 97, [ShLin 0%nat 1 0; ShLin 1%nat 1 0], [ShLin 0%nat 1 0; ShLin 1%nat 1 (-2)], Some (cN 1));
  (98, 98, [ShLin 0%nat 1 0; ShLin 1%nat 1 0], [ShLin 0%nat 1 0; ShLin 1%nat 1 (-2)], Some (cN 1));
  (99, 99, [ShLin 0%nat 1 0; ShLin 1%nat 1 0], [ShLin 0%nat 1 0; ShLin 1%nat 1 (-2)], Some (cN 1));
  (100, 100, [ShLin 0%nat 1 0; ShLin 1%nat 1 0], [ShLin 0%nat 1 0; ShLin 1%nat 1 (-2)], Some (cN 1));
  (101, 101, [ShLin 0%nat 1 0; ShLin 1%nat 1 0], [ShLin 0%nat 1 0; ShLin 1%nat 1 (-2)], Some (cN 1));
  (102, 102, [ShLin 0%nat 1 0; ShLin 1%nat 1 0], [ShLin 0%nat 1 0; ShLin 1%nat 1 (-2)], Some (cN 1));
  (103, 103, [ShLin 0%nat 1 0; ShLin 1%nat 1 0], [ShLin 0%nat 1 0; ShLin 1%nat 1 (-2)], Some (cN 1));
  (104, 104, [ShLin 0%nat 1 0; ShLin 1%nat 1 0], [ShLin 0%nat 1 0; ShLin 1%nat 1 (-2)], Some (cN 1));
  (105, 105, [ShLin 0%nat 1 0; ShLin 1%nat 1 0], [ShLin 0%nat 1 0; ShLin 1%nat 1 (-2)], Some (cN 1));
  (106, 106, [ShLin 0%nat 1 0; ShLin 1%nat 1 0], [ShLin 0%nat 1 0; ShLin 1%nat 1 (-2)], Some (cN 1));
  (107, 107, [ShLin 0%nat 1 0; ShLin 1%nat 1 0], [ShLin 0%nat 1 0; ShLin 1%nat 1 (-2)], Some (cN 1));
  (108, 108, [ShLin 0%nat 1 0; ShLin 1%nat 1 0], [ShLin 0%nat 1 0; ShLin 1%nat 1 (-2)], Some (cN 1));
  (109, 109, [ShLin 0%nat 1 0; ShLin 1%nat 1 0], [ShLin 0%nat 1 0; ShLin 1%nat 1 (-2)], Some (cN 1));
  (110, 110, [ShLin 0%nat 1 0; ShLin 1%nat 1 0], [ShLin 0%nat 1 0; ShLin 1%nat 1 (-2)], Some (cN 1));
  (111, 111, [ShLin 0%nat 1 0; ShLin 1%nat 1 0], [ShLin 0%nat 1 0; ShLin 1%nat 1 (-2)], Some (cN 1));
  (112, 112, [ShLin 0%nat 1 0; ShLin 1%nat 1 0], [ShLin 0%nat 1 0; ShLin 1%nat 1 (-2)], Some (cN 1));
  (113, 113, [ShLin 0%nat 1 0; ShLin 1%nat 1 0], [ShLin 0%nat 1 0; ShLin 1%nat 1 (-2)], Some (cN 1));
  (114, 114, [ShLin 0%nat 1 0; ShLin 1%nat 1 (-2)], [ShLin 0%nat 1 0; ShLin 1%nat 1 (-4)], Some (cN 1));
  (114, 115, [ShLin 0%nat 1 0; ShLin 1%nat 1 (-2)], [ShLin 0%nat 1 0; ShLin 1%nat 1 (-2)], Some (cD (cN 1) (cH 1)));
  (114, 116, [ShLin 0%nat 1 0; ShLin 1%nat 1 (-2)], [ShLin 0%nat 1 0; ShLin 1%nat 1 0], Some QS_e40);
  (115, 115, [ShLin 0%nat 1 0; ShLin 1%nat 1 0], [ShLin 0%nat 1 0; ShLin 1%nat 1 (-2)], Some QS_e30);
  (115, 116, [ShLin 0%nat 1 0; ShLin 1%nat 1 0], [ShLin 0%nat 1 0; ShLin 1%nat 1 0], Some QS_e31);
  (116, 116, [ShLin 0%nat 1 0; ShLin 1%nat 1 2], [ShLin 0%nat 1 0; ShLin 1%nat 1 0], Some QS_e41);
  (117, 117, [ShLin 0%nat 1 0; ShLin 1%nat 1 (-2)], [ShLin 0%nat 1 0; ShLin 1%nat 1 (-4)], Some (cN 1));
  (117, 118, [ShLin 0%nat 1 0; ShLin 1%nat 1 (-2)], [ShLin 0%nat 1 0; ShLin 1%nat 1 (-2)], Some (cD (cN 1) (cH 1)));
  (117, 119, [ShLin 0%nat 1 0; ShLin 1%nat 1 (-2)], [ShLin 0%nat 1 0; ShLin 1%nat 1 0], Some QS_e40);
  (118, 118, [ShLin 0%nat 1 0; ShLin 1%nat 1 0], [ShLin 0%nat 1 0; ShLin 1%nat 1 (-2)], Some QS_e30);
  (118, 119, [ShLin 0%nat 1 0; ShLin 1%nat 1 0], [ShLin 0%nat 1 0; ShLin 1%nat 1 0], Some QS_e31);
  (119, 119, [ShLin 0%nat 1 0; ShLin 1%nat 1 2], [ShLin 0%nat 1 0; ShLin 1%nat 1 0], Some QS_e41);
  (120, 120, [ShLin 0%nat 1 0; ShLin 1%nat 1 (-2)], [ShLin 0%nat 1 0; ShLin 1%nat 1 (-4)], Some (cN 1));
  (120, 121, [ShLin 0%nat 1 0; ShLin 1%nat 1 (-2)], [ShLin 0%nat 1 0; ShLin 1%nat 1 (-2)], Some (cD (cN 1) (cH 1)));
  (120, 122, [ShLin 0%nat 1 0; ShLin 1%nat 1 (-2)], [ShLin 0%nat 1 0; ShLin 1%nat 1 0], Some QS_e40);
  (121, 121, [ShLin 0%nat 1 0; ShLin 1%nat 1 0], [ShLin 0%nat 1 0; ShLin 1%nat 1 (-2)], Some QS_e30);
  (121, 122, [ShLin 0%nat 1 0; ShLin 1%nat 1 0], [ShLin 0%nat 1 0; ShLin 1%nat 1 0], Some QS_e31);
  (122, 122, [ShLin 0%nat 1 0; ShLin 1%nat 1 2], [ShLin 0%nat 1 0; ShLin 1%nat 1 0], Some QS_e41);
  (123, 123, [ShLin 0%nat 1 0; ShLin 1%nat 1 (-2)], [ShLin 0%nat 1 0; ShLin 1%nat 1 (-4)], Some (cN 1));
  (123, 124, [ShLin 0%nat 1 0; ShLin 1%nat 1 (-2)], [ShLin 0%nat 1 0; ShLin 1%nat 1 (-2)], Some (cD (cN 1) (cH 1)));
  (123, 125, [ShLin 0%nat 1 0; ShLin 1%nat 1 (-2)], [ShLin 0%nat 1 0; ShLin 1%nat 1 0], Some QS_e40);
  (124, 124, [ShLin 0%nat 1 0; ShLin 1%nat 1 0], [ShLin 0%nat 1 0; ShLin 1%nat 1 (-2)], Some QS_e30);
  (124, 125, [ShLin 0%nat 1 0; ShLin 1%nat 1 0], [ShLin 0%nat 1 0; ShLin 1%nat 1 0], Some QS_e31);
  (125, 125, [ShLin 0%nat 1 0; ShLin 1%nat 1 2], [ShLin 0%nat 1 0; ShLin 1%nat 1 0], Some QS_e41);
  (126, 126, [ShLin 0%nat 1 0; ShLin 1%nat 1 (-2)], [ShLin 0%nat 1 0; ShLin 1%nat 1 (-4)], Some (cN 1));
  (126, 127, [ShLin 0%nat 1 0; ShLin 1%nat 1 (-2)], [ShLin 0%nat 1 0; ShLin 1%nat 1 (-2)], Some (cD (cN 1) (cH 1)));
  (126, 128, [ShLin 0%nat 1 0; ShLin 1%nat 1 (-2)], [ShLin 0%nat 1 0; ShLin 1%nat 1 0], Some QS_e40);
  (127, 127, [ShLin 0%nat 1 0; ShLin 1%nat 1 0], [ShLin 0%nat 1 0; ShLin 1%nat 1 (-2)], Some QS_e30);
  (127, 128, [ShLin 0%nat 1 0; ShLin 1%nat 1 0], [ShLin 0%nat 1 0; ShLin 1%nat 1 0], Some QS_e31);
  (128, 128, [ShLin 0%nat 1 0; ShLin 1%nat 1 2], [ShLin 0%nat 1 0; ShLin 1%nat 1 0], Some QS_e41);
  (129, 129, [ShLin 0%nat 1 0; ShLin 1%nat 1 (-2)], [ShLin 0%nat 1 0; ShLin 1%nat 1 (-4)], Some (cN 1));
  (129, 130, [ShLin 0%nat 1 0; ShLin 1%nat 1 (-2)], [ShLin 0%nat 1 0; ShLin 1%nat 1 (-2)], Some (cD (cN 1) (cH 1)));
  (129, 131, [ShLin 0%nat 1 0; ShLin 1%nat 1 (-2)], [ShLin 0%nat 1 0; ShLin 1%nat 1 0], Some QS_e40);
  (130, 130, [ShLin 0%nat 1 0; ShLin 1%nat 1 0], [ShLin 0%nat 1 0; ShLin 1%nat 1 (-2)], Some QS_e30);
  (130, 131, [ShLin 0%nat 1 0; ShLin 1%nat 1 0], [ShLin 0%nat 1 0; ShLin 1%nat 1 0], Some QS_e31);
  (131, 131, [ShLin 0%nat 1 0; ShLin 1%nat 1 2], [ShLin 0%nat 1 0; ShLin 1%nat 1 0], Some QS_e41);
  (132, 132, [ShLin 0%nat 1 0; ShLin 1%nat 1 (-2)], [ShLin 0%nat 1 0; ShLin 1%nat 1 (-4)], Some (cN 1));
  (132, 133, [ShLin 0%nat 1 0; ShLin 1%nat 1 (-2)], [ShLin 0%nat 1 0; ShLin 1%nat 1 (-2)], Some (cD (cN 1) (cH 1)));
  (132, 134, [ShLin 0%nat 1 0; ShLin 1%nat 1 (-2)], [ShLin 0%nat 1 0; ShLin 1%nat 1 0], Some QS_e40);
  (133, 133, [ShLin 0%nat 1 0; ShLin 1%nat 1 0], [ShLin 0%nat 1 0; ShLin 1%nat 1 (-2)], Some QS_e30);
  (133, 134, [ShLin 0%nat 1 0; ShLin 1%nat 1 0], [ShLin 0%nat 1 0; ShLin 1%nat 1 0], Some QS_e31);
  (134, 134, [ShLin 0%nat 1 0; ShLin 1%nat 1 2], [ShLin 0%nat 1 0; ShLin 1%nat 1 0], Some QS_e41);
  (135, 135, [ShLin 0%nat 1 0; ShLin 1%nat 1 (-2)], [ShLin 0%nat 1 0; ShLin 1%nat 1 (-4)], Some (cN 1));
  (135, 136, [ShLin 0%nat 1 0; ShLin 1%nat 1 (-2)], [ShLin 0%nat 1 0; ShLin 1%nat 1 (-2)], Some (cD (cN 1) (cH 1)));
  (135, 137, [ShLin 0%nat 1 0; ShLin 1%nat 1 (-2)], [ShLin 0%nat 1 0; ShLin 1%nat 1 0], Some QS_e40);
  (136, 136, [ShLin 0%nat 1 0; ShLin 1%nat 1 0], [ShLin 0%nat 1 0; ShLin 1%nat 1 (-2)], Some QS_e30);
  (136, 137, [ShLin 0%nat 1 0; ShLin 1%nat 1 0], [ShLin 0%nat 1 0; ShLin 1%nat 1 0], Some QS_e31);
  (137, 137, [ShLin 0%nat 1 0; ShLin 1%nat 1 2], [ShLin 0%nat 1 0; ShLin 1%nat 1 0], Some QS_e41);
  (138, 138, [ShLin 0%nat 1 0; ShLin 1%nat 1 (-2)], [ShLin 0%nat 1 0; ShLin 1%nat 1 (-4)], Some (cN 1));
  (138, 139, [ShLin 0%nat 1 0; ShLin 1%nat 1 (-2)], [ShLin 0%nat 1 0; ShLin 1%nat 1 (-2)], Some (cD (cN 1) (cH 1)));
  (138, 140, [ShLin 0%nat 1 0; ShLin 1%nat 1 (-2)], [ShLin 0%nat 1 0; ShLin 1%nat 1 0], Some QS_e40);
  (139, 139, [ShLin 0%nat 1 0; ShLin 1%nat 1 0], [ShLin 0%nat 1 0; ShLin 1%nat 1 (-2)], Some QS_e30);
  (139, 140, [ShLin 0%nat 1 0; ShLin 1%nat 1 0], [ShLin 0%nat 1 0; ShLin 1%nat 1 0], Some QS_e31);
  (140, 140, [ShLin 0%nat 1 0; ShLin 1%nat 1 2], [ShLin 0%nat 1 0; ShLin 1%nat 1 0], Some QS_e41);
  (141, 141, [ShLin 0%nat 1 0; ShLin 1%nat 1 (-2)], [ShLin 0%nat 1 0; ShLin 1%nat 1 (-4)], Some (cN 1));
  (141, 142, [ShLin 0%nat 1 0; ShLin 1%nat 1 (-2)], [ShLin 0%nat 1 0; ShLin 1%nat 1 (-2)], Some (cD (cN 1) (cH 1)));
  (141, 143, [ShLin 0%nat 1 0; ShLin 1%nat 1 (-2)], [ShLin 0%nat 1 0; ShLin 1%nat 1 0], Some QS_e40);
  (142, 142, [ShLin 0%nat 1 0; ShLin 1%nat 1 0], [ShLin 0%nat 1 0; ShLin 1%nat 1 (-2)], Some QS_e30);
  (142, 143, [ShLin 0%nat 1 0; ShLin 1%nat 1 0], [ShLin 0%nat 1 0; ShLin 1%nat 1 0], Some QS_e31);
  (143, 143, [ShLin 0%nat 1 0; ShLin 1%nat 1 2], [ShLin 0%nat 1 0; ShLin 1%nat 1 0], Some QS_e41);
  (144, 144, [ShLin 0%nat 1 0; ShLin 1%nat 1 (-2)], [ShLin 0%nat 1 0; ShLin 1%nat 1 (-4)], Some (cN 1));
  (144, 145, [ShLin 0%nat 1 0; ShLin 1%nat 1 (-2)], [ShLin 0%nat 1 0; ShLin 1%nat 1 (-2)], Some (cD (cN 1) (cH 1)));
  (144, 146, [ShLin 0%nat 1 0; ShLin 1%nat 1 (-2)], [ShLin 0%nat 1 0; ShLin 1%nat 1 0], Some QS_e40);
  (145, 145, [ShLin 0%nat 1 0; ShLin 1%nat 1 0], [ShLin 0%nat 1 0; ShLin 1%nat 1 (-2)], Some QS_e30);
  (145, 146, [ShLin 0%nat 1 0; ShLin 1%nat 1 0], [ShLin 0%nat 1 0; ShLin 1%nat 1 0], Some QS_e31);
  (146, 146, [ShLin 0%nat 1 0; ShLin 1%nat 1 2], [ShLin 0%nat 1 0; ShLin 1%nat 1 0], Some QS_e41);
  (147, 147, [ShLin 0%nat 1 0; ShLin 1%nat 1 (-2)], [ShLin 0%nat 1 0; ShLin 1%nat 1 (-4)], Some (cN 1));
  (147, 148, [ShLin 0%nat 1 0; ShLin 1%nat 1 (-2)], [ShLin 0%nat 1 0; ShLin 1%nat 1 (-2)], Some (cD (cN 1) (cH 1)));
  (147, 149, [ShLin 0%nat 1 0; ShLin 1%nat 1 (-2)], [ShLin 0%nat 1 0; ShLin 1%nat 1 0], Some QS_e40);
  (148, 148, [ShLin 0%nat 1 0; ShLin 1%nat 1 0], [ShLin 0%nat 1 0; ShLin 1%nat 1 (-2)], Some QS_e30);
  (148, 149, [ShLin 0%nat 1 0; ShLin 1%nat 1 0], [ShLin 0%nat 1 0; ShLin 1%nat 1 0], Some QS_e31);
  (149, 149, [ShLin 0%nat 1 0; ShLin 1%nat 1 2], [ShLin 0%nat 1 0; ShLin 1%nat 1 0], Some QS_e41);
  (150, 150, [ShLin 0%nat 1 0; ShLin 1%nat 1 (-2)], [ShLin 0%nat 1 0; ShLin 1%nat 1 (-4)], Some (cN 1));
  (150, 151, [ShLin 0%nat 1 0; ShLin 1%nat 1 (-2)], [ShLin 0%nat 1 0; ShLin 1%nat 1 (-2)], Some (cD (cN 1) (cH 1)));
  (150, 152, [ShLin 0%nat 1 0; ShLin 1%nat 1 (-2)], [ShLin 0%nat 1 0; ShLin 1%nat 1 0], Some QS_e40);
  (151, 151, [ShLin 0%nat 1 0; ShLin 1%nat 1 0], [ShLin 0%nat 1 0; ShLin 1%nat 1 (-2)], Some QS_e30);
  (151, 152, [ShLin 0%nat 1 0; ShLin 1%nat 1 0], [ShLin 0%nat 1 0; ShLin 1%nat 1 0], Some QS_e31);
  (152, 152, [ShLin 0%nat 1 0; ShLin 1%nat 1 2], [ShLin 0%nat 1 0; ShLin 1%nat 1 0], Some QS_e41);
  (153, 153, [ShLin 0%nat 1 0; ShLin 1%nat 1 (-2)], [ShLin 0%nat 1 0; ShLin 1%nat 1 (-4)], Some (cN 1));
  (153, 154, [ShLin 0%nat 1 0; ShLin 1%nat 1 (-2)], [ShLin 0%nat 1 0; ShLin 1%nat 1 (-2)], Some (cD (cN 1) (cH 1)));
  (153, 155, [ShLin 0%nat 1 0; ShLin 1%nat 1 (-2)], [ShLin 0%nat 1 0; ShLin 1%nat 1 0], Some QS_e40);
  (154, 154, [ShLin 0%nat 1 0; ShLin 1%nat 1 0], [ShLin 0%nat 1 0; ShLin 1%nat 1 (-2)], Some QS_e30);
  (154, 155, [ShLin 0%nat 1 0; ShLin 1%nat 1 0], [ShLin 0%nat 1 0; ShLin 1%nat 1 0], Some QS_e31);
  (155, 155, [ShLin 0%nat 1 0; ShLin 1%nat 1 2], [ShLin 0%nat 1 0; ShLin 1%nat 1 0], Some QS_e41);
  (156, 156, [ShLin 0%nat 1 0; ShLin 1%nat 1 (-2)], [ShLin 0%nat 1 0; ShLin 1%nat 1 (-4)], Some (cN 1));
  (156, 157, [ShLin 0%nat 1 0; ShLin 1%nat 1 (-2)], [ShLin 0%nat 1 0; ShLin 1%nat 1 (-2)], Some (cD (cN 1) (cH 1)));
  (156, 158, [ShLin 0%nat 1 0; ShLin 1%nat 1 (-2)], [ShLin 0%nat 1 0; ShLin 1%nat 1 0], Some QS_e40);
  (157, 157, [ShLin 0%nat 1 0; ShLin 1%nat 1 0], [ShLin 0%nat 1 0; ShLin 1%nat 1 (-2)], Some QS_e30);
  (157, 158, [ShLin 0%nat 1 0; ShLin 1%nat 1 0], [ShLin 0%nat 1 0; ShLin 1%nat 1 0], Some QS_e31);
  (158, 158, [ShLin 0%nat 1 0; ShLin 1%nat 1 2], [ShLin 0%nat 1 0; ShLin 1%nat 1 0], Some QS_e41);
  (159, 159, [ShLin 0%nat 1 0; ShLin 1%nat 1 (-4)], [ShLin 0%nat 1 0; ShLin 1%nat 1 (-6)], Some (cN 1));
  (159, 160, [ShLin 0%nat 1 0; ShLin 1%nat 1 (-4)], [ShLin 0%nat 1 0; ShLin 1%nat 1 (-4)], Some QS_e351);
  (159, 161, [ShLin 0%nat 1 0; ShLin 1%nat 1 (-4)], [ShLin 0%nat 1 0; ShLin 1%nat 1 (-2)], Some QS_e352);
  (160, 160, [ShLin 0%nat 1 0; ShLin 1%nat 1 (-2)], [ShLin 0%nat 1 0; ShLin 1%nat 1 (-4)], Some QS_e327);
  (160, 161, [ShLin 0%nat 1 0; ShLin 1%nat 1 (-2)], [ShLin 0%nat 1 0; ShLin 1%nat 1 (-2)], Some QS_e353);
  (160, 162, [ShLin 0%nat 1 0; ShLin 1%nat 1 (-2)], [ShLin 0%nat 1 0; ShLin 1%nat 1 0], Some QS_e354);
  (161, 161, [ShLin 0%nat 1 0; ShLin 1%nat 1 0], [ShLin 0%nat 1 0; ShLin 1%nat 1 (-2)], Some QS_e355);
  (161, 162, [ShLin 0%nat 1 0; ShLin 1%nat 1 0], [ShLin 0%nat 1 0; ShLin 1%nat 1 0], Some QS_e356);
  (161, 163, [ShLin 0%nat 1 0; ShLin 1%nat 1 0], [ShLin 0%nat 1 0; ShLin 1%nat 1 2], Some QS_e357);
  (162, 162, [ShLin 0%nat 1 0; ShLin 1%nat 1 2], [ShLin 0%nat 1 0; ShLin 1%nat 1 0], Some QS_e358);
  (162, 163, [ShLin 0%nat 1 0; ShLin 1%nat 1 2], [ShLin 0%nat 1 0; ShLin 1%nat 1 2], Some QS_e359);
  (163, 163, [ShLin 0%nat 1 0; ShLin 1%nat 1 4], [ShLin 0%nat 1 0; ShLin 1%nat 1 2], Some QS_e360);
  (164, 164, [ShLin 0%nat 1 (-1); ShLin 1%nat 1 (-1)], [ShLin 0%nat 1 (-1); ShLin 1%nat 1 (-3)], Some (cN 1));
  (164, 165, [ShLin 0%nat 1 (-1); ShLin 1%nat 1 (-1)], [ShLin 0%nat 1 (-1); ShLin 1%nat 1 (-1)], Some QS_e11);
  (165, 165, [ShLin 0%nat 1 (-1); ShLin 1%nat 1 1], [ShLin 0%nat 1 (-1); ShLin 1%nat 1 (-1)], Some QS_e5);
  (166, 166, [ShLin 0%nat 1 (-1); ShLin 1%nat 1 (-1)], [ShLin 0%nat 1 (-1); ShLin 1%nat 1 (-3)], Some (cN 1));
  (166, 167, [ShLin 0%nat 1 (-1); ShLin 1%nat 1 (-1)], [ShLin 0%nat 1 (-1); ShLin 1%nat 1 (-1)], Some QS_e11);
  (167, 167, [ShLin 0%nat 1 (-1); ShLin 1%nat 1 1], [ShLin 0%nat 1 (-1); ShLin 1%nat 1 (-1)], Some QS_e5);
  (168, 168, [ShLin 0%nat 1 (-1); ShLin 1%nat 1 (-1)], [ShLin 0%nat 1 (-1); ShLin 1%nat 1 (-3)], Some (cN 1));
  (168, 169, [ShLin 0%nat 1 (-1); ShLin 1%nat 1 (-1)], [ShLin 0%nat 1 (-1); ShLin 1%nat 1 (-1)], Some QS_e11);
  (169, 169, [ShLin 0%nat 1 (-1); ShLin 1%nat 1 1], [ShLin 0%nat 1 (-1); ShLin 1%nat 1 (-1)], Some QS_e5);
  (170, 170, [ShLin 0%nat 1 (-1); ShLin 1%nat 1 (-1)], [ShLin 0%nat 1 (-1); ShLin 1%nat 1 (-3)], Some (cN 1));
  (170, 171, [ShLin 0%nat 1 (-1); ShLin 1%nat 1 (-1)], [ShLin 0%nat 1 (-1); ShLin 1%nat 1 (-1)], Some QS_e11);
  (171, 171, [ShLin 0%nat 1 (-1); ShLin 1%nat 1 1], [ShLin 0%nat 1 (-1); ShLin 1%nat 1 (-1)], Some QS_e5);
  (172, 172, [ShLin 0%nat 1 (-1); ShLin 1%nat 1 (-1)], [ShLin 0%nat 1 (-1); ShLin 1%nat 1 (-3)], Some (cN 1));
  (172, 173, [ShLin 0%nat 1 (-1); ShLin 1%nat 1 (-1)], [ShLin 0%nat 1 (-1); ShLin 1%nat 1 (-1)], Some QS_e11);
  (173, 173, [ShLin 0%nat 1 (-1); ShLin 1%nat 1 1], [ShLin 0%nat 1 (-1); ShLin 1%nat 1 (-1)], Some QS_e5);
  (174, 174, [ShLin 0%nat 1 (-1); ShLin 1%nat 1 (-1)], [ShLin 0%nat 1 (-1); ShLin 1%nat 1 (-3)], Some (cN 1));
  (174, 175, [ShLin 0%nat 1 (-1); ShLin 1%nat 1 (-1)], [ShLin 0%nat 1 (-1); ShLin 1%nat 1 (-1)], Some QS_e11);
  (175, 175, [ShLin 0%nat 1 (-1); ShLin 1%nat 1 1], [ShLin 0%nat 1 (-1); ShLin 1%nat 1 (-1)], Some QS_e5);
  (176, 176, [ShLin 0%nat 1 (-1); ShLin 1%nat 1 (-1)], [ShLin 0%nat 1 (-1); ShLin 1%nat 1 (-3)], Some (cN 1));
  (176, 177, [ShLin 0%nat 1 (-1); ShLin 1%nat 1 (-1)], [ShLin 0%nat 1 (-1); ShLin 1%nat 1 (-1)], Some QS_e11);
  (177, 177, [ShLin 0%nat 1 (-1); ShLin 1%nat 1 1], [ShLin 0%nat 1 (-1); ShLin 1%nat 1 (-1)], Some QS_e5);
  (178, 178, [ShLin 0%nat 1 (-1); ShLin 1%nat 1 (-1)], [ShLin 0%nat 1 (-1); ShLin 1%nat 1 (-3)], Some (cN 1));
  (178, 179, [ShLin 0%nat 1 (-1); ShLin 1%nat 1 (-1)], [ShLin 0%nat 1 (-1); ShLin 1%nat 1 (-1)], Some QS_e11);
  (179, 179, [ShLin 0%nat 1 (-1); ShLin 1%nat 1 1], [ShLin 0%nat 1 (-1); ShLin 1%nat 1 (-1)], Some QS_e5);
  (180, 180, [ShLin 0%nat 1 (-1); ShLin 1%nat 1 (-1)], [ShLin 0%nat 1 (-1); ShLin 1%nat 1 (-3)], Some (cN 1));
  (180, 181, [ShLin 0%nat 1 (-1); ShLin 1%nat 1 (-1)], [ShLin 0%nat 1 (-1); ShLin 1%nat 1 (-1)], Some QS_e11);
  (181, 181, [ShLin 0%nat 1 (-1); ShLin 1%nat 1 1], [ShLin 0%nat 1 (-1); ShLin 1%nat 1 (-1)], Some QS_e5);
  (182, 182, [ShLin 0%nat 1 (-1); ShLin 1%nat 1 (-1)], [ShLin 0%nat 1 (-1); ShLin 1%nat 1 (-3)], Some (cN 1));
  (182, 183, [ShLin 0%nat 1 (-1); ShLin 1%nat 1 (-1)], [ShLin 0%nat 1 (-1); ShLin 1%nat 1 (-1)], Some QS_e11);
  (183, 183, [ShLin 0%nat 1 (-1); ShLin 1%nat 1 1], [ShLin 0%nat 1 (-1); ShLin 1%nat 1 (-1)], Some QS_e5);
  (184, 184, [ShLin 0%nat 1 (-1); ShLin 1%nat 1 (-1)], [ShLin 0%nat 1 (-1); ShLin 1%nat 1 (-3)], Some (cN 1));
  (184, 185, [ShLin 0%nat 1 (-1); ShLin 1%nat 1 (-1)], [ShLin 0%nat 1 (-1); ShLin 1%nat 1 (-1)], Some QS_e11);
  (185, 185, [ShLin 0%nat 1 (-1); ShLin 1%nat 1 1], [ShLin 0%nat 1 (-1); ShLin 1%nat 1 (-1)], Some QS_e5);
  (186, 186, [ShLin 0%nat 1 (-1); ShLin 1%nat 1 (-1)], [ShLin 0%nat 1 (-1); ShLin 1%nat 1 (-3)], Some (cN 1));
  (186, 187, [ShLin 0%nat 1 (-1); ShLin 1%nat 1 (-1)], [ShLin 0%nat 1 (-1); ShLin 1%nat 1 (-1)], Some QS_e11);
  (187, 187, [ShLin 0%nat 1 (-1); ShLin 1%nat 1 1], [ShLin 0%nat 1 (-1); ShLin 1%nat 1 (-1)], Some QS_e5);
  (188, 188, [ShLin 0%nat 1 (-1); ShLin 1%nat 1 (-1)], [ShLin 0%nat 1 (-1); ShLin 1%nat 1 (-3)], Some (cN 1));
  (188, 189, [ShLin 0%nat 1 (-1); ShLin 1%nat 1 (-1)], [ShLin 0%nat 1 (-1); ShLin 1%nat 1 (-1)], Some QS_e11);
  (189, 189, [ShLin 0%nat 1 (-1); ShLin 1%nat 1 1], [ShLin 0%nat 1 (-1); ShLin 1%nat 1 (-1)], Some QS_e5);
  (190, 190, [ShLin 0%nat 1 (-1); ShLin 1%nat 1 (-1)], [ShLin 0%nat 1 (-1); ShLin 1%nat 1 (-3)], Some (cN 1));
  (190, 191, [ShLin 0%nat 1 (-1); ShLin 1%nat 1 (-1)], [ShLin 0%nat 1 (-1); ShLin 1%nat 1 (-1)], Some QS_e11);
  (191, 191, [ShLin 0%nat 1 (-1); ShLin 1%nat 1 1], [ShLin 0%nat 1 (-1); ShLin 1%nat 1 (-1)], Some QS_e5);
  (192, 192, [ShLin 0%nat 1 (-1); ShLin 1%nat 1 (-1)], [ShLin 0%nat 1 (-1); ShLin 1%nat 1 (-3)], Some (cN 1));
  (192, 193, [ShLin 0%nat 1 (-1); ShLin 1%nat 1 (-1)], [ShLin 0%nat 1 (-1); ShLin 1%nat 1 (-1)], Some QS_e11);
  (193, 193, [ShLin 0%nat 1 (-1); ShLin 1%nat 1 1], [ShLin 0%nat 1 (-1); ShLin 1%nat 1 (-1)], Some QS_e5);
  (194, 194, [ShLin 0%nat 1 (-1); ShLin 1%nat 1 (-1)], [ShLin 0%nat 1 (-1); ShLin 1%nat 1 (-3)], Some (cN 1));
  (194, 195, [ShLin 0%nat 1 (-1); ShLin 1%nat 1 (-1)], [ShLin 0%nat 1 (-1); ShLin 1%nat 1 (-1)], Some QS_e11);
  (195, 195, [ShLin 0%nat 1 (-1); ShLin 1%nat 1 1], [ShLin 0%nat 1 (-1); ShLin 1%nat 1 (-1)], Some QS_e5);
  (196, 196, [ShLin 0%nat 1 (-1); ShLin 1%nat 1 (-1)], [ShLin 0%nat 1 (-1); ShLin 1%nat 1 (-3)], Some (cN 1));
  (196, 197, [ShLin 0%nat 1 (-1); ShLin 1%nat 1 (-1)], [ShLin 0%nat 1 (-1); ShLin 1%nat 1 (-1)], Some QS_e11);
  (197, 197, [ShLin 0%nat 1 (-1); ShLin 1%nat 1 1], [ShLin 0%nat 1 (-1); ShLin 1%nat 1 (-1)], Some QS_e5);
  (198, 198, [ShLin 0%nat 1 (-1); ShLin 1%nat 1 (-1)], [ShLin 0%nat 1 (-1); ShLin 1%nat 1 (-3)], Some (cN 1));
  (198, 199, [ShLin 0%nat 1 (-1); ShLin 1%nat 1 (-1)], [ShLin 0%nat 1 (-1); ShLin 1%nat 1 (-1)], Some QS_e11);
  (199, 199, [ShLin 0%nat 1 (-1); ShLin 1%nat 1 1], [ShLin 0%nat 1 (-1); ShLin 1%nat 1 (-1)], Some QS_e5);
  (200, 200, [ShLin 0%nat 1 (-1); ShLin 1%nat 1 (-1)], [ShLin 0%nat 1 (-1); ShLin 1%nat 1 (-3)], Some (cN 1));
  (200, 201, [ShLin 0%nat 1 (-1); ShLin 1%nat 1 (-1)], [ShLin 0%nat 1 (-1); ShLin 1%nat 1 (-1)], Some QS_e11);
  (201, 201, [ShLin 0%nat 1 (-1); ShLin 1%nat 1 1], [ShLin 0%nat 1 (-1); ShLin 1%nat 1 (-1)], Some QS_e5);
  (202, 202, [ShLin 0%nat 1 (-1); ShLin 1%nat 1 (-1)], [ShLin 0%nat 1 (-1); ShLin 1%nat 1 (-3)], Some (cN 1));
  (202, 203, [ShLin 0%nat 1 (-1); ShLin 1%nat 1 (-1)], [ShLin 0%nat 1 (-1); ShLin 1%nat 1 (-1)], Some QS_e11);
  (203, 203, [ShLin 0%nat 1 (-1); ShLin 1%nat 1 1], [ShLin 0%nat 1 (-1); ShLin 1%nat 1 (-1)], Some QS_e5);
  (204, 204, [ShLin 0%nat 1 (-1); ShLin 1%nat 1 (-3)], [ShLin 0%nat 1 (-1); ShLin 1%nat 1 (-5)], Some (cN 1));
  (204, 205, [ShLin 0%nat 1 (-1); ShLin 1%nat 1 (-3)], [ShLin 0%nat 1 (-1); ShLin 1%nat 1 (-3)], Some QS_e129);
  (204, 206, [ShLin 0%nat 1 (-1); ShLin 1%nat 1 (-3)], [ShLin 0%nat 1 (-1); ShLin 1%nat 1 (-1)], Some QS_e130);
  (205, 205, [ShLin 0%nat 1 (-1); ShLin 1%nat 1 (-1)], [ShLin 0%nat 1 (-1); ShLin 1%nat 1 (-3)], Some QS_e111);
  (205, 206, [ShLin 0%nat 1 (-1); ShLin 1%nat 1 (-1)], [ShLin 0%nat 1 (-1); ShLin 1%nat 1 (-1)], Some QS_e131);
  (205, 207, [ShLin 0%nat 1 (-1); ShLin 1%nat 1 (-1)], [ShLin 0%nat 1 (-1); ShLin 1%nat 1 1], Some QS_e124);
  (206, 206, [ShLin 0%nat 1 (-1); ShLin 1%nat 1 1], [ShLin 0%nat 1 (-1); ShLin 1%nat 1 (-1)], Some QS_e132);
  (206, 207, [ShLin 0%nat 1 (-1); ShLin 1%nat 1 1], [ShLin 0%nat 1 (-1); ShLin 1%nat 1 1], Some QS_e133);
  (207, 207, [ShLin 0%nat 1 (-1); ShLin 1%nat 1 3], [ShLin 0%nat 1 (-1); ShLin 1%nat 1 1], Some QS_e134);
  (208, 208, [ShLin 0%nat 1 (-1); ShLin 1%nat 1 (-3)], [ShLin 0%nat 1 (-1); ShLin 1%nat 1 (-5)], Some (cN 1));
  (208, 209, [ShLin 0%nat 1 (-1); ShLin 1%nat 1 (-3)], [ShLin 0%nat 1 (-1); ShLin 1%nat 1 (-3)], Some QS_e129);
  (208, 210, [ShLin 0%nat 1 (-1); ShLin 1%nat 1 (-3)], [ShLin 0%nat 1 (-1); ShLin 1%nat 1 (-1)], Some QS_e130);
  (209, 209, [ShLin 0%nat 1 (-1); ShLin 1%nat 1 (-1)], [ShLin 0%nat 1 (-1); ShLin 1%nat 1 (-3)], Some QS_e111);
  (209, 210, [ShLin 0%nat 1 (-1); ShLin 1%nat 1 (-1)], [ShLin 0%nat 1 (-1); ShLin 1%nat 1 (-1)], Some QS_e131);
  (209, 211, [ShLin 0%nat 1 (-1); ShLin 1%nat 1 (-1)], [ShLin 0%nat 1 (-1); ShLin 1%nat 1 1], Some QS_e124);
  (210, 210, [ShLin 0%nat 1 (-1); ShLin 1%nat 1 1], [ShLin 0%nat 1 (-1); ShLin 1%nat 1 (-1)], Some QS_e132);
  (210, 211, [ShLin 0%nat 1 (-1); ShLin 1%nat 1 1], [ShLin 0%nat 1 (-1); ShLin 1%nat 1 1], Some QS_e133);
  (211, 211, [ShLin 0%nat 1 (-1); ShLin 1%nat 1 3], [ShLin 0%nat 1 (-1); ShLin 1%nat 1 1], Some QS_e134);
  (212, 212, [ShLin 0%nat 1 (-1); ShLin 1%nat 1 (-3)], [ShLin 0%nat 1 (-1); ShLin 1%nat 1 (-5)], Some (cN 1));
  (212, 213, [ShLin 0%nat 1 (-1); ShLin 1%nat 1 (-3)], [ShLin 0%nat 1 (-1); ShLin 1%nat 1 (-3)], Some QS_e129);
  (212, 214, [ShLin 0%nat 1 (-1); ShLin 1%nat 1 (-3)], [ShLin 0%nat 1 (-1); ShLin 1%nat 1 (-1)], Some QS_e130);
  (213, 213, [ShLin 0%nat 1 (-1); ShLin 1%nat 1 (-1)], [ShLin 0%nat 1 (-1); ShLin 1%nat 1 (-3)], Some QS_e111);
  (213, 214, [ShLin 0%nat 1 (-1); ShLin 1%nat 1 (-1)], [ShLin 0%nat 1 (-1); ShLin 1%nat 1 (-1)], Some QS_e131);
  (213, 215, [ShLin 0%nat 1 (-1); ShLin 1%nat 1 (-1)], [ShLin 0%nat 1 (-1); ShLin 1%nat 1 1], Some QS_e124);
  (214, 214, [ShLin 0%nat 1 (-1); ShLin 1%nat 1 1], [ShLin 0%nat 1 (-1); ShLin 1%nat 1 (-1)], Some QS_e132);
  (214, 215, [ShLin 0%nat 1 (-1); ShLin 1%nat 1 1], [ShLin 0%nat 1 (-1); ShLin 1%nat 1 1], Some QS_e133);
  (215, 215, [ShLin 0%nat 1 (-1); ShLin 1%nat 1 3], [ShLin 0%nat 1 (-1); ShLin 1%nat 1 1], Some QS_e134);
  (216, 216, [ShLin 0%nat 1 (-1); ShLin 1%nat 1 (-3)], [ShLin 0%nat 1 (-1); ShLin 1%nat 1 (-5)], Some (cN 1));
  (216, 217, [ShLin 0%nat 1 (-1); ShLin 1%nat 1 (-3)], [ShLin 0%nat 1 (-1); ShLin 1%nat 1 (-3)], Some QS_e129);
  (216, 218, [ShLin 0%nat 1 (-1); ShLin 1%nat 1 (-3)], [ShLin 0%nat 1 (-1); ShLin 1%nat 1 (-1)], Some QS_e130);
  (217, 217, [ShLin 0%nat 1 (-1); ShLin 1%nat 1 (-1)], [ShLin 0%nat 1 (-1); ShLin 1%nat 1 (-3)], Some QS_e111);
  (217, 218, [ShLin 0%nat 1 (-1); ShLin 1%nat 1 (-1)], [ShLin 0%nat 1 (-1); ShLin 1%nat 1 (-1)], Some QS_e131);
  (217, 219, [ShLin 0%nat 1 (-1); ShLin 1%nat 1 (-1)], [ShLin 0%nat 1 (-1); ShLin 1%nat 1 1], Some QS_e124);
  (218, 218, [ShLin 0%nat 1 (-1); ShLin 1%nat 1 1], [ShLin 0%nat 1 (-1); ShLin 1%nat 1 (-1)], Some QS_e132);
  (218, 219, [ShLin 0%nat 1 (-1); ShLin 1%nat 1 1], [ShLin 0%nat 1 (-1); ShLin 1%nat 1 1], Some QS_e133);
  (219, 219, [ShLin 0%nat 1 (-1); ShLin 1%nat 1 3], [ShLin 0%nat 1 (-1); ShLin 1%nat 1 1], Some QS_e134);
  (220, 220, [ShLin 0%nat 1 (-2); ShLin 1%nat 1 0], [ShLin 0%nat 1 (-2); ShLin 1%nat 1 (-2)], Some (cN 1));
  (221, 221, [ShLin 0%nat 1 (-2); ShLin 1%nat 1 0], [ShLin 0%nat 1 (-2); ShLin 1%nat 1 (-2)], Some (cN 1));
  (222, 222, [ShLin 0%nat 1 (-2); ShLin 1%nat 1 0], [ShLin 0%nat 1 (-2); ShLin 1%nat 1 (-2)], Some (cN 1));
  (223, 223, [ShLin 0%nat 1 (-2); ShLin 1%nat 1 0], [ShLin 0%nat 1 (-2); ShLin 1%nat 1 (-2)], Some (cN 1));
  (224, 224, [ShLin 0%nat 1 (-2); ShLin 1%nat 1 0], [ShLin 0%nat 1 (-2); ShLin 1%nat 1 (-2)], Some (cN 1));
  (225, 225, [ShLin 0%nat 1 (-2); ShLin 1%nat 1 0], [ShLin 0%nat 1 (-2); ShLin 1%nat 1 (-2)], Some (cN 1));
  (226, 226, [ShLin 0%nat 1 (-2); ShLin 1%nat 1 0], [ShLin 0%nat 1 (-2); ShLin 1%nat 1 (-2)], Some (cN 1));
  (227, 227, [ShLin 0%nat 1 (-2); ShLin 1%nat 1 0], [ShLin 0%nat 1 (-2); ShLin 1%nat 1 (-2)], Some (cN 1));
  (228, 228, [ShLin 0%nat 1 (-2); ShLin 1%nat 1 0], [ShLin 0%nat 1 (-2); ShLin 1%nat 1 (-2)], Some (cN 1));
  (229, 229, [ShLin 0%nat 1 (-2); ShLin 1%nat 1 0], [ShLin 0%nat 1 (-2); ShLin 1%nat 1 (-2)], Some (cN 1));
  (230, 230, [ShLin 0%nat 1 (-2); ShLin 1%nat 1 (-2)], [ShLin 0%nat 1 (-2); ShLin 1%nat 1 (-4)], Some (cN 1));
  (230, 231, [ShLin 0%nat 1 (-2); ShLin 1%nat 1 (-2)], [ShLin 0%nat 1 (-2); ShLin 1%nat 1 (-2)], Some (cD (cN 1) (cH 1)));
  (230, 232, [ShLin 0%nat 1 (-2); ShLin 1%nat 1 (-2)], [ShLin 0%nat 1 (-2); ShLin 1%nat 1 0], Some QS_e40);
  (231, 231, [ShLin 0%nat 1 (-2); ShLin 1%nat 1 0], [ShLin 0%nat 1 (-2); ShLin 1%nat 1 (-2)], Some QS_e30);
  (231, 232, [ShLin 0%nat 1 (-2); ShLin 1%nat 1 0], [ShLin 0%nat 1 (-2); ShLin 1%nat 1 0], Some QS_e31);
  (232, 232, [ShLin 0%nat 1 (-2); ShLin 1%nat 1 2], [ShLin 0%nat 1 (-2); ShLin 1%nat 1 0], Some QS_e41);
  (233, 233, [ShLin 0%nat 1 (-2); ShLin 1%nat 1 (-2)], [ShLin 0%nat 1 (-2); ShLin 1%nat 1 (-4)], Some (cN 1));
  (233, 234, [ShLin 0%nat 1 (-2); ShLin 1%nat 1 (-2)], [ShLin 0%nat 1 (-2); ShLin 1%nat 1 (-2)], Some (cD (cN 1) (cH 1)));
  (233, 235, [ShLin 0%nat 1 (-2); ShLin 1%nat 1 (-2)], [ShLin 0%nat 1 (-2); ShLin 1%nat 1 0], Some QS_e40);
  (234, 234, [ShLin 0%nat 1 (-2); ShLin 1%nat 1 0], [ShLin 0%nat 1 (-2); ShLin 1%nat 1 (-2)], Some QS_e30);
  (234, 235, [ShLin 0%nat 1 (-2); ShLin 1%nat 1 0], [ShLin 0%nat 1 (-2); ShLin 1%nat 1 0], Some QS_e31);
  (235, 235, [ShLin 0%nat 1 (-2); ShLin 1%nat 1 2], [ShLin 0%nat 1 (-2); ShLin 1%nat 1 0], Some QS_e41);
  (236, 236, [ShLin 0%nat 1 (-2); ShLin 1%nat 1 (-2)], [ShLin 0%nat 1 (-2); ShLin 1%nat 1 (-4)], Some (cN 1));
  (236, 237, [ShLin 0%nat 1 (-2); ShLin 1%nat 1 (-2)], [ShLin 0%nat 1 (-2); ShLin 1%nat 1 (-2)], Some (cD (cN 1) (cH 1)));
  (236, 238, [ShLin 0%nat 1 (-2); ShLin 1%nat 1 (-2)], [ShLin 0%nat 1 (-2); ShLin 1%nat 1 0], Some QS_e40);
  (237, 237, [ShLin 0%nat 1 (-2); ShLin 1%nat 1 0], [ShLin 0%nat 1 (-2); ShLin 1%nat 1 (-2)], Some QS_e30);
  (237, 238, [ShLin 0%nat 1 (-2); ShLin 1%nat 1 0], [ShLin 0%nat 1 (-2); ShLin 1%nat 1 0], Some QS_e31);
  (238, 238, [ShLin 0%nat 1 (-2); ShLin 1%nat 1 2], [ShLin 0%nat 1 (-2); ShLin 1%nat 1 0], Some QS_e41);
  (239, 239, [ShLin 0%nat 1 (-2); ShLin 1%nat 1 (-2)], [ShLin 0%nat 1 (-2); ShLin 1%nat 1 (-4)], Some (cN 1));
  (239, 240, [ShLin 0%nat 1 (-2); ShLin 1%nat 1 (-2)], [ShLin 0%nat 1 (-2); ShLin 1%nat 1 (-2)], Some (cD (cN 1) (cH 1)));
  (239, 241, [ShLin 0%nat 1 (-2); ShLin 1%nat 1 (-2)], [ShLin 0%nat 1 (-2); ShLin 1%nat 1 0], Some QS_e40);
  (240, 240, [ShLin 0%nat 1 (-2); ShLin 1%nat 1 0], [ShLin 0%nat 1 (-2); ShLin 1%nat 1 (-2)], Some QS_e30);
  (240, 241, [ShLin 0%nat 1 (-2); ShLin 1%nat 1 0], [ShLin 0%nat 1 (-2); ShLin 1%nat 1 0], Some QS_e31);
  (241, 241, [ShLin 0%nat 1 (-2); ShLin 1%nat 1 2], [ShLin 0%nat 1 (-2); ShLin 1%nat 1 0], Some QS_e41);
  (242, 242, [ShLin 0%nat 1 (-2); ShLin 1%nat 1 (-2)], [ShLin 0%nat 1 (-2); ShLin 1%nat 1 (-4)], Some (cN 1));
  (242, 243, [ShLin 0%nat 1 (-2); ShLin 1%nat 1 (-2)], [ShLin 0%nat 1 (-2); ShLin 1%nat 1 (-2)], Some (cD (cN 1) (cH 1)));
  (242, 244, [ShLin 0%nat 1 (-2); ShLin 1%nat 1 (-2)], [ShLin 0%nat 1 (-2); ShLin 1%nat 1 0], Some QS_e40);
  (243, 243, [ShLin 0%nat 1 (-2); ShLin 1%nat 1 0], [ShLin 0%nat 1 (-2); ShLin 1%nat 1 (-2)], Some QS_e30);
  (243, 244, [ShLin 0%nat 1 (-2); ShLin 1%nat 1 0], [ShLin 0%nat 1 (-2); ShLin 1%nat 1 0], Some QS_e31);
  (244, 244, [ShLin 0%nat 1 (-2); ShLin 1%nat 1 2], [ShLin 0%nat 1 (-2); ShLin 1%nat 1 0], Some QS_e41);
  (245, 245, [ShLin 0%nat 1 (-2); ShLin 1%nat 1 (-2)], [ShLin 0%nat 1 (-2); ShLin 1%nat 1 (-4)], Some (cN 1));
  (245, 246, [ShLin 0%nat 1 (-2); ShLin 1%nat 1 (-2)], [ShLin 0%nat 1 (-2); ShLin 1%nat 1 (-2)], Some (cD (cN 1) (cH 1)));
  (245, 247, [ShLin 0%nat 1 (-2); ShLin 1%nat 1 (-2)], [ShLin 0%nat 1 (-2); ShLin 1%nat 1 0], Some QS_e40);
  (246, 246, [ShLin 0%nat 1 (-2); ShLin 1%nat 1 0], [ShLin 0%nat 1 (-2); ShLin 1%nat 1 (-2)], Some QS_e30);
  (246, 247, [ShLin 0%nat 1 (-2); ShLin 1%nat 1 0], [ShLin 0%nat 1 (-2); ShLin 1%nat 1 0], Some QS_e31);
  (247, 247, [ShLin 0%nat 1 (-2); ShLin 1%nat 1 2], [ShLin 0%nat 1 (-2); ShLin 1%nat 1 0], Some QS_e41);
  (248, 248, [ShLin 0%nat 1 (-3); ShLin 1%nat 1 (-1)], [ShLin 0%nat 1 (-3); ShLin 1%nat 1 (-3)], Some (cN 1));
  (248, 249, [ShLin 0%nat 1 (-3); ShLin 1%nat 1 (-1)], [ShLin 0%nat 1 (-3); ShLin 1%nat 1 (-1)], Some QS_e11);
  (249, 249, [ShLin 0%nat 1 (-3); ShLin 1%nat 1 1], [ShLin 0%nat 1 (-3); ShLin 1%nat 1 (-1)], Some QS_e5);
  (250, 250, [ShLin 0%nat 1 (-3); ShLin 1%nat 1 (-1)], [ShLin 0%nat 1 (-3); ShLin 1%nat 1 (-3)], Some (cN 1));
  (250, 251, [ShLin 0%nat 1 (-3); ShLin 1%nat 1 (-1)], [ShLin 0%nat 1 (-3); ShLin 1%nat 1 (-1)], Some QS_e11);
  (251, 251, [ShLin 0%nat 1 (-3); ShLin 1%nat 1 1], [ShLin 0%nat 1 (-3); ShLin 1%nat 1 (-1)], Some QS_e5);
  (252, 252, [ShLin 0%nat 1 (-3); ShLin 1%nat 1 (-1)], [ShLin 0%nat 1 (-3); ShLin 1%nat 1 (-3)], Some (cN 1));
  (252, 253, [ShLin 0%nat 1 (-3); ShLin 1%nat 1 (-1)], [ShLin 0%nat 1 (-3); ShLin 1%nat 1 (-1)], Some QS_e11);
  (253, 253, [ShLin 0%nat 1 (-3); ShLin 1%nat 1 1], [ShLin 0%nat 1 (-3); ShLin 1%nat 1 (-1)], Some QS_e5);
  (254, 254, [ShLin 0%nat 1 (-3); ShLin 1%nat 1 (-1)], [ShLin 0%nat 1 (-3); ShLin 1%nat 1 (-3)], Some (cN 1));
  (254, 255, [ShLin 0%nat 1 (-3); ShLin 1%nat 1 (-1)], [ShLin 0%nat 1 (-3); ShLin 1%nat 1 (-1)], Some QS_e11);
  (255, 255, [ShLin 0%nat 1 (-3); ShLin 1%nat 1 1], [ShLin 0%nat 1 (-3); ShLin 1%nat 1 (-1)], Some QS_e5);
  (256, 256, [ShLin 0%nat 1 (-4); ShLin 1%nat 1 0], [ShLin 0%nat 1 (-4); ShLin 1%nat 1 (-2)], Some (cN 1))].
(** /repo/c++/symmetry/sym-QS-impl.hpp, make_matrix if (!P.substeps) *)
Definition qs_4ch_m0_o : list off_line := [
  (1, 8, 0, 0, "xi", Some (cN 1));
  (1, 9, 0, 0, "xi", Some (cN 1));
  (2, 13, 0, 0, "xi", Some QS_e42);
  (2, 26, 0, 0, "xi", Some (cN 1));
  (2, 27, 0, 0, "xi", Some QS_e43);
  (3, 13, 0, 0, "xi", Some QS_e43);
  (3, 27, 0, 0, "xi", Some QS_e44);
  (3, 28, 0, 0, "xi", Some (cN 1));
  (4, 16, 0, 0, "xi", Some QS_e42);
  (4, 32, 0, 0, "xi", Some (cN 1));
  (4, 33, 0, 0, "xi", Some QS_e43);
  (5, 16, 0, 0, "xi", Some QS_e43);
  (5, 33, 0, 0, "xi", Some QS_e44);
  (5, 34, 0, 0, "xi", Some (cN 1));
  (6, 18, 0, 0, "xi", Some QS_e42);
  (6, 35, 0, 0, "xi", Some (cN 1));
  (6, 36, 0, 0, "xi", Some QS_e43);
  (7, 18, 0, 0, "xi", Some QS_e43);
  (7, 36, 0, 0, "xi", Some QS_e44);
  (7, 37, 0, 0, "xi", Some (cN 1));
  (8, 19, 0, 0, "xi", Some QS_e12);
  (9, 19, 0, 0, "xi", Some QS_e13);
  (10, 42, 0, 0, "xi", Some (cN 1));
  (10, 43, 0, 0, "xi", Some (cN 1));
  (11, 48, 0, 0, "xi", Some (cQ (-1) 2));
  (11, 49, 0, 0, "xi", Some (cQ (-1) 2));
  (11, 58, 0, 0, "xi", Some (cD (cR (cN 3)) (cN 2)));
  (11, 59, 0, 0, "xi", Some (cD (cR (cN 3)) (cN 2)));
  (12, 52, 0, 0, "xi", Some (cQ (-1) 2));
  (12, 53, 0, 0, "xi", Some (cQ (-1) 2));
  (12, 60, 0, 0, "xi", Some (cD (cR (cN 3)) (cN 2)));
  (12, 61, 0, 0, "xi", Some (cD (cR (cN 3)) (cN 2)));
  (13, 54, 0, 0, "xi", Some QS_e19);
  (13, 55, 0, 0, "xi", Some QS_e19);
  (14, 64, 0, 0, "xi", Some (cN 1));
  (14, 65, 0, 0, "xi", Some (cN 1));
  (15, 68, 0, 0, "xi", Some (cQ (-1) 2));
  (15, 69, 0, 0, "xi", Some (cQ (-1) 2));
  (15, 72, 0, 0, "xi", Some (cD (cR (cN 3)) (cN 2)));
  (15, 73, 0, 0, "xi", Some (cD (cR (cN 3)) (cN 2)));
  (16, 70, 0, 0, "xi", Some QS_e19);
  (16, 71, 0, 0, "xi", Some QS_e19);
  (17, 74, 0, 0, "xi", Some (cN 1));
  (17, 75, 0, 0, "xi", Some (cN 1));
  (18, 76, 0, 0, "xi", Some QS_e19);
  (18, 77, 0, 0, "xi", Some QS_e19);
  (20, 48, 0, 0, "xi", Some QS_e25);
  (20, 58, 0, 0, "xi", Some QS_e135);
  (20, 82, 0, 0, "xi", Some (cN 1));
  (20, 83, 0, 0, "xi", Some QS_e109);
  (21, 48, 0, 0, "xi", Some QS_e136);
  (21, 49, 0, 0, "xi", Some QS_e137);
  (21, 58, 0, 0, "xi", Some QS_e101);
  (21, 59, 0, 0, "xi", Some QS_e138);
  (21, 83, 0, 0, "xi", Some QS_e93);
  (21, 84, 0, 0, "xi", Some QS_e67);
  (22, 49, 0, 0, "xi", Some QS_e22);
  (22, 59, 0, 0, "xi", Some QS_e139);
  (22, 84, 0, 0, "xi", Some QS_e140);
  (22, 85, 0, 0, "xi", Some (cN 1));
  (23, 52, 0, 0, "xi", Some QS_e25);
  (23, 60, 0, 0, "xi", Some QS_e135);
  (23, 86, 0, 0, "xi", Some (cN 1));
  (23, 87, 0, 0, "xi", Some QS_e109);
  (24, 52, 0, 0, "xi", Some QS_e136);
  (24, 53, 0, 0, "xi", Some QS_e137);
  (24, 60, 0, 0, "xi", Some QS_e101);
  (24, 61, 0, 0, "xi", Some QS_e138);
  (24, 87, 0, 0, "xi", Some QS_e93);
  (24, 88, 0, 0, "xi", Some QS_e67);
  (25, 53, 0, 0, "xi", Some QS_e22);
  (25, 61, 0, 0, "xi", Some QS_e139);
  (25, 88, 0, 0, "xi", Some QS_e140);
  (25, 89, 0, 0, "xi", Some (cN 1));
  (26, 54, 0, 0, "xi", Some QS_e45);
  (27, 54, 0, 0, "xi", Some QS_e29);
  (27, 55, 0, 0, "xi", Some QS_e46);
  (28, 55, 0, 0, "xi", Some QS_e47);
  (29, 68, 0, 0, "xi", Some QS_e25);
  (29, 72, 0, 0, "xi", Some QS_e135);
  (29, 90, 0, 0, "xi", Some (cN 1));
  (29, 91, 0, 0, "xi", Some QS_e109);
  (30, 68, 0, 0, "xi", Some QS_e136);
  (30, 69, 0, 0, "xi", Some QS_e137);
  (30, 72, 0, 0, "xi", Some QS_e101);
  (30, 73, 0, 0, "xi", Some QS_e138);
  (30, 91, 0, 0, "xi", Some QS_e93);
  (30, 92, 0, 0, "xi", Some QS_e67);
  (31, 69, 0, 0, "xi", Some QS_e22);
  (31, 73, 0, 0, "xi", Some QS_e139);
  (31, 92, 0, 0, "xi", Some QS_e140);
  (31, 93, 0, 0, "xi", Some (cN 1));
  (32, 70, 0, 0, "xi", Some QS_e45);
  (33, 70, 0, 0, "xi", Some QS_e29);
  (33, 71, 0, 0, "xi", Some QS_e46);
  (34, 71, 0, 0, "xi", Some QS_e47);
  (35, 76, 0, 0, "xi", Some QS_e45);
  (36, 76, 0, 0, "xi", Some QS_e29);
  (36, 77, 0, 0, "xi", Some QS_e46);
  (37, 77, 0, 0, "xi", Some QS_e47);
  (38, 96, 0, 0, "xi", Some QS_e42);
  (38, 117, 0, 0, "xi", Some (cN 1));
  (38, 118, 0, 0, "xi", Some QS_e43);
  (39, 96, 0, 0, "xi", Some QS_e43);
  (39, 118, 0, 0, "xi", Some QS_e44);
  (39, 119, 0, 0, "xi", Some (cN 1));
  (40, 98, 0, 0, "xi", Some QS_e42);
  (40, 120, 0, 0, "xi", Some (cN 1));
  (40, 121, 0, 0, "xi", Some QS_e43);
  (41, 98, 0, 0, "xi", Some QS_e43);
  (41, 121, 0, 0, "xi", Some QS_e44);
  (41, 122, 0, 0, "xi", Some (cN 1));
  (42, 99, 0, 0, "xi", Some QS_e12);
  (43, 99, 0, 0, "xi", Some QS_e13);
  (44, 101, 0, 0, "xi", Some QS_e42);
  (44, 126, 0, 0, "xi", Some (cN 1));
  (44, 127, 0, 0, "xi", Some QS_e43);
  (45, 101, 0, 0, "xi", Some QS_e43);
  (45, 127, 0, 0, "xi", Some QS_e44);
  (45, 128, 0, 0, "xi", Some (cN 1));
  (46, 103, 0, 0, "xi", Some QS_e361);
  (46, 105, 0, 0, "xi", Some QS_e362);
  (46, 132, 0, 0, "xi", Some (cQ (-1) 2));
  (46, 133, 0, 0, "xi", Some QS_e363);
  (46, 138, 0, 0, "xi", Some (cD (cR (cN 3)) (cN 2)));
  (46, 139, 0, 0, "xi", Some QS_e364);
  (47, 103, 0, 0, "xi", Some QS_e363);
  (47, 105, 0, 0, "xi", Some QS_e364);
  (47, 133, 0, 0, "xi", Some QS_e365);
  (47, 134, 0, 0, "xi", Some (cQ (-1) 2));
  (47, 139, 0, 0, "xi", Some QS_e366);
  (47, 140, 0, 0, "xi", Some (cD (cR (cN 3)) (cN 2)));
  (48, 104, 0, 0, "xi", Some QS_e141);
  (48, 135, 0, 0, "xi", Some QS_e19);
  (48, 136, 0, 0, "xi", Some QS_e142);
  (49, 104, 0, 0, "xi", Some QS_e143);
  (49, 136, 0, 0, "xi", Some QS_e144);
  (49, 137, 0, 0, "xi", Some QS_e19);
  (50, 106, 0, 0, "xi", Some QS_e42);
  (50, 141, 0, 0, "xi", Some (cN 1));
  (50, 142, 0, 0, "xi", Some QS_e43);
  (51, 106, 0, 0, "xi", Some QS_e43);
  (51, 142, 0, 0, "xi", Some QS_e44);
  (51, 143, 0, 0, "xi", Some (cN 1));
  (52, 107, 0, 0, "xi", Some QS_e141);
  (52, 144, 0, 0, "xi", Some QS_e19);
  (52, 145, 0, 0, "xi", Some QS_e142);
  (53, 107, 0, 0, "xi", Some QS_e143);
  (53, 145, 0, 0, "xi", Some QS_e144);
  (53, 146, 0, 0, "xi", Some QS_e19);
  (56, 103, 0, 0, "xi", Some QS_e362);
  (56, 105, 0, 0, "xi", Some QS_e365);
  (56, 132, 0, 0, "xi", Some QS_e220);
  (56, 133, 0, 0, "xi", Some QS_e367);
  (56, 138, 0, 0, "xi", Some (cQ (-1) 6));
  (56, 139, 0, 0, "xi", Some QS_e368);
  (56, 147, 0, 0, "xi", Some QS_e234);
  (56, 148, 0, 0, "xi", Some QS_e369);
  (57, 103, 0, 0, "xi", Some QS_e364);
  (57, 105, 0, 0, "xi", Some QS_e370);
  (57, 133, 0, 0, "xi", Some QS_e371);
  (57, 134, 0, 0, "xi", Some QS_e220);
  (57, 139, 0, 0, "xi", Some QS_e372);
  (57, 140, 0, 0, "xi", Some (cQ (-1) 6));
  (57, 148, 0, 0, "xi", Some QS_e373);
  (57, 149, 0, 0, "xi", Some QS_e234);
  (58, 104, 0, 0, "xi", Some QS_e145);
  (58, 135, 0, 0, "xi", Some QS_e81);
  (58, 136, 0, 0, "xi", Some QS_e146);
  (59, 104, 0, 0, "xi", Some QS_e147);
  (59, 136, 0, 0, "xi", Some QS_e148);
  (59, 137, 0, 0, "xi", Some QS_e81);
  (60, 107, 0, 0, "xi", Some QS_e145);
  (60, 144, 0, 0, "xi", Some QS_e81);
  (60, 145, 0, 0, "xi", Some QS_e146);
  (61, 107, 0, 0, "xi", Some QS_e147);
  (61, 145, 0, 0, "xi", Some QS_e148);
  (61, 146, 0, 0, "xi", Some QS_e81);
  (62, 109, 0, 0, "xi", Some QS_e42);
  (62, 150, 0, 0, "xi", Some (cN 1));
  (62, 151, 0, 0, "xi", Some QS_e43);
  (63, 109, 0, 0, "xi", Some QS_e43);
  (63, 151, 0, 0, "xi", Some QS_e44);
  (63, 152, 0, 0, "xi", Some (cN 1));
  (64, 110, 0, 0, "xi", Some QS_e12);
  (65, 110, 0, 0, "xi", Some QS_e13);
  (66, 111, 0, 0, "xi", Some QS_e42);
  (66, 153, 0, 0, "xi", Some (cN 1));
  (66, 154, 0, 0, "xi", Some QS_e43);
  (67, 111, 0, 0, "xi", Some QS_e43);
  (67, 154, 0, 0, "xi", Some QS_e44);
  (67, 155, 0, 0, "xi", Some (cN 1));
  (68, 112, 0, 0, "xi", Some QS_e141);
  (68, 156, 0, 0, "xi", Some QS_e19);
  (68, 157, 0, 0, "xi", Some QS_e142);
  (69, 112, 0, 0, "xi", Some QS_e143);
  (69, 157, 0, 0, "xi", Some QS_e144);
  (69, 158, 0, 0, "xi", Some QS_e19);
  (72, 112, 0, 0, "xi", Some QS_e145);
  (72, 156, 0, 0, "xi", Some QS_e81);
  (72, 157, 0, 0, "xi", Some QS_e146);
  (73, 112, 0, 0, "xi", Some QS_e147);
  (73, 157, 0, 0, "xi", Some QS_e148);
  (73, 158, 0, 0, "xi", Some QS_e81);
  (74, 113, 0, 0, "xi", Some QS_e12);
  (75, 113, 0, 0, "xi", Some QS_e13);
  (78, 132, 0, 0, "xi", Some QS_e374);
  (78, 138, 0, 0, "xi", Some QS_e375);
  (78, 147, 0, 0, "xi", Some QS_e376);
  (78, 159, 0, 0, "xi", Some (cN 1));
  (78, 160, 0, 0, "xi", Some QS_e377);
  (79, 132, 0, 0, "xi", Some QS_e378);
  (79, 133, 0, 0, "xi", Some QS_e379);
  (79, 138, 0, 0, "xi", Some QS_e380);
  (79, 139, 0, 0, "xi", Some QS_e381);
  (79, 147, 0, 0, "xi", Some QS_e382);
  (79, 148, 0, 0, "xi", Some QS_e383);
  (79, 160, 0, 0, "xi", Some QS_e384);
  (79, 161, 0, 0, "xi", Some QS_e385);
  (80, 133, 0, 0, "xi", Some QS_e386);
  (80, 134, 0, 0, "xi", Some QS_e387);
  (80, 139, 0, 0, "xi", Some QS_e388);
  (80, 140, 0, 0, "xi", Some QS_e389);
  (80, 148, 0, 0, "xi", Some QS_e390);
  (80, 149, 0, 0, "xi", Some QS_e391);
  (80, 161, 0, 0, "xi", Some QS_e392);
  (80, 162, 0, 0, "xi", Some QS_e393);
  (81, 134, 0, 0, "xi", Some QS_e394);
  (81, 140, 0, 0, "xi", Some QS_e395);
  (81, 149, 0, 0, "xi", Some QS_e396);
  (81, 162, 0, 0, "xi", Some QS_e397);
  (81, 163, 0, 0, "xi", Some (cN 1));
  (82, 135, 0, 0, "xi", Some QS_e149);
  (83, 135, 0, 0, "xi", Some QS_e150);
  (83, 136, 0, 0, "xi", Some QS_e151);
  (84, 136, 0, 0, "xi", Some QS_e152);
  (84, 137, 0, 0, "xi", Some QS_e153);
  (85, 137, 0, 0, "xi", Some QS_e154);
  (86, 144, 0, 0, "xi", Some QS_e149);
  (87, 144, 0, 0, "xi", Some QS_e150);
  (87, 145, 0, 0, "xi", Some QS_e151);
  (88, 145, 0, 0, "xi", Some QS_e152);
  (88, 146, 0, 0, "xi", Some QS_e153);
  (89, 146, 0, 0, "xi", Some QS_e154);
  (90, 156, 0, 0, "xi", Some QS_e149);
  (91, 156, 0, 0, "xi", Some QS_e150);
  (91, 157, 0, 0, "xi", Some QS_e151);
  (92, 157, 0, 0, "xi", Some QS_e152);
  (92, 158, 0, 0, "xi", Some QS_e153);
  (93, 158, 0, 0, "xi", Some QS_e154);
  (94, 166, 0, 0, "xi", Some (cN 1));
  (94, 167, 0, 0, "xi", Some (cN 1));
  (95, 170, 0, 0, "xi", Some (cQ (-1) 2));
  (95, 171, 0, 0, "xi", Some (cQ (-1) 2));
  (95, 174, 0, 0, "xi", Some (cD (cR (cN 3)) (cN 2)));
  (95, 175, 0, 0, "xi", Some (cD (cR (cN 3)) (cN 2)));
  (96, 172, 0, 0, "xi", Some QS_e19);
  (96, 173, 0, 0, "xi", Some QS_e19);
  (97, 176, 0, 0, "xi", Some (cN 1));
  (97, 177, 0, 0, "xi", Some (cN 1));
  (98, 178, 0, 0, "xi", Some QS_e19);
  (98, 179, 0, 0, "xi", Some QS_e19);
  (100, 182, 0, 0, "xi", Some (cQ (-1) 2));
  (100, 183, 0, 0, "xi", Some (cQ (-1) 2));
  (100, 192, 0, 0, "xi", Some (cD (cR (cN 3)) (cN 2)));
  (100, 193, 0, 0, "xi", Some (cD (cR (cN 3)) (cN 2)));
  (101, 184, 0, 0, "xi", Some QS_e19);
  (101, 185, 0, 0, "xi", Some QS_e19);
  (102, 186, 0, 0, "xi", Some (cQ (-1) 2));
  (102, 187, 0, 0, "xi", Some (cQ (-1) 2));
  (102, 194, 0, 0, "xi", Some (cD (cR (cN 3)) (cN 2)));
  (102, 195, 0, 0, "xi", Some (cD (cR (cN 3)) (cN 2)));
  (103, 188, 0, 0, "xi", Some QS_e209);
  (103, 189, 0, 0, "xi", Some QS_e209);
  (103, 196, 0, 0, "xi", Some QS_e210);
  (103, 197, 0, 0, "xi", Some QS_e210);
  (105, 188, 0, 0, "xi", Some QS_e210);
  (105, 189, 0, 0, "xi", Some QS_e210);
  (105, 196, 0, 0, "xi", Some QS_e214);
  (105, 197, 0, 0, "xi", Some QS_e214);
  (106, 190, 0, 0, "xi", Some QS_e19);
  (106, 191, 0, 0, "xi", Some QS_e19);
  (108, 198, 0, 0, "xi", Some (cN 1));
  (108, 199, 0, 0, "xi", Some (cN 1));
  (109, 200, 0, 0, "xi", Some QS_e19);
  (109, 201, 0, 0, "xi", Some QS_e19);
  (111, 202, 0, 0, "xi", Some QS_e19);
  (111, 203, 0, 0, "xi", Some QS_e19);
  (114, 170, 0, 0, "xi", Some QS_e25);
  (114, 174, 0, 0, "xi", Some QS_e135);
  (114, 204, 0, 0, "xi", Some (cN 1));
  (114, 205, 0, 0, "xi", Some QS_e109);
  (115, 170, 0, 0, "xi", Some QS_e136);
  (115, 171, 0, 0, "xi", Some QS_e137);
  (115, 174, 0, 0, "xi", Some QS_e101);
  (115, 175, 0, 0, "xi", Some QS_e138);
  (115, 205, 0, 0, "xi", Some QS_e93);
  (115, 206, 0, 0, "xi", Some QS_e67);
  (116, 171, 0, 0, "xi", Some QS_e22);
  (116, 175, 0, 0, "xi", Some QS_e139);
  (116, 206, 0, 0, "xi", Some QS_e140);
  (116, 207, 0, 0, "xi", Some (cN 1));
  (117, 172, 0, 0, "xi", Some QS_e45);
  (118, 172, 0, 0, "xi", Some QS_e29);
  (118, 173, 0, 0, "xi", Some QS_e46);
  (119, 173, 0, 0, "xi", Some QS_e47);
  (120, 178, 0, 0, "xi", Some QS_e45);
  (121, 178, 0, 0, "xi", Some QS_e29);
  (121, 179, 0, 0, "xi", Some QS_e46);
  (122, 179, 0, 0, "xi", Some QS_e47);
  (123, 182, 0, 0, "xi", Some QS_e25);
  (123, 192, 0, 0, "xi", Some QS_e135);
  (123, 208, 0, 0, "xi", Some (cN 1));
  (123, 209, 0, 0, "xi", Some QS_e109);
  (124, 182, 0, 0, "xi", Some QS_e136);
  (124, 183, 0, 0, "xi", Some QS_e137);
  (124, 192, 0, 0, "xi", Some QS_e101);
  (124, 193, 0, 0, "xi", Some QS_e138);
  (124, 209, 0, 0, "xi", Some QS_e93);
  (124, 210, 0, 0, "xi", Some QS_e67);
  (125, 183, 0, 0, "xi", Some QS_e22);
  (125, 193, 0, 0, "xi", Some QS_e139);
  (125, 210, 0, 0, "xi", Some QS_e140);
  (125, 211, 0, 0, "xi", Some (cN 1));
  (126, 184, 0, 0, "xi", Some QS_e45);
  (127, 184, 0, 0, "xi", Some QS_e29);
  (127, 185, 0, 0, "xi", Some QS_e46);
  (128, 185, 0, 0, "xi", Some QS_e47);
  (129, 186, 0, 0, "xi", Some QS_e25);
  (129, 194, 0, 0, "xi", Some QS_e135);
  (129, 212, 0, 0, "xi", Some (cN 1));
  (129, 213, 0, 0, "xi", Some QS_e109);
  (130, 186, 0, 0, "xi", Some QS_e136);
  (130, 187, 0, 0, "xi", Some QS_e137);
  (130, 194, 0, 0, "xi", Some QS_e101);
  (130, 195, 0, 0, "xi", Some QS_e138);
  (130, 213, 0, 0, "xi", Some QS_e93);
  (130, 214, 0, 0, "xi", Some QS_e67);
  (131, 187, 0, 0, "xi", Some QS_e22);
  (131, 195, 0, 0, "xi", Some QS_e139);
  (131, 214, 0, 0, "xi", Some QS_e140);
  (131, 215, 0, 0, "xi", Some (cN 1));
  (132, 188, 0, 0, "xi", Some QS_e96);
  (132, 196, 0, 0, "xi", Some QS_e97);
  (132, 216, 0, 0, "xi", Some QS_e19);
  (132, 217, 0, 0, "xi", Some QS_e398);
  (133, 188, 0, 0, "xi", Some QS_e399);
  (133, 189, 0, 0, "xi", Some QS_e400);
  (133, 196, 0, 0, "xi", Some QS_e401);
  (133, 197, 0, 0, "xi", Some QS_e402);
  (133, 217, 0, 0, "xi", Some QS_e110);
  (133, 218, 0, 0, "xi", Some QS_e87);
  (134, 189, 0, 0, "xi", Some QS_e403);
  (134, 197, 0, 0, "xi", Some QS_e83);
  (134, 218, 0, 0, "xi", Some QS_e404);
  (134, 219, 0, 0, "xi", Some QS_e19);
  (138, 188, 0, 0, "xi", Some QS_e280);
  (138, 196, 0, 0, "xi", Some QS_e405);
  (138, 216, 0, 0, "xi", Some QS_e81);
  (138, 217, 0, 0, "xi", Some QS_e304);
  (139, 188, 0, 0, "xi", Some QS_e309);
  (139, 189, 0, 0, "xi", Some QS_e406);
  (139, 196, 0, 0, "xi", Some QS_e312);
  (139, 197, 0, 0, "xi", Some QS_e407);
  (139, 217, 0, 0, "xi", Some QS_e293);
  (139, 218, 0, 0, "xi", Some QS_e408);
  (140, 189, 0, 0, "xi", Some QS_e239);
  (140, 197, 0, 0, "xi", Some QS_e409);
  (140, 218, 0, 0, "xi", Some QS_e410);
  (140, 219, 0, 0, "xi", Some QS_e81);
  (141, 190, 0, 0, "xi", Some QS_e45);
  (142, 190, 0, 0, "xi", Some QS_e29);
  (142, 191, 0, 0, "xi", Some QS_e46);
  (143, 191, 0, 0, "xi", Some QS_e47);
  (147, 196, 0, 0, "xi", Some QS_e411);
  (147, 216, 0, 0, "xi", Some QS_e220);
  (147, 217, 0, 0, "xi", Some QS_e412);
  (148, 196, 0, 0, "xi", Some QS_e313);
  (148, 197, 0, 0, "xi", Some QS_e413);
  (148, 217, 0, 0, "xi", Some QS_e294);
  (148, 218, 0, 0, "xi", Some QS_e223);
  (149, 197, 0, 0, "xi", Some QS_e414);
  (149, 218, 0, 0, "xi", Some QS_e415);
  (149, 219, 0, 0, "xi", Some QS_e220);
  (150, 200, 0, 0, "xi", Some QS_e45);
  (151, 200, 0, 0, "xi", Some QS_e29);
  (151, 201, 0, 0, "xi", Some QS_e46);
  (152, 201, 0, 0, "xi", Some QS_e47);
  (153, 202, 0, 0, "xi", Some QS_e45);
  (154, 202, 0, 0, "xi", Some QS_e29);
  (154, 203, 0, 0, "xi", Some QS_e46);
  (155, 203, 0, 0, "xi", Some QS_e47);
  (159, 216, 0, 0, "xi", Some QS_e416);
  (160, 216, 0, 0, "xi", Some QS_e417);
  (160, 217, 0, 0, "xi", Some QS_e418);
  (161, 217, 0, 0, "xi", Some QS_e319);
  (161, 218, 0, 0, "xi", Some QS_e251);
  (162, 218, 0, 0, "xi", Some QS_e419);
  (162, 219, 0, 0, "xi", Some QS_e420);
  (163, 219, 0, 0, "xi", Some QS_e421);
  (164, 221, 0, 0, "xi", Some QS_e42);
  (164, 230, 0, 0, "xi", Some (cN 1));
  (164, 231, 0, 0, "xi", Some QS_e43);
  (165, 221, 0, 0, "xi", Some QS_e43);
  (165, 231, 0, 0, "xi", Some QS_e44);
  (165, 232, 0, 0, "xi", Some (cN 1));
  (166, 222, 0, 0, "xi", Some QS_e12);
  (167, 222, 0, 0, "xi", Some QS_e13);
  (168, 223, 0, 0, "xi", Some QS_e42);
  (168, 233, 0, 0, "xi", Some (cN 1));
  (168, 234, 0, 0, "xi", Some QS_e43);
  (169, 223, 0, 0, "xi", Some QS_e43);
  (169, 234, 0, 0, "xi", Some QS_e44);
  (169, 235, 0, 0, "xi", Some (cN 1));
  (170, 224, 0, 0, "xi", Some QS_e141);
  (170, 236, 0, 0, "xi", Some QS_e19);
  (170, 237, 0, 0, "xi", Some QS_e142);
  (171, 224, 0, 0, "xi", Some QS_e143);
  (171, 237, 0, 0, "xi", Some QS_e144);
  (171, 238, 0, 0, "xi", Some QS_e19);
  (174, 224, 0, 0, "xi", Some QS_e145);
  (174, 236, 0, 0, "xi", Some QS_e81);
  (174, 237, 0, 0, "xi", Some QS_e146);
  (175, 224, 0, 0, "xi", Some QS_e147);
  (175, 237, 0, 0, "xi", Some QS_e148);
  (175, 238, 0, 0, "xi", Some QS_e81);
  (176, 225, 0, 0, "xi", Some QS_e12);
  (177, 225, 0, 0, "xi", Some QS_e13);
  (180, 226, 0, 0, "xi", Some QS_e42);
  (180, 239, 0, 0, "xi", Some (cN 1));
  (180, 240, 0, 0, "xi", Some QS_e43);
  (181, 226, 0, 0, "xi", Some QS_e43);
  (181, 240, 0, 0, "xi", Some QS_e44);
  (181, 241, 0, 0, "xi", Some (cN 1));
  (182, 227, 0, 0, "xi", Some QS_e141);
  (182, 242, 0, 0, "xi", Some QS_e19);
  (182, 243, 0, 0, "xi", Some QS_e142);
  (183, 227, 0, 0, "xi", Some QS_e143);
  (183, 243, 0, 0, "xi", Some QS_e144);
  (183, 244, 0, 0, "xi", Some QS_e19);
  (186, 228, 0, 0, "xi", Some QS_e141);
  (186, 245, 0, 0, "xi", Some QS_e19);
  (186, 246, 0, 0, "xi", Some QS_e142);
  (187, 228, 0, 0, "xi", Some QS_e143);
  (187, 246, 0, 0, "xi", Some QS_e144);
  (187, 247, 0, 0, "xi", Some QS_e19);
  (192, 227, 0, 0, "xi", Some QS_e145);
  (192, 242, 0, 0, "xi", Some QS_e81);
  (192, 243, 0, 0, "xi", Some QS_e146);
  (193, 227, 0, 0, "xi", Some QS_e147);
  (193, 243, 0, 0, "xi", Some QS_e148);
  (193, 244, 0, 0, "xi", Some QS_e81);
  (194, 228, 0, 0, "xi", Some QS_e145);
  (194, 245, 0, 0, "xi", Some QS_e81);
  (194, 246, 0, 0, "xi", Some QS_e146);
  (195, 228, 0, 0, "xi", Some QS_e147);
  (195, 246, 0, 0, "xi", Some QS_e148);
  (195, 247, 0, 0, "xi", Some QS_e81);
  (198, 229, 0, 0, "xi", Some QS_e12);
  (199, 229, 0, 0, "xi", Some QS_e13);
  (204, 236, 0, 0, "xi", Some QS_e149);
  (205, 236, 0, 0, "xi", Some QS_e150);
  (205, 237, 0, 0, "xi", Some QS_e151);
  (206, 237, 0, 0, "xi", Some QS_e152);
  (206, 238, 0, 0, "xi", Some QS_e153);
  (207, 238, 0, 0, "xi", Some QS_e154);
  (208, 242, 0, 0, "xi", Some QS_e149);
  (209, 242, 0, 0, "xi", Some QS_e150);
  (209, 243, 0, 0, "xi", Some QS_e151);
  (210, 243, 0, 0, "xi", Some QS_e152);
  (210, 244, 0, 0, "xi", Some QS_e153);
  (211, 244, 0, 0, "xi", Some QS_e154);
  (212, 245, 0, 0, "xi", Some QS_e149);
  (213, 245, 0, 0, "xi", Some QS_e150);
  (213, 246, 0, 0, "xi", Some QS_e151);
  (214, 246, 0, 0, "xi", Some QS_e152);
  (214, 247, 0, 0, "xi", Some QS_e153);
  (215, 247, 0, 0, "xi", Some QS_e154);
  (220, 248, 0, 0, "xi", Some (cN 1));
  (220, 249, 0, 0, "xi", Some (cN 1));
  (221, 250, 0, 0, "xi", Some QS_e19);
  (221, 251, 0, 0, "xi", Some QS_e19);
  (223, 252, 0, 0, "xi", Some QS_e19);
  (223, 253, 0, 0, "xi", Some QS_e19);
  (226, 254, 0, 0, "xi", Some QS_e19);
  (226, 255, 0, 0, "xi", Some QS_e19);
  (230, 250, 0, 0, "xi", Some QS_e45);
  (231, 250, 0, 0, "xi", Some QS_e29);
  (231, 251, 0, 0, "xi", Some QS_e46);
  (232, 251, 0, 0, "xi", Some QS_e47);
  (233, 252, 0, 0, "xi", Some QS_e45);
  (234, 252, 0, 0, "xi", Some QS_e29);
  (234, 253, 0, 0, "xi", Some QS_e46);
  (235, 253, 0, 0, "xi", Some QS_e47);
  (239, 254, 0, 0, "xi", Some QS_e45);
  (240, 254, 0, 0, "xi", Some QS_e29);
  (240, 255, 0, 0, "xi", Some QS_e46);
  (241, 255, 0, 0, "xi", Some QS_e47);
  (248, 256, 0, 0, "xi", Some QS_e12);
  (249, 256, 0, 0, "xi", Some QS_e13);
  (1, 6, 1, 0, "xi", Some (cN 1));
  (1, 7, 1, 0, "xi", Some (cN 1));
  (2, 12, 1, 0, "xi", Some QS_e42);
  (2, 23, 1, 0, "xi", Some (cN 1));
  (2, 24, 1, 0, "xi", Some QS_e43);
  (3, 12, 1, 0, "xi", Some QS_e43);
  (3, 24, 1, 0, "xi", Some QS_e44);
  (3, 25, 1, 0, "xi", Some (cN 1));
  (4, 15, 1, 0, "xi", Some QS_e42);
  (4, 29, 1, 0, "xi", Some (cN 1));
  (4, 30, 1, 0, "xi", Some QS_e43);
  (5, 15, 1, 0, "xi", Some QS_e43);
  (5, 30, 1, 0, "xi", Some QS_e44);
  (5, 31, 1, 0, "xi", Some (cN 1));
  (6, 17, 1, 0, "xi", Some QS_e12);
  (7, 17, 1, 0, "xi", Some QS_e13);
  (8, 18, 1, 0, "xi", Some QS_e42);
  (8, 35, 1, 0, "xi", Some (cN (-1)));
  (8, 36, 1, 0, "xi", Some QS_e48);
  (9, 18, 1, 0, "xi", Some QS_e43);
  (9, 36, 1, 0, "xi", Some QS_e42);
  (9, 37, 1, 0, "xi", Some (cN (-1)));
  (10, 40, 1, 0, "xi", Some (cN 1));
  (10, 41, 1, 0, "xi", Some (cN 1));
  (11, 46, 1, 0, "xi", Some (cQ (-1) 2));
  (11, 47, 1, 0, "xi", Some (cQ (-1) 2));
  (11, 56, 1, 0, "xi", Some (cD (cR (cN 3)) (cN 2)));
  (11, 57, 1, 0, "xi", Some (cD (cR (cN 3)) (cN 2)));
  (12, 50, 1, 0, "xi", Some QS_e19);
  (12, 51, 1, 0, "xi", Some QS_e19);
  (13, 52, 1, 0, "xi", Some (cQ (-1) 2));
  (13, 53, 1, 0, "xi", Some (cQ (-1) 2));
  (13, 60, 1, 0, "xi", Some QS_e75);
  (13, 61, 1, 0, "xi", Some QS_e75);
  (14, 62, 1, 0, "xi", Some (cN 1));
  (14, 63, 1, 0, "xi", Some (cN 1));
  (15, 66, 1, 0, "xi", Some QS_e19);
  (15, 67, 1, 0, "xi", Some QS_e19);
  (16, 68, 1, 0, "xi", Some (cQ (-1) 2));
  (16, 69, 1, 0, "xi", Some (cQ (-1) 2));
  (16, 72, 1, 0, "xi", Some QS_e75);
  (16, 73, 1, 0, "xi", Some QS_e75);
  (18, 74, 1, 0, "xi", Some QS_e19);
  (18, 75, 1, 0, "xi", Some QS_e19);
  (19, 76, 1, 0, "xi", Some (cN 1));
  (19, 77, 1, 0, "xi", Some (cN 1));
  (20, 46, 1, 0, "xi", Some QS_e25);
  (20, 56, 1, 0, "xi", Some QS_e135);
  (20, 78, 1, 0, "xi", Some (cN 1));
  (20, 79, 1, 0, "xi", Some QS_e109);
  (21, 46, 1, 0, "xi", Some QS_e136);
  (21, 47, 1, 0, "xi", Some QS_e137);
  (21, 56, 1, 0, "xi", Some QS_e101);
  (21, 57, 1, 0, "xi", Some QS_e138);
  (21, 79, 1, 0, "xi", Some QS_e93);
  (21, 80, 1, 0, "xi", Some QS_e67);
  (22, 47, 1, 0, "xi", Some QS_e22);
  (22, 57, 1, 0, "xi", Some QS_e139);
  (22, 80, 1, 0, "xi", Some QS_e140);
  (22, 81, 1, 0, "xi", Some (cN 1));
  (23, 50, 1, 0, "xi", Some QS_e45);
  (24, 50, 1, 0, "xi", Some QS_e29);
  (24, 51, 1, 0, "xi", Some QS_e46);
  (25, 51, 1, 0, "xi", Some QS_e47);
  (26, 52, 1, 0, "xi", Some QS_e25);
  (26, 60, 1, 0, "xi", Some QS_e155);
  (26, 86, 1, 0, "xi", Some (cN (-1)));
  (26, 87, 1, 0, "xi", Some QS_e156);
  (27, 52, 1, 0, "xi", Some QS_e136);
  (27, 53, 1, 0, "xi", Some QS_e137);
  (27, 60, 1, 0, "xi", Some QS_e91);
  (27, 61, 1, 0, "xi", Some QS_e157);
  (27, 87, 1, 0, "xi", Some QS_e103);
  (27, 88, 1, 0, "xi", Some QS_e78);
  (28, 53, 1, 0, "xi", Some QS_e22);
  (28, 61, 1, 0, "xi", Some QS_e158);
  (28, 88, 1, 0, "xi", Some QS_e159);
  (28, 89, 1, 0, "xi", Some (cN (-1)));
  (29, 66, 1, 0, "xi", Some QS_e45);
  (30, 66, 1, 0, "xi", Some QS_e29);
  (30, 67, 1, 0, "xi", Some QS_e46);
  (31, 67, 1, 0, "xi", Some QS_e47);
  (32, 68, 1, 0, "xi", Some QS_e25);
  (32, 72, 1, 0, "xi", Some QS_e155);
  (32, 90, 1, 0, "xi", Some (cN (-1)));
  (32, 91, 1, 0, "xi", Some QS_e156);
  (33, 68, 1, 0, "xi", Some QS_e136);
  (33, 69, 1, 0, "xi", Some QS_e137);
  (33, 72, 1, 0, "xi", Some QS_e91);
  (33, 73, 1, 0, "xi", Some QS_e157);
  (33, 91, 1, 0, "xi", Some QS_e103);
  (33, 92, 1, 0, "xi", Some QS_e78);
  (34, 69, 1, 0, "xi", Some QS_e22);
  (34, 73, 1, 0, "xi", Some QS_e158);
  (34, 92, 1, 0, "xi", Some QS_e159);
  (34, 93, 1, 0, "xi", Some (cN (-1)));
  (35, 74, 1, 0, "xi", Some QS_e49);
  (36, 74, 1, 0, "xi", Some QS_e27);
  (36, 75, 1, 0, "xi", Some QS_e50);
  (37, 75, 1, 0, "xi", Some QS_e51);
  (38, 95, 1, 0, "xi", Some QS_e42);
  (38, 114, 1, 0, "xi", Some (cN 1));
  (38, 115, 1, 0, "xi", Some QS_e43);
  (39, 95, 1, 0, "xi", Some QS_e43);
  (39, 115, 1, 0, "xi", Some QS_e44);
  (39, 116, 1, 0, "xi", Some (cN 1));
  (40, 97, 1, 0, "xi", Some QS_e12);
  (41, 97, 1, 0, "xi", Some QS_e13);
  (42, 98, 1, 0, "xi", Some QS_e42);
  (42, 120, 1, 0, "xi", Some (cN (-1)));
  (42, 121, 1, 0, "xi", Some QS_e48);
  (43, 98, 1, 0, "xi", Some QS_e43);
  (43, 121, 1, 0, "xi", Some QS_e42);
  (43, 122, 1, 0, "xi", Some (cN (-1)));
  (44, 100, 1, 0, "xi", Some QS_e42);
  (44, 123, 1, 0, "xi", Some (cN 1));
  (44, 124, 1, 0, "xi", Some QS_e43);
  (45, 100, 1, 0, "xi", Some QS_e43);
  (45, 124, 1, 0, "xi", Some QS_e44);
  (45, 125, 1, 0, "xi", Some (cN 1));
  (46, 102, 1, 0, "xi", Some QS_e141);
  (46, 129, 1, 0, "xi", Some QS_e19);
  (46, 130, 1, 0, "xi", Some QS_e142);
  (47, 102, 1, 0, "xi", Some QS_e143);
  (47, 130, 1, 0, "xi", Some QS_e144);
  (47, 131, 1, 0, "xi", Some QS_e19);
  (48, 103, 1, 0, "xi", Some QS_e361);
  (48, 105, 1, 0, "xi", Some QS_e422);
  (48, 132, 1, 0, "xi", Some (cQ (-1) 2));
  (48, 133, 1, 0, "xi", Some QS_e363);
  (48, 138, 1, 0, "xi", Some QS_e75);
  (48, 139, 1, 0, "xi", Some QS_e423);
  (49, 103, 1, 0, "xi", Some QS_e363);
  (49, 105, 1, 0, "xi", Some QS_e423);
  (49, 133, 1, 0, "xi", Some QS_e365);
  (49, 134, 1, 0, "xi", Some (cQ (-1) 2));
  (49, 139, 1, 0, "xi", Some QS_e362);
  (49, 140, 1, 0, "xi", Some QS_e75);
  (52, 106, 1, 0, "xi", Some QS_e141);
  (52, 141, 1, 0, "xi", Some QS_e19);
  (52, 142, 1, 0, "xi", Some QS_e142);
  (53, 106, 1, 0, "xi", Some QS_e143);
  (53, 142, 1, 0, "xi", Some QS_e144);
  (53, 143, 1, 0, "xi", Some QS_e19);
  (54, 107, 1, 0, "xi", Some QS_e42);
  (54, 144, 1, 0, "xi", Some (cN 1));
  (54, 145, 1, 0, "xi", Some QS_e43);
  (55, 107, 1, 0, "xi", Some QS_e43);
  (55, 145, 1, 0, "xi", Some QS_e44);
  (55, 146, 1, 0, "xi", Some (cN 1));
  (56, 102, 1, 0, "xi", Some QS_e145);
  (56, 129, 1, 0, "xi", Some QS_e81);
  (56, 130, 1, 0, "xi", Some QS_e146);
  (57, 102, 1, 0, "xi", Some QS_e147);
  (57, 130, 1, 0, "xi", Some QS_e148);
  (57, 131, 1, 0, "xi", Some QS_e81);
  (58, 103, 1, 0, "xi", Some QS_e362);
  (58, 105, 1, 0, "xi", Some QS_e361);
  (58, 132, 1, 0, "xi", Some QS_e220);
  (58, 133, 1, 0, "xi", Some QS_e367);
  (58, 138, 1, 0, "xi", Some (cQ 1 6));
  (58, 139, 1, 0, "xi", Some QS_e424);
  (58, 147, 1, 0, "xi", Some QS_e201);
  (58, 148, 1, 0, "xi", Some QS_e425);
  (59, 103, 1, 0, "xi", Some QS_e364);
  (59, 105, 1, 0, "xi", Some QS_e363);
  (59, 133, 1, 0, "xi", Some QS_e371);
  (59, 134, 1, 0, "xi", Some QS_e220);
  (59, 139, 1, 0, "xi", Some QS_e426);
  (59, 140, 1, 0, "xi", Some (cQ 1 6));
  (59, 148, 1, 0, "xi", Some QS_e427);
  (59, 149, 1, 0, "xi", Some QS_e201);
  (60, 106, 1, 0, "xi", Some QS_e160);
  (60, 141, 1, 0, "xi", Some (cD (cN 1) (cR (cN 6))));
  (60, 142, 1, 0, "xi", Some QS_e161);
  (61, 106, 1, 0, "xi", Some QS_e162);
  (61, 142, 1, 0, "xi", Some QS_e163);
  (61, 143, 1, 0, "xi", Some (cD (cN 1) (cR (cN 6))));
  (62, 108, 1, 0, "xi", Some QS_e12);
  (63, 108, 1, 0, "xi", Some QS_e13);
  (64, 109, 1, 0, "xi", Some QS_e42);
  (64, 150, 1, 0, "xi", Some (cN (-1)));
  (64, 151, 1, 0, "xi", Some QS_e48);
  (65, 109, 1, 0, "xi", Some QS_e43);
  (65, 151, 1, 0, "xi", Some QS_e42);
  (65, 152, 1, 0, "xi", Some (cN (-1)));
  (68, 111, 1, 0, "xi", Some QS_e141);
  (68, 153, 1, 0, "xi", Some QS_e19);
  (68, 154, 1, 0, "xi", Some QS_e142);
  (69, 111, 1, 0, "xi", Some QS_e143);
  (69, 154, 1, 0, "xi", Some QS_e144);
  (69, 155, 1, 0, "xi", Some QS_e19);
  (70, 112, 1, 0, "xi", Some QS_e42);
  (70, 156, 1, 0, "xi", Some (cN 1));
  (70, 157, 1, 0, "xi", Some QS_e43);
  (71, 112, 1, 0, "xi", Some QS_e43);
  (71, 157, 1, 0, "xi", Some QS_e44);
  (71, 158, 1, 0, "xi", Some (cN 1));
  (72, 111, 1, 0, "xi", Some QS_e160);
  (72, 153, 1, 0, "xi", Some (cD (cN 1) (cR (cN 6))));
  (72, 154, 1, 0, "xi", Some QS_e161);
  (73, 111, 1, 0, "xi", Some QS_e162);
  (73, 154, 1, 0, "xi", Some QS_e163);
  (73, 155, 1, 0, "xi", Some (cD (cN 1) (cR (cN 6))));
  (76, 113, 1, 0, "xi", Some QS_e12);
  (77, 113, 1, 0, "xi", Some QS_e13);
  (78, 129, 1, 0, "xi", Some QS_e149);
  (79, 129, 1, 0, "xi", Some QS_e150);
  (79, 130, 1, 0, "xi", Some QS_e151);
  (80, 130, 1, 0, "xi", Some QS_e152);
  (80, 131, 1, 0, "xi", Some QS_e153);
  (81, 131, 1, 0, "xi", Some QS_e154);
  (82, 132, 1, 0, "xi", Some QS_e374);
  (82, 138, 1, 0, "xi", Some QS_e428);
  (82, 147, 1, 0, "xi", Some QS_e429);
  (82, 159, 1, 0, "xi", Some (cN (-1)));
  (82, 160, 1, 0, "xi", Some QS_e430);
  (83, 132, 1, 0, "xi", Some QS_e378);
  (83, 133, 1, 0, "xi", Some QS_e379);
  (83, 138, 1, 0, "xi", Some QS_e431);
  (83, 139, 1, 0, "xi", Some QS_e432);
  (83, 147, 1, 0, "xi", Some QS_e433);
  (83, 148, 1, 0, "xi", Some QS_e434);
  (83, 160, 1, 0, "xi", Some QS_e435);
  (83, 161, 1, 0, "xi", Some QS_e436);
  (84, 133, 1, 0, "xi", Some QS_e386);
  (84, 134, 1, 0, "xi", Some QS_e387);
  (84, 139, 1, 0, "xi", Some QS_e437);
  (84, 140, 1, 0, "xi", Some QS_e438);
  (84, 148, 1, 0, "xi", Some QS_e439);
  (84, 149, 1, 0, "xi", Some QS_e440);
  (84, 161, 1, 0, "xi", Some QS_e441);
  (84, 162, 1, 0, "xi", Some QS_e442);
  (85, 134, 1, 0, "xi", Some QS_e394);
  (85, 140, 1, 0, "xi", Some QS_e443);
  (85, 149, 1, 0, "xi", Some QS_e444);
  (85, 162, 1, 0, "xi", Some QS_e445);
  (85, 163, 1, 0, "xi", Some (cN (-1)));
  (86, 141, 1, 0, "xi", Some QS_e164);
  (87, 141, 1, 0, "xi", Some QS_e165);
  (87, 142, 1, 0, "xi", Some QS_e166);
  (88, 142, 1, 0, "xi", Some QS_e167);
  (88, 143, 1, 0, "xi", Some QS_e168);
  (89, 143, 1, 0, "xi", Some QS_e169);
  (90, 153, 1, 0, "xi", Some QS_e164);
  (91, 153, 1, 0, "xi", Some QS_e165);
  (91, 154, 1, 0, "xi", Some QS_e166);
  (92, 154, 1, 0, "xi", Some QS_e167);
  (92, 155, 1, 0, "xi", Some QS_e168);
  (93, 155, 1, 0, "xi", Some QS_e169);
  (94, 164, 1, 0, "xi", Some (cN 1));
  (94, 165, 1, 0, "xi", Some (cN 1));
  (95, 168, 1, 0, "xi", Some QS_e19);
  (95, 169, 1, 0, "xi", Some QS_e19);
  (96, 170, 1, 0, "xi", Some (cQ (-1) 2));
  (96, 171, 1, 0, "xi", Some (cQ (-1) 2));
  (96, 174, 1, 0, "xi", Some QS_e75);
  (96, 175, 1, 0, "xi", Some QS_e75);
  (98, 176, 1, 0, "xi", Some QS_e19);
  (98, 177, 1, 0, "xi", Some QS_e19);
  (99, 178, 1, 0, "xi", Some (cN 1));
  (99, 179, 1, 0, "xi", Some (cN 1));
  (100, 180, 1, 0, "xi", Some QS_e19);
  (100, 181, 1, 0, "xi", Some QS_e19);
  (101, 182, 1, 0, "xi", Some (cQ (-1) 2));
  (101, 183, 1, 0, "xi", Some (cQ (-1) 2));
  (101, 192, 1, 0, "xi", Some QS_e75);
  (101, 193, 1, 0, "xi", Some QS_e75);
  (103, 186, 1, 0, "xi", Some QS_e209);
  (103, 187, 1, 0, "xi", Some QS_e209);
  (103, 194, 1, 0, "xi", Some QS_e210);
  (103, 195, 1, 0, "xi", Some QS_e210);
  (104, 188, 1, 0, "xi", Some (cQ (-1) 2));
  (104, 189, 1, 0, "xi", Some (cQ (-1) 2));
  (104, 196, 1, 0, "xi", Some (cD (cR (cN 3)) (cN 2)));
  (104, 197, 1, 0, "xi", Some (cD (cR (cN 3)) (cN 2)));
  (105, 186, 1, 0, "xi", Some QS_e242);
  (105, 187, 1, 0, "xi", Some QS_e242);
  (105, 194, 1, 0, "xi", Some QS_e209);
  (105, 195, 1, 0, "xi", Some QS_e209);
  (107, 190, 1, 0, "xi", Some QS_e19);
  (107, 191, 1, 0, "xi", Some QS_e19);
  (109, 198, 1, 0, "xi", Some QS_e19);
  (109, 199, 1, 0, "xi", Some QS_e19);
  (110, 200, 1, 0, "xi", Some (cN 1));
  (110, 201, 1, 0, "xi", Some (cN 1));
  (112, 202, 1, 0, "xi", Some QS_e19);
  (112, 203, 1, 0, "xi", Some QS_e19);
  (114, 168, 1, 0, "xi", Some QS_e45);
  (115, 168, 1, 0, "xi", Some QS_e29);
  (115, 169, 1, 0, "xi", Some QS_e46);
  (116, 169, 1, 0, "xi", Some QS_e47);
  (117, 170, 1, 0, "xi", Some QS_e25);
  (117, 174, 1, 0, "xi", Some QS_e155);
  (117, 204, 1, 0, "xi", Some (cN (-1)));
  (117, 205, 1, 0, "xi", Some QS_e156);
  (118, 170, 1, 0, "xi", Some QS_e136);
  (118, 171, 1, 0, "xi", Some QS_e137);
  (118, 174, 1, 0, "xi", Some QS_e91);
  (118, 175, 1, 0, "xi", Some QS_e157);
  (118, 205, 1, 0, "xi", Some QS_e103);
  (118, 206, 1, 0, "xi", Some QS_e78);
  (119, 171, 1, 0, "xi", Some QS_e22);
  (119, 175, 1, 0, "xi", Some QS_e158);
  (119, 206, 1, 0, "xi", Some QS_e159);
  (119, 207, 1, 0, "xi", Some (cN (-1)));
  (120, 176, 1, 0, "xi", Some QS_e49);
  (121, 176, 1, 0, "xi", Some QS_e27);
  (121, 177, 1, 0, "xi", Some QS_e50);
  (122, 177, 1, 0, "xi", Some QS_e51);
  (123, 180, 1, 0, "xi", Some QS_e45);
  (124, 180, 1, 0, "xi", Some QS_e29);
  (124, 181, 1, 0, "xi", Some QS_e46);
  (125, 181, 1, 0, "xi", Some QS_e47);
  (126, 182, 1, 0, "xi", Some QS_e25);
  (126, 192, 1, 0, "xi", Some QS_e155);
  (126, 208, 1, 0, "xi", Some (cN (-1)));
  (126, 209, 1, 0, "xi", Some QS_e156);
  (127, 182, 1, 0, "xi", Some QS_e136);
  (127, 183, 1, 0, "xi", Some QS_e137);
  (127, 192, 1, 0, "xi", Some QS_e91);
  (127, 193, 1, 0, "xi", Some QS_e157);
  (127, 209, 1, 0, "xi", Some QS_e103);
  (127, 210, 1, 0, "xi", Some QS_e78);
  (128, 183, 1, 0, "xi", Some QS_e22);
  (128, 193, 1, 0, "xi", Some QS_e158);
  (128, 210, 1, 0, "xi", Some QS_e159);
  (128, 211, 1, 0, "xi", Some (cN (-1)));
  (132, 186, 1, 0, "xi", Some QS_e96);
  (132, 194, 1, 0, "xi", Some QS_e97);
  (132, 212, 1, 0, "xi", Some QS_e19);
  (132, 213, 1, 0, "xi", Some QS_e398);
  (133, 186, 1, 0, "xi", Some QS_e399);
  (133, 187, 1, 0, "xi", Some QS_e400);
  (133, 194, 1, 0, "xi", Some QS_e401);
  (133, 195, 1, 0, "xi", Some QS_e402);
  (133, 213, 1, 0, "xi", Some QS_e110);
  (133, 214, 1, 0, "xi", Some QS_e87);
  (134, 187, 1, 0, "xi", Some QS_e403);
  (134, 195, 1, 0, "xi", Some QS_e83);
  (134, 214, 1, 0, "xi", Some QS_e404);
  (134, 215, 1, 0, "xi", Some QS_e19);
  (135, 188, 1, 0, "xi", Some QS_e25);
  (135, 196, 1, 0, "xi", Some QS_e135);
  (135, 216, 1, 0, "xi", Some (cN 1));
  (135, 217, 1, 0, "xi", Some QS_e109);
  (136, 188, 1, 0, "xi", Some QS_e136);
  (136, 189, 1, 0, "xi", Some QS_e137);
  (136, 196, 1, 0, "xi", Some QS_e101);
  (136, 197, 1, 0, "xi", Some QS_e138);
  (136, 217, 1, 0, "xi", Some QS_e93);
  (136, 218, 1, 0, "xi", Some QS_e67);
  (137, 189, 1, 0, "xi", Some QS_e22);
  (137, 197, 1, 0, "xi", Some QS_e139);
  (137, 218, 1, 0, "xi", Some QS_e140);
  (137, 219, 1, 0, "xi", Some (cN 1));
  (138, 186, 1, 0, "xi", Some QS_e308);
  (138, 194, 1, 0, "xi", Some QS_e446);
  (138, 212, 1, 0, "xi", Some (cD (cN 1) (cR (cN 6))));
  (138, 213, 1, 0, "xi", Some QS_e276);
  (139, 186, 1, 0, "xi", Some QS_e283);
  (139, 187, 1, 0, "xi", Some QS_e447);
  (139, 194, 1, 0, "xi", Some QS_e287);
  (139, 195, 1, 0, "xi", Some QS_e448);
  (139, 213, 1, 0, "xi", Some QS_e317);
  (139, 214, 1, 0, "xi", Some QS_e449);
  (140, 187, 1, 0, "xi", Some QS_e206);
  (140, 195, 1, 0, "xi", Some QS_e450);
  (140, 214, 1, 0, "xi", Some QS_e451);
  (140, 215, 1, 0, "xi", Some (cD (cN 1) (cR (cN 6))));
  (144, 190, 1, 0, "xi", Some QS_e45);
  (145, 190, 1, 0, "xi", Some QS_e29);
  (145, 191, 1, 0, "xi", Some QS_e46);
  (146, 191, 1, 0, "xi", Some QS_e47);
  (147, 194, 1, 0, "xi", Some QS_e452);
  (147, 212, 1, 0, "xi", Some QS_e192);
  (147, 213, 1, 0, "xi", Some QS_e453);
  (148, 194, 1, 0, "xi", Some QS_e288);
  (148, 195, 1, 0, "xi", Some QS_e256);
  (148, 213, 1, 0, "xi", Some QS_e318);
  (148, 214, 1, 0, "xi", Some QS_e250);
  (149, 195, 1, 0, "xi", Some QS_e454);
  (149, 214, 1, 0, "xi", Some QS_e455);
  (149, 215, 1, 0, "xi", Some QS_e192);
  (150, 198, 1, 0, "xi", Some QS_e49);
  (151, 198, 1, 0, "xi", Some QS_e27);
  (151, 199, 1, 0, "xi", Some QS_e50);
  (152, 199, 1, 0, "xi", Some QS_e51);
  (156, 202, 1, 0, "xi", Some QS_e45);
  (157, 202, 1, 0, "xi", Some QS_e29);
  (157, 203, 1, 0, "xi", Some QS_e46);
  (158, 203, 1, 0, "xi", Some QS_e47);
  (159, 212, 1, 0, "xi", Some QS_e456);
  (160, 212, 1, 0, "xi", Some QS_e457);
  (160, 213, 1, 0, "xi", Some QS_e458);
  (161, 213, 1, 0, "xi", Some QS_e295);
  (161, 214, 1, 0, "xi", Some QS_e224);
  (162, 214, 1, 0, "xi", Some QS_e459);
  (162, 215, 1, 0, "xi", Some QS_e460);
  (163, 215, 1, 0, "xi", Some QS_e461);
  (164, 220, 1, 0, "xi", Some QS_e12);
  (165, 220, 1, 0, "xi", Some QS_e13);
  (166, 221, 1, 0, "xi", Some QS_e42);
  (166, 230, 1, 0, "xi", Some (cN (-1)));
  (166, 231, 1, 0, "xi", Some QS_e48);
  (167, 221, 1, 0, "xi", Some QS_e43);
  (167, 231, 1, 0, "xi", Some QS_e42);
  (167, 232, 1, 0, "xi", Some (cN (-1)));
  (170, 223, 1, 0, "xi", Some QS_e141);
  (170, 233, 1, 0, "xi", Some QS_e19);
  (170, 234, 1, 0, "xi", Some QS_e142);
  (171, 223, 1, 0, "xi", Some QS_e143);
  (171, 234, 1, 0, "xi", Some QS_e144);
  (171, 235, 1, 0, "xi", Some QS_e19);
  (172, 224, 1, 0, "xi", Some QS_e42);
  (172, 236, 1, 0, "xi", Some (cN 1));
  (172, 237, 1, 0, "xi", Some QS_e43);
  (173, 224, 1, 0, "xi", Some QS_e43);
  (173, 237, 1, 0, "xi", Some QS_e44);
  (173, 238, 1, 0, "xi", Some (cN 1));
  (174, 223, 1, 0, "xi", Some QS_e160);
  (174, 233, 1, 0, "xi", Some (cD (cN 1) (cR (cN 6))));
  (174, 234, 1, 0, "xi", Some QS_e161);
  (175, 223, 1, 0, "xi", Some QS_e162);
  (175, 234, 1, 0, "xi", Some QS_e163);
  (175, 235, 1, 0, "xi", Some (cD (cN 1) (cR (cN 6))));
  (178, 225, 1, 0, "xi", Some QS_e12);
  (179, 225, 1, 0, "xi", Some QS_e13);
  (182, 226, 1, 0, "xi", Some QS_e141);
  (182, 239, 1, 0, "xi", Some QS_e19);
  (182, 240, 1, 0, "xi", Some QS_e142);
  (183, 226, 1, 0, "xi", Some QS_e143);
  (183, 240, 1, 0, "xi", Some QS_e144);
  (183, 241, 1, 0, "xi", Some QS_e19);
  (184, 227, 1, 0, "xi", Some QS_e42);
  (184, 242, 1, 0, "xi", Some (cN 1));
  (184, 243, 1, 0, "xi", Some QS_e43);
  (185, 227, 1, 0, "xi", Some QS_e43);
  (185, 243, 1, 0, "xi", Some QS_e44);
  (185, 244, 1, 0, "xi", Some (cN 1));
  (188, 228, 1, 0, "xi", Some QS_e141);
  (188, 245, 1, 0, "xi", Some QS_e19);
  (188, 246, 1, 0, "xi", Some QS_e142);
  (189, 228, 1, 0, "xi", Some QS_e143);
  (189, 246, 1, 0, "xi", Some QS_e144);
  (189, 247, 1, 0, "xi", Some QS_e19);
  (192, 226, 1, 0, "xi", Some QS_e160);
  (192, 239, 1, 0, "xi", Some (cD (cN 1) (cR (cN 6))));
  (192, 240, 1, 0, "xi", Some QS_e161);
  (193, 226, 1, 0, "xi", Some QS_e162);
  (193, 240, 1, 0, "xi", Some QS_e163);
  (193, 241, 1, 0, "xi", Some (cD (cN 1) (cR (cN 6))));
  (196, 228, 1, 0, "xi", Some QS_e145);
  (196, 245, 1, 0, "xi", Some QS_e81);
  (196, 246, 1, 0, "xi", Some QS_e146);
  (197, 228, 1, 0, "xi", Some QS_e147);
  (197, 246, 1, 0, "xi", Some QS_e148);
  (197, 247, 1, 0, "xi", Some QS_e81);
  (200, 229, 1, 0, "xi", Some QS_e12);
  (201, 229, 1, 0, "xi", Some QS_e13);
  (204, 233, 1, 0, "xi", Some QS_e164);
  (205, 233, 1, 0, "xi", Some QS_e165);
  (205, 234, 1, 0, "xi", Some QS_e166);
  (206, 234, 1, 0, "xi", Some QS_e167);
  (206, 235, 1, 0, "xi", Some QS_e168);
  (207, 235, 1, 0, "xi", Some QS_e169);
  (208, 239, 1, 0, "xi", Some QS_e164);
  (209, 239, 1, 0, "xi", Some QS_e165);
  (209, 240, 1, 0, "xi", Some QS_e166);
  (210, 240, 1, 0, "xi", Some QS_e167);
  (210, 241, 1, 0, "xi", Some QS_e168);
  (211, 241, 1, 0, "xi", Some QS_e169);
  (216, 245, 1, 0, "xi", Some QS_e149);
  (217, 245, 1, 0, "xi", Some QS_e150);
  (217, 246, 1, 0, "xi", Some QS_e151);
  (218, 246, 1, 0, "xi", Some QS_e152);
  (218, 247, 1, 0, "xi", Some QS_e153);
  (219, 247, 1, 0, "xi", Some QS_e154);
  (221, 248, 1, 0, "xi", Some QS_e19);
  (221, 249, 1, 0, "xi", Some QS_e19);
  (222, 250, 1, 0, "xi", Some (cN 1));
  (222, 251, 1, 0, "xi", Some (cN 1));
  (224, 252, 1, 0, "xi", Some QS_e19);
  (224, 253, 1, 0, "xi", Some QS_e19);
  (227, 254, 1, 0, "xi", Some QS_e19);
  (227, 255, 1, 0, "xi", Some QS_e19);
  (230, 248, 1, 0, "xi", Some QS_e49);
  (231, 248, 1, 0, "xi", Some QS_e27);
  (231, 249, 1, 0, "xi", Some QS_e50);
  (232, 249, 1, 0, "xi", Some QS_e51);
  (236, 252, 1, 0, "xi", Some QS_e45);
  (237, 252, 1, 0, "xi", Some QS_e29);
  (237, 253, 1, 0, "xi", Some QS_e46);
  (238, 253, 1, 0, "xi", Some QS_e47);
  (242, 254, 1, 0, "xi", Some QS_e45);
  (243, 254, 1, 0, "xi", Some QS_e29);
  (243, 255, 1, 0, "xi", Some QS_e46);
  (244, 255, 1, 0, "xi", Some QS_e47);
  (250, 256, 1, 0, "xi", Some QS_e12);
  (251, 256, 1, 0, "xi", Some QS_e13);
  (1, 4, 2, 0, "xi", Some (cN 1));
  (1, 5, 2, 0, "xi", Some (cN 1));
  (2, 11, 2, 0, "xi", Some QS_e42);
  (2, 20, 2, 0, "xi", Some (cN 1));
  (2, 21, 2, 0, "xi", Some QS_e43);
  (3, 11, 2, 0, "xi", Some QS_e43);
  (3, 21, 2, 0, "xi", Some QS_e44);
  (3, 22, 2, 0, "xi", Some (cN 1));
  (4, 14, 2, 0, "xi", Some QS_e12);
  (5, 14, 2, 0, "xi", Some QS_e13);
  (6, 15, 2, 0, "xi", Some QS_e42);
  (6, 29, 2, 0, "xi", Some (cN (-1)));
  (6, 30, 2, 0, "xi", Some QS_e48);
  (7, 15, 2, 0, "xi", Some QS_e43);
  (7, 30, 2, 0, "xi", Some QS_e42);
  (7, 31, 2, 0, "xi", Some (cN (-1)));
  (8, 16, 2, 0, "xi", Some QS_e42);
  (8, 32, 2, 0, "xi", Some (cN (-1)));
  (8, 33, 2, 0, "xi", Some QS_e48);
  (9, 16, 2, 0, "xi", Some QS_e43);
  (9, 33, 2, 0, "xi", Some QS_e42);
  (9, 34, 2, 0, "xi", Some (cN (-1)));
  (10, 38, 2, 0, "xi", Some (cN 1));
  (10, 39, 2, 0, "xi", Some (cN 1));
  (11, 44, 2, 0, "xi", Some QS_e19);
  (11, 45, 2, 0, "xi", Some QS_e19);
  (12, 46, 2, 0, "xi", Some (cQ (-1) 2));
  (12, 47, 2, 0, "xi", Some (cQ (-1) 2));
  (12, 56, 2, 0, "xi", Some QS_e75);
  (12, 57, 2, 0, "xi", Some QS_e75);
  (13, 48, 2, 0, "xi", Some (cQ (-1) 2));
  (13, 49, 2, 0, "xi", Some (cQ (-1) 2));
  (13, 58, 2, 0, "xi", Some QS_e75);
  (13, 59, 2, 0, "xi", Some QS_e75);
  (15, 62, 2, 0, "xi", Some QS_e19);
  (15, 63, 2, 0, "xi", Some QS_e19);
  (16, 64, 2, 0, "xi", Some QS_e19);
  (16, 65, 2, 0, "xi", Some QS_e19);
  (17, 66, 2, 0, "xi", Some (cN 1));
  (17, 67, 2, 0, "xi", Some (cN 1));
  (18, 68, 2, 0, "xi", Some (cN 1));
  (18, 69, 2, 0, "xi", Some (cN 1));
  (19, 70, 2, 0, "xi", Some (cN 1));
  (19, 71, 2, 0, "xi", Some (cN 1));
  (20, 44, 2, 0, "xi", Some QS_e45);
  (21, 44, 2, 0, "xi", Some QS_e29);
  (21, 45, 2, 0, "xi", Some QS_e46);
  (22, 45, 2, 0, "xi", Some QS_e47);
  (23, 46, 2, 0, "xi", Some QS_e25);
  (23, 56, 2, 0, "xi", Some QS_e155);
  (23, 78, 2, 0, "xi", Some (cN (-1)));
  (23, 79, 2, 0, "xi", Some QS_e156);
  (24, 46, 2, 0, "xi", Some QS_e136);
  (24, 47, 2, 0, "xi", Some QS_e137);
  (24, 56, 2, 0, "xi", Some QS_e91);
  (24, 57, 2, 0, "xi", Some QS_e157);
  (24, 79, 2, 0, "xi", Some QS_e103);
  (24, 80, 2, 0, "xi", Some QS_e78);
  (25, 47, 2, 0, "xi", Some QS_e22);
  (25, 57, 2, 0, "xi", Some QS_e158);
  (25, 80, 2, 0, "xi", Some QS_e159);
  (25, 81, 2, 0, "xi", Some (cN (-1)));
  (26, 48, 2, 0, "xi", Some QS_e25);
  (26, 58, 2, 0, "xi", Some QS_e155);
  (26, 82, 2, 0, "xi", Some (cN (-1)));
  (26, 83, 2, 0, "xi", Some QS_e156);
  (27, 48, 2, 0, "xi", Some QS_e136);
  (27, 49, 2, 0, "xi", Some QS_e137);
  (27, 58, 2, 0, "xi", Some QS_e91);
  (27, 59, 2, 0, "xi", Some QS_e157);
  (27, 83, 2, 0, "xi", Some QS_e103);
  (27, 84, 2, 0, "xi", Some QS_e78);
  (28, 49, 2, 0, "xi", Some QS_e22);
  (28, 59, 2, 0, "xi", Some QS_e158);
  (28, 84, 2, 0, "xi", Some QS_e159);
  (28, 85, 2, 0, "xi", Some (cN (-1)));
  (29, 62, 2, 0, "xi", Some QS_e49);
  (30, 62, 2, 0, "xi", Some QS_e27);
  (30, 63, 2, 0, "xi", Some QS_e50);
  (31, 63, 2, 0, "xi", Some QS_e51);
  (32, 64, 2, 0, "xi", Some QS_e49);
  (33, 64, 2, 0, "xi", Some QS_e27);
  (33, 65, 2, 0, "xi", Some QS_e50);
  (34, 65, 2, 0, "xi", Some QS_e51);
  (35, 72, 2, 0, "xi", Some QS_e93);
  (35, 90, 2, 0, "xi", Some (cN 1));
  (35, 91, 2, 0, "xi", Some QS_e109);
  (36, 72, 2, 0, "xi", Some QS_e156);
  (36, 73, 2, 0, "xi", Some QS_e140);
  (36, 91, 2, 0, "xi", Some QS_e93);
  (36, 92, 2, 0, "xi", Some QS_e67);
  (37, 73, 2, 0, "xi", Some QS_e170);
  (37, 92, 2, 0, "xi", Some QS_e140);
  (37, 93, 2, 0, "xi", Some (cN 1));
  (38, 94, 2, 0, "xi", Some QS_e12);
  (39, 94, 2, 0, "xi", Some QS_e13);
  (40, 95, 2, 0, "xi", Some QS_e42);
  (40, 114, 2, 0, "xi", Some (cN (-1)));
  (40, 115, 2, 0, "xi", Some QS_e48);
  (41, 95, 2, 0, "xi", Some QS_e43);
  (41, 115, 2, 0, "xi", Some QS_e42);
  (41, 116, 2, 0, "xi", Some (cN (-1)));
  (42, 96, 2, 0, "xi", Some QS_e42);
  (42, 117, 2, 0, "xi", Some (cN (-1)));
  (42, 118, 2, 0, "xi", Some QS_e48);
  (43, 96, 2, 0, "xi", Some QS_e43);
  (43, 118, 2, 0, "xi", Some QS_e42);
  (43, 119, 2, 0, "xi", Some (cN (-1)));
  (46, 100, 2, 0, "xi", Some QS_e141);
  (46, 123, 2, 0, "xi", Some QS_e19);
  (46, 124, 2, 0, "xi", Some QS_e142);
  (47, 100, 2, 0, "xi", Some QS_e143);
  (47, 124, 2, 0, "xi", Some QS_e144);
  (47, 125, 2, 0, "xi", Some QS_e19);
  (48, 101, 2, 0, "xi", Some QS_e141);
  (48, 126, 2, 0, "xi", Some QS_e19);
  (48, 127, 2, 0, "xi", Some QS_e142);
  (49, 101, 2, 0, "xi", Some QS_e143);
  (49, 127, 2, 0, "xi", Some QS_e144);
  (49, 128, 2, 0, "xi", Some QS_e19);
  (50, 102, 2, 0, "xi", Some QS_e42);
  (50, 129, 2, 0, "xi", Some (cN 1));
  (50, 130, 2, 0, "xi", Some QS_e43);
  (51, 102, 2, 0, "xi", Some QS_e43);
  (51, 130, 2, 0, "xi", Some QS_e44);
  (51, 131, 2, 0, "xi", Some (cN 1));
  (52, 103, 2, 0, "xi", Some QS_e42);
  (52, 132, 2, 0, "xi", Some (cN 1));
  (52, 133, 2, 0, "xi", Some QS_e43);
  (53, 103, 2, 0, "xi", Some QS_e43);
  (53, 133, 2, 0, "xi", Some QS_e44);
  (53, 134, 2, 0, "xi", Some (cN 1));
  (54, 104, 2, 0, "xi", Some QS_e42);
  (54, 135, 2, 0, "xi", Some (cN 1));
  (54, 136, 2, 0, "xi", Some QS_e43);
  (55, 104, 2, 0, "xi", Some QS_e43);
  (55, 136, 2, 0, "xi", Some QS_e44);
  (55, 137, 2, 0, "xi", Some (cN 1));
  (56, 100, 2, 0, "xi", Some QS_e160);
  (56, 123, 2, 0, "xi", Some (cD (cN 1) (cR (cN 6))));
  (56, 124, 2, 0, "xi", Some QS_e161);
  (57, 100, 2, 0, "xi", Some QS_e162);
  (57, 124, 2, 0, "xi", Some QS_e163);
  (57, 125, 2, 0, "xi", Some (cD (cN 1) (cR (cN 6))));
  (58, 101, 2, 0, "xi", Some QS_e160);
  (58, 126, 2, 0, "xi", Some (cD (cN 1) (cR (cN 6))));
  (58, 127, 2, 0, "xi", Some QS_e161);
  (59, 101, 2, 0, "xi", Some QS_e162);
  (59, 127, 2, 0, "xi", Some QS_e163);
  (59, 128, 2, 0, "xi", Some (cD (cN 1) (cR (cN 6))));
  (60, 105, 2, 0, "xi", Some QS_e44);
  (60, 138, 2, 0, "xi", Some (cQ 1 3));
  (60, 139, 2, 0, "xi", Some QS_e462);
  (60, 147, 2, 0, "xi", Some QS_e234);
  (60, 148, 2, 0, "xi", Some QS_e369);
  (61, 105, 2, 0, "xi", Some QS_e48);
  (61, 139, 2, 0, "xi", Some QS_e463);
  (61, 140, 2, 0, "xi", Some (cQ 1 3));
  (61, 148, 2, 0, "xi", Some QS_e373);
  (61, 149, 2, 0, "xi", Some QS_e234);
  (66, 108, 2, 0, "xi", Some QS_e12);
  (67, 108, 2, 0, "xi", Some QS_e13);
  (68, 109, 2, 0, "xi", Some QS_e12);
  (69, 109, 2, 0, "xi", Some QS_e13);
  (70, 110, 2, 0, "xi", Some QS_e12);
  (71, 110, 2, 0, "xi", Some QS_e13);
  (72, 150, 2, 0, "xi", Some (cR (cQ 2 3)));
  (72, 151, 2, 0, "xi", Some QS_e171);
  (73, 151, 2, 0, "xi", Some QS_e172);
  (73, 152, 2, 0, "xi", Some (cR (cQ 2 3)));
  (74, 111, 2, 0, "xi", Some QS_e42);
  (74, 153, 2, 0, "xi", Some (cN (-1)));
  (74, 154, 2, 0, "xi", Some QS_e48);
  (75, 111, 2, 0, "xi", Some QS_e43);
  (75, 154, 2, 0, "xi", Some QS_e42);
  (75, 155, 2, 0, "xi", Some (cN (-1)));
  (76, 112, 2, 0, "xi", Some QS_e42);
  (76, 156, 2, 0, "xi", Some (cN (-1)));
  (76, 157, 2, 0, "xi", Some QS_e48);
  (77, 112, 2, 0, "xi", Some QS_e43);
  (77, 157, 2, 0, "xi", Some QS_e42);
  (77, 158, 2, 0, "xi", Some (cN (-1)));
  (78, 123, 2, 0, "xi", Some QS_e164);
  (79, 123, 2, 0, "xi", Some QS_e165);
  (79, 124, 2, 0, "xi", Some QS_e166);
  (80, 124, 2, 0, "xi", Some QS_e167);
  (80, 125, 2, 0, "xi", Some QS_e168);
  (81, 125, 2, 0, "xi", Some QS_e169);
  (82, 126, 2, 0, "xi", Some QS_e164);
  (83, 126, 2, 0, "xi", Some QS_e165);
  (83, 127, 2, 0, "xi", Some QS_e166);
  (84, 127, 2, 0, "xi", Some QS_e167);
  (84, 128, 2, 0, "xi", Some QS_e168);
  (85, 128, 2, 0, "xi", Some QS_e169);
  (86, 138, 2, 0, "xi", Some QS_e464);
  (86, 147, 2, 0, "xi", Some QS_e376);
  (86, 159, 2, 0, "xi", Some (cN 1));
  (86, 160, 2, 0, "xi", Some QS_e377);
  (87, 138, 2, 0, "xi", Some QS_e465);
  (87, 139, 2, 0, "xi", Some QS_e466);
  (87, 147, 2, 0, "xi", Some QS_e382);
  (87, 148, 2, 0, "xi", Some QS_e383);
  (87, 160, 2, 0, "xi", Some QS_e384);
  (87, 161, 2, 0, "xi", Some QS_e385);
  (88, 139, 2, 0, "xi", Some QS_e467);
  (88, 140, 2, 0, "xi", Some QS_e468);
  (88, 148, 2, 0, "xi", Some QS_e390);
  (88, 149, 2, 0, "xi", Some QS_e391);
  (88, 161, 2, 0, "xi", Some QS_e392);
  (88, 162, 2, 0, "xi", Some QS_e393);
  (89, 140, 2, 0, "xi", Some QS_e469);
  (89, 149, 2, 0, "xi", Some QS_e396);
  (89, 162, 2, 0, "xi", Some QS_e397);
  (89, 163, 2, 0, "xi", Some (cN 1));
  (90, 150, 2, 0, "xi", Some QS_e149);
  (91, 150, 2, 0, "xi", Some QS_e150);
  (91, 151, 2, 0, "xi", Some QS_e151);
  (92, 151, 2, 0, "xi", Some QS_e152);
  (92, 152, 2, 0, "xi", Some QS_e153);
  (93, 152, 2, 0, "xi", Some QS_e154);
  (95, 164, 2, 0, "xi", Some QS_e19);
  (95, 165, 2, 0, "xi", Some QS_e19);
  (96, 166, 2, 0, "xi", Some QS_e19);
  (96, 167, 2, 0, "xi", Some QS_e19);
  (97, 168, 2, 0, "xi", Some (cN 1));
  (97, 169, 2, 0, "xi", Some (cN 1));
  (98, 170, 2, 0, "xi", Some (cN 1));
  (98, 171, 2, 0, "xi", Some (cN 1));
  (99, 172, 2, 0, "xi", Some (cN 1));
  (99, 173, 2, 0, "xi", Some (cN 1));
  (102, 180, 2, 0, "xi", Some QS_e19);
  (102, 181, 2, 0, "xi", Some QS_e19);
  (103, 182, 2, 0, "xi", Some QS_e19);
  (103, 183, 2, 0, "xi", Some QS_e19);
  (104, 184, 2, 0, "xi", Some QS_e19);
  (104, 185, 2, 0, "xi", Some QS_e19);
  (105, 192, 2, 0, "xi", Some (cD (cN 1) (cR (cN 2))));
  (105, 193, 2, 0, "xi", Some (cD (cN 1) (cR (cN 2))));
  (106, 186, 2, 0, "xi", Some (cQ (-1) 2));
  (106, 187, 2, 0, "xi", Some (cQ (-1) 2));
  (106, 194, 2, 0, "xi", Some QS_e75);
  (106, 195, 2, 0, "xi", Some QS_e75);
  (107, 188, 2, 0, "xi", Some (cQ (-1) 2));
  (107, 189, 2, 0, "xi", Some (cQ (-1) 2));
  (107, 196, 2, 0, "xi", Some QS_e75);
  (107, 197, 2, 0, "xi", Some QS_e75);
  (111, 198, 2, 0, "xi", Some QS_e19);
  (111, 199, 2, 0, "xi", Some QS_e19);
  (112, 200, 2, 0, "xi", Some QS_e19);
  (112, 201, 2, 0, "xi", Some QS_e19);
  (113, 202, 2, 0, "xi", Some (cN 1));
  (113, 203, 2, 0, "xi", Some (cN 1));
  (114, 164, 2, 0, "xi", Some QS_e49);
  (115, 164, 2, 0, "xi", Some QS_e27);
  (115, 165, 2, 0, "xi", Some QS_e50);
  (116, 165, 2, 0, "xi", Some QS_e51);
  (117, 166, 2, 0, "xi", Some QS_e49);
  (118, 166, 2, 0, "xi", Some QS_e27);
  (118, 167, 2, 0, "xi", Some QS_e50);
  (119, 167, 2, 0, "xi", Some QS_e51);
  (120, 174, 2, 0, "xi", Some QS_e93);
  (120, 204, 2, 0, "xi", Some (cN 1));
  (120, 205, 2, 0, "xi", Some QS_e109);
  (121, 174, 2, 0, "xi", Some QS_e156);
  (121, 175, 2, 0, "xi", Some QS_e140);
  (121, 205, 2, 0, "xi", Some QS_e93);
  (121, 206, 2, 0, "xi", Some QS_e67);
  (122, 175, 2, 0, "xi", Some QS_e170);
  (122, 206, 2, 0, "xi", Some QS_e140);
  (122, 207, 2, 0, "xi", Some (cN 1));
  (129, 180, 2, 0, "xi", Some QS_e45);
  (130, 180, 2, 0, "xi", Some QS_e29);
  (130, 181, 2, 0, "xi", Some QS_e46);
  (131, 181, 2, 0, "xi", Some QS_e47);
  (132, 182, 2, 0, "xi", Some QS_e45);
  (133, 182, 2, 0, "xi", Some QS_e29);
  (133, 183, 2, 0, "xi", Some QS_e46);
  (134, 183, 2, 0, "xi", Some QS_e47);
  (135, 184, 2, 0, "xi", Some QS_e45);
  (136, 184, 2, 0, "xi", Some QS_e29);
  (136, 185, 2, 0, "xi", Some QS_e46);
  (137, 185, 2, 0, "xi", Some QS_e47);
  (138, 192, 2, 0, "xi", Some QS_e293);
  (138, 208, 2, 0, "xi", Some (cR (cQ 2 3)));
  (138, 209, 2, 0, "xi", Some QS_e470);
  (139, 192, 2, 0, "xi", Some QS_e276);
  (139, 193, 2, 0, "xi", Some QS_e410);
  (139, 209, 2, 0, "xi", Some QS_e303);
  (139, 210, 2, 0, "xi", Some QS_e471);
  (140, 193, 2, 0, "xi", Some QS_e449);
  (140, 210, 2, 0, "xi", Some QS_e472);
  (140, 211, 2, 0, "xi", Some (cR (cQ 2 3)));
  (141, 186, 2, 0, "xi", Some QS_e25);
  (141, 194, 2, 0, "xi", Some QS_e155);
  (141, 212, 2, 0, "xi", Some (cN (-1)));
  (141, 213, 2, 0, "xi", Some QS_e156);
  (142, 186, 2, 0, "xi", Some QS_e136);
  (142, 187, 2, 0, "xi", Some QS_e137);
  (142, 194, 2, 0, "xi", Some QS_e91);
  (142, 195, 2, 0, "xi", Some QS_e157);
  (142, 213, 2, 0, "xi", Some QS_e103);
  (142, 214, 2, 0, "xi", Some QS_e78);
  (143, 187, 2, 0, "xi", Some QS_e22);
  (143, 195, 2, 0, "xi", Some QS_e158);
  (143, 214, 2, 0, "xi", Some QS_e159);
  (143, 215, 2, 0, "xi", Some (cN (-1)));
  (144, 188, 2, 0, "xi", Some QS_e25);
  (144, 196, 2, 0, "xi", Some QS_e155);
  (144, 216, 2, 0, "xi", Some (cN (-1)));
  (144, 217, 2, 0, "xi", Some QS_e156);
  (145, 188, 2, 0, "xi", Some QS_e136);
  (145, 189, 2, 0, "xi", Some QS_e137);
  (145, 196, 2, 0, "xi", Some QS_e91);
  (145, 197, 2, 0, "xi", Some QS_e157);
  (145, 217, 2, 0, "xi", Some QS_e103);
  (145, 218, 2, 0, "xi", Some QS_e78);
  (146, 189, 2, 0, "xi", Some QS_e22);
  (146, 197, 2, 0, "xi", Some QS_e158);
  (146, 218, 2, 0, "xi", Some QS_e159);
  (146, 219, 2, 0, "xi", Some (cN (-1)));
  (147, 192, 2, 0, "xi", Some QS_e411);
  (147, 208, 2, 0, "xi", Some QS_e220);
  (147, 209, 2, 0, "xi", Some QS_e412);
  (148, 192, 2, 0, "xi", Some QS_e313);
  (148, 193, 2, 0, "xi", Some QS_e413);
  (148, 209, 2, 0, "xi", Some QS_e294);
  (148, 210, 2, 0, "xi", Some QS_e223);
  (149, 193, 2, 0, "xi", Some QS_e414);
  (149, 210, 2, 0, "xi", Some QS_e415);
  (149, 211, 2, 0, "xi", Some QS_e220);
  (153, 198, 2, 0, "xi", Some QS_e49);
  (154, 198, 2, 0, "xi", Some QS_e27);
  (154, 199, 2, 0, "xi", Some QS_e50);
  (155, 199, 2, 0, "xi", Some QS_e51);
  (156, 200, 2, 0, "xi", Some QS_e49);
  (157, 200, 2, 0, "xi", Some QS_e27);
  (157, 201, 2, 0, "xi", Some QS_e50);
  (158, 201, 2, 0, "xi", Some QS_e51);
  (159, 208, 2, 0, "xi", Some QS_e416);
  (160, 208, 2, 0, "xi", Some QS_e417);
  (160, 209, 2, 0, "xi", Some QS_e418);
  (161, 209, 2, 0, "xi", Some QS_e319);
  (161, 210, 2, 0, "xi", Some QS_e251);
  (162, 210, 2, 0, "xi", Some QS_e419);
  (162, 211, 2, 0, "xi", Some QS_e420);
  (163, 211, 2, 0, "xi", Some QS_e421);
  (168, 220, 2, 0, "xi", Some QS_e12);
  (169, 220, 2, 0, "xi", Some QS_e13);
  (170, 221, 2, 0, "xi", Some QS_e12);
  (171, 221, 2, 0, "xi", Some QS_e13);
  (172, 222, 2, 0, "xi", Some QS_e12);
  (173, 222, 2, 0, "xi", Some QS_e13);
  (174, 230, 2, 0, "xi", Some (cR (cQ 2 3)));
  (174, 231, 2, 0, "xi", Some QS_e171);
  (175, 231, 2, 0, "xi", Some QS_e172);
  (175, 232, 2, 0, "xi", Some (cR (cQ 2 3)));
  (176, 223, 2, 0, "xi", Some QS_e42);
  (176, 233, 2, 0, "xi", Some (cN (-1)));
  (176, 234, 2, 0, "xi", Some QS_e48);
  (177, 223, 2, 0, "xi", Some QS_e43);
  (177, 234, 2, 0, "xi", Some QS_e42);
  (177, 235, 2, 0, "xi", Some (cN (-1)));
  (178, 224, 2, 0, "xi", Some QS_e42);
  (178, 236, 2, 0, "xi", Some (cN (-1)));
  (178, 237, 2, 0, "xi", Some QS_e48);
  (179, 224, 2, 0, "xi", Some QS_e43);
  (179, 237, 2, 0, "xi", Some QS_e42);
  (179, 238, 2, 0, "xi", Some (cN (-1)));
  (186, 226, 2, 0, "xi", Some QS_e141);
  (186, 239, 2, 0, "xi", Some QS_e19);
  (186, 240, 2, 0, "xi", Some QS_e142);
  (187, 226, 2, 0, "xi", Some QS_e143);
  (187, 240, 2, 0, "xi", Some QS_e144);
  (187, 241, 2, 0, "xi", Some QS_e19);
  (188, 227, 2, 0, "xi", Some QS_e141);
  (188, 242, 2, 0, "xi", Some QS_e19);
  (188, 243, 2, 0, "xi", Some QS_e142);
  (189, 227, 2, 0, "xi", Some QS_e143);
  (189, 243, 2, 0, "xi", Some QS_e144);
  (189, 244, 2, 0, "xi", Some QS_e19);
  (190, 228, 2, 0, "xi", Some QS_e42);
  (190, 245, 2, 0, "xi", Some (cN 1));
  (190, 246, 2, 0, "xi", Some QS_e43);
  (191, 228, 2, 0, "xi", Some QS_e43);
  (191, 246, 2, 0, "xi", Some QS_e44);
  (191, 247, 2, 0, "xi", Some (cN 1));
  (194, 226, 2, 0, "xi", Some QS_e160);
  (194, 239, 2, 0, "xi", Some (cD (cN 1) (cR (cN 6))));
  (194, 240, 2, 0, "xi", Some QS_e161);
  (195, 226, 2, 0, "xi", Some QS_e162);
  (195, 240, 2, 0, "xi", Some QS_e163);
  (195, 241, 2, 0, "xi", Some (cD (cN 1) (cR (cN 6))));
  (196, 227, 2, 0, "xi", Some QS_e160);
  (196, 242, 2, 0, "xi", Some (cD (cN 1) (cR (cN 6))));
  (196, 243, 2, 0, "xi", Some QS_e161);
  (197, 227, 2, 0, "xi", Some QS_e162);
  (197, 243, 2, 0, "xi", Some QS_e163);
  (197, 244, 2, 0, "xi", Some (cD (cN 1) (cR (cN 6))));
  (202, 229, 2, 0, "xi", Some QS_e12);
  (203, 229, 2, 0, "xi", Some QS_e13);
  (204, 230, 2, 0, "xi", Some QS_e149);
  (205, 230, 2, 0, "xi", Some QS_e150);
  (205, 231, 2, 0, "xi", Some QS_e151);
  (206, 231, 2, 0, "xi", Some QS_e152);
  (206, 232, 2, 0, "xi", Some QS_e153);
  (207, 232, 2, 0, "xi", Some QS_e154);
  (212, 239, 2, 0, "xi", Some QS_e164);
  (213, 239, 2, 0, "xi", Some QS_e165);
  (213, 240, 2, 0, "xi", Some QS_e166);
  (214, 240, 2, 0, "xi", Some QS_e167);
  (214, 241, 2, 0, "xi", Some QS_e168);
  (215, 241, 2, 0, "xi", Some QS_e169);
  (216, 242, 2, 0, "xi", Some QS_e164);
  (217, 242, 2, 0, "xi", Some QS_e165);
  (217, 243, 2, 0, "xi", Some QS_e166);
  (218, 243, 2, 0, "xi", Some QS_e167);
  (218, 244, 2, 0, "xi", Some QS_e168);
  (219, 244, 2, 0, "xi", Some QS_e169);
  (223, 248, 2, 0, "xi", Some QS_e19);
  (223, 249, 2, 0, "xi", Some QS_e19);
  (224, 250, 2, 0, "xi", Some QS_e19);
  (224, 251, 2, 0, "xi", Some QS_e19);
  (225, 252, 2, 0, "xi", Some (cN 1));
  (225, 253, 2, 0, "xi", Some (cN 1));
  (228, 254, 2, 0, "xi", Some QS_e19);
  (228, 255, 2, 0, "xi", Some QS_e19);
  (233, 248, 2, 0, "xi", Some QS_e49);
  (234, 248, 2, 0, "xi", Some QS_e27);
  (234, 249, 2, 0, "xi", Some QS_e50);
  (235, 249, 2, 0, "xi", Some QS_e51);
  (236, 250, 2, 0, "xi", Some QS_e49);
  (237, 250, 2, 0, "xi", Some QS_e27);
  (237, 251, 2, 0, "xi", Some QS_e50);
  (238, 251, 2, 0, "xi", Some QS_e51);
  (245, 254, 2, 0, "xi", Some QS_e45);
  (246, 254, 2, 0, "xi", Some QS_e29);
  (246, 255, 2, 0, "xi", Some QS_e46);
  (247, 255, 2, 0, "xi", Some QS_e47);
  (252, 256, 2, 0, "xi", Some QS_e12);
  (253, 256, 2, 0, "xi", Some QS_e13);
  (1, 2, 3, 0, "xi", Some (cN 1));
  (1, 3, 3, 0, "xi", Some (cN 1));
  (2, 10, 3, 0, "xi", Some QS_e12);
  (3, 10, 3, 0, "xi", Some QS_e13);
  (4, 11, 3, 0, "xi", Some QS_e42);
  (4, 20, 3, 0, "xi", Some (cN (-1)));
  (4, 21, 3, 0, "xi", Some QS_e48);
  (5, 11, 3, 0, "xi", Some QS_e43);
  (5, 21, 3, 0, "xi", Some QS_e42);
  (5, 22, 3, 0, "xi", Some (cN (-1)));
  (6, 12, 3, 0, "xi", Some QS_e42);
  (6, 23, 3, 0, "xi", Some (cN (-1)));
  (6, 24, 3, 0, "xi", Some QS_e48);
  (7, 12, 3, 0, "xi", Some QS_e43);
  (7, 24, 3, 0, "xi", Some QS_e42);
  (7, 25, 3, 0, "xi", Some (cN (-1)));
  (8, 13, 3, 0, "xi", Some QS_e42);
  (8, 26, 3, 0, "xi", Some (cN (-1)));
  (8, 27, 3, 0, "xi", Some QS_e48);
  (9, 13, 3, 0, "xi", Some QS_e43);
  (9, 27, 3, 0, "xi", Some QS_e42);
  (9, 28, 3, 0, "xi", Some (cN (-1)));
  (11, 38, 3, 0, "xi", Some QS_e19);
  (11, 39, 3, 0, "xi", Some QS_e19);
  (12, 40, 3, 0, "xi", Some QS_e19);
  (12, 41, 3, 0, "xi", Some QS_e19);
  (13, 42, 3, 0, "xi", Some QS_e19);
  (13, 43, 3, 0, "xi", Some QS_e19);
  (14, 44, 3, 0, "xi", Some (cN 1));
  (14, 45, 3, 0, "xi", Some (cN 1));
  (15, 46, 3, 0, "xi", Some (cN 1));
  (15, 47, 3, 0, "xi", Some (cN 1));
  (16, 48, 3, 0, "xi", Some (cN 1));
  (16, 49, 3, 0, "xi", Some (cN 1));
  (17, 50, 3, 0, "xi", Some (cN 1));
  (17, 51, 3, 0, "xi", Some (cN 1));
  (18, 52, 3, 0, "xi", Some (cN 1));
  (18, 53, 3, 0, "xi", Some (cN 1));
  (19, 54, 3, 0, "xi", Some (cN 1));
  (19, 55, 3, 0, "xi", Some (cN 1));
  (20, 38, 3, 0, "xi", Some QS_e49);
  (21, 38, 3, 0, "xi", Some QS_e27);
  (21, 39, 3, 0, "xi", Some QS_e50);
  (22, 39, 3, 0, "xi", Some QS_e51);
  (23, 40, 3, 0, "xi", Some QS_e49);
  (24, 40, 3, 0, "xi", Some QS_e27);
  (24, 41, 3, 0, "xi", Some QS_e50);
  (25, 41, 3, 0, "xi", Some QS_e51);
  (26, 42, 3, 0, "xi", Some QS_e49);
  (27, 42, 3, 0, "xi", Some QS_e27);
  (27, 43, 3, 0, "xi", Some QS_e50);
  (28, 43, 3, 0, "xi", Some QS_e51);
  (29, 56, 3, 0, "xi", Some QS_e93);
  (29, 78, 3, 0, "xi", Some (cN 1));
  (29, 79, 3, 0, "xi", Some QS_e109);
  (30, 56, 3, 0, "xi", Some QS_e156);
  (30, 57, 3, 0, "xi", Some QS_e140);
  (30, 79, 3, 0, "xi", Some QS_e93);
  (30, 80, 3, 0, "xi", Some QS_e67);
  (31, 57, 3, 0, "xi", Some QS_e170);
  (31, 80, 3, 0, "xi", Some QS_e140);
  (31, 81, 3, 0, "xi", Some (cN 1));
  (32, 58, 3, 0, "xi", Some QS_e93);
  (32, 82, 3, 0, "xi", Some (cN 1));
  (32, 83, 3, 0, "xi", Some QS_e109);
  (33, 58, 3, 0, "xi", Some QS_e156);
  (33, 59, 3, 0, "xi", Some QS_e140);
  (33, 83, 3, 0, "xi", Some QS_e93);
  (33, 84, 3, 0, "xi", Some QS_e67);
  (34, 59, 3, 0, "xi", Some QS_e170);
  (34, 84, 3, 0, "xi", Some QS_e140);
  (34, 85, 3, 0, "xi", Some (cN 1));
  (35, 60, 3, 0, "xi", Some QS_e93);
  (35, 86, 3, 0, "xi", Some (cN 1));
  (35, 87, 3, 0, "xi", Some QS_e109);
  (36, 60, 3, 0, "xi", Some QS_e156);
  (36, 61, 3, 0, "xi", Some QS_e140);
  (36, 87, 3, 0, "xi", Some QS_e93);
  (36, 88, 3, 0, "xi", Some QS_e67);
  (37, 61, 3, 0, "xi", Some QS_e170);
  (37, 88, 3, 0, "xi", Some QS_e140);
  (37, 89, 3, 0, "xi", Some (cN 1));
  (44, 94, 3, 0, "xi", Some QS_e12);
  (45, 94, 3, 0, "xi", Some QS_e13);
  (46, 95, 3, 0, "xi", Some QS_e12);
  (47, 95, 3, 0, "xi", Some QS_e13);
  (48, 96, 3, 0, "xi", Some QS_e12);
  (49, 96, 3, 0, "xi", Some QS_e13);
  (50, 97, 3, 0, "xi", Some QS_e12);
  (51, 97, 3, 0, "xi", Some QS_e13);
  (52, 98, 3, 0, "xi", Some QS_e12);
  (53, 98, 3, 0, "xi", Some QS_e13);
  (54, 99, 3, 0, "xi", Some QS_e12);
  (55, 99, 3, 0, "xi", Some QS_e13);
  (56, 114, 3, 0, "xi", Some (cR (cQ 2 3)));
  (56, 115, 3, 0, "xi", Some QS_e171);
  (57, 115, 3, 0, "xi", Some QS_e172);
  (57, 116, 3, 0, "xi", Some (cR (cQ 2 3)));
  (58, 117, 3, 0, "xi", Some (cR (cQ 2 3)));
  (58, 118, 3, 0, "xi", Some QS_e171);
  (59, 118, 3, 0, "xi", Some QS_e172);
  (59, 119, 3, 0, "xi", Some (cR (cQ 2 3)));
  (60, 120, 3, 0, "xi", Some (cR (cQ 2 3)));
  (60, 121, 3, 0, "xi", Some QS_e171);
  (61, 121, 3, 0, "xi", Some QS_e172);
  (61, 122, 3, 0, "xi", Some (cR (cQ 2 3)));
  (62, 100, 3, 0, "xi", Some QS_e42);
  (62, 123, 3, 0, "xi", Some (cN (-1)));
  (62, 124, 3, 0, "xi", Some QS_e48);
  (63, 100, 3, 0, "xi", Some QS_e43);
  (63, 124, 3, 0, "xi", Some QS_e42);
  (63, 125, 3, 0, "xi", Some (cN (-1)));
  (64, 101, 3, 0, "xi", Some QS_e42);
  (64, 126, 3, 0, "xi", Some (cN (-1)));
  (64, 127, 3, 0, "xi", Some QS_e48);
  (65, 101, 3, 0, "xi", Some QS_e43);
  (65, 127, 3, 0, "xi", Some QS_e42);
  (65, 128, 3, 0, "xi", Some (cN (-1)));
  (66, 102, 3, 0, "xi", Some QS_e42);
  (66, 129, 3, 0, "xi", Some (cN (-1)));
  (66, 130, 3, 0, "xi", Some QS_e48);
  (67, 102, 3, 0, "xi", Some QS_e43);
  (67, 130, 3, 0, "xi", Some QS_e42);
  (67, 131, 3, 0, "xi", Some (cN (-1)));
  (68, 103, 3, 0, "xi", Some QS_e42);
  (68, 132, 3, 0, "xi", Some (cN (-1)));
  (68, 133, 3, 0, "xi", Some QS_e48);
  (69, 103, 3, 0, "xi", Some QS_e43);
  (69, 133, 3, 0, "xi", Some QS_e42);
  (69, 134, 3, 0, "xi", Some (cN (-1)));
  (70, 104, 3, 0, "xi", Some QS_e42);
  (70, 135, 3, 0, "xi", Some (cN (-1)));
  (70, 136, 3, 0, "xi", Some QS_e48);
  (71, 104, 3, 0, "xi", Some QS_e43);
  (71, 136, 3, 0, "xi", Some QS_e42);
  (71, 137, 3, 0, "xi", Some (cN (-1)));
  (72, 105, 3, 0, "xi", Some QS_e42);
  (72, 138, 3, 0, "xi", Some (cN (-1)));
  (72, 139, 3, 0, "xi", Some QS_e48);
  (73, 105, 3, 0, "xi", Some QS_e43);
  (73, 139, 3, 0, "xi", Some QS_e42);
  (73, 140, 3, 0, "xi", Some (cN (-1)));
  (74, 106, 3, 0, "xi", Some QS_e42);
  (74, 141, 3, 0, "xi", Some (cN (-1)));
  (74, 142, 3, 0, "xi", Some QS_e48);
  (75, 106, 3, 0, "xi", Some QS_e43);
  (75, 142, 3, 0, "xi", Some QS_e42);
  (75, 143, 3, 0, "xi", Some (cN (-1)));
  (76, 107, 3, 0, "xi", Some QS_e42);
  (76, 144, 3, 0, "xi", Some (cN (-1)));
  (76, 145, 3, 0, "xi", Some QS_e48);
  (77, 107, 3, 0, "xi", Some QS_e43);
  (77, 145, 3, 0, "xi", Some QS_e42);
  (77, 146, 3, 0, "xi", Some (cN (-1)));
  (78, 114, 3, 0, "xi", Some QS_e149);
  (79, 114, 3, 0, "xi", Some QS_e150);
  (79, 115, 3, 0, "xi", Some QS_e151);
  (80, 115, 3, 0, "xi", Some QS_e152);
  (80, 116, 3, 0, "xi", Some QS_e153);
  (81, 116, 3, 0, "xi", Some QS_e154);
  (82, 117, 3, 0, "xi", Some QS_e149);
  (83, 117, 3, 0, "xi", Some QS_e150);
  (83, 118, 3, 0, "xi", Some QS_e151);
  (84, 118, 3, 0, "xi", Some QS_e152);
  (84, 119, 3, 0, "xi", Some QS_e153);
  (85, 119, 3, 0, "xi", Some QS_e154);
  (86, 120, 3, 0, "xi", Some QS_e149);
  (87, 120, 3, 0, "xi", Some QS_e150);
  (87, 121, 3, 0, "xi", Some QS_e151);
  (88, 121, 3, 0, "xi", Some QS_e152);
  (88, 122, 3, 0, "xi", Some QS_e153);
  (89, 122, 3, 0, "xi", Some QS_e154);
  (90, 147, 3, 0, "xi", Some QS_e473);
  (90, 159, 3, 0, "xi", Some (cN (-1)));
  (90, 160, 3, 0, "xi", Some QS_e430);
  (91, 147, 3, 0, "xi", Some QS_e377);
  (91, 148, 3, 0, "xi", Some QS_e441);
  (91, 160, 3, 0, "xi", Some QS_e435);
  (91, 161, 3, 0, "xi", Some QS_e436);
  (92, 148, 3, 0, "xi", Some QS_e385);
  (92, 149, 3, 0, "xi", Some QS_e474);
  (92, 161, 3, 0, "xi", Some QS_e441);
  (92, 162, 3, 0, "xi", Some QS_e442);
  (93, 149, 3, 0, "xi", Some QS_e475);
  (93, 162, 3, 0, "xi", Some QS_e445);
  (93, 163, 3, 0, "xi", Some (cN (-1)));
  (100, 164, 3, 0, "xi", Some QS_e19);
  (100, 165, 3, 0, "xi", Some QS_e19);
  (101, 166, 3, 0, "xi", Some QS_e19);
  (101, 167, 3, 0, "xi", Some QS_e19);
  (102, 168, 3, 0, "xi", Some QS_e19);
  (102, 169, 3, 0, "xi", Some QS_e19);
  (103, 170, 3, 0, "xi", Some QS_e19);
  (103, 171, 3, 0, "xi", Some QS_e19);
  (104, 172, 3, 0, "xi", Some QS_e19);
  (104, 173, 3, 0, "xi", Some QS_e19);
  (105, 174, 3, 0, "xi", Some QS_e19);
  (105, 175, 3, 0, "xi", Some QS_e19);
  (106, 176, 3, 0, "xi", Some QS_e19);
  (106, 177, 3, 0, "xi", Some QS_e19);
  (107, 178, 3, 0, "xi", Some QS_e19);
  (107, 179, 3, 0, "xi", Some QS_e19);
  (108, 180, 3, 0, "xi", Some (cN 1));
  (108, 181, 3, 0, "xi", Some (cN 1));
  (109, 182, 3, 0, "xi", Some (cN 1));
  (109, 183, 3, 0, "xi", Some (cN 1));
  (110, 184, 3, 0, "xi", Some (cN 1));
  (110, 185, 3, 0, "xi", Some (cN 1));
  (111, 186, 3, 0, "xi", Some (cN 1));
  (111, 187, 3, 0, "xi", Some (cN 1));
  (112, 188, 3, 0, "xi", Some (cN 1));
  (112, 189, 3, 0, "xi", Some (cN 1));
  (113, 190, 3, 0, "xi", Some (cN 1));
  (113, 191, 3, 0, "xi", Some (cN 1));
  (123, 164, 3, 0, "xi", Some QS_e49);
  (124, 164, 3, 0, "xi", Some QS_e27);
  (124, 165, 3, 0, "xi", Some QS_e50);
  (125, 165, 3, 0, "xi", Some QS_e51);
  (126, 166, 3, 0, "xi", Some QS_e49);
  (127, 166, 3, 0, "xi", Some QS_e27);
  (127, 167, 3, 0, "xi", Some QS_e50);
  (128, 167, 3, 0, "xi", Some QS_e51);
  (129, 168, 3, 0, "xi", Some QS_e49);
  (130, 168, 3, 0, "xi", Some QS_e27);
  (130, 169, 3, 0, "xi", Some QS_e50);
  (131, 169, 3, 0, "xi", Some QS_e51);
  (132, 170, 3, 0, "xi", Some QS_e49);
  (133, 170, 3, 0, "xi", Some QS_e27);
  (133, 171, 3, 0, "xi", Some QS_e50);
  (134, 171, 3, 0, "xi", Some QS_e51);
  (135, 172, 3, 0, "xi", Some QS_e49);
  (136, 172, 3, 0, "xi", Some QS_e27);
  (136, 173, 3, 0, "xi", Some QS_e50);
  (137, 173, 3, 0, "xi", Some QS_e51);
  (138, 174, 3, 0, "xi", Some QS_e49);
  (139, 174, 3, 0, "xi", Some QS_e27);
  (139, 175, 3, 0, "xi", Some QS_e50);
  (140, 175, 3, 0, "xi", Some QS_e51);
  (141, 176, 3, 0, "xi", Some QS_e49);
  (142, 176, 3, 0, "xi", Some QS_e27);
  (142, 177, 3, 0, "xi", Some QS_e50);
  (143, 177, 3, 0, "xi", Some QS_e51);
  (144, 178, 3, 0, "xi", Some QS_e49);
  (145, 178, 3, 0, "xi", Some QS_e27);
  (145, 179, 3, 0, "xi", Some QS_e50);
  (146, 179, 3, 0, "xi", Some QS_e51);
  (147, 204, 3, 0, "xi", Some QS_e75);
  (147, 205, 3, 0, "xi", Some QS_e89);
  (148, 205, 3, 0, "xi", Some QS_e25);
  (148, 206, 3, 0, "xi", Some QS_e18);
  (149, 206, 3, 0, "xi", Some QS_e137);
  (149, 207, 3, 0, "xi", Some QS_e75);
  (150, 192, 3, 0, "xi", Some QS_e93);
  (150, 208, 3, 0, "xi", Some (cN 1));
  (150, 209, 3, 0, "xi", Some QS_e109);
  (151, 192, 3, 0, "xi", Some QS_e156);
  (151, 193, 3, 0, "xi", Some QS_e140);
  (151, 209, 3, 0, "xi", Some QS_e93);
  (151, 210, 3, 0, "xi", Some QS_e67);
  (152, 193, 3, 0, "xi", Some QS_e170);
  (152, 210, 3, 0, "xi", Some QS_e140);
  (152, 211, 3, 0, "xi", Some (cN 1));
  (153, 194, 3, 0, "xi", Some QS_e93);
  (153, 212, 3, 0, "xi", Some (cN 1));
  (153, 213, 3, 0, "xi", Some QS_e109);
  (154, 194, 3, 0, "xi", Some QS_e156);
  (154, 195, 3, 0, "xi", Some QS_e140);
  (154, 213, 3, 0, "xi", Some QS_e93);
  (154, 214, 3, 0, "xi", Some QS_e67);
  (155, 195, 3, 0, "xi", Some QS_e170);
  (155, 214, 3, 0, "xi", Some QS_e140);
  (155, 215, 3, 0, "xi", Some (cN 1));
  (156, 196, 3, 0, "xi", Some QS_e93);
  (156, 216, 3, 0, "xi", Some (cN 1));
  (156, 217, 3, 0, "xi", Some QS_e109);
  (157, 196, 3, 0, "xi", Some QS_e156);
  (157, 197, 3, 0, "xi", Some QS_e140);
  (157, 217, 3, 0, "xi", Some QS_e93);
  (157, 218, 3, 0, "xi", Some QS_e67);
  (158, 197, 3, 0, "xi", Some QS_e170);
  (158, 218, 3, 0, "xi", Some QS_e140);
  (158, 219, 3, 0, "xi", Some (cN 1));
  (159, 204, 3, 0, "xi", Some QS_e456);
  (160, 204, 3, 0, "xi", Some QS_e457);
  (160, 205, 3, 0, "xi", Some QS_e458);
  (161, 205, 3, 0, "xi", Some QS_e295);
  (161, 206, 3, 0, "xi", Some QS_e224);
  (162, 206, 3, 0, "xi", Some QS_e459);
  (162, 207, 3, 0, "xi", Some QS_e460);
  (163, 207, 3, 0, "xi", Some QS_e461);
  (180, 220, 3, 0, "xi", Some QS_e12);
  (181, 220, 3, 0, "xi", Some QS_e13);
  (182, 221, 3, 0, "xi", Some QS_e12);
  (183, 221, 3, 0, "xi", Some QS_e13);
  (184, 222, 3, 0, "xi", Some QS_e12);
  (185, 222, 3, 0, "xi", Some QS_e13);
  (186, 223, 3, 0, "xi", Some QS_e12);
  (187, 223, 3, 0, "xi", Some QS_e13);
  (188, 224, 3, 0, "xi", Some QS_e12);
  (189, 224, 3, 0, "xi", Some QS_e13);
  (190, 225, 3, 0, "xi", Some QS_e12);
  (191, 225, 3, 0, "xi", Some QS_e13);
  (192, 230, 3, 0, "xi", Some (cR (cQ 2 3)));
  (192, 231, 3, 0, "xi", Some QS_e171);
  (193, 231, 3, 0, "xi", Some QS_e172);
  (193, 232, 3, 0, "xi", Some (cR (cQ 2 3)));
  (194, 233, 3, 0, "xi", Some (cR (cQ 2 3)));
  (194, 234, 3, 0, "xi", Some QS_e171);
  (195, 234, 3, 0, "xi", Some QS_e172);
  (195, 235, 3, 0, "xi", Some (cR (cQ 2 3)));
  (196, 236, 3, 0, "xi", Some (cR (cQ 2 3)));
  (196, 237, 3, 0, "xi", Some QS_e171);
  (197, 237, 3, 0, "xi", Some QS_e172);
  (197, 238, 3, 0, "xi", Some (cR (cQ 2 3)));
  (198, 226, 3, 0, "xi", Some QS_e42);
  (198, 239, 3, 0, "xi", Some (cN (-1)));
  (198, 240, 3, 0, "xi", Some QS_e48);
  (199, 226, 3, 0, "xi", Some QS_e43);
  (199, 240, 3, 0, "xi", Some QS_e42);
  (199, 241, 3, 0, "xi", Some (cN (-1)));
  (200, 227, 3, 0, "xi", Some QS_e42);
  (200, 242, 3, 0, "xi", Some (cN (-1)));
  (200, 243, 3, 0, "xi", Some QS_e48);
  (201, 227, 3, 0, "xi", Some QS_e43);
  (201, 243, 3, 0, "xi", Some QS_e42);
  (201, 244, 3, 0, "xi", Some (cN (-1)));
  (202, 228, 3, 0, "xi", Some QS_e42);
  (202, 245, 3, 0, "xi", Some (cN (-1)));
  (202, 246, 3, 0, "xi", Some QS_e48);
  (203, 228, 3, 0, "xi", Some QS_e43);
  (203, 246, 3, 0, "xi", Some QS_e42);
  (203, 247, 3, 0, "xi", Some (cN (-1)));
  (208, 230, 3, 0, "xi", Some QS_e149);
  (209, 230, 3, 0, "xi", Some QS_e150);
  (209, 231, 3, 0, "xi", Some QS_e151);
  (210, 231, 3, 0, "xi", Some QS_e152);
  (210, 232, 3, 0, "xi", Some QS_e153);
  (211, 232, 3, 0, "xi", Some QS_e154);
  (212, 233, 3, 0, "xi", Some QS_e149);
  (213, 233, 3, 0, "xi", Some QS_e150);
  (213, 234, 3, 0, "xi", Some QS_e151);
  (214, 234, 3, 0, "xi", Some QS_e152);
  (214, 235, 3, 0, "xi", Some QS_e153);
  (215, 235, 3, 0, "xi", Some QS_e154);
  (216, 236, 3, 0, "xi", Some QS_e149);
  (217, 236, 3, 0, "xi", Some QS_e150);
  (217, 237, 3, 0, "xi", Some QS_e151);
  (218, 237, 3, 0, "xi", Some QS_e152);
  (218, 238, 3, 0, "xi", Some QS_e153);
  (219, 238, 3, 0, "xi", Some QS_e154);
  (226, 248, 3, 0, "xi", Some QS_e19);
  (226, 249, 3, 0, "xi", Some QS_e19);
  (227, 250, 3, 0, "xi", Some QS_e19);
  (227, 251, 3, 0, "xi", Some QS_e19);
  (228, 252, 3, 0, "xi", Some QS_e19);
  (228, 253, 3, 0, "xi", Some QS_e19);
  (229, 254, 3, 0, "xi", Some (cN 1));
  (229, 255, 3, 0, "xi", Some (cN 1));
  (239, 248, 3, 0, "xi", Some QS_e49);
  (240, 248, 3, 0, "xi", Some QS_e27);
  (240, 249, 3, 0, "xi", Some QS_e50);
  (241, 249, 3, 0, "xi", Some QS_e51);
  (242, 250, 3, 0, "xi", Some QS_e49);
  (243, 250, 3, 0, "xi", Some QS_e27);
  (243, 251, 3, 0, "xi", Some QS_e50);
  (244, 251, 3, 0, "xi", Some QS_e51);
  (245, 252, 3, 0, "xi", Some QS_e49);
  (246, 252, 3, 0, "xi", Some QS_e27);
  (246, 253, 3, 0, "xi", Some QS_e50);
  (247, 253, 3, 0, "xi", Some QS_e51);
  (254, 256, 3, 0, "xi", Some QS_e12);
  (255, 256, 3, 0, "xi", Some QS_e13)].
(** /repo/c++/symmetry/sym-QS-impl.hpp, make_matrix if (!P.substeps) *)
Definition qs_4ch_m0_d : list diag_line := [
  (1, 0, "zeta", Some (cN 0));
  (2, 0, "zeta", Some (cN 0));
  (3, 0, "zeta", Some (cN 0));
  (4, 0, "zeta", Some (cN 0));
  (5, 0, "zeta", Some (cN 0));
  (6, 0, "zeta", Some (cN 0));
  (7, 0, "zeta", Some (cN 0));
  (8, 0, "zeta", Some (cN 1));
  (9, 0, "zeta", Some (cN 1));
  (10, 0, "zeta", Some (cN 0));
  (11, 0, "zeta", Some (cN 0));
  (12, 0, "zeta", Some (cN 0));
  (13, 0, "zeta", Some (cN 1));
  (14, 0, "zeta", Some (cN 0));
  (15, 0, "zeta", Some (cN 0));
  (16, 0, "zeta", Some (cN 1));
  (17, 0, "zeta", Some (cN 0));
  (18, 0, "zeta", Some (cN 1));
  (19, 0, "zeta", Some (cN 2));
  (20, 0, "zeta", Some (cN 0));
  (21, 0, "zeta", Some (cN 0));
  (22, 0, "zeta", Some (cN 0));
  (23, 0, "zeta", Some (cN 0));
  (24, 0, "zeta", Some (cN 0));
  (25, 0, "zeta", Some (cN 0));
  (26, 0, "zeta", Some (cN 1));
  (27, 0, "zeta", Some (cN 1));
  (28, 0, "zeta", Some (cN 1));
  (29, 0, "zeta", Some (cN 0));
  (30, 0, "zeta", Some (cN 0));
  (31, 0, "zeta", Some (cN 0));
  (32, 0, "zeta", Some (cN 1));
  (33, 0, "zeta", Some (cN 1));
  (34, 0, "zeta", Some (cN 1));
  (35, 0, "zeta", Some (cN 1));
  (36, 0, "zeta", Some (cN 1));
  (37, 0, "zeta", Some (cN 1));
  (38, 0, "zeta", Some (cN 0));
  (39, 0, "zeta", Some (cN 0));
  (40, 0, "zeta", Some (cN 0));
  (41, 0, "zeta", Some (cN 0));
  (42, 0, "zeta", Some (cN 1));
  (43, 0, "zeta", Some (cN 1));
  (44, 0, "zeta", Some (cN 0));
  (45, 0, "zeta", Some (cN 0));
  (46, 0, "zeta", Some (cN 0));
  (47, 0, "zeta", Some (cN 0));
  (48, 0, "zeta", Some (cN 1));
  (49, 0, "zeta", Some (cN 1));
  (50, 0, "zeta", Some (cN 0));
  (51, 0, "zeta", Some (cN 0));
  (52, 0, "zeta", Some (cN 1));
  (53, 0, "zeta", Some (cN 1));
  (54, 0, "zeta", Some (cN 2));
  (55, 0, "zeta", Some (cN 2));
  (56, 0, "zeta", Some (cN 0));
  (57, 0, "zeta", Some (cN 0));
  (58, 0, "zeta", Some (cN 1));
  (59, 0, "zeta", Some (cN 1));
  (60, 0, "zeta", Some (cN 1));
  (61, 0, "zeta", Some (cN 1));
  (62, 0, "zeta", Some (cN 0));
  (63, 0, "zeta", Some (cN 0));
  (64, 0, "zeta", Some (cN 1));
  (65, 0, "zeta", Some (cN 1));
  (66, 0, "zeta", Some (cN 0));
  (67, 0, "zeta", Some (cN 0));
  (68, 0, "zeta", Some (cN 1));
  (69, 0, "zeta", Some (cN 1));
  (70, 0, "zeta", Some (cN 2));
  (71, 0, "zeta", Some (cN 2));
  (72, 0, "zeta", Some (cN 1));
  (73, 0, "zeta", Some (cN 1));
  (74, 0, "zeta", Some (cN 1));
  (75, 0, "zeta", Some (cN 1));
  (76, 0, "zeta", Some (cN 2));
  (77, 0, "zeta", Some (cN 2));
  (78, 0, "zeta", Some (cN 0));
  (79, 0, "zeta", Some (cN 0));
  (80, 0, "zeta", Some (cN 0));
  (81, 0, "zeta", Some (cN 0));
  (82, 0, "zeta", Some (cN 1));
  (83, 0, "zeta", Some (cN 1));
  (84, 0, "zeta", Some (cN 1));
  (85, 0, "zeta", Some (cN 1));
  (86, 0, "zeta", Some (cN 1));
  (87, 0, "zeta", Some (cN 1));
  (88, 0, "zeta", Some (cN 1));
  (89, 0, "zeta", Some (cN 1));
  (90, 0, "zeta", Some (cN 1));
  (91, 0, "zeta", Some (cN 1));
  (92, 0, "zeta", Some (cN 1));
  (93, 0, "zeta", Some (cN 1));
  (94, 0, "zeta", Some (cN 0));
  (95, 0, "zeta", Some (cN 0));
  (96, 0, "zeta", Some (cN 1));
  (97, 0, "zeta", Some (cN 0));
  (98, 0, "zeta", Some (cN 1));
  (99, 0, "zeta", Some (cN 2));
  (100, 0, "zeta", Some (cN 0));
  (101, 0, "zeta", Some (cN 1));
  (102, 0, "zeta", Some (cN 0));
  (103, 0, "zeta", Some (cN 1));
  (104, 0, "zeta", Some (cN 2));
  (105, 0, "zeta", Some (cN 1));
  (106, 0, "zeta", Some (cN 1));
  (107, 0, "zeta", Some (cN 2));
  (108, 0, "zeta", Some (cN 0));
  (109, 0, "zeta", Some (cN 1));
  (110, 0, "zeta", Some (cN 2));
  (111, 0, "zeta", Some (cN 1));
  (112, 0, "zeta", Some (cN 2));
  (113, 0, "zeta", Some (cN 2));
  (114, 0, "zeta", Some (cN 0));
  (115, 0, "zeta", Some (cN 0));
  (116, 0, "zeta", Some (cN 0));
  (117, 0, "zeta", Some (cN 1));
  (118, 0, "zeta", Some (cN 1));
  (119, 0, "zeta", Some (cN 1));
  (120, 0, "zeta", Some (cN 1));
  (121, 0, "zeta", Some (cN 1));
  (122, 0, "zeta", Some (cN 1));
  (123, 0, "zeta", Some (cN 0));
  (124, 0, "zeta", Some (cN 0));
  (125, 0, "zeta", Some (cN 0));
  (126, 0, "zeta", Some (cN 1));
  (127, 0, "zeta", Some (cN 1));
  (128, 0, "zeta", Some (cN 1));
  (129, 0, "zeta", Some (cN 0));
  (130, 0, "zeta", Some (cN 0));
  (131, 0, "zeta", Some (cN 0));
  (132, 0, "zeta", Some (cN 1));
  (133, 0, "zeta", Some (cN 1));
  (134, 0, "zeta", Some (cN 1));
  (135, 0, "zeta", Some (cN 2));
  (136, 0, "zeta", Some (cN 2));
  (137, 0, "zeta", Some (cN 2));
  (138, 0, "zeta", Some (cN 1));
  (139, 0, "zeta", Some (cN 1));
  (140, 0, "zeta", Some (cN 1));
  (141, 0, "zeta", Some (cN 1));
  (142, 0, "zeta", Some (cN 1));
  (143, 0, "zeta", Some (cN 1));
  (144, 0, "zeta", Some (cN 2));
  (145, 0, "zeta", Some (cN 2));
  (146, 0, "zeta", Some (cN 2));
  (147, 0, "zeta", Some (cN 1));
  (148, 0, "zeta", Some (cN 1));
  (149, 0, "zeta", Some (cN 1));
  (150, 0, "zeta", Some (cN 1));
  (151, 0, "zeta", Some (cN 1));
  (152, 0, "zeta", Some (cN 1));
  (153, 0, "zeta", Some (cN 1));
  (154, 0, "zeta", Some (cN 1));
  (155, 0, "zeta", Some (cN 1));
  (156, 0, "zeta", Some (cN 2));
  (157, 0, "zeta", Some (cN 2));
  (158, 0, "zeta", Some (cN 2));
  (159, 0, "zeta", Some (cN 1));
  (160, 0, "zeta", Some (cN 1));
  (161, 0, "zeta", Some (cN 1));
  (162, 0, "zeta", Some (cN 1));
  (163, 0, "zeta", Some (cN 1));
  (164, 0, "zeta", Some (cN 0));
  (165, 0, "zeta", Some (cN 0));
  (166, 0, "zeta", Some (cN 1));
  (167, 0, "zeta", Some (cN 1));
  (168, 0, "zeta", Some (cN 0));
  (169, 0, "zeta", Some (cN 0));
  (170, 0, "zeta", Some (cN 1));
  (171, 0, "zeta", Some (cN 1));
  (172, 0, "zeta", Some (cN 2));
  (173, 0, "zeta", Some (cN 2));
  (174, 0, "zeta", Some (cN 1));
  (175, 0, "zeta", Some (cN 1));
  (176, 0, "zeta", Some (cN 1));
  (177, 0, "zeta", Some (cN 1));
  (178, 0, "zeta", Some (cN 2));
  (179, 0, "zeta", Some (cN 2));
  (180, 0, "zeta", Some (cN 0));
  (181, 0, "zeta", Some (cN 0));
  (182, 0, "zeta", Some (cN 1));
  (183, 0, "zeta", Some (cN 1));
  (184, 0, "zeta", Some (cN 2));
  (185, 0, "zeta", Some (cN 2));
  (186, 0, "zeta", Some (cN 1));
  (187, 0, "zeta", Some (cN 1));
  (188, 0, "zeta", Some (cN 2));
  (189, 0, "zeta", Some (cN 2));
  (190, 0, "zeta", Some (cN 2));
  (191, 0, "zeta", Some (cN 2));
  (192, 0, "zeta", Some (cN 1));
  (193, 0, "zeta", Some (cN 1));
  (194, 0, "zeta", Some (cN 1));
  (195, 0, "zeta", Some (cN 1));
  (196, 0, "zeta", Some (cN 2));
  (197, 0, "zeta", Some (cN 2));
  (198, 0, "zeta", Some (cN 1));
  (199, 0, "zeta", Some (cN 1));
  (200, 0, "zeta", Some (cN 2));
  (201, 0, "zeta", Some (cN 2));
  (202, 0, "zeta", Some (cN 2));
  (203, 0, "zeta", Some (cN 2));
  (204, 0, "zeta", Some (cN 1));
  (205, 0, "zeta", Some (cN 1));
  (206, 0, "zeta", Some (cN 1));
  (207, 0, "zeta", Some (cN 1));
  (208, 0, "zeta", Some (cN 1));
  (209, 0, "zeta", Some (cN 1));
  (210, 0, "zeta", Some (cN 1));
  (211, 0, "zeta", Some (cN 1));
  (212, 0, "zeta", Some (cN 1));
  (213, 0, "zeta", Some (cN 1));
  (214, 0, "zeta", Some (cN 1));
  (215, 0, "zeta", Some (cN 1));
  (216, 0, "zeta", Some (cN 2));
  (217, 0, "zeta", Some (cN 2));
  (218, 0, "zeta", Some (cN 2));
  (219, 0, "zeta", Some (cN 2));
  (220, 0, "zeta", Some (cN 0));
  (221, 0, "zeta", Some (cN 1));
  (222, 0, "zeta", Some (cN 2));
  (223, 0, "zeta", Some (cN 1));
  (224, 0, "zeta", Some (cN 2));
  (225, 0, "zeta", Some (cN 2));
  (226, 0, "zeta", Some (cN 1));
  (227, 0, "zeta", Some (cN 2));
  (228, 0, "zeta", Some (cN 2));
  (229, 0, "zeta", Some (cN 2));
  (230, 0, "zeta", Some (cN 1));
  (231, 0, "zeta", Some (cN 1));
  (232, 0, "zeta", Some (cN 1));
  (233, 0, "zeta", Some (cN 1));
  (234, 0, "zeta", Some (cN 1));
  (235, 0, "zeta", Some (cN 1));
  (236, 0, "zeta", Some (cN 2));
  (237, 0, "zeta", Some (cN 2));
  (238, 0, "zeta", Some (cN 2));
  (239, 0, "zeta", Some (cN 1));
  (240, 0, "zeta", Some (cN 1));
  (241, 0, "zeta", Some (cN 1));
  (242, 0, "zeta", Some (cN 2));
  (243, 0, "zeta", Some (cN 2));
  (244, 0, "zeta", Some (cN 2));
  (245, 0, "zeta", Some (cN 2));
  (246, 0, "zeta", Some (cN 2));
  (247, 0, "zeta", Some (cN 2));
  (248, 0, "zeta", Some (cN 1));
  (249, 0, "zeta", Some (cN 1));
  (250, 0, "zeta", Some (cN 2));
  (251, 0, "zeta", Some (cN 2));
  (252, 0, "zeta", Some (cN 2));
  (253, 0, "zeta", Some (cN 2));
  (254, 0, "zeta", Some (cN 2));
  (255, 0, "zeta", Some (cN 2));
  (256, 0, "zeta", Some (cN 2));
  (1, 1, "zeta", Some (cN 0));
  (2, 1, "zeta", Some (cN 0));
  (3, 1, "zeta", Some (cN 0));
  (4, 1, "zeta", Some (cN 0));
  (5, 1, "zeta", Some (cN 0));
  (6, 1, "zeta", Some (cN 1));
  (7, 1, "zeta", Some (cN 1));
  (8, 1, "zeta", Some (cN 0));
  (9, 1, "zeta", Some (cN 0));
  (10, 1, "zeta", Some (cN 0));
  (11, 1, "zeta", Some (cN 0));
  (12, 1, "zeta", Some (cN 1));
  (13, 1, "zeta", Some (cN 0));
  (14, 1, "zeta", Some (cN 0));
  (15, 1, "zeta", Some (cN 1));
  (16, 1, "zeta", Some (cN 0));
  (17, 1, "zeta", Some (cN 2));
  (18, 1, "zeta", Some (cN 1));
  (19, 1, "zeta", Some (cN 0));
  (20, 1, "zeta", Some (cN 0));
  (21, 1, "zeta", Some (cN 0));
  (22, 1, "zeta", Some (cN 0));
  (23, 1, "zeta", Some (cN 1));
  (24, 1, "zeta", Some (cN 1));
  (25, 1, "zeta", Some (cN 1));
  (26, 1, "zeta", Some (cN 0));
  (27, 1, "zeta", Some (cN 0));
  (28, 1, "zeta", Some (cN 0));
  (29, 1, "zeta", Some (cN 1));
  (30, 1, "zeta", Some (cN 1));
  (31, 1, "zeta", Some (cN 1));
  (32, 1, "zeta", Some (cN 0));
  (33, 1, "zeta", Some (cN 0));
  (34, 1, "zeta", Some (cN 0));
  (35, 1, "zeta", Some (cN 1));
  (36, 1, "zeta", Some (cN 1));
  (37, 1, "zeta", Some (cN 1));
  (38, 1, "zeta", Some (cN 0));
  (39, 1, "zeta", Some (cN 0));
  (40, 1, "zeta", Some (cN 1));
  (41, 1, "zeta", Some (cN 1));
  (42, 1, "zeta", Some (cN 0));
  (43, 1, "zeta", Some (cN 0));
  (44, 1, "zeta", Some (cN 0));
  (45, 1, "zeta", Some (cN 0));
  (46, 1, "zeta", Some (cN 1));
  (47, 1, "zeta", Some (cN 1));
  (48, 1, "zeta", Some (cN 0));
  (49, 1, "zeta", Some (cN 0));
  (50, 1, "zeta", Some (cN 2));
  (51, 1, "zeta", Some (cN 2));
  (52, 1, "zeta", Some (cN 1));
  (53, 1, "zeta", Some (cN 1));
  (54, 1, "zeta", Some (cN 0));
  (55, 1, "zeta", Some (cN 0));
  (56, 1, "zeta", Some (cN 1));
  (57, 1, "zeta", Some (cN 1));
  (58, 1, "zeta", Some (cN 0));
  (59, 1, "zeta", Some (cN 0));
  (60, 1, "zeta", Some (cN 1));
  (61, 1, "zeta", Some (cN 1));
  (62, 1, "zeta", Some (cN 1));
  (63, 1, "zeta", Some (cN 1));
  (64, 1, "zeta", Some (cN 0));
  (65, 1, "zeta", Some (cN 0));
  (66, 1, "zeta", Some (cN 2));
  (67, 1, "zeta", Some (cN 2));
  (68, 1, "zeta", Some (cN 1));
  (69, 1, "zeta", Some (cN 1));
  (70, 1, "zeta", Some (cN 0));
  (71, 1, "zeta", Some (cN 0));
  (72, 1, "zeta", Some (cN 1));
  (73, 1, "zeta", Some (cN 1));
  (74, 1, "zeta", Some (cN 2));
  (75, 1, "zeta", Some (cN 2));
  (76, 1, "zeta", Some (cN 1));
  (77, 1, "zeta", Some (cN 1));
  (78, 1, "zeta", Some (cN 1));
  (79, 1, "zeta", Some (cN 1));
  (80, 1, "zeta", Some (cN 1));
  (81, 1, "zeta", Some (cN 1));
  (82, 1, "zeta", Some (cN 0));
  (83, 1, "zeta", Some (cN 0));
  (84, 1, "zeta", Some (cN 0));
  (85, 1, "zeta", Some (cN 0));
  (86, 1, "zeta", Some (cN 1));
  (87, 1, "zeta", Some (cN 1));
  (88, 1, "zeta", Some (cN 1));
  (89, 1, "zeta", Some (cN 1));
  (90, 1, "zeta", Some (cN 1));
  (91, 1, "zeta", Some (cN 1));
  (92, 1, "zeta", Some (cN 1));
  (93, 1, "zeta", Some (cN 1));
  (94, 1, "zeta", Some (cN 0));
  (95, 1, "zeta", Some (cN 1));
  (96, 1, "zeta", Some (cN 0));
  (97, 1, "zeta", Some (cN 2));
  (98, 1, "zeta", Some (cN 1));
  (99, 1, "zeta", Some (cN 0));
  (100, 1, "zeta", Some (cN 1));
  (101, 1, "zeta", Some (cN 0));
  (102, 1, "zeta", Some (cN 2));
  (103, 1, "zeta", Some (cN 1));
  (104, 1, "zeta", Some (cN 0));
  (105, 1, "zeta", Some (cN 1));
  (106, 1, "zeta", Some (cN 2));
  (107, 1, "zeta", Some (cN 1));
  (108, 1, "zeta", Some (cN 2));
  (109, 1, "zeta", Some (cN 1));
  (110, 1, "zeta", Some (cN 0));
  (111, 1, "zeta", Some (cN 2));
  (112, 1, "zeta", Some (cN 1));
  (113, 1, "zeta", Some (cN 2));
  (114, 1, "zeta", Some (cN 1));
  (115, 1, "zeta", Some (cN 1));
  (116, 1, "zeta", Some (cN 1));
  (117, 1, "zeta", Some (cN 0));
  (118, 1, "zeta", Some (cN 0));
  (119, 1, "zeta", Some (cN 0));
  (120, 1, "zeta", Some (cN 1));
  (121, 1, "zeta", Some (cN 1));
  (122, 1, "zeta", Some (cN 1));
  (123, 1, "zeta", Some (cN 1));
  (124, 1, "zeta", Some (cN 1));
  (125, 1, "zeta", Some (cN 1));
  (126, 1, "zeta", Some (cN 0));
  (127, 1, "zeta", Some (cN 0));
  (128, 1, "zeta", Some (cN 0));
  (129, 1, "zeta", Some (cN 2));
  (130, 1, "zeta", Some (cN 2));
  (131, 1, "zeta", Some (cN 2));
  (132, 1, "zeta", Some (cN 1));
  (133, 1, "zeta", Some (cN 1));
  (134, 1, "zeta", Some (cN 1));
  (135, 1, "zeta", Some (cN 0));
  (136, 1, "zeta", Some (cN 0));
  (137, 1, "zeta", Some (cN 0));
  (138, 1, "zeta", Some (cN 1));
  (139, 1, "zeta", Some (cN 1));
  (140, 1, "zeta", Some (cN 1));
  (141, 1, "zeta", Some (cN 2));
  (142, 1, "zeta", Some (cN 2));
  (143, 1, "zeta", Some (cN 2));
  (144, 1, "zeta", Some (cN 1));
  (145, 1, "zeta", Some (cN 1));
  (146, 1, "zeta", Some (cN 1));
  (147, 1, "zeta", Some (cN 1));
  (148, 1, "zeta", Some (cN 1));
  (149, 1, "zeta", Some (cN 1));
  (150, 1, "zeta", Some (cN 1));
  (151, 1, "zeta", Some (cN 1));
  (152, 1, "zeta", Some (cN 1));
  (153, 1, "zeta", Some (cN 2));
  (154, 1, "zeta", Some (cN 2));
  (155, 1, "zeta", Some (cN 2));
  (156, 1, "zeta", Some (cN 1));
  (157, 1, "zeta", Some (cN 1));
  (158, 1, "zeta", Some (cN 1));
  (159, 1, "zeta", Some (cN 1));
  (160, 1, "zeta", Some (cN 1));
  (161, 1, "zeta", Some (cN 1));
  (162, 1, "zeta", Some (cN 1));
  (163, 1, "zeta", Some (cN 1));
  (164, 1, "zeta", Some (cN 1));
  (165, 1, "zeta", Some (cN 1));
  (166, 1, "zeta", Some (cN 0));
  (167, 1, "zeta", Some (cN 0));
  (168, 1, "zeta", Some (cN 2));
  (169, 1, "zeta", Some (cN 2));
  (170, 1, "zeta", Some (cN 1));
  (171, 1, "zeta", Some (cN 1));
  (172, 1, "zeta", Some (cN 0));
  (173, 1, "zeta", Some (cN 0));
  (174, 1, "zeta", Some (cN 1));
  (175, 1, "zeta", Some (cN 1));
  (176, 1, "zeta", Some (cN 2));
  (177, 1, "zeta", Some (cN 2));
  (178, 1, "zeta", Some (cN 1));
  (179, 1, "zeta", Some (cN 1));
  (180, 1, "zeta", Some (cN 2));
  (181, 1, "zeta", Some (cN 2));
  (182, 1, "zeta", Some (cN 1));
  (183, 1, "zeta", Some (cN 1));
  (184, 1, "zeta", Some (cN 0));
  (185, 1, "zeta", Some (cN 0));
  (186, 1, "zeta", Some (cN 2));
  (187, 1, "zeta", Some (cN 2));
  (188, 1, "zeta", Some (cN 1));
  (189, 1, "zeta", Some (cN 1));
  (190, 1, "zeta", Some (cN 2));
  (191, 1, "zeta", Some (cN 2));
  (192, 1, "zeta", Some (cN 1));
  (193, 1, "zeta", Some (cN 1));
  (194, 1, "zeta", Some (cN 2));
  (195, 1, "zeta", Some (cN 2));
  (196, 1, "zeta", Some (cN 1));
  (197, 1, "zeta", Some (cN 1));
  (198, 1, "zeta", Some (cN 2));
  (199, 1, "zeta", Some (cN 2));
  (200, 1, "zeta", Some (cN 1));
  (201, 1, "zeta", Some (cN 1));
  (202, 1, "zeta", Some (cN 2));
  (203, 1, "zeta", Some (cN 2));
  (204, 1, "zeta", Some (cN 1));
  (205, 1, "zeta", Some (cN 1));
  (206, 1, "zeta", Some (cN 1));
  (207, 1, "zeta", Some (cN 1));
  (208, 1, "zeta", Some (cN 1));
  (209, 1, "zeta", Some (cN 1));
  (210, 1, "zeta", Some (cN 1));
  (211, 1, "zeta", Some (cN 1));
  (212, 1, "zeta", Some (cN 2));
  (213, 1, "zeta", Some (cN 2));
  (214, 1, "zeta", Some (cN 2));
  (215, 1, "zeta", Some (cN 2));
  (216, 1, "zeta", Some (cN 1));
  (217, 1, "zeta", Some (cN 1));
  (218, 1, "zeta", Some (cN 1));
  (219, 1, "zeta", Some (cN 1));
  (220, 1, "zeta", Some (cN 2));
  (221, 1, "zeta", Some (cN 1));
  (222, 1, "zeta", Some (cN 0));
  (223, 1, "zeta", Some (cN 2));
  (224, 1, "zeta", Some (cN 1));
  (225, 1, "zeta", Some (cN 2));
  (226, 1, "zeta", Some (cN 2));
  (227, 1, "zeta", Some (cN 1));
  (228, 1, "zeta", Some (cN 2));
  (229, 1, "zeta", Some (cN 2));
  (230, 1, "zeta", Some (cN 1));
  (231, 1, "zeta", Some (cN 1));
  (232, 1, "zeta", Some (cN 1));
  (233, 1, "zeta", Some (cN 2));
  (234, 1, "zeta", Some (cN 2));
  (235, 1, "zeta", Some (cN 2));
  (236, 1, "zeta", Some (cN 1));
  (237, 1, "zeta", Some (cN 1));
  (238, 1, "zeta", Some (cN 1));
  (239, 1, "zeta", Some (cN 2));
  (240, 1, "zeta", Some (cN 2));
  (241, 1, "zeta", Some (cN 2));
  (242, 1, "zeta", Some (cN 1));
  (243, 1, "zeta", Some (cN 1));
  (244, 1, "zeta", Some (cN 1));
  (245, 1, "zeta", Some (cN 2));
  (246, 1, "zeta", Some (cN 2));
  (247, 1, "zeta", Some (cN 2));
  (248, 1, "zeta", Some (cN 2));
  (249, 1, "zeta", Some (cN 2));
  (250, 1, "zeta", Some (cN 1));
  (251, 1, "zeta", Some (cN 1));
  (252, 1, "zeta", Some (cN 2));
  (253, 1, "zeta", Some (cN 2));
  (254, 1, "zeta", Some (cN 2));
  (255, 1, "zeta", Some (cN 2));
  (256, 1, "zeta", Some (cN 2));
  (1, 2, "zeta", Some (cN 0));
  (2, 2, "zeta", Some (cN 0));
  (3, 2, "zeta", Some (cN 0));
  (4, 2, "zeta", Some (cN 1));
  (5, 2, "zeta", Some (cN 1));
  (6, 2, "zeta", Some (cN 0));
  (7, 2, "zeta", Some (cN 0));
  (8, 2, "zeta", Some (cN 0));
  (9, 2, "zeta", Some (cN 0));
  (10, 2, "zeta", Some (cN 0));
  (11, 2, "zeta", Some (cN 1));
  (12, 2, "zeta", Some (cN 0));
  (13, 2, "zeta", Some (cN 0));
  (14, 2, "zeta", Some (cN 2));
  (15, 2, "zeta", Some (cN 1));
  (16, 2, "zeta", Some (cN 1));
  (17, 2, "zeta", Some (cN 0));
  (18, 2, "zeta", Some (cN 0));
  (19, 2, "zeta", Some (cN 0));
  (20, 2, "zeta", Some (cN 1));
  (21, 2, "zeta", Some (cN 1));
  (22, 2, "zeta", Some (cN 1));
  (23, 2, "zeta", Some (cN 0));
  (24, 2, "zeta", Some (cN 0));
  (25, 2, "zeta", Some (cN 0));
  (26, 2, "zeta", Some (cN 0));
  (27, 2, "zeta", Some (cN 0));
  (28, 2, "zeta", Some (cN 0));
  (29, 2, "zeta", Some (cN 1));
  (30, 2, "zeta", Some (cN 1));
  (31, 2, "zeta", Some (cN 1));
  (32, 2, "zeta", Some (cN 1));
  (33, 2, "zeta", Some (cN 1));
  (34, 2, "zeta", Some (cN 1));
  (35, 2, "zeta", Some (cN 0));
  (36, 2, "zeta", Some (cN 0));
  (37, 2, "zeta", Some (cN 0));
  (38, 2, "zeta", Some (cN 1));
  (39, 2, "zeta", Some (cN 1));
  (40, 2, "zeta", Some (cN 0));
  (41, 2, "zeta", Some (cN 0));
  (42, 2, "zeta", Some (cN 0));
  (43, 2, "zeta", Some (cN 0));
  (44, 2, "zeta", Some (cN 2));
  (45, 2, "zeta", Some (cN 2));
  (46, 2, "zeta", Some (cN 1));
  (47, 2, "zeta", Some (cN 1));
  (48, 2, "zeta", Some (cN 1));
  (49, 2, "zeta", Some (cN 1));
  (50, 2, "zeta", Some (cN 0));
  (51, 2, "zeta", Some (cN 0));
  (52, 2, "zeta", Some (cN 0));
  (53, 2, "zeta", Some (cN 0));
  (54, 2, "zeta", Some (cN 0));
  (55, 2, "zeta", Some (cN 0));
  (56, 2, "zeta", Some (cN 1));
  (57, 2, "zeta", Some (cN 1));
  (58, 2, "zeta", Some (cN 1));
  (59, 2, "zeta", Some (cN 1));
  (60, 2, "zeta", Some (cN 0));
  (61, 2, "zeta", Some (cN 0));
  (62, 2, "zeta", Some (cN 2));
  (63, 2, "zeta", Some (cN 2));
  (64, 2, "zeta", Some (cN 2));
  (65, 2, "zeta", Some (cN 2));
  (66, 2, "zeta", Some (cN 1));
  (67, 2, "zeta", Some (cN 1));
  (68, 2, "zeta", Some (cN 1));
  (69, 2, "zeta", Some (cN 1));
  (70, 2, "zeta", Some (cN 1));
  (71, 2, "zeta", Some (cN 1));
  (72, 2, "zeta", Some (cN 1));
  (73, 2, "zeta", Some (cN 1));
  (74, 2, "zeta", Some (cN 0));
  (75, 2, "zeta", Some (cN 0));
  (76, 2, "zeta", Some (cN 0));
  (77, 2, "zeta", Some (cN 0));
  (78, 2, "zeta", Some (cN 1));
  (79, 2, "zeta", Some (cN 1));
  (80, 2, "zeta", Some (cN 1));
  (81, 2, "zeta", Some (cN 1));
  (82, 2, "zeta", Some (cN 1));
  (83, 2, "zeta", Some (cN 1));
  (84, 2, "zeta", Some (cN 1));
  (85, 2, "zeta", Some (cN 1));
  (86, 2, "zeta", Some (cN 0));
  (87, 2, "zeta", Some (cN 0));
  (88, 2, "zeta", Some (cN 0));
  (89, 2, "zeta", Some (cN 0));
  (90, 2, "zeta", Some (cN 1));
  (91, 2, "zeta", Some (cN 1));
  (92, 2, "zeta", Some (cN 1));
  (93, 2, "zeta", Some (cN 1));
  (94, 2, "zeta", Some (cN 2));
  (95, 2, "zeta", Some (cN 1));
  (96, 2, "zeta", Some (cN 1));
  (97, 2, "zeta", Some (cN 0));
  (98, 2, "zeta", Some (cN 0));
  (99, 2, "zeta", Some (cN 0));
  (100, 2, "zeta", Some (cN 2));
  (101, 2, "zeta", Some (cN 2));
  (102, 2, "zeta", Some (cN 1));
  (103, 2, "zeta", Some (cN 1));
  (104, 2, "zeta", Some (cN 1));
  (105, 2, "zeta", Some (cN 1));
  (106, 2, "zeta", Some (cN 0));
  (107, 2, "zeta", Some (cN 0));
  (108, 2, "zeta", Some (cN 2));
  (109, 2, "zeta", Some (cN 2));
  (110, 2, "zeta", Some (cN 2));
  (111, 2, "zeta", Some (cN 1));
  (112, 2, "zeta", Some (cN 1));
  (113, 2, "zeta", Some (cN 0));
  (114, 2, "zeta", Some (cN 1));
  (115, 2, "zeta", Some (cN 1));
  (116, 2, "zeta", Some (cN 1));
  (117, 2, "zeta", Some (cN 1));
  (118, 2, "zeta", Some (cN 1));
  (119, 2, "zeta", Some (cN 1));
  (120, 2, "zeta", Some (cN 0));
  (121, 2, "zeta", Some (cN 0));
  (122, 2, "zeta", Some (cN 0));
  (123, 2, "zeta", Some (cN 2));
  (124, 2, "zeta", Some (cN 2));
  (125, 2, "zeta", Some (cN 2));
  (126, 2, "zeta", Some (cN 2));
  (127, 2, "zeta", Some (cN 2));
  (128, 2, "zeta", Some (cN 2));
  (129, 2, "zeta", Some (cN 1));
  (130, 2, "zeta", Some (cN 1));
  (131, 2, "zeta", Some (cN 1));
  (132, 2, "zeta", Some (cN 1));
  (133, 2, "zeta", Some (cN 1));
  (134, 2, "zeta", Some (cN 1));
  (135, 2, "zeta", Some (cN 1));
  (136, 2, "zeta", Some (cN 1));
  (137, 2, "zeta", Some (cN 1));
  (138, 2, "zeta", Some (cN 1));
  (139, 2, "zeta", Some (cN 1));
  (140, 2, "zeta", Some (cN 1));
  (141, 2, "zeta", Some (cN 0));
  (142, 2, "zeta", Some (cN 0));
  (143, 2, "zeta", Some (cN 0));
  (144, 2, "zeta", Some (cN 0));
  (145, 2, "zeta", Some (cN 0));
  (146, 2, "zeta", Some (cN 0));
  (147, 2, "zeta", Some (cN 1));
  (148, 2, "zeta", Some (cN 1));
  (149, 2, "zeta", Some (cN 1));
  (150, 2, "zeta", Some (cN 2));
  (151, 2, "zeta", Some (cN 2));
  (152, 2, "zeta", Some (cN 2));
  (153, 2, "zeta", Some (cN 1));
  (154, 2, "zeta", Some (cN 1));
  (155, 2, "zeta", Some (cN 1));
  (156, 2, "zeta", Some (cN 1));
  (157, 2, "zeta", Some (cN 1));
  (158, 2, "zeta", Some (cN 1));
  (159, 2, "zeta", Some (cN 1));
  (160, 2, "zeta", Some (cN 1));
  (161, 2, "zeta", Some (cN 1));
  (162, 2, "zeta", Some (cN 1));
  (163, 2, "zeta", Some (cN 1));
  (164, 2, "zeta", Some (cN 2));
  (165, 2, "zeta", Some (cN 2));
  (166, 2, "zeta", Some (cN 2));
  (167, 2, "zeta", Some (cN 2));
  (168, 2, "zeta", Some (cN 1));
  (169, 2, "zeta", Some (cN 1));
  (170, 2, "zeta", Some (cN 1));
  (171, 2, "zeta", Some (cN 1));
  (172, 2, "zeta", Some (cN 1));
  (173, 2, "zeta", Some (cN 1));
  (174, 2, "zeta", Some (cN 1));
  (175, 2, "zeta", Some (cN 1));
  (176, 2, "zeta", Some (cN 0));
  (177, 2, "zeta", Some (cN 0));
  (178, 2, "zeta", Some (cN 0));
  (179, 2, "zeta", Some (cN 0));
  (180, 2, "zeta", Some (cN 2));
  (181, 2, "zeta", Some (cN 2));
  (182, 2, "zeta", Some (cN 2));
  (183, 2, "zeta", Some (cN 2));
  (184, 2, "zeta", Some (cN 2));
  (185, 2, "zeta", Some (cN 2));
  (186, 2, "zeta", Some (cN 1));
  (187, 2, "zeta", Some (cN 1));
  (188, 2, "zeta", Some (cN 1));
  (189, 2, "zeta", Some (cN 1));
  (190, 2, "zeta", Some (cN 0));
  (191, 2, "zeta", Some (cN 0));
  (192, 2, "zeta", Some (cN 2));
  (193, 2, "zeta", Some (cN 2));
  (194, 2, "zeta", Some (cN 1));
  (195, 2, "zeta", Some (cN 1));
  (196, 2, "zeta", Some (cN 1));
  (197, 2, "zeta", Some (cN 1));
  (198, 2, "zeta", Some (cN 2));
  (199, 2, "zeta", Some (cN 2));
  (200, 2, "zeta", Some (cN 2));
  (201, 2, "zeta", Some (cN 2));
  (202, 2, "zeta", Some (cN 1));
  (203, 2, "zeta", Some (cN 1));
  (204, 2, "zeta", Some (cN 1));
  (205, 2, "zeta", Some (cN 1));
  (206, 2, "zeta", Some (cN 1));
  (207, 2, "zeta", Some (cN 1));
  (208, 2, "zeta", Some (cN 2));
  (209, 2, "zeta", Some (cN 2));
  (210, 2, "zeta", Some (cN 2));
  (211, 2, "zeta", Some (cN 2));
  (212, 2, "zeta", Some (cN 1));
  (213, 2, "zeta", Some (cN 1));
  (214, 2, "zeta", Some (cN 1));
  (215, 2, "zeta", Some (cN 1));
  (216, 2, "zeta", Some (cN 1));
  (217, 2, "zeta", Some (cN 1));
  (218, 2, "zeta", Some (cN 1));
  (219, 2, "zeta", Some (cN 1));
  (220, 2, "zeta", Some (cN 2));
  (221, 2, "zeta", Some (cN 2));
  (222, 2, "zeta", Some (cN 2));
  (223, 2, "zeta", Some (cN 1));
  (224, 2, "zeta", Some (cN 1));
  (225, 2, "zeta", Some (cN 0));
  (226, 2, "zeta", Some (cN 2));
  (227, 2, "zeta", Some (cN 2));
  (228, 2, "zeta", Some (cN 1));
  (229, 2, "zeta", Some (cN 2));
  (230, 2, "zeta", Some (cN 2));
  (231, 2, "zeta", Some (cN 2));
  (232, 2, "zeta", Some (cN 2));
  (233, 2, "zeta", Some (cN 1));
  (234, 2, "zeta", Some (cN 1));
  (235, 2, "zeta", Some (cN 1));
  (236, 2, "zeta", Some (cN 1));
  (237, 2, "zeta", Some (cN 1));
  (238, 2, "zeta", Some (cN 1));
  (239, 2, "zeta", Some (cN 2));
  (240, 2, "zeta", Some (cN 2));
  (241, 2, "zeta", Some (cN 2));
  (242, 2, "zeta", Some (cN 2));
  (243, 2, "zeta", Some (cN 2));
  (244, 2, "zeta", Some (cN 2));
  (245, 2, "zeta", Some (cN 1));
  (246, 2, "zeta", Some (cN 1));
  (247, 2, "zeta", Some (cN 1));
  (248, 2, "zeta", Some (cN 2));
  (249, 2, "zeta", Some (cN 2));
  (250, 2, "zeta", Some (cN 2));
  (251, 2, "zeta", Some (cN 2));
  (252, 2, "zeta", Some (cN 1));
  (253, 2, "zeta", Some (cN 1));
  (254, 2, "zeta", Some (cN 2));
  (255, 2, "zeta", Some (cN 2));
  (256, 2, "zeta", Some (cN 2));
  (1, 3, "zeta", Some (cN 0));
  (2, 3, "zeta", Some (cN 1));
  (3, 3, "zeta", Some (cN 1));
  (4, 3, "zeta", Some (cN 0));
  (5, 3, "zeta", Some (cN 0));
  (6, 3, "zeta", Some (cN 0));
  (7, 3, "zeta", Some (cN 0));
  (8, 3, "zeta", Some (cN 0));
  (9, 3, "zeta", Some (cN 0));
  (10, 3, "zeta", Some (cN 2));
  (11, 3, "zeta", Some (cN 1));
  (12, 3, "zeta", Some (cN 1));
  (13, 3, "zeta", Some (cN 1));
  (14, 3, "zeta", Some (cN 0));
  (15, 3, "zeta", Some (cN 0));
  (16, 3, "zeta", Some (cN 0));
  (17, 3, "zeta", Some (cN 0));
  (18, 3, "zeta", Some (cN 0));
  (19, 3, "zeta", Some (cN 0));
  (20, 3, "zeta", Some (cN 1));
  (21, 3, "zeta", Some (cN 1));
  (22, 3, "zeta", Some (cN 1));
  (23, 3, "zeta", Some (cN 1));
  (24, 3, "zeta", Some (cN 1));
  (25, 3, "zeta", Some (cN 1));
  (26, 3, "zeta", Some (cN 1));
  (27, 3, "zeta", Some (cN 1));
  (28, 3, "zeta", Some (cN 1));
  (29, 3, "zeta", Some (cN 0));
  (30, 3, "zeta", Some (cN 0));
  (31, 3, "zeta", Some (cN 0));
  (32, 3, "zeta", Some (cN 0));
  (33, 3, "zeta", Some (cN 0));
  (34, 3, "zeta", Some (cN 0));
  (35, 3, "zeta", Some (cN 0));
  (36, 3, "zeta", Some (cN 0));
  (37, 3, "zeta", Some (cN 0));
  (38, 3, "zeta", Some (cN 2));
  (39, 3, "zeta", Some (cN 2));
  (40, 3, "zeta", Some (cN 2));
  (41, 3, "zeta", Some (cN 2));
  (42, 3, "zeta", Some (cN 2));
  (43, 3, "zeta", Some (cN 2));
  (44, 3, "zeta", Some (cN 1));
  (45, 3, "zeta", Some (cN 1));
  (46, 3, "zeta", Some (cN 1));
  (47, 3, "zeta", Some (cN 1));
  (48, 3, "zeta", Some (cN 1));
  (49, 3, "zeta", Some (cN 1));
  (50, 3, "zeta", Some (cN 1));
  (51, 3, "zeta", Some (cN 1));
  (52, 3, "zeta", Some (cN 1));
  (53, 3, "zeta", Some (cN 1));
  (54, 3, "zeta", Some (cN 1));
  (55, 3, "zeta", Some (cN 1));
  (56, 3, "zeta", Some (cN 1));
  (57, 3, "zeta", Some (cN 1));
  (58, 3, "zeta", Some (cN 1));
  (59, 3, "zeta", Some (cN 1));
  (60, 3, "zeta", Some (cN 1));
  (61, 3, "zeta", Some (cN 1));
  (62, 3, "zeta", Some (cN 0));
  (63, 3, "zeta", Some (cN 0));
  (64, 3, "zeta", Some (cN 0));
  (65, 3, "zeta", Some (cN 0));
  (66, 3, "zeta", Some (cN 0));
  (67, 3, "zeta", Some (cN 0));
  (68, 3, "zeta", Some (cN 0));
  (69, 3, "zeta", Some (cN 0));
  (70, 3, "zeta", Some (cN 0));
  (71, 3, "zeta", Some (cN 0));
  (72, 3, "zeta", Some (cN 0));
  (73, 3, "zeta", Some (cN 0));
  (74, 3, "zeta", Some (cN 0));
  (75, 3, "zeta", Some (cN 0));
  (76, 3, "zeta", Some (cN 0));
  (77, 3, "zeta", Some (cN 0));
  (78, 3, "zeta", Some (cN 1));
  (79, 3, "zeta", Some (cN 1));
  (80, 3, "zeta", Some (cN 1));
  (81, 3, "zeta", Some (cN 1));
  (82, 3, "zeta", Some (cN 1));
  (83, 3, "zeta", Some (cN 1));
  (84, 3, "zeta", Some (cN 1));
  (85, 3, "zeta", Some (cN 1));
  (86, 3, "zeta", Some (cN 1));
  (87, 3, "zeta", Some (cN 1));
  (88, 3, "zeta", Some (cN 1));
  (89, 3, "zeta", Some (cN 1));
  (90, 3, "zeta", Some (cN 0));
  (91, 3, "zeta", Some (cN 0));
  (92, 3, "zeta", Some (cN 0));
  (93, 3, "zeta", Some (cN 0));
  (94, 3, "zeta", Some (cN 2));
  (95, 3, "zeta", Some (cN 2));
  (96, 3, "zeta", Some (cN 2));
  (97, 3, "zeta", Some (cN 2));
  (98, 3, "zeta", Some (cN 2));
  (99, 3, "zeta", Some (cN 2));
  (100, 3, "zeta", Some (cN 1));
  (101, 3, "zeta", Some (cN 1));
  (102, 3, "zeta", Some (cN 1));
  (103, 3, "zeta", Some (cN 1));
  (104, 3, "zeta", Some (cN 1));
  (105, 3, "zeta", Some (cN 1));
  (106, 3, "zeta", Some (cN 1));
  (107, 3, "zeta", Some (cN 1));
  (108, 3, "zeta", Some (cN 0));
  (109, 3, "zeta", Some (cN 0));
  (110, 3, "zeta", Some (cN 0));
  (111, 3, "zeta", Some (cN 0));
  (112, 3, "zeta", Some (cN 0));
  (113, 3, "zeta", Some (cN 0));
  (114, 3, "zeta", Some (cN 2));
  (115, 3, "zeta", Some (cN 2));
  (116, 3, "zeta", Some (cN 2));
  (117, 3, "zeta", Some (cN 2));
  (118, 3, "zeta", Some (cN 2));
  (119, 3, "zeta", Some (cN 2));
  (120, 3, "zeta", Some (cN 2));
  (121, 3, "zeta", Some (cN 2));
  (122, 3, "zeta", Some (cN 2));
  (123, 3, "zeta", Some (cN 1));
  (124, 3, "zeta", Some (cN 1));
  (125, 3, "zeta", Some (cN 1));
  (126, 3, "zeta", Some (cN 1));
  (127, 3, "zeta", Some (cN 1));
  (128, 3, "zeta", Some (cN 1));
  (129, 3, "zeta", Some (cN 1));
  (130, 3, "zeta", Some (cN 1));
  (131, 3, "zeta", Some (cN 1));
  (132, 3, "zeta", Some (cN 1));
  (133, 3, "zeta", Some (cN 1));
  (134, 3, "zeta", Some (cN 1));
  (135, 3, "zeta", Some (cN 1));
  (136, 3, "zeta", Some (cN 1));
  (137, 3, "zeta", Some (cN 1));
  (138, 3, "zeta", Some (cN 1));
  (139, 3, "zeta", Some (cN 1));
  (140, 3, "zeta", Some (cN 1));
  (141, 3, "zeta", Some (cN 1));
  (142, 3, "zeta", Some (cN 1));
  (143, 3, "zeta", Some (cN 1));
  (144, 3, "zeta", Some (cN 1));
  (145, 3, "zeta", Some (cN 1));
  (146, 3, "zeta", Some (cN 1));
  (147, 3, "zeta", Some (cN 1));
  (148, 3, "zeta", Some (cN 1));
  (149, 3, "zeta", Some (cN 1));
  (150, 3, "zeta", Some (cN 0));
  (151, 3, "zeta", Some (cN 0));
  (152, 3, "zeta", Some (cN 0));
  (153, 3, "zeta", Some (cN 0));
  (154, 3, "zeta", Some (cN 0));
  (155, 3, "zeta", Some (cN 0));
  (156, 3, "zeta", Some (cN 0));
  (157, 3, "zeta", Some (cN 0));
  (158, 3, "zeta", Some (cN 0));
  (159, 3, "zeta", Some (cN 1));
  (160, 3, "zeta", Some (cN 1));
  (161, 3, "zeta", Some (cN 1));
  (162, 3, "zeta", Some (cN 1));
  (163, 3, "zeta", Some (cN 1));
  (164, 3, "zeta", Some (cN 2));
  (165, 3, "zeta", Some (cN 2));
  (166, 3, "zeta", Some (cN 2));
  (167, 3, "zeta", Some (cN 2));
  (168, 3, "zeta", Some (cN 2));
  (169, 3, "zeta", Some (cN 2));
  (170, 3, "zeta", Some (cN 2));
  (171, 3, "zeta", Some (cN 2));
  (172, 3, "zeta", Some (cN 2));
  (173, 3, "zeta", Some (cN 2));
  (174, 3, "zeta", Some (cN 2));
  (175, 3, "zeta", Some (cN 2));
  (176, 3, "zeta", Some (cN 2));
  (177, 3, "zeta", Some (cN 2));
  (178, 3, "zeta", Some (cN 2));
  (179, 3, "zeta", Some (cN 2));
  (180, 3, "zeta", Some (cN 1));
  (181, 3, "zeta", Some (cN 1));
  (182, 3, "zeta", Some (cN 1));
  (183, 3, "zeta", Some (cN 1));
  (184, 3, "zeta", Some (cN 1));
  (185, 3, "zeta", Some (cN 1));
  (186, 3, "zeta", Some (cN 1));
  (187, 3, "zeta", Some (cN 1));
  (188, 3, "zeta", Some (cN 1));
  (189, 3, "zeta", Some (cN 1));
  (190, 3, "zeta", Some (cN 1));
  (191, 3, "zeta", Some (cN 1));
  (192, 3, "zeta", Some (cN 1));
  (193, 3, "zeta", Some (cN 1));
  (194, 3, "zeta", Some (cN 1));
  (195, 3, "zeta", Some (cN 1));
  (196, 3, "zeta", Some (cN 1));
  (197, 3, "zeta", Some (cN 1));
  (198, 3, "zeta", Some (cN 0));
  (199, 3, "zeta", Some (cN 0));
  (200, 3, "zeta", Some (cN 0));
  (201, 3, "zeta", Some (cN 0));
  (202, 3, "zeta", Some (cN 0));
  (203, 3, "zeta", Some (cN 0));
  (204, 3, "zeta", Some (cN 2));
  (205, 3, "zeta", Some (cN 2));
  (206, 3, "zeta", Some (cN 2));
  (207, 3, "zeta", Some (cN 2));
  (208, 3, "zeta", Some (cN 1));
  (209, 3, "zeta", Some (cN 1));
  (210, 3, "zeta", Some (cN 1));
  (211, 3, "zeta", Some (cN 1));
  (212, 3, "zeta", Some (cN 1));
  (213, 3, "zeta", Some (cN 1));
  (214, 3, "zeta", Some (cN 1));
  (215, 3, "zeta", Some (cN 1));
  (216, 3, "zeta", Some (cN 1));
  (217, 3, "zeta", Some (cN 1));
  (218, 3, "zeta", Some (cN 1));
  (219, 3, "zeta", Some (cN 1));
  (220, 3, "zeta", Some (cN 2));
  (221, 3, "zeta", Some (cN 2));
  (222, 3, "zeta", Some (cN 2));
  (223, 3, "zeta", Some (cN 2));
  (224, 3, "zeta", Some (cN 2));
  (225, 3, "zeta", Some (cN 2));
  (226, 3, "zeta", Some (cN 1));
  (227, 3, "zeta", Some (cN 1));
  (228, 3, "zeta", Some (cN 1));
  (229, 3, "zeta", Some (cN 0));
  (230, 3, "zeta", Some (cN 2));
  (231, 3, "zeta", Some (cN 2));
  (232, 3, "zeta", Some (cN 2));
  (233, 3, "zeta", Some (cN 2));
  (234, 3, "zeta", Some (cN 2));
  (235, 3, "zeta", Some (cN 2));
  (236, 3, "zeta", Some (cN 2));
  (237, 3, "zeta", Some (cN 2));
  (238, 3, "zeta", Some (cN 2));
  (239, 3, "zeta", Some (cN 1));
  (240, 3, "zeta", Some (cN 1));
  (241, 3, "zeta", Some (cN 1));
  (242, 3, "zeta", Some (cN 1));
  (243, 3, "zeta", Some (cN 1));
  (244, 3, "zeta", Some (cN 1));
  (245, 3, "zeta", Some (cN 1));
  (246, 3, "zeta", Some (cN 1));
  (247, 3, "zeta", Some (cN 1));
  (248, 3, "zeta", Some (cN 2));
  (249, 3, "zeta", Some (cN 2));
  (250, 3, "zeta", Some (cN 2));
  (251, 3, "zeta", Some (cN 2));
  (252, 3, "zeta", Some (cN 2));
  (253, 3, "zeta", Some (cN 2));
  (254, 3, "zeta", Some (cN 1));
  (255, 3, "zeta", Some (cN 1));
  (256, 3, "zeta", Some (cN 2))].
(** /repo/c++/symmetry/sym-QS-impl.hpp, make_matrix if (!P.substeps) *)
Definition qs_4ch_m0_f : list dof_line := [
  ].
Definition coef_qs_4ch : coef_set := mk_coef "QS" 4%nat sym_QS {| tb_In := qs_4ch_In; tb_QN := qs_4ch_QN |}
  [qs_4ch_t2; qs_4ch_t3; qs_4ch_t4; qs_4ch_t5; qs_4ch_t6; qs_4ch_t7; qs_4ch_t8; qs_4ch_t9]
  [qs_4ch_t0; qs_4ch_t1; qs_4ch_t10; qs_4ch_t11; qs_4ch_t12]
  [mk_mode "default" qs_4ch_m0_o qs_4ch_m0_d qs_4ch_m0_f].
