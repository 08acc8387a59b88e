(** C78, the scanner against the rules of matrix.ll. *)
From Coq Require Import List ZArith Bool Ascii String.
From Verif Require Import Base Params_model Template_model Template_spec Mtool_model Mtool_flex Mtool_flex_main.
Import ListNotations.
Local Open Scope list_scope.

(** The tokens of every text are the ones that the rules of matrix.ll give if the longest match is taken, and the first rule among
    those with the longest match. *)
Theorem C78_scanner : forall (s : text) (ts : list tok), scanned true 0 s ts <-> ts = tokens s.
Proof. exact tokens_flex. Qed.
Print Assumptions C78_scanner.
Example C78_scanner_nonvacuous : scanned true 0 (str "#{" ++ newline :: str "parsed=2e-3[ab]coefxi=1.e+2 12e4{" ++ newline :: str "}#}a")
  [TCh newline; TName (str "parsed"); TCh "="; TNum (str "2e-3"); TKey KXi; TCh "="; TNum (str "1.e+2"); TInt (str "12"); TName (str "e4"); TCh "{"; TCh "}"; TCh "#"; TMismatch].
Proof. apply C78_scanner. vm_compute. reflexivity. Qed.
