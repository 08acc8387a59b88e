(** Examples for C78. *)
From Coq Require Import List ZArith QArith Bool Ascii String DecimalString.
From Verif Require Import Base Params_model Template_model Template_spec Template_aux Mtool_model Mtool_spec.
Import ListNotations.
Local Open Scope list_scope.

(** Rational numbers, written as n/d. *)
Definition fraction (x : nan) : text :=
  match x with Some (n # d) => str (NilZero.string_of_int (Z.to_int n)) ++ "/"%char :: str (NilZero.string_of_int (Z.to_int (Z.pos d))) | None => str "nan" end.
Definition integer (z : Z) : nan := q z 1.
Definition nought : nan := q 0 1.
Definition channel_1 : @chain nan := {| theta := q 22 7; xi := [q 1 2; q 1 3]; zeta := [q 0 1]; delta := []; kappa := [] |}.
Definition equals : text := str "= ".
(** [input]: lines of a parameter file, two assignments, an expression, a matrix on two lines and an empty row. *)
Definition input : list line :=
  [ Remark (str " parameters"); Heading (str "param"); Words (str "name") (str "text"); Empty;
    Set_ (str "U") [] (n_ "0.5"); Set_ (str "V_1") (str " ") (Mul (Var (str "U")) (n_ "4"));
    Value_ (Div (Sub (n_ "1") (Sub (n_ "2") (n_ "3"))) (Neg (Var (str "V_1"))));
    Rows_ [newline; " "%char] [[Var (str "U"); Neg (Var (str "unknown"))]; [Call (str "coefxi") [n_ "1"; n_ "1"]; Call (str "Sqrt") [Add (Var (str "V_1")) (n_ "2")]]];
    Row_ [] ].
Definition input_names : list text := map str ["U"; "V_1"; "unknown"; "Sqrt"]%string.
Definition result : text := str "= -1/1" ++ newline :: str "= 1/2 0/1" ++ newline :: str "= 1/3 2/1" ++ newline :: str "= " ++ [newline].
