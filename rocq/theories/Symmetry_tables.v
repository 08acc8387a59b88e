(** Generated by gen/gen_tables.py: the local-state tables shipped with the code, 0-based order (after
    /repo/c++/symmetry.hpp:74-77 [erase_first]). Do not edit. *)
From Coq Require Import List ZArith String.
From Verif Require Import Base Invar_model Symmetry_model.
Import ListNotations.
Local Open Scope string_scope.
Local Open Scope Z_scope.

(** /repo/c++/symmetry/coefnew/dblisosz/dblisosz-2ch-In2.dat *)
Definition dblisosz_2ch_In : list invar := [
  [0; 0; 2]; [0; 0; 0]; [0; 0; 0]; [0; 0; (-2)]; [0; (-1); 1]; [0; 1; 1]; [0; (-1); (-1)]; [0; 1; (-1)]; [(-1); 0; 
   1]; [1; 0; 1]; [(-1); 0; (-1)]; [1; 0; (-1)]; [(-1); (-1); 0]; [(-1); 1; 0]; [1; (-1); 0]; [1; 1; 0]].
(** /repo/c++/symmetry/coefnew/dblisosz/dblisosz-2ch-QN.dat *)
Definition dblisosz_2ch_QN : list invar := [
  [1; 1; (-2)]; [1; 1; 0]; [1; 1; 0]; [1; 1; 2]; [1; 2; (-1)]; [1; 2; (-1)]; [1; 2; 1]; [1; 2; 1]; [2; 1; (-1)]; [2; 
   1; (-1)]; [2; 1; 1]; [2; 1; 1]; [2; 2; 0]; [2; 2; 0]; [2; 2; 0]; [2; 2; 0]].
(** /repo/c++/symmetry/coefnew/dblqsz/dblqsz-2ch-In2.dat *)
Definition dblqsz_2ch_In : list invar := [
  [1; 1; 0]; [1; 0; 1]; [1; 0; (-1)]; [1; (-1); 0]; [0; 1; 1]; [0; 1; (-1)]; [0; 0; 2]; [0; 0; 0]; [0; 0; 0]; [0; 0; 
   (-2)]; [0; (-1); 1]; [0; (-1); (-1)]; [(-1); 1; 0]; [(-1); 0; 1]; [(-1); 0; (-1)]; [(-1); (-1); 0]].
(** /repo/c++/symmetry/coefnew/dblqsz/dblqsz-2ch-QN.dat *)
Definition dblqsz_2ch_QN : list invar := [
  [(-1); (-1); 0]; [(-1); 0; (-1)]; [(-1); 0; 1]; [(-1); 1; 0]; [0; (-1); (-1)]; [0; (-1); 1]; [0; 0; (-2)]; [0; 0; 
   0]; [0; 0; 0]; [0; 0; 2]; [0; 1; (-1)]; [0; 1; 1]; [1; (-1); 0]; [1; 0; (-1)]; [1; 0; 1]; [1; 1; 0]].
(** /repo/c++/symmetry/coefnew/dblsu2/dblsu2-2ch-In2.dat *)
Definition dblsu2_2ch_In : list invar := [
  [0; 0]; [0; 0]; [0; 0]; [0; 0]; [0; (-1)]; [0; 1]; [0; (-1)]; [0; 1]; [(-1); 0]; [1; 0]; [(-1); 0]; [1; 0]; [(-1); 
   (-1)]; [(-1); 1]; [1; (-1)]; [1; 1]].
(** /repo/c++/symmetry/coefnew/dblsu2/dblsu2-2ch-QN.dat *)
Definition dblsu2_2ch_QN : list invar := [
  [1; 1]; [1; 1]; [1; 1]; [1; 1]; [1; 2]; [1; 2]; [1; 2]; [1; 2]; [2; 1]; [2; 1]; [2; 1]; [2; 1]; [2; 2]; [2; 2]; 
   [2; 2]; [2; 2]].
(** /repo/c++/symmetry/coefnew/iso/iso-1ch-In2.dat *)
Definition iso_1ch_In : list invar := [
  [(-1); 0]; [1; 0]; [0; (-1)]; [0; 1]].
(** /repo/c++/symmetry/coefnew/iso/iso-1ch-QN.dat *)
Definition iso_1ch_QN : list invar := [
  [2; 1]; [2; 1]; [1; 2]; [1; 2]].
(** /repo/c++/symmetry/coefnew/iso/iso-2ch-In2.dat *)
Definition iso_2ch_In : list invar := [
  [(-2); 0]; [0; 0]; [2; 0]; [(-1); (-1)]; [1; (-1)]; [(-1); 1]; [1; 1]; [(-1); (-1)]; [1; (-1)]; [(-1); 1]; [1; 1]; 
   [0; (-2)]; [0; 0]; [0; 2]; [0; 0]; [0; 0]].
(** /repo/c++/symmetry/coefnew/iso/iso-2ch-QN.dat *)
Definition iso_2ch_QN : list invar := [
  [3; 1]; [3; 1]; [3; 1]; [2; 2]; [2; 2]; [2; 2]; [2; 2]; [2; 2]; [2; 2]; [2; 2]; [2; 2]; [1; 3]; [1; 3]; [1; 3]; 
   [1; 1]; [1; 1]].
(** /repo/c++/symmetry/coefnew/iso/iso-3ch-In2.dat *)
Definition iso_3ch_In : list invar := [
  [(-3); 0]; [(-1); 0]; [1; 0]; [3; 0]; [(-2); (-1)]; [0; (-1)]; [2; (-1)]; [(-2); 1]; [0; 1]; [2; 1]; [(-2); (-1)]; 
   [0; (-1)]; [2; (-1)]; [(-2); 1]; [0; 1]; [2; 1]; [(-2); (-1)]; [0; (-1)]; [2; (-1)]; [(-2); 1]; [0; 1]; [2; 1]; 
   [(-1); (-2)]; [1; (-2)]; [(-1); 0]; [1; 0]; [(-1); 2]; [1; 2]; [(-1); (-2)]; [1; (-2)]; [(-1); 0]; [1; 0]; [(-1); 
   2]; [1; 2]; [(-1); (-2)]; [1; (-2)]; [(-1); 0]; [1; 0]; [(-1); 2]; [1; 2]; [(-1); 0]; [1; 0]; [(-1); 0]; [1; 0]; 
   [(-1); 0]; [1; 0]; [(-1); 0]; [1; 0]; [(-1); 0]; [1; 0]; [0; (-3)]; [0; (-1)]; [0; 1]; [0; 3]; [0; (-1)]; [0; 1]; 
   [0; (-1)]; [0; 1]; [0; (-1)]; [0; 1]; [0; (-1)]; [0; 1]; [0; (-1)]; [0; 1]].
(** /repo/c++/symmetry/coefnew/iso/iso-3ch-QN.dat *)
Definition iso_3ch_QN : list invar := [
  [4; 1]; [4; 1]; [4; 1]; [4; 1]; [3; 2]; [3; 2]; [3; 2]; [3; 2]; [3; 2]; [3; 2]; [3; 2]; [3; 2]; [3; 2]; [3; 2]; 
   [3; 2]; [3; 2]; [3; 2]; [3; 2]; [3; 2]; [3; 2]; [3; 2]; [3; 2]; [2; 3]; [2; 3]; [2; 3]; [2; 3]; [2; 3]; [2; 3]; 
   [2; 3]; [2; 3]; [2; 3]; [2; 3]; [2; 3]; [2; 3]; [2; 3]; [2; 3]; [2; 3]; [2; 3]; [2; 3]; [2; 3]; [2; 1]; [2; 1]; 
   [2; 1]; [2; 1]; [2; 1]; [2; 1]; [2; 1]; [2; 1]; [2; 1]; [2; 1]; [1; 4]; [1; 4]; [1; 4]; [1; 4]; [1; 2]; [1; 2]; 
   [1; 2]; [1; 2]; [1; 2]; [1; 2]; [1; 2]; [1; 2]; [1; 2]; [1; 2]].
(** /repo/c++/symmetry/coefnew/iso2/iso2-1ch-In2.dat *)
Definition iso2_1ch_In : list invar := [
  [(-1); 0]; [1; 0]; [0; (-1)]; [0; 1]].
(** /repo/c++/symmetry/coefnew/iso2/iso2-1ch-QN.dat *)
Definition iso2_1ch_QN : list invar := [
  [2; 1]; [2; 1]; [1; 2]; [1; 2]].
(** /repo/c++/symmetry/coefnew/iso2/iso2-2ch-In2.dat *)
Definition iso2_2ch_In : list invar := [
  [(-2); 0]; [0; 0]; [2; 0]; [(-1); (-1)]; [1; (-1)]; [(-1); 1]; [1; 1]; [(-1); (-1)]; [1; (-1)]; [(-1); 1]; [1; 1]; 
   [0; (-2)]; [0; 0]; [0; 2]; [0; 0]; [0; 0]].
(** /repo/c++/symmetry/coefnew/iso2/iso2-2ch-QN.dat *)
Definition iso2_2ch_QN : list invar := [
  [3; 1]; [3; 1]; [3; 1]; [2; 2]; [2; 2]; [2; 2]; [2; 2]; [2; 2]; [2; 2]; [2; 2]; [2; 2]; [1; 3]; [1; 3]; [1; 3]; 
   [1; 1]; [1; 1]].
(** /repo/c++/symmetry/coefnew/isolr/isolr-2ch-In2.dat *)
Definition isolr_2ch_In : list invar := [
  [0; 0; (-1)]; [0; 0; 1]; [0; (-2); (-1)]; [0; 0; (-1)]; [0; 2; (-1)]; [(-1); (-1); (-1)]; [1; (-1); (-1)]; [(-1); 
   1; (-1)]; [1; 1; (-1)]; [(-1); (-1); 1]; [1; (-1); 1]; [(-1); 1; 1]; [1; 1; 1]; [(-2); 0; 1]; [0; 0; 1]; [2; 0; 
   1]].
(** /repo/c++/symmetry/coefnew/isolr/isolr-2ch-QN.dat *)
Definition isolr_2ch_QN : list invar := [
  [1; 1; (-1)]; [1; 1; 1]; [1; 3; (-1)]; [1; 3; (-1)]; [1; 3; (-1)]; [2; 2; (-1)]; [2; 2; (-1)]; [2; 2; (-1)]; [2; 
   2; (-1)]; [2; 2; 1]; [2; 2; 1]; [2; 2; 1]; [2; 2; 1]; [3; 1; 1]; [3; 1; 1]; [3; 1; 1]].
(** /repo/c++/symmetry/coefnew/iso2lr/iso2lr-2ch-In2.dat *)
Definition iso2lr_2ch_In : list invar := [
  [0; 0; 1]; [0; 0; 1]; [0; (-2); (-1)]; [0; 0; (-1)]; [0; 2; (-1)]; [(-1); (-1); (-1)]; [1; (-1); (-1)]; [(-1); 1; 
   (-1)]; [1; 1; (-1)]; [(-1); (-1); 1]; [1; (-1); 1]; [(-1); 1; 1]; [1; 1; 1]; [(-2); 0; 1]; [0; 0; 1]; [2; 0; 1]].
(** /repo/c++/symmetry/coefnew/iso2lr/iso2lr-2ch-QN.dat *)
Definition iso2lr_2ch_QN : list invar := [
  [1; 1; 1]; [1; 1; 1]; [1; 3; (-1)]; [1; 3; (-1)]; [1; 3; (-1)]; [2; 2; (-1)]; [2; 2; (-1)]; [2; 2; (-1)]; [2; 2; 
   (-1)]; [2; 2; 1]; [2; 2; 1]; [2; 2; 1]; [2; 2; 1]; [3; 1; 1]; [3; 1; 1]; [3; 1; 1]].
(** /repo/c++/symmetry/coefnew/isosz/isosz-1ch-In2.dat *)
Definition isosz_1ch_In : list invar := [
  [(-1); 0]; [1; 0]; [0; (-1)]; [0; 1]].
(** /repo/c++/symmetry/coefnew/isosz/isosz-1ch-QN.dat *)
Definition isosz_1ch_QN : list invar := [
  [2; 0]; [2; 0]; [1; 1]; [1; (-1)]].
(** /repo/c++/symmetry/coefnew/isosz/isosz-2ch-In2.dat *)
Definition isosz_2ch_In : list invar := [
  [(-2); 0]; [0; 0]; [2; 0]; [(-1); (-1)]; [1; (-1)]; [(-1); (-1)]; [1; (-1)]; [(-1); 1]; [1; 1]; [(-1); 1]; [1; 1]; 
   [0; (-2)]; [0; 0]; [0; 0]; [0; 0]; [0; 2]].
(** /repo/c++/symmetry/coefnew/isosz/isosz-2ch-QN.dat *)
Definition isosz_2ch_QN : list invar := [
  [3; 0]; [3; 0]; [3; 0]; [2; 1]; [2; 1]; [2; 1]; [2; 1]; [2; (-1)]; [2; (-1)]; [2; (-1)]; [2; (-1)]; [1; 2]; [1; 
   0]; [1; 0]; [1; 0]; [1; (-2)]].
(** /repo/c++/symmetry/coefnew/isoszlr/isoszlr-2ch-In2.dat *)
Definition isoszlr_2ch_In : list invar := [
  [0; 2; (-1)]; [0; 0; (-1)]; [0; 0; (-1)]; [0; 0; 1]; [0; (-2); (-1)]; [(-1); 1; (-1)]; [1; 1; (-1)]; [(-1); 1; 1]; 
   [1; 1; 1]; [(-1); (-1); (-1)]; [1; (-1); (-1)]; [(-1); (-1); 1]; [1; (-1); 1]; [(-2); 0; 1]; [0; 0; 1]; [2; 0; 1]].
(** /repo/c++/symmetry/coefnew/isoszlr/isoszlr-2ch-QN.dat *)
Definition isoszlr_2ch_QN : list invar := [
  [1; (-2); (-1)]; [1; 0; (-1)]; [1; 0; (-1)]; [1; 0; 1]; [1; 2; (-1)]; [2; (-1); (-1)]; [2; (-1); (-1)]; [2; (-1); 
   1]; [2; (-1); 1]; [2; 1; (-1)]; [2; 1; (-1)]; [2; 1; 1]; [2; 1; 1]; [3; 0; 1]; [3; 0; 1]; [3; 0; 1]].
(** /repo/c++/symmetry/coefnew/none/none-1ch-In2.dat *)
Definition none_1ch_In : list invar := [
  [0]; [0]; [0]; [0]].
(** /repo/c++/symmetry/coefnew/none/none-1ch-QN.dat *)
Definition none_1ch_QN : list invar := [
  [0]; [0]; [0]; [0]].
(** /repo/c++/symmetry/coefnew/none/none-2ch-In2.dat *)
Definition none_2ch_In : list invar := [
  [0]; [0]; [0]; [0]; [0]; [0]; [0]; [0]; [0]; [0]; [0]; [0]; [0]; [0]; [0]; [0]].
(** /repo/c++/symmetry/coefnew/none/none-2ch-QN.dat *)
Definition none_2ch_QN : list invar := [
  [0]; [0]; [0]; [0]; [0]; [0]; [0]; [0]; [0]; [0]; [0]; [0]; [0]; [0]; [0]; [0]].
(** /repo/c++/symmetry/coefnew/p/p-1ch-In2.dat *)
Definition p_1ch_In : list invar := [
  [(-1)]; [(-1)]; [1]; [1]].
(** /repo/c++/symmetry/coefnew/p/p-1ch-QN.dat *)
Definition p_1ch_QN : list invar := [
  [(-1)]; [(-1)]; [1]; [1]].
(** /repo/c++/symmetry/coefnew/p/p-2ch-In2.dat *)
Definition p_2ch_In : list invar := [
  [(-1)]; [(-1)]; [(-1)]; [(-1)]; [(-1)]; [(-1)]; [(-1)]; [(-1)]; [1]; [1]; [1]; [1]; [1]; [1]; [1]; [1]].
(** /repo/c++/symmetry/coefnew/p/p-2ch-QN.dat *)
Definition p_2ch_QN : list invar := [
  [(-1)]; [(-1)]; [(-1)]; [(-1)]; [(-1)]; [(-1)]; [(-1)]; [(-1)]; [1]; [1]; [1]; [1]; [1]; [1]; [1]; [1]].
(** /repo/c++/symmetry/coefnew/pp/pp-2ch-In2.dat *)
Definition pp_2ch_In : list invar := [
  [(-1); (-1)]; [(-1); (-1)]; [(-1); (-1)]; [(-1); (-1)]; [(-1); 1]; [(-1); 1]; [(-1); 1]; [(-1); 1]; [1; (-1)]; [1; 
   (-1)]; [1; (-1)]; [1; (-1)]; [1; 1]; [1; 1]; [1; 1]; [1; 1]].
(** /repo/c++/symmetry/coefnew/pp/pp-2ch-QN.dat *)
Definition pp_2ch_QN : list invar := [
  [(-1); (-1)]; [(-1); (-1)]; [(-1); (-1)]; [(-1); (-1)]; [(-1); 1]; [(-1); 1]; [(-1); 1]; [(-1); 1]; [1; (-1)]; [1; 
   (-1)]; [1; (-1)]; [1; (-1)]; [1; 1]; [1; 1]; [1; 1]; [1; 1]].
(** /repo/c++/symmetry/coefnew/qj/qj-In2.dat *)
Definition qj_In : list invar := [
  [3; 0]; [2; (-1)]; [2; 1]; [2; (-3)]; [2; (-1)]; [2; 1]; [2; 3]; [1; 0]; [1; 0]; [1; (-2)]; [1; 0]; [1; 2]; [1; 
   (-4)]; [1; (-2)]; [1; 0]; [1; 2]; [1; 4]; [1; (-4)]; [1; (-2)]; [1; 0]; [1; 2]; [1; 4]; [0; (-1)]; [0; 1]; [0; 
   (-3)]; [0; (-1)]; [0; 1]; [0; 3]; [0; (-3)]; [0; (-1)]; [0; 1]; [0; 3]; [0; (-3)]; [0; (-1)]; [0; 1]; [0; 3]; [0; 
   (-5)]; [0; (-3)]; [0; (-1)]; [0; 1]; [0; 3]; [0; 5]; [(-1); 0]; [(-1); 0]; [(-1); (-2)]; [(-1); 0]; [(-1); 2]; 
   [(-1); (-4)]; [(-1); (-2)]; [(-1); 0]; [(-1); 2]; [(-1); 4]; [(-1); (-4)]; [(-1); (-2)]; [(-1); 0]; [(-1); 2]; 
   [(-1); 4]; [(-2); (-1)]; [(-2); 1]; [(-2); (-3)]; [(-2); (-1)]; [(-2); 1]; [(-2); 3]; [(-3); 0]].
(** /repo/c++/symmetry/coefnew/qj/qj-QN.dat *)
Definition qj_QN : list invar := [
  [(-3); 1]; [(-2); 2]; [(-2); 2]; [(-2); 4]; [(-2); 4]; [(-2); 4]; [(-2); 4]; [(-1); 1]; [(-1); 1]; [(-1); 3]; 
   [(-1); 3]; [(-1); 3]; [(-1); 5]; [(-1); 5]; [(-1); 5]; [(-1); 5]; [(-1); 5]; [(-1); 5]; [(-1); 5]; [(-1); 5]; 
   [(-1); 5]; [(-1); 5]; [0; 2]; [0; 2]; [0; 4]; [0; 4]; [0; 4]; [0; 4]; [0; 4]; [0; 4]; [0; 4]; [0; 4]; [0; 4]; [0; 
   4]; [0; 4]; [0; 4]; [0; 6]; [0; 6]; [0; 6]; [0; 6]; [0; 6]; [0; 6]; [1; 1]; [1; 1]; [1; 3]; [1; 3]; [1; 3]; [1; 
   5]; [1; 5]; [1; 5]; [1; 5]; [1; 5]; [1; 5]; [1; 5]; [1; 5]; [1; 5]; [1; 5]; [2; 2]; [2; 2]; [2; 4]; [2; 4]; [2; 
   4]; [2; 4]; [3; 1]].
(** /repo/c++/symmetry/coefnew/qs/qs-1ch-In2.dat *)
Definition qs_1ch_In : list invar := [
  [1; 0]; [0; (-1)]; [0; 1]; [(-1); 0]].
(** /repo/c++/symmetry/coefnew/qs/qs-1ch-QN.dat *)
Definition qs_1ch_QN : list invar := [
  [(-1); 1]; [0; 2]; [0; 2]; [1; 1]].
(** /repo/c++/symmetry/coefnew/qs/qs-2ch-In2.dat *)
Definition qs_2ch_In : list invar := [
  [2; 0]; [1; (-1)]; [1; 1]; [1; (-1)]; [1; 1]; [0; 0]; [0; 0]; [0; 0]; [0; (-2)]; [0; 0]; [0; 2]; [(-1); (-1)]; 
   [(-1); 1]; [(-1); (-1)]; [(-1); 1]; [(-2); 0]].
(** /repo/c++/symmetry/coefnew/qs/qs-2ch-QN.dat *)
Definition qs_2ch_QN : list invar := [
  [(-2); 1]; [(-1); 2]; [(-1); 2]; [(-1); 2]; [(-1); 2]; [0; 1]; [0; 1]; [0; 1]; [0; 3]; [0; 3]; [0; 3]; [1; 2]; [1; 
   2]; [1; 2]; [1; 2]; [2; 1]].
(** /repo/c++/symmetry/coefnew/qs/qs-3ch-In2.dat *)
Definition qs_3ch_In : list invar := [
  [3; 0]; [2; (-1)]; [2; 1]; [2; (-1)]; [2; 1]; [2; (-1)]; [2; 1]; [1; 0]; [1; 0]; [1; 0]; [1; 0]; [1; 0]; [1; 0]; 
   [1; (-2)]; [1; 0]; [1; 2]; [1; (-2)]; [1; 0]; [1; 2]; [1; (-2)]; [1; 0]; [1; 2]; [0; (-1)]; [0; 1]; [0; (-1)]; 
   [0; 1]; [0; (-1)]; [0; 1]; [0; (-1)]; [0; 1]; [0; (-1)]; [0; 1]; [0; (-1)]; [0; 1]; [0; (-1)]; [0; 1]; [0; (-1)]; 
   [0; 1]; [0; (-3)]; [0; (-1)]; [0; 1]; [0; 3]; [(-1); 0]; [(-1); 0]; [(-1); 0]; [(-1); 0]; [(-1); 0]; [(-1); 0]; 
   [(-1); (-2)]; [(-1); 0]; [(-1); 2]; [(-1); (-2)]; [(-1); 0]; [(-1); 2]; [(-1); (-2)]; [(-1); 0]; [(-1); 2]; 
   [(-2); (-1)]; [(-2); 1]; [(-2); (-1)]; [(-2); 1]; [(-2); (-1)]; [(-2); 1]; [(-3); 0]].
(** /repo/c++/symmetry/coefnew/qs/qs-3ch-QN.dat *)
Definition qs_3ch_QN : list invar := [
  [(-3); 1]; [(-2); 2]; [(-2); 2]; [(-2); 2]; [(-2); 2]; [(-2); 2]; [(-2); 2]; [(-1); 1]; [(-1); 1]; [(-1); 1]; 
   [(-1); 1]; [(-1); 1]; [(-1); 1]; [(-1); 3]; [(-1); 3]; [(-1); 3]; [(-1); 3]; [(-1); 3]; [(-1); 3]; [(-1); 3]; 
   [(-1); 3]; [(-1); 3]; [0; 2]; [0; 2]; [0; 2]; [0; 2]; [0; 2]; [0; 2]; [0; 2]; [0; 2]; [0; 2]; [0; 2]; [0; 2]; [0; 
   2]; [0; 2]; [0; 2]; [0; 2]; [0; 2]; [0; 4]; [0; 4]; [0; 4]; [0; 4]; [1; 1]; [1; 1]; [1; 1]; [1; 1]; [1; 1]; [1; 
   1]; [1; 3]; [1; 3]; [1; 3]; [1; 3]; [1; 3]; [1; 3]; [1; 3]; [1; 3]; [1; 3]; [2; 2]; [2; 2]; [2; 2]; [2; 2]; [2; 
   2]; [2; 2]; [3; 1]].
(** /repo/c++/symmetry/coefnew/qs/qs-4ch-In2.dat *)
Definition qs_4ch_In : list invar := [
  [4; 0]; [3; (-1)]; [3; 1]; [3; (-1)]; [3; 1]; [3; (-1)]; [3; 1]; [3; (-1)]; [3; 1]; [2; 0]; [2; 0]; [2; 0]; [2; 
   0]; [2; 0]; [2; 0]; [2; 0]; [2; 0]; [2; 0]; [2; 0]; [2; (-2)]; [2; 0]; [2; 2]; [2; (-2)]; [2; 0]; [2; 2]; [2; 
   (-2)]; [2; 0]; [2; 2]; [2; (-2)]; [2; 0]; [2; 2]; [2; (-2)]; [2; 0]; [2; 2]; [2; (-2)]; [2; 0]; [2; 2]; [1; 
   (-1)]; [1; 1]; [1; (-1)]; [1; 1]; [1; (-1)]; [1; 1]; [1; (-1)]; [1; 1]; [1; (-1)]; [1; 1]; [1; (-1)]; [1; 1]; [1; 
   (-1)]; [1; 1]; [1; (-1)]; [1; 1]; [1; (-1)]; [1; 1]; [1; (-1)]; [1; 1]; [1; (-1)]; [1; 1]; [1; (-1)]; [1; 1]; [1; 
   (-1)]; [1; 1]; [1; (-1)]; [1; 1]; [1; (-1)]; [1; 1]; [1; (-1)]; [1; 1]; [1; (-1)]; [1; 1]; [1; (-1)]; [1; 1]; [1; 
   (-1)]; [1; 1]; [1; (-1)]; [1; 1]; [1; (-3)]; [1; (-1)]; [1; 1]; [1; 3]; [1; (-3)]; [1; (-1)]; [1; 1]; [1; 3]; [1; 
   (-3)]; [1; (-1)]; [1; 1]; [1; 3]; [1; (-3)]; [1; (-1)]; [1; 1]; [1; 3]; [0; 0]; [0; 0]; [0; 0]; [0; 0]; [0; 0]; 
   [0; 0]; [0; 0]; [0; 0]; [0; 0]; [0; 0]; [0; 0]; [0; 0]; [0; 0]; [0; 0]; [0; 0]; [0; 0]; [0; 0]; [0; 0]; [0; 0]; 
   [0; 0]; [0; (-2)]; [0; 0]; [0; 2]; [0; (-2)]; [0; 0]; [0; 2]; [0; (-2)]; [0; 0]; [0; 2]; [0; (-2)]; [0; 0]; [0; 
   2]; [0; (-2)]; [0; 0]; [0; 2]; [0; (-2)]; [0; 0]; [0; 2]; [0; (-2)]; [0; 0]; [0; 2]; [0; (-2)]; [0; 0]; [0; 2]; 
   [0; (-2)]; [0; 0]; [0; 2]; [0; (-2)]; [0; 0]; [0; 2]; [0; (-2)]; [0; 0]; [0; 2]; [0; (-2)]; [0; 0]; [0; 2]; [0; 
   (-2)]; [0; 0]; [0; 2]; [0; (-2)]; [0; 0]; [0; 2]; [0; (-2)]; [0; 0]; [0; 2]; [0; (-4)]; [0; (-2)]; [0; 0]; [0; 
   2]; [0; 4]; [(-1); (-1)]; [(-1); 1]; [(-1); (-1)]; [(-1); 1]; [(-1); (-1)]; [(-1); 1]; [(-1); (-1)]; [(-1); 1]; 
   [(-1); (-1)]; [(-1); 1]; [(-1); (-1)]; [(-1); 1]; [(-1); (-1)]; [(-1); 1]; [(-1); (-1)]; [(-1); 1]; [(-1); (-1)]; 
   [(-1); 1]; [(-1); (-1)]; [(-1); 1]; [(-1); (-1)]; [(-1); 1]; [(-1); (-1)]; [(-1); 1]; [(-1); (-1)]; [(-1); 1]; 
   [(-1); (-1)]; [(-1); 1]; [(-1); (-1)]; [(-1); 1]; [(-1); (-1)]; [(-1); 1]; [(-1); (-1)]; [(-1); 1]; [(-1); (-1)]; 
   [(-1); 1]; [(-1); (-1)]; [(-1); 1]; [(-1); (-1)]; [(-1); 1]; [(-1); (-3)]; [(-1); (-1)]; [(-1); 1]; [(-1); 3]; 
   [(-1); (-3)]; [(-1); (-1)]; [(-1); 1]; [(-1); 3]; [(-1); (-3)]; [(-1); (-1)]; [(-1); 1]; [(-1); 3]; [(-1); (-3)]; 
   [(-1); (-1)]; [(-1); 1]; [(-1); 3]; [(-2); 0]; [(-2); 0]; [(-2); 0]; [(-2); 0]; [(-2); 0]; [(-2); 0]; [(-2); 0]; 
   [(-2); 0]; [(-2); 0]; [(-2); 0]; [(-2); (-2)]; [(-2); 0]; [(-2); 2]; [(-2); (-2)]; [(-2); 0]; [(-2); 2]; [(-2); 
   (-2)]; [(-2); 0]; [(-2); 2]; [(-2); (-2)]; [(-2); 0]; [(-2); 2]; [(-2); (-2)]; [(-2); 0]; [(-2); 2]; [(-2); 
   (-2)]; [(-2); 0]; [(-2); 2]; [(-3); (-1)]; [(-3); 1]; [(-3); (-1)]; [(-3); 1]; [(-3); (-1)]; [(-3); 1]; [(-3); 
   (-1)]; [(-3); 1]; [(-4); 0]].
(** /repo/c++/symmetry/coefnew/qs/qs-4ch-QN.dat *)
Definition qs_4ch_QN : list invar := [
  [(-4); 1]; [(-3); 2]; [(-3); 2]; [(-3); 2]; [(-3); 2]; [(-3); 2]; [(-3); 2]; [(-3); 2]; [(-3); 2]; [(-2); 1]; 
   [(-2); 1]; [(-2); 1]; [(-2); 1]; [(-2); 1]; [(-2); 1]; [(-2); 1]; [(-2); 1]; [(-2); 1]; [(-2); 1]; [(-2); 3]; 
   [(-2); 3]; [(-2); 3]; [(-2); 3]; [(-2); 3]; [(-2); 3]; [(-2); 3]; [(-2); 3]; [(-2); 3]; [(-2); 3]; [(-2); 3]; 
   [(-2); 3]; [(-2); 3]; [(-2); 3]; [(-2); 3]; [(-2); 3]; [(-2); 3]; [(-2); 3]; [(-1); 2]; [(-1); 2]; [(-1); 2]; 
   [(-1); 2]; [(-1); 2]; [(-1); 2]; [(-1); 2]; [(-1); 2]; [(-1); 2]; [(-1); 2]; [(-1); 2]; [(-1); 2]; [(-1); 2]; 
   [(-1); 2]; [(-1); 2]; [(-1); 2]; [(-1); 2]; [(-1); 2]; [(-1); 2]; [(-1); 2]; [(-1); 2]; [(-1); 2]; [(-1); 2]; 
   [(-1); 2]; [(-1); 2]; [(-1); 2]; [(-1); 2]; [(-1); 2]; [(-1); 2]; [(-1); 2]; [(-1); 2]; [(-1); 2]; [(-1); 2]; 
   [(-1); 2]; [(-1); 2]; [(-1); 2]; [(-1); 2]; [(-1); 2]; [(-1); 2]; [(-1); 2]; [(-1); 4]; [(-1); 4]; [(-1); 4]; 
   [(-1); 4]; [(-1); 4]; [(-1); 4]; [(-1); 4]; [(-1); 4]; [(-1); 4]; [(-1); 4]; [(-1); 4]; [(-1); 4]; [(-1); 4]; 
   [(-1); 4]; [(-1); 4]; [(-1); 4]; [0; 1]; [0; 1]; [0; 1]; [0; 1]; [0; 1]; [0; 1]; [0; 1]; [0; 1]; [0; 1]; [0; 1]; 
   [0; 1]; [0; 1]; [0; 1]; [0; 1]; [0; 1]; [0; 1]; [0; 1]; [0; 1]; [0; 1]; [0; 1]; [0; 3]; [0; 3]; [0; 3]; [0; 3]; 
   [0; 3]; [0; 3]; [0; 3]; [0; 3]; [0; 3]; [0; 3]; [0; 3]; [0; 3]; [0; 3]; [0; 3]; [0; 3]; [0; 3]; [0; 3]; [0; 3]; 
   [0; 3]; [0; 3]; [0; 3]; [0; 3]; [0; 3]; [0; 3]; [0; 3]; [0; 3]; [0; 3]; [0; 3]; [0; 3]; [0; 3]; [0; 3]; [0; 3]; 
   [0; 3]; [0; 3]; [0; 3]; [0; 3]; [0; 3]; [0; 3]; [0; 3]; [0; 3]; [0; 3]; [0; 3]; [0; 3]; [0; 3]; [0; 3]; [0; 5]; 
   [0; 5]; [0; 5]; [0; 5]; [0; 5]; [1; 2]; [1; 2]; [1; 2]; [1; 2]; [1; 2]; [1; 2]; [1; 2]; [1; 2]; [1; 2]; [1; 2]; 
   [1; 2]; [1; 2]; [1; 2]; [1; 2]; [1; 2]; [1; 2]; [1; 2]; [1; 2]; [1; 2]; [1; 2]; [1; 2]; [1; 2]; [1; 2]; [1; 2]; 
   [1; 2]; [1; 2]; [1; 2]; [1; 2]; [1; 2]; [1; 2]; [1; 2]; [1; 2]; [1; 2]; [1; 2]; [1; 2]; [1; 2]; [1; 2]; [1; 2]; 
   [1; 2]; [1; 2]; [1; 4]; [1; 4]; [1; 4]; [1; 4]; [1; 4]; [1; 4]; [1; 4]; [1; 4]; [1; 4]; [1; 4]; [1; 4]; [1; 4]; 
   [1; 4]; [1; 4]; [1; 4]; [1; 4]; [2; 1]; [2; 1]; [2; 1]; [2; 1]; [2; 1]; [2; 1]; [2; 1]; [2; 1]; [2; 1]; [2; 1]; 
   [2; 3]; [2; 3]; [2; 3]; [2; 3]; [2; 3]; [2; 3]; [2; 3]; [2; 3]; [2; 3]; [2; 3]; [2; 3]; [2; 3]; [2; 3]; [2; 3]; 
   [2; 3]; [2; 3]; [2; 3]; [2; 3]; [3; 2]; [3; 2]; [3; 2]; [3; 2]; [3; 2]; [3; 2]; [3; 2]; [3; 2]; [4; 1]].
(** /repo/c++/symmetry/coefnew/qsc3/qsc3-In2.dat *)
Definition qsc3_In : list invar := [
  [3; 0; 0]; [2; (-1); 0]; [2; 1; 0]; [2; (-1); 2]; [2; 1; 2]; [2; (-1); 1]; [2; 1; 1]; [1; 0; 0]; [1; 0; 0]; [1; 0; 
   2]; [1; 0; 2]; [1; 0; 1]; [1; 0; 1]; [1; (-2); 0]; [1; 0; 0]; [1; 2; 0]; [1; (-2); 2]; [1; 0; 2]; [1; 2; 2]; [1; 
   (-2); 1]; [1; 0; 1]; [1; 2; 1]; [0; (-1); 0]; [0; 1; 0]; [0; (-1); 0]; [0; 1; 0]; [0; (-1); 2]; [0; 1; 2]; [0; 
   (-1); 2]; [0; 1; 2]; [0; (-1); 2]; [0; 1; 2]; [0; (-1); 1]; [0; 1; 1]; [0; (-1); 1]; [0; 1; 1]; [0; (-1); 1]; [0; 
   1; 1]; [0; (-3); 0]; [0; (-1); 0]; [0; 1; 0]; [0; 3; 0]; [(-1); 0; 0]; [(-1); 0; 0]; [(-1); 0; 2]; [(-1); 0; 2]; 
   [(-1); 0; 1]; [(-1); 0; 1]; [(-1); (-2); 0]; [(-1); 0; 0]; [(-1); 2; 0]; [(-1); (-2); 2]; [(-1); 0; 2]; [(-1); 2; 
   2]; [(-1); (-2); 1]; [(-1); 0; 1]; [(-1); 2; 1]; [(-2); (-1); 0]; [(-2); 1; 0]; [(-2); (-1); 2]; [(-2); 1; 2]; 
   [(-2); (-1); 1]; [(-2); 1; 1]; [(-3); 0; 0]].
(** /repo/c++/symmetry/coefnew/qsc3/qsc3-QN.dat *)
Definition qsc3_QN : list invar := [
  [(-3); 1; 0]; [(-2); 2; 0]; [(-2); 2; 0]; [(-2); 2; 1]; [(-2); 2; 1]; [(-2); 2; 2]; [(-2); 2; 2]; [(-1); 1; 0]; 
   [(-1); 1; 0]; [(-1); 1; 1]; [(-1); 1; 1]; [(-1); 1; 2]; [(-1); 1; 2]; [(-1); 3; 0]; [(-1); 3; 0]; [(-1); 3; 0]; 
   [(-1); 3; 1]; [(-1); 3; 1]; [(-1); 3; 1]; [(-1); 3; 2]; [(-1); 3; 2]; [(-1); 3; 2]; [0; 2; 0]; [0; 2; 0]; [0; 2; 
   0]; [0; 2; 0]; [0; 2; 1]; [0; 2; 1]; [0; 2; 1]; [0; 2; 1]; [0; 2; 1]; [0; 2; 1]; [0; 2; 2]; [0; 2; 2]; [0; 2; 2]; 
   [0; 2; 2]; [0; 2; 2]; [0; 2; 2]; [0; 4; 0]; [0; 4; 0]; [0; 4; 0]; [0; 4; 0]; [1; 1; 0]; [1; 1; 0]; [1; 1; 1]; [1; 
   1; 1]; [1; 1; 2]; [1; 1; 2]; [1; 3; 0]; [1; 3; 0]; [1; 3; 0]; [1; 3; 1]; [1; 3; 1]; [1; 3; 1]; [1; 3; 2]; [1; 3; 
   2]; [1; 3; 2]; [2; 2; 0]; [2; 2; 0]; [2; 2; 1]; [2; 2; 1]; [2; 2; 2]; [2; 2; 2]; [3; 1; 0]].
(** /repo/c++/symmetry/coefnew/qslr/qslr-2ch-In2.dat *)
Definition qslr_2ch_In : list invar := [
  [2; 0; 1]; [1; (-1); (-1)]; [1; 1; (-1)]; [1; (-1); 1]; [1; 1; 1]; [0; 0; (-1)]; [0; 0; 1]; [0; 0; 1]; [0; (-2); 
   (-1)]; [0; 0; (-1)]; [0; 2; (-1)]; [(-1); (-1); (-1)]; [(-1); 1; (-1)]; [(-1); (-1); 1]; [(-1); 1; 1]; [(-2); 0; 
   1]].
(** /repo/c++/symmetry/coefnew/qslr/qslr-2ch-QN.dat *)
Definition qslr_2ch_QN : list invar := [
  [(-2); 1; 1]; [(-1); 2; (-1)]; [(-1); 2; (-1)]; [(-1); 2; 1]; [(-1); 2; 1]; [0; 1; (-1)]; [0; 1; 1]; [0; 1; 1]; 
   [0; 3; (-1)]; [0; 3; (-1)]; [0; 3; (-1)]; [1; 2; (-1)]; [1; 2; (-1)]; [1; 2; 1]; [1; 2; 1]; [2; 1; 1]].
(** /repo/c++/symmetry/coefnew/qst/qst-In2.dat *)
Definition qst_In : list invar := [
  [3; 0; 0]; [2; (-1); (-1)]; [2; (-1); 0]; [2; (-1); 1]; [2; 1; (-1)]; [2; 1; 0]; [2; 1; 1]; [1; 0; 0]; [1; 0; 
   (-2)]; [1; 0; (-1)]; [1; 0; 0]; [1; 0; 1]; [1; 0; 2]; [1; (-2); (-1)]; [1; (-2); 0]; [1; (-2); 1]; [1; 0; (-1)]; 
   [1; 0; 0]; [1; 0; 1]; [1; 2; (-1)]; [1; 2; 0]; [1; 2; 1]; [0; (-1); (-1)]; [0; (-1); 0]; [0; (-1); 1]; [0; 1; 
   (-1)]; [0; 1; 0]; [0; 1; 1]; [0; (-1); (-2)]; [0; (-1); (-1)]; [0; (-1); 0]; [0; (-1); 1]; [0; (-1); 2]; [0; 1; 
   (-2)]; [0; 1; (-1)]; [0; 1; 0]; [0; 1; 1]; [0; 1; 2]; [0; (-3); 0]; [0; (-1); 0]; [0; 1; 0]; [0; 3; 0]; [(-1); 0; 
   0]; [(-1); 0; (-2)]; [(-1); 0; (-1)]; [(-1); 0; 0]; [(-1); 0; 1]; [(-1); 0; 2]; [(-1); (-2); (-1)]; [(-1); (-2); 
   0]; [(-1); (-2); 1]; [(-1); 0; (-1)]; [(-1); 0; 0]; [(-1); 0; 1]; [(-1); 2; (-1)]; [(-1); 2; 0]; [(-1); 2; 1]; 
   [(-2); (-1); (-1)]; [(-2); (-1); 0]; [(-2); (-1); 1]; [(-2); 1; (-1)]; [(-2); 1; 0]; [(-2); 1; 1]; [(-3); 0; 0]].
(** /repo/c++/symmetry/coefnew/qst/qst-QN.dat *)
Definition qst_QN : list invar := [
  [(-3); 1; 0]; [(-2); 2; 1]; [(-2); 2; 1]; [(-2); 2; 1]; [(-2); 2; 1]; [(-2); 2; 1]; [(-2); 2; 1]; [(-1); 1; 0]; 
   [(-1); 1; 2]; [(-1); 1; 2]; [(-1); 1; 2]; [(-1); 1; 2]; [(-1); 1; 2]; [(-1); 3; 1]; [(-1); 3; 1]; [(-1); 3; 1]; 
   [(-1); 3; 1]; [(-1); 3; 1]; [(-1); 3; 1]; [(-1); 3; 1]; [(-1); 3; 1]; [(-1); 3; 1]; [0; 2; 1]; [0; 2; 1]; [0; 2; 
   1]; [0; 2; 1]; [0; 2; 1]; [0; 2; 1]; [0; 2; 2]; [0; 2; 2]; [0; 2; 2]; [0; 2; 2]; [0; 2; 2]; [0; 2; 2]; [0; 2; 2]; 
   [0; 2; 2]; [0; 2; 2]; [0; 2; 2]; [0; 4; 0]; [0; 4; 0]; [0; 4; 0]; [0; 4; 0]; [1; 1; 0]; [1; 1; 2]; [1; 1; 2]; [1; 
   1; 2]; [1; 1; 2]; [1; 1; 2]; [1; 3; 1]; [1; 3; 1]; [1; 3; 1]; [1; 3; 1]; [1; 3; 1]; [1; 3; 1]; [1; 3; 1]; [1; 3; 
   1]; [1; 3; 1]; [2; 2; 1]; [2; 2; 1]; [2; 2; 1]; [2; 2; 1]; [2; 2; 1]; [2; 2; 1]; [3; 1; 0]].
(** /repo/c++/symmetry/coefnew/qstz/qstz-In2.dat *)
Definition qstz_In : list invar := [
  [3; 0; 0]; [2; (-1); 1]; [2; 1; 1]; [2; (-1); 0]; [2; 1; 0]; [2; (-1); (-1)]; [2; 1; (-1)]; [1; 0; 2]; [1; 0; 1]; 
   [1; 0; 0]; [1; 0; 0]; [1; 0; (-1)]; [1; 0; (-2)]; [1; (-2); 1]; [1; 0; 1]; [1; 2; 1]; [1; (-2); 0]; [1; 0; 0]; 
   [1; 2; 0]; [1; (-2); (-1)]; [1; 0; (-1)]; [1; 2; (-1)]; [0; (-1); 2]; [0; 1; 2]; [0; (-1); 1]; [0; 1; 1]; [0; 
   (-1); 1]; [0; 1; 1]; [0; (-1); 0]; [0; 1; 0]; [0; (-1); 0]; [0; 1; 0]; [0; (-1); (-1)]; [0; 1; (-1)]; [0; (-1); 
   (-1)]; [0; 1; (-1)]; [0; (-1); (-2)]; [0; 1; (-2)]; [0; (-3); 0]; [0; (-1); 0]; [0; 1; 0]; [0; 3; 0]; [(-1); 0; 
   2]; [(-1); 0; 1]; [(-1); 0; 0]; [(-1); 0; 0]; [(-1); 0; (-1)]; [(-1); 0; (-2)]; [(-1); (-2); 1]; [(-1); 0; 1]; 
   [(-1); 2; 1]; [(-1); (-2); 0]; [(-1); 0; 0]; [(-1); 2; 0]; [(-1); (-2); (-1)]; [(-1); 0; (-1)]; [(-1); 2; (-1)]; 
   [(-2); (-1); 1]; [(-2); 1; 1]; [(-2); (-1); 0]; [(-2); 1; 0]; [(-2); (-1); (-1)]; [(-2); 1; (-1)]; [(-3); 0; 0]].
(** /repo/c++/symmetry/coefnew/qstz/qstz-QN.dat *)
Definition qstz_QN : list invar := [
  [(-3); 1; 0]; [(-2); 2; (-1)]; [(-2); 2; (-1)]; [(-2); 2; 0]; [(-2); 2; 0]; [(-2); 2; 1]; [(-2); 2; 1]; [(-1); 1; 
   (-2)]; [(-1); 1; (-1)]; [(-1); 1; 0]; [(-1); 1; 0]; [(-1); 1; 1]; [(-1); 1; 2]; [(-1); 3; (-1)]; [(-1); 3; (-1)]; 
   [(-1); 3; (-1)]; [(-1); 3; 0]; [(-1); 3; 0]; [(-1); 3; 0]; [(-1); 3; 1]; [(-1); 3; 1]; [(-1); 3; 1]; [0; 2; 
   (-2)]; [0; 2; (-2)]; [0; 2; (-1)]; [0; 2; (-1)]; [0; 2; (-1)]; [0; 2; (-1)]; [0; 2; 0]; [0; 2; 0]; [0; 2; 0]; [0; 
   2; 0]; [0; 2; 1]; [0; 2; 1]; [0; 2; 1]; [0; 2; 1]; [0; 2; 2]; [0; 2; 2]; [0; 4; 0]; [0; 4; 0]; [0; 4; 0]; [0; 4; 
   0]; [1; 1; (-2)]; [1; 1; (-1)]; [1; 1; 0]; [1; 1; 0]; [1; 1; 1]; [1; 1; 2]; [1; 3; (-1)]; [1; 3; (-1)]; [1; 3; 
   (-1)]; [1; 3; 0]; [1; 3; 0]; [1; 3; 0]; [1; 3; 1]; [1; 3; 1]; [1; 3; 1]; [2; 2; (-1)]; [2; 2; (-1)]; [2; 2; 0]; 
   [2; 2; 0]; [2; 2; 1]; [2; 2; 1]; [3; 1; 0]].
(** /repo/c++/symmetry/coefnew/qsz/qsz-1ch-In2.dat *)
Definition qsz_1ch_In : list invar := [
  [1; 0]; [0; 1]; [0; (-1)]; [(-1); 0]].
(** /repo/c++/symmetry/coefnew/qsz/qsz-1ch-QN.dat *)
Definition qsz_1ch_QN : list invar := [
  [(-1); 0]; [0; (-1)]; [0; 1]; [1; 0]].
(** /repo/c++/symmetry/coefnew/qsz/qsz-2ch-In2.dat *)
Definition qsz_2ch_In : list invar := [
  [2; 0]; [1; 1]; [1; 1]; [1; (-1)]; [1; (-1)]; [0; 2]; [0; 0]; [0; 0]; [0; 0]; [0; 0]; [0; (-2)]; [(-1); 1]; [(-1); 
   1]; [(-1); (-1)]; [(-1); (-1)]; [(-2); 0]].
(** /repo/c++/symmetry/coefnew/qsz/qsz-2ch-QN.dat *)
Definition qsz_2ch_QN : list invar := [
  [(-2); 0]; [(-1); (-1)]; [(-1); (-1)]; [(-1); 1]; [(-1); 1]; [0; (-2)]; [0; 0]; [0; 0]; [0; 0]; [0; 0]; [0; 2]; 
   [1; (-1)]; [1; (-1)]; [1; 1]; [1; 1]; [2; 0]].
(** /repo/c++/symmetry/coefnew/qsz/qsz-3ch-In2.dat *)
Definition qsz_3ch_In : list invar := [
  [3; 0]; [2; 1]; [2; 1]; [2; 1]; [2; (-1)]; [2; (-1)]; [2; (-1)]; [1; 2]; [1; 2]; [1; 2]; [1; 0]; [1; 0]; [1; 0]; 
   [1; 0]; [1; 0]; [1; 0]; [1; 0]; [1; 0]; [1; 0]; [1; (-2)]; [1; (-2)]; [1; (-2)]; [0; 3]; [0; 1]; [0; 1]; [0; 1]; 
   [0; 1]; [0; 1]; [0; 1]; [0; 1]; [0; 1]; [0; 1]; [0; (-1)]; [0; (-1)]; [0; (-1)]; [0; (-1)]; [0; (-1)]; [0; (-1)]; 
   [0; (-1)]; [0; (-1)]; [0; (-1)]; [0; (-3)]; [(-1); 2]; [(-1); 2]; [(-1); 2]; [(-1); 0]; [(-1); 0]; [(-1); 0]; 
   [(-1); 0]; [(-1); 0]; [(-1); 0]; [(-1); 0]; [(-1); 0]; [(-1); 0]; [(-1); (-2)]; [(-1); (-2)]; [(-1); (-2)]; 
   [(-2); 1]; [(-2); 1]; [(-2); 1]; [(-2); (-1)]; [(-2); (-1)]; [(-2); (-1)]; [(-3); 0]].
(** /repo/c++/symmetry/coefnew/qsz/qsz-3ch-QN.dat *)
Definition qsz_3ch_QN : list invar := [
  [(-3); 0]; [(-2); (-1)]; [(-2); (-1)]; [(-2); (-1)]; [(-2); 1]; [(-2); 1]; [(-2); 1]; [(-1); (-2)]; [(-1); (-2)]; 
   [(-1); (-2)]; [(-1); 0]; [(-1); 0]; [(-1); 0]; [(-1); 0]; [(-1); 0]; [(-1); 0]; [(-1); 0]; [(-1); 0]; [(-1); 0]; 
   [(-1); 2]; [(-1); 2]; [(-1); 2]; [0; (-3)]; [0; (-1)]; [0; (-1)]; [0; (-1)]; [0; (-1)]; [0; (-1)]; [0; (-1)]; [0; 
   (-1)]; [0; (-1)]; [0; (-1)]; [0; 1]; [0; 1]; [0; 1]; [0; 1]; [0; 1]; [0; 1]; [0; 1]; [0; 1]; [0; 1]; [0; 3]; [1; 
   (-2)]; [1; (-2)]; [1; (-2)]; [1; 0]; [1; 0]; [1; 0]; [1; 0]; [1; 0]; [1; 0]; [1; 0]; [1; 0]; [1; 0]; [1; 2]; [1; 
   2]; [1; 2]; [2; (-1)]; [2; (-1)]; [2; (-1)]; [2; 1]; [2; 1]; [2; 1]; [3; 0]].
(** /repo/c++/symmetry/coefnew/qszlr/qszlr-2ch-In2.dat *)
Definition qszlr_2ch_In : list invar := [
  [2; 0; 1]; [1; 1; (-1)]; [1; 1; 1]; [1; (-1); (-1)]; [1; (-1); 1]; [0; 2; (-1)]; [0; 0; (-1)]; [0; 0; (-1)]; [0; 
   0; 1]; [0; 0; 1]; [0; (-2); (-1)]; [(-1); 1; (-1)]; [(-1); 1; 1]; [(-1); (-1); (-1)]; [(-1); (-1); 1]; [(-2); 0; 
   1]].
(** /repo/c++/symmetry/coefnew/qszlr/qszlr-2ch-QN.dat *)
Definition qszlr_2ch_QN : list invar := [
  [(-2); 0; 1]; [(-1); (-1); (-1)]; [(-1); (-1); 1]; [(-1); 1; (-1)]; [(-1); 1; 1]; [0; (-2); (-1)]; [0; 0; (-1)]; 
   [0; 0; (-1)]; [0; 0; 1]; [0; 0; 1]; [0; 2; (-1)]; [1; (-1); (-1)]; [1; (-1); 1]; [1; 1; (-1)]; [1; 1; 1]; [2; 0; 
   1]].
(** /repo/c++/symmetry/coefnew/qsztz/qsztz-In2.dat *)
Definition qsztz_In : list invar := [
  [3; 0; 0]; [2; 1; 1]; [2; 1; 0]; [2; 1; (-1)]; [2; (-1); 1]; [2; (-1); 0]; [2; (-1); (-1)]; [1; 2; 1]; [1; 2; 0]; 
   [1; 2; (-1)]; [1; 0; 2]; [1; 0; 1]; [1; 0; 1]; [1; 0; 0]; [1; 0; 0]; [1; 0; 0]; [1; 0; (-1)]; [1; 0; (-1)]; [1; 
   0; (-2)]; [1; (-2); 1]; [1; (-2); 0]; [1; (-2); (-1)]; [0; 3; 0]; [0; 1; 2]; [0; 1; 1]; [0; 1; 1]; [0; 1; 0]; [0; 
   1; 0]; [0; 1; 0]; [0; 1; (-1)]; [0; 1; (-1)]; [0; 1; (-2)]; [0; (-1); 2]; [0; (-1); 1]; [0; (-1); 1]; [0; (-1); 
   0]; [0; (-1); 0]; [0; (-1); 0]; [0; (-1); (-1)]; [0; (-1); (-1)]; [0; (-1); (-2)]; [0; (-3); 0]; [(-1); 2; 1]; 
   [(-1); 2; 0]; [(-1); 2; (-1)]; [(-1); 0; 2]; [(-1); 0; 1]; [(-1); 0; 1]; [(-1); 0; 0]; [(-1); 0; 0]; [(-1); 0; 
   0]; [(-1); 0; (-1)]; [(-1); 0; (-1)]; [(-1); 0; (-2)]; [(-1); (-2); 1]; [(-1); (-2); 0]; [(-1); (-2); (-1)]; 
   [(-2); 1; 1]; [(-2); 1; 0]; [(-2); 1; (-1)]; [(-2); (-1); 1]; [(-2); (-1); 0]; [(-2); (-1); (-1)]; [(-3); 0; 0]].
(** /repo/c++/symmetry/coefnew/qsztz/qsztz-QN.dat *)
Definition qsztz_QN : list invar := [
  [(-3); 0; 0]; [(-2); (-1); (-1)]; [(-2); (-1); 0]; [(-2); (-1); 1]; [(-2); 1; (-1)]; [(-2); 1; 0]; [(-2); 1; 1]; 
   [(-1); (-2); (-1)]; [(-1); (-2); 0]; [(-1); (-2); 1]; [(-1); 0; (-2)]; [(-1); 0; (-1)]; [(-1); 0; (-1)]; [(-1); 
   0; 0]; [(-1); 0; 0]; [(-1); 0; 0]; [(-1); 0; 1]; [(-1); 0; 1]; [(-1); 0; 2]; [(-1); 2; (-1)]; [(-1); 2; 0]; 
   [(-1); 2; 1]; [0; (-3); 0]; [0; (-1); (-2)]; [0; (-1); (-1)]; [0; (-1); (-1)]; [0; (-1); 0]; [0; (-1); 0]; [0; 
   (-1); 0]; [0; (-1); 1]; [0; (-1); 1]; [0; (-1); 2]; [0; 1; (-2)]; [0; 1; (-1)]; [0; 1; (-1)]; [0; 1; 0]; [0; 1; 
   0]; [0; 1; 0]; [0; 1; 1]; [0; 1; 1]; [0; 1; 2]; [0; 3; 0]; [1; (-2); (-1)]; [1; (-2); 0]; [1; (-2); 1]; [1; 0; 
   (-2)]; [1; 0; (-1)]; [1; 0; (-1)]; [1; 0; 0]; [1; 0; 0]; [1; 0; 0]; [1; 0; 1]; [1; 0; 1]; [1; 0; 2]; [1; 2; 
   (-1)]; [1; 2; 0]; [1; 2; 1]; [2; (-1); (-1)]; [2; (-1); 0]; [2; (-1); 1]; [2; 1; (-1)]; [2; 1; 0]; [2; 1; 1]; [3; 
   0; 0]].
(** /repo/c++/symmetry/coefnew/sl/sl-1ch-In2.dat *)
Definition sl_1ch_In : list invar := [
  [1]; [0]].
(** /repo/c++/symmetry/coefnew/sl/sl-1ch-QN.dat *)
Definition sl_1ch_QN : list invar := [
  [(-1)]; [0]].
(** /repo/c++/symmetry/coefnew/sl/sl-2ch-In2.dat *)
Definition sl_2ch_In : list invar := [
  [2]; [1]; [1]; [0]].
(** /repo/c++/symmetry/coefnew/sl/sl-2ch-QN.dat *)
Definition sl_2ch_QN : list invar := [
  [(-2)]; [(-1)]; [(-1)]; [0]].
(** /repo/c++/symmetry/coefnew/sl/sl-3ch-In2.dat *)
Definition sl_3ch_In : list invar := [
  [3]; [2]; [2]; [2]; [1]; [1]; [1]; [0]].
(** /repo/c++/symmetry/coefnew/sl/sl-3ch-QN.dat *)
Definition sl_3ch_QN : list invar := [
  [(-3)]; [(-2)]; [(-2)]; [(-2)]; [(-1)]; [(-1)]; [(-1)]; [0]].
(** /repo/c++/symmetry/coefnew/sl3/sl3-3ch-In2.dat *)
Definition sl3_3ch_In : list invar := [
  [1; 1; 1]; [1; 1; 0]; [1; 0; 1]; [1; 0; 0]; [0; 1; 1]; [0; 1; 0]; [0; 0; 1]; [0; 0; 0]].
(** /repo/c++/symmetry/coefnew/sl3/sl3-3ch-QN.dat *)
Definition sl3_3ch_QN : list invar := [
  [(-1); (-1); (-1)]; [(-1); (-1); 0]; [(-1); 0; (-1)]; [(-1); 0; 0]; [0; (-1); (-1)]; [0; (-1); 0]; [0; 0; (-1)]; 
   [0; 0; 0]].
(** /repo/c++/symmetry/coefnew/spsu2/spsu2-1ch-In2.dat *)
Definition spsu2_1ch_In : list invar := [
  [0]; [0]; [(-1)]; [1]].
(** /repo/c++/symmetry/coefnew/spsu2/spsu2-1ch-QN.dat *)
Definition spsu2_1ch_QN : list invar := [
  [1]; [1]; [2]; [2]].
(** /repo/c++/symmetry/coefnew/spsu2/spsu2-2ch-In2.dat *)
Definition spsu2_2ch_In : list invar := [
  [0]; [0]; [0]; [0]; [0]; [(-1)]; [1]; [(-1)]; [1]; [(-1)]; [1]; [(-1)]; [1]; [(-2)]; [0]; [2]].
(** /repo/c++/symmetry/coefnew/spsu2/spsu2-2ch-QN.dat *)
Definition spsu2_2ch_QN : list invar := [
  [1]; [1]; [1]; [1]; [1]; [2]; [2]; [2]; [2]; [2]; [2]; [2]; [2]; [3]; [3]; [3]].
(** /repo/c++/symmetry/coefnew/spsu2/spsu2-3ch-In2.dat *)
Definition spsu2_3ch_In : list invar := [
  [0]; [0]; [0]; [0]; [0]; [0]; [0]; [0]; [0]; [0]; [0]; [0]; [0]; [0]; [(-1)]; [1]; [(-1)]; [1]; [(-1)]; [1]; 
   [(-1)]; [1]; [(-1)]; [1]; [(-1)]; [1]; [(-1)]; [1]; [(-1)]; [1]; [(-1)]; [1]; [(-1)]; [1]; [(-1)]; [1]; [(-1)]; 
   [1]; [(-1)]; [1]; [(-1)]; [1]; [(-2)]; [0]; [2]; [(-2)]; [0]; [2]; [(-2)]; [0]; [2]; [(-2)]; [0]; [2]; [(-2)]; 
   [0]; [2]; [(-2)]; [0]; [2]; [(-3)]; [(-1)]; [1]; [3]].
(** /repo/c++/symmetry/coefnew/spsu2/spsu2-3ch-QN.dat *)
Definition spsu2_3ch_QN : list invar := [
  [1]; [1]; [1]; [1]; [1]; [1]; [1]; [1]; [1]; [1]; [1]; [1]; [1]; [1]; [2]; [2]; [2]; [2]; [2]; [2]; [2]; [2]; [2]; 
   [2]; [2]; [2]; [2]; [2]; [2]; [2]; [2]; [2]; [2]; [2]; [2]; [2]; [2]; [2]; [2]; [2]; [2]; [2]; [3]; [3]; [3]; 
   [3]; [3]; [3]; [3]; [3]; [3]; [3]; [3]; [3]; [3]; [3]; [3]; [3]; [3]; [3]; [4]; [4]; [4]; [4]].
(** /repo/c++/symmetry/coefnew/spsu2c3/spsu2c3-In2.dat *)
Definition spsu2c3_In : list invar := [
  [0; 0]; [0; 0]; [0; 0]; [0; 0]; [0; 0]; [0; 0]; [0; 2]; [0; 2]; [0; 2]; [0; 2]; [0; 1]; [0; 1]; [0; 1]; [0; 1]; 
   [(-1); 0]; [1; 0]; [(-1); 0]; [1; 0]; [(-1); 0]; [1; 0]; [(-1); 0]; [1; 0]; [(-1); 2]; [1; 2]; [(-1); 2]; [1; 2]; 
   [(-1); 2]; [1; 2]; [(-1); 2]; [1; 2]; [(-1); 2]; [1; 2]; [(-1); 1]; [1; 1]; [(-1); 1]; [1; 1]; [(-1); 1]; [1; 1]; 
   [(-1); 1]; [1; 1]; [(-1); 1]; [1; 1]; [(-2); 0]; [0; 0]; [2; 0]; [(-2); 0]; [0; 0]; [2; 0]; [(-2); 2]; [0; 2]; 
   [2; 2]; [(-2); 2]; [0; 2]; [2; 2]; [(-2); 1]; [0; 1]; [2; 1]; [(-2); 1]; [0; 1]; [2; 1]; [(-3); 0]; [(-1); 0]; 
   [1; 0]; [3; 0]].
(** /repo/c++/symmetry/coefnew/spsu2c3/spsu2c3-QN.dat *)
Definition spsu2c3_QN : list invar := [
  [1; 0]; [1; 0]; [1; 0]; [1; 0]; [1; 0]; [1; 0]; [1; 1]; [1; 1]; [1; 1]; [1; 1]; [1; 2]; [1; 2]; [1; 2]; [1; 2]; 
   [2; 0]; [2; 0]; [2; 0]; [2; 0]; [2; 0]; [2; 0]; [2; 0]; [2; 0]; [2; 1]; [2; 1]; [2; 1]; [2; 1]; [2; 1]; [2; 1]; 
   [2; 1]; [2; 1]; [2; 1]; [2; 1]; [2; 2]; [2; 2]; [2; 2]; [2; 2]; [2; 2]; [2; 2]; [2; 2]; [2; 2]; [2; 2]; [2; 2]; 
   [3; 0]; [3; 0]; [3; 0]; [3; 0]; [3; 0]; [3; 0]; [3; 1]; [3; 1]; [3; 1]; [3; 1]; [3; 1]; [3; 1]; [3; 2]; [3; 2]; 
   [3; 2]; [3; 2]; [3; 2]; [3; 2]; [4; 0]; [4; 0]; [4; 0]; [4; 0]].
(** /repo/c++/symmetry/coefnew/spsu2lr/spsu2lr-2ch-In2.dat *)
Definition spsu2lr_2ch_In : list invar := [
  [0; (-1)]; [0; 1]; [0; 1]; [0; 1]; [0; 1]; [(-1); (-1)]; [1; (-1)]; [(-1); (-1)]; [1; (-1)]; [(-1); 1]; [1; 1]; 
   [(-1); 1]; [1; 1]; [(-2); (-1)]; [0; (-1)]; [2; (-1)]].
(** /repo/c++/symmetry/coefnew/spsu2lr/spsu2lr-2ch-QN.dat *)
Definition spsu2lr_2ch_QN : list invar := [
  [1; (-1)]; [1; 1]; [1; 1]; [1; 1]; [1; 1]; [2; (-1)]; [2; (-1)]; [2; (-1)]; [2; (-1)]; [2; 1]; [2; 1]; [2; 1]; [2; 
   1]; [3; (-1)]; [3; (-1)]; [3; (-1)]].
(** /repo/c++/symmetry/coefnew/spsu2t/spsu2t-In2.dat *)
Definition spsu2t_In : list invar := [
  [0; 0]; [0; 0]; [0; 0]; [0; 0]; [0; (-2)]; [0; (-1)]; [0; 0]; [0; 1]; [0; 2]; [0; (-2)]; [0; (-1)]; [0; 0]; [0; 
   1]; [0; 2]; [(-1); (-1)]; [(-1); 0]; [(-1); 1]; [1; (-1)]; [1; 0]; [1; 1]; [(-1); (-1)]; [(-1); 0]; [(-1); 1]; 
   [1; (-1)]; [1; 0]; [1; 1]; [(-1); (-1)]; [(-1); 0]; [(-1); 1]; [1; (-1)]; [1; 0]; [1; 1]; [(-1); (-2)]; [(-1); 
   (-1)]; [(-1); 0]; [(-1); 1]; [(-1); 2]; [1; (-2)]; [1; (-1)]; [1; 0]; [1; 1]; [1; 2]; [(-2); (-1)]; [(-2); 0]; 
   [(-2); 1]; [0; (-1)]; [0; 0]; [0; 1]; [2; (-1)]; [2; 0]; [2; 1]; [(-2); (-1)]; [(-2); 0]; [(-2); 1]; [0; (-1)]; 
   [0; 0]; [0; 1]; [2; (-1)]; [2; 0]; [2; 1]; [(-3); 0]; [(-1); 0]; [1; 0]; [3; 0]].
(** /repo/c++/symmetry/coefnew/spsu2t/spsu2t-QN.dat *)
Definition spsu2t_QN : list invar := [
  [1; 0]; [1; 0]; [1; 0]; [1; 0]; [1; 2]; [1; 2]; [1; 2]; [1; 2]; [1; 2]; [1; 2]; [1; 2]; [1; 2]; [1; 2]; [1; 2]; 
   [2; 1]; [2; 1]; [2; 1]; [2; 1]; [2; 1]; [2; 1]; [2; 1]; [2; 1]; [2; 1]; [2; 1]; [2; 1]; [2; 1]; [2; 1]; [2; 1]; 
   [2; 1]; [2; 1]; [2; 1]; [2; 1]; [2; 2]; [2; 2]; [2; 2]; [2; 2]; [2; 2]; [2; 2]; [2; 2]; [2; 2]; [2; 2]; [2; 2]; 
   [3; 1]; [3; 1]; [3; 1]; [3; 1]; [3; 1]; [3; 1]; [3; 1]; [3; 1]; [3; 1]; [3; 1]; [3; 1]; [3; 1]; [3; 1]; [3; 1]; 
   [3; 1]; [3; 1]; [3; 1]; [3; 1]; [4; 0]; [4; 0]; [4; 0]; [4; 0]].
(** /repo/c++/symmetry/coefnew/spu1/spu1-1ch-In2.dat *)
Definition spu1_1ch_In : list invar := [
  [1]; [0]; [0]; [(-1)]].
(** /repo/c++/symmetry/coefnew/spu1/spu1-1ch-QN.dat *)
Definition spu1_1ch_QN : list invar := [
  [(-1)]; [0]; [0]; [1]].
(** /repo/c++/symmetry/coefnew/spu1/spu1-2ch-In2.dat *)
Definition spu1_2ch_In : list invar := [
  [2]; [1]; [1]; [1]; [1]; [0]; [0]; [0]; [0]; [0]; [0]; [(-1)]; [(-1)]; [(-1)]; [(-1)]; [(-2)]].
(** /repo/c++/symmetry/coefnew/spu1/spu1-2ch-QN.dat *)
Definition spu1_2ch_QN : list invar := [
  [(-2)]; [(-1)]; [(-1)]; [(-1)]; [(-1)]; [0]; [0]; [0]; [0]; [0]; [0]; [1]; [1]; [1]; [1]; [2]].
(** /repo/c++/symmetry/coefnew/spu1lr/spu1lr-1ch-In2.dat *)
Definition spu1lr_1ch_In : list invar := [
  [1; 1]; [0; 1]; [0; 1]; [(-1); 1]].
(** /repo/c++/symmetry/coefnew/spu1lr/spu1lr-1ch-QN.dat *)
Definition spu1lr_1ch_QN : list invar := [
  [(-1); 1]; [0; 1]; [0; 1]; [1; 1]].
(** /repo/c++/symmetry/coefnew/spu1lr/spu1lr-2ch-In2.dat *)
Definition spu1lr_2ch_In : list invar := [
  [2; (-1)]; [1; (-1)]; [1; (-1)]; [1; 1]; [1; 1]; [0; (-1)]; [0; (-1)]; [0; 1]; [0; 1]; [0; 1]; [0; 1]; [(-1); 
   (-1)]; [(-1); (-1)]; [(-1); 1]; [(-1); 1]; [(-2); (-1)]].
(** /repo/c++/symmetry/coefnew/spu1lr/spu1lr-2ch-QN.dat *)
Definition spu1lr_2ch_QN : list invar := [
  [(-2); (-1)]; [(-1); (-1)]; [(-1); (-1)]; [(-1); 1]; [(-1); 1]; [0; (-1)]; [0; (-1)]; [0; 1]; [0; 1]; [0; 1]; [0; 
   1]; [1; (-1)]; [1; (-1)]; [1; 1]; [1; 1]; [2; (-1)]].
(** /repo/c++/symmetry/coefnew/su2/su2-1ch-In2.dat *)
Definition su2_1ch_In : list invar := [
  [(-1)]; [1]; [0]; [0]].
(** /repo/c++/symmetry/coefnew/su2/su2-1ch-QN.dat *)
Definition su2_1ch_QN : list invar := [
  [2]; [2]; [1]; [1]].
(** /repo/c++/symmetry/coefnew/su2/su2-2ch-In2.dat *)
Definition su2_2ch_In : list invar := [
  [(-2)]; [0]; [2]; [(-1)]; [1]; [(-1)]; [1]; [(-1)]; [1]; [(-1)]; [1]; [0]; [0]; [0]; [0]; [0]].
(** /repo/c++/symmetry/coefnew/su2/su2-2ch-QN.dat *)
Definition su2_2ch_QN : list invar := [
  [3]; [3]; [3]; [2]; [2]; [2]; [2]; [2]; [2]; [2]; [2]; [1]; [1]; [1]; [1]; [1]].
(** /repo/c++/symmetry/coefnew/u1/u1-1ch-In2.dat *)
Definition u1_1ch_In : list invar := [
  [1]; [0]; [0]; [(-1)]].
(** /repo/c++/symmetry/coefnew/u1/u1-1ch-QN.dat *)
Definition u1_1ch_QN : list invar := [
  [(-1)]; [0]; [0]; [1]].
(** /repo/c++/symmetry/coefnew/u1/u1-2ch-In2.dat *)
Definition u1_2ch_In : list invar := [
  [2]; [1]; [1]; [1]; [1]; [0]; [0]; [0]; [0]; [0]; [0]; [(-1)]; [(-1)]; [(-1)]; [(-1)]; [(-2)]].
(** /repo/c++/symmetry/coefnew/u1/u1-2ch-QN.dat *)
Definition u1_2ch_QN : list invar := [
  [(-2)]; [(-1)]; [(-1)]; [(-1)]; [(-1)]; [0]; [0]; [0]; [0]; [0]; [0]; [1]; [1]; [1]; [1]; [2]].
(** /repo/c++/symmetry/coefnew/u1/u1-3ch-In2.dat *)
Definition u1_3ch_In : list invar := [
  [3]; [2]; [2]; [2]; [2]; [2]; [2]; [1]; [1]; [1]; [1]; [1]; [1]; [1]; [1]; [1]; [1]; [1]; [1]; [1]; [1]; [1]; [0]; 
   [0]; [0]; [0]; [0]; [0]; [0]; [0]; [0]; [0]; [0]; [0]; [0]; [0]; [0]; [0]; [0]; [0]; [0]; [0]; [(-1)]; [(-1)]; 
   [(-1)]; [(-1)]; [(-1)]; [(-1)]; [(-1)]; [(-1)]; [(-1)]; [(-1)]; [(-1)]; [(-1)]; [(-1)]; [(-1)]; [(-1)]; [(-2)]; 
   [(-2)]; [(-2)]; [(-2)]; [(-2)]; [(-2)]; [(-3)]].
(** /repo/c++/symmetry/coefnew/u1/u1-3ch-QN.dat *)
Definition u1_3ch_QN : list invar := [
  [(-3)]; [(-2)]; [(-2)]; [(-2)]; [(-2)]; [(-2)]; [(-2)]; [(-1)]; [(-1)]; [(-1)]; [(-1)]; [(-1)]; [(-1)]; [(-1)]; 
   [(-1)]; [(-1)]; [(-1)]; [(-1)]; [(-1)]; [(-1)]; [(-1)]; [(-1)]; [0]; [0]; [0]; [0]; [0]; [0]; [0]; [0]; [0]; [0]; 
   [0]; [0]; [0]; [0]; [0]; [0]; [0]; [0]; [0]; [0]; [1]; [1]; [1]; [1]; [1]; [1]; [1]; [1]; [1]; [1]; [1]; [1]; 
   [1]; [1]; [1]; [2]; [2]; [2]; [2]; [2]; [2]; [3]].

(** All 51 (symmetry type, number of channels) combinations the [load()] functions provide. *)
Definition shipped : list shipped_table := [
  mk_shipped "DBLISOSZ" 2%nat sym_DBLISOSZ {| tb_In := dblisosz_2ch_In; tb_QN := dblisosz_2ch_QN |};
  mk_shipped "DBLQSZ" 2%nat sym_DBLQSZ {| tb_In := dblqsz_2ch_In; tb_QN := dblqsz_2ch_QN |};
  mk_shipped "DBLSU2" 2%nat sym_DBLSU2 {| tb_In := dblsu2_2ch_In; tb_QN := dblsu2_2ch_QN |};
  mk_shipped "ISO" 1%nat sym_ISO {| tb_In := iso_1ch_In; tb_QN := iso_1ch_QN |};
  mk_shipped "ISO" 2%nat sym_ISO {| tb_In := iso_2ch_In; tb_QN := iso_2ch_QN |};
  mk_shipped "ISO" 3%nat sym_ISO {| tb_In := iso_3ch_In; tb_QN := iso_3ch_QN |};
  mk_shipped "ISO2" 1%nat sym_ISO2 {| tb_In := iso2_1ch_In; tb_QN := iso2_1ch_QN |};
  mk_shipped "ISO2" 2%nat sym_ISO2 {| tb_In := iso2_2ch_In; tb_QN := iso2_2ch_QN |};
  mk_shipped "ISOLR" 2%nat sym_ISOLR {| tb_In := isolr_2ch_In; tb_QN := isolr_2ch_QN |};
  mk_shipped "ISO2LR" 2%nat sym_ISO2LR {| tb_In := iso2lr_2ch_In; tb_QN := iso2lr_2ch_QN |};
  mk_shipped "ISOSZ" 1%nat sym_ISOSZ {| tb_In := isosz_1ch_In; tb_QN := isosz_1ch_QN |};
  mk_shipped "ISOSZ" 2%nat sym_ISOSZ {| tb_In := isosz_2ch_In; tb_QN := isosz_2ch_QN |};
  mk_shipped "ISOSZLR" 2%nat sym_ISOSZLR {| tb_In := isoszlr_2ch_In; tb_QN := isoszlr_2ch_QN |};
  mk_shipped "NONE" 1%nat sym_NONE {| tb_In := none_1ch_In; tb_QN := none_1ch_QN |};
  mk_shipped "NONE" 2%nat sym_NONE {| tb_In := none_2ch_In; tb_QN := none_2ch_QN |};
  mk_shipped "P" 1%nat sym_P {| tb_In := p_1ch_In; tb_QN := p_1ch_QN |};
  mk_shipped "P" 2%nat sym_P {| tb_In := p_2ch_In; tb_QN := p_2ch_QN |};
  mk_shipped "PP" 2%nat sym_PP {| tb_In := pp_2ch_In; tb_QN := pp_2ch_QN |};
  mk_shipped "QJ" 3%nat sym_QJ {| tb_In := qj_In; tb_QN := qj_QN |};
  mk_shipped "QS" 1%nat sym_QS {| tb_In := qs_1ch_In; tb_QN := qs_1ch_QN |};
  mk_shipped "QS" 2%nat sym_QS {| tb_In := qs_2ch_In; tb_QN := qs_2ch_QN |};
  mk_shipped "QS" 3%nat sym_QS {| tb_In := qs_3ch_In; tb_QN := qs_3ch_QN |};
  mk_shipped "QS" 4%nat sym_QS {| tb_In := qs_4ch_In; tb_QN := qs_4ch_QN |};
  mk_shipped "QSC3" 3%nat sym_QSC3 {| tb_In := qsc3_In; tb_QN := qsc3_QN |};
  mk_shipped "QSLR" 2%nat sym_QSLR {| tb_In := qslr_2ch_In; tb_QN := qslr_2ch_QN |};
  mk_shipped "QST" 3%nat sym_QST {| tb_In := qst_In; tb_QN := qst_QN |};
  mk_shipped "QSTZ" 3%nat sym_QSTZ {| tb_In := qstz_In; tb_QN := qstz_QN |};
  mk_shipped "QSZ" 1%nat sym_QSZ {| tb_In := qsz_1ch_In; tb_QN := qsz_1ch_QN |};
  mk_shipped "QSZ" 2%nat sym_QSZ {| tb_In := qsz_2ch_In; tb_QN := qsz_2ch_QN |};
  mk_shipped "QSZ" 3%nat sym_QSZ {| tb_In := qsz_3ch_In; tb_QN := qsz_3ch_QN |};
  mk_shipped "QSZLR" 2%nat sym_QSZLR {| tb_In := qszlr_2ch_In; tb_QN := qszlr_2ch_QN |};
  mk_shipped "QSZTZ" 3%nat sym_QSZTZ {| tb_In := qsztz_In; tb_QN := qsztz_QN |};
  mk_shipped "SL" 1%nat sym_SL {| tb_In := sl_1ch_In; tb_QN := sl_1ch_QN |};
  mk_shipped "SL" 2%nat sym_SL {| tb_In := sl_2ch_In; tb_QN := sl_2ch_QN |};
  mk_shipped "SL" 3%nat sym_SL {| tb_In := sl_3ch_In; tb_QN := sl_3ch_QN |};
  mk_shipped "SL3" 3%nat sym_SL3 {| tb_In := sl3_3ch_In; tb_QN := sl3_3ch_QN |};
  mk_shipped "SPSU2" 1%nat sym_SPSU2 {| tb_In := spsu2_1ch_In; tb_QN := spsu2_1ch_QN |};
  mk_shipped "SPSU2" 2%nat sym_SPSU2 {| tb_In := spsu2_2ch_In; tb_QN := spsu2_2ch_QN |};
  mk_shipped "SPSU2" 3%nat sym_SPSU2 {| tb_In := spsu2_3ch_In; tb_QN := spsu2_3ch_QN |};
  mk_shipped "SPSU2C3" 3%nat sym_SPSU2C3 {| tb_In := spsu2c3_In; tb_QN := spsu2c3_QN |};
  mk_shipped "SPSU2LR" 2%nat sym_SPSU2LR {| tb_In := spsu2lr_2ch_In; tb_QN := spsu2lr_2ch_QN |};
  mk_shipped "SPSU2T" 3%nat sym_SPSU2T {| tb_In := spsu2t_In; tb_QN := spsu2t_QN |};
  mk_shipped "SPU1" 1%nat sym_SPU1 {| tb_In := spu1_1ch_In; tb_QN := spu1_1ch_QN |};
  mk_shipped "SPU1" 2%nat sym_SPU1 {| tb_In := spu1_2ch_In; tb_QN := spu1_2ch_QN |};
  mk_shipped "SPU1LR" 1%nat sym_SPU1LR {| tb_In := spu1lr_1ch_In; tb_QN := spu1lr_1ch_QN |};
  mk_shipped "SPU1LR" 2%nat sym_SPU1LR {| tb_In := spu1lr_2ch_In; tb_QN := spu1lr_2ch_QN |};
  mk_shipped "SU2" 1%nat sym_SU2 {| tb_In := su2_1ch_In; tb_QN := su2_1ch_QN |};
  mk_shipped "SU2" 2%nat sym_SU2 {| tb_In := su2_2ch_In; tb_QN := su2_2ch_QN |};
  mk_shipped "U1" 1%nat sym_U1 {| tb_In := u1_1ch_In; tb_QN := u1_1ch_QN |};
  mk_shipped "U1" 2%nat sym_U1 {| tb_In := u1_2ch_In; tb_QN := u1_2ch_QN |};
  mk_shipped "U1" 3%nat sym_U1 {| tb_In := u1_3ch_In; tb_QN := u1_3ch_QN |}].
