(** Property theorems about the transformation of general tensor operators. *)
From Coq Require Import List ZArith Bool String.
From Verif Require Import Base Invar_model Invar_spec Symmetry_model Symmetry_spec Symmetry_tables Subspaces_model Recalc_model Recalc_spec
  Recalc_proofs Recalc_general Recalc_aux.
Import ListNotations.
Local Open Scope string_scope.
Local Open Scope Z_scope.

(** C38 *)
Theorem C38_tensor_recalc : forall sh, In sh shipped -> forall M C (ops : matops M C) cold diag substruct I1 Ip Iop table e1 ep s1 sp,
  triangle (sh_sym sh) I1 Ip Iop = Ok true ->
  map_at diag I1 = Ok e1 -> map_at diag Ip = Ok ep -> map_at substruct I1 = Ok s1 -> map_at substruct Ip = Ok sp ->
  List.length (eg_blocks e1) = sh_combs sh -> List.length (eg_blocks ep) = sh_combs sh ->
  List.length (sd_dims s1) = sh_combs sh -> List.length (sd_dims sp) = sh_combs sh ->
  (forall r, In r table -> in_range (sh_combs sh) r /\ admissible (ts (sh_sym sh)) (re_IN1 r) /\ admissible (ts (sh_sym sh)) (re_INp r) /\
     mo_finite ops (re_factor r) = true /\
     (is_allowed (sh_sym sh) (re_IN1 r) = true -> is_allowed (sh_sym sh) (re_INp r) = true ->
      names_ancestors (sh_sym sh) (sh_combs sh) (sh_tab sh) I1 Ip r)) ->
  recalc_general M C ops (sh_sym sh) (sh_combs sh) (sh_tab sh) diag substruct cold I1 Ip table Iop =
    Ok (Some (general_value ops (sh_sym sh) cold e1 ep s1 sp table)).
Proof. exact general_ok. Qed.
Print Assumptions C38_tensor_recalc.
Theorem C38_inconsistent_tables_are_caught : forall sh, In sh shipped -> forall M C (ops : matops M C) cold diag substruct I1 Ip Iop table e1 ep m,
  map_at diag I1 = Ok e1 -> map_at diag Ip = Ok ep -> eg_nrstored e1 <> 0 -> eg_nrstored ep <> 0 ->
  (forall r, In r table -> admissible (ts (sh_sym sh)) (re_IN1 r) /\ admissible (ts (sh_sym sh)) (re_INp r)) ->
  recalc_general M C ops (sh_sym sh) (sh_combs sh) (sh_tab sh) diag substruct cold I1 Ip table Iop = Ok (Some m) ->
  forall r, In r table -> in_range (sh_combs sh) r /\
    (is_allowed (sh_sym sh) (re_IN1 r) = true -> is_allowed (sh_sym sh) (re_INp r) = true ->
     names_ancestors (sh_sym sh) (sh_combs sh) (sh_tab sh) I1 Ip r).
Proof. exact general_guarded. Qed.
Print Assumptions C38_inconsistent_tables_are_caught.
Theorem C38_forbidden_block_absent : forall sh M C (ops : matops M C) cold diag substruct I1 Ip Iop table,
  triangle (sh_sym sh) I1 Ip Iop = Ok false ->
  recalc_general M C ops (sh_sym sh) (sh_combs sh) (sh_tab sh) diag substruct cold I1 Ip table Iop = Ok None.
Proof. exact general_forbidden. Qed.
Print Assumptions C38_forbidden_block_absent.
Example C38_case : exists sh I1 Ip Iop s, In sh shipped /\ sh_name sh = "QS" /\ sh_channels sh = 1%nat /\
    triangle (sh_sym sh) I1 Ip Iop = Ok true /\ I1 <> Ip /\
    (forall r, In r case_table -> in_range (sh_combs sh) r /\ names_ancestors (sh_sym sh) (sh_combs sh) (sh_tab sh) I1 Ip r /\
       is_allowed (sh_sym sh) (re_IN1 r) = true /\ is_allowed (sh_sym sh) (re_INp r) = true) /\
    recalc_general Z Z zops (sh_sym sh) (sh_combs sh) (sh_tab sh)
      [(I1, {| eg_nrstored := 2; eg_blocks := [2; 3; 5; 7] |}); (Ip, {| eg_nrstored := 3; eg_blocks := [11; 13; 17; 19] |})]
      [(I1, s); (Ip, s)] [(([1; 2], [-1; 2]), 10); (([0; 1], [0; 1]), 100)] I1 Ip case_table Iop
    = Ok (Some (7 * 2 * 10 * 17 + (-1) * 3 * 100 * 11)).
Proof. exact general_case. Qed.
