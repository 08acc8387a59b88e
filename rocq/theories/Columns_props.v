(** Property theorem C41. *)
From Coq Require Import List ZArith Reals String.
From Verif Require Import Base Invar_model Symmetry_model Symmetry_spec Thermo_model Thermo_spec Columns_model Columns_tables Columns_spec Columns_proofs Columns_aux.
Import ListNotations.
Local Open Scope string_scope.
Local Open Scope list_scope.
Local Open Scope R_scope.

(** C41. For every symmetry type, every spectrum and temperature, and whatever the previous row contained, writing a row of "td"
    succeeds, fills every column of the header, and every column holds the thermal average its name announces, taken over all
    physical states of the step (all members of all multiplets). *)
Theorem C41_thermodynamic_columns : forall name sy tc, In (name, sy, tc) shipped_columns -> forall factor diag Teff previous,
  (forall J v, In (J, v) diag -> multiplet sy J) -> (exists J v, In (J, v) diag /\ v <> []) -> List.map fst previous = header tc ->
  exists row, td_row sy factor diag tc Teff previous = Ok row /\ List.map fst row = header tc /\
    forall n o, In (n, o) row -> exists x, o = Some x /\ right_content sy factor diag Teff n x.
Proof. exact td_row_right. Qed.
Print Assumptions C41_thermodynamic_columns.

(** The enumeration of the members of a multiplet used in the specification agrees with the degeneracy. *)
Theorem C41_members_of_multiplets : forall name sy tc J, In (name, sy, tc) shipped_columns -> multiplet sy J ->
  Z.of_nat (List.length (members sy J)) = degeneracy sy J.
Proof. exact member_count. Qed.
Print Assumptions C41_members_of_multiplets.

Example C41_example : In ("QST", sym_QST, td_QST) shipped_columns /\ (forall J v, In (J, v) case_diag -> multiplet sym_QST J) /\
  (exists J v, In (J, v) case_diag /\ v <> []) /\ List.map fst case_previous = header td_QST /\
  header td_QST = ["T"; "<Sz^2>"; "<Tz^2>"; "<Q>"; "<Q^2>"; "<E>"; "<E^2>"; "C"; "F"; "S"] /\
  members sym_QST [1; 2; 1]%Z <> [] /\ degeneracy sym_QST [1; 2; 1]%Z = 6%Z.
Proof. exact case_columns. Qed.
