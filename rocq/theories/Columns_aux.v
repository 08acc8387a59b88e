(** Concrete case for Columns_props.v *)
From Coq Require Import List ZArith Reals Lia Lra String.
From Verif Require Import Base Invar_model Invar_spec Symmetry_model Symmetry_spec Thermo_model Thermo_spec Columns_model Columns_tables Columns_spec.
Import ListNotations.
Local Open Scope string_scope.
Local Open Scope list_scope.
Local Open Scope R_scope.

Definition case_diag : list (invar * list R) := [([0; 1; 0]%Z, [0; 1]); ([1; 2; 1]%Z, [/ 2])].
Definition case_previous : fields := List.map (fun n => (n, None)) (header td_QST).
Lemma case_columns : In ("QST", sym_QST, td_QST) shipped_columns /\ (forall J v, In (J, v) case_diag -> multiplet sym_QST J) /\
  (exists J v, In (J, v) case_diag /\ v <> []) /\ List.map fst case_previous = header td_QST /\
  header td_QST = ["T"; "<Sz^2>"; "<Tz^2>"; "<Q>"; "<Q^2>"; "<E>"; "<E^2>"; "C"; "F"; "S"] /\
  members sym_QST [1; 2; 1]%Z <> [] /\ degeneracy sym_QST [1; 2; 1]%Z = 6%Z.
Proof.
  split; [repeat ((left; reflexivity) || right)|]. split.
  - intros J v [E|[E|[]]]; injection E as <- <-; (split; [repeat constructor|]); intros k n x [E|[E|[]]] Hg; injection E as <- <-; cbn in Hg; injection Hg as <-; cbn; lia.
  - split; [eexists _, _; split; [left; reflexivity|discriminate]|]. split; [reflexivity|]. split; [reflexivity|]. split; [discriminate|reflexivity].
Qed.
