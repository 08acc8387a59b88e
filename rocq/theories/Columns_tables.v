(** Generated by gen/gen_columns.py from the constructors and calculate_TD members of /repo/c++/symmetry/sym-*-impl.hpp. Do not edit. *)
From Coq Require Import List ZArith String.
From Verif Require Import Base Invar_model Symmetry_model Columns_model.
Import ListNotations.
Local Open Scope string_scope.

(** sym-DBLISOSZ-impl.hpp:13, 78-96 *)
Definition td_DBLISOSZ : td_columns := {| tc_fields := ["<Sz^2>"; "<Sz>"; "<Q1^2>"; "<Q2^2>"];
  tc_sets := [("<Sz>", CMean (TSz "SSZ"));
              ("<Sz^2>", CMean (TSz2 "SSZ"));
              ("<Q1^2>", CMean4 (TCas "II1"));
              ("<Q2^2>", CMean4 (TCas "II2"))] |}.
(** sym-DBLQSZ-impl.hpp:13, 46-68 *)
Definition td_DBLQSZ : td_columns := {| tc_fields := ["<Sz^2>"; "<Sz>"; "<Q1>"; "<Q1^2>"; "<Q2>"; "<Q2^2>"];
  tc_sets := [("<Sz>", CMean (TSz "SSZ"));
              ("<Sz^2>", CMean (TSz2 "SSZ"));
              ("<Q1>", CMean (TQ "Q1"));
              ("<Q1^2>", CMean (TQ2 "Q1"));
              ("<Q2>", CMean (TQ "Q2"));
              ("<Q2^2>", CMean (TQ2 "Q2"))] |}.
(** sym-DBLSU2-impl.hpp:13, 50-62 *)
Definition td_DBLSU2 : td_columns := {| tc_fields := ["<Q1^2>"; "<Q2^2>"];
  tc_sets := [("<Q1^2>", CMean4 (TCas "II1"));
              ("<Q2^2>", CMean4 (TCas "II2"))] |}.
(** sym-ISO-impl.hpp:11, 51-62 *)
Definition td_ISO : td_columns := {| tc_fields := ["<Sz^2>"; "<Q^2>"];
  tc_sets := [("<Sz^2>", CMean (TCas "SS"));
              ("<Q^2>", CMean4 (TCas "II"))] |}.
(** sym-ISO-impl.hpp:11, 51-62 *)
Definition td_ISO2 : td_columns := {| tc_fields := ["<Sz^2>"; "<Q^2>"];
  tc_sets := [("<Sz^2>", CMean (TCas "SS"));
              ("<Q^2>", CMean4 (TCas "II"))] |}.
(** sym-ISOLR-impl.hpp:10, 44-55 *)
Definition td_ISOLR : td_columns := {| tc_fields := ["<Sz^2>"; "<Q^2>"];
  tc_sets := [("<Sz^2>", CMean (TCas "SS"));
              ("<Q^2>", CMean4 (TCas "II"))] |}.
(** sym-ISOLR-impl.hpp:10, 44-55 *)
Definition td_ISO2LR : td_columns := {| tc_fields := ["<Sz^2>"; "<Q^2>"];
  tc_sets := [("<Sz^2>", CMean (TCas "SS"));
              ("<Q^2>", CMean4 (TCas "II"))] |}.
(** sym-ISOSZ-impl.hpp:12, 55-68 *)
Definition td_ISOSZ : td_columns := {| tc_fields := ["<Sz^2>"; "<Sz>"; "<Q^2>"];
  tc_sets := [("<Sz>", CMean (TSz "SSZ"));
              ("<Sz^2>", CMean (TSz2 "SSZ"));
              ("<Q^2>", CMean4 (TCas "II"))] |}.
(** sym-ISOSZLR-impl.hpp:12, 45-58 *)
Definition td_ISOSZLR : td_columns := {| tc_fields := ["<Sz^2>"; "<Sz>"; "<Q^2>"];
  tc_sets := [("<Sz>", CMean (TSz "SSZ"));
              ("<Sz^2>", CMean (TSz2 "SSZ"));
              ("<Q^2>", CMean4 (TCas "II"))] |}.
(** sym-NONE-impl.hpp:12, 32-32 *)
Definition td_NONE : td_columns := {| tc_fields := [];
  tc_sets := [] |}.
(** sym-P-impl.hpp:13, 36-36 *)
Definition td_P : td_columns := {| tc_fields := [];
  tc_sets := [] |}.
(** sym-PP-impl.hpp:12, 29-29 *)
Definition td_PP : td_columns := {| tc_fields := [];
  tc_sets := [] |}.
(** sym-QJ-impl.hpp:15, 39-52 *)
Definition td_QJ : td_columns := {| tc_fields := ["<Jz^2>"; "<Q>"; "<Q^2>"];
  tc_sets := [("<Jz^2>", CMean (TCas "JJ"));
              ("<Q>", CMean (TQ "Q"));
              ("<Q^2>", CMean (TQ2 "Q"))] |}.
(** sym-QS-impl.hpp:13, 72-85 *)
Definition td_QS : td_columns := {| tc_fields := ["<Sz^2>"; "<Q>"; "<Q^2>"];
  tc_sets := [("<Sz^2>", CMean (TCas "SS"));
              ("<Q>", CMean (TQ "Q"));
              ("<Q^2>", CMean (TQ2 "Q"))] |}.
(** sym-QSC3-impl.hpp:13, 56-69 *)
Definition td_QSC3 : td_columns := {| tc_fields := ["<Sz^2>"; "<Q>"; "<Q^2>"];
  tc_sets := [("<Sz^2>", CMean (TCas "SS"));
              ("<Q>", CMean (TQ "Q"));
              ("<Q^2>", CMean (TQ2 "Q"))] |}.
(** sym-QSLR-impl.hpp:13, 54-67 *)
Definition td_QSLR : td_columns := {| tc_fields := ["<Sz^2>"; "<Q>"; "<Q^2>"];
  tc_sets := [("<Sz^2>", CMean (TCas "SS"));
              ("<Q>", CMean (TQ "Q"));
              ("<Q^2>", CMean (TQ2 "Q"))] |}.
(** sym-QST-impl.hpp:13, 85-101 *)
Definition td_QST : td_columns := {| tc_fields := ["<Sz^2>"; "<Tz^2>"; "<Q>"; "<Q^2>"];
  tc_sets := [("<Sz^2>", CMean (TCas "SS"));
              ("<Tz^2>", CMean (TOrb "T"));
              ("<Q>", CMean (TQ "Q"));
              ("<Q^2>", CMean (TQ2 "Q"))] |}.
(** sym-QSTZ-impl.hpp:13, 57-73 *)
Definition td_QSTZ : td_columns := {| tc_fields := ["<Sz^2>"; "<Tz^2>"; "<Q>"; "<Q^2>"];
  tc_sets := [("<Sz^2>", CMean (TCas "SS"));
              ("<Tz^2>", CMean (TQ2 "TZ"));
              ("<Q>", CMean (TQ "Q"));
              ("<Q^2>", CMean (TQ2 "Q"))] |}.
(** sym-QSZ-impl.hpp:13, 60-75 *)
Definition td_QSZ : td_columns := {| tc_fields := ["<Sz^2>"; "<Sz>"; "<Q>"; "<Q^2>"];
  tc_sets := [("<Sz^2>", CMean (TSz2 "SSZ"));
              ("<Sz>", CMean (TSz "SSZ"));
              ("<Q>", CMean (TQ "Q"));
              ("<Q^2>", CMean (TQ2 "Q"))] |}.
(** sym-QSZLR-impl.hpp:13, 41-56 *)
Definition td_QSZLR : td_columns := {| tc_fields := ["<Sz^2>"; "<Sz>"; "<Q>"; "<Q^2>"];
  tc_sets := [("<Sz^2>", CMean (TSz2 "SSZ"));
              ("<Sz>", CMean (TSz "SSZ"));
              ("<Q>", CMean (TQ "Q"));
              ("<Q^2>", CMean (TQ2 "Q"))] |}.
(** sym-QSZTZ-impl.hpp:12, 31-51 *)
Definition td_QSZTZ : td_columns := {| tc_fields := ["<Sz>"; "<Sz^2>"; "<Tz>"; "<Tz^2>"; "<Q>"; "<Q^2>"];
  tc_sets := [("<Sz>", CMean (TSz "SZ"));
              ("<Sz^2>", CMean (TSz2 "SZ"));
              ("<Tz>", CMean (TQ "TZ"));
              ("<Tz^2>", CMean (TQ2 "TZ"));
              ("<Q>", CMean (TQ "Q"));
              ("<Q^2>", CMean (TQ2 "Q"))] |}.
(** sym-SL-impl.hpp:13, 40-52 *)
Definition td_SL : td_columns := {| tc_fields := ["<Q>"; "<Q^2>"; "<sQ^2>"];
  tc_sets := [("<Q>", CMean (TQ "Q"));
              ("<Q^2>", CMean (TQ2 "Q"));
              ("<sQ^2>", CVar (TQ2 "Q") (TQ "Q"))] |}.
(** sym-SL3-impl.hpp:13, 31-56 *)
Definition td_SL3 : td_columns := {| tc_fields := ["<Q1>"; "<Q1^2>"; "<sQ1^2>"; "<Q2>"; "<Q2^2>"; "<sQ2^2>"; "<Q3>"; "<Q3^2>"; "<sQ3^2>"];
  tc_sets := [("<Q1>", CMean (TQ "Q1"));
              ("<Q1^2>", CMean (TQ2 "Q1"));
              ("<sQ1^2>", CVar (TQ2 "Q1") (TQ "Q1"));
              ("<Q2>", CMean (TQ "Q2"));
              ("<Q2^2>", CMean (TQ2 "Q2"));
              ("<sQ2^2>", CVar (TQ2 "Q2") (TQ "Q2"));
              ("<Q3>", CMean (TQ "Q3"));
              ("<Q3^2>", CMean (TQ2 "Q3"));
              ("<sQ3^2>", CVar (TQ2 "Q3") (TQ "Q3"))] |}.
(** sym-SPSU2-impl.hpp:13, 68-76 *)
Definition td_SPSU2 : td_columns := {| tc_fields := ["<Sz^2>"];
  tc_sets := [("<Sz^2>", CMean (TCas "SS"))] |}.
(** sym-SPSU2C3-impl.hpp:13, 47-55 *)
Definition td_SPSU2C3 : td_columns := {| tc_fields := ["<Sz^2>"];
  tc_sets := [("<Sz^2>", CMean (TCas "SS"))] |}.
(** sym-SPSU2LR-impl.hpp:13, 49-57 *)
Definition td_SPSU2LR : td_columns := {| tc_fields := ["<Sz^2>"];
  tc_sets := [("<Sz^2>", CMean (TCas "SS"))] |}.
(** sym-SPSU2T-impl.hpp:13, 65-76 *)
Definition td_SPSU2T : td_columns := {| tc_fields := ["<Sz^2>"; "<Tz^2>"];
  tc_sets := [("<Sz^2>", CMean (TCas "SS"));
              ("<Tz^2>", CMean (TOrb "T"))] |}.
(** sym-SPU1-impl.hpp:13, 51-62 *)
Definition td_SPU1 : td_columns := {| tc_fields := ["<Sz^2>"; "<Sz>"];
  tc_sets := [("<Sz^2>", CMean (TSz2 "SSZ"));
              ("<Sz>", CMean (TSz "SSZ"))] |}.
(** sym-SPU1LR-impl.hpp:13, 47-57 *)
Definition td_SPU1LR : td_columns := {| tc_fields := ["<Sz^2>"; "<Sz>"];
  tc_sets := [("<Sz^2>", CMean (TSz2 "SSZ"));
              ("<Sz>", CMean (TSz "SSZ"))] |}.
(** sym-SU2-impl.hpp:13, 53-61 *)
Definition td_SU2 : td_columns := {| tc_fields := ["<Q^2>"];
  tc_sets := [("<Q^2>", CMean4 (TCas "II"))] |}.
(** sym-U1-impl.hpp:13, 39-49 *)
Definition td_U1 : td_columns := {| tc_fields := ["<Q>"; "<Q^2>"];
  tc_sets := [("<Q>", CMean (TQ "Q"));
              ("<Q^2>", CMean (TQ2 "Q"))] |}.

Definition shipped_columns : list (string * symmetry * td_columns) := [
  ("DBLISOSZ", sym_DBLISOSZ, td_DBLISOSZ);
  ("DBLQSZ", sym_DBLQSZ, td_DBLQSZ);
  ("DBLSU2", sym_DBLSU2, td_DBLSU2);
  ("ISO", sym_ISO, td_ISO);
  ("ISO2", sym_ISO2, td_ISO2);
  ("ISOLR", sym_ISOLR, td_ISOLR);
  ("ISO2LR", sym_ISO2LR, td_ISO2LR);
  ("ISOSZ", sym_ISOSZ, td_ISOSZ);
  ("ISOSZLR", sym_ISOSZLR, td_ISOSZLR);
  ("NONE", sym_NONE, td_NONE);
  ("P", sym_P, td_P);
  ("PP", sym_PP, td_PP);
  ("QJ", sym_QJ, td_QJ);
  ("QS", sym_QS, td_QS);
  ("QSC3", sym_QSC3, td_QSC3);
  ("QSLR", sym_QSLR, td_QSLR);
  ("QST", sym_QST, td_QST);
  ("QSTZ", sym_QSTZ, td_QSTZ);
  ("QSZ", sym_QSZ, td_QSZ);
  ("QSZLR", sym_QSZLR, td_QSZLR);
  ("QSZTZ", sym_QSZTZ, td_QSZTZ);
  ("SL", sym_SL, td_SL);
  ("SL3", sym_SL3, td_SL3);
  ("SPSU2", sym_SPSU2, td_SPSU2);
  ("SPSU2C3", sym_SPSU2C3, td_SPSU2C3);
  ("SPSU2LR", sym_SPSU2LR, td_SPSU2LR);
  ("SPSU2T", sym_SPSU2T, td_SPSU2T);
  ("SPU1", sym_SPU1, td_SPU1);
  ("SPU1LR", sym_SPU1LR, td_SPU1LR);
  ("SU2", sym_SU2, td_SU2);
  ("U1", sym_U1, td_U1)].
