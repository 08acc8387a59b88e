(** The same operators for every number of channels: what is asked, and where tables are missing. *)
From Coq Require Import List ZArith Bool String.
From Verif Require Import Base Coef_model.
Import ListNotations.
Local Open Scope string_scope.

(** Tables for the same kind of operator, leading from a sector to the same other sector. *)
Definition same_target (t t' : ten_table) : Prop := tt_name t = tt_name t' /\ tt_shift t = tt_shift t' /\ tt_iop t = tt_iop t'.
(** Operators whose `switch (P.channels)` has no case for a number of channels that load() accepts (the default is
    my_assert_not_reached()): c++/symmetry/nrg-recalc-ISO.hpp 38-145 and 435-515, nrg-recalc-QSZ.hpp recalc_triplet,
    nrg-recalc-SPSU2.hpp recalc_triplet. *)
Definition lacking (cs : coef_set) (n : string) : bool :=
  Nat.eqb (cs_channels cs) 3 &&
  (if String.eqb (cs_name cs) "ISO" then String.eqb n "doublet" || String.eqb n "triplet"
   else (String.eqb (cs_name cs) "QSZ" || String.eqb (cs_name cs) "SPSU2") && String.eqb n "triplet").
