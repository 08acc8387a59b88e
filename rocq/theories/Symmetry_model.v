(** Model of the sector bookkeeping in /repo/c++/symmetry.hpp and of the quantum-number part of each symmetry class
    /repo/c++/symmetry/sym-*-impl.hpp. *)
From Coq Require Import List ZArith Bool String.
From Verif Require Import Base Invar_model.
Import ListNotations.
Local Open Scope string_scope.
Local Open Scope Z_scope.

(** symmetry.hpp:32-34 *)
Definition su2_triangle_inequality (ss1 ss2 ss3 : Z) : bool :=
  (Z.abs (ss1 - ss2) <=? ss3 - 1) && (Z.abs (ss2 - ss3) <=? ss1 - 1) && (Z.abs (ss3 - ss1) <=? ss2 - 1).
(** symmetry.hpp:36-38 *)
Definition u1_equality (q1 q2 q3 : Z) : bool := q1 =? q2 + q3.
Definition z2_equality (p1 p2 p3 : Z) : bool := p1 =? p2 * p3.
Definition c3_equality (p1 p2 p3 : Z) : bool := p1 =? Z.rem (p2 + p3) 3.

(** One conjunct of a [triangle_inequality] override: the test and the quantum number it is applied to.
    [TSU2T] is [su2_triangle_inequality(2*T1+1, 2*T2+1, 2*T3+1)]. *)
Inductive tri_kind := TSU2 | TSU2T | TU1 | TZ2 | TC3.
Definition tri_test (k : tri_kind) (x1 x2 x3 : Z) : bool :=
  match k with
  | TSU2 => su2_triangle_inequality x1 x2 x3
  | TSU2T => su2_triangle_inequality (2 * x1 + 1) (2 * x2 + 1) (2 * x3 + 1)
  | TU1 => u1_equality x1 x2 x3
  | TZ2 => z2_equality x1 x2 x3
  | TC3 => c3_equality x1 x2 x3
  end.

(** One factor of a [mult] override: [I.get(n)] or [2*I.get(n)+1]. *)
Inductive mult_kind := MMult | MOrb.
Definition mult_factor (k : mult_kind) (x : Z) : Z := match k with MMult => x | MOrb => 2 * x + 1 end.

(** The quantum-number part of a symmetry class: signature (argument of [initInvar]), [mult], [triangle_inequality],
    [Invar_allowed] (conjunction of [get(n) >= min]), [islr()]. An absent override is an empty list (the defaults in
    symmetry.hpp:125,134,136 are 1, true, true). *)
Record symmetry := mk_symmetry {
  sy_sig : signature;
  sy_mult : list (mult_kind * string);
  sy_tri : list (tri_kind * string);
  sy_allowed : list (string * Z);
  sy_islr : bool;
  sy_singlet : invar
}.

Definition ts (sy : symmetry) : list qtype := qntype (sy_sig sy).

(** [mult(I)]: product of the factors. *)
Fixpoint mult_of (sg : signature) (fs : list (mult_kind * string)) (a : invar) : res Z :=
  match fs with
  | [] => Ok 1
  | (k, n) :: fs' => let* x := get sg a n in let* r := mult_of sg fs' a in Ok (mult_factor k x * r)
  end.
Definition mult (sy : symmetry) (a : invar) : res Z := mult_of (sy_sig sy) (sy_mult sy) a.

(** [triangle_inequality(I1,I2,I3)]: short-circuit conjunction. *)
Fixpoint tri_of (sg : signature) (l : list (tri_kind * string)) (a1 a2 a3 : invar) : res bool :=
  match l with
  | [] => Ok true
  | (k, n) :: l' => let* x1 := get sg a1 n in let* x2 := get sg a2 n in let* x3 := get sg a3 n in
                    if tri_test k x1 x2 x3 then tri_of sg l' a1 a2 a3 else Ok false
  end.
Definition triangle (sy : symmetry) (a1 a2 a3 : invar) : res bool := tri_of (sy_sig sy) (sy_tri sy) a1 a2 a3.

(** [Invar_allowed(I)]. *)
Fixpoint allowed_of (sg : signature) (l : list (string * Z)) (a : invar) : res bool :=
  match l with
  | [] => Ok true
  | (n, m) :: l' => let* x := get sg a n in let* r := allowed_of sg l' a in Ok ((m <=? x) && r)
  end.
Definition allowed (sy : symmetry) (a : invar) : res bool := allowed_of (sy_sig sy) (sy_allowed sy) a.

(** ** Local-state tables and the relation between sectors *)

(** symmetry.hpp:66-80 - members [In] and [QN] after [load()] and [erase_first()]. *)
Record tables := { tb_In : list invar; tb_QN : list invar }.

Record shipped_table := mk_shipped { sh_name : string; sh_channels : nat; sh_sym : symmetry; sh_tab : tables }.

(** symmetry.hpp:95-99 - [nr_combs()]; [combs] is P.combs. *)
Definition nr_combs (combs : nat) (t : tables) : res nat :=
  let* _ := my_assert (Nat.eqb combs (List.length (tb_In t))) in
  let* _ := my_assert (Nat.eqb combs (List.length (tb_QN t))) in Ok combs.

(** symmetry.hpp:87 - [QN_subspace(i)]. *)
Definition QN_subspace (combs : nat) (t : tables) (i : nat) : res invar :=
  let* _ := my_assert (Nat.ltb i combs) in
  match nth_error (tb_QN t) i with Some q => Ok q | None => UB end.

(** symmetry.hpp:88-94 - [ancestor(I,i)]: I.combine(In[i]). *)
Definition ancestor (sy : symmetry) (combs : nat) (t : tables) (I : invar) (i : nat) : res invar :=
  let* _ := my_assert (Nat.ltb i combs) in
  match nth_error (tb_In t) i with Some d => combine (ts sy) I d | None => UB end.

(** symmetry.hpp:101-106 - [ancestors(I)]: In[i].combine(I) for every i. *)
Definition ancestors (sy : symmetry) (combs : nat) (t : tables) (I : invar) : res (list invar) :=
  let* _ := nr_combs combs t in mapM (fun d => combine (ts sy) d I) (tb_In t).

(** symmetry.hpp:107-114 - [new_subspaces(I)]: In[i].inverse(); In[i].combine(I). *)
Definition new_subspaces (sy : symmetry) (combs : nat) (t : tables) (I : invar) : res (list invar) :=
  let* _ := nr_combs combs t in
  mapM (fun d => let* n := inverse (ts sy) d in combine (ts sy) n I) (tb_In t).

(** params.hpp:562-588 - number of local states: [intpow(intpow(2, spin), channels)], or a single site with substeps. *)
Definition combs_of (symtype : string) (channels : nat) (substeps : bool) : nat :=
  let spin := if String.eqb symtype "SL" || String.eqb symtype "SL3" then 1%nat else 2%nat in
  let statespersite := Nat.pow 2 spin in
  if substeps then statespersite else Nat.pow statespersite channels.

(** ** The symmetry classes *)

(** sym-DBLISOSZ-impl.hpp:13-39 *)
Definition sym_DBLISOSZ := mk_symmetry [("II1", Additive); ("II2", Additive); ("SSZ", Additive)]
  [(MMult, "II1"); (MMult, "II2")] [(TSU2, "II1"); (TSU2, "II2"); (TU1, "SSZ")] [("II1", 1); ("II2", 1)] false [1; 1; 0].
(** sym-DBLQSZ-impl.hpp:13-33 *)
Definition sym_DBLQSZ := mk_symmetry [("Q1", Additive); ("Q2", Additive); ("SSZ", Additive)]
  [] [(TU1, "Q1"); (TU1, "Q2"); (TU1, "SSZ")] [] false [0; 0; 0].
(** sym-DBLSU2-impl.hpp:13-29 *)
Definition sym_DBLSU2 := mk_symmetry [("II1", Additive); ("II2", Additive)]
  [(MMult, "II1"); (MMult, "II2")] [(TSU2, "II1"); (TSU2, "II2")] [("II1", 1); ("II2", 1)] false [1; 1].
(** sym-ISO-impl.hpp:11-34 (common base class of ISO and ISO2) *)
Definition sym_ISO := mk_symmetry [("II", Additive); ("SS", Additive)]
  [(MMult, "II"); (MMult, "SS")] [(TSU2, "SS"); (TSU2, "II")] [("II", 1); ("SS", 1)] false [1; 1].
Definition sym_ISO2 := sym_ISO.
(** sym-ISOLR-impl.hpp:10-32 (common base class of ISOLR and ISO2LR) *)
Definition sym_ISOLR := mk_symmetry [("II", Additive); ("SS", Additive); ("P", Multiplicative)]
  [(MMult, "II"); (MMult, "SS")] [(TSU2, "II"); (TSU2, "SS"); (TZ2, "P")] [("II", 1); ("SS", 1)] true [1; 1; 1].
Definition sym_ISO2LR := sym_ISOLR.
(** sym-ISOSZ-impl.hpp:12-34 *)
Definition sym_ISOSZ := mk_symmetry [("II", Additive); ("SSZ", Additive)]
  [(MMult, "II")] [(TU1, "SSZ"); (TSU2, "II")] [("II", 1)] false [1; 0].
(** sym-ISOSZLR-impl.hpp:12-32 (no [Invar_allowed] override) *)
Definition sym_ISOSZLR := mk_symmetry [("II", Additive); ("SSZ", Additive); ("P", Multiplicative)]
  [(MMult, "II")] [(TU1, "SSZ"); (TSU2, "II"); (TZ2, "P")] [] true [1; 0; 1].
(** sym-NONE-impl.hpp:12-15 *)
Definition sym_NONE := mk_symmetry [("x", Additive)] [] [] [] false [0].
(** sym-P-impl.hpp:13-38 *)
Definition sym_P := mk_symmetry [("P", Multiplicative)] [] [(TZ2, "P")] [] false [1].
(** sym-PP-impl.hpp:12-32 *)
Definition sym_PP := mk_symmetry [("Pa", Multiplicative); ("Pb", Multiplicative)] [] [(TZ2, "Pa"); (TZ2, "Pb")] [] false [1; 1].
(** sym-QJ-impl.hpp:15-32 *)
Definition sym_QJ := mk_symmetry [("Q", Additive); ("JJ", Additive)]
  [(MMult, "JJ")] [(TU1, "Q"); (TSU2, "JJ")] [("JJ", 1)] false [0; 1].
(** sym-QS-impl.hpp:13-27 *)
Definition sym_QS := mk_symmetry [("Q", Additive); ("SS", Additive)]
  [(MMult, "SS")] [(TU1, "Q"); (TSU2, "SS")] [("SS", 1)] false [0; 1].
(** sym-QSC3-impl.hpp:13-31 *)
Definition sym_QSC3 := mk_symmetry [("Q", Additive); ("SS", Additive); ("P", Mod3)]
  [(MMult, "SS")] [(TU1, "Q"); (TSU2, "SS"); (TC3, "P")] [("SS", 1)] false [0; 1; 0].
(** sym-QSLR-impl.hpp:13-31 *)
Definition sym_QSLR := mk_symmetry [("Q", Additive); ("SS", Additive); ("P", Multiplicative)]
  [(MMult, "SS")] [(TU1, "Q"); (TSU2, "SS"); (TZ2, "P")] [("SS", 1)] true [0; 1; 1].
(** sym-QST-impl.hpp:13-33 *)
Definition sym_QST := mk_symmetry [("Q", Additive); ("SS", Additive); ("T", Additive)]
  [(MMult, "SS"); (MOrb, "T")] [(TU1, "Q"); (TSU2, "SS"); (TSU2T, "T")] [("SS", 1); ("T", 0)] false [0; 1; 0].
(** sym-QSTZ-impl.hpp:13-29 *)
Definition sym_QSTZ := mk_symmetry [("Q", Additive); ("SS", Additive); ("TZ", Additive)]
  [(MMult, "SS")] [(TU1, "Q"); (TSU2, "SS"); (TU1, "TZ")] [("SS", 1)] false [0; 1; 0].
(** sym-QSZ-impl.hpp:13-30 *)
Definition sym_QSZ := mk_symmetry [("Q", Additive); ("SSZ", Additive)] [] [(TU1, "Q"); (TU1, "SSZ")] [] false [0; 0].
(** sym-QSZLR-impl.hpp:13-33 *)
Definition sym_QSZLR := mk_symmetry [("Q", Additive); ("SSZ", Additive); ("P", Multiplicative)]
  [] [(TU1, "Q"); (TU1, "SSZ"); (TZ2, "P")] [] true [0; 0; 1].
(** sym-QSZTZ-impl.hpp:12-24 *)
Definition sym_QSZTZ := mk_symmetry [("Q", Additive); ("SZ", Additive); ("TZ", Additive)]
  [] [(TU1, "Q"); (TU1, "SZ"); (TU1, "TZ")] [] false [0; 0; 0].
(** sym-SL-impl.hpp:13-16 *)
Definition sym_SL := mk_symmetry [("Q", Additive)] [] [] [] false [0].
(** sym-SL3-impl.hpp:13-18 *)
Definition sym_SL3 := mk_symmetry [("Q1", Additive); ("Q2", Additive); ("Q3", Additive)] [] [] [] false [0; 0; 0].
(** sym-SPSU2-impl.hpp:13-26 *)
Definition sym_SPSU2 := mk_symmetry [("SS", Additive)] [(MMult, "SS")] [(TSU2, "SS")] [("SS", 1)] false [1].
(** sym-SPSU2C3-impl.hpp:13-26 *)
Definition sym_SPSU2C3 := mk_symmetry [("SS", Additive); ("P", Mod3)]
  [(MMult, "SS")] [(TSU2, "SS"); (TC3, "P")] [("SS", 1)] false [1; 0].
(** sym-SPSU2LR-impl.hpp:13-26; the singlet sector is given as Invar(0,1) *)
Definition sym_SPSU2LR := mk_symmetry [("SS", Additive); ("P", Multiplicative)]
  [(MMult, "SS")] [(TSU2, "SS"); (TZ2, "P")] [("SS", 1)] true [0; 1].
(** sym-SPSU2T-impl.hpp:13-32 *)
Definition sym_SPSU2T := mk_symmetry [("SS", Additive); ("T", Additive)]
  [(MMult, "SS"); (MOrb, "T")] [(TSU2, "SS"); (TSU2T, "T")] [("SS", 1); ("T", 0)] false [1; 0].
(** sym-SPU1-impl.hpp:13-27 *)
Definition sym_SPU1 := mk_symmetry [("SSZ", Additive)] [] [(TU1, "SSZ")] [] false [0].
(** sym-SPU1LR-impl.hpp:13-31 *)
Definition sym_SPU1LR := mk_symmetry [("SSZ", Additive); ("P", Multiplicative)] [] [(TU1, "SSZ"); (TZ2, "P")] [] true [0; 1].
(** sym-SU2-impl.hpp:13-29 *)
Definition sym_SU2 := mk_symmetry [("II", Additive)] [(MMult, "II")] [(TSU2, "II")] [("II", 1)] false [1].
(** sym-U1-impl.hpp:13-19 *)
Definition sym_U1 := mk_symmetry [("Q", Additive)] [] [(TU1, "Q")] [] false [0].
