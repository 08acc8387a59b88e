(** Specification vocabulary for sector structures. *)
From Coq Require Import List ZArith.
From Verif Require Import Base Invar_model Subspaces_model.
Import ListNotations.
Local Open Scope Z_scope.

(** A structure without overflow: distinct sectors, non-negative block sizes, total of each sector below 2^31. *)
Definition sane (s : structure) : Prop :=
  NoDup (map fst s) /\ forall I d, In (I, d) s -> (forall x, In x (sd_dims d) -> 0 <= x) /\ zsum (sd_dims d) < 2 ^ 31.

(** [I] must be handled before [J]: it is larger, or equally large with the larger quantum numbers. *)
Definition before (s : structure) (I J : invar) : Prop :=
  exists dI dJ, In (I, dI) s /\ In (J, dJ) s /\
    (zsum (sd_dims dJ) < zsum (sd_dims dI) \/ (zsum (sd_dims dI) = zsum (sd_dims dJ) /\ invar_ltb J I = true)).

From Verif Require Import Symmetry_model Symmetry_spec.

(** Number of physical states described by a set of multiplets. *)
Definition total_states (sy : symmetry) (dp : sizes) : Z := zsum (map (fun p => degeneracy sy (fst p) * snd p) dp).

(** Sector sizes after a step in which every scheduled sector is diagonalised and nothing is truncated. *)
Definition untruncated (st : structure) (dp : sizes) : Prop :=
  NoDup (map fst dp) /\ forall I n, In (I, n) dp <-> exists d, In (I, d) st /\ In I (task_list st) /\ n = zsum (sd_dims d).

(** [n] consecutive untruncated steps. *)
Inductive grows (sy : symmetry) (combs : nat) (t : tables) : nat -> sizes -> sizes -> Prop :=
| grows_O dp : grows sy combs t 0 dp dp
| grows_S n dp st dp1 dp2 : (forall I k, In (I, k) dp -> 0 <= k <= 1000000) -> mk_structure sy combs t dp = Ok st ->
    untruncated st dp1 -> grows sy combs t n dp1 dp2 -> grows sy combs t (S n) dp dp2.
