(** Vocabulary for the statements about truncation. *)
From Coq Require Import List ZArith Permutation Sorted.
From Verif Require Import Base Truncation_model.
Import ListNotations.
Local Open Scope Z_scope.

(** Ascending list. *)
Definition ascending (l : list Z) : Prop := forall i j, (i <= j < length l)%nat -> nth i l 0 <= nth j l 0.

(** [s] is the spectrum [l] in ascending order. *)
Definition sorted_copy (s l : list Z) : Prop := Permutation s l /\ ascending s.

(** Number of elements not above / strictly below a bound. *)
Definition not_above (c : Z) (l : list Z) : nat := length (filter (fun x => x <=? c) l).
Definition below (c : Z) (l : list Z) : nat := length (filter (fun x => x <? c) l).

(** [p] is a possible result of sorting the indices 0..n-1 by the criterion [c]. *)
Definition sorts_by (c : list Z) (p : list nat) : Prop :=
  Permutation p (seq 0 (length c)) /\
  forall i j, (i <= j < length c)%nat -> nth (nth i p 0%nat) c 0 <= nth (nth j p 0%nat) c 0.

(** Settings accepted by Params::validate, with values that do not overflow size_t. *)
Definition valid (P : tparams) : Prop :=
  validate_truncation P = Ok tt /\ 0 <= keepmin P /\ 0 <= safeguardmax P /\
  keep P + (if 0 <? safeguard P then safeguardmax P else 0) < 2 ^ 64.

Definition zero_based (P : tparams) (crits : list Z) : Prop :=
  floquet P = true \/ (In 0 crits /\ forall x, In x crits -> 0 <= x).

(** The requested number of states, in closed form. *)
Definition request (P : tparams) (crits : list Z) : Z :=
  if keepenergy_on P
  then Z.max (keepmin P) (Z.min (keep P) (1 + Z.of_nat (not_above (ecut P) crits)))
  else keep P.


(** [f] is a legitimate clean-up of the levels [D] with tolerance [eps]: every level goes to a level not above
    it and closer than [eps], levels that are targets stay put, the order is preserved, and distinct targets
    are at least [eps] apart. *)
Record good_map (eps : Z) (D : list Z) (f : Z -> Z) : Prop := {
  gm_in : forall x, In x D -> In (f x) D;
  gm_shift : forall x, In x D -> f x <= x < f x + eps;
  gm_idem : forall x, In x D -> f (f x) = f x;
  gm_mono : forall x y, In x D -> In y D -> x <= y -> f x <= f y;
  gm_sep : forall x y, In x D -> In y D -> f x < f y -> f x + eps <= f y
}.

