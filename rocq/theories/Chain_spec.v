(** Independent description of the star and of the chain. *)
From Coq Require Import List Reals.
Import ListNotations.
Local Open Scope R_scope.

Fixpoint sum_to (n : nat) (f : nat -> R) : R := match n with O => 0 | S k => sum_to k f + f k end.

(** The star: levels at energies e^+_m and - e^-_m, m < M.  States are pairs of amplitudes. *)
Definition state := nat -> R * R.
Definition inner (M : nat) (a b : state) : R := sum_to M (fun m => fst (a m) * fst (b m) + snd (a m) * snd (b m)).
Definition star (e : nat -> R * R) (a : state) : state := fun m => (fst (e m) * fst (a m), - snd (e m) * snd (a m)).
Definition zero_state : state := fun _ => (0, 0).
Definition same (M : nat) (a b : state) : Prop := forall m, (m < M)%nat -> a m = b m.

(** [q 0], ..., [q (n-1)] are orthonormal. *)
Definition orthonormal (M n : nat) (q : nat -> state) : Prop :=
  forall i j, (i < n)%nat -> (j < n)%nat -> inner M (q i) (q j) = if Nat.eq_dec i j then 1 else 0.

(** The k-th moment of the hybridisation function of the star coupled through the amplitudes [u]. *)
Definition star_moment (M : nat) (u e : nat -> R * R) (k : nat) : R :=
  sum_to M (fun m => fst (u m) * fst (u m) * fst (e m) ^ k + snd (u m) * snd (u m) * (- snd (e m)) ^ k).

(** The chain of sites 0, ..., N with on-site energies zeta_n and hoppings xi_n between n and n+1, acting on amplitudes. *)
Definition chain_hop (N : nat) (xi zeta : nat -> R) (c : nat -> R) : nat -> R := fun n =>
  if Nat.leb n N then match n with O => 0 | S p => xi p * c p end + zeta n * c n + (if Nat.ltb n N then xi n * c (S n) else 0) else 0.
Definition site0 : nat -> R := fun n => match n with O => 1 | _ => 0 end.
Fixpoint repeat_hop (k N : nat) (xi zeta : nat -> R) : nat -> R :=
  match k with O => site0 | S p => chain_hop N xi zeta (repeat_hop p N xi zeta) end.
(** The k-th moment of the hybridisation function of the chain coupled through its site 0. *)
Definition chain_moment (N : nat) (xi zeta : nat -> R) (k : nat) : R := repeat_hop k N xi zeta 0%nat.
(** The state before [q n] in a sequence, and its hopping; nothing before the first. *)
Definition before (q : nat -> state) (n : nat) : state := match n with O => zero_state | S p => q p end.
Definition hop_before (xi : nat -> R) (n : nat) : R := match n with O => 0 | S p => xi p end.
Definition comb3 (x : R) (a : state) (y : R) (b : state) (z : R) (c : state) : state :=
  fun m => (x * fst (a m) + y * fst (b m) + z * fst (c m), x * snd (a m) + y * snd (b m) + z * snd (c m)).
(** In the states [q 0], ..., [q n], [q (n+1)] the star looks like the chain up to site n. *)
Definition chain_form (M : nat) (e : nat -> R * R) (q : nat -> state) (xi zeta : nat -> R) (n : nat) : Prop :=
  same M (star e (q n)) (comb3 (hop_before xi n) (before q n) (zeta n) (q n) (xi n) (q (S n))).

From Verif Require Import Interp_spec.
(** A hybridisation function: increasing frequencies, no negative value (load_abs_pairs rejects them), at least two points. *)
Definition band (v : list (R * R)) : Prop := increasing v /\ (2 <= length v)%nat /\ forall p, In p v -> 0 <= snd p.
(** [F] is the integral, from the first frequency, of the interpolated hybridisation function [v]. *)
Definition cumulated (v : list (R * R)) (F : R -> R) : Prop :=
  exists p f, nth_error v 0 = Some p /\ (forall x, linear_interpolant v x (f x)) /\ integral_from (fst p) f F.
(** The fixed discretisation mesh: 1 up to x = 2, then Lambda^(2-x). *)
Definition fixed_mesh (L x : R) : R := if Rle_dec x 2 then 1 else Rpower L (2 - x).
