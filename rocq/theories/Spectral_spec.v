(** Specification vocabulary for spectral functions: the Lehmann representation of a correlation function of two operators
    A (op1) and B (op2) on the states of one shell. *)
From Coq Require Import List ZArith Permutation.
From mathcomp Require Import ssreflect ssrfun ssrbool eqtype ssrnat fintype bigop ssralg ssrnum.
From Verif Require Import Base Invar_model Symmetry_model Symmetry_spec Symmetry_tables Subspaces_model Density_model Density_spec Spectral_model.
Import GRing.Theory Num.Theory.
Local Open Scope ring_scope.
Set Implicit Arguments.
Unset Strict Implicit.
Unset Printing Implicit Defensive.

Section Spec.
  Variable C : numClosedFieldType.

  (** All pairs (j, i) of states, and those that are not both among the first kj resp. ki (the kept ones). *)
  Definition all_pairs (nj ni : nat) : list (nat * nat) := List.list_prod (List.seq 0 nj) (List.seq 0 ni).
  Definition transitions (nj ni kj ki : nat) : list (nat * nat) :=
    List.filter (fun ji => ~~ ((fst ji < kj)%N && (snd ji < ki)%N)) (all_pairs nj ni).

  (** States of a shell that are refined at later shells (none at the last one). *)
  Definition refined (s : sector C) : nat := if s_last s then 0%N else s_post s.

  (** Density matrix of a shell in one sector: [rho] among the refined states, Boltzmann weights [w] on the diagonal for all
      others. *)
  Definition shell_matrix (k : nat) (rho : nat -> nat -> C) (w : nat -> C) (i i' : nat) : C :=
    if (i < k)%N && (i' < k)%N then rho i i' else if i == i' then w i else 0.

  (** Greater part, <A^+ B>: the transition from state i to state j contributes a delta peak at E_j - E_i whose weight is
      conj(A_ji) (B rho)_ji. *)
  Definition greater (f : C) (E : nat -> C) (E' : nat -> C) (n : nat) (A B rho : nat -> nat -> C) (ji : nat * nat) : peak C :=
    (E (fst ji) - E' (snd ji), f * ((A (fst ji) (snd ji))^* * \sum_(k < n) B (fst ji) k * rho k (snd ji))).
  (** Lesser part, -s <B A^+> (s = 1 for bosons, -1 for fermions): weight -s conj(A_ji) (rho B)_ji. *)
  Definition lesser (s f : C) (E : nat -> C) (E' : nat -> C) (n : nat) (A B rho : nat -> nat -> C) (ji : nat * nat) : peak C :=
    (E (fst ji) - E' (snd ji), f * (- s * ((A (fst ji) (snd ji))^* * \sum_(k < n) rho (fst ji) k * B k (snd ji)))).
  (** The same with rho next to A: weight -s (A^+ rho)_ij B_ji. *)
  Definition lesser' (s f : C) (E : nat -> C) (E' : nat -> C) (n : nat) (A B rho : nat -> nat -> C) (ji : nat * nat) : peak C :=
    (E (fst ji) - E' (snd ji), f * (- s * ((\sum_(k < n) (A k (snd ji))^* * rho k (fst ji)) * B (fst ji) (snd ji)))).
  Definition statistics (gt : gf_type) : C := match gt with bosonic => 1 | fermionic => -1 end.
  Definition negate (p : peak C) : peak C := (fst p, - snd p).

  (** The data handed to the algorithms fit together: kept states are among all states, and the operator blocks cover all
      pairs of states. *)
  Definition fits (a : args C) : Prop :=
    (s_post (a_i a) <= s_all (a_i a))%N /\ (s_post (a_j a) <= s_all (a_j a))%N /\
    f_rows (a_op1 a) = s_all (a_j a) /\ f_cols (a_op1 a) = s_all (a_i a) /\
    f_rows (a_op2 a) = s_all (a_j a) /\ f_cols (a_op2 a) = s_all (a_i a).
  (** The density matrix of a sector, square, of the size of the refined states or (last step) of all states. *)
  Definition matrix_for (rho : densmat C) (J : invar) (s : sector C) (r : fmat C) : Prop :=
    lookup rho J = Some r /\ f_cols r = f_rows r /\ f_rows r = (if s_last s then s_all s else s_post s).
  Definition symmetric_on (n : nat) (M : nat -> nat -> C) : Prop := forall i j, (i < n)%N -> (j < n)%N -> M i j = M j i.
  Definition total_weight (l : list (peak C)) : C := \sum_(p <- l) snd p.

  (** The Lehmann peaks of a step before the last one when only kept states are occupied: lesser part for transitions from a
      kept state j, greater part for transitions from a kept state i, to discarded states. *)
  Definition kept_states (s : sector C) : list nat := List.seq 0 (s_post s).
  Definition discarded_states (s : sector C) : list nat := List.seq (s_post s) (s_all s - s_post s).
  Definition lesser_part (gt : gf_type) (a : args C) (rho_j : nat -> nat -> C) : list (peak C) :=
    List.map (lesser' (statistics gt) (a_factor a) (s_zero (a_j a)) (s_zero (a_i a)) (s_post (a_j a)) (f_el (a_op1 a)) (f_el (a_op2 a)) rho_j)
      (List.list_prod (kept_states (a_j a)) (discarded_states (a_i a))).
  Definition greater_part (a : args C) (rho_i : nat -> nat -> C) : list (peak C) :=
    List.map (greater (a_factor a) (s_zero (a_j a)) (s_zero (a_i a)) (s_post (a_i a)) (f_el (a_op1 a)) (f_el (a_op2 a)) rho_i)
      (List.list_prod (discarded_states (a_j a)) (kept_states (a_i a))).
  (** Thermal weights exp(-E/T)/Z on the diagonal. *)
  Definition boltzmann (bz : C -> C) (Z : C) (E : nat -> C) (n m : nat) : C := if n == m then bz (E n) / Z else 0.
  Definition thermal_greater (bz : C -> C) (Z : C) (a : args C) (ji : nat * nat) : peak C :=
    greater (a_factor a) (s_zero (a_j a)) (s_zero (a_i a)) (s_post (a_i a)) (f_el (a_op1 a)) (f_el (a_op2 a)) (boltzmann bz Z (s_zero (a_i a))) ji.
  Definition thermal_lesser (gt : gf_type) (bz : C -> C) (Z : C) (a : args C) (ji : nat * nat) : peak C :=
    lesser (statistics gt) (a_factor a) (s_zero (a_j a)) (s_zero (a_i a)) (s_post (a_j a)) (f_el (a_op1 a)) (f_el (a_op2 a)) (boltzmann bz Z (s_zero (a_j a))) ji.
  (** Two peaks at the same energy joined into one. *)
  Definition joined (p q : peak C) : peak C := (fst p, snd p + snd q).
  (** Both parts for a transition between kept states, with density matrices of the two sectors. *)
  Definition both_parts (gt : gf_type) (a : args C) (rho_i rho_j : nat -> nat -> C) (ji : nat * nat) : peak C :=
    joined (greater (a_factor a) (s_zero (a_j a)) (s_zero (a_i a)) (s_post (a_i a)) (f_el (a_op1 a)) (f_el (a_op2 a)) rho_i ji)
      (lesser' (statistics gt) (a_factor a) (s_zero (a_j a)) (s_zero (a_i a)) (s_post (a_j a)) (f_el (a_op1 a)) (f_el (a_op2 a)) rho_j ji).
  (** A stored matrix that covers the kept states of a sector. *)
  Definition covers_kept (rho : densmat C) (J : invar) (s : sector C) (r : fmat C) : Prop :=
    lookup rho J = Some r /\ (s_post s <= f_rows r)%N /\ (s_post s <= f_cols r)%N.

  (** *** Scalar operators on all sectors: [A J j i] is the matrix element between states j and i of sector J, [n J] the
      number of states. *)
  Definition dagger_times (n : invar -> nat) (A B : invar -> nat -> nat -> C) (J : invar) (i l : nat) : C :=
    \sum_(j < n J) (A J j i)^* * B J j l.
  Definition times_dagger (n : invar -> nat) (A B : invar -> nat -> nat -> C) (J : invar) (l j : nat) : C :=
    \sum_(i < n J) B J l i * (A J j i)^*.
  (** All eigenvectors of a sector are stored: as many as basis states. *)
  Definition square (e : eig C) : Prop := (\sum_(u <- e_U e) f_cols u)%N = e_nrstored e.
  Definition dim_of (states : thermosubs C) (J : invar) : nat := match lookup states J with Some x => th_dim x | None => 0%N end.
  Definition kept_of (states : thermosubs C) (J : invar) : nat := match lookup states J with Some x => th_kept x | None => 0%N end.
  (** Average over all states of step N: the states refined later through the matrix saved for the step, the others through
      their thermal weights. *)
  Definition shell_average (sy : symmetry) (last : bool) (rho : densmat C) (states : thermosubs C) (w : C) (O : invar -> nat -> nat -> C) : C :=
    (if last then 0 else expectation sy rho O) + Density_spec.thermal sy last states w O.
  (** A scalar operator followed from step to step: at each step it is the operator of the previous step in the new
      eigenbasis. *)
  Definition followed (sh : shipped_table) (Ninit Nmax : nat) (diag_file : nat -> diaginfo C) (A : nat -> invar -> nat -> nat -> C) : Prop :=
    forall N J b a, (Ninit < N < Nmax)%N -> A N J b a = carried sh (diag_file N) (A (N - 1)%N) J b a.
  (** The arguments of the spectral-function algorithms for the sector J of a step. *)
  Definition scalar_args (sy : symmetry) (E : invar -> nat -> C) (A B : invar -> nat -> nat -> C) (p : invar * thermosub C) : args C :=
    let s := Sector (th_dim (snd p)) (th_kept (snd p)) (th_last (snd p)) (E (fst p)) (E (fst p)) in
    Args s s (Fmat (th_dim (snd p)) (th_dim (snd p)) (A (fst p))) (Fmat (th_dim (snd p)) (th_dim (snd p)) (B (fst p)))
      (zc C (degeneracy sy (fst p))) (fst p) (fst p).
  Definition shell_peaks (sy : symmetry) (calc : args C -> res (list (peak C))) (E : invar -> nat -> C) (A B : invar -> nat -> nat -> C) (states : thermosubs C)
    : res (list (peak C)) := collect calc (List.map (fun p => Some (scalar_args sy E A B p)) states).
  (** Complete data: all states of all sectors are computed and stored, kept states are among them, and the Boltzmann factors
      used for the spectra, [wnf N] exp(-E), are the thermal weights of the discarded states. *)
  Definition complete_data (sh : shipped_table) (Ninit Nmax : nat) (diag_file : nat -> diaginfo C) (store_all : nat -> backsubs) (store : nat -> thermosubs C) (wn : nat -> C)
    (bz : C -> C) (wnf : nat -> C) (E : nat -> invar -> nat -> C) : Prop :=
    (forall N J x, (Ninit <= N < Nmax)%N -> In (J, x) (store N) -> (th_kept x <= th_dim x)%N /\
       (forall b, In (J, b) (store_all N) -> b_kept b = th_kept x) /\
       (forall e, (Ninit < N)%N -> In (J, e) (diag_file N) -> square e /\ th_dim x = e_nrstored e)) /\
    (forall N J x i, (Ninit <= N < Nmax)%N -> In (J, x) (store N) ->
       wnf N * bz (E N J i) = wn N * th_boltz x i /
         \sum_(p <- store N) \sum_(discarded_from (N == (Nmax - 1)%N) (snd p) <= i < th_dim (snd p)) zc C (degeneracy (sh_sym sh) (fst p)) * th_boltz (snd p) i).
End Spec.
