(** Specification vocabulary for density matrices. *)
From Coq Require Import List ZArith.
From mathcomp Require Import ssreflect ssrfun ssrbool eqtype ssrnat fintype bigop ssralg ssrnum.
From Verif Require Import Base Invar_model Symmetry_model Symmetry_spec Symmetry_tables Subspaces_model Density_model.
Import GRing.Theory Num.Theory.
Local Open Scope ring_scope.
Set Implicit Arguments.
Unset Strict Implicit.
Unset Printing Implicit Defensive.

Section Spec.
  Variable C : numClosedFieldType.

  (** Hermitian and positive semidefinite matrices of size n. *)
  Definition hermitian (n : nat) (M : nat -> nat -> C) : Prop := forall i j, (i < n)%N -> (j < n)%N -> M j i = (M i j)^*.
  Definition positive (n : nat) (M : nat -> nat -> C) : Prop :=
    forall v : nat -> C, 0 <= \sum_(i < n) \sum_(j < n) (v i)^* * M i j * v j.

  (** The trace over all physical states: every multiplet counts with its degeneracy. *)
  Definition full_trace (sy : symmetry) (rho : densmat C) : C :=
    \sum_(p <- rho) zc C (degeneracy sy (fst p)) * \sum_(i < f_rows (snd p)) f_el (snd p) i i.

  (** The rows of U (the eigenvectors, distributed over the blocks) are orthonormal. *)
  Definition orthonormal_rows (e : eig C) : Prop :=
    forall a b, (a < e_nrstored e)%N -> (b < e_nrstored e)%N ->
      \sum_(u <- e_U e) \sum_(r < f_cols u) (f_el u a r)^* * f_el u b r = (a == b)%:R.

  (** Sector sizes after truncation: what the next step is built from. *)
  Definition sizes_of (b : backsubs) : sizes := List.map (fun p => (fst p, Z.of_nat (b_kept (snd p)))) b.

  (** Step N of the first pass: its sectors are those scheduled from the kept states of step N-1, and its eigenvectors,
      as stored on disk, have the block structure of the step and are orthonormal. *)
  Definition regular_step (sh : shipped_table) (prev cur : backsubs) (diag : diaginfo C) : Prop :=
    exists st infos,
      mk_structure (sh_sym sh) (sh_combs sh) (sh_tab sh) (sizes_of prev) = Ok st /\ cur = backiter_subs infos st /\
      NoDup (List.map fst infos) /\ (forall J, In J (List.map fst infos) <-> In J (task_list st)) /\
      List.map fst diag = List.map fst infos /\
      forall J e b, In (J, e) diag -> In (J, b) cur ->
        (b_kept b <= e_nrstored e)%N /\ List.map (fun u => Z.of_nat (f_cols u)) (e_U e) = b_rmax b /\
        (forall u, In u (e_U e) -> f_rows u = e_nrstored e) /\ orthonormal_rows e.

  (** A complete first pass over the steps Ninit .. Nmax-1, for a shipped symmetry. *)
  Definition first_pass (sh : shipped_table) (Ninit Nmax : nat) (diag_file : nat -> diaginfo C) (store_all : nat -> backsubs) : Prop :=
    In sh shipped /\ (Ninit < Nmax)%N /\
    NoDup (List.map fst (store_all Ninit)) /\ (forall J b, In (J, b) (store_all Ninit) -> multiplet (sh_sym sh) J) /\
    (forall N J b, (Ninit <= N < Nmax)%N -> In (J, b) (store_all N) -> (Z.of_nat (b_kept b) <= 1000000)%Z) /\
    forall N, (Ninit < N < Nmax)%N -> regular_step sh (store_all (N - 1)%N) (store_all N) (diag_file N).

  (** The sectors of the truncated last step from which the density matrix is started. *)
  Definition last_step (cur : backsubs) (keepsec : invar -> bool) (d : list (invar * last_eig C)) : Prop :=
    NoDup (List.map fst d) /\
    (forall J l, In (J, l) d -> (forall i, 0 < l_boltz l i) /\ l_stored l = l_kept l /\
        exists b, In (J, b) cur /\ l_kept l = b_kept b) /\
    (exists J l, In (J, l) d /\ keepsec J = true /\ (0 < l_kept l)%N).

  (** [rho] is a normalised density matrix on the kept states of a step: unit trace, Hermitian, positive, of the right size. *)
  Definition density_matrix (sh : shipped_table) (cur : backsubs) (rho : densmat C) : Prop :=
    full_trace (sh_sym sh) rho = 1 /\ NoDup (List.map fst rho) /\
    forall J M, In (J, M) rho -> (exists b, In (J, b) cur /\ f_rows M = b_kept b) /\ f_cols M = f_rows M /\
      hermitian (f_rows M) (f_el M) /\ positive (f_rows M) (f_el M).

  (** The data of the full density matrix: the sectors of store[N] are those of the step, all their states were computed
      (complete diagonalisation) and the last step counts all its states as discarded; Boltzmann factors are positive,
      shell weights non-negative, zero for a shell without discarded states and positive for the last shell. *)
  Definition discarded_from (last : bool) (x : thermosub C) : nat := if last then 0%N else th_kept x.
  Definition fdm_data (Ninit Nmax : nat) (diag_file : nat -> diaginfo C) (store_all : nat -> backsubs) (store : nat -> thermosubs C) (wn : nat -> C) : Prop :=
    (forall N, (Ninit <= N < Nmax)%N -> List.map fst (store N) = List.map fst (store_all N)) /\
    (forall N J x, (Ninit <= N < Nmax)%N -> In (J, x) (store N) ->
       (forall i, 0 < th_boltz x i) /\ th_last x = (N == (Nmax - 1)%N) /\
       (forall e, (Ninit < N)%N -> In (J, e) (diag_file N) -> (th_dim x <= e_nrstored e)%N)) /\
    (forall N, (Ninit <= N < Nmax)%N -> 0 <= wn N /\ ((forall J x, In (J, x) (store N) -> (th_dim x <= discarded_from (N == (Nmax - 1)%N) x)%N) -> wn N = 0)) /\
    0 < wn (Nmax - 1)%N.

  (** Total weight carried by the matrix saved for step N: the last step carries its own weight, every other step the
      weight of the later steps. *)
  Definition later_weight (Nmax : nat) (wn : nat -> C) (N : nat) : C :=
    if N == (Nmax - 1)%N then wn N else \sum_(N.+1 <= k < Nmax) wn k.

  (** A positive Hermitian matrix of total weight [w] over all the sectors of step N: on the kept states of the step, or on
      all the states of the last step. *)
  Definition weighted_matrix (sh : shipped_table) (Nmax : nat) (cur : backsubs) (states : thermosubs C) (w : C) (N : nat) (rho : densmat C) : Prop :=
    full_trace (sh_sym sh) rho = w /\ NoDup (List.map fst rho) /\ List.map fst rho = List.map fst cur /\
    forall J M, In (J, M) rho ->
      (if N == (Nmax - 1)%N then exists x, In (J, x) states /\ f_rows M = th_dim x else exists b, In (J, b) cur /\ f_rows M = b_kept b) /\
      f_cols M = f_rows M /\ hermitian (f_rows M) (f_el M) /\ positive (f_rows M) (f_el M).

  (** Expectation value of a scalar (sector-diagonal) operator given by its matrix elements [A J s r] in each sector. *)
  Definition expectation (sy : symmetry) (rho : densmat C) (A : invar -> nat -> nat -> C) : C :=
    \sum_(p <- rho) zc C (degeneracy sy (fst p)) * \sum_(r < f_rows (snd p)) \sum_(s < f_rows (snd p)) f_el (snd p) r s * A (fst p) s r.

  (** The same operator in the eigenbasis of the next step: block by block U A U^+, where block i of sector J is built on
      the states of the i-th ancestor of J. *)
  Definition carried (sh : shipped_table) (diag : diaginfo C) (A : invar -> nat -> nat -> C) (J : invar) (b a : nat) : C :=
    match lookup diag J, ancestors (sh_sym sh) (sh_combs sh) (sh_tab sh) J with
    | Some e, Ok anc => \sum_(p <- List.combine anc (e_U e)) \sum_(s < f_cols (snd p)) \sum_(r < f_cols (snd p))
        f_el (snd p) b s * A (fst p) s r * (f_el (snd p) a r)^*
    | _, _ => 0
    end.

  (** Thermal expectation value, with total weight [w], over the states a shell discards (all states of the last one). *)
  Definition thermal (sy : symmetry) (last : bool) (states : thermosubs C) (w : C) (A : invar -> nat -> nat -> C) : C :=
    let weight (p : invar * thermosub C) (i : nat) : C := zc C (degeneracy sy (fst p)) * th_boltz (snd p) i in
    w * (\sum_(p <- states) \sum_(discarded_from last (snd p) <= i < th_dim (snd p)) weight p i * A (fst p) i i)
      / \sum_(p <- states) \sum_(discarded_from last (snd p) <= i < th_dim (snd p)) weight p i.
End Spec.
