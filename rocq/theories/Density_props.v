(** Property theorems C20, C22, C39. *)
From Coq Require Import List ZArith.
From Verif Require Import Base Invar_model Symmetry_model Symmetry_spec Symmetry_tables Subspaces_model Density_model Density_spec
  Density_chain Density_fdm Density_expect Density_aux.
From mathcomp Require Import ssreflect ssrfun ssrbool eqtype ssrnat fintype bigop ssralg ssrnum.
Import GRing.Theory Num.Theory.
Local Open Scope ring_scope.

(** C20. For every shipped symmetry table, every first pass with orthonormal eigenvectors and every thermal starting point
    the second pass succeeds and saves, for every step, a normalised density matrix of the size of the kept space; the
    trace checks of the code never fire.  [near] is the numerical comparison, [checkrho] the option switching checks on. *)
Theorem C20_reduced_density_matrices : forall (C : numClosedFieldType) (sh : shipped_table) (near : C -> C -> bool) (checkrho : bool),
  (forall x, near x x) -> forall Ninit Nmax diag_file store_all keepsec d,
  first_pass sh Ninit Nmax diag_file store_all -> last_step (store_all (Nmax - 1)%N) keepsec d ->
  exists l, prepare_rho (sh_sym sh) (sh_combs sh) (sh_tab sh) near checkrho diag_file store_all Ninit Nmax keepsec d = Ok l /\
    List.map fst l = List.rev (List.seq Ninit (Nmax - Ninit)) /\
    forall N rho, In (N, rho) l -> density_matrix sh (store_all N) rho.
Proof. move=> C sh near checkrho H Ninit Nmax df sa ks d Hfp Hls. exact (prepare_rho_ok (proj1 Hfp) checkrho H Hfp Hls). Qed.
Print Assumptions C20_reduced_density_matrices.

(** One step back, from any density matrix. *)
Theorem C20_one_step_back : forall (C : numClosedFieldType) (sh : shipped_table) prev cur (diag : diaginfo C) rho,
  In sh shipped -> NoDup (List.map fst prev) -> (forall J b, In (J, b) prev -> multiplet (sh_sym sh) J) ->
  (forall J b, In (J, b) prev -> (Z.of_nat (b_kept b) <= 1000000)%Z) ->
  regular_step sh prev cur diag -> density_matrix sh cur rho ->
  exists rp, dm_iterN (sh_sym sh) (sh_combs sh) (sh_tab sh) diag rho cur prev = Ok rp /\ density_matrix sh prev rp /\ List.map fst rp = List.map fst prev.
Proof. exact one_step_back. Qed.
Print Assumptions C20_one_step_back.

Example C20_example : forall C : numClosedFieldType,
  first_pass case_sh 0 3 (case_df C) case_sa /\ last_step (case_sa 2) (fun _ => true) (case_last C) /\
  exists J e, In (J, e) (case_df C 1) /\ e_nrstored e = 2%N /\ exists b, In (J, b) (case_sa 1) /\ b_kept b = 1%N.
Proof. exact case_C20. Qed.

(** C22. The full density matrix: the matrix saved for a step carries the weight of all later shells (the last one its own). *)
Theorem C22_full_density_matrix : forall (C : numClosedFieldType) (sh : shipped_table) (near : C -> C -> bool) (checkrho : bool) (tiny : C -> bool),
  (forall x, near x x) -> forall Ninit Nmax diag_file store_all store wn,
  first_pass sh Ninit Nmax diag_file store_all -> fdm_data Ninit Nmax diag_file store_all store wn ->
  exists l, prepare_rhoFDM (sh_sym sh) (sh_combs sh) (sh_tab sh) near checkrho diag_file store_all store wn tiny Ninit Nmax = Ok l /\
    List.map fst l = List.rev (List.seq Ninit (Nmax - Ninit)) /\
    forall N rho, In (N, rho) l -> weighted_matrix sh Nmax (store_all N) (store N) (later_weight Nmax wn N) N rho.
Proof. move=> C sh near checkrho tiny H Ninit Nmax df sa st wn Hfp Hfd. exact (prepare_rhoFDM_ok (proj1 Hfp) checkrho tiny H Hfp Hfd). Qed.
Print Assumptions C22_full_density_matrix.

Example C22_example : forall C : numClosedFieldType,
  first_pass case_sh 0 3 (case_df C) case_sa /\ fdm_data 0 3 (case_df C) case_sa (case_store C) (case_wn C) /\
  later_weight 3 (case_wn C) 0 = 1 /\ later_weight 3 (case_wn C) 1 = 1 / 4%:R /\ later_weight 3 (case_wn C) 2 = 1 / 4%:R.
Proof. exact case_C22. Qed.

(** C39. Expectation values do not depend on the step at which they are evaluated. *)
Theorem C39_expectation_step_independent : forall (C : numClosedFieldType) (sh : shipped_table) (near : C -> C -> bool) (checkrho : bool),
  (forall x, near x x) -> forall Ninit Nmax diag_file store_all keepsec d l,
  first_pass sh Ninit Nmax diag_file store_all -> last_step (store_all (Nmax - 1)%N) keepsec d ->
  prepare_rho (sh_sym sh) (sh_combs sh) (sh_tab sh) near checkrho diag_file store_all Ninit Nmax keepsec d = Ok l ->
  forall N rho rho_prev, (Ninit < N < Nmax)%N -> In (N, rho) l -> In ((N - 1)%N, rho_prev) l -> forall A,
    expectation (sh_sym sh) rho_prev A = expectation (sh_sym sh) rho (carried sh (diag_file N) A).
Proof. move=> C sh near checkrho H Ninit Nmax df sa ks d l Hfp Hls. exact (prepare_rho_expect (proj1 Hfp) H Hfp Hls). Qed.
Print Assumptions C39_expectation_step_independent.

(** With the full density matrix each step back adds exactly the thermal average over the states that step discarded. *)
Theorem C39_full_density_matrix_average : forall (C : numClosedFieldType) (sh : shipped_table) (near : C -> C -> bool) (checkrho : bool) (tiny : C -> bool),
  (forall x, near x x) -> forall Ninit Nmax diag_file store_all store wn l,
  first_pass sh Ninit Nmax diag_file store_all -> fdm_data Ninit Nmax diag_file store_all store wn ->
  prepare_rhoFDM (sh_sym sh) (sh_combs sh) (sh_tab sh) near checkrho diag_file store_all store wn tiny Ninit Nmax = Ok l ->
  (forall rho A, In ((Nmax - 1)%N, rho) l -> expectation (sh_sym sh) rho A = thermal (sh_sym sh) true (store (Nmax - 1)%N) (wn (Nmax - 1)%N) A) /\
  forall N rho rho_prev, (Ninit < N < Nmax)%N -> In (N, rho) l -> In ((N - 1)%N, rho_prev) l -> forall A,
    expectation (sh_sym sh) rho_prev A = expectation (sh_sym sh) rho (carried sh (diag_file N) A) +
      (if N == (Nmax - 1)%N then 0 else thermal (sh_sym sh) false (store N) (wn N) (carried sh (diag_file N) A)).
Proof. move=> C sh near checkrho tiny H Ninit Nmax df sa st wn l Hfp Hfd. exact (prepare_rhoFDM_expect (proj1 Hfp) H Hfp Hfd). Qed.
Print Assumptions C39_full_density_matrix_average.

(** The operator n (0, 1, 2, ... in the kept states) carried to the middle sector of the first step mixes the two blocks. *)
Example C39_example : forall C : numClosedFieldType,
  carried case_sh (case_df C 1) (fun J _ _ => if invar_eqb J (key 1) then 1 else 0) (key 0) 0 1 = - (12%:R / 25%:R).
Proof. exact case_C39. Qed.
