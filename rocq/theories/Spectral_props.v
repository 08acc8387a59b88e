(** Property theorems C23, C42, C43, C44. *)
From Coq Require Import List ZArith Permutation.
From Verif Require Import Base Invar_model Symmetry_model Symmetry_spec Symmetry_tables Subspaces_model Density_model Density_spec
  Density_aux Spectral_model Spectral_spec Spectral_proofs Spectral_sum Spectral_aux.
From mathcomp Require Import ssreflect ssrfun ssrbool eqtype ssrnat seq fintype bigop ssralg ssrnum.
Import GRing.Theory Num.Theory.
Local Open Scope ring_scope.

(** C23. Over a shell the greater FDM algorithm returns exactly the Lehmann peaks of every transition except those between
    two refined (kept) states, each once. *)
Theorem C23_fdm_greater : forall (C : numClosedFieldType) (bz : C -> C) (a : args C) (rho : densmat C) wnf ri,
  fits a -> matrix_for rho (a_Ii a) (a_i a) ri ->
  exists l, calc_FDMgt bz a rho wnf = Ok l /\
    Permutation l (List.map (greater (a_factor a) (s_G (a_j a)) (s_G (a_i a)) (s_all (a_i a)) (f_el (a_op1 a)) (f_el (a_op2 a))
        (shell_matrix (refined (a_i a)) (f_el ri) (fun i => wnf * bz (s_G (a_i a) i))))
      (transitions (s_all (a_j a)) (s_all (a_i a)) (refined (a_j a)) (refined (a_i a)))).
Proof. move=> C bz a rho wnf ri Hfit. exact (fdm_greater bz Hfit wnf (ri := ri)). Qed.
Print Assumptions C23_fdm_greater.

Theorem C23_fdm_lesser : forall (C : numClosedFieldType) (gt : gf_type) (bz : C -> C) (a : args C) (rho : densmat C) wnf rj,
  fits a -> matrix_for rho (a_Ij a) (a_j a) rj ->
  exists l, calc_FDMls gt bz a rho wnf = Ok l /\
    Permutation l (List.map (lesser (statistics C gt) (a_factor a) (s_G (a_j a)) (s_G (a_i a)) (s_all (a_j a)) (f_el (a_op1 a)) (f_el (a_op2 a))
        (shell_matrix (refined (a_j a)) (f_el rj) (fun j => wnf * bz (s_G (a_j a) j))))
      (transitions (s_all (a_j a)) (s_all (a_i a)) (refined (a_j a)) (refined (a_i a)))).
Proof. move=> C gt bz a rho wnf rj Hfit. exact (fdm_lesser gt bz Hfit wnf (rj := rj)). Qed.
Print Assumptions C23_fdm_lesser.

(** The combined algorithm accumulates exactly the greater and the lesser one. *)
Theorem C23_fdm_both : forall (C : numClosedFieldType) (gt : gf_type) (bz : C -> C) (a : args C) (rho : densmat C) wnf ri rj,
  fits a -> matrix_for rho (a_Ii a) (a_i a) ri -> matrix_for rho (a_Ij a) (a_j a) rj ->
  exists lg ll, calc_FDM gt bz a rho wnf = Ok (lg, ll) /\ calc_FDMgt bz a rho wnf = Ok lg /\ calc_FDMls gt bz a rho wnf = Ok ll.
Proof. move=> C gt bz a rho wnf ri rj Hfit. exact (fdm_both gt bz Hfit wnf (ri := ri) (rj := rj)). Qed.
Print Assumptions C23_fdm_both.

Example C23_example : forall C : numClosedFieldType,
  fits (cs_args C) /\ matrix_for (cs_dm C) (a_Ii (cs_args C)) (a_i (cs_args C)) (cs_rho C) /\
  matrix_for (cs_dm C) (a_Ij (cs_args C)) (a_j (cs_args C)) (cs_rho C) /\
  transitions (s_all (a_j (cs_args C))) (s_all (a_i (cs_args C))) (refined (a_j (cs_args C))) (refined (a_i (cs_args C))) = [:: (0, 1); (1, 0); (1, 1)]%N.
Proof. exact case_C23. Qed.

(** C42. Sum rule of the full-density-matrix spectra of scalar operators: for every symmetry type, every first pass with
    orthonormal eigenvectors and every set of shell weights, the weights of all peaks of all shells add up to <A^+ B> for
    the greater and to -s <B A^+> for the lesser part, evaluated at the first step. *)
Theorem C42_fdm_succeeds : forall (C : numClosedFieldType) (sh : shipped_table) (near : C -> C -> bool) (checkrho : bool) (tiny : C -> bool),
  (forall x, near x x) -> forall Ninit Nmax diag_file store_all store wn bz wnf E l gt (A B : nat -> invar -> nat -> nat -> C),
  first_pass sh Ninit Nmax diag_file store_all -> fdm_data Ninit Nmax diag_file store_all store wn ->
  complete_data sh Ninit Nmax diag_file store_all store wn bz wnf E ->
  prepare_rhoFDM (sh_sym sh) (sh_combs sh) (sh_tab sh) near checkrho diag_file store_all store wn tiny Ninit Nmax = Ok l ->
  forall N rho, (Ninit <= N < Nmax)%N -> In (N, rho) l ->
    (exists ps, shell_peaks (sh_sym sh) (fun a => calc_FDMgt bz a rho (wnf N)) (E N) (A N) (B N) (store N) = Ok ps) /\
    (exists ps, shell_peaks (sh_sym sh) (fun a => calc_FDMls gt bz a rho (wnf N)) (E N) (A N) (B N) (store N) = Ok ps).
Proof. exact fdm_shells_succeed. Qed.
Print Assumptions C42_fdm_succeeds.

Theorem C42_fdm_sum_rule : forall (C : numClosedFieldType) (sh : shipped_table) (near : C -> C -> bool) (checkrho : bool) (tiny : C -> bool),
  (forall x, near x x) -> forall Ninit Nmax diag_file store_all store wn bz wnf E l gt (A B : nat -> invar -> nat -> nat -> C),
  first_pass sh Ninit Nmax diag_file store_all -> fdm_data Ninit Nmax diag_file store_all store wn ->
  complete_data sh Ninit Nmax diag_file store_all store wn bz wnf E ->
  prepare_rhoFDM (sh_sym sh) (sh_combs sh) (sh_tab sh) near checkrho diag_file store_all store wn tiny Ninit Nmax = Ok l ->
  followed sh Ninit Nmax diag_file A -> followed sh Ninit Nmax diag_file B ->
  forall gpeaks lpeaks rho0,
  (forall N rho, (Ninit <= N < Nmax)%N -> In (N, rho) l ->
     shell_peaks (sh_sym sh) (fun a => calc_FDMgt bz a rho (wnf N)) (E N) (A N) (B N) (store N) = Ok (gpeaks N) /\
     shell_peaks (sh_sym sh) (fun a => calc_FDMls gt bz a rho (wnf N)) (E N) (A N) (B N) (store N) = Ok (lpeaks N)) ->
  In (Ninit, rho0) l ->
  \sum_(Ninit <= N < Nmax) total_weight (gpeaks N) =
    shell_average (sh_sym sh) (Ninit == (Nmax - 1)%N) rho0 (store Ninit) (wn Ninit) (dagger_times (dim_of (store Ninit)) (A Ninit) (B Ninit)) /\
  \sum_(Ninit <= N < Nmax) total_weight (lpeaks N) =
    - statistics C gt * shell_average (sh_sym sh) (Ninit == (Nmax - 1)%N) rho0 (store Ninit) (wn Ninit) (times_dagger (dim_of (store Ninit)) (A Ninit) (B Ninit)).
Proof. exact fdm_sum_rule. Qed.
Print Assumptions C42_fdm_sum_rule.

Example C42_example : forall C : numClosedFieldType,
  first_pass case_sh 0 3 (case_df C) case_sa /\ fdm_data 0 3 (case_df C) case_sa (case_store C) (case_wn C) /\
  complete_data case_sh 0 3 (case_df C) case_sa (case_store C) (case_wn C) (fun _ => 1) (case_wnf C) (fun _ _ _ => 0) /\
  followed case_sh 0 3 (case_df C) (case_A C) /\ case_A C 1 (key 0) 0%N 1%N = - (12%:R / 25%:R).
Proof. exact case_C42. Qed.

(** C43. The complete-Fock-space algorithm before the last step.  For fermionic operators it returns exactly the Lehmann peaks
    of the transitions between kept and discarded states. *)
Theorem C43_cfs_fermions : forall (C : numClosedFieldType) (bz : C -> C) (a : args C) (rho : densmat C) Z ri rj,
  fits a -> matrix_for rho (a_Ii a) (a_i a) ri -> matrix_for rho (a_Ij a) (a_j a) rj -> s_last (a_i a) = false -> s_last (a_j a) = false ->
  calc_CFS fermionic bz a rho false Z = Ok (lesser_part fermionic a (f_el rj) ++ greater_part a (f_el ri))%list.
Proof. move=> C bz a rho Z ri rj Hfit. exact (cfs_total fermionic bz Hfit Z (ri := ri) (rj := rj)). Qed.
Print Assumptions C43_cfs_fermions.

(** For bosonic operators every one of these peaks comes out with the opposite sign. *)
Theorem C43_cfs_bosons_negated : forall (C : numClosedFieldType) (bz : C -> C) (a : args C) (rho : densmat C) Z ri rj,
  fits a -> matrix_for rho (a_Ii a) (a_i a) ri -> matrix_for rho (a_Ij a) (a_j a) rj -> s_last (a_i a) = false -> s_last (a_j a) = false ->
  calc_CFS bosonic bz a rho false Z = Ok (List.map (@negate C) (lesser_part bosonic a (f_el rj) ++ greater_part a (f_el ri)))%list.
Proof. move=> C bz a rho Z ri rj Hfit. exact (cfs_total bosonic bz Hfit Z (ri := ri) (rj := rj)). Qed.
Print Assumptions C43_cfs_bosons_negated.

(** At the last step both statistics are right. *)
Theorem C43_cfs_last_step : forall (C : numClosedFieldType) (gt : gf_type) (bz : C -> C) (a : args C) (rho : densmat C) Z, fits a ->
  calc_CFS gt bz a rho true Z =
    Ok (List.map (thermal_greater bz Z a) (List.list_prod (kept_states (a_j a)) (kept_states (a_i a))) ++
        List.map (thermal_lesser gt bz Z a) (List.list_prod (kept_states (a_j a)) (kept_states (a_i a))))%list.
Proof. move=> C gt bz a rho Z Hfit. exact (cfs_last gt bz rho Hfit Z). Qed.
Print Assumptions C43_cfs_last_step.

(** Hence the full claim, for both statistics, is false of the code. *)
Theorem C43_cfs_bosons_refuted : forall (C : numClosedFieldType) (bz : C -> C) Z, exists (a : args C) rho ri rj,
  fits a /\ matrix_for rho (a_Ii a) (a_i a) ri /\ matrix_for rho (a_Ij a) (a_j a) rj /\ s_last (a_i a) = false /\ s_last (a_j a) = false /\
  exists l, calc_CFS bosonic bz a rho false Z = Ok l /\ ~ Permutation l (lesser_part bosonic a (f_el rj) ++ greater_part a (f_el ri)).
Proof. move=> C bz Z. exists (cs_args C), (cs_dm C), (cs_rho C), (cs_rho C). exact (case_C43 bz Z). Qed.
Print Assumptions C43_cfs_bosons_refuted.

(** The algorithm selected by "cfsls" (CFS lesser) does not return the lesser part before the last step. *)
Theorem C43_cfsls_part_refuted : forall (C : numClosedFieldType) (bz : C -> C) Z, exists (a : args C) rho ri rj,
  fits a /\ matrix_for rho (a_Ii a) (a_i a) ri /\ matrix_for rho (a_Ij a) (a_j a) rj /\ s_last (a_i a) = false /\ s_last (a_j a) = false /\
  exists l, calc_CFSls fermionic bz a rho false Z = Ok l /\ l = greater_part a (f_el ri) /\ ~ Permutation l (lesser_part fermionic a (f_el rj)).
Proof. move=> C bz Z. exists (cs_args C), (cs_dm C), (cs_rho C), (cs_rho C). exact (case_C43_parts bz Z). Qed.
Print Assumptions C43_cfsls_part_refuted.

(** C44. FT and DMNRG: one peak per pair of kept states, holding both parts. *)
Theorem C44_ft : forall (C : numClosedFieldType) (gt : gf_type) (bz : C -> C) (a : args C) Z, fits a ->
  calc_FT gt bz a Z =
    Ok (List.map (fun ji => joined (thermal_greater bz Z a ji) (thermal_lesser gt bz Z a ji)) (List.list_prod (kept_states (a_j a)) (kept_states (a_i a)))).
Proof. move=> C gt bz a Z Hfit. exact (ft_all gt bz Hfit Z). Qed.
Print Assumptions C44_ft.

Theorem C44_dmnrg_symmetric : forall (C : numClosedFieldType) (gt : gf_type) (a : args C) (rho : densmat C) guard ri rj,
  fits a -> covers_kept rho (a_Ii a) (a_i a) ri -> covers_kept rho (a_Ij a) (a_j a) rj ->
  symmetric_on (s_post (a_i a)) (f_el ri) -> symmetric_on (s_post (a_j a)) (f_el rj) ->
  calc_DMNRG gt a rho guard = Ok (List.map (both_parts gt a (f_el ri) (f_el rj))
    (List.filter (fun ji => ~~ guard (s_zero (a_j a) (fst ji) - s_zero (a_i a) (snd ji))) (List.list_prod (kept_states (a_j a)) (kept_states (a_i a))))).
Proof. move=> C gt a rho guard ri rj Hfit. exact (dmnrg_symmetric gt Hfit guard (ri := ri) (rj := rj)). Qed.
Print Assumptions C44_dmnrg_symmetric.

(** For complex Hermitian density matrices (complex matrix elements) the code uses the transpose, and the result is wrong. *)
Theorem C44_dmnrg_hermitian_refuted : forall (C : numClosedFieldType) (gt : gf_type), exists (a : args C) rho ri rj,
  fits a /\ covers_kept rho (a_Ii a) (a_i a) ri /\ covers_kept rho (a_Ij a) (a_j a) rj /\
  hermitian (s_post (a_i a)) (f_el ri) /\ hermitian (s_post (a_j a)) (f_el rj) /\
  exists l, calc_DMNRG gt a rho (fun _ => false) = Ok l /\
    ~ Permutation l (List.map (both_parts gt a (f_el ri) (f_el rj)) (List.list_prod (kept_states (a_j a)) (kept_states (a_i a)))).
Proof. move=> C gt. exists (cx_args C), (cx_dm C), (cx_ri C), (cx_rj C). exact (case_C44 C gt). Qed.
Print Assumptions C44_dmnrg_hermitian_refuted.

Example C43_C44_example : forall C : numClosedFieldType,
  fits (cs_args C) /\ matrix_for (cs_dm C) (a_Ii (cs_args C)) (a_i (cs_args C)) (cs_rho C) /\
  matrix_for (cs_dm C) (a_Ij (cs_args C)) (a_j (cs_args C)) (cs_rho C) /\
  covers_kept (cs_dm C) (a_Ii (cs_args C)) (a_i (cs_args C)) (cs_rho C) /\ symmetric_on 1 (f_el (cs_rho C)) /\
  greater_part (cs_args C) (f_el (cs_rho C)) = [:: (1, 1)] /\ lesser_part bosonic (cs_args C) (f_el (cs_rho C)) = [:: (-1, -1)].
Proof. exact case_C43_C44. Qed.
