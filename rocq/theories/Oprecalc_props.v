(** C62, C63: spectra, expectation values and their files. *)
From Coq Require Import List ZArith Ascii String.
From Verif Require Import Base Oprecalc_model Oprecalc_spec Oprecalc_list Oprecalc_run Oprecalc_files Oprecalc_aux.
Import ListNotations.
Local Open Scope string_scope.
Local Open Scope list_scope.

(** C62: what is computed was asked for, and the two operators were transformed at every step up to the present one. *)
Theorem C62_spectrum_uses_carried_operators (M : Type) (empty : M) recalc trim P run a Ninit Nmax at_step sp v1 v2 d z :
  In (Contribution M at_step sp v1 v2 d z) (run_phase M empty recalc trim P run Ninit Nmax a) ->
  requested P run a sp /\ measured_at P run Ninit Nmax at_step /\
  (exists w1 w2, v1 = Some w1 /\ value_at recalc trim a Ninit at_step (sp_t1 sp) (sp_n1 sp) w1 /\
                 v2 = Some w2 /\ value_at recalc trim a Ninit at_step (sp_t2 sp) (sp_n2 sp) w2) /\
  d = density_for (sp_algo sp) /\ z = partition_for (sp_algo sp).
Proof. exact (spectra_computed M empty recalc trim P run a Ninit Nmax at_step sp v1 v2 d z). Qed.
Print Assumptions C62_spectrum_uses_carried_operators.
Example C62_spectrum_uses_carried_operators_ex :
  In (Contribution (list nat) (Some 4%nat) (ex_sp CFS) (Some [4; 103; 3; 102; 2; 0]%nat) (Some [4; 103; 3; 102; 2; 0]%nat) (Some Rho) (Some Zft)) (ex_run RunDM).
Proof. exact ex_contribution. Qed.

(** C62: every spectrum that was asked for is computed at every step. *)
Theorem C62_requested_spectrum_at_every_step (M : Type) (empty : M) recalc trim P run a Ninit Nmax at_step sp :
  requested P run a sp -> measured_at P run Ninit Nmax at_step ->
  exists v1 v2 d z, In (Contribution M at_step sp v1 v2 d z) (run_phase M empty recalc trim P run Ninit Nmax a).
Proof. exact (spectra_complete M empty recalc trim P run a Ninit Nmax at_step sp). Qed.
Print Assumptions C62_requested_spectrum_at_every_step.
Example C62_requested_spectrum_at_every_step_ex : requested ex_P RunNRG ex_ops (Spectrum "gt" "d-d-u" GT 1%Z true Td "d" Td "d").
Proof. exact ex_requested. Qed.

(** C62: the expectation values of all the singlet and global operators are computed at every step of the first run, with operators
    transformed at every step. *)
Theorem C62_expectation_values_of_carried_operators (M : Type) (empty : M) recalc trim P run a Ninit Nmax at_step t n v :
  In (Expectation M at_step t n v) (run_phase M empty recalc trim P run Ninit Nmax a) <->
  run = RunNRG /\ measured_at P run Ninit Nmax at_step /\ (t = Ts \/ t = Tg) /\ value_at recalc trim a Ninit at_step t n v.
Proof. exact (expectation_values M empty recalc trim P run a Ninit Nmax at_step t n v). Qed.
Print Assumptions C62_expectation_values_of_carried_operators.
Example C62_expectation_values_of_carried_operators_ex : In (Expectation (list nat) (Some 3%nat) Tg "Q" [3; 102; 2; 0]%nat) (ex_run RunNRG).
Proof. vm_compute. tauto. Qed.

(** C62: the expectation values with the full density matrix, at the step that was chosen. *)
Theorem C62_fdm_expectation_values_of_carried_operators (M : Type) (empty : M) recalc trim P run a Ninit Nmax at_step t n v :
  In (FdmExpectation M at_step t n v) (run_phase M empty recalc trim P run Ninit Nmax a) <->
  run = RunDM /\ p_fdmexpv P = true /\ at_step = Some (p_fdmexpvn P) /\ (Ninit <= p_fdmexpvn P < Nmax)%nat /\ (t = Ts \/ t = Tg) /\
  value_at recalc trim a Ninit at_step t n v.
Proof. exact (fdm_expectation_values M empty recalc trim P run a Ninit Nmax at_step t n v). Qed.
Print Assumptions C62_fdm_expectation_values_of_carried_operators.
Example C62_fdm_expectation_values_of_carried_operators_ex : In (FdmExpectation (list nat) (Some 3%nat) Ts "Sz" [3; 102; 2; 0]%nat) (ex_run RunDM).
Proof. vm_compute. tauto. Qed.

(** C62: the density matrix is loaded and the partition function is computed whenever an algorithm uses it. *)
Theorem C62_spectrum_inputs_available (M : Type) (empty : M) recalc trim P run a Ninit Nmax at_step sp v1 v2 d z :
  In (Contribution M at_step sp v1 v2 d z) (run_phase M empty recalc trim P run Ninit Nmax a) ->
  (forall r, d = Some r -> rho_loaded P run r = true) /\ (forall y, z = Some y -> z_computed P y = true).
Proof. exact (inputs_available M empty recalc trim P run a Ninit Nmax at_step sp v1 v2 d z). Qed.
Print Assumptions C62_spectrum_inputs_available.
Example C62_spectrum_inputs_available_ex : rho_loaded ex_P RunDM RhoFDM = true /\ z_computed ex_P Zgt = true /\ z_computed ex_P Zchit = false.
Proof. vm_compute. tauto. Qed.

(** C63: every spectrum has a file of its own. *)
Theorem C63_spectra_in_distinct_files (M : Type) P run (a : operators M) : plain_names a -> NoDup (output_files P run a).
Proof. exact (files_distinct M P run a). Qed.
Print Assumptions C63_spectra_in_distinct_files.
Example C63_spectra_in_distinct_files_ex : plain_names ex_ops /\
  output_files ex_P RunDM ex_ops =
    ["corr_CFS_dens_n-Q"; "corr_FDM_dens_n-Q"; "spec_CFS_dens_d-f-d"; "spec_FDM_dens_d-f-d"; "spec_CFS_dens_d-d-u"; "spec_FDM_dens_d-d-u"].
Proof. split; [exact ex_plain | vm_compute; reflexivity]. Qed.

(** C63: not so if the names contain hyphens. *)
Theorem C63_spectra_in_distinct_files_hyphen_refuted :
  ~ (forall P run (a : operators nat) sp sp', (forall t, NoDup (map fst (set_of nat a t))) -> requested P run a sp -> requested P run a sp' ->
       (sp_n1 sp, sp_n2 sp) <> (sp_n1 sp', sp_n2 sp') -> spec_fn sp <> spec_fn sp').
Proof. exact (fun H => match clash with conj U (ex_intro _ sp (ex_intro _ sp' (conj R (conj R' (conj N E))))) => H _ _ _ sp sp' U R R' N E end). Qed.
Print Assumptions C63_spectra_in_distinct_files_hyphen_refuted.
