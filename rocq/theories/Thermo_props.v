(** Property theorems C21, C30, C40. *)
From Coq Require Import List ZArith Reals.
From Verif Require Import Base Invar_model Thermo_model Thermo_spec Thermo_proofs Thermo_aux.
Import ListNotations.
Local Open Scope R_scope.

(** C21. The shell weights of the full density matrix exist (no assertion fires), are non-negative, sum to one, vanish exactly
    for shells without discarded states and are the Gibbs probabilities of the shells. *)
Theorem C21_shell_weights : forall mult combs T Nbegin Nend store GS E0, 0 < T -> completed mult combs Nend store Nbegin GS E0 ->
  forall near, (forall x, near x x = true) -> exists zg zn ZZ w, calc_ZnD mult combs T Nbegin Nend store near = Ok (zg, zn, ZZ, w) /\
    (forall N, (Nbegin <= N < Nend)%nat -> 0 <= w N) /\ rsum w (seq Nbegin (Nend - Nbegin)) = 1 /\
    (forall N, (Nbegin <= N < Nend)%nat -> (0 < w N <-> shell_levels mult combs Nend store N <> [])) /\
    (forall N, (Nbegin <= N < Nend)%nat -> w N = partition T (shell_levels mult combs Nend store N) / partition T (chain_levels mult combs Nend store Nbegin)).
Proof. intros mult combs T Nbegin Nend store GS E0 _. exact (shell_weights mult combs T Nbegin Nend store GS E0). Qed.
Print Assumptions C21_shell_weights.

(** The weights of the states of a shell sum to the weight of the shell, and each is the Gibbs probability of the physical
    states it stands for. *)
Theorem C21_state_weights : forall mult combs T Nbegin Nend store GS E0, 0 < T -> completed mult combs Nend store Nbegin GS E0 ->
  forall N, (Nbegin <= N < Nend)%nat ->
  over_states (state_weight mult combs T Nbegin Nend store N) (store N) = wn mult combs T Nbegin Nend store N /\
  forall J ds i, In (J, ds) (store N) -> In i (all_states ds) -> exists x, In x (chain_levels mult combs Nend store Nbegin) /\
    energy x = abs_T ds i /\ count x = IZR (mult J) * INR combs ^ (Nend - 1 - N) /\
    state_weight mult combs T Nbegin Nend store N J ds i = count x * prob T (chain_levels mult combs Nend store Nbegin) x.
Proof. intros mult combs T Nbegin Nend store GS E0 _. exact (state_weights mult combs T Nbegin Nend store GS E0). Qed.
Print Assumptions C21_state_weights.

Example C21_example : completed case_mult 4 2 case_store 0 (- ln 2) case_E0 /\
  wn case_mult 4 1 0 2 case_store 0 = 5 / 11 /\ wn case_mult 4 1 0 2 case_store 1 = 6 / 11.
Proof. exact case_C21. Qed.

(** C30. Thermodynamics of the whole chain: partition function and free energy are exact, S = (E-F)/T and C >= 0 always; when
    no shell is negligible, E, C and S are the Gibbs average energy, heat capacity and entropy, and 0 <= S <= ln(number of states). *)
Theorem C30_fdm_thermodynamics : forall mult combs T Nbegin Nend store GS E0, 0 < T -> completed mult combs Nend store Nbegin GS E0 ->
  let L := chain_levels mult combs Nend store Nbegin in let r := fdm_thermodynamics mult combs T Nbegin Nend store GS in
  fdm_Z r = partition T L /\ fdm_F r = free_energy T L /\ fdm_S r = (fdm_E r - fdm_F r) / T /\ 0 <= fdm_C r /\
  (no_negligible_shell T mult combs Nbegin Nend store ->
     fdm_E r = average T L (fun e => e) /\ fdm_C r = heat_capacity T L /\ fdm_S r = entropy T L /\ 0 <= fdm_S r <= ln (number L)).
Proof. exact fdm_laws. Qed.
Print Assumptions C30_fdm_thermodynamics.

Theorem C30_fdm_energy_shift : forall mult combs T Nbegin Nend store GS E0, 0 < T -> completed mult combs Nend store Nbegin GS E0 ->
  forall c, no_negligible_shell T mult combs Nbegin Nend store ->
  let r := fdm_thermodynamics mult combs T Nbegin Nend store GS in
  let r' := fdm_thermodynamics mult combs T Nbegin Nend (move_store c store) (GS + c) in
  fdm_S r' = fdm_S r /\ fdm_C r' = fdm_C r /\ fdm_F r' = fdm_F r + c /\ fdm_E r' = fdm_E r + c.
Proof. exact fdm_move. Qed.
Print Assumptions C30_fdm_energy_shift.

(** The thermodynamics of one step (file "td"), in units of the temperature. *)
Theorem C30_step_thermodynamics : forall mult factor diag,
  (forall J v, In (J, v) diag -> (1 <= mult J)%Z) -> (exists J v, In (J, v) diag /\ v <> []) ->
  let l := step_levels mult factor diag in let r := calculate_TD mult diag factor in
  td_Z r = partition 1 l /\ td_E r = average 1 l (fun e => e) /\ td_E2 r = average 1 l (fun e => e ^ 2) /\ td_F r = free_energy 1 l /\
  td_C r = heat_capacity 1 l /\ td_S r = entropy 1 l /\ 0 <= td_C r /\ td_S r = td_E r - td_F r /\ 0 <= td_S r <= ln (number l).
Proof. exact td_laws. Qed.
Print Assumptions C30_step_thermodynamics.

Theorem C30_step_energy_shift : forall c mult factor diag,
  (forall J v, In (J, v) diag -> (1 <= mult J)%Z) -> (exists J v, In (J, v) diag /\ v <> []) ->
  let r := calculate_TD mult diag factor in let r' := calculate_TD mult (move_step c diag) factor in
  td_S r' = td_S r /\ td_C r' = td_C r /\ td_F r' = td_F r + factor * c /\ td_E r' = td_E r + factor * c.
Proof. exact td_move. Qed.
Print Assumptions C30_step_energy_shift.

Example C30_example : completed case_mult 4 2 case_store 0 (- ln 2) case_E0 /\ no_negligible_shell 1 case_mult 4 0 2 case_store /\
  length (chain_levels case_mult 4 2 case_store 0) = 4%nat.
Proof. exact case_C30. Qed.
Example C30_example_step : (forall J v, In (J, v) case_diag -> (1 <= case_mult J)%Z) /\ (exists J v, In (J, v) case_diag /\ v <> []) /\
  td_Z (calculate_TD case_mult case_diag 1) = 15 / 4.
Proof. exact case_step. Qed.

(** C40. Expectation values of scalar operators are thermal averages: identity gives one, linear, within the range of the diagonal. *)
Theorem C40_singlet_expectation_values : forall mult factor diag,
  (forall J v, In (J, v) diag -> (1 <= mult J)%Z) -> (exists J v, In (J, v) diag /\ v <> []) ->
  (forall m, measure_singlet mult diag factor m = thermal_average mult factor diag m) /\
  measure_singlet mult diag factor (fun _ _ => 1) = 1 /\
  (forall a b m n, measure_singlet mult diag factor (fun J i => a * m J i + b * n J i) = a * measure_singlet mult diag factor m + b * measure_singlet mult diag factor n) /\
  (forall lo hi m, (forall J v i, In (J, v) diag -> (i < length v)%nat -> lo <= m J i <= hi) -> lo <= measure_singlet mult diag factor m <= hi).
Proof. exact singlet_expectation. Qed.
Print Assumptions C40_singlet_expectation_values.

Example C40_example : (forall J v, In (J, v) case_diag -> (1 <= case_mult J)%Z) /\ (exists J v, In (J, v) case_diag /\ v <> []) /\
  td_Z (calculate_TD case_mult case_diag 1) = 15 / 4.
Proof. exact case_step. Qed.
