{
 "claims": [
  {
   "property": "C01",
   "status": "proved",
   "theorems": [
    "C01_combine_composes",
    "C01_combine_commutative",
    "C01_combine_associative",
    "C01_inverse",
    "C01_inverse_undoes_combine",
    "C01_order_is_total"
   ],
   "note": "combine/inverse on arbitrary signatures; int overflow not modelled."
  },
  {
   "property": "C02",
   "status": "proved",
   "theorems": [
    "C02_ancestor_descendant_duality",
    "C02_any_table"
   ],
   "note": "For all 51 shipped tables and for any well-formed table."
  },
  {
   "property": "C03",
   "status": "proved",
   "theorems": [
    "C03_dimension_per_multiplet"
   ],
   "note": "All 51 shipped table pairs, all multiplets (unbounded quantum numbers)."
  },
  {
   "property": "C04",
   "status": "proved",
   "theorems": [
    "C04_step_dimension"
   ],
   "note": "Whole-step state count, no int overflow for the shipped tables, completeness of the schedule."
  },
  {
   "property": "C05",
   "status": "proved",
   "theorems": [
    "C05_blocks_tile_basis",
    "C05_block_zero_rejected",
    "C05_total",
    "C05_total_overflow_refuted",
    "C05_offdiagonal_blocks"
   ],
   "note": "Tiling proved; SubspaceDimensions::total wraps for sums of 2^31 and above (refuted), unreachable for shipped tables (C04)."
  },
  {
   "property": "C06",
   "status": "proved",
   "theorems": [
    "C06_task_list",
    "C06_tasks_descending"
   ],
   "note": "TaskList and tasks_descending_by_subspace_dimension."
  },
  {
   "property": "C07",
   "status": "proved",
   "theorems": [
    "C07_su2_rule",
    "C07_su2_symmetric",
    "C07_selection_rules"
   ],
   "note": ""
  },
  {
   "property": "C08",
   "status": "proved",
   "theorems": [
    "C08_kept_states_are_the_lowest",
    "C08_step_from_raw_energies"
   ],
   "note": "For every setting and outcome; plus the full path from raw eigenvalues (shift, splitting clean-up, truncation) with absence of assertion failures and undefined behaviour. Energies are integers (order only), NaN not modelled. floquet=false in the raw-energy theorem."
  },
  {
   "property": "C09",
   "status": "proved",
   "theorems": [
    "C09_cutoff",
    "C09_number_of_kept_states",
    "C09_last_step_keeps_all",
    "C09_request_is_clamped",
    "C09_huge_safeguardmax_refuted"
   ],
   "note": "Exact characterisation of the cutoff, count bounds, clamping. Needs keep+safeguardmax < 2^64; beyond that the prefix size wraps and the guarantee fails (refuted theorem)."
  },
  {
   "property": "C10",
   "status": "proved",
   "theorems": [
    "C10_uncomputed_states_are_not_below_kept_ones",
    "C10_cutoff_as_from_full_spectrum",
    "C10_fewer_states_than_requested_refuted"
   ],
   "note": "Uncomputed states are never below kept ones; cutoff equals the full-spectrum cutoff when keep < number of computed states. Finding: when keep >= number of computed states the incomplete diagonalisation is not noticed and fewer than keep states are kept (refuted theorem)."
  },
  {
   "property": "C11",
   "status": "proved",
   "theorems": [
    "C11_restart_loop_terminates",
    "C11_single_attempt_without_restart",
    "C11_small_factor_loops_refuted"
   ],
   "note": "Ratios are exact rationals (double rounding not modelled). Finding: restartfactor in [0,1] is not rejected and loops forever (refuted theorem)."
  },
  {
   "property": "C12",
   "status": "proved",
   "theorems": [
    "C12_cleanup",
    "C12_cleanup_is_determined",
    "C12_isolated_levels_untouched"
   ],
   "note": "Existence and uniqueness of the cleaned-up spectrum."
  },
  {
   "property": "C13",
   "status": "proved",
   "theorems": [
    "C13_sort_by_criterion"
   ],
   "note": "For every permutation allowed by std::sort."
  },
  {
   "property": "C14",
   "status": "proved",
   "theorems": [
    "C14_ranges_partition_the_states",
    "C14_stored_range_partial_diagonalisation_refuted"
   ],
   "note": "StoredEigen::all() agrees with Drange() only for complete diagonalisation; otherwise it exceeds the computed states (refuted theorem; Params::validate forbids this combination for FDM with dsyevr/zheevr)."
  },
  {
   "property": "C15",
   "status": "proved",
   "theorems": [
    "C15_every_task_once",
    "C15_never_fails",
    "C15_jobs_go_to_idle_workers",
    "C15_executions_are_bounded",
    "C15_no_deadlock",
    "C15_matrix_pieces"
   ],
   "note": "Message-level model of master and workers (every send/receive/probe is one step; FIFO per pair, tag matching, arbitrary interleaving, buffered or blocking sends). Proved: invariant, result, no failure, boundedness, deadlock freedom. Not modelled: parameter broadcast, exceptions inside LAPACK/MPI."
  },
  {
   "property": "C16",
   "status": "proved",
   "theorems": [
    "C16_serial",
    "C16_task_order_is_irrelevant",
    "C16_mpi_equals_serial",
    "C16_openmp_equals_serial",
    "C16_openmp_finishes"
   ],
   "note": "Serial fold, OpenMP dynamic schedule as a transition system, MPI system of C15; diagonalise is a function of the matrix (LAPACK determinism is an assumption)."
  },
  {
   "property": "C17",
   "status": "proved",
   "theorems": [
    "C17_crash_atomic",
    "C17_failed_save",
    "C17_successful_save",
    "C17_only_touches_its_files",
    "C17_other_steps_untouched",
    "C17_history",
    "C17_unitary_recoverable",
    "C17_rho_recoverable",
    "C17_undisturbed_save_succeeds"
   ],
   "note": "Save is modelled as an I/O program over a directory (name -> bytes), with an arbitrary list of events deciding success, failure, process death and early write-out at every operation (DiagInfo::save, DensMatElements::save have the same shape). Proved: final name always old or complete new version; failure leaves the old version and no temporary unless deleting it also failed; other steps' files untouched; any history of saves; restart-and-load gives old or new object. Power loss (no fsync before rename) is outside the property."
  },
  {
   "property": "C18",
   "status": "proved",
   "theorems": [
    "C18_load_atomic",
    "C18_undisturbed_load"
   ],
   "note": "Load modelled as an I/O program with arbitrary events; the reader is an arbitrary total function from bytes, instantiated by the archive reader in C19."
  },
  {
   "property": "C19",
   "status": "proved",
   "theorems": [
    "C19_matrix_roundtrip",
    "C19_eigen_roundtrip",
    "C19_unitary_file_roundtrip",
    "C19_rho_file_roundtrip"
   ],
   "note": "Byte-level archive model (integers little-endian, floating-point numbers by their memory image, archive header as constant bytes). Round trip and rejection of every proper prefix for matrices, eigen records, unitary files and density-matrix files. c_shift is not stored by the code: hypothesis shift_unset, true in every run because set_c_shift is never called."
  },
  {
   "property": "C20",
   "status": "proved",
   "theorems": [
    "C20_reduced_density_matrices",
    "C20_one_step_back"
   ],
   "note": "Exact arithmetic over any algebraically closed field with conjugation; hypotheses: shipped symmetry, sectors of each step scheduled from the kept states of the previous one, orthonormal stored eigenvectors, positive Boltzmann factors, at most 10^6 kept states per sector."
  },
  {
   "property": "C21",
   "status": "proved",
   "theorems": [
    "C21_shell_weights",
    "C21_state_weights"
   ],
   "note": "Real arithmetic (rounding, overflow and underflow not modelled). Hypotheses: T>0, all states of a sector computed, positive degeneracies, T_shift common to a step (set by finalize_nrg_iteration_metadata), last step not empty."
  },
  {
   "property": "C22",
   "status": "proved",
   "theorems": [
    "C22_full_density_matrix"
   ],
   "note": "Complete diagonalisation is assumed, as params.hpp:628-631 enforces for FDM runs; shell weights non-negative, zero for shells without discarded states and positive for the last shell (shown for the computed weights under C21)."
  },
  {
   "property": "C23",
   "status": "proved",
   "theorems": [
    "C23_fdm_greater",
    "C23_fdm_lesser",
    "C23_fdm_both"
   ],
   "note": "Exact arithmetic over any algebraically closed field; output = sequence of add() calls as a multiset. DD, KD, DK pairs each once, kept-kept never; weights shown equal to the independent Lehmann formulas."
  },
  {
   "property": "C24",
   "status": "proved",
   "theorems": [
    "C24_grid",
    "C24_invalid_limits_rejected",
    "C24_add_standard_grid",
    "C24_add_shifted_grid",
    "C24_clipped_peaks_ignored",
    "C24_merge",
    "C24_whole_run",
    "C24_trim",
    "C24_temperature_series"
   ],
   "note": "Both grids; real numbers instead of doubles. Peaks below the clipping threshold are ignored (theorem); zero-energy peaks on the shifted grid are lost: see C45."
  },
  {
   "property": "C25",
   "status": "proved",
   "theorems": [
    "C25_partition_of_unity",
    "C25_never_over_counted",
    "C25_merged_spectrum",
    "C25_same_spectrum_reproduced",
    "C25_different_grids_rejected"
   ],
   "note": "All fitting settings, linear and tanh windows, real arithmetic; settings that do not fit are refuted in C46."
  },
  {
   "property": "C26",
   "status": "proved",
   "theorems": [
    "C26_every_file",
    "C26_block",
    "C26_values",
    "C26_rejected",
    "C26_comments",
    "C26_truth_values",
    "C26_tools",
    "C26_tools_agree",
    "C26_tools_agree_refuted"
   ],
   "note": "The reader of the main program, its list of parameters and the reader of the tools adapt and nrgchain. Conversion of numbers (boost::lexical_cast, atof) is external. The tools disagree with the main program on headers with white space, repeated keywords and most words for true (C26_tools_agree_refuted)."
  },
  {
   "property": "C27",
   "status": "proved",
   "theorems": [
    "C27_steps_in_order",
    "C27_flags",
    "C27_empty_chain_rejected",
    "C27_substeps"
   ],
   "note": "Arbitrary work per step, including failures."
  },
  {
   "property": "C28",
   "status": "partial",
   "theorems": [
    "C28_parity_odd_singlet_always_throws",
    "C28_parity_odd_singlet_refuted"
   ],
   "note": "REFUTED: Invar(const InvType&) asserts d.size()==data.size() while data is still empty, so InvertParity() always throws and parity-odd singlets can never be recalculated. The property is false of the code; the theorem proves that."
  },
  {
   "property": "C29",
   "status": "partial",
   "theorems": [
    "C29_resume_refuted",
    "C29_resume_is_ignored",
    "C29_resume_with_known_Nmax"
   ],
   "note": "Refuted: init_laststored() runs in the Params constructor while Nmax is still 0, so no stored step is ever reused; C29_resume_with_known_Nmax shows what the code would do if the search ran later. (The working directory is moreover a fresh mkdtemp directory in every run.)"
  },
  {
   "property": "C30",
   "status": "proved",
   "theorems": [
    "C30_fdm_thermodynamics",
    "C30_fdm_energy_shift",
    "C30_step_thermodynamics",
    "C30_step_energy_shift"
   ],
   "note": "Real arithmetic. C_fdm>=0 and S=(E-F)/T hold unconditionally; equality of E, C, S with the Gibbs values and invariance under energy shifts need every non-empty shell to have weight above the code's cut 1e-16 (shells below it are dropped by the code)."
  },
  {
   "property": "C31",
   "status": "proved",
   "theorems": [
    "C31_history_independent",
    "C31_integral",
    "C31_trapezoidal_rule",
    "C31_integral_monotone",
    "C31_short_tables_rejected",
    "C31_repeated_abscissa_refuted"
   ],
   "note": "Real arithmetic without rounding. The property holds for tables with strictly increasing abscissae; with a repeated abscissa the value depends on the history of calls or is NaN (C31_repeated_abscissa_refuted)."
  },
  {
   "property": "C32",
   "status": "proved",
   "theorems": [
    "C32_z_averaging",
    "C32_incomplete_input_rejected"
   ],
   "note": "Files are lists of doubles in rows; all Nz, tables, columns. Every linear functional of the spectrum is averaged exactly (over the reals). NaN frequencies and int overflow of the line count are outside the model."
  },
  {
   "property": "C33",
   "status": "proved",
   "theorems": [
    "C33_hamiltonian",
    "C33_angular_momentum_first_refuted",
    "C33_angular_momentum_last_refuted"
   ],
   "note": "For every shipped table, every list of hopping/shift/coupling lines, every sector and all block sizes: success exactly when each line is acceptable, and the Hermitian completion of the stored upper triangle equals rescaled old energies plus the sum of the operators (each plus its adjoint). Finding: the QJ symmetry wraps the hopping term in a check that indexes the ancestor list from 1 instead of 0, so its first line is always dropped and the lines naming the last local state are undefined behaviour (two _refuted theorems)."
  },
  {
   "property": "C34",
   "status": "proved",
   "theorems": [
    "C34_accepts",
    "C34_rejects",
    "C34_depth",
    "C34_prints",
    "C34_values",
    "C34_defined",
    "C34_index_refuted"
   ],
   "note": "Both directions against an inductive grammar, independent of the arithmetic (any interpretation of numbers and functions). strtod's value and libm are parameters. Finding: a NaN index (e.g. coefxi[sqrt(-1),1]) is converted to int, which is undefined."
  },
  {
   "property": "C35",
   "status": "proved",
   "theorems": [
    "C35_normalised",
    "C35_fixed_mesh",
    "C35_nan_accepted_refuted"
   ],
   "note": "Exact real arithmetic. Proved for decreasing meshes with some hybridisation; otherwise NaN tables pass the checksum test (C35_nan_accepted_refuted)."
  },
  {
   "property": "C36",
   "status": "proved",
   "theorems": [
    "C36_singlet_recalc",
    "C36_spsu2lr_singlets_lost_refuted"
   ],
   "note": "Holds for all shipped symmetries except SPSU2LR, where the singlet sector (0,1) never satisfies the triangle rule so every singlet operator is silently lost (finding, refuted theorem)."
  },
  {
   "property": "C37",
   "status": "proved",
   "theorems": [
    "C37_untruncated_chain"
   ],
   "note": ""
  },
  {
   "property": "C38",
   "status": "proved",
   "theorems": [
    "C38_tensor_recalc",
    "C38_inconsistent_tables_are_caught",
    "C38_forbidden_block_absent"
   ],
   "note": "Abstract matrix operations (zero, transform, isfinite); CUDA branch not modelled."
  },
  {
   "property": "C39",
   "status": "proved",
   "theorems": [
    "C39_expectation_step_independent",
    "C39_full_density_matrix_average"
   ],
   "note": "Both for the reduced and the full density matrix, for all consecutive steps of the second pass."
  },
  {
   "property": "C40",
   "status": "proved",
   "theorems": [
    "C40_singlet_expectation_values"
   ],
   "note": "Real arithmetic; diagonal elements real. measure_singlet_fdm is covered by C39."
  },
  {
   "property": "C41",
   "status": "proved",
   "theorems": [
    "C41_thermodynamic_columns",
    "C41_members_of_multiplets"
   ],
   "note": "Real arithmetic; number formatting not modelled. Tables extracted from the sources by gen/gen_columns.py."
  },
  {
   "property": "C42",
   "status": "proved",
   "theorems": [
    "C42_fdm_succeeds",
    "C42_fdm_sum_rule"
   ],
   "note": "Scalar (singlet) operators with diagonal blocks, all 51 shipped tables, complete diagonalisation as params.hpp requires for FDM; operators transformed to each step's eigenbasis as C36 shows. Non-scalar operators are not covered."
  },
  {
   "property": "C43",
   "status": "partial",
   "theorems": [
    "C43_cfs_fermions",
    "C43_cfs_bosons_negated",
    "C43_cfs_last_step",
    "C43_cfs_bosons_refuted",
    "C43_cfsls_part_refuted"
   ],
   "note": "Refuted for bosons: before the last step all peaks have the wrong sign (C43_cfs_bosons_negated, C43_cfs_bosons_refuted); and cfsls/cfsgt selected separately return each other's part before the last step (C43_cfsls_part_refuted). Proved for fermions with the combined algorithm and for the last step."
  },
  {
   "property": "C44",
   "status": "partial",
   "theorems": [
    "C44_ft",
    "C44_dmnrg_symmetric",
    "C44_dmnrg_hermitian_refuted"
   ],
   "note": "FT proved. DMNRG proved for symmetric (real) density matrices; refuted for complex Hermitian ones: gemm_rowmajor uses the transposed density matrix."
  },
  {
   "property": "C45",
   "status": "proved",
   "theorems": [
    "C45_zero_energy_peak_lost",
    "C45_zero_energy_peak_refuted"
   ],
   "note": "The property itself is refuted: the shifted grid starts at DBL_MIN > 0, so weight at energy zero is always dropped."
  },
  {
   "property": "C46",
   "status": "proved",
   "theorems": [
    "C46_several_channels_refuted",
    "C46_calculation_before_loop_refuted",
    "C46_averaged_refuted",
    "C46_absolute_refuted"
   ],
   "note": "The property itself is refuted in four ways (findings)."
  },
  {
   "property": "C47",
   "status": "proved",
   "theorems": [
    "C47_chain_is_the_star",
    "C47_moments",
    "C47_aborts_only_at_the_end",
    "C47_bandrescale"
   ],
   "note": "Exact arithmetic (the code uses GMP with configurable precision)."
  },
  {
   "property": "C48",
   "status": "proved",
   "theorems": [
    "C48_inside_interval",
    "C48_discretisation_equation"
   ],
   "note": "The flat-band formula; the adaptive variant reads the energies from a table."
  },
  {
   "property": "C49",
   "status": "proved",
   "theorems": [
    "C49_moments_in_window",
    "C49_central_moments",
    "C49_central_moments_shift"
   ],
   "note": "Over the reals; skewness and kurtosis printed in verbose mode are not modelled."
  },
  {
   "property": "C50",
   "status": "proved",
   "theorems": [
    "C50_sum_rules",
    "C50_cumulative",
    "C50_cumulative_monotonic",
    "C50_filter"
   ],
   "note": "Over the reals; the Bose factor at zero frequency is the non-finite case that the code skips."
  },
  {
   "property": "C51",
   "status": "proved",
   "theorems": [
    "C51_broadening",
    "C51_mesh",
    "C51_kernels_symmetric",
    "C51_kernel_weight",
    "C51_total_weight",
    "C51_accumulation_refuted",
    "C51_zero_on_mesh_refuted"
   ],
   "note": "Kernel well-defined and non-negative, symmetric, exact weight on any positive interval (change of variables, Coquelicot), total weight conserved with the normalised cross-over and no accumulation point (C51_total_weight, on the Gaussian integral of Gauss.v). Findings: a mesh loaded from a file may contain zero, where the result is not a number (_refuted); with an accumulation point the kernel of a peak above the point has total weight larger than one (C51_accumulation_refuted)."
  },
  {
   "property": "C52",
   "status": "proved",
   "theorems": [
    "C52_matsubara",
    "C52_kernel_is_inverse"
   ],
   "note": "Fermionic frequencies, the only ones the tool can be asked for."
  },
  {
   "property": "C53",
   "status": "proved",
   "theorems": [
    "C53_new_site_tables",
    "C53_operator_tables",
    "C53_operator_labels",
    "C53_operator_labels_refuted"
   ],
   "note": "All 49 sets of tables. Label theorem for spins at least 4 (in units of the stored numbers); the operators listed in lost are refuted. Row theorem for operators other than the new site's excludes SPU1LR, whose tables give sectors without parity."
  },
  {
   "property": "C54",
   "status": "proved",
   "theorems": [
    "C54_anticommutation"
   ],
   "note": "46 sets; coefficients evaluated over the real numbers, so rounding is not covered. QJ (C33 finding) and the complex C3 sets are excluded. The sum over components is the scalar part of the anticommutator."
  },
  {
   "property": "C55",
   "status": "proved",
   "theorems": [
    "C55_hopping",
    "C55_every_line",
    "C55_same_spin_refuted"
   ],
   "note": "Sets with doublet tables (not PP, QSZLR, ISO 3ch, SPU1LR; not QJ, QSC3, SPSU2C3). The smaller system's operator uses corrected labels and signs where C53/C58 refute the shipped ones. QST and SPSU2T: orbital (and spin) numbers at least 3. Real arithmetic. U1 non-polarised: partner has the opposite spin (refuted). Anomalous hopping lines are not covered."
  },
  {
   "property": "C56",
   "status": "proved",
   "theorems": [
    "C56_on_site",
    "C56_every_line"
   ],
   "note": "46 sets minus isospin types, which have no such lines. Real arithmetic; how the offset of the average occupation is subtracted is not part of the statement."
  },
  {
   "property": "C58",
   "status": "proved",
   "theorems": [
    "C58_anticommute",
    "C58_anticommute_refuted"
   ],
   "note": "With corrected labels (C53) and with the missing sign of P and ISOLR put in; for P as shipped the relation is refuted. QST and SPSU2T: orbital (and spin) numbers at least 3."
  },
  {
   "property": "C57",
   "status": "proved",
   "theorems": [
    "C57_norms_kept",
    "C57_not_a_number_refuted",
    "C57_missing_table_refuted"
   ],
   "note": "All translated sets except SPU1LR and the triplets of SPSU2 with three channels; sectors with a division by zero are excluded by gap. The NaN of QS with three channels and the missing table of SPSU2 are separate refuted theorems. Tables of global operators and of the substeps mode are not translated."
  },
  {
   "property": "C59",
   "status": "proved",
   "theorems": [
    "C59_same_operators",
    "C59_missing_refuted"
   ],
   "note": "All sets with tables; ISO (3 channels) doublets and triplets, QSZ (3) and SPSU2 (3) triplets are the exceptions, each shown to be missing."
  },
  {
   "property": "C60",
   "status": "proved",
   "theorems": [
    "C60_eigenpairs",
    "C60_unitary",
    "C60_count",
    "C60_succeeds",
    "C60_refuses",
    "C60_large_refuted",
    "C60_sorted_pairs"
   ],
   "note": "For every LAPACK meeting its documented contract (hypothesis, satisfied by an example library) and exact arithmetic. CUDA variants not modelled, except the sorting of eigenpairs. Finding: overflow with dsyevr/zheevr beyond dimension 46340 (C60_large_refuted)."
  },
  {
   "property": "C61",
   "status": "proved",
   "theorems": [
    "C61_gemm",
    "C61_refuses",
    "C61_product",
    "C61_transform",
    "C61_rotate",
    "C61_rotate_diagonal"
   ],
   "note": "Exact arithmetic; the effect of dgemm/zgemm is taken from its documentation. rotate and rotate_diagonal are shown equal to the definitions used in the density-matrix theorems."
  },
  {
   "property": "C62",
   "status": "proved",
   "theorems": [
    "C62_spectrum_uses_carried_operators",
    "C62_requested_spectrum_at_every_step",
    "C62_expectation_values_of_carried_operators",
    "C62_fdm_expectation_values_of_carried_operators",
    "C62_spectrum_inputs_available"
   ],
   "note": "For all parameters and operator sets; the transformation and trimming of matrices are arbitrary functions. Matrix contents are the subject of other claims. Floquet recalculation and CUDA are not modelled."
  },
  {
   "property": "C63",
   "status": "proved",
   "theorems": [
    "C63_spectra_in_distinct_files",
    "C63_spectra_in_distinct_files_hyphen_refuted"
   ],
   "note": "Proved for names without hyphens (stated in the property); refuted without that condition."
  },
  {
   "property": "C64",
   "status": "proved",
   "theorems": [
    "C64_data_file_read",
    "C64_short_file_refused",
    "C64_accepted_data_consistent",
    "C64_version_refused",
    "C64_symmetry_refused",
    "C64_f_labels_refuted",
    "C64_cut_between_blocks_refuted"
   ],
   "note": "Reading of the data file; numbers are converted by an argument. The indices of the f blocks are ignored and cuts between blocks are accepted: _refuted theorems."
  },
  {
   "property": "C65",
   "status": "proved",
   "theorems": [
    "C65_any_truncation",
    "C65_exact",
    "C65_succeeds",
    "C65_exact_succeeds",
    "C65_canonical",
    "C65_hermitian",
    "C65_driver",
    "C65_diagonalisable",
    "C65_scale",
    "C65_operators_per_channel"
   ],
   "note": "26 combinations of symmetry type, number of channels and setting. Not covered: types with multiplets (their tables are C53-C59), P and PP (tables of annihilation operators), U1 without spin-dependent chains (C55), substeps, fixeps > 0. The diagonaliser is any function with the contract proved in C60; arithmetic is exact."
  },
  {
   "property": "C66",
   "status": "proved",
   "theorems": [
    "C66_direct",
    "C66_shift",
    "C66_outside",
    "C66_inside",
    "C66_edge_refuted",
    "C66_table",
    "C66_selfenergy",
    "C66_spectral_function"
   ],
   "note": "With the integration routine exact. The value is exact off the band and for direct integration, with a stated error inside; the band edge is refuted (C66_edge_refuted). Im z = 0 and the accuracy of the quadrature are not covered."
  },
  {
   "property": "C67",
   "status": "proved",
   "theorems": [
    "C67_value",
    "C67_unique",
    "C67_ends",
    "C67_accepted",
    "C67_accepts",
    "C67_tool",
    "C67_asymmetric_refuted"
   ],
   "note": "With exact quadrature and the spline as an arbitrary function with a continuous extension. C67_asymmetric_refuted shows the NaN for slightly asymmetric tables."
  },
  {
   "property": "C68",
   "status": "proved",
   "theorems": [
    "C68_instantiated",
    "C68_same_operator",
    "C68_same_hamiltonian",
    "C68_accepted_by_reader",
    "C68_not_a_number_refuted"
   ],
   "note": "Real arithmetic with the contract of LAPACK (C60) as hypothesis; the text of numbers is abstract (read18, read16 are what is read back). C68_not_a_number_refuted shows the NaN that becomes zero."
  },
  {
   "property": "C69",
   "status": "proved",
   "theorems": [
    "C69_blocks",
    "C69_every_file",
    "C69_agree",
    "C69_repeated_block_refuted",
    "C69_open_header_refuted",
    "C69_repeated_keyword_refuted"
   ],
   "note": "Last assignment in all blocks of a name; agreement with the program for blocks that occur once. Disagreements for repeated blocks, open brackets and repeated keywords shown."
  },
  {
   "property": "C70",
   "status": "proved",
   "theorems": [
    "C70_kept",
    "C70_gone",
    "C70_data",
    "C70_no_parameters",
    "C70_inputs_removed_refuted",
    "C70_parameters_removed_refuted"
   ],
   "note": "Other files kept, temporaries removed, data file complete or untouched. Removal of files the tool did not write shown. Names with a slash are not modelled."
  },
  {
   "property": "C71",
   "status": "proved",
   "theorems": [
    "C71_columns_read",
    "C71_intavg_two_points",
    "C71_not_finite",
    "C71_comment_inside_refuted",
    "C71_readtable",
    "C71_readtable_junk",
    "C71_readtable_odd",
    "C71_readtable_not_finite",
    "C71_written_read",
    "C71_rows",
    "C71_rows_bad",
    "C71_lines_exist",
    "C71_fields_exist",
    "C71_values",
    "C71_halves",
    "C71_halves_bad",
    "C71_indented_comment_refuted",
    "C71_blocks",
    "C71_blocks_width",
    "C71_single_column_refuted"
   ],
   "note": "Readers A (kk, integ, intavg), B (misc.hpp readtable), C (adapt, nrgchain), D (tdavg) of tables. The conversion of digits is an argument. Three violations are proved: comments inside a table lose its rest (kk, integ, intavg), indented comments become rows of zeros, a first row without values in tdavg."
  },
  {
   "property": "C72",
   "status": "proved",
   "theorems": [
    "C72_mean",
    "C72_equal_tables",
    "C72_zero_refuted",
    "C72_descending_refuted",
    "C72_thermodynamics",
    "C72_value_unique",
    "C72_self_reference",
    "C72_reference_count"
   ],
   "note": "Mesh and averages of intavg and tdavg over the real numbers, with the state of the interpolation objects. Two violations are proved: repeated rows at abscissa zero, descending tables in intavg."
  },
  {
   "property": "C73",
   "status": "proved",
   "theorems": [
    "C73_integrals",
    "C73_balance",
    "C73_particle_hole",
    "C73_occupied",
    "C73_zero_temperature_refuted",
    "C73_choice",
    "C73_resample",
    "C73_own_grid",
    "C73_options_refused",
    "C73_empty_refused"
   ],
   "note": "Integrals and resampling of an interpolated table; GSL's spline and quadrature enter through contracts. Finding: temperature zero gives NaN for a range symmetric about zero."
  },
  {
   "property": "C74",
   "status": "proved",
   "theorems": [
    "C74_levels",
    "C74_groups",
    "C74_all_counted",
    "C74_chain_refuted",
    "C74_nothing",
    "C74_energies",
    "C74_custom",
    "C74_columns",
    "C74_same_name_refuted"
   ],
   "note": "Levels and groups of annotated.dat and the columns of custom. Findings: chains of nearly degenerate levels are split; operators of the same name share a value."
  },
  {
   "property": "C75",
   "status": "proved",
   "theorems": [
    "C75_diag",
    "C75_triangle_refuted",
    "C75_not_square",
    "C75_lapack",
    "C75_unitary",
    "C75_mismatch",
    "C75_diagonalises",
    "C75_text",
    "C75_uneven",
    "C75_unreadable",
    "C75_words_refuted",
    "C75_binary"
   ],
   "note": "For every dsyev that meets its contract (shown for an example): eigenvalues and eigenvectors of symmetric matrices, what unitary computes, both tools together, text and binary files. The contract for the bytes of a double is assumed only for the numbers written. Non-symmetric matrices and words with two numbers are the exceptions (C75_triangle_refuted, C75_words_refuted)."
  },
  {
   "property": "C76",
   "status": "proved",
   "theorems": [
    "C76_run",
    "C76_widths",
    "C76_mesh",
    "C76_kernel_positive",
    "C76_kernel_negative",
    "C76_weight",
    "C76_whole",
    "C76_nothing_before_the_end",
    "C76_bad_arguments",
    "C76_bad_file",
    "C76_endless_refuted",
    "C76_zero_peak_refuted"
   ],
   "note": "Everything about the run, the weights, the widths and the mesh is proved for valid options (positive lower end, ratio > 1, b0 > 0, q > 0). C76_endless_refuted and C76_zero_peak_refuted are the two exceptions. Numbers are real: rounding and the six digits of the output are not modelled."
  },
  {
   "property": "C77",
   "status": "proved",
   "theorems": [
    "C77_fixed",
    "C77_loaded",
    "C77_adaptive",
    "C77_secant",
    "C77_ends",
    "C77_completes",
    "C77_completes_loaded",
    "C77_converges",
    "C77_converges_loaded",
    "C77_equation",
    "C77_formula",
    "C77_endless_refuted",
    "C77_no_subdivisions_refuted"
   ],
   "note": "Proved for positive densities (where the program never divides by zero), non-negative steps and max_subdiv >= 1. C77_endless_refuted and C77_no_subdivisions_refuted are the two exceptions. Numbers are real: rounding is not modelled. Convergence and completion are proved for the fixed grid and for a given table g; the solution of the equation is assumed to exist on [1,X]. Nothing is claimed about the convergence of the secant method (only that what it accepts is within the tolerance)."
  },
  {
   "property": "C78",
   "status": "proved",
   "theorems": [
    "C78_scanner",
    "C78_names",
    "C78_exit",
    "C78_safe",
    "C78_values",
    "C78_ends",
    "C78_division_refuted",
    "C78_heading_refuted",
    "C78_exponent_refuted",
    "C78_empty_refuted",
    "C78_reads",
    "C78_accepts",
    "C78_one_reading",
    "C78_prefix",
    "C78_heading_sum_refuted",
    "C78_comment_refuted"
   ],
   "note": "Scanner, parser and symbol table of the tool matrix. Proved: every input of assignments, expressions, rows, matrices and ignored lines gives the denoted values line by line; every text is read in finitely many steps with one result; against a grammar on tokens, soundness for every input (also of runs that end early), completeness and uniqueness of the output; the scanner against the regular expressions of matrix.ll with the longest match. Findings as refutations: division by zero gives the dividend, f[x] with a bare name loses its argument (and the rest of the line is read), a comment after a row is a syntax error, exponents after several digits end the run, the empty matrix has no newline. C78_names, C78_exit: a text read to its end has at most 196 new names, and the tool exits only at an unmatched closing brace or at the 197th new name. C78_safe: with integers that fit into an int and loaded coefficients nothing undefined happens."
  },
  {
   "property": "C79",
   "status": "proved",
   "theorems": [
    "C79_report",
    "C79_nested",
    "C79_digits",
    "C79_peak"
   ],
   "note": "Timer, scope objects, accumulators and report of time_mem.hpp: the report for every sequence of sections, the exception for nested sections, grouping of digits, peak of the memory. Times are integers (ticks); conversion to seconds and rounding are left out."
  },
  {
   "property": "C80",
   "status": "proved",
   "theorems": [
    "C80_agree",
    "C80_uneven_refuted"
   ],
   "note": "C80_agree: for every number of processes and every interleaving the start ends after at most three steps of each process and all agree (return with the same status, or process 0 is the master in the right working directory and the others are slaves). C80_uneven_refuted: if the runtime check fails only on process 0 the others wait for ever. Modelled: nrg.cc main up to the master and slave parts; messages left out, the runtime check is a parameter."
  }
 ]
}