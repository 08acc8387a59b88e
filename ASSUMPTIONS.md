# What `Print Assumptions` lists

Generated by `gen/mk_axioms.py` from the compiled files.

## Closed under the global context (223 theorems)

* `C01_combine_composes` (Sectors_props.v)
* `C01_combine_commutative` (Sectors_props.v)
* `C01_combine_associative` (Sectors_props.v)
* `C01_inverse` (Sectors_props.v)
* `C01_inverse_undoes_combine` (Sectors_props.v)
* `C01_order_is_total` (Sectors_props.v)
* `C02_ancestor_descendant_duality` (Sectors_props.v)
* `C02_any_table` (Sectors_props.v)
* `C03_dimension_per_multiplet` (Sectors_props.v)
* `C04_step_dimension` (Sectors_props.v)
* `C05_blocks_tile_basis` (Sectors_props.v)
* `C05_block_zero_rejected` (Sectors_props.v)
* `C05_total` (Sectors_props.v)
* `C05_total_overflow_refuted` (Sectors_props.v)
* `C05_offdiagonal_blocks` (Sectors_props.v)
* `C06_task_list` (Sectors_props.v)
* `C06_tasks_descending` (Sectors_props.v)
* `C07_su2_rule` (Sectors_props.v)
* `C07_su2_symmetric` (Sectors_props.v)
* `C07_selection_rules` (Sectors_props.v)
* `C08_kept_states_are_the_lowest` (Truncation_props.v)
* `C08_step_from_raw_energies` (Truncation_props.v)
* `C09_cutoff` (Truncation_props.v)
* `C09_number_of_kept_states` (Truncation_props.v)
* `C09_last_step_keeps_all` (Truncation_props.v)
* `C09_request_is_clamped` (Truncation_props.v)
* `C09_huge_safeguardmax_refuted` (Truncation_props.v)
* `C10_uncomputed_states_are_not_below_kept_ones` (Truncation_props.v)
* `C10_cutoff_as_from_full_spectrum` (Truncation_props.v)
* `C10_fewer_states_than_requested_refuted` (Truncation_props.v)
* `C11_restart_loop_terminates` (Truncation_props.v)
* `C11_single_attempt_without_restart` (Truncation_props.v)
* `C11_small_factor_loops_refuted` (Truncation_props.v)
* `C12_cleanup` (Truncation_props.v)
* `C12_cleanup_is_determined` (Truncation_props.v)
* `C12_isolated_levels_untouched` (Truncation_props.v)
* `C13_sort_by_criterion` (Truncation_props.v)
* `C14_ranges_partition_the_states` (Truncation_props.v)
* `C14_stored_range_partial_diagonalisation_refuted` (Truncation_props.v)
* `C15_every_task_once` (Mpi_props.v)
* `C15_never_fails` (Mpi_props.v)
* `C15_jobs_go_to_idle_workers` (Mpi_props.v)
* `C15_executions_are_bounded` (Mpi_props.v)
* `C15_no_deadlock` (Mpi_props.v)
* `C15_matrix_pieces` (Mpi_props.v)
* `C16_serial` (Mpi_props.v)
* `C16_task_order_is_irrelevant` (Mpi_props.v)
* `C16_mpi_equals_serial` (Mpi_props.v)
* `C16_openmp_equals_serial` (Mpi_props.v)
* `C16_openmp_finishes` (Mpi_props.v)
* `C17_crash_atomic` (Storage_props.v)
* `C17_failed_save` (Storage_props.v)
* `C17_successful_save` (Storage_props.v)
* `C17_only_touches_its_files` (Storage_props.v)
* `C17_other_steps_untouched` (Storage_props.v)
* `C17_history` (Storage_props.v)
* `C17_unitary_recoverable` (Storage_props.v)
* `C17_rho_recoverable` (Storage_props.v)
* `C17_undisturbed_save_succeeds` (Storage_props.v)
* `C18_load_atomic` (Storage_props.v)
* `C18_undisturbed_load` (Storage_props.v)
* `C19_matrix_roundtrip` (Storage_props.v)
* `C19_eigen_roundtrip` (Storage_props.v)
* `C19_unitary_file_roundtrip` (Storage_props.v)
* `C19_rho_file_roundtrip` (Storage_props.v)
* `C20_reduced_density_matrices` (Density_props.v)
* `C20_one_step_back` (Density_props.v)
* `C22_full_density_matrix` (Density_props.v)
* `C23_fdm_greater` (Spectral_props.v)
* `C23_fdm_lesser` (Spectral_props.v)
* `C23_fdm_both` (Spectral_props.v)
* `C26_every_file` (Params_props.v)
* `C26_block` (Params_props.v)
* `C26_values` (Params_props.v)
* `C26_rejected` (Params_props.v)
* `C26_comments` (Params_props.v)
* `C26_truth_values` (Params_props.v)
* `C26_tools` (Params_props.v)
* `C26_tools_agree` (Params_props.v)
* `C26_tools_agree_refuted` (Params_props.v)
* `C27_steps_in_order` (Steps_props.v)
* `C27_flags` (Steps_props.v)
* `C27_empty_chain_rejected` (Steps_props.v)
* `C27_substeps` (Steps_props.v)
* `C28_parity_odd_singlet_always_throws` (Sectors_props.v)
* `C28_parity_odd_singlet_refuted` (Sectors_props.v)
* `C29_resume_refuted` (Storage_props.v)
* `C29_resume_is_ignored` (Storage_props.v)
* `C29_resume_with_known_Nmax` (Storage_props.v)
* `C32_incomplete_input_rejected` (Zavg_props.v)
* `C33_hamiltonian` (Hamilton_props.v)
* `C33_angular_momentum_first_refuted` (Hamilton_props.v)
* `C33_angular_momentum_last_refuted` (Hamilton_props.v)
* `C34_accepts` (Template_props.v)
* `C34_rejects` (Template_props.v)
* `C34_depth` (Template_props.v)
* `C34_prints` (Template_props.v)
* `C34_values` (Template_props.v)
* `C34_defined` (Template_props.v)
* `C34_index_refuted` (Template_props.v)
* `C36_singlet_recalc` (Sectors_props.v)
* `C36_spsu2lr_singlets_lost_refuted` (Sectors_props.v)
* `C37_untruncated_chain` (Sectors_props.v)
* `C38_tensor_recalc` (Recalc_props.v)
* `C38_inconsistent_tables_are_caught` (Recalc_props.v)
* `C38_forbidden_block_absent` (Recalc_props.v)
* `C39_expectation_step_independent` (Density_props.v)
* `C39_full_density_matrix_average` (Density_props.v)
* `C42_fdm_succeeds` (Spectral_props.v)
* `C42_fdm_sum_rule` (Spectral_props.v)
* `C43_cfs_fermions` (Spectral_props.v)
* `C43_cfs_bosons_negated` (Spectral_props.v)
* `C43_cfs_last_step` (Spectral_props.v)
* `C43_cfs_bosons_refuted` (Spectral_props.v)
* `C43_cfsls_part_refuted` (Spectral_props.v)
* `C44_ft` (Spectral_props.v)
* `C44_dmnrg_symmetric` (Spectral_props.v)
* `C44_dmnrg_hermitian_refuted` (Spectral_props.v)
* `C53_new_site_tables` (Coef_props.v)
* `C53_operator_tables` (Coef_props.v)
* `C53_operator_labels` (Coef_props.v)
* `C53_operator_labels_refuted` (Coef_props.v)
* `C55_every_line` (Coef_lines_props.v)
* `C56_every_line` (Coef_lines_props.v)
* `C57_missing_table_refuted` (Coef_iso_props.v)
* `C59_same_operators` (Coef_cover_props.v)
* `C59_missing_refuted` (Coef_cover_props.v)
* `C60_eigenpairs` (Linalg_props.v)
* `C60_unitary` (Linalg_props.v)
* `C60_count` (Linalg_props.v)
* `C60_succeeds` (Linalg_props.v)
* `C60_refuses` (Linalg_props.v)
* `C60_large_refuted` (Linalg_props.v)
* `C60_sorted_pairs` (Linalg_props.v)
* `C61_gemm` (Linalg_props.v)
* `C61_refuses` (Linalg_props.v)
* `C61_product` (Linalg_props.v)
* `C61_transform` (Linalg_props.v)
* `C61_rotate` (Linalg_props.v)
* `C61_rotate_diagonal` (Linalg_props.v)
* `C62_spectrum_uses_carried_operators` (Oprecalc_props.v)
* `C62_requested_spectrum_at_every_step` (Oprecalc_props.v)
* `C62_expectation_values_of_carried_operators` (Oprecalc_props.v)
* `C62_fdm_expectation_values_of_carried_operators` (Oprecalc_props.v)
* `C62_spectrum_inputs_available` (Oprecalc_props.v)
* `C63_spectra_in_distinct_files` (Oprecalc_props.v)
* `C63_spectra_in_distinct_files_hyphen_refuted` (Oprecalc_props.v)
* `C64_data_file_read` (Datafile_props.v)
* `C64_short_file_refused` (Datafile_props.v)
* `C64_accepted_data_consistent` (Datafile_props.v)
* `C64_version_refused` (Datafile_props.v)
* `C64_symmetry_refused` (Datafile_props.v)
* `C64_f_labels_refuted` (Datafile_props.v)
* `C64_cut_between_blocks_refuted` (Datafile_props.v)
* `C65_any_truncation` (Fullchain_props.v)
* `C65_exact` (Fullchain_props.v)
* `C65_succeeds` (Fullchain_props.v)
* `C65_exact_succeeds` (Fullchain_props.v)
* `C65_canonical` (Fullchain_props.v)
* `C65_hermitian` (Fullchain_props.v)
* `C65_driver` (Fullchain_props.v)
* `C65_diagonalisable` (Fullchain_props.v)
* `C65_operators_per_channel` (Fullchain_scale_props.v)
* `C68_accepted_by_reader` (Instantiate_props.v)
* `C68_not_a_number_refuted` (Instantiate_props.v)
* `C69_blocks` (Sections_props.v)
* `C69_every_file` (Sections_props.v)
* `C69_agree` (Sections_props.v)
* `C69_repeated_block_refuted` (Sections_props.v)
* `C69_open_header_refuted` (Sections_props.v)
* `C69_repeated_keyword_refuted` (Sections_props.v)
* `C70_kept` (Sections_props.v)
* `C70_gone` (Sections_props.v)
* `C70_data` (Sections_props.v)
* `C70_no_parameters` (Sections_props.v)
* `C70_inputs_removed_refuted` (Sections_props.v)
* `C70_parameters_removed_refuted` (Sections_props.v)
* `C71_columns_read` (Tables_props.v)
* `C71_intavg_two_points` (Tables_props.v)
* `C71_not_finite` (Tables_props.v)
* `C71_comment_inside_refuted` (Tables_props.v)
* `C71_readtable` (Tables_props.v)
* `C71_readtable_junk` (Tables_props.v)
* `C71_readtable_odd` (Tables_props.v)
* `C71_readtable_not_finite` (Tables_props.v)
* `C71_written_read` (Tables_props.v)
* `C71_rows` (Tables_props.v)
* `C71_rows_bad` (Tables_props.v)
* `C71_lines_exist` (Tables_props.v)
* `C71_fields_exist` (Tables_props.v)
* `C71_values` (Tables_props.v)
* `C71_halves` (Tables_props.v)
* `C71_halves_bad` (Tables_props.v)
* `C71_indented_comment_refuted` (Tables_props.v)
* `C71_blocks` (Tables_props.v)
* `C71_blocks_width` (Tables_props.v)
* `C71_single_column_refuted` (Tables_props.v)
* `C73_choice` (Resample_props.v)
* `C74_custom` (Annotated_props.v)
* `C74_columns` (Annotated_props.v)
* `C74_same_name_refuted` (Annotated_props.v)
* `C78_scanner` (Mtool_flex_props.v)
* `C78_names` (Mtool_names_props.v)
* `C78_exit` (Mtool_names_props.v)
* `C78_safe` (Mtool_names_props.v)
* `C78_values` (Mtool_props.v)
* `C78_ends` (Mtool_props.v)
* `C78_division_refuted` (Mtool_props.v)
* `C78_heading_refuted` (Mtool_props.v)
* `C78_exponent_refuted` (Mtool_props.v)
* `C78_empty_refuted` (Mtool_props.v)
* `C78_reads` (Mtool_read_props.v)
* `C78_accepts` (Mtool_read_props.v)
* `C78_one_reading` (Mtool_read_props.v)
* `C78_prefix` (Mtool_read_props.v)
* `C78_heading_sum_refuted` (Mtool_read_props.v)
* `C78_comment_refuted` (Mtool_read_props.v)
* `C79_report` (Time_props.v)
* `C79_nested` (Time_props.v)
* `C79_digits` (Time_props.v)
* `C79_peak` (Time_props.v)
* `C80_agree` (Startup_props.v)
* `C80_uneven_refuted` (Startup_props.v)

## `ClassicalDedekindReals.sig_forall_dec` (8 theorems)

* `C75_diag` (Diagtool_props.v)
* `C75_triangle_refuted` (Diagtool_props.v)
* `C75_not_square` (Diagtool_props.v)
* `C75_lapack` (Diagtool_props.v)
* `C75_text` (Diagtool_props.v)
* `C75_uneven` (Diagtool_props.v)
* `C75_unreadable` (Diagtool_props.v)
* `C75_binary` (Diagtool_props.v)

## `ClassicalDedekindReals.sig_forall_dec`, `FunctionalExtensionality.functional_extensionality_dep` (44 theorems)

* `C24_merge` (Bins_props.v)
* `C24_temperature_series` (Bins_props.v)
* `C31_history_independent` (Interp_props.v)
* `C31_integral` (Interp_props.v)
* `C31_trapezoidal_rule` (Interp_props.v)
* `C31_short_tables_rejected` (Interp_props.v)
* `C31_repeated_abscissa_refuted` (Interp_props.v)
* `C32_z_averaging` (Zavg_props.v)
* `C41_members_of_multiplets` (Columns_props.v)
* `C49_moments_in_window` (Zavg_props.v)
* `C49_central_moments` (Zavg_props.v)
* `C49_central_moments_shift` (Zavg_props.v)
* `C50_cumulative` (Zavg_props.v)
* `C50_cumulative_monotonic` (Zavg_props.v)
* `C50_filter` (Zavg_props.v)
* `C51_mesh` (Zavg_props.v)
* `C52_kernel_is_inverse` (Zavg_props.v)
* `C67_accepted` (Kk_props.v)
* `C67_accepts` (Kk_props.v)
* `C68_instantiated` (Instantiate_props.v)
* `C68_same_operator` (Instantiate_props.v)
* `C68_same_hamiltonian` (Instantiate_props.v)
* `C72_mean` (Averages_props.v)
* `C72_equal_tables` (Averages_props.v)
* `C72_zero_refuted` (Averages_props.v)
* `C72_descending_refuted` (Averages_props.v)
* `C72_thermodynamics` (Averages_props.v)
* `C72_value_unique` (Averages_props.v)
* `C72_self_reference` (Averages_props.v)
* `C72_reference_count` (Averages_props.v)
* `C73_resample` (Resample_props.v)
* `C73_own_grid` (Resample_props.v)
* `C73_options_refused` (Resample_props.v)
* `C74_levels` (Annotated_props.v)
* `C74_groups` (Annotated_props.v)
* `C74_all_counted` (Annotated_props.v)
* `C74_chain_refuted` (Annotated_props.v)
* `C74_nothing` (Annotated_props.v)
* `C74_energies` (Annotated_props.v)
* `C75_unitary` (Diagtool_props.v)
* `C75_mismatch` (Diagtool_props.v)
* `C75_diagonalises` (Diagtool_props.v)
* `C75_words_refuted` (Diagtool_props.v)
* `C77_formula` (Adapt_props.v)

## `ClassicalDedekindReals.sig_forall_dec`, `ClassicalDedekindReals.sig_not_dec`, `FunctionalExtensionality.functional_extensionality_dep` (14 theorems)

* `C21_shell_weights` (Thermo_props.v)
* `C21_state_weights` (Thermo_props.v)
* `C40_singlet_expectation_values` (Thermo_props.v)
* `C47_chain_is_the_star` (Chain_props.v)
* `C47_moments` (Chain_props.v)
* `C47_aborts_only_at_the_end` (Chain_props.v)
* `C52_matsubara` (Zavg_props.v)
* `C55_same_spin_refuted` (Coef_lines_props.v)
* `C58_anticommute_refuted` (Coef_lines_props.v)
* `C57_not_a_number_refuted` (Coef_iso_props.v)
* `C66_selfenergy` (Hilb_props.v)
* `C67_unique` (Kk_props.v)
* `C73_zero_temperature_refuted` (Resample_props.v)
* `C73_empty_refused` (Resample_props.v)

## `ClassicalDedekindReals.sig_forall_dec`, `ClassicalDedekindReals.sig_not_dec`, `Classical_Prop.classic`, `FunctionalExtensionality.functional_extensionality_dep` (82 theorems)

* `C24_grid` (Bins_props.v)
* `C24_invalid_limits_rejected` (Bins_props.v)
* `C24_add_standard_grid` (Bins_props.v)
* `C24_add_shifted_grid` (Bins_props.v)
* `C24_clipped_peaks_ignored` (Bins_props.v)
* `C24_whole_run` (Bins_props.v)
* `C24_trim` (Bins_props.v)
* `C25_partition_of_unity` (Patch_props.v)
* `C25_never_over_counted` (Patch_props.v)
* `C25_merged_spectrum` (Patch_props.v)
* `C25_same_spectrum_reproduced` (Patch_props.v)
* `C25_different_grids_rejected` (Patch_props.v)
* `C30_fdm_thermodynamics` (Thermo_props.v)
* `C30_fdm_energy_shift` (Thermo_props.v)
* `C30_step_thermodynamics` (Thermo_props.v)
* `C30_step_energy_shift` (Thermo_props.v)
* `C31_integral_monotone` (Interp_props.v)
* `C35_normalised` (Chain_props.v)
* `C35_fixed_mesh` (Chain_props.v)
* `C35_nan_accepted_refuted` (Chain_props.v)
* `C41_thermodynamic_columns` (Columns_props.v)
* `C45_zero_energy_peak_lost` (Bins_props.v)
* `C45_zero_energy_peak_refuted` (Bins_props.v)
* `C46_several_channels_refuted` (Patch_props.v)
* `C46_calculation_before_loop_refuted` (Patch_props.v)
* `C46_averaged_refuted` (Patch_props.v)
* `C46_absolute_refuted` (Patch_props.v)
* `C47_bandrescale` (Chain_props.v)
* `C48_inside_interval` (Chain_props.v)
* `C48_discretisation_equation` (Chain_props.v)
* `C50_sum_rules` (Zavg_props.v)
* `C51_broadening` (Zavg_props.v)
* `C51_kernels_symmetric` (Zavg_props.v)
* `C51_kernel_weight` (Zavg_props.v)
* `C51_total_weight` (Zavg_props.v)
* `C51_accumulation_refuted` (Zavg_props.v)
* `C51_zero_on_mesh_refuted` (Zavg_props.v)
* `C54_anticommutation` (Coef_props.v)
* `C55_hopping` (Coef_lines_props.v)
* `C56_on_site` (Coef_lines_props.v)
* `C58_anticommute` (Coef_lines_props.v)
* `C57_norms_kept` (Coef_iso_props.v)
* `C65_scale` (Fullchain_scale_props.v)
* `C66_direct` (Hilb_props.v)
* `C66_shift` (Hilb_props.v)
* `C66_outside` (Hilb_props.v)
* `C66_inside` (Hilb_props.v)
* `C66_edge_refuted` (Hilb_props.v)
* `C66_table` (Hilb_props.v)
* `C66_spectral_function` (Hilb_props.v)
* `C67_value` (Kk_props.v)
* `C67_ends` (Kk_props.v)
* `C67_tool` (Kk_props.v)
* `C67_asymmetric_refuted` (Kk_props.v)
* `C73_integrals` (Resample_props.v)
* `C73_balance` (Resample_props.v)
* `C73_particle_hole` (Resample_props.v)
* `C73_occupied` (Resample_props.v)
* `C76_run` (Bw_props.v)
* `C76_widths` (Bw_props.v)
* `C76_mesh` (Bw_props.v)
* `C76_kernel_positive` (Bw_props.v)
* `C76_kernel_negative` (Bw_props.v)
* `C76_weight` (Bw_props.v)
* `C76_whole` (Bw_props.v)
* `C76_nothing_before_the_end` (Bw_props.v)
* `C76_bad_arguments` (Bw_props.v)
* `C76_bad_file` (Bw_props.v)
* `C76_endless_refuted` (Bw_props.v)
* `C76_zero_peak_refuted` (Bw_props.v)
* `C77_fixed` (Adapt_props.v)
* `C77_loaded` (Adapt_props.v)
* `C77_adaptive` (Adapt_props.v)
* `C77_secant` (Adapt_props.v)
* `C77_ends` (Adapt_props.v)
* `C77_completes` (Adapt_props.v)
* `C77_completes_loaded` (Adapt_props.v)
* `C77_converges` (Adapt_props.v)
* `C77_converges_loaded` (Adapt_props.v)
* `C77_equation` (Adapt_props.v)
* `C77_endless_refuted` (Adapt_props.v)
* `C77_no_subdivisions_refuted` (Adapt_props.v)
