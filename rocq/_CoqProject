-Q theories Verif
theories/Adapt_aux.v
theories/Adapt_done.v
theories/Adapt_final.v
theories/Adapt_flat.v
theories/Adapt_full.v
theories/Adapt_lip.v
theories/Adapt_main.v
theories/Adapt_model.v
theories/Adapt_ode.v
theories/Adapt_proofs.v
theories/Adapt_props.v
theories/Adapt_run.v
theories/Adapt_secant.v
theories/Adapt_spec.v
theories/Annotated_aux.v
theories/Annotated_model.v
theories/Annotated_proofs.v
theories/Annotated_props.v
theories/Annotated_spec.v
theories/Averages_aux.v
theories/Averages_model.v
theories/Averages_proofs.v
theories/Averages_props.v
theories/Averages_spec.v
theories/Base.v
theories/Bins_acc.v
theories/Bins_aux.v
theories/Bins_model.v
theories/Bins_proofs.v
theories/Bins_props.v
theories/Bins_run.v
theories/Bins_spec.v
theories/Bw_aux.v
theories/Bw_kernel.v
theories/Bw_lists.v
theories/Bw_model.v
theories/Bw_proofs.v
theories/Bw_props.v
theories/Bw_refine.v
theories/Bw_run_spec.v
theories/Bw_spec.v
theories/Bw_steps.v
theories/Chain_aux.v
theories/Chain_flat.v
theories/Chain_lanczos.v
theories/Chain_model.v
theories/Chain_moments.v
theories/Chain_props.v
theories/Chain_scale.v
theories/Chain_spec.v
theories/Chain_tables.v
theories/Coef_car.v
theories/Coef_cert.v
theories/Coef_cert_sound.v
theories/Coef_check.v
theories/Coef_check_sound.v
theories/Coef_cover_lemmas.v
theories/Coef_cover_props.v
theories/Coef_cover_spec.v
theories/Coef_hop.v
theories/Coef_hop_AB.v
theories/Coef_hop_DBL.v
theories/Coef_hop_ISO.v
theories/Coef_hop_LR.v
theories/Coef_hop_QS.v
theories/Coef_hop_QST.v
theories/Coef_hop_SPSU2T.v
theories/Coef_ieee.v
theories/Coef_iso.v
theories/Coef_iso_AB.v
theories/Coef_iso_DBL.v
theories/Coef_iso_ISO.v
theories/Coef_iso_LR.v
theories/Coef_iso_QS.v
theories/Coef_iso_QST.v
theories/Coef_iso_SPSU2T.v
theories/Coef_iso_lemmas.v
theories/Coef_iso_props.v
theories/Coef_iso_sound.v
theories/Coef_isos.v
theories/Coef_lines_lemmas.v
theories/Coef_lines_props.v
theories/Coef_lines_spec.v
theories/Coef_model.v
theories/Coef_norm.v
theories/Coef_norm_sound.v
theories/Coef_props.v
theories/Coef_props_lemmas.v
theories/Coef_rows.v
theories/Coef_run_AB.v
theories/Coef_run_DBL.v
theories/Coef_run_ISO.v
theories/Coef_run_LR.v
theories/Coef_run_QS.v
theories/Coef_run_QST.v
theories/Coef_run_SPSU2T.v
theories/Coef_run_rows.v
theories/Coef_sector.v
theories/Coef_sector_sound.v
theories/Coef_spec.v
theories/Coef_tab_DBLISOSZ.v
theories/Coef_tab_DBLQSZ.v
theories/Coef_tab_DBLSU2.v
theories/Coef_tab_ISO.v
theories/Coef_tab_ISO2.v
theories/Coef_tab_ISO2LR.v
theories/Coef_tab_ISOLR.v
theories/Coef_tab_ISOSZ.v
theories/Coef_tab_ISOSZLR.v
theories/Coef_tab_NONE.v
theories/Coef_tab_P.v
theories/Coef_tab_PP.v
theories/Coef_tab_QJ.v
theories/Coef_tab_QS.v
theories/Coef_tab_QSC3.v
theories/Coef_tab_QSLR.v
theories/Coef_tab_QST.v
theories/Coef_tab_QSTZ.v
theories/Coef_tab_QSZ.v
theories/Coef_tab_QSZLR.v
theories/Coef_tab_QSZTZ.v
theories/Coef_tab_SL.v
theories/Coef_tab_SL3.v
theories/Coef_tab_SPSU2.v
theories/Coef_tab_SPSU2C3.v
theories/Coef_tab_SPSU2LR.v
theories/Coef_tab_SPSU2T.v
theories/Coef_tab_SPU1.v
theories/Coef_tab_SPU1LR.v
theories/Coef_tab_SU2.v
theories/Coef_tab_U1.v
theories/Coef_tables.v
theories/Columns_aux.v
theories/Columns_model.v
theories/Columns_proofs.v
theories/Columns_props.v
theories/Columns_spec.v
theories/Columns_tables.v
theories/Cring.v
theories/Datafile_aux.v
theories/Datafile_check.v
theories/Datafile_model.v
theories/Datafile_parse.v
theories/Datafile_props.v
theories/Datafile_read.v
theories/Datafile_spec.v
theories/Density_aux.v
theories/Density_chain.v
theories/Density_expect.v
theories/Density_fdm.v
theories/Density_model.v
theories/Density_proofs.v
theories/Density_props.v
theories/Density_spec.v
theories/Density_struct.v
theories/Density_sums.v
theories/Diagtool_aux.v
theories/Diagtool_model.v
theories/Diagtool_proofs.v
theories/Diagtool_props.v
theories/Diagtool_spec.v
theories/Fullchain_aux.v
theories/Fullchain_car.v
theories/Fullchain_check.v
theories/Fullchain_elem.v
theories/Fullchain_facts.v
theories/Fullchain_final.v
theories/Fullchain_ham.v
theories/Fullchain_match.v
theories/Fullchain_model.v
theories/Fullchain_ops.v
theories/Fullchain_prog.v
theories/Fullchain_props.v
theories/Fullchain_rot.v
theories/Fullchain_run.v
theories/Fullchain_scale.v
theories/Fullchain_scale_aux.v
theories/Fullchain_scale_model.v
theories/Fullchain_scale_props.v
theories/Fullchain_spec.v
theories/Fullchain_spectral.v
theories/Fullchain_step.v
theories/Fullchain_struct.v
theories/Fullchain_sums.v
theories/Fullchain_terms.v
theories/Gauss.v
theories/Hamilton_aux.v
theories/Hamilton_model.v
theories/Hamilton_pos.v
theories/Hamilton_proofs.v
theories/Hamilton_props.v
theories/Hamilton_spec.v
theories/Hamilton_step.v
theories/Hilb_aux.v
theories/Hilb_final.v
theories/Hilb_model.v
theories/Hilb_proofs.v
theories/Hilb_props.v
theories/Hilb_spec.v
theories/Instantiate_aux.v
theories/Instantiate_final.v
theories/Instantiate_lines.v
theories/Instantiate_mats.v
theories/Instantiate_model.v
theories/Instantiate_props.v
theories/Instantiate_same.v
theories/Instantiate_spec.v
theories/Instantiate_steps.v
theories/Instantiate_tail.v
theories/Instantiate_write.v
theories/Interp_aux.v
theories/Interp_model.v
theories/Interp_proofs.v
theories/Interp_props.v
theories/Interp_spec.v
theories/Invar_model.v
theories/Invar_proofs.v
theories/Invar_spec.v
theories/Kk_aux.v
theories/Kk_init.v
theories/Kk_model.v
theories/Kk_proofs.v
theories/Kk_props.v
theories/Kk_spec.v
theories/Linalg_aux.v
theories/Linalg_diag.v
theories/Linalg_gemm.v
theories/Linalg_model.v
theories/Linalg_props.v
theories/Linalg_spec.v
theories/Mpi_aux.v
theories/Mpi_global.v
theories/Mpi_model.v
theories/Mpi_proofs.v
theories/Mpi_props.v
theories/Mtool_aux.v
theories/Mtool_complete.v
theories/Mtool_flex.v
theories/Mtool_flex_main.v
theories/Mtool_flex_proofs.v
theories/Mtool_flex_props.v
theories/Mtool_flex_read.v
theories/Mtool_gram.v
theories/Mtool_late.v
theories/Mtool_lex.v
theories/Mtool_lines.v
theories/Mtool_model.v
theories/Mtool_more.v
theories/Mtool_names.v
theories/Mtool_names_props.v
theories/Mtool_parse.v
theories/Mtool_proofs.v
theories/Mtool_props.v
theories/Mtool_read_props.v
theories/Mtool_safe.v
theories/Mtool_sound.v
theories/Mtool_spec.v
theories/Oprecalc_aux.v
theories/Oprecalc_files.v
theories/Oprecalc_list.v
theories/Oprecalc_model.v
theories/Oprecalc_props.v
theories/Oprecalc_run.v
theories/Oprecalc_spec.v
theories/Oprecalc_words.v
theories/Params_aux.v
theories/Params_forms.v
theories/Params_model.v
theories/Params_proofs.v
theories/Params_props.v
theories/Params_read.v
theories/Params_spec.v
theories/Patch_aux.v
theories/Patch_model.v
theories/Patch_proofs.v
theories/Patch_props.v
theories/Patch_run.v
theories/Patch_spec.v
theories/Recalc_aux.v
theories/Recalc_general.v
theories/Recalc_model.v
theories/Recalc_proofs.v
theories/Recalc_props.v
theories/Recalc_spec.v
theories/Resample_aux.v
theories/Resample_model.v
theories/Resample_proofs.v
theories/Resample_props.v
theories/Resample_spec.v
theories/Sections_aux.v
theories/Sections_model.v
theories/Sections_proofs.v
theories/Sections_props.v
theories/Sections_spec.v
theories/Sectors_aux.v
theories/Sectors_props.v
theories/Selection_proofs.v
theories/Selection_spec.v
theories/Spectral_aux.v
theories/Spectral_model.v
theories/Spectral_proofs.v
theories/Spectral_props.v
theories/Spectral_spec.v
theories/Spectral_sum.v
theories/Startup_model.v
theories/Startup_proofs.v
theories/Startup_props.v
theories/Startup_spec.v
theories/Steps_model.v
theories/Steps_proofs.v
theories/Steps_props.v
theories/Steps_spec.v
theories/Storage_aux.v
theories/Storage_io.v
theories/Storage_model.v
theories/Storage_proofs.v
theories/Storage_props.v
theories/Storage_spec.v
theories/Subspaces_chain.v
theories/Subspaces_model.v
theories/Subspaces_proofs.v
theories/Subspaces_spec.v
theories/Subspaces_step.v
theories/Subspaces_tasks.v
theories/Symmetry_dim.v
theories/Symmetry_factor.v
theories/Symmetry_model.v
theories/Symmetry_proofs.v
theories/Symmetry_spec.v
theories/Symmetry_tables.v
theories/Tables_aux.v
theories/Tables_lines.v
theories/Tables_model.v
theories/Tables_proofs.v
theories/Tables_props.v
theories/Tables_spec.v
theories/Template_aux.v
theories/Template_complete.v
theories/Template_lex.v
theories/Template_model.v
theories/Template_proofs.v
theories/Template_props.v
theories/Template_safe.v
theories/Template_spec.v
theories/Template_values.v
theories/Template_words.v
theories/Thermo_aux.v
theories/Thermo_model.v
theories/Thermo_proofs.v
theories/Thermo_props.v
theories/Thermo_spec.v
theories/Time_model.v
theories/Time_proofs.v
theories/Time_props.v
theories/Time_spec.v
theories/Truncation_aux.v
theories/Truncation_clusters.v
theories/Truncation_model.v
theories/Truncation_proofs.v
theories/Truncation_props.v
theories/Truncation_spec.v
theories/Truncation_step.v
theories/Zavg_aux.v
theories/Zavg_kernel.v
theories/Zavg_mesh.v
theories/Zavg_model.v
theories/Zavg_proofs.v
theories/Zavg_props.v
theories/Zavg_spec.v
theories/Zavg_total.v
theories/Zavg_weight.v
