# Print Assumptions of every theorem of MANIFEST.json

Generated by tools/design.py --axioms (Coq 8.16.1). All names below are axioms of the Coq standard library.

## Closed under the global context (no axioms)

* accepted_arguments_well_formed (PropsArgs)
* stored_arguments_are_the_last_ones (PropsArgs)
* single_number_enlargement_rejected (PropsArgs)
* canonical_arguments_accepted (PropsArgs)
* periodicity_token_meaning (PropsArgs)
* canonical_arguments_rejected (PropsArgs)
* canonical_bad_displacement_rejected (PropsArgs)
* arguments_forget_history (PropsArgs)
* object_view_agrees (PropsArgs)
* displacement_enlargement_order_irrelevant (PropsArgs)
* negative_displacement_not_rejected (PropsArgs)
* nonnegative_displacement_stored (PropsArgs)
* displacement_positive_refuted (PropsArgs)
* setter_histories_keep_invariants (PropsCell)
* raising_setter_changes_nothing (PropsCell)
* atom_count_is_stable (PropsCell)
* selection_stays_in_range (PropsCell)
* setter_acceptance (PropsCell)
* counts_and_selection_invariant_refuted (PropsCell)
* setters_store_the_value (PropsCell)
* selection_sorted_and_in_range (PropsCell)
* direct_coordinates_roundtrip (PropsCell)
* direct_coordinates_defining (PropsCell)
* direct_coordinates_singular_rejected (PropsCell)
* supercell_content (PropsCell)
* supercell_copies_enumerated_once (PropsCell)
* supercell_lattice_and_counts (PropsCell)
* supercell_covers_crystal_once (PropsCell)
* supercell_selection_correct (PropsCell)
* bypassed_argument_check_raises (PropsCell)
* nonpositive_enlargement_outcomes (PropsCell)
* supercell_never_garbage_refuted (PropsCell)
* displaced_files_without_symmetry (PropsCell)
* built_supercell_is_ready (PropsCell)
* displaced_files_with_symmetry (PropsCell)
* displaced_names_distinct (PropsCell)
* displaced_names_sort_numerically (PropsCell)
* displaced_names_sort_refuted_beyond_9999 (PropsCell)
* supercell_left_displaced (PropsCell)
* coordinate_text_accuracy (PropsText)
* coordinate_text_shape (PropsText)
* vasp_file_roundtrip (PropsText)
* espresso_file_roundtrip (PropsText)
* aims_file_roundtrip (PropsText)
* selective_flag_roundtrip_refuted (PropsText)
* run_length_counts (PropsText)
* run_length_unique (PropsText)
* run_length_total (PropsText)
* vasprun_forces_read (PropsText)
* outcar_forces_read (PropsText)
* espresso_forces_read (PropsText)
* aims_forces_read (PropsText)
* first_force_block_wins (PropsText)
* force_file_without_tag_rejected (PropsText)
* other_vasp_file_names_rejected (PropsText)
* truncated_force_files_accepted (PropsText)
* match_check_characterised (PropsCheck)
* generated_supercell_accepted (PropsCheck)
* match_check_ignores_atoms (PropsCheck)
* match_check_detects_atom_count_refuted (PropsCheck)
* post_arguments_are_checked (PropsSession)
* mismatched_post_arguments_raise (PropsSession)
* file_order_check_characterised (PropsCheck)
* file_order_check_characterised_sym (PropsCheck)
* written_files_accepted (PropsCheck)
* swapped_pair_rejected (PropsCheck)
* gamma_grid_points (PropsKPoints)
* grid_closed_under_inversion (PropsKPoints)
* unshifted_gamma_contains_gamma (PropsKPoints)
* grid_points_inequivalent (PropsKPoints)
* monkhorst_pack_points (PropsKPoints)
* grid_rejected_iff (PropsKPoints)
* line_path_points (PropsKPoints)
* interpolation_ends (PropsKPoints)
* odd_path_rejected (PropsKPoints)
* bad_start_point_rejected (PropsKPoints)
* end_points_unchecked (PropsKPoints)
* fully_periodic_path_fails (PropsKPoints)
* finite_difference_columns (PropsForce)
* missing_force_files_leave_garbage (PropsForce)
* extra_force_files_rejected (PropsForce)
* unreadable_force_file_rejected (PropsForce)
* harmonic_force_constants_exact (PropsForce)
* every_spring_law_is_harmonic (PropsForce)
* symmetry_force_constants_exact (PropsForce)
* symmetry_pipeline_exact (PropsForce)
* reciprocal_lattice_dual (PropsForce)
* candidates_exact (PropsLattice)
* order_loop_diverges (PropsLattice)
* point_group_symbol (PropsPoint)
* point_groups_all_named (PropsPoint)
* accepted_operations_map_atoms (PropsSym)
* isometric_operations_permute_atoms (PropsSym)
* candidate_symmetries_found (PropsSym)
* symmorphic_symmetries_found (PropsSym)
* twofold_symmetry_missed (PropsSym)
* coincident_atoms_refuted (PropsSym)
* reported_translations (PropsPoint)
* image_atoms_partition (PropsSym)
* image_atoms_total (PropsSym)
* weight_of_every_spelling (PropsWeight)
* standard_weight_of_every_element (PropsWeight)
* unknown_element_rejected (PropsWeight)
* header_titles_accepted (PropsWeight)
* record_precedence (PropsCli)
* periodicity_before_enlargement_fails (PropsArgs)
* entry_order_matters_refuted (PropsArgs)
* truncated_vasp_file_rejected (PropsText)
* truncated_espresso_file_accepted (PropsText)
* unknown_scheme_silent (PropsKPoints)
* explicit_list_points (PropsKPoints)
* failed_call_leaves_nothing (PropsKPoints)
* blank_shift_line_fails (PropsKPoints)
* cartesian_operation_correct_iff (PropsForce)
* cartesian_operation_refuted (PropsForce)
* cartesian_operation_correct_on_equal_lengths (PropsForce)
* represented_operation_is_isometry (PropsForce)
* unknown_point_group_aborts (PropsSym)
* fallback_without_symmetry_refuted (PropsSym)
* symmetry_off (PropsSym)
* supercell_rows_meaning (PropsSuperSym)
* supercell_images_complete (PropsSuperSym)
* supercell_images_of_search (PropsSuperSym)
* built_supercell_is_enlarged (PropsSuperSym)
* unequal_enlargement_loses_images (PropsSuperSym)
* option_line_meaning (PropsCli)
* option_line_blank_or_comment (PropsCli)
* option_line_without_assignment (PropsCli)
* option_file_values (PropsCli)
* option_file_accepted (PropsCli)
* option_file_keeps_switches (PropsCli)
* option_file_last_line_wins_refuted (PropsCli)
* symmetry_follows_the_record (PropsCli)
* record_restores_arguments (PropsCli)
* record_of_negative_displacement (PropsCli)
* preprocess_decision (PropsCli)
* analyses_run (PropsCli)
* thermal_needs_dos_kpoints (PropsCli)
* postprocess_refused (PropsCli)
* amplitude_from_file_is_text (PropsCli)
* force_file_order (PropsCli)
* pattern_matches_in_displacement_order (PropsCli)
* limit_denominator_best (PropsFrac)
* commensurate_enlargement (PropsFrac)
* commensurate_exactly_when_short (PropsFrac)
* near_fraction_recognised (PropsFrac)
* plane_of_periodic_directions (PropsPoint)
* site_operations_fix_the_atom (PropsPoint)
* nonprimitive_cell_wrong (PropsNonPrim)
* private_objects_are_isolated (PropsSession)
* fresh_objects_are_private (PropsSession)
* default_processes_share_everything (PropsSession)
* deep_copy_is_independent (PropsSession)
* second_post_process_replaces_the_first (PropsSession)
* wrong_class_assignment_is_silent (PropsSession)
* right_class_assignment (PropsSession)
* cell_class_of_assignment (PropsSession)
* new_process_holds_its_objects (PropsSession)
* symmetry_object_keeps_its_cells (PropsSession)
* evaluation_matches_wave_vectors (PropsSession)
* evaluation_keeps_no_old_result (PropsSession)
* rejected_k_file_drops_the_wave_vectors (PropsSession)
* unknown_k_style_keeps_old_frequencies (PropsSession)
* failed_evaluation (PropsSession)
* discrete_frequency_file (PropsSession)
* set_super_cell_builds_from_its_objects (PropsSession)
* one_object_as_both_cells (PropsSession)
* unknown_code_name (PropsSession)
* vasp_file_meaning (PropsRead)
* vasp_missing_positions_rejected (PropsRead)
* vasp4_file_rejected (PropsRead)
* vasp_cartesian_positions_unscaled (PropsRead)
* successful_read_is_consistent (PropsRead)
* espresso_file_meaning (PropsRead)
* espresso_zero_coordinate_freezes (PropsRead)
* espresso_units_ignored (PropsRead)
* espresso_stray_nat_rejected (PropsRead)
* aims_file_meaning (PropsRead)
* aims_fractional_atoms_only_rejected (PropsRead)
* column_labels_name_atoms (PropsOutput)
* option_assignment_meaning (PropsOptions)
* thermal_temperatures (PropsOptions)
* energy_window (PropsOptions)
* dos_arguments (PropsOptions)
* band_arguments (PropsOptions)
* mode_arguments (PropsOptions)
* analysis_arguments_refused (PropsOptions)
* dos_arguments_accepted (PropsOptions)
* pre_process_leaves (PropsRun)
* pre_process_leaves_with_symmetry (PropsRun)
* end_to_end_force_constants (PropsRun)
* end_to_end_exact_force_constants (PropsRun)
* checked_structure_is_beside_the_force_file (PropsRun)
* bare_force_file_checked_at_the_root (PropsRun)
* plain_name_is_in_the_working_directory (PropsRun)
* unit_cell_elsewhere_is_not_found (PropsRun)
* pre_process_frame (PropsRun)
* command_line_meaning (PropsClick)
* default_unit_cell_must_exist (PropsClick)
* command_line_rejected (PropsClick)
* help_is_shown (PropsClick)
* option_file_like_command_line (PropsClick)
* documented_workflow (PropsWorkflow)
* accepted_labels_fit (PropsReport)

## `FunctionalExtensionality.functional_extensionality_dep`

* program_forces_repeatable (PropsReport)

## `ClassicalDedekindReals.sig_forall_dec`, `FunctionalExtensionality.functional_extensionality_dep`

* image_vector_sound (PropsPhonon)
* image_vector_minimal_1d (PropsPhonon)
* image_vector_minimal_refuted (PropsPhonon)
* reduced_cell_symmetries_found (PropsLattice)
* skewed_cell_symmetry_missed (PropsLattice)
* accepted_operations_crystallographic (PropsLattice)
* exact_symmetries_crystallographic (PropsLattice)
* tiny_cell_unclassified (PropsLattice)
* weights_1d (PropsTetra)
* weights_2d (PropsTetra)
* weights_3d (PropsTetra)
* weights_3d_not_finite (PropsTetra)
* automatic_grid_is_mesh (PropsDos)
* tetrahedra_tile_the_cell (PropsDos)
* rising_segment_projection (PropsSmear)
* falling_segment_projection_swapped (PropsSmear)
* dos_frequencies (PropsSmear)
* triangles_tile_the_cell (PropsDos)
* thermal_constants (PropsThermal)
* mode_selection (PropsMode)
* mode_selection_bad_indices (PropsMode)
* mode_selection_forgets (PropsMode)
* masses_of_selected_atoms (PropsWeight)
* band_file (PropsOutput)
* band_file_keeps_order (PropsOutput)
* printed_ties_to_even (PropsOutput)
* dos_file_comment (PropsOutput)
* total_dos_file (PropsOutput)
* projected_dos_file (PropsOutput)
* projected_dos_file_cut (PropsOutput)
* thermal_file (PropsOutput)
* gamma_file (PropsOutput)
* dos_plain_picture (PropsPlot)
* dos_line_picture (PropsPlot)
* dos_stack_horizontal (PropsPlot)
* dos_stack_vertical (PropsPlot)
* sets_add_up_to_the_total (PropsPlot)
* dos_requests_without_picture (PropsPlot)
* picture_range (PropsPlot)
* combined_picture (PropsPlot)
* thermal_picture (PropsPlot)

## `ClassicalDedekindReals.sig_forall_dec`, `ClassicalDedekindReals.sig_not_dec`, `FunctionalExtensionality.functional_extensionality_dep`

* dynamical_matrix_conjugate (PropsPhonon)
* dynamical_matrix_real_at_gamma (PropsPhonon)
* gamma_matrix_sum (PropsPhonon)
* acoustic_sum_rule (PropsPhonon)
* translations_are_zero_modes (PropsPhonon)
* dynamical_matrix_phase_sum (PropsPhonon)
* commensurate_fourier_sum (PropsPhonon)
* dynamical_matrix_hermitian (PropsPhonon)
* hermitian_refuted_at_interpolated_k (PropsPhonon)
* frequency_of_real_eigenvalue (PropsModes)
* frequency_strictly_increasing (PropsModes)
* frequency_sign (PropsModes)
* frequencies_sorted (PropsModes)
* phonon_results_in_k_order (PropsModes)
* eigenvectors_keep_solver_order (PropsModes)
* modes_correct_for_ordered_symmetric_solver (PropsModes)
* mode_rows_refuted (PropsModes)
* mode_order_refuted (PropsModes)
* displacements_independent (PropsDisp)
* displacements_dependent_in_xz (PropsDisp)
* three_coplanar_images (PropsDisp)
* displacements_dependent_in_yz (PropsDisp)
* band_abscissa (PropsBand)
* band_ticks (PropsBand)
* band_needs_two_points (PropsBand)
* band_set_twice (PropsBand)
* band_distance_isotropic (PropsBand)
* band_cartesian_length_refuted (PropsBand)
* band_projection (PropsBand)
* elongated_mesh_dos_vanishes (PropsDos)
* total_is_sum_of_projections (PropsSmear)
* molecule_dos (PropsSmear)
* molecule_sum_rule_refuted (PropsSmear)
* molecule_projection_write_fails (PropsSmear)
* linear_dos_needs_grid (PropsSmear)
* single_row_mesh_fails (PropsSmear)
* projection_refuted (PropsSmear)
* gaussian_dos_total (PropsSmear)
* gaussian_dos_sign (PropsSmear)
* repeated_dos_adds_up (PropsSmear)
* trajectory_content (PropsMode)
* trajectory_symmetric (PropsMode)
* trajectory_bad_index (PropsMode)
* pattern_periodic_iff (PropsMode)
* mode_displacement_content (PropsMode)
* written_displacement_is_bloch_iff (PropsMode)
* eigenvector_phase_matters (PropsMode)
* symmetry_run_exact (PropsSymRun)
* band_file_of_a_run (PropsOutput)
* dos_files_agree (PropsOutput)
* isolated_dos_files (PropsOutput)
* stored_total_is_the_sum (PropsPlot)
* molecule_projection_refused (PropsPlot)
* smeared_density_is_finite (PropsPlot)
* band_plain_picture (PropsPlot)
* band_projection_picture (PropsPlot)
* band_requests_without_picture (PropsPlot)
* animation_content (PropsReport)
* animation_is_the_trajectory (PropsReport)

## `ClassicalDedekindReals.sig_forall_dec`, `ClassicalDedekindReals.sig_not_dec`, `Classical_Prop.classic`, `FunctionalExtensionality.functional_extensionality_dep`

* linear_dos_states (PropsDos)
* tetrahedron_dos_states (PropsDos)
* states_conserved (PropsDos)
* odd_chain_loses_states (PropsDos)
* simplex_states (PropsTetra)
* free_energy_formula (PropsThermal)
* free_energy_zero_temperature_limit (PropsThermal)
* free_energy_decreasing (PropsThermal)
* entropy_is_minus_derivative (PropsThermal)
* entropy_formula (PropsThermal)
* imaginary_warning (PropsThermal)
* imaginary_modes_contribute_nothing (PropsThermal)
* repeated_zero_temperature_ignored (PropsThermal)
* zero_frequency_not_finite (PropsThermal)
* repeated_evaluation_adds_up (PropsThermal)
* repeated_evaluation_with_zero_temperature (PropsThermal)
* thermal_file_of_a_run (PropsOutput)
* both_analyses_in_one_run (PropsReport)
* files_of_a_run (PropsReport)
* failing_dos_ends_the_run (PropsReport)
* failing_band_keeps_the_dos (PropsReport)
* record_iff_success (PropsReport)
* text_amplitude_fails (PropsReport)
* plain_dos_finishes (PropsFinish)
* plain_bands_finish (PropsFinish)
* plain_run_finishes (PropsFinish)
* bands_of_the_law (PropsBands)
* dos_files_of_a_run (PropsContent)
* thermal_file_of_an_analysis (PropsContent)
* band_files_of_an_analysis (PropsContent)
* option_file_of_a_report (PropsContent)
* first_call_leaves_nothing (PropsContent)
* any_analysis_of_the_law (PropsLaw)
* plain_analysis_of_the_law_finishes (PropsLaw)
* smeared_states_hold_every_mode (PropsGauss)
