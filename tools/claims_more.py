c("C17","proved","coordinate_text_accuracy coordinate_text_shape")
c("C18","proved","vasp_file_roundtrip")
c("C19","proved","espresso_file_roundtrip","selective flag is inferred: set iff an atom is fixed")
c("C20","proved","aims_file_roundtrip selective_flag_roundtrip_refuted","selective flag is inferred: set iff an atom is fixed")
c("C21","proved","run_length_counts run_length_unique run_length_total")
c("C22","proved","vasprun_forces_read outcar_forces_read espresso_forces_read aims_forces_read first_force_block_wins")
c("C23","proved","force_file_without_tag_rejected other_vasp_file_names_rejected truncated_force_files_accepted")
c("C57","proved","truncated_vasp_file_rejected truncated_espresso_file_accepted")
c("C24","proved","match_check_characterised generated_supercell_accepted match_check_ignores_atoms match_check_detects_atom_count_refuted","atom counts are not compared (commented out in the source)")
c("C25","proved","file_order_check_characterised file_order_check_characterised_sym written_files_accepted swapped_pair_rejected")
c("C26","proved","gamma_grid_points grid_closed_under_inversion unshifted_gamma_contains_gamma grid_points_inequivalent")
c("C27","proved","monkhorst_pack_points grid_closed_under_inversion grid_points_inequivalent")
c("C28","proved","grid_rejected_iff")
c("C29","proved","line_path_points interpolation_ends odd_path_rejected")
c("C30","proved","bad_start_point_rejected end_points_unchecked fully_periodic_path_fails","intended check of end points refuted")
c("C58","proved","unknown_scheme_silent explicit_list_points failed_call_leaves_nothing blank_shift_line_fails")
c("C31","proved","finite_difference_columns missing_force_files_leave_garbage extra_force_files_rejected harmonic_force_constants_exact every_spring_law_is_harmonic")
c("C32","proved","symmetry_force_constants_exact symmetry_pipeline_exact")
c("C33","proved","reciprocal_lattice_dual")
c("C59","proved","cartesian_operation_correct_iff cartesian_operation_refuted cartesian_operation_correct_on_equal_lengths represented_operation_is_isometry")
c("C34","proved","image_vector_sound image_vector_minimal_1d image_vector_minimal_refuted")
c("C35","proved","dynamical_matrix_conjugate dynamical_matrix_real_at_gamma")
c("C36","proved","gamma_matrix_sum acoustic_sum_rule translations_are_zero_modes")
c("C37","proved","dynamical_matrix_phase_sum commensurate_fourier_sum dynamical_matrix_hermitian hermitian_refuted_at_interpolated_k","commensurate k only; refuted elsewhere")
c("C38","proved","frequency_of_real_eigenvalue frequency_strictly_increasing frequency_sign frequencies_sorted")
c("C39","proved","eigenvectors_keep_solver_order modes_correct_for_ordered_symmetric_solver mode_rows_refuted mode_order_refuted","the intended pairing is refuted")
c("C40","proved","candidates_exact reduced_cell_symmetries_found skewed_cell_symmetry_missed")
c("C41","proved","accepted_operations_crystallographic exact_symmetries_crystallographic tiny_cell_unclassified order_loop_diverges")
c("C42","proved","accepted_operations_map_atoms isometric_operations_permute_atoms candidate_symmetries_found symmorphic_symmetries_found twofold_symmetry_missed coincident_atoms_refuted","completeness refuted for translations outside the candidate list")
c("C43","proved","image_atoms_partition image_atoms_total")
c("C60","proved","unknown_point_group_aborts fallback_without_symmetry_refuted symmetry_off","the documented fallback is refuted")
c("C44","proved","displacements_independent displacements_dependent_in_xz three_coplanar_images displacements_dependent_in_yz","holds for a slab with a,b in the xy plane and c along z; other periodic orientations are refuted")
c("C49","proved","free_energy_formula free_energy_zero_temperature_limit free_energy_decreasing")
c("C50","proved","entropy_is_minus_derivative entropy_formula")
c("C51","proved","imaginary_warning imaginary_modes_contribute_nothing")
c("C62","proved","repeated_zero_temperature_ignored zero_frequency_not_finite repeated_evaluation_adds_up repeated_evaluation_with_zero_temperature")
c("C45","proved","band_abscissa band_ticks band_needs_two_points band_set_twice band_distance_isotropic band_cartesian_length_refuted band_projection","Cartesian reading refuted")
c("C46","proved","weights_1d weights_2d weights_3d weights_3d_not_finite")
c("C47","proved","linear_dos_states tetrahedron_dos_states states_conserved elongated_mesh_dos_vanishes odd_chain_loses_states automatic_grid_is_mesh tetrahedra_tile_the_cell simplex_states total_is_sum_of_projections molecule_dos molecule_sum_rule_refuted molecule_projection_write_fails linear_dos_needs_grid single_row_mesh_fails rising_segment_projection falling_segment_projection_swapped projection_refuted gaussian_dos_total gaussian_dos_sign dos_frequencies","projection per corner and normalisation on elongated 3D meshes are refuted")
c("C48","proved","repeated_dos_adds_up")
c("C01","proved","accepted_arguments_well_formed stored_arguments_are_the_last_ones single_number_enlargement_rejected")
c("C04","proved","negative_displacement_not_rejected nonnegative_displacement_stored displacement_positive_refuted stored_arguments_are_the_last_ones","actual behaviour proved; documented intent refuted")
C["C05"]["theorems"].append("setters_store_the_value")
c("C54","proved","weight_of_every_spelling unknown_element_rejected header_titles_accepted masses_of_selected_atoms")
c("C55","proved","record_precedence")
c("C63","proved","option_line_meaning option_line_blank_or_comment option_line_without_assignment option_file_values option_file_accepted option_file_keeps_switches option_file_last_line_wins_refuted","the natural 'last line wins' is refuted for two spellings of one option")
c("C64","proved","symmetry_follows_the_record")
c("C65","proved","record_restores_arguments record_of_negative_displacement")
c("C66","proved","preprocess_decision analyses_run thermal_needs_dos_kpoints postprocess_refused amplitude_from_file_is_text")
c("C67","proved","force_file_order pattern_matches_in_displacement_order")
c("C52","proved","mode_selection mode_selection_bad_indices mode_selection_forgets")
c("C53","proved","trajectory_content trajectory_symmetric trajectory_bad_index","formatting of real numbers is a parameter; vasp_lines_write links the lines to the verified writer")
c("C68","proved","limit_denominator_best commensurate_enlargement commensurate_exactly_when_short near_fraction_recognised")
c("C69","proved","pattern_periodic_iff")
c("C70","proved","mode_displacement_content written_displacement_is_bloch_iff eigenvector_phase_matters")
c("C61","proved","supercell_rows_meaning supercell_images_complete supercell_images_of_search built_supercell_is_enlarged unequal_enlargement_loses_images","exact crystal symmetry is assumed: with approximate positions the tolerance of the supercell test can be exceeded")
c("C38","proved","frequency_of_real_eigenvalue frequency_strictly_increasing frequency_sign frequencies_sorted phonon_results_in_k_order")
c("C41","proved","accepted_operations_crystallographic exact_symmetries_crystallographic tiny_cell_unclassified order_loop_diverges point_group_symbol point_groups_all_named")
c("C42","proved","accepted_operations_map_atoms isometric_operations_permute_atoms candidate_symmetries_found symmorphic_symmetries_found twofold_symmetry_missed coincident_atoms_refuted reported_translations","completeness refuted for translations outside the candidate list")
c("C49","proved","free_energy_formula free_energy_zero_temperature_limit free_energy_decreasing thermal_constants")
c("C71","proved","plane_of_periodic_directions site_operations_fix_the_atom")
c("C72","proved","symmetry_run_exact","hypotheses: primitive selected layer, exact operations, slab, equal in-plane enlargement")
c("C72","proved","symmetry_run_exact nonprimitive_cell_wrong","hypotheses: primitive selected layer, exact operations, slab, equal in-plane enlargement; refuted for centred cells")
c("C47",'proved','linear_dos_states tetrahedron_dos_states states_conserved elongated_mesh_dos_vanishes odd_chain_loses_states automatic_grid_is_mesh tetrahedra_tile_the_cell simplex_states total_is_sum_of_projections molecule_dos molecule_sum_rule_refuted molecule_projection_write_fails linear_dos_needs_grid single_row_mesh_fails rising_segment_projection falling_segment_projection_swapped projection_refuted gaussian_dos_total gaussian_dos_sign dos_frequencies triangles_tile_the_cell','projection per corner and normalisation on elongated 3D meshes are refuted')
c("C73","proved","private_objects_are_isolated fresh_objects_are_private default_processes_share_everything deep_copy_is_independent second_post_process_replaces_the_first","isolation is refuted for objects constructed with the default arguments")
c("C74","proved","wrong_class_assignment_is_silent cell_class_of_assignment symmetry_object_keeps_its_cells")
c("C75","proved","evaluation_matches_wave_vectors rejected_k_file_drops_the_wave_vectors unknown_k_style_keeps_old_frequencies failed_evaluation discrete_frequency_file")
c("C76","proved","set_super_cell_builds_from_its_objects one_object_as_both_cells unknown_code_name")
c("C31","proved","finite_difference_columns missing_force_files_leave_garbage extra_force_files_rejected unreadable_force_file_rejected harmonic_force_constants_exact every_spring_law_is_harmonic")
c("C77","proved","vasp_file_meaning vasp_missing_positions_rejected vasp4_file_rejected vasp_cartesian_positions_unscaled successful_read_is_consistent")
c("C78","proved","espresso_file_meaning espresso_zero_coordinate_freezes espresso_units_ignored espresso_stray_nat_rejected")
c("C79","proved","aims_file_meaning aims_fractional_atoms_only_rejected")
c("C80","proved","band_file band_file_keeps_order band_file_of_a_run")
c("C81","proved","dos_file_comment total_dos_file column_labels_name_atoms projected_dos_file projected_dos_file_cut dos_files_agree isolated_dos_files")
c("C82","proved","thermal_file thermal_file_of_a_run")
c("C83","proved","gamma_file")
c("C84","proved","option_assignment_meaning")
c("C85","proved","thermal_temperatures energy_window dos_arguments band_arguments mode_arguments analysis_arguments_refused dos_arguments_accepted")
c("C86","proved","pre_process_leaves pre_process_leaves_with_symmetry")
c("C87","proved","end_to_end_force_constants end_to_end_exact_force_constants")
c("C88","proved","checked_structure_is_beside_the_force_file bare_force_file_checked_at_the_root plain_name_is_in_the_working_directory unit_cell_elsewhere_is_not_found")
c("C89","proved","pre_process_frame")
c("C24","proved","match_check_characterised generated_supercell_accepted match_check_ignores_atoms match_check_detects_atom_count_refuted post_arguments_are_checked mismatched_post_arguments_raise","atom counts are not compared (commented out in the source)")
c("C54","proved","weight_of_every_spelling standard_weight_of_every_element unknown_element_rejected header_titles_accepted masses_of_selected_atoms")
c("C74","proved","wrong_class_assignment_is_silent right_class_assignment cell_class_of_assignment new_process_holds_its_objects symmetry_object_keeps_its_cells")
c("C75","proved","evaluation_matches_wave_vectors evaluation_keeps_no_old_result rejected_k_file_drops_the_wave_vectors unknown_k_style_keeps_old_frequencies failed_evaluation discrete_frequency_file")
c("C90","proved","dos_plain_picture dos_line_picture dos_stack_horizontal dos_stack_vertical sets_add_up_to_the_total stored_total_is_the_sum dos_requests_without_picture molecule_projection_refused smeared_density_is_finite")
c("C91","proved","picture_range")
c("C92","proved","band_plain_picture band_projection_picture band_requests_without_picture")
c("C93","proved","combined_picture thermal_picture")
c("C94","proved","command_line_meaning default_unit_cell_must_exist")
c("C95","proved","command_line_rejected help_is_shown")
c("C96","proved","option_file_like_command_line")
c("C97","proved","documented_workflow", "Runs without symmetry (the search finds none or is switched off), as C87.")
c("C98","proved","both_analyses_in_one_run program_forces_repeatable accepted_labels_fit")
c("C99","proved","files_of_a_run failing_dos_ends_the_run failing_band_keeps_the_dos")
c("C100","proved","record_iff_success")
c("C101","proved","animation_content animation_is_the_trajectory")
c("C102","proved","text_amplitude_fails")
c("C103","proved","plain_dos_finishes plain_bands_finish plain_run_finishes")
c("C104","proved","bands_of_the_law")
c("C105","proved","dos_files_of_a_run thermal_file_of_an_analysis band_files_of_an_analysis option_file_of_a_report first_call_leaves_nothing")
c("C106","proved","any_analysis_of_the_law plain_analysis_of_the_law_finishes")
c("C107","proved","smeared_states_hold_every_mode")
c("C80","proved","band_file band_file_keeps_order band_file_of_a_run printed_ties_to_even")
