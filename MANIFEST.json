{
 "claims": [
  {
   "property": "C01",
   "status": "proved",
   "theorems": [
    "accepted_arguments_well_formed",
    "stored_arguments_are_the_last_ones",
    "single_number_enlargement_rejected"
   ],
   "note": ""
  },
  {
   "property": "C02",
   "status": "proved",
   "theorems": [
    "canonical_arguments_accepted",
    "periodicity_token_meaning",
    "canonical_arguments_rejected",
    "canonical_bad_displacement_rejected"
   ],
   "note": ""
  },
  {
   "property": "C03",
   "status": "proved",
   "theorems": [
    "arguments_forget_history",
    "object_view_agrees",
    "displacement_enlargement_order_irrelevant"
   ],
   "note": ""
  },
  {
   "property": "C04",
   "status": "proved",
   "theorems": [
    "negative_displacement_not_rejected",
    "nonnegative_displacement_stored",
    "displacement_positive_refuted",
    "stored_arguments_are_the_last_ones"
   ],
   "note": "actual behaviour proved; documented intent refuted"
  },
  {
   "property": "C05",
   "status": "proved",
   "theorems": [
    "setter_histories_keep_invariants",
    "raising_setter_changes_nothing",
    "atom_count_is_stable",
    "selection_stays_in_range",
    "setter_acceptance",
    "counts_and_selection_invariant_refuted",
    "setters_store_the_value"
   ],
   "note": ""
  },
  {
   "property": "C06",
   "status": "proved",
   "theorems": [
    "selection_sorted_and_in_range"
   ],
   "note": ""
  },
  {
   "property": "C07",
   "status": "proved",
   "theorems": [
    "direct_coordinates_roundtrip",
    "direct_coordinates_defining",
    "direct_coordinates_singular_rejected"
   ],
   "note": ""
  },
  {
   "property": "C08",
   "status": "proved",
   "theorems": [
    "supercell_content",
    "supercell_copies_enumerated_once"
   ],
   "note": ""
  },
  {
   "property": "C09",
   "status": "proved",
   "theorems": [
    "supercell_lattice_and_counts"
   ],
   "note": ""
  },
  {
   "property": "C10",
   "status": "proved",
   "theorems": [
    "supercell_covers_crystal_once"
   ],
   "note": ""
  },
  {
   "property": "C100",
   "status": "proved",
   "theorems": [
    "record_iff_success"
   ],
   "note": ""
  },
  {
   "property": "C101",
   "status": "proved",
   "theorems": [
    "animation_content",
    "animation_is_the_trajectory"
   ],
   "note": ""
  },
  {
   "property": "C102",
   "status": "proved",
   "theorems": [
    "text_amplitude_fails"
   ],
   "note": ""
  },
  {
   "property": "C103",
   "status": "proved",
   "theorems": [
    "plain_dos_finishes",
    "plain_bands_finish",
    "plain_run_finishes"
   ],
   "note": ""
  },
  {
   "property": "C104",
   "status": "proved",
   "theorems": [
    "bands_of_the_law"
   ],
   "note": ""
  },
  {
   "property": "C105",
   "status": "proved",
   "theorems": [
    "dos_files_of_a_run",
    "thermal_file_of_an_analysis",
    "band_files_of_an_analysis",
    "option_file_of_a_report",
    "first_call_leaves_nothing"
   ],
   "note": ""
  },
  {
   "property": "C106",
   "status": "proved",
   "theorems": [
    "any_analysis_of_the_law",
    "plain_analysis_of_the_law_finishes"
   ],
   "note": ""
  },
  {
   "property": "C107",
   "status": "proved",
   "theorems": [
    "smeared_states_hold_every_mode"
   ],
   "note": ""
  },
  {
   "property": "C11",
   "status": "proved",
   "theorems": [
    "supercell_selection_correct"
   ],
   "note": ""
  },
  {
   "property": "C12",
   "status": "proved",
   "theorems": [
    "bypassed_argument_check_raises",
    "nonpositive_enlargement_outcomes",
    "supercell_never_garbage_refuted"
   ],
   "note": ""
  },
  {
   "property": "C13",
   "status": "proved",
   "theorems": [
    "displaced_files_without_symmetry",
    "built_supercell_is_ready"
   ],
   "note": ""
  },
  {
   "property": "C14",
   "status": "proved",
   "theorems": [
    "displaced_files_with_symmetry",
    "built_supercell_is_ready"
   ],
   "note": ""
  },
  {
   "property": "C15",
   "status": "proved",
   "theorems": [
    "displaced_names_distinct",
    "displaced_names_sort_numerically",
    "displaced_names_sort_refuted_beyond_9999"
   ],
   "note": ""
  },
  {
   "property": "C16",
   "status": "proved",
   "theorems": [
    "supercell_left_displaced"
   ],
   "note": ""
  },
  {
   "property": "C17",
   "status": "proved",
   "theorems": [
    "coordinate_text_accuracy",
    "coordinate_text_shape"
   ],
   "note": ""
  },
  {
   "property": "C18",
   "status": "proved",
   "theorems": [
    "vasp_file_roundtrip"
   ],
   "note": ""
  },
  {
   "property": "C19",
   "status": "proved",
   "theorems": [
    "espresso_file_roundtrip"
   ],
   "note": "selective flag is inferred: set iff an atom is fixed"
  },
  {
   "property": "C20",
   "status": "proved",
   "theorems": [
    "aims_file_roundtrip",
    "selective_flag_roundtrip_refuted"
   ],
   "note": "selective flag is inferred: set iff an atom is fixed"
  },
  {
   "property": "C21",
   "status": "proved",
   "theorems": [
    "run_length_counts",
    "run_length_unique",
    "run_length_total"
   ],
   "note": ""
  },
  {
   "property": "C22",
   "status": "proved",
   "theorems": [
    "vasprun_forces_read",
    "outcar_forces_read",
    "espresso_forces_read",
    "aims_forces_read",
    "first_force_block_wins"
   ],
   "note": ""
  },
  {
   "property": "C23",
   "status": "proved",
   "theorems": [
    "force_file_without_tag_rejected",
    "other_vasp_file_names_rejected",
    "truncated_force_files_accepted"
   ],
   "note": ""
  },
  {
   "property": "C24",
   "status": "proved",
   "theorems": [
    "match_check_characterised",
    "generated_supercell_accepted",
    "match_check_ignores_atoms",
    "match_check_detects_atom_count_refuted",
    "post_arguments_are_checked",
    "mismatched_post_arguments_raise"
   ],
   "note": "atom counts are not compared (commented out in the source)"
  },
  {
   "property": "C25",
   "status": "proved",
   "theorems": [
    "file_order_check_characterised",
    "file_order_check_characterised_sym",
    "written_files_accepted",
    "swapped_pair_rejected"
   ],
   "note": ""
  },
  {
   "property": "C26",
   "status": "proved",
   "theorems": [
    "gamma_grid_points",
    "grid_closed_under_inversion",
    "unshifted_gamma_contains_gamma",
    "grid_points_inequivalent"
   ],
   "note": ""
  },
  {
   "property": "C27",
   "status": "proved",
   "theorems": [
    "monkhorst_pack_points",
    "grid_closed_under_inversion",
    "grid_points_inequivalent"
   ],
   "note": ""
  },
  {
   "property": "C28",
   "status": "proved",
   "theorems": [
    "grid_rejected_iff"
   ],
   "note": ""
  },
  {
   "property": "C29",
   "status": "proved",
   "theorems": [
    "line_path_points",
    "interpolation_ends",
    "odd_path_rejected"
   ],
   "note": ""
  },
  {
   "property": "C30",
   "status": "proved",
   "theorems": [
    "bad_start_point_rejected",
    "end_points_unchecked",
    "fully_periodic_path_fails"
   ],
   "note": "intended check of end points refuted"
  },
  {
   "property": "C31",
   "status": "proved",
   "theorems": [
    "finite_difference_columns",
    "missing_force_files_leave_garbage",
    "extra_force_files_rejected",
    "unreadable_force_file_rejected",
    "harmonic_force_constants_exact",
    "every_spring_law_is_harmonic"
   ],
   "note": ""
  },
  {
   "property": "C32",
   "status": "proved",
   "theorems": [
    "symmetry_force_constants_exact",
    "symmetry_pipeline_exact"
   ],
   "note": ""
  },
  {
   "property": "C33",
   "status": "proved",
   "theorems": [
    "reciprocal_lattice_dual"
   ],
   "note": ""
  },
  {
   "property": "C34",
   "status": "proved",
   "theorems": [
    "image_vector_sound",
    "image_vector_minimal_1d",
    "image_vector_minimal_refuted"
   ],
   "note": ""
  },
  {
   "property": "C35",
   "status": "proved",
   "theorems": [
    "dynamical_matrix_conjugate",
    "dynamical_matrix_real_at_gamma"
   ],
   "note": ""
  },
  {
   "property": "C36",
   "status": "proved",
   "theorems": [
    "gamma_matrix_sum",
    "acoustic_sum_rule",
    "translations_are_zero_modes"
   ],
   "note": ""
  },
  {
   "property": "C37",
   "status": "proved",
   "theorems": [
    "dynamical_matrix_phase_sum",
    "commensurate_fourier_sum",
    "dynamical_matrix_hermitian",
    "hermitian_refuted_at_interpolated_k"
   ],
   "note": "commensurate k only; refuted elsewhere"
  },
  {
   "property": "C38",
   "status": "proved",
   "theorems": [
    "frequency_of_real_eigenvalue",
    "frequency_strictly_increasing",
    "frequency_sign",
    "frequencies_sorted",
    "phonon_results_in_k_order"
   ],
   "note": ""
  },
  {
   "property": "C39",
   "status": "proved",
   "theorems": [
    "eigenvectors_keep_solver_order",
    "modes_correct_for_ordered_symmetric_solver",
    "mode_rows_refuted",
    "mode_order_refuted"
   ],
   "note": "the intended pairing is refuted"
  },
  {
   "property": "C40",
   "status": "proved",
   "theorems": [
    "candidates_exact",
    "reduced_cell_symmetries_found",
    "skewed_cell_symmetry_missed"
   ],
   "note": ""
  },
  {
   "property": "C41",
   "status": "proved",
   "theorems": [
    "accepted_operations_crystallographic",
    "exact_symmetries_crystallographic",
    "tiny_cell_unclassified",
    "order_loop_diverges",
    "point_group_symbol",
    "point_groups_all_named"
   ],
   "note": ""
  },
  {
   "property": "C42",
   "status": "proved",
   "theorems": [
    "accepted_operations_map_atoms",
    "isometric_operations_permute_atoms",
    "candidate_symmetries_found",
    "symmorphic_symmetries_found",
    "twofold_symmetry_missed",
    "coincident_atoms_refuted",
    "reported_translations"
   ],
   "note": "completeness refuted for translations outside the candidate list"
  },
  {
   "property": "C43",
   "status": "proved",
   "theorems": [
    "image_atoms_partition",
    "image_atoms_total"
   ],
   "note": ""
  },
  {
   "property": "C44",
   "status": "proved",
   "theorems": [
    "displacements_independent",
    "displacements_dependent_in_xz",
    "three_coplanar_images",
    "displacements_dependent_in_yz"
   ],
   "note": "holds for a slab with a,b in the xy plane and c along z; other periodic orientations are refuted"
  },
  {
   "property": "C45",
   "status": "proved",
   "theorems": [
    "band_abscissa",
    "band_ticks",
    "band_needs_two_points",
    "band_set_twice",
    "band_distance_isotropic",
    "band_cartesian_length_refuted",
    "band_projection"
   ],
   "note": "Cartesian reading refuted"
  },
  {
   "property": "C46",
   "status": "proved",
   "theorems": [
    "weights_1d",
    "weights_2d",
    "weights_3d",
    "weights_3d_not_finite"
   ],
   "note": ""
  },
  {
   "property": "C47",
   "status": "proved",
   "theorems": [
    "linear_dos_states",
    "tetrahedron_dos_states",
    "states_conserved",
    "elongated_mesh_dos_vanishes",
    "odd_chain_loses_states",
    "automatic_grid_is_mesh",
    "tetrahedra_tile_the_cell",
    "simplex_states",
    "total_is_sum_of_projections",
    "molecule_dos",
    "molecule_sum_rule_refuted",
    "molecule_projection_write_fails",
    "linear_dos_needs_grid",
    "single_row_mesh_fails",
    "rising_segment_projection",
    "falling_segment_projection_swapped",
    "projection_refuted",
    "gaussian_dos_total",
    "gaussian_dos_sign",
    "dos_frequencies",
    "triangles_tile_the_cell"
   ],
   "note": "projection per corner and normalisation on elongated 3D meshes are refuted"
  },
  {
   "property": "C48",
   "status": "proved",
   "theorems": [
    "repeated_dos_adds_up"
   ],
   "note": ""
  },
  {
   "property": "C49",
   "status": "proved",
   "theorems": [
    "free_energy_formula",
    "free_energy_zero_temperature_limit",
    "free_energy_decreasing",
    "thermal_constants"
   ],
   "note": ""
  },
  {
   "property": "C50",
   "status": "proved",
   "theorems": [
    "entropy_is_minus_derivative",
    "entropy_formula"
   ],
   "note": ""
  },
  {
   "property": "C51",
   "status": "proved",
   "theorems": [
    "imaginary_warning",
    "imaginary_modes_contribute_nothing"
   ],
   "note": ""
  },
  {
   "property": "C52",
   "status": "proved",
   "theorems": [
    "mode_selection",
    "mode_selection_bad_indices",
    "mode_selection_forgets"
   ],
   "note": ""
  },
  {
   "property": "C53",
   "status": "proved",
   "theorems": [
    "trajectory_content",
    "trajectory_symmetric",
    "trajectory_bad_index"
   ],
   "note": "formatting of real numbers is a parameter; vasp_lines_write links the lines to the verified writer"
  },
  {
   "property": "C54",
   "status": "proved",
   "theorems": [
    "weight_of_every_spelling",
    "standard_weight_of_every_element",
    "unknown_element_rejected",
    "header_titles_accepted",
    "masses_of_selected_atoms"
   ],
   "note": ""
  },
  {
   "property": "C55",
   "status": "proved",
   "theorems": [
    "record_precedence"
   ],
   "note": ""
  },
  {
   "property": "C56",
   "status": "proved",
   "theorems": [
    "periodicity_before_enlargement_fails",
    "entry_order_matters_refuted"
   ],
   "note": ""
  },
  {
   "property": "C57",
   "status": "proved",
   "theorems": [
    "truncated_vasp_file_rejected",
    "truncated_espresso_file_accepted"
   ],
   "note": ""
  },
  {
   "property": "C58",
   "status": "proved",
   "theorems": [
    "unknown_scheme_silent",
    "explicit_list_points",
    "failed_call_leaves_nothing",
    "blank_shift_line_fails"
   ],
   "note": ""
  },
  {
   "property": "C59",
   "status": "proved",
   "theorems": [
    "cartesian_operation_correct_iff",
    "cartesian_operation_refuted",
    "cartesian_operation_correct_on_equal_lengths",
    "represented_operation_is_isometry"
   ],
   "note": ""
  },
  {
   "property": "C60",
   "status": "proved",
   "theorems": [
    "unknown_point_group_aborts",
    "fallback_without_symmetry_refuted",
    "symmetry_off"
   ],
   "note": "the documented fallback is refuted"
  },
  {
   "property": "C61",
   "status": "proved",
   "theorems": [
    "supercell_rows_meaning",
    "supercell_images_complete",
    "supercell_images_of_search",
    "built_supercell_is_enlarged",
    "unequal_enlargement_loses_images"
   ],
   "note": "exact crystal symmetry is assumed: with approximate positions the tolerance of the supercell test can be exceeded"
  },
  {
   "property": "C62",
   "status": "proved",
   "theorems": [
    "repeated_zero_temperature_ignored",
    "zero_frequency_not_finite",
    "repeated_evaluation_adds_up",
    "repeated_evaluation_with_zero_temperature"
   ],
   "note": ""
  },
  {
   "property": "C63",
   "status": "proved",
   "theorems": [
    "option_line_meaning",
    "option_line_blank_or_comment",
    "option_line_without_assignment",
    "option_file_values",
    "option_file_accepted",
    "option_file_keeps_switches",
    "option_file_last_line_wins_refuted"
   ],
   "note": "the natural 'last line wins' is refuted for two spellings of one option"
  },
  {
   "property": "C64",
   "status": "proved",
   "theorems": [
    "symmetry_follows_the_record"
   ],
   "note": ""
  },
  {
   "property": "C65",
   "status": "proved",
   "theorems": [
    "record_restores_arguments",
    "record_of_negative_displacement"
   ],
   "note": ""
  },
  {
   "property": "C66",
   "status": "proved",
   "theorems": [
    "preprocess_decision",
    "analyses_run",
    "thermal_needs_dos_kpoints",
    "postprocess_refused",
    "amplitude_from_file_is_text"
   ],
   "note": ""
  },
  {
   "property": "C67",
   "status": "proved",
   "theorems": [
    "force_file_order",
    "pattern_matches_in_displacement_order"
   ],
   "note": ""
  },
  {
   "property": "C68",
   "status": "proved",
   "theorems": [
    "limit_denominator_best",
    "commensurate_enlargement",
    "commensurate_exactly_when_short",
    "near_fraction_recognised"
   ],
   "note": ""
  },
  {
   "property": "C69",
   "status": "proved",
   "theorems": [
    "pattern_periodic_iff"
   ],
   "note": ""
  },
  {
   "property": "C70",
   "status": "proved",
   "theorems": [
    "mode_displacement_content",
    "written_displacement_is_bloch_iff",
    "eigenvector_phase_matters"
   ],
   "note": ""
  },
  {
   "property": "C71",
   "status": "proved",
   "theorems": [
    "plane_of_periodic_directions",
    "site_operations_fix_the_atom"
   ],
   "note": ""
  },
  {
   "property": "C72",
   "status": "proved",
   "theorems": [
    "symmetry_run_exact",
    "nonprimitive_cell_wrong"
   ],
   "note": "hypotheses: primitive selected layer, exact operations, slab, equal in-plane enlargement; refuted for centred cells"
  },
  {
   "property": "C73",
   "status": "proved",
   "theorems": [
    "private_objects_are_isolated",
    "fresh_objects_are_private",
    "default_processes_share_everything",
    "deep_copy_is_independent",
    "second_post_process_replaces_the_first"
   ],
   "note": "isolation is refuted for objects constructed with the default arguments"
  },
  {
   "property": "C74",
   "status": "proved",
   "theorems": [
    "wrong_class_assignment_is_silent",
    "right_class_assignment",
    "cell_class_of_assignment",
    "new_process_holds_its_objects",
    "symmetry_object_keeps_its_cells"
   ],
   "note": ""
  },
  {
   "property": "C75",
   "status": "proved",
   "theorems": [
    "evaluation_matches_wave_vectors",
    "evaluation_keeps_no_old_result",
    "rejected_k_file_drops_the_wave_vectors",
    "unknown_k_style_keeps_old_frequencies",
    "failed_evaluation",
    "discrete_frequency_file"
   ],
   "note": ""
  },
  {
   "property": "C76",
   "status": "proved",
   "theorems": [
    "set_super_cell_builds_from_its_objects",
    "one_object_as_both_cells",
    "unknown_code_name"
   ],
   "note": ""
  },
  {
   "property": "C77",
   "status": "proved",
   "theorems": [
    "vasp_file_meaning",
    "vasp_missing_positions_rejected",
    "vasp4_file_rejected",
    "vasp_cartesian_positions_unscaled",
    "successful_read_is_consistent"
   ],
   "note": ""
  },
  {
   "property": "C78",
   "status": "proved",
   "theorems": [
    "espresso_file_meaning",
    "espresso_zero_coordinate_freezes",
    "espresso_units_ignored",
    "espresso_stray_nat_rejected"
   ],
   "note": ""
  },
  {
   "property": "C79",
   "status": "proved",
   "theorems": [
    "aims_file_meaning",
    "aims_fractional_atoms_only_rejected"
   ],
   "note": ""
  },
  {
   "property": "C80",
   "status": "proved",
   "theorems": [
    "band_file",
    "band_file_keeps_order",
    "band_file_of_a_run",
    "printed_ties_to_even"
   ],
   "note": ""
  },
  {
   "property": "C81",
   "status": "proved",
   "theorems": [
    "dos_file_comment",
    "total_dos_file",
    "column_labels_name_atoms",
    "projected_dos_file",
    "projected_dos_file_cut",
    "dos_files_agree",
    "isolated_dos_files"
   ],
   "note": ""
  },
  {
   "property": "C82",
   "status": "proved",
   "theorems": [
    "thermal_file",
    "thermal_file_of_a_run"
   ],
   "note": ""
  },
  {
   "property": "C83",
   "status": "proved",
   "theorems": [
    "gamma_file"
   ],
   "note": ""
  },
  {
   "property": "C84",
   "status": "proved",
   "theorems": [
    "option_assignment_meaning"
   ],
   "note": ""
  },
  {
   "property": "C85",
   "status": "proved",
   "theorems": [
    "thermal_temperatures",
    "energy_window",
    "dos_arguments",
    "band_arguments",
    "mode_arguments",
    "analysis_arguments_refused",
    "dos_arguments_accepted"
   ],
   "note": ""
  },
  {
   "property": "C86",
   "status": "proved",
   "theorems": [
    "pre_process_leaves",
    "pre_process_leaves_with_symmetry"
   ],
   "note": ""
  },
  {
   "property": "C87",
   "status": "proved",
   "theorems": [
    "end_to_end_force_constants",
    "end_to_end_exact_force_constants"
   ],
   "note": ""
  },
  {
   "property": "C88",
   "status": "proved",
   "theorems": [
    "checked_structure_is_beside_the_force_file",
    "bare_force_file_checked_at_the_root",
    "plain_name_is_in_the_working_directory",
    "unit_cell_elsewhere_is_not_found"
   ],
   "note": ""
  },
  {
   "property": "C89",
   "status": "proved",
   "theorems": [
    "pre_process_frame"
   ],
   "note": ""
  },
  {
   "property": "C90",
   "status": "proved",
   "theorems": [
    "dos_plain_picture",
    "dos_line_picture",
    "dos_stack_horizontal",
    "dos_stack_vertical",
    "sets_add_up_to_the_total",
    "stored_total_is_the_sum",
    "dos_requests_without_picture",
    "molecule_projection_refused",
    "smeared_density_is_finite"
   ],
   "note": ""
  },
  {
   "property": "C91",
   "status": "proved",
   "theorems": [
    "picture_range"
   ],
   "note": ""
  },
  {
   "property": "C92",
   "status": "proved",
   "theorems": [
    "band_plain_picture",
    "band_projection_picture",
    "band_requests_without_picture"
   ],
   "note": ""
  },
  {
   "property": "C93",
   "status": "proved",
   "theorems": [
    "combined_picture",
    "thermal_picture"
   ],
   "note": ""
  },
  {
   "property": "C94",
   "status": "proved",
   "theorems": [
    "command_line_meaning",
    "default_unit_cell_must_exist"
   ],
   "note": ""
  },
  {
   "property": "C95",
   "status": "proved",
   "theorems": [
    "command_line_rejected",
    "help_is_shown"
   ],
   "note": ""
  },
  {
   "property": "C96",
   "status": "proved",
   "theorems": [
    "option_file_like_command_line"
   ],
   "note": ""
  },
  {
   "property": "C97",
   "status": "proved",
   "theorems": [
    "documented_workflow"
   ],
   "note": "Runs without symmetry (the search finds none or is switched off), as C87."
  },
  {
   "property": "C98",
   "status": "proved",
   "theorems": [
    "both_analyses_in_one_run",
    "program_forces_repeatable",
    "accepted_labels_fit"
   ],
   "note": ""
  },
  {
   "property": "C99",
   "status": "proved",
   "theorems": [
    "files_of_a_run",
    "failing_dos_ends_the_run",
    "failing_band_keeps_the_dos"
   ],
   "note": ""
  }
 ]
}