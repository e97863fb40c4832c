{
 "claims": [
  {
   "property": "C01",
   "status": "proved",
   "theorems": [
    "C01_coupled_save_load",
    "C01_same_numbers"
   ],
   "note": "JSON text abstracted to the object it denotes; number of surfaces >= 0 or non-zero energies assumed (a negative count with no energies cannot be read back)."
  },
  {
   "property": "C02",
   "status": "proved",
   "theorems": [
    "C02_diagonal_save_load",
    "C02_zero_energy_refuted"
   ],
   "note": "Exact: loads back iff the energies have a non-zero entry; otherwise the load raises (finding)."
  },
  {
   "property": "C03",
   "status": "proved",
   "theorems": [
    "C03_load_into_no_stale"
   ],
   "note": ""
  },
  {
   "property": "C04",
   "status": "proved",
   "theorems": [
    "C04_load_into_accepts_iff",
    "C04_broadcast_contents",
    "C04_other_dimensions_refuted",
    "C04_in_place"
   ],
   "note": "The literal claim is false (witness); the exact set of silently accepted shapes and the resulting contents are proved."
  },
  {
   "property": "C05",
   "status": "proved",
   "theorems": [
    "C05_save_rejects_invalid",
    "C05_saved_is_valid",
    "C05_verify_iff",
    "C05_unreadable",
    "C05_dimension_type"
   ],
   "note": "The shape test only; see C52 for extra entries."
  },
  {
   "property": "C06",
   "status": "proved",
   "theorems": [
    "C06_same_model_iff",
    "C06_dimensions_differ",
    "C06_reflexive",
    "C06_saved_copy_equal",
    "C06_saved_diagonal_copy_equal",
    "C06_unknown_key_refuted",
    "C06_not_symmetric_refuted",
    "C06_not_transitive_refuted",
    "C06_large_dimensions_refuted",
    "C06_compare",
    "C06_values",
    "C06_nan_dimension"
   ],
   "note": "Numbers are rationals or NaN; closed under the global context."
  },
  {
   "property": "C07",
   "status": "proved",
   "theorems": [
    "C07_remove_coupling",
    "C07_create_basic_diagonal"
   ],
   "note": ""
  },
  {
   "property": "C08",
   "status": "proved",
   "theorems": [
    "C08_fill_offdiagonal",
    "C08_fill_offdiagonal_twice",
    "C08_float_surfaces",
    "C08_assign"
   ],
   "note": "The number of surfaces must be stored as an integer (a float makes range() raise)."
  },
  {
   "property": "C09",
   "status": "proved",
   "theorems": [
    "C09_coupled",
    "C09_diagonal",
    "C09_ranges",
    "C09_quadratic",
    "C09_negative",
    "C09_draw",
    "C09_points",
    "C09_assign",
    "C09_add_diag",
    "C09_checked"
   ],
   "note": "For any source of random numbers; closed under the global context."
  },
  {
   "property": "C10",
   "status": "proved",
   "theorems": [
    "C10_run",
    "C10_symmetric",
    "C10_trace",
    "C10_identity",
    "C10_back",
    "C10_not_orthonormal",
    "C10_asymmetric",
    "C10_reuse_unchecked_refuted",
    "C10_product",
    "C10_compare",
    "C10_einsum_rejects",
    "C10_reuse_missing",
    "C10_asymmetric_assertion"
   ],
   "note": "Over any commutative ring; trace and inverse need U^T U = 1, the code checks U U^T = 1 only, and nothing at all for a stored matrix."
  },
  {
   "property": "C11",
   "status": "proved",
   "theorems": [
    "C11_recoverable",
    "C11_other_files",
    "C11_final",
    "C11_second_run",
    "C11_two_runs_refuted",
    "C11_copy"
   ],
   "note": "Single run: recoverable at every step. Several runs: refuted with a witness."
  },
  {
   "property": "C12",
   "status": "proved",
   "theorems": [
    "C12_key_round_trip",
    "C12_text_keys",
    "C12_text_distinct",
    "C12_unknown_key_rejected",
    "C12_texts"
   ],
   "note": "Python 3.6 enum membership semantics."
  },
  {
   "property": "C13",
   "status": "proved",
   "theorems": [
    "C13_current_contents",
    "C13_same_hash_iff_same_contents",
    "C13_stale_refuted",
    "C13_missing_file",
    "C13_accepted_iff",
    "C13_comparison_raises"
   ],
   "note": "The digest is an argument; collision-freeness is an explicit hypothesis where used. Staleness is proved for every history."
  },
  {
   "property": "C14",
   "status": "proved",
   "theorems": [
    "C14_rho_layout",
    "C14_vib_layout",
    "C14_rho_disjoint",
    "C14_vib_disjoint",
    "C14_vib_rho_disjoint",
    "C14_rho_directory",
    "C14_es_directory",
    "C14_files_distinct",
    "C14_inside_root",
    "C14_inside_absolute_root",
    "C14_root_absolute",
    "C14_abspath_idempotent",
    "C14_leading_slashes",
    "C14_normpath_cases"
   ],
   "note": "Paths are compared as strings (no symbolic links)."
  },
  {
   "property": "C15",
   "status": "proved",
   "theorems": [
    "C15_change_rho_fresh",
    "C15_change_rho_layout",
    "C15_change_rho_keeps",
    "C15_last_change_wins",
    "C15_path_rho_refuted",
    "C15_relative_root_refuted",
    "C15_hash_refuted"
   ],
   "note": "Exact: which attributes follow and which do not."
  },
  {
   "property": "C16",
   "status": "proved",
   "theorems": [
    "C16_extract_pimc",
    "C16_shown_temperature",
    "C16_extract_thermo",
    "C16_extract_sos",
    "C16_bead_list",
    "C16_sos_basis_list",
    "C16_capital_P_refuted",
    "C16_trotter_refuted",
    "C16_trotter_always_fails"
   ],
   "note": "Under the stated condition on the directory part; the two findings are proved for every name."
  },
  {
   "property": "C17",
   "status": "proved",
   "theorems": [
    "C17_pimc_name",
    "C17_thermo_name",
    "C17_temperature_resolution",
    "C17_sos_name",
    "C17_trotter_name",
    "C17_kinds_disjoint",
    "C17_training_names",
    "C17_training_not_results",
    "C17_output_name",
    "C17_same_result_path",
    "C17_result_path"
   ],
   "note": "Temperatures are non-negative rationals."
  },
  {
   "property": "C18",
   "status": "proved",
   "theorems": [
    "C18_pooling",
    "C18_zero_fails",
    "C18_no_usable_file_fails",
    "C18_missing_file_fails",
    "C18_duplicate_path_refuted"
   ],
   "note": "Distinct paths are needed: the behaviour with a repeated path is proved too."
  },
  {
   "property": "C19",
   "status": "proved",
   "theorems": [
    "C19_capped",
    "C19_cap_inside_second_file_refuted",
    "C19_slice"
   ],
   "note": "False as titled; success and failure are characterised exactly."
  },
  {
   "property": "C20",
   "status": "proved",
   "theorems": [
    "C20_prune",
    "C20_prune_fails",
    "C20_pooling_ignores_hashes_refuted"
   ],
   "note": "False as titled: the pruning function is right, but pooling provably ignores the hashes."
  },
  {
   "property": "C21",
   "status": "proved",
   "theorems": [
    "C21_save_contents",
    "C21_save_possible",
    "C21_round_trip",
    "C21_across_classes",
    "C21_same_count_refuted",
    "C21_second_load_fails",
    "C21_save_fails"
   ],
   "note": ""
  },
  {
   "property": "C22",
   "status": "proved",
   "theorems": [
    "C22_block_loop",
    "C22_no_blocks",
    "C22_too_many_blocks"
   ],
   "note": "The numerical work of one sample is an arbitrary function here."
  },
  {
   "property": "C23",
   "status": "proved",
   "theorems": [
    "C23_block_compute_pm_values",
    "C23_block_compute_values",
    "C23_ratios_not_scaled",
    "C23_scaling_factors_cancel",
    "C23_scaled_entries_bounded",
    "C23_unscale"
   ],
   "note": "Exact real arithmetic, one sample of a block; np.linalg.eigh is a parameter assumed to return an orthonormal eigenbasis."
  },
  {
   "property": "C24",
   "status": "proved",
   "theorems": [
    "C24_vibronic_square",
    "C24_vibronic_folded",
    "C24_sampling_square",
    "C24_energies_used_up"
   ],
   "note": "Exact real arithmetic."
  },
  {
   "property": "C25",
   "status": "proved",
   "theorems": [
    "C25_weights_distribution",
    "C25_weights_shift"
   ],
   "note": "Exact real arithmetic."
  },
  {
   "property": "C26",
   "status": "proved",
   "theorems": [
    "C26_widths_defined",
    "C26_fewer_than_three_rejected",
    "C26_circulant_is_ring"
   ],
   "note": "Exact real arithmetic."
  },
  {
   "property": "C27",
   "status": "proved",
   "theorems": [
    "C27_coordinates_restored",
    "C27_sequence_of_builds",
    "C27_evaluation_restores",
    "C27_off_diagonal_rejected"
   ],
   "note": "Exact real arithmetic (floating point restores only approximately)."
  },
  {
   "property": "C28",
   "status": "proved",
   "theorems": [
    "C28_exact_sampling_ratio_one",
    "C28_estimate_one"
   ],
   "note": "Exact real arithmetic, one sample of a block; np.linalg.eigh is a parameter assumed to return an orthonormal eigenbasis."
  },
  {
   "property": "C29",
   "status": "proved",
   "theorems": [
    "C29_bead_rotation"
   ],
   "note": "Exact real arithmetic, one sample of a block; np.linalg.eigh is a parameter assumed to return an orthonormal eigenbasis."
  },
  {
   "property": "C30",
   "status": "proved",
   "theorems": [
    "C30_one_surface",
    "C30_without_coupling",
    "C30_plus_refuted"
   ],
   "note": "Exact real arithmetic, one sample of a block; np.linalg.eigh is a parameter assumed to return an orthonormal eigenbasis. The intended claim is refuted, the exact relation is proved for one surface."
  },
  {
   "property": "C31",
   "status": "proved",
   "theorems": [
    "C31_order_independent",
    "C31_file_order"
   ],
   "note": "Exact real arithmetic."
  },
  {
   "property": "C32",
   "status": "proved",
   "theorems": [
    "C32_only_ratios"
   ],
   "note": "Exact real arithmetic."
  },
  {
   "property": "C33",
   "status": "proved",
   "theorems": [
    "C33_terms_exact",
    "C33_estimates",
    "C33_no_errors",
    "C33_derivatives"
   ],
   "note": "Exact real arithmetic."
  },
  {
   "property": "C34",
   "status": "proved",
   "theorems": [
    "C34_alpha_one"
   ],
   "note": "Exact real arithmetic."
  },
  {
   "property": "C35",
   "status": "proved",
   "theorems": [
    "C35_leave_one_out",
    "C35_same_mean",
    "C35_Z_error",
    "C35_jackknife",
    "C35_linear_energy",
    "C35_linear_error_refuted",
    "C35_identical_samples"
   ],
   "note": "Exact real arithmetic; the error bar is too large by an exactly given factor."
  },
  {
   "property": "C36",
   "status": "proved",
   "theorems": [
    "C36_inverse",
    "C36_decreasing",
    "C36_units"
   ],
   "note": "Exact real arithmetic."
  },
  {
   "property": "C37",
   "status": "proved",
   "theorems": [
    "C37_accepted",
    "C37_rejected",
    "C37_drawn",
    "C37_values",
    "C37_again",
    "C37_overall_refuted",
    "C37_negative_refuted"
   ],
   "note": "Integer parameters; the claim as titled is false in general: exact shortfall, and two refutations (explicit overall number, negative block size)."
  },
  {
   "property": "C38",
   "status": "proved",
   "theorems": [
    "C38_submissions",
    "C38_command_nlogn",
    "C38_command_compute_canada",
    "C38_nothing_submitted",
    "C38_unknown_host",
    "C38_lists",
    "C38_fields",
    "C38_render"
   ],
   "note": "The scheduler and the serialiser are arbitrary; the full text of each command is given."
  },
  {
   "property": "C39",
   "status": "proved",
   "theorems": [
    "C39_last_writer",
    "C39_own_input",
    "C39_earlier_changed_refuted",
    "C39_inherited_refuted",
    "C39_defaults"
   ],
   "note": "False as stated; the effective parameters of every history are characterised and both kinds of interference are exhibited."
  },
  {
   "property": "C40",
   "status": "proved",
   "theorems": [
    "C40_job_id",
    "C40_short",
    "C40_tail"
   ],
   "note": ""
  },
  {
   "property": "C41",
   "status": "proved",
   "theorems": [
    "C41_never_raises_refuted",
    "C41_outcome",
    "C41_tests_in_sequence"
   ],
   "note": "The claim is false: no file content is reported; proved for every content."
  },
  {
   "property": "C42",
   "status": "proved",
   "theorems": [
    "C42_roundtrip",
    "C42_exact",
    "C42_semicolon",
    "C42_semicolon_refuted",
    "C42_collision",
    "C42_comma",
    "C42_fields",
    "C42_missing",
    "C42_escapes",
    "C42_unicode",
    "C42_blanks",
    "C42_keys",
    "C42_rejected"
   ],
   "note": "Character-level model of json.dumps/json.loads; characters below 256, floats as the text of repr(). A ';' inside a text becomes ',' (exact effect proved)."
  },
  {
   "property": "C43",
   "status": "proved",
   "theorems": [
    "C43_encode_self",
    "C43_enum_key",
    "C43_text_keys",
    "C43_not_an_object"
   ],
   "note": "The property as stated is false: encode_self() always raises TypeError; it succeeds exactly for dictionaries with text keys."
  },
  {
   "property": "C44",
   "status": "proved",
   "theorems": [
    "C44_restored",
    "C44_history",
    "C44_resume_refuted",
    "C44_recorded_text"
   ],
   "note": "Python 3.6 semantics of enum membership tests. Resuming after the last recorded stage is refuted."
  },
  {
   "property": "C45",
   "status": "proved",
   "theorems": [
    "C45_run",
    "C45_order",
    "C45_nothing_done",
    "C45_default_start",
    "C45_start"
   ],
   "note": "External programs and parsers are arbitrary outcomes (record world); ghost log of started and completed calculations."
  },
  {
   "property": "C46",
   "status": "proved",
   "theorems": [
    "C46_find",
    "C46_rfind",
    "C46_forward",
    "C46_back",
    "C46_there_and_back",
    "C46_readlines",
    "C46_bounds",
    "C46_before_start"
   ],
   "note": "Closed under the global context. The unbounded searches start at the current position of the file."
  },
  {
   "property": "C47",
   "status": "proved",
   "theorems": [
    "C47_not_a_dictionary",
    "C47_boltzman",
    "C47_succeeds",
    "C47_failed",
    "C47_run",
    "C47_key",
    "C47_key_refuted",
    "C47_fresh",
    "C47_history",
    "C47_original_refuted",
    "C47_stale_refuted",
    "C47_lost_update"
   ],
   "note": "For models identified by their hashes at the time a run is started; the reading of the model file by the external program itself is not modelled. The failing cases are C47_original_refuted, C47_stale_refuted, C47_lost_update and C47_key_refuted."
  },
  {
   "property": "C48",
   "status": "proved",
   "theorems": [
    "C48_load",
    "C48_checks",
    "C48_refuted",
    "C48_at_index"
   ],
   "note": "The property as wished is refuted by C48_refuted; C48_load is the exact condition."
  },
  {
   "property": "C49",
   "status": "proved",
   "theorems": [
    "C49_rejects",
    "C49_ends",
    "C49_select",
    "C49_bracket",
    "C49_monotone",
    "C49_wraps",
    "C49_nearest_refuted"
   ],
   "note": "Rational arithmetic, exact; a value below the first row is answered with the last one (refutes 'nearest')."
  },
  {
   "property": "C50",
   "status": "proved",
   "theorems": [
    "C50_generator",
    "C50_restricted",
    "C50_exponential",
    "C50_orthogonal",
    "C50_checked",
    "C50_tolerance"
   ],
   "note": "Real arithmetic; scipy's expm is a parameter, assumed exact only in C50_orthogonal; the exponential is defined by its power series and its existence proved."
  },
  {
   "property": "C51",
   "status": "proved",
   "theorems": [
    "C51_reads",
    "C51_absent",
    "C51_no_frequencies",
    "C51_optional",
    "C51_file",
    "C51_lines",
    "C51_index",
    "C51_accepts",
    "C51_values",
    "C51_present",
    "C51_linear",
    "C51_linear_refuted",
    "C51_quadratic_iff",
    "C51_cubic_iff",
    "C51_quartic_iff",
    "C51_cubic_upper_iff",
    "C51_coupled_fails",
    "C51_doubled"
   ],
   "note": "float(str) is an arbitrary function on the numerals; text is ASCII; a number in a name is decimal digits (the library parse accepts more)."
  },
  {
   "property": "C52",
   "status": "proved",
   "theorems": [
    "C52_extra_key_unloadable",
    "C52_unserialisable_truncates"
   ],
   "note": "The claim is false; the failure is proved for every such dictionary."
  },
  {
   "property": "C53",
   "status": "proved",
   "theorems": [
    "C53_selected_files",
    "C53_other_kinds_not_selected"
   ],
   "note": "The directory part of the glob pattern is taken literally (no glob characters in it)."
  },
  {
   "property": "C54",
   "status": "proved",
   "theorems": [
    "C54_directories_exist_refuted",
    "C54_created",
    "C54_names"
   ],
   "note": "The claim about directories_exist is false; refuted for every state."
  },
  {
   "property": "C55",
   "status": "proved",
   "theorems": [
    "C55_rho_directories_exist",
    "C55_no_makedir_refuted",
    "C55_created"
   ],
   "note": "Absolute normalised root; a directory exists if it is an ancestor of a created one."
  },
  {
   "property": "C56",
   "status": "proved",
   "theorems": [
    "C56_written_file_matches_template",
    "C56_templates",
    "C56_brace_refuted",
    "C56_malformed"
   ],
   "note": ""
  },
  {
   "property": "C57",
   "status": "proved",
   "theorems": [
    "C57_hostname",
    "C57_no_hostname"
   ],
   "note": ""
  },
  {
   "property": "C58",
   "status": "proved",
   "theorems": [
    "C58_pools_matching_files",
    "C58_no_file_fails"
   ],
   "note": "The directory path is assumed free of glob characters."
  },
  {
   "property": "C59",
   "status": "proved",
   "theorems": [
    "C59_alpha_correct",
    "C59_basic_double_counts_refuted",
    "C59_alpha_self",
    "C59_analyses_with"
   ],
   "note": "True for the alpha analysis; false for the basic one, whose limit is given."
  },
  {
   "property": "C60",
   "status": "proved",
   "theorems": [
    "C60_mixture_density",
    "C60_draw_coordinates",
    "C60_transform_is_path",
    "C60_new_box"
   ],
   "note": "Exact real arithmetic, one sample of a block; np.linalg.eigh is a parameter assumed to return an orthonormal eigenbasis. The random number generator itself is not modelled."
  },
  {
   "property": "C61",
   "status": "proved",
   "theorems": [
    "C61_fewer_sampling_surfaces_fail",
    "C61_more_sampling_surfaces_truncated"
   ],
   "note": "Exact real arithmetic, one sample of a block; np.linalg.eigh is a parameter assumed to return an orthonormal eigenbasis."
  },
  {
   "property": "C62",
   "status": "proved",
   "theorems": [
    "C62_training_g_is_displaced",
    "C62_training_g_without_linear",
    "C62_training_g_refuted",
    "C62_training_g_assertion",
    "C62_training_rho_constant",
    "C62_symmetry_check",
    "C62_symmetry_check_raises",
    "C62_drawn_g"
   ],
   "note": "Exact real arithmetic, one sample of a block; np.linalg.eigh is a parameter assumed to return an orthonormal eigenbasis. The intended claim is refuted."
  },
  {
   "property": "C63",
   "status": "proved",
   "theorems": [
    "C63_eigenvectors_do_not_matter",
    "C63_m_matrix_is_exponential"
   ],
   "note": "Exact real arithmetic, one sample of a block; np.linalg.eigh is a parameter assumed to return an orthonormal eigenbasis."
  },
  {
   "property": "C64",
   "status": "proved",
   "theorems": [
    "C64_blocks_independent",
    "C64_runs_concatenate"
   ],
   "note": "Exact real arithmetic, one sample of a block; np.linalg.eigh is a parameter assumed to return an orthonormal eigenbasis."
  },
  {
   "property": "C65",
   "status": "proved",
   "theorems": [
    "C65_distance",
    "C65_norm"
   ],
   "note": "Real arithmetic."
  },
  {
   "property": "C66",
   "status": "proved",
   "theorems": [
    "C66_records",
    "C66_increasing",
    "C66_exist",
    "C66_first"
   ],
   "note": "Rational distances; the scan is a list of (x, distance)."
  },
  {
   "property": "C67",
   "status": "proved",
   "theorems": [
    "C67_success",
    "C67_failure",
    "C67_increasing_refuted",
    "C67_exact",
    "C67_no_pairs"
   ],
   "note": "The distance function and linspace are parameters."
  },
  {
   "property": "C68",
   "status": "proved",
   "theorems": [
    "C68_accepted",
    "C68_rejected",
    "C68_shared",
    "C68_supported",
    "C68_defaults",
    "C68_not_supported"
   ],
   "note": ""
  },
  {
   "property": "C69",
   "status": "proved",
   "theorems": [
    "C69_found",
    "C69_ends",
    "C69_zero_forever",
    "C69_no_number"
   ],
   "note": "The while loop is a fuelled function returning None if it is still running."
  },
  {
   "property": "C70",
   "status": "proved",
   "theorems": [
    "C70_nothing_recorded",
    "C70_reasons",
    "C70_wait",
    "C70_names"
   ],
   "note": ""
  },
  {
   "property": "C71",
   "status": "proved",
   "theorems": [
    "C71_lines",
    "C71_parse"
   ],
   "note": ""
  },
  {
   "property": "C72",
   "status": "proved",
   "theorems": [
    "C72_commands",
    "C72_command_texts"
   ],
   "note": ""
  },
  {
   "property": "C73",
   "status": "proved",
   "theorems": [
    "C73_where",
    "C73_distinct",
    "C73_not_a_model"
   ],
   "note": ""
  },
  {
   "property": "C74",
   "status": "proved",
   "theorems": [
    "C74_command_line",
    "C74_refused",
    "C74_fails",
    "C74_usage"
   ],
   "note": ""
  },
  {
   "property": "C75",
   "status": "proved",
   "theorems": [
    "C75_load",
    "C75_absent"
   ],
   "note": "x / y and x == y on JSON numbers are arbitrary functions."
  },
  {
   "property": "C76",
   "status": "proved",
   "theorems": [
    "C76_single_point",
    "C76_recalculate",
    "C76_minimum",
    "C76_twice",
    "C76_quadratic_rejected",
    "C76_modes_rejected",
    "C76_no_frequencies",
    "C76_one_mode_refuted"
   ],
   "note": "Exact real arithmetic; numpy.linalg.eigvalsh is any function that returns the eigenvalues of symmetric matrices of the order of the coupled model. The two models must have the same number of modes; C76_one_mode_refuted shows the silent broadcast otherwise."
  },
  {
   "property": "C77",
   "status": "proved",
   "theorems": [
    "C77_dimensions",
    "C77_dimensions_rejected",
    "C77_vibronic_numbers",
    "C77_vibronic_modes",
    "C77_vibronic_one_mode_refuted",
    "C77_sampling_numbers",
    "C77_sampling_modes",
    "C77_fresh_object",
    "C77_saved_files",
    "C77_initialize",
    "C77_values_from_files",
    "C77_sampling_quadratic_unused"
   ],
   "note": "Numbers of the files are real numbers (or any values in the polymorphic part); the stretched one-mode file is C77_vibronic_one_mode_refuted."
  },
  {
   "property": "C78",
   "status": "proved",
   "theorems": [
    "C78_imported",
    "C78_rejected",
    "C78_document"
   ],
   "note": "Rational numbers; float(str) is an arbitrary function on the numerals."
  },
  {
   "property": "C79",
   "status": "proved",
   "theorems": [
    "C79_listing",
    "C79_pairs",
    "C79_written",
    "C79_failed",
    "C79_grid_refuted",
    "C79_order",
    "C79_succeeds",
    "C79_hashes",
    "C79_no_model",
    "C79_refuses",
    "C79_no_results"
   ],
   "note": "The analysis of one set of samples is an arbitrary function of its inputs (Stats_Model describes the real ones); worker processes are atomic and all of them see the files as they were before the pool started. The statement that every simulated grid can be analysed is refuted (C79_grid_refuted)."
  },
  {
   "property": "C80",
   "status": "proved",
   "theorems": [
    "C80_lock",
    "C80_no_lost_signal",
    "C80_lost_signal_refuted",
    "C80_wakes",
    "C80_killed_refuted",
    "C80_killed_only",
    "C80_flag_stays",
    "C80_result",
    "C80_polls_forever",
    "C80_progress",
    "C80_wait"
   ],
   "note": "Transition system with one thread: interpreter steps, handler calls between instructions, signals consumed by sigwait (Linux behaviour for signals that are not blocked). The log message before sigwait is taken to give the interpreter a chance to call a pending handler. The unconditional statements are refuted by C80_lost_signal_refuted and C80_killed_refuted."
  },
  {
   "property": "C81",
   "status": "proved",
   "theorems": [
    "C81_reads",
    "C81_short",
    "C81_one_block",
    "C81_bad_frequency"
   ],
   "note": "Numbers are rational. The Fortran record readers and float() are arbitrary functions. The end of the file is one exception (StopIteration)."
  },
  {
   "property": "C82",
   "status": "proved",
   "theorems": [
    "C82_aces2",
    "C82_vibron",
    "C82_sound",
    "C82_first_line_refuted"
   ],
   "note": "Bytes; mmap.find and rfind as in FileSearch_Model. That every message within the last ten lines is seen is refuted for the first line (C82_first_line_refuted)."
  },
  {
   "property": "C83",
   "status": "proved",
   "theorems": [
    "C83_move",
    "C83_remove",
    "C83_absent",
    "C83_twice"
   ],
   "note": "mmap.move and resize on lists of bytes."
  },
  {
   "property": "C84",
   "status": "proved",
   "theorems": [
    "C84_no_file",
    "C84_copy",
    "C84_written",
    "C84_absent",
    "C84_only_xxx_refuted",
    "C84_prep",
    "C84_prep_frame",
    "C84_prep_fails"
   ],
   "note": "That only xxx is replaced is refuted (C84_only_xxx_refuted). mmap.write returns the number of bytes (Python 3.6)."
  },
  {
   "property": "C85",
   "status": "proved",
   "theorems": [
    "C85_init_internal",
    "C85_init_bad_line",
    "C85_init_kind",
    "C85_get",
    "C85_get_stars",
    "C85_get_cartesian",
    "C85_round_trip",
    "C85_set_internal",
    "C85_set_cartesian"
   ],
   "note": "Texts are ASCII. That a cartesian file is recognised as such is refuted by C85_init_kind for files with =."
  },
  {
   "property": "C86",
   "status": "proved",
   "theorems": [
    "C86_internal",
    "C86_internal_bad",
    "C86_cartesian",
    "C86_never",
    "C86_missing"
   ],
   "note": "The loop is given a number of turns; never ending is stated for all numbers of turns. That reading ends is refuted (C86_never)."
  },
  {
   "property": "C87",
   "status": "proved",
   "theorems": [
    "C87_guess",
    "C87_guess_unique",
    "C87_no_guess",
    "C87_dialog",
    "C87_agreed",
    "C87_text",
    "C87_estimate",
    "C87_malformed",
    "C87_missing"
   ],
   "note": "Energies are rational numbers, quotients may be infinite or not a number. Texts are ASCII; the answers are a list of lines."
  },
  {
   "property": "C88",
   "status": "proved",
   "theorems": [
    "C88_estimate",
    "C88_guess",
    "C88_malformed",
    "C88_not_a_number",
    "C88_missing",
    "C88_keyword",
    "C88_dropped_refuted",
    "C88_gap_refuted",
    "C88_count_refuted",
    "C88_count"
   ],
   "note": "That the number of dropped orbitals is read back, that the gap after them counts and that the count is bounded by what remains are refuted (C88_dropped_refuted, C88_gap_refuted, C88_count_refuted)."
  },
  {
   "property": "C89",
   "status": "proved",
   "theorems": [
    "C89_always_yes",
    "C89_last_line",
    "C89_missing",
    "C89_never_no",
    "C89_judge",
    "C89_judge_fails",
    "C89_nip_kept",
    "C89_low_refuted"
   ],
   "note": "The loop is given a number of turns; never ending is stated for all numbers. That a low contribution is noticed is refuted (C89_low_refuted)."
  },
  {
   "property": "C90",
   "status": "proved",
   "theorems": [
    "C90_any_field",
    "C90_hf",
    "C90_opt",
    "C90_vib",
    "C90_ip",
    "C90_prep",
    "C90_bad_basis",
    "C90_bad_theory",
    "C90_bad_nip",
    "C90_nothing",
    "C90_only",
    "C90_field",
    "C90_unknown_field",
    "C90_verbatim_refuted",
    "C90_job",
    "C90_job_refuted"
   ],
   "note": "Fields of a template are names with an optional format; attributes, indices and conversions inside braces of the geometry are not modelled. That the file starts with the geometry and that the job has the name of the output file are refuted in general (C90_verbatim_refuted, C90_job_refuted)."
  },
  {
   "property": "C91",
   "status": "proved",
   "theorems": [
    "C91_errors",
    "C91_listing",
    "C91_lists",
    "C91_number",
    "C91_load",
    "C91_places",
    "C91_restricted",
    "C91_load_only",
    "C91_percent",
    "C91_percent_several",
    "C91_tau"
   ],
   "note": "Numbers and their operations are abstract; the files are those whose hashes survived, with JSON objects as text."
  },
  {
   "property": "C92",
   "status": "proved",
   "theorems": [
    "C92_analytic",
    "C92_analytic_fails",
    "C92_sos",
    "C92_sos_first",
    "C92_sos_refuted",
    "C92_trotter",
    "C92_trotter_nan",
    "C92_sos_never",
    "C92_rectangle_never",
    "C92_errors"
   ],
   "note": "That a system without a file has no values is refuted (C92_sos_refuted); preparing the plots of a rectangle or against the sum over states is proved to fail. Lists as Trotter values are not modelled."
  },
  {
   "property": "C93",
   "status": "proved",
   "theorems": [
    "C93_files",
    "C93_basis_refuted",
    "C93_trotter",
    "C93_lists",
    "C93_pimc",
    "C93_pimc_names",
    "C93_jackknife"
   ],
   "note": "That the lists for the sums over states depend on the basis size given is refuted (C93_basis_refuted). Directories containing the marks looked for in the names are excluded by hypotheses."
  },
  {
   "property": "C94",
   "status": "proved",
   "theorems": [
    "C94_states",
    "C94_modes",
    "C94_frequencies",
    "C94_frequencies_count",
    "C94_count_refuted",
    "C94_read",
    "C94_create",
    "C94_energies",
    "C94_linear",
    "C94_quadratic",
    "C94_offdiag",
    "C94_short",
    "C94_energies_text"
   ],
   "note": "That a file with too few frequencies is refused is refuted (C94_count_refuted). The reader is proved to fail on every input. The code after the undefined variable is not modelled."
  },
  {
   "property": "C95",
   "status": "proved",
   "theorems": [
    "C95_text",
    "C95_quotes",
    "C95_sos",
    "C95_trotter",
    "C95_started",
    "C95_done",
    "C95_sequential",
    "C95_same_files",
    "C95_parallel_refuted",
    "C95_writing_refuted",
    "C95_brace_refuted",
    "C95_names",
    "C95_wrapper",
    "C95_sampling"
   ],
   "note": "That results of calculations running at the same time are kept, that an unfinished file is harmless and that every root gives a command are refuted (C95_parallel_refuted, C95_writing_refuted, C95_brace_refuted). The shell and the queue are not modelled."
  },
  {
   "property": "C96",
   "status": "proved",
   "theorems": [
    "C96_module",
    "C96_trotter",
    "C96_one_for_each",
    "C96_first_done",
    "C96_rounds",
    "C96_missing_refuted",
    "C96_finished_refuted",
    "C96_fails_refuted",
    "C96_analytic",
    "C96_original_fails",
    "C96_systems"
   ],
   "note": "The natural claims are refuted because of an indentation (C96_missing_refuted, C96_finished_refuted, C96_fails_refuted); what is started instead is characterised exactly. The shell and the queue are not modelled."
  },
  {
   "property": "C97",
   "status": "proved",
   "theorems": [
    "C97_prepare",
    "C97_automate",
    "C97_elsewhere",
    "C97_iterative",
    "C97_other_root",
    "C97_transformation",
    "C97_sampling",
    "C97_again",
    "C97_artificial_elsewhere",
    "C97_zero_refuted",
    "C97_directory_refuted"
   ],
   "note": "That sampling model 0 is the diagonal of the model and that the directory of the scripts does not matter are refuted (C97_zero_refuted, C97_directory_refuted). The job of the iterative method is an effect on the files about which each theorem says what it assumes; the directory of the scripts is assumed to be apart from the root."
  },
  {
   "property": "C98",
   "status": "proved",
   "theorems": [
    "C98_environment",
    "C98_comma_refuted",
    "C98_scratch_paths",
    "C98_scratch_exists",
    "C98_submission_refuted",
    "C98_results_nlogn",
    "C98_results_compute_canada",
    "C98_left_behind_refuted",
    "C98_feynman_refuted",
    "C98_failed_job",
    "C98_arguments",
    "C98_job_number",
    "C98_wrappers",
    "C98_from_json_file",
    "C98_negative"
   ],
   "note": "That jobs are started, that results reach the analysis from orca and graham, and that prepare_job_feynman moves them are refuted (C98_submission_refuted, C98_left_behind_refuted, C98_feynman_refuted). The shell is modelled for words and quotes only, the scheduler runs the script once, and the numerical work is an argument."
  },
  {
   "property": "C99",
   "status": "proved",
   "theorems": [
    "C99_single",
    "C99_axes",
    "C99_signs",
    "C99_transposed_refuted",
    "C99_energy",
    "C99_linear",
    "C99_quadratic",
    "C99_names",
    "C99_titles_refuted",
    "C99_modes",
    "C99_missing",
    "C99_files",
    "C99_script",
    "C99_data_set",
    "C99_refused"
   ],
   "note": "That the texts belong to the numbers below them and that titles tell the pictures apart is refuted in general (C99_transposed_refuted, C99_titles_refuted); the exact conditions are C99_signs and C99_names. Colours, ticks and the drawing by matplotlib are not modelled."
  },
  {
   "property": "C100",
   "status": "proved",
   "theorems": [
    "C100_one",
    "C100_testing",
    "C100_each",
    "C100_refused",
    "C100_automate",
    "C100_failed",
    "C100_no_coupled",
    "C100_nothing",
    "C100_processes",
    "C100_main",
    "C100_both_refuted"
   ],
   "note": "That the analyses of both kinds are kept is refuted (C100_both_refuted). The listing of the directories of samples is an argument, and the processes of different systems are shown to have disjoint files rather than run side by side."
  },
  {
   "property": "C101",
   "status": "proved",
   "theorems": [
    "C101_paths",
    "C101_grid",
    "C101_read",
    "C101_first",
    "C101_plot_full_refuted",
    "C101_turning",
    "C101_overwritten_refuted",
    "C101_norms_refuted",
    "C101_main",
    "C101_script",
    "C101_check"
   ],
   "note": "That the functions for plots leave the tables as they are is refuted (C101_plot_full_refuted, C101_overwritten_refuted, C101_norms_refuted). The norms are parameters, numbers are rationals and text files are exact."
  },
  {
   "property": "C102",
   "status": "proved",
   "theorems": [
    "C102_files",
    "C102_pairs",
    "C102_complete",
    "C102_data_set",
    "C102_other_model_refuted",
    "C102_rho_refused",
    "C102_gR",
    "C102_name_kept_refuted",
    "C102_hashes"
   ],
   "note": "That another sampling model can be used and that the object can be saved afterwards is refuted (C102_other_model_refuted, C102_name_kept_refuted). The numerical work for a sample is an argument; the script itself imports modules that do not exist."
  },
  {
   "property": "C103",
   "status": "proved",
   "theorems": [
    "C103_execute",
    "C103_copy",
    "C103_script",
    "C103_status",
    "C103_own_state_refuted",
    "C103_wrapper_one_refuted",
    "C103_positive_refuted",
    "C103_directories",
    "C103_julia"
   ],
   "note": "That each job is reported with its own state, that the wrapper uses the directory of its data set and that the check of a covariance matrix can succeed is refuted (C103_own_state_refuted, C103_wrapper_one_refuted, C103_positive_refuted)."
  },
  {
   "property": "C104",
   "status": "proved",
   "theorems": [
    "C104_init",
    "C104_init_refused",
    "C104_test_one",
    "C104_temperatures_refuted",
    "C104_empty",
    "C104_latex",
    "C104_original",
    "C104_no_reference",
    "C104_pair",
    "C104_pair_second",
    "C104_pair_unknown",
    "C104_pair_no_samples",
    "C104_inset",
    "C104_inset_only_300",
    "C104_sos_refuted",
    "C104_mixed_refuted",
    "C104_inset_text_refuted"
   ],
   "note": "That several temperatures can be drawn, that a picture belongs to one temperature, that the texts of the inset agree with the picture and that the comparison with sums over states works is refuted (C104_temperatures_refuted, C104_mixed_refuted, C104_inset_text_refuted, C104_sos_refuted). What matplotlib does with the curves is not modelled."
  },
  {
   "property": "C105",
   "status": "proved",
   "theorems": [
    "C105_parameters",
    "C105_other_entries",
    "C105_scaling_refuted",
    "C105_types",
    "C105_numbers",
    "C105_input",
    "C105_input_refused",
    "C105_script",
    "C105_random",
    "C105_random_diagonal",
    "C105_saved"
   ],
   "note": "That quadratic_scaling or nonadiabatic has an effect is refuted (C105_scaling_refuted). The random numbers are arguments."
  },
  {
   "property": "C106",
   "status": "proved",
   "theorems": [
    "C106_refused",
    "C106_no_root",
    "C106_pairs",
    "C106_singles",
    "C106_pair",
    "C106_single",
    "C106_pair_needs",
    "C106_iterative_refuted",
    "C106_processes"
   ],
   "note": "That all pairs of the paper are drawn is refuted (C106_iterative_refuted). The drawing itself is C104."
  },
  {
   "property": "C107",
   "status": "proved",
   "theorems": [
    "C107_pair",
    "C107_no_model",
    "C107_system",
    "C107_system_stops",
    "C107_refused",
    "C107_main",
    "C107_cluster",
    "C107_distinct"
   ],
   "note": "The reading of the models (C01) and the text of the parameters (C36) are arbitrary functions here."
  },
  {
   "property": "C108",
   "status": "proved",
   "theorems": [
    "C108_paper",
    "C108_automate",
    "C108_iterative",
    "C108_artificial",
    "C108_without",
    "C108_written"
   ],
   "note": "For roots that are absolute paths without dots. The job of the iterative method is arbitrary but makes no directories."
  },
  {
   "property": "C109",
   "status": "proved",
   "theorems": [
    "C109_capture",
    "C109_queue",
    "C109_queue_own",
    "C109_messages",
    "C109_version",
    "C109_version_released",
    "C109_version_refuted",
    "C109_other",
    "C109_get_version",
    "C109_script",
    "C109_script_old",
    "C109_without_julia_refuted",
    "C109_requires_refuted",
    "C109_development"
   ],
   "note": "That julia is optional and that python 3.5 is enough are refuted (C109_without_julia_refuted, C109_requires_refuted). Printing is left out."
  },
  {
   "property": "C110",
   "status": "proved",
   "theorems": [
    "C110_thermo",
    "C110_accepted",
    "C110_files",
    "C110_analysis",
    "C110_left_behind_refuted",
    "C110_commands",
    "C110_campaign",
    "C110_failed"
   ],
   "note": "That the results of orca and graham can be analysed below the root is refuted (C110_left_behind_refuted). The jobs do not overlap in time, and the scheduler gives them different numbers."
  }
 ]
}