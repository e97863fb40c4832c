# Formal model of Pibronic in Rocq (Coq 8.16.1)

The Python sources in `/repo` are read as text and modelled function by
function.  The code is not executed.  Every model definition carries a comment
with the file and lines it models.  The properties are listed in
`properties.jsonl`; the theorem names that decide them are in `MANIFEST.json`
and below.  Wrong programs tried against the theorems are in
`seeded/LOG.jsonl`.

## Layout

All Coq files are in `rocq/theories` (logical path `Verif`).  For each area `X`

* `X_Model.v`  – executable model (no proofs),
* `X_Spec.v`   – small independent specification (where one is needed),
* `X_Proofs.v` (`X2_Proofs.v`, ...) – lemmas,
* `X_Props.v` (`X2_Props.v`) – the property theorems, each followed by
  `Print Assumptions`; an `Example` (often one for several theorems) shows that the
  hypotheses can be met.

`Common.v` (exceptions, dictionaries), `PyStr_Model.v` (Python strings),
`Arr_Model.v` (numpy arrays) are shared.  The second property files mostly fix
details (texts, kinds of exceptions, defaults) that the first ones leave open.

## Conventions

* Python exceptions are values: `res A := Ok a | Raise e`.  Only the class of
  the exception is modelled, not its message.
* A function that mutates an object returns the new object.
* Files are values in a finite map (path -> contents); a run that can crash is a
  list of atomic file-system steps and a crash is a prefix of that list.
* Python `int` is `Z`/`nat`; numpy float arrays are row-major lists with a shape
  (element type abstract in the I/O part, real numbers `R` in the physics and
  statistics part, rationals where texts are read).
* Strings are ASCII; the semantics is that of Python 3.6, numpy >= 1.14.3.
* External programs and libraries (LAPACK `eigh`, the random generator, SHA-512,
  Julia scripts, SLURM, ACESII, `float(str)` where only its arguments matter) are
  universally quantified arguments, sometimes with an explicit hypothesis about
  their contract.  Such hypotheses are arguments of the theorems, not axioms.
* A property that is false of the code is answered by a theorem with suffix
  `_refuted` (concrete witness) together with the strongest true version.

## Simplifications that apply everywhere

* Floating-point rounding, overflow and memory exhaustion are not modelled
  (exact rationals or reals; NaN where the code can meet it: results pooling,
  model comparison).
* Logging, printing, sleeping and plotting have no effect (which levels are shown is C109,
  which curves are drawn is C99, C101, C104, C106).
* Processes run one after another; concurrency only appears where a crash or an
  interleaving of file operations is modelled explicitly.
* C47 ties the cached entries to the contents of the model file at the start of
  the external process.

## Trusted base

* the Coq kernel (8.16.1) and the standard library (mathcomp, std++, Iris are not used;
  Coquelicot is used for series, its own results add no axioms beyond those listed);
* the axioms of the standard library listed per theorem below, nothing else;
* the reading of the Python code, of the Python built-ins and of numpy recorded in the
  comments of the model files.


## Properties and the theorems that decide them

A theorem named `..._refuted` shows that the claim as first stated does not hold of the code; the other theorems of the same property give the strongest true version.

* **C01** Coupled model survives save and load (proved): `C01_coupled_save_load`, `C01_same_numbers`.
* **C02** Diagonal (sampling) model survives save and load (proved): `C02_diagonal_save_load`, `C02_zero_energy_refuted`.
* **C03** Loading into existing arrays leaves no stale numbers (proved): `C03_load_into_no_stale`.
* **C04** A model file for other dimensions is never silently accepted by the in-place load (proved): `C04_load_into_accepts_iff`, `C04_broadcast_contents`, `C04_other_dimensions_refuted`, `C04_in_place`.
* **C05** Malformed models never reach the disk (proved): `C05_save_rejects_invalid`, `C05_saved_is_valid`, `C05_verify_iff`, `C05_unreadable`, `C05_dimension_type`.
* **C06** Model comparison treats omitted parameters as zero (proved): `C06_same_model_iff`, `C06_dimensions_differ`, `C06_reflexive`, `C06_saved_copy_equal`, `C06_saved_diagonal_copy_equal`, `C06_unknown_key_refuted`, `C06_not_symmetric_refuted`, `C06_not_transitive_refuted`, `C06_large_dimensions_refuted`, `C06_compare`, `C06_values`, `C06_nan_dimension`.
* **C07** Removing the coupling keeps exactly the surface diagonal (proved): `C07_remove_coupling`, `C07_create_basic_diagonal`.
* **C08** Zero-filling the off-diagonal touches nothing else (proved): `C08_fill_offdiagonal`, `C08_fill_offdiagonal_twice`, `C08_float_surfaces`, `C08_assign`.
* **C09** Generated models are symmetric in the surfaces (proved): `C09_coupled`, `C09_diagonal`, `C09_ranges`, `C09_quadratic`, `C09_negative`, `C09_draw`, `C09_points`, `C09_assign`, `C09_add_diag`, `C09_checked`.
* **C10** The orthogonal transformation of a model is physical (proved): `C10_run`, `C10_symmetric`, `C10_trace`, `C10_identity`, `C10_back`, `C10_not_orthonormal`, `C10_asymmetric`, `C10_reuse_unchecked_refuted`, `C10_product`, `C10_compare`, `C10_einsum_rejects`, `C10_reuse_missing`, `C10_asymmetric_assertion`.
* **C11** The original model is not lost when creating the artificial coupled model (proved): `C11_recoverable`, `C11_other_files`, `C11_final`, `C11_second_run`, `C11_two_runs_refuted`, `C11_copy`.
* **C12** Parameter keys convert between enum and text without loss (proved): `C12_key_round_trip`, `C12_text_keys`, `C12_text_distinct`, `C12_unknown_key_rejected`, `C12_texts`.
* **C13** A changed model file is noticed through its hash (proved): `C13_current_contents`, `C13_same_hash_iff_same_contents`, `C13_stale_refuted`, `C13_missing_file`, `C13_accepted_iff`, `C13_comparison_raises`.
* **C14** Different data sets and sampling distributions never share files (proved): `C14_rho_layout`, `C14_vib_layout`, `C14_rho_disjoint`, `C14_vib_disjoint`, `C14_vib_rho_disjoint`, `C14_rho_directory`, `C14_es_directory`, `C14_files_distinct`, `C14_inside_root`, `C14_inside_absolute_root`, `C14_root_absolute`, `C14_abspath_idempotent`, `C14_leading_slashes`, `C14_normpath_cases`.
* **C15** change_rho is equivalent to building a new FileStructure (proved): `C15_change_rho_fresh`, `C15_change_rho_layout`, `C15_change_rho_keeps`, `C15_last_change_wins`, `C15_path_rho_refuted`, `C15_relative_root_refuted`, `C15_hash_refuted`.
* **C16** Parameters are recovered from result file names (proved): `C16_extract_pimc`, `C16_shown_temperature`, `C16_extract_thermo`, `C16_extract_sos`, `C16_bead_list`, `C16_sos_basis_list`, `C16_capital_P_refuted`, `C16_trotter_refuted`, `C16_trotter_always_fails`.
* **C17** Different parameters give different result files (proved): `C17_pimc_name`, `C17_thermo_name`, `C17_temperature_resolution`, `C17_sos_name`, `C17_trotter_name`, `C17_kinds_disjoint`, `C17_training_names`, `C17_training_not_results`, `C17_output_name`, `C17_same_result_path`, `C17_result_path`.
* **C18** Pooling result files uses every sample exactly once (proved): `C18_pooling`, `C18_zero_fails`, `C18_no_usable_file_fails`, `C18_missing_file_fails`, `C18_duplicate_path_refuted`.
* **C19** Capped pooling returns exactly the requested number of samples (proved): `C19_capped`, `C19_cap_inside_second_file_refuted`, `C19_slice`.
* **C20** Results are never pooled across different models (proved): `C20_prune`, `C20_prune_fails`, `C20_pooling_ignores_hashes_refuted`.
* **C21** Saved results can be loaded back (proved): `C21_save_contents`, `C21_save_possible`, `C21_round_trip`, `C21_across_classes`, `C21_same_count_refuted`, `C21_second_load_fails`, `C21_save_fails`.
* **C22** The block loop computes each sample exactly once (proved): `C22_block_loop`, `C22_no_blocks`, `C22_too_many_blocks`.
* **C23** Rescaling the O matrices does not change the estimators (proved): `C23_block_compute_pm_values`, `C23_block_compute_values`, `C23_ratios_not_scaled`, `C23_scaling_factors_cancel`, `C23_scaled_entries_bounded`, `C23_unscale`.
* **C24** Folding the linear terms completes the square (proved): `C24_vibronic_square`, `C24_vibronic_folded`, `C24_sampling_square`, `C24_energies_used_up`.
* **C25** Surface weights form a probability distribution (proved): `C25_weights_distribution`, `C25_weights_shift`.
* **C26** Sampling widths are always defined (proved): `C26_widths_defined`, `C26_fewer_than_three_rejected`, `C26_circulant_is_ring`.
* **C27** Building the O matrix restores the coordinates (proved): `C27_coordinates_restored`, `C27_sequence_of_builds`, `C27_evaluation_restores`, `C27_off_diagonal_rejected`.
* **C28** Sampling with the exact distribution gives ratio one (proved): `C28_exact_sampling_ratio_one`, `C28_estimate_one`.
* **C29** The estimates do not depend on where the bead ring is cut (proved): `C29_bead_rotation`.
* **C30** Which temperature g+ and g- belong to (proved): `C30_one_surface`, `C30_without_coupling`, `C30_plus_refuted`.
* **C31** Statistics do not depend on the order of samples (proved): `C31_order_independent`, `C31_file_order`.
* **C32** Statistics only depend on the ratios g/rho (proved): `C32_only_ratios`.
* **C33** Finite-difference estimators are exact on quadratics and agree with the log-derivative definitions (proved): `C33_terms_exact`, `C33_estimates`, `C33_no_errors`, `C33_derivatives`.
* **C34** Alpha analysis with alpha = 1 is the basic analysis (proved): `C34_alpha_one`.
* **C35** Leave-one-out terms are the means without one sample (proved): `C35_leave_one_out`, `C35_same_mean`, `C35_Z_error`, `C35_jackknife`, `C35_linear_energy`, `C35_linear_error_refuted`, `C35_identical_samples`.
* **C36** Temperature and inverse temperature convert back and forth (proved): `C36_inverse`, `C36_decreasing`, `C36_units`.
* **C37** Splitting into jobs draws the requested number of samples (proved): `C37_accepted`, `C37_rejected`, `C37_drawn`, `C37_values`, `C37_again`, `C37_overall_refuted`, `C37_negative_refuted`.
* **C38** One submission per temperature, bead count and job (proved): `C38_submissions`, `C38_command_nlogn`, `C38_command_compute_canada`, `C38_nothing_submitted`, `C38_unknown_host`, `C38_lists`, `C38_fields`, `C38_render`.
* **C39** Submission objects do not influence each other (proved): `C39_last_writer`, `C39_own_input`, `C39_earlier_changed_refuted`, `C39_inherited_refuted`, `C39_defaults`.
* **C40** Job ids are extracted from the scheduler's answer (proved): `C40_job_id`, `C40_short`, `C40_tail`.
* **C41** Failed cluster jobs are reported (proved): `C41_never_raises_refuted`, `C41_outcome`, `C41_tests_in_sequence`.
* **C42** Execution parameters survive the environment variable (proved): `C42_roundtrip`, `C42_exact`, `C42_semicolon`, `C42_semicolon_refuted`, `C42_collision`, `C42_comma`, `C42_fields`, `C42_missing`, `C42_escapes`, `C42_unicode`, `C42_blanks`, `C42_keys`, `C42_rejected`.
* **C43** A BoxData object can encode itself (proved): `C43_encode_self`, `C43_enum_key`, `C43_text_keys`, `C43_not_an_object`.
* **C44** Resuming an electronic-structure calculation continues where it stopped (proved): `C44_restored`, `C44_history`, `C44_resume_refuted`, `C44_recorded_text`.
* **C45** A calculation runs its stages in order and stops (proved): `C45_run`, `C45_order`, `C45_nothing_done`, `C45_default_start`, `C45_start`.
* **C46** Line navigation in output files (proved): `C46_find`, `C46_rfind`, `C46_forward`, `C46_back`, `C46_there_and_back`, `C46_readlines`, `C46_bounds`, `C46_before_start`.
* **C47** Cached analytic results always belong to the current model (proved): `C47_not_a_dictionary`, `C47_boltzman`, `C47_succeeds`, `C47_failed`, `C47_run`, `C47_key`, `C47_key_refuted`, `C47_fresh`, `C47_history`, `C47_original_refuted`, `C47_stale_refuted`, `C47_lost_update`.
* **C48** Analytic results written by the Julia wrapper can be used by the statistics (proved): `C48_load`, `C48_checks`, `C48_refuted`, `C48_at_index`.
* **C49** Tabulated scaling parameter lookup picks the nearest tabulated value from below (proved): `C49_rejects`, `C49_ends`, `C49_select`, `C49_bracket`, `C49_monotone`, `C49_wraps`, `C49_nearest_refuted`.
* **C50** The orthonormal-matrix generator starts from a skew-symmetric matrix and is trivial at zero (proved): `C50_generator`, `C50_restricted`, `C50_exponential`, `C50_orthogonal`, `C50_checked`, `C50_tolerance`.
* **C51** Importing a .op file gives the model described in it (proved): `C51_reads`, `C51_absent`, `C51_no_frequencies`, `C51_optional`, `C51_file`, `C51_lines`, `C51_index`, `C51_accepts`, `C51_values`, `C51_present`, `C51_linear`, `C51_linear_refuted`, `C51_quadratic_iff`, `C51_cubic_iff`, `C51_quartic_iff`, `C51_cubic_upper_iff`, `C51_coupled_fails`, `C51_doubled`.
* **C52** An extra entry in a model dictionary cannot make a saved file unusable or destroy an old one (proved): `C52_extra_key_unloadable`, `C52_unserialisable_truncates`.
* **C53** An analysis reads exactly the result files of its bead count and temperature (proved): `C53_selected_files`, `C53_other_kinds_not_selected`.
* **C54** directories_exist tells whether the directories exist (proved): `C54_directories_exist_refuted`, `C54_created`, `C54_names`.
* **C55** After change_rho the directories of the new rho exist (proved): `C55_rho_directories_exist`, `C55_no_makedir_refuted`, `C55_created`.
* **C56** The file a job writes is the one the analysis template names (proved): `C56_written_file_matches_template`, `C56_templates`, `C56_brace_refuted`, `C56_malformed`.
* **C57** The cluster's host name is found (proved): `C57_hostname`, `C57_no_hostname`.
* **C58** Analysis of a (P, T) point reads exactly the files of that point (proved): `C58_pools_matching_files`, `C58_no_file_fails`.
* **C59** The estimated energy and heat capacity are those of the model (proved): `C59_alpha_correct`, `C59_basic_double_counts_refuted`, `C59_alpha_self`, `C59_analyses_with`.
* **C60** The distribution sampled is rho(R) (proved): `C60_mixture_density`, `C60_draw_coordinates`, `C60_transform_is_path`, `C60_new_box`.
* **C61** Sampling model with another number of surfaces (proved): `C61_fewer_sampling_surfaces_fail`, `C61_more_sampling_surfaces_truncated`.
* **C62** Training data are evaluated at the given coordinates (proved): `C62_training_g_is_displaced`, `C62_training_g_without_linear`, `C62_training_g_refuted`, `C62_training_g_assertion`, `C62_training_rho_constant`, `C62_symmetry_check`, `C62_symmetry_check_raises`, `C62_drawn_g`.
* **C63** The choice of eigenvectors does not matter (proved): `C63_eigenvectors_do_not_matter`, `C63_m_matrix_is_exponential`.
* **C64** Blocks do not influence each other (proved): `C64_blocks_independent`, `C64_runs_concatenate`.
* **C65** The distance from the identity is bounded by 2 sqrt(order) (proved): `C65_distance`, `C65_norm`.
* **C66** Turning points select the record values of the scan (proved): `C66_records`, `C66_increasing`, `C66_exist`, `C66_first`.
* **C67** A table that is saved is consistent, a failure keeps the old table (proved): `C67_success`, `C67_failure`, `C67_increasing_refuted`, `C67_exact`, `C67_no_pairs`.
* **C68** The parameter file sets exactly the parameters it lists (proved): `C68_accepted`, `C68_rejected`, `C68_shared`, `C68_supported`, `C68_defaults`, `C68_not_supported`.
* **C69** The search for the number of ionised states finds the largest acceptable one (proved): `C69_found`, `C69_ends`, `C69_zero_forever`, `C69_no_number`.
* **C70** The electronic structure calculations of the code cannot complete (proved): `C70_nothing_recorded`, `C70_reasons`, `C70_wait`, `C70_names`.
* **C71** The printed results are read back exactly (proved): `C71_lines`, `C71_parse`.
* **C72** The external program is started with the right arguments (proved): `C72_commands`, `C72_command_texts`.
* **C73** Different results are kept in different files (proved): `C73_where`, `C73_distinct`, `C73_not_a_model`.
* **C74** The command line of the wrapper runs the method asked for (proved): `C74_command_line`, `C74_refused`, `C74_fails`, `C74_usage`.
* **C75** The sum over states results used are those of the temperature asked for (proved): `C75_load`, `C75_absent`.
* **C76** A re-weighted sampling model touches the coupled model at its minima (proved): `C76_single_point`, `C76_recalculate`, `C76_minimum`, `C76_twice`, `C76_quadratic_rejected`, `C76_modes_rejected`, `C76_no_frequencies`, `C76_one_mode_refuted`.
* **C77** The sampling program works on the numbers of the two model files (proved): `C77_dimensions`, `C77_dimensions_rejected`, `C77_vibronic_numbers`, `C77_vibronic_modes`, `C77_vibronic_one_mode_refuted`, `C77_sampling_numbers`, `C77_sampling_modes`, `C77_fresh_object`, `C77_saved_files`, `C77_initialize`, `C77_values_from_files`, `C77_sampling_quadratic_unused`.
* **C78** An imported operator file is saved as a model with the same numbers (proved): `C78_imported`, `C78_rejected`, `C78_document`.
* **C79** The analysis driver writes one correct file for every simulated pair (proved): `C79_listing`, `C79_pairs`, `C79_written`, `C79_failed`, `C79_grid_refuted`, `C79_order`, `C79_succeeds`, `C79_hashes`, `C79_no_model`, `C79_refuses`, `C79_no_results`.
* **C80** Waiting for a submitted job neither loses its signal nor reports it done too early (proved): `C80_lock`, `C80_no_lost_signal`, `C80_lost_signal_refuted`, `C80_wakes`, `C80_killed_refuted`, `C80_killed_only`, `C80_flag_stays`, `C80_result`, `C80_polls_forever`, `C80_progress`, `C80_wait`.
* **C81** The coupling file of VIBRON is read as it stands, or refused (proved): `C81_reads`, `C81_short`, `C81_one_block`, `C81_bad_frequency`.
* **C82** A calculation counts as complete exactly if its last message is near the end of the output (proved): `C82_aces2`, `C82_vibron`, `C82_sound`, `C82_first_line_refuted`.
* **C83** The removal of the blocks before the effective Hamiltonian cuts exactly at the line of its first occurrence (proved): `C83_move`, `C83_remove`, `C83_absent`, `C83_twice`.
* **C84** The number of states is written into the input of VIBRON, and the outputs of the previous step are not touched (proved): `C84_no_file`, `C84_copy`, `C84_written`, `C84_absent`, `C84_only_xxx_refuted`, `C84_prep`, `C84_prep_frame`, `C84_prep_fails`.
* **C85** A geometry file is kept as it is, and only the given coordinates are replaced (proved): `C85_init_internal`, `C85_init_bad_line`, `C85_init_kind`, `C85_get`, `C85_get_stars`, `C85_get_cartesian`, `C85_round_trip`, `C85_set_internal`, `C85_set_cartesian`.
* **C86** The optimised geometry is taken from the lines up to the next empty line, and reading a truncated output never ends (proved): `C86_internal`, `C86_internal_bad`, `C86_cartesian`, `C86_never`, `C86_missing`.
* **C87** The number of dropped orbitals is guessed from the first of the widest gaps, and the user decides (proved): `C87_guess`, `C87_guess_unique`, `C87_no_guess`, `C87_dialog`, `C87_agreed`, `C87_text`, `C87_estimate`, `C87_malformed`, `C87_missing`.
* **C88** The number of states is guessed from the last digit of the dropped orbitals and ignores the gap after them (proved): `C88_estimate`, `C88_guess`, `C88_malformed`, `C88_not_a_number`, `C88_missing`, `C88_keyword`, `C88_dropped_refuted`, `C88_gap_refuted`, `C88_count_refuted`, `C88_count`.
* **C89** The check of the singles never looks at a state and never refuses (proved): `C89_always_yes`, `C89_last_line`, `C89_missing`, `C89_never_no`, `C89_judge`, `C89_judge_fails`, `C89_nip_kept`, `C89_low_refuted`.
* **C90** The input files contain the geometry, the basis and the theory, and nothing else that was chosen (proved): `C90_any_field`, `C90_hf`, `C90_opt`, `C90_vib`, `C90_ip`, `C90_prep`, `C90_bad_basis`, `C90_bad_theory`, `C90_bad_nip`, `C90_nothing`, `C90_only`, `C90_field`, `C90_unknown_field`, `C90_verbatim_refuted`, `C90_job`, `C90_job_refuted`.
* **C91** The arrays behind the plots hold the values of the result files at the right places (proved): `C91_errors`, `C91_listing`, `C91_lists`, `C91_number`, `C91_load`, `C91_places`, `C91_restricted`, `C91_load_only`, `C91_percent`, `C91_percent_several`, `C91_tau`.
* **C92** The reference values of the plots (proved): `C92_analytic`, `C92_analytic_fails`, `C92_sos`, `C92_sos_first`, `C92_sos_refuted`, `C92_trotter`, `C92_trotter_nan`, `C92_sos_never`, `C92_rectangle_never`, `C92_errors`.
* **C93** The parameter values of a directory of results (proved): `C93_files`, `C93_basis_refuted`, `C93_trotter`, `C93_lists`, `C93_pimc`, `C93_pimc_names`, `C93_jackknife`.
* **C94** The reader of model.h files (proved): `C94_states`, `C94_modes`, `C94_frequencies`, `C94_frequencies_count`, `C94_count_refuted`, `C94_read`, `C94_create`, `C94_energies`, `C94_linear`, `C94_quadratic`, `C94_offdiag`, `C94_short`, `C94_energies_text`.
* **C95** The submission of the calculations of the paper (proved): `C95_text`, `C95_quotes`, `C95_sos`, `C95_trotter`, `C95_started`, `C95_done`, `C95_sequential`, `C95_same_files`, `C95_parallel_refuted`, `C95_writing_refuted`, `C95_brace_refuted`, `C95_names`, `C95_wrapper`, `C95_sampling`.
* **C96** The submission of the calculations of the artificial systems (proved): `C96_module`, `C96_trotter`, `C96_one_for_each`, `C96_first_done`, `C96_rounds`, `C96_missing_refuted`, `C96_finished_refuted`, `C96_fails_refuted`, `C96_analytic`, `C96_original_fails`, `C96_systems`.
* **C97** The preparation of the models of the examples (proved): `C97_prepare`, `C97_automate`, `C97_elsewhere`, `C97_iterative`, `C97_other_root`, `C97_transformation`, `C97_sampling`, `C97_again`, `C97_artificial_elsewhere`, `C97_zero_refuted`, `C97_directory_refuted`.
* **C98** The results of a submitted job reach the directory the analysis reads (proved): `C98_environment`, `C98_comma_refuted`, `C98_scratch_paths`, `C98_scratch_exists`, `C98_submission_refuted`, `C98_results_nlogn`, `C98_results_compute_canada`, `C98_left_behind_refuted`, `C98_feynman_refuted`, `C98_failed_job`, `C98_arguments`, `C98_job_number`, `C98_wrappers`, `C98_from_json_file`, `C98_negative`.
* **C99** The grid pictures show the parameters of the models of a data set (proved): `C99_single`, `C99_axes`, `C99_signs`, `C99_transposed_refuted`, `C99_energy`, `C99_linear`, `C99_quadratic`, `C99_names`, `C99_titles_refuted`, `C99_modes`, `C99_missing`, `C99_files`, `C99_script`, `C99_data_set`, `C99_refused`.
* **C100** The scripts that analyse an example analyse every sampling model once and change nothing else (proved): `C100_one`, `C100_testing`, `C100_each`, `C100_refused`, `C100_automate`, `C100_failed`, `C100_no_coupled`, `C100_nothing`, `C100_processes`, `C100_main`, `C100_both_refuted`.
* **C101** The tables of scaling parameters are complete, are in the right file, and are lost when a plot is made (proved): `C101_paths`, `C101_grid`, `C101_read`, `C101_first`, `C101_plot_full_refuted`, `C101_turning`, `C101_overwritten_refuted`, `C101_norms_refuted`, `C101_main`, `C101_script`, `C101_check`.
* **C102** The training data pairs every coordinate with its own value (proved): `C102_files`, `C102_pairs`, `C102_complete`, `C102_data_set`, `C102_other_model_refuted`, `C102_rho_refused`, `C102_gR`, `C102_name_kept_refuted`, `C102_hashes`.
* **C103** The driver fails before it changes anything but directories, and the report of jobs can mix them up (proved): `C103_execute`, `C103_copy`, `C103_script`, `C103_status`, `C103_own_state_refuted`, `C103_wrapper_one_refuted`, `C103_positive_refuted`, `C103_directories`, `C103_julia`.
* **C104** The pictures of the results show the loaded values (proved): `C104_init`, `C104_init_refused`, `C104_test_one`, `C104_temperatures_refuted`, `C104_empty`, `C104_latex`, `C104_original`, `C104_no_reference`, `C104_pair`, `C104_pair_second`, `C104_pair_unknown`, `C104_pair_no_samples`, `C104_inset`, `C104_inset_only_300`, `C104_sos_refuted`, `C104_mixed_refuted`, `C104_inset_text_refuted`.
* **C105** Random models and the regenerated input models are what their parameters say (proved): `C105_parameters`, `C105_other_entries`, `C105_scaling_refuted`, `C105_types`, `C105_numbers`, `C105_input`, `C105_input_refused`, `C105_script`, `C105_random`, `C105_random_diagonal`, `C105_saved`.
* **C106** The scripts that draw the results draw every pair they can, into its own file (proved): `C106_refused`, `C106_no_root`, `C106_pairs`, `C106_singles`, `C106_pair`, `C106_single`, `C106_pair_needs`, `C106_iterative_refuted`, `C106_processes`.
* **C107** The submission of a system of an example starts exactly the calculations and jobs of its plan (proved): `C107_pair`, `C107_no_model`, `C107_system`, `C107_system_stops`, `C107_refused`, `C107_main`, `C107_cluster`, `C107_distinct`.
* **C108** The preparation of the models makes the directories of all files it writes (proved): `C108_paper`, `C108_automate`, `C108_iterative`, `C108_artificial`, `C108_without`, `C108_written`.
* **C109** The installation, the questions to the queue and the levels of the messages (proved): `C109_capture`, `C109_queue`, `C109_queue_own`, `C109_messages`, `C109_version`, `C109_version_released`, `C109_version_refuted`, `C109_other`, `C109_get_version`, `C109_script`, `C109_script_old`, `C109_without_julia_refuted`, `C109_requires_refuted`, `C109_development`.
* **C110** Every sample of every job of a campaign reaches the analysis once (proved): `C110_thermo`, `C110_accepted`, `C110_files`, `C110_analysis`, `C110_left_behind_refuted`, `C110_commands`, `C110_campaign`, `C110_failed`.

## What `Print Assumptions` lists

* Closed under the global context (no axioms): the remaining 601 theorems.
* `sig_forall_dec`, `functional_extensionality_dep`: `C47_boltzman`, `C77_saved_files`, `C62_symmetry_check`, `C62_symmetry_check_raises`, `C23_unscale`, `C60_new_box`, `C60_draw_coordinates`, `C108_iterative`, `C108_artificial`, `C76_single_point`, `C76_recalculate`, `C76_minimum`, `C76_twice`, `C76_quadratic_rejected`, `C76_modes_rejected`, `C76_no_frequencies`, `C76_one_mode_refuted`, `C50_tolerance`, `C50_generator`, `C50_restricted`, `C50_checked`, `C65_distance`, `C97_iterative`, `C97_other_root`, `C97_transformation`, `C97_sampling`, `C97_again`, `C97_artificial_elsewhere`, `C33_terms_exact`, `C33_derivatives`, `C35_leave_one_out`, `C35_same_mean`, `C36_inverse`, `C36_decreasing`, `C36_units`, `C101_read`, `C101_overwritten_refuted`, `C101_norms_refuted`, `C101_script`.
* `sig_forall_dec`, `sig_not_dec`, `functional_extensionality_dep`: `C77_initialize`, `C77_sampling_quadratic_unused`, `C27_off_diagonal_rejected`, `C24_energies_used_up`, `C23_scaling_factors_cancel`, `C24_vibronic_square`, `C24_vibronic_folded`, `C24_sampling_square`, `C26_fewer_than_three_rejected`, `C27_coordinates_restored`, `C27_sequence_of_builds`, `C27_evaluation_restores`, `C29_bead_rotation`, `C30_without_coupling`, `C60_transform_is_path`, `C61_fewer_sampling_surfaces_fail`, `C62_training_g_assertion`, `C62_training_rho_constant`, `C63_eigenvectors_do_not_matter`, `C63_m_matrix_is_exponential`, `C64_blocks_independent`, `C64_runs_concatenate`, `C50_exponential`, `C50_orthogonal`, `C65_norm`, `C31_order_independent`, `C31_file_order`, `C32_only_ratios`, `C33_estimates`, `C33_no_errors`, `C34_alpha_one`, `C35_Z_error`, `C35_jackknife`, `C35_linear_energy`, `C35_linear_error_refuted`, `C35_identical_samples`, `C59_analyses_with`, `C59_alpha_self`.
* `sig_forall_dec`, `sig_not_dec`, `classic`, `functional_extensionality_dep`: `C77_values_from_files`, `C23_block_compute_pm_values`, `C23_block_compute_values`, `C23_ratios_not_scaled`, `C23_scaled_entries_bounded`, `C25_weights_distribution`, `C25_weights_shift`, `C26_widths_defined`, `C28_exact_sampling_ratio_one`, `C28_estimate_one`, `C30_one_surface`, `C30_plus_refuted`, `C60_mixture_density`, `C61_more_sampling_surfaces_truncated`, `C62_training_g_is_displaced`, `C62_training_g_without_linear`, `C62_training_g_refuted`, `C62_drawn_g`, `C59_alpha_correct`, `C59_basic_double_counts_refuted`.
* `sig_forall_dec`: `C26_circulant_is_ring`, `C101_first`, `C101_plot_full_refuted`, `C101_turning`, `C101_main`, `C101_check`.

The axioms are those of the standard library: `ClassicalDedekindReals.sig_forall_dec`, `ClassicalDedekindReals.sig_not_dec`, `FunctionalExtensionality.functional_extensionality_dep` (construction of the real numbers) and `Classical_Prop.classic` (analysis).  No other axiom occurs.

## Which code is modelled

For each Python file: the functions with a model (in brackets the Coq file, `~` if only part of the body is modelled), then the functions without one.

* `pibronic/constants.py`: modelled: `beta` [Julia, Stats], `extract_T_from_beta` [Julia, Stats]. 
* `pibronic/data/file_name.py`: modelled: `execution_output` [FileName], `pimc` [FileName, FileStruct], `jackknife` [FileName, FileStruct], `sos` [FileName, FileStruct], `trotter` [FileName, FileStruct], `training_data_input` [FileName], `training_data_g_output` [FileName], `training_data_rho_output` [FileName]. 
* `pibronic/data/file_structure.py`: modelled: `FileStructure.from_boxdata` [Job], `FileStructure.__init__` [FileStruct, Job, Place, Submit], `FileStructure.directories_exist` [FileStruct, Place], `FileStructure.make_directories` [FileStruct, Place], `FileStructure.make_rho_directories` [FileStruct, Place], `FileStructure.change_rho` [FileStruct, Place], `FileStructure.verify_directories_exists` [Rest], `FileStructure._has_vib_hash` [Submit], `FileStructure.generate_model_hashes` [FileStruct, Job, Submit], `FileStructure.valid_vib_hash` [FileStruct, Submit], `FileStructure.valid_rho_hash` [FileStruct], `FileStructure.valid_vib_and_rho_hashes` [FileStruct]. Not modelled: `FileStructure._has_rho_hash`, `FileStructure._has_hash_values`.
* `pibronic/data/postprocessing.py`: modelled: `retrive_pimc_file_list` [Analysis], `retrive_jackknife_file_list` [Plot], `retrive_sos_coupled_file_list` [Params], `retrive_sos_sampling_file_list` [Params], `retrive_all_file_paths` [Params], `extract_bead_value_from_trotter_file_path` [FileName, Params], `extract_trotter_paramater_list` [Params], `extract_basis_value_from_sos_file_path` [FileName], `extract_sos_basis_paramater_list` [FileName], `extract_bead_value_from_pimc_file_path` [FileName], `extract_bead_paramater_list` [FileName], `extract_temperature_value_from_pimc_file_path` [FileName], `extract_temperature_paramater_list` [Analysis], `extract_job_value_from_pimc_file_path` [FileName], `extract_parameter_lists` [Params], `extract_bead_value_from_thermo_file_path` [FileName], `extract_temperature_value_from_thermo_file_path` [FileName], `extract_sample_value_from_thermo_file_path` [FileName], `prune_results_using_hashes` [Results], `retrive_file_paths_for_jackknife` [Params], `extract_pimc_parameters` [Params], `extract_jackknife_parameters` [Params], `load_pimc_data` [FileName, Julia, Results], `load_analytic_data` [Julia, Stats], `load_rho_sos_data` [Julia]. 
* `pibronic/everything.py`: modelled: `copyInput` [Rest], `generate_analytical_results` [Rest], `execute` [Rest]. 
* `pibronic/helper.py`: modelled: `readlines` [FileSearch], `find_string_in_file` [FileSearch], `rfind_string_in_file` [FileSearch], `skip_back_lines` [FileSearch], `skip_forward_lines` [FileSearch]. Not modelled: `verify_file_exists`.
* `pibronic/julia_wrapper.py`: modelled: `parse_ouput` [Julia], `convert_keys` [Julia], `compute` [Julia], `validate_old_rho_data` [Julia], `validate_old_model_data` [Julia], `base_func` [Julia], `analytic_wrapper` [~Julia], `analytic_of_sampling_model` [~Julia], `analytic_of_original_coupled_model` [~Julia], `sos_wrapper` [~Julia], `sos_of_coupled_model` [~Julia], `trotter_wrapper` [~Julia], `trotter_of_coupled_model` [~Julia], `iterate_method` [Julia], `prepare_julia` [Rest], `construct_command_dictionary` [Julia], `main` [Julia]. 
* `pibronic/log_conf.py`: modelled: `MyLogger.flow` [Install], `MyLogger.lock` [Install]. 
* `pibronic/pimc/pimc.py`: modelled: `TemperatureDependentClass.__init__` [Pimc], `ModelClass.__init__` [Load], `ModelClass.from_json_file` [Load], `ModelClass.load_model` [Load], `ModelVibronic.__init__` [Load, Pimc], `ModelVibronic.compute_linear_displacement` [Pimc], `ModelVibronic.compute_weight_for_each_state` [Pimc], `ModelVibronic.optimize_energy` [Pimc], `ModelVibronic.initialize_TDP_object` [Pimc], `ModelVibronic.finish_folding_in_terms` [Pimc], `ModelVibronic.precompute` [Pimc], `ModelVibronicPM.__init__` [Pimc], `ModelVibronicPM.initialize_TDP_object` [Pimc], `ModelVibronicPM.precompute` [Pimc], `ModelSampling.__init__` [Load, Pimc], `ModelSampling.load_model` [Load, Pimc], `ModelSampling.draw_sample` [~Pimc], `ModelSampling.compute_linear_displacement` [Pimc], `ModelSampling.compute_weight_for_each_state` [Pimc], `ModelSampling.optimize_energy` [Pimc], `ModelSampling.initialize_TDP_object` [Pimc], `ModelSampling.finish_folding_in_terms` [Pimc], `ModelSampling.compute_sampling_constants` [Pimc, Results], `ModelSampling.precompute` [Pimc], `BoxData.from_FileStructure` [Job, Load], `BoxData.build` [Job, Load], `BoxData.from_json_file` [Job], `BoxData.from_json_string` [Job], `BoxData.__init__` [Job], `BoxData.json_serialize` [Job, JobBoss, Json], `BoxData.encode_self` [Json], `BoxData.load_json_string` [Job, Json], `BoxData.draw_sample` [Results], `BoxData.generate_random_R_values` [Pimc, Train], `BoxData.transform_sampled_coordinates` [Pimc], `BoxData.initialize_models` [Load, Pimc], `BoxData.preprocess` [Load, Pimc], `BoxDataPM.__init__` [Job], `BoxDataPM.initialize_models` [Pimc], `BoxDataPM.preprocess` [Pimc], `BoxResult.read_number_of_samples` [Train], `BoxResult.verify_result_keys_are_present` [Train], `BoxResult.result_keys_are_present_in` [Results, Train], `BoxResult.initialize_arrays` [Results, Train], `BoxResult.__init__` [Job, Results, Train], `BoxResult.compute_path_to_file` [FileName, Job, Results, Train], `BoxResult.save_results` [Results, Train], `BoxResult.load_results` [Results], `BoxResult.load_multiple_results` [Results], `BoxResultPM.verify_result_keys_are_present` [Results], `BoxResultPM.result_keys_are_present_in` [Results], `BoxResultPM.initialize_arrays` [Results], `BoxResultPM.__init__` [Results], `BoxResultPM.save_results` [Results], `BoxResultPM.load_results` [Results], `BoxResultPM.load_multiple_results` [Job, Results], `pos_sym_assert` [Rest], `scale_o_matrices` [Pimc], `un_scale_o_matrices` [Pimc], `build_scaling_factors` [Pimc], `build_o_matrix` [Pimc], `build_denominator` [Pimc], `diagonalize_coupling_matrix` [Pimc], `build_numerator` [Pimc], `block_compute_gR` [Pimc, Train], `save_gR_with_samples` [Train], `block_compute_rhoR_from_input_samples` [Pimc, Train], `block_compute_gR_from_raw_samples` [Pimc, Train], `block_compute` [Pimc, Results], `block_compute_pm` [Chain, Job, Pimc, Results], `simple_wrapper` [Job], `plus_minus_wrapper` [Job]. 
* `pibronic/plotting/grid_plots.py`: modelled: `plotGrids.load_original_models` [Grid], `plotGrids.load_coupled_models` [Grid], `plotGrids.prepare_data` [Grid], `plotGrids.load_data` [Grid], `plotGrids.annotate_intensity_grid` [Grid], `plotGrids.generate_sign_array` [Grid], `plotGrids.plot_single_energy_grid` [Grid], `plotGrids.plot_original_energy_grid` [Grid], `plotGrids.plot_coupled_energy_grid` [Grid], `plotGrids.plot_energy` [Grid], `plotGrids.plot_single_linear_grid` [Grid], `plotGrids.plot_original_linear_grids` [Grid], `plotGrids.plot_coupled_linear_grids` [Grid], `plotGrids.plot_linear_coupling` [Grid], `plotGrids.plot_single_quadratic_grid` [Grid], `plotGrids.plot_original_quadratic_grids` [Grid], `plotGrids.plot_coupled_quadratic_grids` [Grid], `plotGrids.plot_quadratic_coupling` [Grid]. Not modelled: `plotGrids.__init__`.
* `pibronic/plotting/plotting.py`: modelled: `load_analytical_original` [Plot], `load_analytical_sampling` [Plot], `load_sos` [Plot], `load_trotter_coupled` [Plot], `generate_tau_values` [Plot], `plot_Z_multiple_FS.generate_file_lists` [Chart, Plot], `plot_Z_multiple_FS.generate_parameter_lists` [Plot], `plot_Z_multiple_FS.__init__` [Chart, Plot], `plot_Z_multiple_FS.load_pimc_data` [Plot], `plot_Z_multiple_FS.load_data` [Plot], `plot_original_Z_test.generate_file_lists` [Chart, Plot], `plot_original_Z_test.generate_parameter_lists` [Plot], `plot_original_Z_test.__init__` [Chart, Plot], `plot_original_Z_test.load_pimc_data` [Chart, Plot], `plot_original_Z_test.load_analytical_data` [Plot], `plot_original_Z_test.prepare_data` [Plot], `plot_original_Z_test.load_data` [Plot], `plot_original_Z_test.generate_tau_values` [Chart], `plot_original_Z_test.plot_Z` [Chart], `plot_original_Z_test.plot` [Chart], `plot_original_Z_vs_diagonal_test.__init__` [Chart, Plot], `plot_original_Z_vs_diagonal_test.load_analytical_data` [Plot], `plot_original_Z_vs_diagonal_test.prepare_data` [Plot], `plot_original_Z_vs_diagonal_test.load_data` [Plot], `plot_original_Z_vs_diagonal_test.plot_Z` [Chart], `plot_original_Z_vs_diagonal_test.plot` [Chart], `plot_sos_Z_vs_rho_n.__init__` [Chart, Plot], `plot_sos_Z_vs_rho_n.prepare_data` [Plot], `plot_sos_Z_vs_rho_n.load_data` [Plot], `plot_sos_Z_vs_rho_n.plot_Z` [Chart], `plot_sos_Z_vs_rho_n.plot` [Chart], `plot_rectangle.__init__` [Chart, Plot], `plot_rectangle.prepare_data` [Plot], `plot_rectangle.load_data` [Plot], `plot_rectangle.generate_tau_values` [Chart], `plot_rectangle.plot_Z` [Chart], `plot_rectangle.plot` [Chart], `plot_Z_test.generate_file_lists` [Chart, Plot], `plot_Z_test.generate_parameter_lists` [Plot], `plot_Z_test.__init__` [Chart, Plot], `plot_Z_test.load_data` [Plot], `plot_Z_test.plot_Z` [Chart], `plot_Z_test.plot_E` [Chart], `plot_Z_test.plot_Cv` [Chart], `plot_Z_test.plot` [Chart]. Not modelled: `plot_original_Z_vs_diagonal_test.generate_tau_values`.
* `pibronic/plotting/prepare.py`: modelled: `load_latex_module_on_server` [Chart]. Not modelled: `prepare_mpl_rc_file`.
* `pibronic/plotting/virtual.py`: modelled: `plotVirtual.validate_data` [Chart], `plotVirtual.__init__` [Chart]. Not modelled: `plotVirtual.generate_file_lists`, `plotVirtual.generate_parameter_lists`.
* `pibronic/server/job_boss.py`: modelled: `get_path_to_python_executable` [Job, JobBoss], `get_path_of_job_boss_directory` [Job, JobBoss], `subprocess_submit_asynch_wrapper` [Install], `subprocess_run_wrapper` [Exec, Install], `get_hostname` [JobBoss], `SIGUSR1_handle` [Sync], `check_acct_state` [Install], `check_running_state` [Install, Sync], `synchronize_with_job` [Sync], `check_slurm_output` [JobBoss], `extract_id_job_from_output` [JobBoss], `submit_job` [Exec, Job, JobBoss], `assert_partition_exists` [JobBoss], `serialize_BoxData_dictionary` [Job, Json], `prepare_job_feynman` [Job, JobBoss, Json], `prepare_job_nlogn` [Job, JobBoss], `prepare_job_compute_canada` [JobBoss], `prepare_job_orca` [JobBoss], `prepare_job_graham` [JobBoss], `SubmissionClass.prepare_paths` [JobBoss], `SubmissionClass.__init__` [Campaign, JobBoss], `SubmissionClass.verify_hostname_is_valid` [JobBoss], `SubmissionClass.construct_job_command` [JobBoss], `PimcSubmissionClass.__init__` [JobBoss], `PimcSubmissionClass.setup_blocks_and_jobs` [JobBoss], `PimcSubmissionClass.submit_jobs` [Campaign, Chain, JobBoss]. Not modelled: `PimcSubmissionClass.prepare_paths`, `PimcSubmissionClass.submit_job_array`.
* `pibronic/stats/jackknife.py`: modelled: `calculate_alpha_jackknife_terms` [Stats], `calculate_jackknife_term` [Stats], `calculate_jackknife_terms` [Stats], `estimate_jackknife` [Stats]. 
* `pibronic/stats/stats.py`: modelled: `calculate_basic_property_terms` [Stats], `calculate_alpha_terms` [Stats], `basic_estimate_Z_monte_carlo` [Stats], `basic_estimate_internal_energy` [Stats], `basic_estimate_heat_capacity` [Stats], `estimate_basic_properties` [Stats], `add_harmonic_contribution` [Stats], `apply_parameter_restrictions` [Analysis], `starmap_wrapper` [Analysis], `basic_statistical_analysis` [Stats], `alpha_statistical_analysis` [Stats], `statistical_analysis_of_pimc` [Analysis], `basic_jackknife_analysis` [Stats], `alpha_jackknife_analysis` [Stats], `jackknife_analysis_of_pimc` [Analysis], `testing_execution` [Survey], `main` [Survey]. 
* `pibronic/vibronic/electronic_structure.py`: modelled: `State.max` [Exec], `State.min` [Exec], `find_string_in_file` [FileSearch], `rfind_string_in_file` [FileSearch], `skip_back_n_lines` [FileSearch], `skip_forward_n_lines` [FileSearch], `pretty_print_job_status` [Rest], `pairwise` [Orbital], `get_yes_no_from_user` [Orbital], `get_integer_from_user` [Orbital], `wait_on_results` [Exec, Sync], `verify_aces2_completed` [Output], `submit_job` [Exec], `hartree_fock_calculation` [Deck, Exec], `_estimate_dropmo` [Orbital], `_extract_lines_for_estimating_NIP` [Orbital], `_guess_NIP_value` [Orbital], `_estimate_NIP` [Orbital], `parse_hartree_fock_output` [Exec], `geometry_optimization` [Deck, Exec], `parse_opt_output` [Zmat], `vibrational_frequency` [Deck, Exec], `ip_calculation` [Deck, Exec], `parse_ip_output` [Exec, Singles], `verify_ip_states` [Exec], `_create_template` [Deck], `prepVibron_calculation` [Deck, Exec], `_remove_extra_heff` [Output], `_copy_output_file` [Output], `_add_nip_to_file` [Output], `parse_prepVibron_output` [Output], `vibron_calculation` [Exec], `parse_vibron_output` [Output], `ZmatClass.__init__` [Zmat], `ZmatClass.get` [Zmat], `ZmatClass.set` [Zmat], `VibronExecutionClass.__init__` [Exec], `VibronExecutionClass.record_state` [Exec], `VibronExecutionClass.advance` [Exec], `VibronExecutionClass._set_state_from_file` [Exec], `VibronExecutionClass.parse_input_parameters` [Exec], `VibronExecutionClass.hf` [Deck, Exec], `VibronExecutionClass.geom` [Exec], `VibronExecutionClass.vib` [Exec], `VibronExecutionClass.ip_calc` [Exec], `VibronExecutionClass.prepVibron` [Exec], `VibronExecutionClass.vibron_calc` [Exec], `VibronExecutionClass.calculate_vibronic_model` [Exec, Sync], `test_one` [Exec], `calculate_vibronic_model_wrapper_one` [Rest], `main` [Exec]. Not modelled: `verify_file_exists`, `parse_input_parameters`, `temp_file_path`, `VibronExecutionClass.setup_zmat`.
* `pibronic/vibronic/model_auto.py`: modelled: `read_header` [Auto], `fill_in_excitation_energies` [Auto], `fill_in_linear_couplings` [Auto], `fill_in_diagonal_quadratic_couplings` [Auto], `fill_in_offdiagonal_quadratic_couplings` [Auto], `confirm_symmetry_in_surfaces` [Auto], `confirm_symmetry_in_modes` [Auto], `read_model_auto_file` [Auto]. 
* `pibronic/vibronic/model_h.py`: modelled: `get_number_of_electronic_states` [ModelH], `get_number_of_normal_modes` [ModelH], `extract_normal_mode_frequencies` [ModelH], `extract_energies` [ModelH], `extract_linear_couplings` [ModelH], `extract_quadratic_couplings` [ModelH], `extract_offdiag_quadratic_couplings` [ModelH], `read_model_h_file` [ModelH]. Not modelled: `extract_cubic_couplings`, `extract_quartic_couplings`.
* `pibronic/vibronic/model_op.py`: modelled: `extract_energies` [ModelOp], `extract_normal_mode_frequencies` [ModelOp], `extract_linear_couplings` [ModelOp], `extract_quadratic_couplings` [ModelOp], `extract_cubic_couplings` [ModelOp], `extract_bicubic_couplings` [ModelOp], `extract_quartic_couplings` [ModelOp], `extract_biquartic_couplings` [ModelOp], `read_model_op_file` [Import, ModelOp]. 
* `pibronic/vibronic/orthonormal/create.py`: modelled: `create_orthonormal_matrix_lambda_close_to_identity` [Sequences, Table], `main` [Table]. 
* `pibronic/vibronic/orthonormal/sequences.py`: modelled: `difference_function` [Table], `check_minimum_length_of_sequence` [Sequences, Table], `path_to_x_pair_file` [Table], `path_to_sequence_file` [Table], `load_sequence` [Sequences, Table], `save_sequence` [Table], `select_pair` [Sequences, Table], `build_SKSM_and_identity` [Sequences], `find_first_turn_around_point` [Sequences], `generate_monotonic_sequence_to_first_turn_around` [Table], `generate_and_save_x_pairs` [Sequences], `list_of_turning_points` [Sequences], `generate_full_monotonic_sequence` [Sequences, Table], `generate_full_monotonic_sequence_for_plotting` [Table], `generate_turning_point_sequence_for_plotting` [Table], `generate_sequences_for_plotting` [Table], `debugging_matrix_checking_function` [Table], `main` [Table]. 
* `pibronic/vibronic/vibronic_model_io.py`: modelled: `model_shape_dict` [ModelIO, Random], `diagonal_model_shape_dict` [ModelIO], `_array_is_symmetric_in_A` [Create], `model_parameters_are_symmetric_in_surfaces` [Create], `model_parameters_are_symmetric_in_modes` [Create], `model_zeros_template_json_dict` [ModelIO], `diagonal_model_zeros_template_json_dict` [ModelIO], `verify_model_parameters` [ModelIO], `verify_diagonal_model_parameters` [ModelIO], `_same_model` [SameModel], `_same_diagonal_model` [SameModel], `create_random_model` [Random], `create_random_diagonal_model` [Random], `_hash` [FileStruct], `create_model_hash` [FileStruct], `create_diagonal_model_hash` [FileStruct], `_generate_linear_terms` [Create], `_generate_quadratic_terms` [Create], `generate_vibronic_model_data` [Create, Random], `read_model_h_file` [ModelH], `create_coupling_from_h_file` [ModelH], `create_coupling_from_op_file` [Import], `create_coupling_from_op_hyperlink` [ModelH], `_extract_dimensions_from_dictionary` [Load, ModelIO], `_extract_dimensions_from_file` [Load], `extract_dimensions_of_model` [Load], `extract_dimensions_of_diagonal_model` [Load], `_save_to_JSON` [ModelIO], `save_model_to_JSON` [ModelIO], `save_diagonal_model_to_JSON` [ModelIO], `_load_inplace_from_JSON` [ModelIO], `_load_from_JSON` [ModelIO], `load_model_from_JSON` [ModelIO], `load_diagonal_model_from_JSON` [ModelIO], `simple_single_point_energy_calculation` [Point, Setup], `recalculate_energy_values_of_diagonal_model` [Point], `fill_offdiagonal_of_model_with_zeros` [ModelIO], `remove_coupling_from_model` [ModelIO], `create_harmonic_model` [ModelIO], `create_basic_diagonal_model` [ModelIO], `create_fake_coupled_model` [Create, Place, Setup]. Not modelled: `read_model_op_file`, `read_model_auto_file`, `create_random_orthonormal_matrix`, `create_orthonormal_matrix_lambda_close_to_identity`, `main`.
* `pibronic/vibronic/vibronic_model_keys.py`: modelled: `VibronicModelKeys.change_dictionary_keys_from_enum_members_to_strings` [ModelIO], `VibronicModelKeys.change_dictionary_keys_from_strings_to_enum_members` [ModelIO], `VibronicModelKeys.key_list` [ModelIO]. 

Of the scripts in `examples`: modelled are `submit_jobs_to_server.py`, `setup_models.py` and `systems.py` of both example directories [Submit, Submit2, Setup, Campaign, Place] and `generate_energy_plots.py` of the artificial systems [Grid], `analyze_results.py` of both [Survey], the functions of `basic_ml_testing.py` [Train], `generate_initial_model_parameters.py` [Random] and the scripts that start plots [Gallery]. Of the job scripts: `pimc_job.sh` and `pimc.py` in `server/nlogn_feynman` and `server/compute_canada` are modelled [Job].

Modelled are also `setup.py` and the levels of the logger in `log_conf.py` [Install].

Not modelled at all: `docs`, what matplotlib does with the curves it is given, which messages are logged where, and printing.

