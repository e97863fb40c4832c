{"id": "C01", "title": "Coupled model survives save and load", "statement": "Any coupled model that save_model_to_JSON accepts, once written and read back with load_model_from_JSON(path), gives the same number of modes and surfaces and, for every parameter, the same values: parameters with at least one non-zero entry come back element for element with the same shape; the energies always come back (zeros of shape (A,A) if they were all zero or absent); any other all-zero parameter is simply absent. The loaded model is accepted by the shape verification.", "quantifier": "for every A, N, every dictionary accepted by the save function, every array contents", "why_tests_cant": "every shape, every pattern of zero/non-zero arrays and every subset of optional keys would have to be tried", "anchors": ["pibronic/vibronic/vibronic_model_io.py:save_model_to_JSON", "pibronic/vibronic/vibronic_model_io.py:_save_to_JSON", "pibronic/vibronic/vibronic_model_io.py:load_model_from_JSON", "pibronic/vibronic/vibronic_model_io.py:_load_from_JSON"]}
{"id": "C02", "title": "Diagonal (sampling) model survives save and load", "statement": "Any diagonal model that save_diagonal_model_to_JSON accepts can be read back by load_diagonal_model_from_JSON(path) with the same values. (Holds whenever the energies have a non-zero entry; for all-zero or absent energies the load is rejected, which is a finding.)", "quantifier": "for every A, N and every diagonal model dictionary accepted by the save function", "why_tests_cant": "the failing class (all-zero energies) is a measure-zero set never hit by randomly generated models", "anchors": ["pibronic/vibronic/vibronic_model_io.py:save_diagonal_model_to_JSON", "pibronic/vibronic/vibronic_model_io.py:_load_from_JSON", "pibronic/vibronic/vibronic_model_io.py:load_diagonal_model_from_JSON"]}
{"id": "C03", "title": "Loading into existing arrays leaves no stale numbers", "statement": "load_model_from_JSON(path, dictionary) and load_diagonal_model_from_JSON(path, dictionary), when the file was written for the same dimensions, overwrite every provided array completely: afterwards each array equals the file's array, or is all zeros if the file does not contain it, whatever the arrays held before; shapes and the scalar entries do not change.", "quantifier": "for every previous content of the provided arrays, every subset of provided arrays, every file produced by the save function with the same A and N", "why_tests_cant": "needs all previous contents and all subsets of present/absent keys", "anchors": ["pibronic/vibronic/vibronic_model_io.py:_load_inplace_from_JSON", "pibronic/vibronic/vibronic_model_io.py:load_model_from_JSON", "pibronic/vibronic/vibronic_model_io.py:load_diagonal_model_from_JSON"]}
{"id": "C04", "title": "A model file for other dimensions is never silently accepted by the in-place load", "statement": "If the file on disk describes different dimensions than the provided arrays, the in-place load raises instead of filling the arrays. (False: numpy broadcasting accepts e.g. a one-mode file into N-mode arrays; the exact set of silently accepted shapes is characterised.)", "quantifier": "for all pairs of dimensions", "why_tests_cant": "tests only load files into arrays of the right size", "anchors": ["pibronic/vibronic/vibronic_model_io.py:_load_inplace_from_JSON", "pibronic/vibronic/vibronic_model_io.py:load_model_from_JSON"]}
{"id": "C05", "title": "Malformed models never reach the disk", "statement": "save_model_to_JSON / save_diagonal_model_to_JSON accept a dictionary exactly when both dimensions are present and every known parameter has the shape prescribed by the dimensions; when they reject it, the target file is left exactly as it was.", "quantifier": "for every dictionary and every previous file content", "why_tests_cant": "infinitely many malformed dictionaries", "anchors": ["pibronic/vibronic/vibronic_model_io.py:verify_model_parameters", "pibronic/vibronic/vibronic_model_io.py:verify_diagonal_model_parameters", "pibronic/vibronic/vibronic_model_io.py:save_model_to_JSON", "pibronic/vibronic/vibronic_model_io.py:save_diagonal_model_to_JSON", "pibronic/vibronic/vibronic_model_io.py:model_shape_dict", "pibronic/vibronic/vibronic_model_io.py:diagonal_model_shape_dict"]}
{"id": "C06", "title": "Model comparison treats omitted parameters as zero", "statement": "_same_model returns True for two valid models exactly when they have the same dimensions and every parameter agrees within tolerance, an absent parameter counting as zeros; it is reflexive, accepts a saved-and-loaded copy, and never calls models of different (realistic) dimensions equal. It is not symmetric in general (relative tolerance is taken from the second argument).", "quantifier": "for all pairs of valid models", "why_tests_cant": "pairs of models and presence patterns are unbounded", "anchors": ["pibronic/vibronic/vibronic_model_io.py:_same_model", "pibronic/vibronic/vibronic_model_io.py:_same_diagonal_model"]}
{"id": "C07", "title": "Removing the coupling keeps exactly the surface diagonal", "statement": "remove_coupling_from_model(src, dst) writes to dst a diagonal model with the same dimensions whose energies and couplings of every order are the entries of the source with equal surface indices and whose frequencies are unchanged; the result passes the diagonal-model verification; the source file is not modified; create_basic_diagonal_model leaves the same contents in the harmonic and the sampling file.", "quantifier": "for every valid coupled model with any subset of parameters", "why_tests_cant": "all shapes/orders/subsets", "anchors": ["pibronic/vibronic/vibronic_model_io.py:remove_coupling_from_model", "pibronic/vibronic/vibronic_model_io.py:create_harmonic_model", "pibronic/vibronic/vibronic_model_io.py:create_basic_diagonal_model"]}
{"id": "C08", "title": "Zero-filling the off-diagonal touches nothing else", "statement": "fill_offdiagonal_of_model_with_zeros sets every entry with different surface indices to zero in every array with two or more axes and changes no other entry, no shape and no scalar; applying it twice equals applying it once.", "quantifier": "for every valid model", "why_tests_cant": "all shapes and contents", "anchors": ["pibronic/vibronic/vibronic_model_io.py:fill_offdiagonal_of_model_with_zeros"]}
{"id": "C09", "title": "Generated models are symmetric in the surfaces", "statement": "Whatever numbers the random generator produces, the energies and linear (and, through the quadratic helper, quadratic) couplings of a generated coupled model are symmetric under exchange of the two surface indices (and mode indices for the quadratic ones), and every entry is one of the drawn numbers, so range bounds carry over; the generated diagonal model has valid diagonal shapes.", "quantifier": "for every random draw, A and N", "why_tests_cant": "tests sample a few random draws", "anchors": ["pibronic/vibronic/vibronic_model_io.py:_generate_linear_terms", "pibronic/vibronic/vibronic_model_io.py:_generate_quadratic_terms", "pibronic/vibronic/vibronic_model_io.py:generate_vibronic_model_data"]}
{"id": "C10", "title": "The orthogonal transformation of a model is physical", "statement": "create_fake_coupled_model applies X -> U X U^T to the energies and couplings of every order: for orthonormal U the result is symmetric when the input is, has the same trace over surfaces for every mode index, transforming back with U^T restores the model exactly, U = identity changes nothing, and frequencies/dimensions are untouched.", "quantifier": "for every orthonormal U (over any commutative ring), every valid model", "why_tests_cant": "continuum of matrices and models", "anchors": ["pibronic/vibronic/vibronic_model_io.py:create_fake_coupled_model"]}
{"id": "C11", "title": "The original model is not lost when creating the artificial coupled model", "statement": "At every instant of one run of create_fake_coupled_model, including a crash at any file-system step, the contents of the original coupled model file are recoverable from coupled_model.json or original_coupled_model.json. Over several runs this is false: a second run overwrites the backup with the transformed model.", "quantifier": "for every crash point of a run; for every history of runs", "why_tests_cant": "crash points and histories cannot be enumerated by unit tests", "anchors": ["pibronic/vibronic/vibronic_model_io.py:create_fake_coupled_model"]}
{"id": "C12", "title": "Parameter keys convert between enum and text without loss", "statement": "Converting the keys of a model dictionary from enum members to strings and back yields the same dictionary; unknown text keys make the load fail rather than being dropped; the eight known keys have pairwise different text.", "quantifier": "for every dictionary", "why_tests_cant": "every dictionary and key", "anchors": ["pibronic/vibronic/vibronic_model_keys.py:VibronicModelKeys"]}
{"id": "C13", "title": "A changed model file is noticed through its hash", "statement": "With a collision-free digest, the model hashes of a FileStructure equal those of another history exactly when both model files had identical contents when hashed. Calling generate_model_hashes() again after the model file has changed keeps the old hash unless force_flag is given (finding: staleness).", "quantifier": "for every history of file writes and hash refreshes", "why_tests_cant": "histories", "anchors": ["pibronic/data/file_structure.py:generate_model_hashes", "pibronic/vibronic/vibronic_model_io.py:create_model_hash", "pibronic/vibronic/vibronic_model_io.py:create_diagonal_model_hash", "pibronic/data/file_structure.py:valid_vib_hash", "pibronic/data/file_structure.py:valid_rho_hash"]}
{"id": "C14", "title": "Different data sets and sampling distributions never share files", "statement": "FileStructure objects with the same root and different (id_data, id_rho) have no rho path (parameters, results, output, plots, sampling model, analytic results) in common, and with different id_data no data-set path in common; every path starts with the root.", "quantifier": "for all pairs of non-negative ids and every root", "why_tests_cant": "all id pairs", "anchors": ["pibronic/data/file_structure.py:FileStructure.__init__", "pibronic/data/file_structure.py:template_vib", "pibronic/data/file_structure.py:template_rho"]}
{"id": "C15", "title": "change_rho is equivalent to building a new FileStructure", "statement": "After change_rho(r) every path of the object equals that of a freshly built FileStructure with id_rho=r. (True for the parameter/results/output/plots directories, templates and rho files; false for path_rho, id_rho and the cached hashes: finding.)", "quantifier": "for all ids and every sequence of change_rho calls", "why_tests_cant": "sequences of calls", "anchors": ["pibronic/data/file_structure.py:change_rho"]}
{"id": "C16", "title": "Parameters are recovered from result file names", "statement": "For every bead count P, temperature T (to 2 decimals) and job number J, the extract_* functions applied to the path of the PIMC result file return P, T and J, and likewise for thermo and sos files, provided the directory part does not itself contain the separators; a directory part containing a capital P breaks the bead extraction (finding); the trotter extraction always fails (finding).", "quantifier": "for all non-negative P, J, X, B, all temperatures with two decimals, all directory names", "why_tests_cant": "unbounded numbers and directory names", "anchors": ["pibronic/data/postprocessing.py:extract_bead_value_from_pimc_file_path", "pibronic/data/postprocessing.py:extract_temperature_value_from_pimc_file_path", "pibronic/data/postprocessing.py:extract_job_value_from_pimc_file_path", "pibronic/data/postprocessing.py:extract_bead_value_from_thermo_file_path", "pibronic/data/postprocessing.py:extract_basis_value_from_sos_file_path", "pibronic/data/file_name.py:pimc", "pibronic/data/file_name.py:jackknife", "pibronic/data/file_name.py:sos"]}
{"id": "C17", "title": "Different parameters give different result files", "statement": "The file names of PIMC results, thermo files, sos and trotter files are injective in their parameters, temperatures being distinguished to 1/100 K: two jobs overwrite each other's output only if bead count, temperature (to 2 decimals) and job id all coincide.", "quantifier": "for all parameter tuples", "why_tests_cant": "unbounded numbers", "anchors": ["pibronic/data/file_name.py:pimc", "pibronic/data/file_name.py:jackknife", "pibronic/data/file_name.py:sos", "pibronic/data/file_name.py:trotter", "pibronic/pimc/pimc.py:compute_path_to_file"]}
{"id": "C18", "title": "Pooling result files uses every sample exactly once", "statement": "load_multiple_results on distinct files without a cap loads exactly the concatenation, in some order of the files, of the samples of all files having the required keys; rho, g, g+ and g- of one sample stay aligned; files lacking a key are ignored; number of samples reported equals the number loaded; a zero in rho makes it fail. If every file lacks a key or the list is empty it fails.", "quantifier": "for every list of files, every order in which the set is iterated, every contents", "why_tests_cant": "set iteration order, number and sizes of files unbounded", "anchors": ["pibronic/pimc/pimc.py:BoxResult.load_multiple_results", "pibronic/pimc/pimc.py:BoxResultPM.load_multiple_results"]}
{"id": "C19", "title": "Capped pooling returns exactly the requested number of samples", "statement": "load_multiple_results(paths, D) returns exactly min(D, available) samples, the first ones in the order read. (False: when the cap falls inside a second or later non-empty file it raises a shape error although enough samples exist; it succeeds exactly when everything fits, the cap falls on a file boundary, or the first non-empty file alone has enough: finding.)", "quantifier": "for every list of file sizes, order and D", "why_tests_cant": "boundary combinations", "anchors": ["pibronic/pimc/pimc.py:BoxResult.load_multiple_results", "pibronic/pimc/pimc.py:BoxResultPM.load_multiple_results"]}
{"id": "C20", "title": "Results are never pooled across different models", "statement": "A result file produced for another model (other hash) never contributes to an analysis. prune_results_using_hashes keeps exactly the files with matching hashes, in order; but statistical_analysis_of_pimc / load_multiple_results never call it and pool files whatever their hashes (finding).", "quantifier": "for every list of files and hashes", "why_tests_cant": "histories of model changes", "anchors": ["pibronic/data/postprocessing.py:prune_results_using_hashes", "pibronic/data/postprocessing.py:load_pimc_data", "pibronic/stats/stats.py:statistical_analysis_of_pimc", "pibronic/stats/stats.py:starmap_wrapper"]}
{"id": "C21", "title": "Saved results can be loaded back", "statement": "A result object saved by save_results and loaded by load_results into a fresh object gives the same arrays and sample count; saving requires both hashes. Loading into an object that already has a sample count always fails even when the counts agree (identity comparison, finding).", "quantifier": "for every result and object", "why_tests_cant": "depends on object identity", "anchors": ["pibronic/pimc/pimc.py:BoxResult.save_results", "pibronic/pimc/pimc.py:BoxResult.load_results", "pibronic/pimc/pimc.py:BoxResultPM.load_results"]}
{"id": "C22", "title": "The block loop computes each sample exactly once", "statement": "block_compute / block_compute_pm write each sample index below blocks*block_size exactly once, in order, from the coordinates drawn for that index, and leave the rest NaN; if blocks*block_size equals the sample count every saved entry is defined; zero blocks makes it fail.", "quantifier": "for every number of samples, blocks and block size", "why_tests_cant": "all sizes", "anchors": ["pibronic/pimc/pimc.py:block_compute", "pibronic/pimc/pimc.py:block_compute_pm", "pibronic/pimc/pimc.py:block_compute_gR"]}
{"id": "C23", "title": "Rescaling the O matrices does not change the estimators", "statement": "The ratios g/rho, g+/rho and g-/rho stored by block_compute_pm equal those that would be obtained without the overflow-protecting division by the per-bead maximum, for any positive scaling factors; and the chosen factors are positive and bound every scaled entry by 1.", "quantifier": "for every set of coordinates, models, bead counts and block sizes (real arithmetic)", "why_tests_cant": "continuum", "anchors": ["pibronic/pimc/pimc.py:build_scaling_factors", "pibronic/pimc/pimc.py:scale_o_matrices", "pibronic/pimc/pimc.py:block_compute_pm", "pibronic/pimc/pimc.py:build_denominator", "pibronic/pimc/pimc.py:build_numerator"]}
{"id": "C24", "title": "Folding the linear terms completes the square", "statement": "For each surface, energy + 1/2 sum w q^2 + sum lin q = (energy + delta) + 1/2 sum w (q - d)^2 with the delta and displacement the precompute step stores, after which the diagonal linear and energy terms of the working copy are zero and the off-diagonal ones unchanged.", "quantifier": "for all positive frequencies, linear couplings, energies and coordinates (real arithmetic)", "why_tests_cant": "continuum", "anchors": ["pibronic/pimc/pimc.py:ModelVibronic.compute_linear_displacement", "pibronic/pimc/pimc.py:ModelVibronic.finish_folding_in_terms", "pibronic/pimc/pimc.py:ModelSampling.compute_linear_displacement", "pibronic/pimc/pimc.py:ModelSampling.finish_folding_in_terms"]}
{"id": "C25", "title": "Surface weights form a probability distribution", "statement": "The sampling weights are positive and sum to one, are in Boltzmann ratio exp(-beta(E_a - E_b)), and do not depend on a common energy shift.", "quantifier": "for all models with at least one surface, positive temperature and frequencies", "why_tests_cant": "continuum", "anchors": ["pibronic/pimc/pimc.py:ModelSampling.compute_weight_for_each_state"]}
{"id": "C26", "title": "Sampling widths are always defined", "statement": "For every bead count P >= 3, positive tau and positive frequencies, each inverse covariance 2*coth - csch*lambda is positive for every eigenvalue lambda of the circulant matrix of the ring (all of which lie in [-2,2]), so the square root never sees a non-positive number; fewer than 3 beads is rejected.", "quantifier": "for every P, tau, omega and eigenvector", "why_tests_cant": "unbounded P, continuum of tau", "anchors": ["pibronic/pimc/pimc.py:ModelSampling.compute_sampling_constants", "pibronic/pimc/pimc.py:BoxData.preprocess"]}
{"id": "C27", "title": "Building the O matrix restores the coordinates", "statement": "build_o_matrix leaves the sampled coordinates as they were for any sequence of models, so that all of rho, vib, plus and minus are evaluated at the same point.", "quantifier": "for every sequence of builds and all coordinates (real arithmetic)", "why_tests_cant": "sequence of in-place mutations", "anchors": ["pibronic/pimc/pimc.py:build_o_matrix", "pibronic/pimc/pimc.py:block_compute_pm"]}
{"id": "C28", "title": "Sampling with the exact distribution gives ratio one", "statement": "If the model has no coupling between surfaces and the sampling model is its diagonal, g(R)/rho(R) = 1 for every sample, hence Z_MC = 1 with zero error.", "quantifier": "for every uncoupled model, bead count, coordinates", "why_tests_cant": "continuum", "anchors": ["pibronic/pimc/pimc.py:block_compute", "pibronic/pimc/pimc.py:build_o_matrix", "pibronic/pimc/pimc.py:diagonalize_coupling_matrix", "pibronic/pimc/pimc.py:build_numerator", "pibronic/pimc/pimc.py:build_denominator"]}
{"id": "C29", "title": "The estimates do not depend on where the bead ring is cut", "statement": "Cyclically renumbering the beads of the sampled path changes neither rho(R) nor g(R).", "quantifier": "for every path, model and rotation", "why_tests_cant": "continuum and all P", "anchors": ["pibronic/pimc/pimc.py:build_o_matrix", "pibronic/pimc/pimc.py:build_denominator", "pibronic/pimc/pimc.py:build_numerator"]}
{"id": "C30", "title": "Which temperature g+ and g- belong to", "statement": "The plus/minus numerators should equal the numerator that a run at beta +/- delta_beta would compute for the same coordinates. They do not (finding): the propagators use the shifted tau but the coupling factor exp(-tau V) keeps the unshifted one. They agree when the coupling vanishes at the sampled points; for a single surface they differ by the factor exp(-(db/P) sum_p V(x_p)), so they agree exactly when that sum is zero.", "quantifier": "for every model, path and delta_beta (real arithmetic)", "why_tests_cant": "the error is of second order in the coupling and hidden in Monte Carlo noise", "anchors": ["pibronic/pimc/pimc.py:block_compute_pm", "pibronic/pimc/pimc.py:build_numerator", "pibronic/pimc/pimc.py:ModelVibronicPM"]}
{"id": "C31", "title": "Statistics do not depend on the order of samples", "statement": "Z, E, Cv and their errors (basic, alpha and jackknife) are unchanged by any permutation of the samples, hence by the order in which the result files are visited.", "quantifier": "for every sample array and permutation (real arithmetic)", "why_tests_cant": "factorially many orders", "anchors": ["pibronic/stats/stats.py:calculate_basic_property_terms", "pibronic/stats/stats.py:estimate_basic_properties", "pibronic/stats/stats.py:calculate_alpha_terms", "pibronic/stats/jackknife.py:calculate_jackknife_term", "pibronic/stats/jackknife.py:estimate_jackknife"]}
{"id": "C32", "title": "Statistics only depend on the ratios g/rho", "statement": "Multiplying rho, g, g+ and g- of each sample by a common non-zero factor, which may differ between samples, changes none of the estimates.", "quantifier": "for all samples and factors", "why_tests_cant": "continuum", "anchors": ["pibronic/stats/stats.py:calculate_basic_property_terms", "pibronic/stats/stats.py:calculate_alpha_terms"]}
{"id": "C33", "title": "Finite-difference estimators are exact on quadratics and agree with the log-derivative definitions", "statement": "If the sampled quantities are g = G(beta) for a polynomial G of degree at most 2 (per sample), the first and second symmetric derivative terms equal G'/rho and G''/rho exactly; consequently E = -G'/G and Cv*k*T^2 = G''/G - (G'/G)^2.", "quantifier": "for all polynomials, beta, delta_beta <> 0", "why_tests_cant": "continuum", "anchors": ["pibronic/stats/stats.py:calculate_basic_property_terms", "pibronic/stats/stats.py:basic_estimate_internal_energy", "pibronic/stats/stats.py:basic_estimate_heat_capacity"]}
{"id": "C34", "title": "Alpha analysis with alpha = 1 is the basic analysis", "statement": "With alpha_plus = alpha_minus = 1, alpha_statistical_analysis returns the same Z, E, Cv and errors as basic_statistical_analysis, and the jackknife alpha terms equal the basic jackknife terms.", "quantifier": "for all samples", "why_tests_cant": "continuum", "anchors": ["pibronic/stats/stats.py:calculate_alpha_terms", "pibronic/stats/stats.py:alpha_statistical_analysis", "pibronic/stats/stats.py:basic_statistical_analysis", "pibronic/stats/jackknife.py:calculate_alpha_jackknife_terms"]}
{"id": "C35", "title": "Leave-one-out terms are the means without one sample", "statement": "calculate_jackknife_term returns, for each index, the mean of the other X-1 samples; its mean equals the sample mean; the jackknife estimates are the usual combination of the plain estimates with each sample left out; for a statistic that is linear in the data the jackknife estimate equals the plain estimate, but its error is the standard error of the mean times sqrt(X/(X-1)) (ddof=1 combined with sqrt(X-1): finding); for identical samples the error is zero.", "quantifier": "for every X >= 2 and all samples", "why_tests_cant": "all X, continuum", "anchors": ["pibronic/stats/jackknife.py:calculate_jackknife_term", "pibronic/stats/jackknife.py:estimate_jackknife"]}
{"id": "C36", "title": "Temperature and inverse temperature convert back and forth", "statement": "beta and extract_T_from_beta are mutually inverse on positive numbers and strictly decreasing.", "quantifier": "for all positive reals", "why_tests_cant": "continuum", "anchors": ["pibronic/constants.py:beta", "pibronic/constants.py:extract_T_from_beta"]}
{"id": "C37", "title": "Splitting into jobs draws the requested number of samples", "statement": "The jobs submitted for one (T, P) together never draw more than the requested number of samples; they draw exactly it when it is a multiple of the per-job maximum or below it, and the block size divides the per-job count; otherwise fewer samples are drawn (finding, exact shortfall given). Invalid block sizes are rejected.", "quantifier": "for all sample counts and block sizes", "why_tests_cant": "unbounded integers with floor divisions", "anchors": ["pibronic/server/job_boss.py:PimcSubmissionClass.setup_blocks_and_jobs"]}
{"id": "C38", "title": "One submission per temperature, bead count and job", "statement": "submit_jobs submits exactly n_jobs jobs for each pair of the temperature and bead lists, in list order, each command carrying that pair, and the shared parameter dictionary is not modified by the loop.", "quantifier": "for all lists", "why_tests_cant": "all lists", "anchors": ["pibronic/server/job_boss.py:PimcSubmissionClass.submit_jobs"]}
{"id": "C39", "title": "Submission objects do not influence each other", "statement": "Parameters given to one PimcSubmissionClass object do not change another one. (False: the class-level dictionary is shared and updated in place; later objects inherit and earlier objects see the changes: finding. The effective parameters of any history are characterised.)", "quantifier": "for every history of constructions and setups", "why_tests_cant": "histories", "anchors": ["pibronic/server/job_boss.py:SubmissionClass.__init__", "pibronic/server/job_boss.py:PimcSubmissionClass.setup_blocks_and_jobs"]}
{"id": "C40", "title": "Job ids are extracted from the scheduler's answer", "statement": "For every job number n, the answer 'Submitted batch job n' (with newline) yields n; a short answer yields None; an answer of at least 21 characters whose tail is not a number raises.", "quantifier": "for every natural number and every string", "why_tests_cant": "unbounded", "anchors": ["pibronic/server/job_boss.py:extract_id_job_from_output", "pibronic/server/job_boss.py:submit_job"]}
{"id": "C41", "title": "Failed cluster jobs are reported", "statement": "check_slurm_output raises when the output file reports a segmentation fault or a kill. (False: it never raises for any file contents, finding.)", "quantifier": "for every file contents", "why_tests_cant": "all file contents", "anchors": ["pibronic/server/job_boss.py:check_slurm_output"]}
{"id": "C42", "title": "Execution parameters survive the environment variable", "statement": "For every parameter dictionary whose strings do not contain ';', the text produced by json_serialize contains no comma except those inside its strings, and load_json_string decodes it to the same parameters and fills the object's fields from them; strings containing ';' are corrupted (finding); strings containing ',' still put commas in the exported variable (finding).", "quantifier": "for all JSON values", "why_tests_cant": "all nested values and strings", "anchors": ["pibronic/pimc/pimc.py:BoxData.json_serialize", "pibronic/pimc/pimc.py:BoxData.load_json_string", "pibronic/server/job_boss.py:serialize_BoxData_dictionary"]}
{"id": "C43", "title": "A BoxData object can encode itself", "statement": "encode_self() without arguments produces a string that load_json_string accepts. (False: it always fails because enum members are used as keys, finding.)", "quantifier": "for every object", "why_tests_cant": "always fails; only visible when called", "anchors": ["pibronic/pimc/pimc.py:BoxData.encode_self"]}
{"id": "C44", "title": "Resuming an electronic-structure calculation continues where it stopped", "statement": "After a crash at any point, re-creating the execution object never skips a stage that has not been completed. The stage it continues with is OPT for an empty file, else NIP (the stage after the first recorded line) unless the file says FINISHED, which cannot be opened again (ValueError). That it continues after the last recorded stage is false (refuted, finding). For arbitrary texts of the state file the outcome is characterised exactly.", "quantifier": "for every crash point and history of recorded states", "why_tests_cant": "crash points", "anchors": ["pibronic/vibronic/electronic_structure.py:VibronExecutionClass._set_state_from_file", "pibronic/vibronic/electronic_structure.py:VibronExecutionClass.record_state", "pibronic/vibronic/electronic_structure.py:VibronExecutionClass.advance"]}
{"id": "C45", "title": "A calculation runs its stages in order and stops", "statement": "A run performs the stages from its starting stage on in the fixed order, each at most once (the search for the number of states may calculate several times), never goes back, and records a stage only after it completed. It ends in the finished state with all stages recorded (FINISHED twice), or raises in a stage that is not recorded while all before it are. A failure while reading the input does nothing. Without a number the command line starts in state 0, which does not exist.", "quantifier": "for every outcome of the external programs", "why_tests_cant": "all outcome sequences", "anchors": ["pibronic/vibronic/electronic_structure.py:VibronExecutionClass.advance", "pibronic/vibronic/electronic_structure.py:VibronExecutionClass.calculate_vibronic_model", "pibronic/vibronic/electronic_structure.py:State"]}
{"id": "C46", "title": "Line navigation in output files", "statement": "skip_forward_lines and skip_back_lines move by exactly min(n, available) newlines and always return either the start position or the position of a newline; find/rfind return the first/last occurrence or raise.", "quantifier": "for every file contents, position and n", "why_tests_cant": "all file contents", "anchors": ["pibronic/helper.py:skip_back_lines", "pibronic/helper.py:skip_forward_lines", "pibronic/helper.py:find_string_in_file", "pibronic/helper.py:rfind_string_in_file", "pibronic/vibronic/electronic_structure.py:skip_back_lines"]}
{"id": "C47", "title": "Cached analytic results always belong to the current model", "statement": "After any history of analytic/sos/trotter runs interleaved with changes of the model files, a result file contains only entries computed for the model whose hash it carries, entries of other temperatures for the same model are kept, and a failed computation leaves the file unchanged. (Holds for results computed from the hashed file; for the original-model analytic results the cached entries can belong to a different original model: finding.)", "quantifier": "for every history of runs and model changes", "why_tests_cant": "histories", "anchors": ["pibronic/julia_wrapper.py:base_func", "pibronic/julia_wrapper.py:validate_old_rho_data", "pibronic/julia_wrapper.py:validate_old_model_data", "pibronic/julia_wrapper.py:convert_keys", "pibronic/julia_wrapper.py:analytic_of_original_coupled_model"]}
{"id": "C48", "title": "Analytic results written by the Julia wrapper can be used by the statistics", "statement": "A file written by analytic_of_sampling_model contains the entries load_analytic_data needs. (False for every possible output of the external program: the key names differ, finding.)", "quantifier": "for every output of the external program", "why_tests_cant": "all outputs", "anchors": ["pibronic/julia_wrapper.py:keyDict", "pibronic/julia_wrapper.py:convert_keys", "pibronic/data/postprocessing.py:load_analytic_data"]}
{"id": "C49", "title": "Tabulated scaling parameter lookup picks the nearest tabulated value from below", "statement": "select_pair returns the tabulated pair just before the first one exceeding the desired value; for increasing tables and desired values inside the range this brackets the desired value; a desired value below the first entry wraps to the last entry (finding).", "quantifier": "for every table and desired value", "why_tests_cant": "all tables", "anchors": ["pibronic/vibronic/orthonormal/sequences.py:select_pair"]}
{"id": "C50", "title": "The orthonormal-matrix generator starts from a skew-symmetric matrix and is trivial at zero", "statement": "The generator matrix is skew-symmetric with zero diagonal for any order, so its exponential is orthogonal; tuning parameter 0 gives the identity; parameters outside [0,1] are rejected.", "quantifier": "for every order and seed", "why_tests_cant": "all orders", "anchors": ["pibronic/vibronic/orthonormal/sequences.py:build_SKSM_and_identity", "pibronic/vibronic/orthonormal/create.py:create_orthonormal_matrix_lambda_close_to_identity"]}
{"id": "C51", "title": "Importing a .op file gives the model described in it", "statement": "Every number in a well-formed .op file is read into its place (the last one counts), whatever the comments, spacing and numbers. Linear couplings become the symmetric completion with unchanged diagonal if every pair of surfaces is listed once; a pair listed in both orders, as in jahnteller_2.op, is doubled. Higher orders are right exactly if only the last surface has entries: entries within any other surface are doubled and entries between two surfaces make an assertion fail (finding: wrong loop variable). Without frequencies or zero point energy the import raises; missing higher orders are zero.", "quantifier": "for every file text of the format, every number of modes and surfaces", "why_tests_cant": "all texts and dimensions", "anchors": ["pibronic/vibronic/model_op.py:read_model_op_file", "pibronic/vibronic/model_op.py:extract_energies", "pibronic/vibronic/model_op.py:extract_linear_couplings"]}
{"id": "C52", "title": "An extra entry in a model dictionary cannot make a saved file unusable or destroy an old one", "statement": "A dictionary with an additional text key that passes the shape verification is either saved as a loadable file or rejected with the previous file intact. (False: the extra key is written and every later load raises ValueError; a value json cannot write leaves a truncated file. Both are proved for every such dictionary.)", "quantifier": "for every dictionary with an extra text key, every previous file content", "why_tests_cant": "needs all dictionaries and all previous file contents", "anchors": ["pibronic/vibronic/vibronic_model_io.py:_save_to_JSON", "pibronic/vibronic/vibronic_model_io.py:save_model_to_JSON", "pibronic/vibronic/vibronic_model_keys.py:change_dictionary_keys_from_strings_to_enum_members"]}
{"id": "C53", "title": "An analysis reads exactly the result files of its bead count and temperature", "statement": "The files that load_pimc_data selects for (P, T) from a directory are exactly the result files written for that bead count and that temperature (to two decimals), for any other result, thermo, sos or trotter files present; no file of another bead count or temperature is ever read.", "quantifier": "for every set of files (any P, T, J) and every requested P, T", "why_tests_cant": "name matching over all numbers, including prefixes of each other such as P1/P12", "anchors": ["pibronic/data/postprocessing.py:load_pimc_data", "pibronic/data/file_name.py:pimc"]}
{"id": "C54", "title": "directories_exist tells whether the directories exist", "statement": "directories_exist() returns True exactly when the directories of the object exist. (False: it tests the attribute names as paths relative to the current directory, so after all directories were created it still answers False: finding.) A constructed object (no_makedir not set) has created every directory in dir_list.", "quantifier": "for every root, ids, previous directories and current directory", "why_tests_cant": "all file-system states", "anchors": ["pibronic/data/file_structure.py:directories_exist", "pibronic/data/file_structure.py:FileStructure.__init__", "pibronic/data/file_structure.py:make_directories"]}
{"id": "C55", "title": "After change_rho the directories of the new rho exist", "statement": "After any sequence of change_rho calls on an object that created its directories, the parameters, results, execution_output and plots directories of the current rho exist. With no_makedir=True this is false: changing to another rho and back leaves the directories of the first rho missing (finding).", "quantifier": "for every sequence of rho ids, root and previous directories", "why_tests_cant": "unbounded histories", "anchors": ["pibronic/data/file_structure.py:change_rho", "pibronic/data/file_structure.py:make_rho_directories"]}
{"id": "C56", "title": "The file a job writes is the one the analysis template names", "statement": "For a root without braces, template_pimc formatted with (P, T, J) equals the path compute_path_to_file returns for a job with the same parameters writing to path_rho_results, and the other templates give the documented names; a brace expression in the root makes every template raise (finding).", "quantifier": "for every root, ids, P, T, J", "why_tests_cant": "all paths and numbers", "anchors": ["pibronic/data/file_structure.py:FileStructure.__init__", "pibronic/pimc/pimc.py:compute_path_to_file", "pibronic/data/file_name.py:pimc"]}
{"id": "C57", "title": "The cluster's host name is found", "statement": "get_hostname returns the stripped text after '=' of the first line of the scheduler configuration containing ClusterName, and raises exactly when there is no such line.", "quantifier": "for every configuration text", "why_tests_cant": "all texts", "anchors": ["pibronic/server/job_boss.py:get_hostname"]}
{"id": "C58", "title": "Analysis of a (P, T) point reads exactly the files of that point", "statement": "load_pimc_data(P, T) pools the samples of all and only the result files in the results directory whose name carries the same P and the same temperature to two decimals, whatever else is there (P120 is not P12, T3000 is not T300), and fails if there is none.", "quantifier": "for every directory of result files and every P and T", "why_tests_cant": "prefix clashes between names depend on unbounded numbers", "anchors": ["pibronic/data/postprocessing.py:load_pimc_data", "pibronic/data/file_name.py:pimc"]}
{"id": "C59", "title": "The estimated energy and heat capacity are those of the model", "statement": "When the sample means are exact (mean g/rho and g+-/rho equal to ratios of partition functions), the alpha analysis tends to -Z'/Z and (ln Z)''/kT^2 of the model as delta_beta tends to 0. The basic analysis instead tends to these values plus the energy and heat capacity of the sampling model, because the harmonic contribution is added although the estimator already contains it (finding).", "quantifier": "for all twice differentiable partition functions, all sets of samples", "why_tests_cant": "continuum, limits", "anchors": ["pibronic/stats/stats.py:basic_statistical_analysis", "pibronic/stats/stats.py:alpha_statistical_analysis", "pibronic/stats/stats.py:add_harmonic_contribution"]}
{"id": "C60", "title": "The distribution sampled is rho(R)", "statement": "rho(R), the sum over surfaces of the ring of harmonic propagators, is a positive constant times the mixture of normal densities with exactly the surface weights, standard deviations and displacements that the sampling model stores, expressed in the collective coordinates of the ring; and a draw (surface, normal variates) is mapped to the path whose collective coordinates relative to that surface are those variates.", "quantifier": "for all sampling models with positive frequencies, beta > 0, P >= 3, all orthonormal eigenbases of the ring matrix, all paths (real arithmetic)", "why_tests_cant": "an identity between densities over a continuum; a histogram could only approximate it", "anchors": ["pibronic/pimc/pimc.py:ModelSampling.compute_sampling_constants", "pibronic/pimc/pimc.py:ModelSampling.compute_weight_for_each_state", "pibronic/pimc/pimc.py:BoxData.transform_sampled_coordinates", "pibronic/pimc/pimc.py:BoxData.draw_sample"]}
{"id": "C61", "title": "Sampling model with another number of surfaces", "statement": "With fewer surfaces than the vibronic model the first block raises IndexError. With more surfaces the run succeeds silently although the stored rho contains only the first A surfaces while the samples come from all of them: every non-zero stored ratio differs from g/rho(R) of the sampled distribution and is larger in size (finding).", "quantifier": "for all models, draws and bead counts", "why_tests_cant": "the failure is silent and the numbers plausible", "anchors": ["pibronic/pimc/pimc.py:build_o_matrix", "pibronic/pimc/pimc.py:build_denominator", "pibronic/pimc/pimc.py:block_compute_pm"]}
{"id": "C62", "title": "Training data are evaluated at the given coordinates", "statement": "block_compute_gR_from_raw_samples and block_compute_rhoR_from_input_samples should return g(x) and rho(x). They do so only without diagonal linear terms (finding): the state shift is subtracted from the input and again inside build_o_matrix, so for a common displacement d the value stored is g(x-d); for surfaces displaced differently the coupling matrix is not symmetric and the assertion fails; and with more sampling than vibronic surfaces rho does not depend on the input at all.", "quantifier": "for all models, inputs and bead counts (real arithmetic)", "why_tests_cant": "needs a model with displaced minima and an independent evaluation of g", "anchors": ["pibronic/pimc/pimc.py:block_compute_gR_from_raw_samples", "pibronic/pimc/pimc.py:block_compute_rhoR_from_input_samples"]}
{"id": "C63", "title": "The choice of eigenvectors does not matter", "statement": "The numerator computed from the eigenvalues and eigenvectors of the coupling matrices is the same for every orthonormal eigenbasis (ordering, signs, degenerate subspaces), because the matrix formed from them is the matrix exponential of -tau V.", "quantifier": "for all symmetric coupling matrices, all orthonormal eigenbases", "why_tests_cant": "LAPACK returns one basis; degenerate ones are never exercised", "anchors": ["pibronic/pimc/pimc.py:build_numerator", "pibronic/pimc/pimc.py:diagonalize_coupling_matrix"]}
{"id": "C64", "title": "Blocks do not influence each other", "statement": "The result of a block does not depend on which blocks were computed before (the O matrices and coordinates are reused and overwritten in place), so one run over a list of draws gives the concatenation of the runs over its parts.", "quantifier": "for every history of blocks", "why_tests_cant": "needs all interleavings of histories", "anchors": ["pibronic/pimc/pimc.py:block_compute_pm", "pibronic/pimc/pimc.py:build_o_matrix"]}
{"id": "C65", "title": "The distance from the identity is bounded by 2 sqrt(order)", "statement": "For every multiple x of the generator, the Frobenius norm of expm(x S) - 1 is sqrt(2 n - 2 trace) and at most 2 sqrt(n), the 'analytical maximum' that the choice of the range of the tables relies on.", "quantifier": "for every order and every real x (exact exponential)", "why_tests_cant": "a supremum over a continuum", "anchors": ["pibronic/vibronic/orthonormal/sequences.py:generate_full_monotonic_sequence", "pibronic/vibronic/orthonormal/sequences.py:difference_function"]}
{"id": "C66", "title": "Turning points select the record values of the scan", "statement": "The x intervals built from the list of turning points contain exactly those scanned points whose distance is at least as large as all earlier ones, so the distances restricted to them increase. The intervals can only be built if the scan ends below an earlier value; otherwise an IndexError is raised. The first turning point is the last point of the rising beginning of the scan.", "quantifier": "for every scan with increasing x and non-negative distances starting at zero", "why_tests_cant": "an invariant of a state machine over all sequences", "anchors": ["pibronic/vibronic/orthonormal/sequences.py:list_of_turning_points", "pibronic/vibronic/orthonormal/sequences.py:generate_and_save_x_pairs", "pibronic/vibronic/orthonormal/sequences.py:find_first_turn_around_point"]}
{"id": "C67", "title": "A table that is saved is consistent, a failure keeps the old table", "statement": "On success the saved table has at least 50 rows, each of the form (distance(x), x) with x on the fine grid and inside a saved interval, and the grid ends where the distance is at most a quarter of the maximum. On failure the old table is left unchanged, although the file of intervals may already be overwritten. That the table is increasing is not guaranteed (refuted): the fine grid sees points the scan did not.", "quantifier": "for every distance function, grid and earlier files", "why_tests_cant": "needs arbitrary distance functions and failures", "anchors": ["pibronic/vibronic/orthonormal/sequences.py:generate_full_monotonic_sequence", "pibronic/vibronic/orthonormal/sequences.py:save_sequence"]}
{"id": "C68", "title": "The parameter file sets exactly the parameters it lists", "statement": "A file of comments, blank lines and pairs (name, value) is accepted if all names are known; then exactly the listed parameters change and the last value of each counts. Every other file raises: ValueError for an unknown name (an indented comment is one), StopIteration for a name without value; what was read before stays in the dictionary. Only supported basis sets, theories and calculations are accepted. The dictionary belongs to the class, so a second object is accepted with the values of the first (finding).", "quantifier": "for every text and every earlier content of the dictionary", "why_tests_cant": "needs all texts and shared mutable state across objects", "anchors": ["pibronic/vibronic/electronic_structure.py:VibronExecutionClass.parse_input_parameters"]}
{"id": "C69", "title": "The search for the number of ionised states finds the largest acceptable one", "statement": "Starting from n > 0 the search tries n, n-1, ... and stops at the first (largest) accepted number; it takes at most n rounds, and raises if none is accepted. Started from zero or less, which the dialogue accepts, it can run forever (finding).", "quantifier": "for every outcome of the external programs and every start value", "why_tests_cant": "termination", "anchors": ["pibronic/vibronic/electronic_structure.py:verify_ip_states", "pibronic/vibronic/electronic_structure.py:VibronExecutionClass.ip_calc"]}
{"id": "C70", "title": "The electronic structure calculations of the code cannot complete", "statement": "Every calculation uses names that job_boss does not define, or a template that is None, or decodes a text: whatever the external programs do, no calculation completes, the state file never changes and only an already finished workflow returns normally (finding). Waiting for a job accepts it exactly if its accounting says COMPLETED and nowhere FAILED.", "quantifier": "for every outcome of the external programs and every start state", "why_tests_cant": "the absence of any successful run", "anchors": ["pibronic/vibronic/electronic_structure.py:hartree_fock_calculation", "pibronic/vibronic/electronic_structure.py:geometry_optimization", "pibronic/vibronic/electronic_structure.py:_create_template", "pibronic/vibronic/electronic_structure.py:submit_job", "pibronic/vibronic/electronic_structure.py:wait_on_results"]}
{"id": "C71", "title": "The printed results are read back exactly", "statement": "Every line of the form 'name: value' printed by the external program becomes one entry of the dictionary with exactly that name and value, the last line of a repeated name wins; any other line makes the reading fail.", "quantifier": "for every text printed by the external program", "why_tests_cant": "all texts", "anchors": ["pibronic/julia_wrapper.py:parse_ouput", "pibronic/julia_wrapper.py:convert_keys"]}
{"id": "C72", "title": "The external program is started with the right arguments", "statement": "The command line passes the model file of the right kind, beta and the sizes asked for, in the options of the script for that method.", "quantifier": "for all paths without braces, all sizes and temperatures", "why_tests_cant": "all paths and sizes", "anchors": ["pibronic/julia_wrapper.py:construct_command_dictionary", "pibronic/julia_wrapper.py:analytic_wrapper", "pibronic/julia_wrapper.py:sos_wrapper", "pibronic/julia_wrapper.py:trotter_wrapper", "pibronic/julia_wrapper.py:iterate_method"]}
{"id": "C73", "title": "Different results are kept in different files", "statement": "Two computations below the same root write the same file only if they are of the same kind with the same sizes for the same data set (and the same sampling model); no result file is a model file.", "quantifier": "for all data sets, sampling models, basis sizes and numbers of beads", "why_tests_cant": "all pairs of computations", "anchors": ["pibronic/julia_wrapper.py:analytic_of_sampling_model", "pibronic/julia_wrapper.py:analytic_of_original_coupled_model", "pibronic/julia_wrapper.py:sos_of_coupled_model", "pibronic/julia_wrapper.py:trotter_of_coupled_model"]}
{"id": "C74", "title": "The command line of the wrapper runs the method asked for", "statement": "A request that passes the tests of the command line runs the method named. Found: only 'sos' with a basis size can ever run; every other method named in main is refused by the tests, and every method accepted by the tests except 'sos' is unknown to main; a basis size of 0 is accepted, beta is refused together with the default temperature, and temperature 0 divides by zero.", "quantifier": "for every combination of arguments", "why_tests_cant": "all combinations of arguments", "anchors": ["pibronic/julia_wrapper.py:main"]}
{"id": "C75", "title": "The sum over states results used are those of the temperature asked for", "statement": "load_rho_sos_data stores Z, E, Cv and the two quotients taken from the place where the temperature list first holds the temperature asked for, out of the file of the basis size; without such a file or place it raises and stores nothing.", "quantifier": "for every file and temperature", "why_tests_cant": "all files", "anchors": ["pibronic/data/postprocessing.py:load_rho_sos_data"]}
{"id": "C76", "title": "A re-weighted sampling model touches the coupled model at its minima", "statement": "recalculate_energy_values_of_diagonal_model replaces only the energies of the sampling model: afterwards every surface, at its minimum, has exactly the lowest eigenvalue of the coupled model's potential matrix there; a second run writes back what it has read. Quadratic terms above 1e-8, missing frequencies and different numbers of modes are rejected with the file unchanged - except that a number of modes of one is silently broadcast - and if all new energies are zero the file can no longer be loaded.", "quantifier": "for every pair of valid models with real parameters and every eigenvalue routine that returns the eigenvalues", "why_tests_cant": "the statement is about exact minima and eigenvalues of arbitrary models", "anchors": ["pibronic/vibronic/vibronic_model_io.py:simple_single_point_energy_calculation", "pibronic/vibronic/vibronic_model_io.py:recalculate_energy_values_of_diagonal_model"]}
{"id": "C77", "title": "The sampling program works on the numbers of the two model files", "statement": "After BoxData.from_FileStructure and initialize_models the vibronic and the sampling model hold exactly the numbers stated in the two files (zeros where a parameter is missing), the dimensions are those of the vibronic file, and every sample evaluated afterwards has the density and the trace of the models in the files; the quadratic terms of the sampling file have no influence. A sampling file with another number of modes is rejected. A vibronic file with another number of modes is rejected, except that a one-mode file is silently stretched over all modes. Loading into an object without arrays works only if the file states linear and quadratic terms (KeyError otherwise, in spite of the code's defaults).", "quantifier": "for every pair of valid model files, every number of beads >= 3, every positive temperature and every list of draws", "why_tests_cant": "tests compare a few values of two fixed model files; the statement links file contents to the sampled integrand for all models", "anchors": ["pibronic/pimc/pimc.py:ModelClass.load_model", "pibronic/pimc/pimc.py:ModelSampling.load_model", "pibronic/pimc/pimc.py:BoxData.from_FileStructure", "pibronic/vibronic/vibronic_model_io.py:extract_dimensions_of_model"]}
{"id": "C78", "title": "An imported operator file is saved as a model with the same numbers", "statement": "create_coupling_from_op_file writes the model file and nothing else; loading that file gives the numbers of modes and surfaces, frequencies, energies and couplings listed in the operator file (couplings of higher order with the factors of C51). A file that cannot be read, whose couplings are not symmetric after completion, or that has no modes or no surfaces leaves every file unchanged.", "quantifier": "for every operator file, every set of files and every target path", "why_tests_cant": "a round trip text - arrays - JSON - arrays over arbitrary files; the tests import two examples and compare nothing after loading", "anchors": ["pibronic/vibronic/vibronic_model_io.py:create_coupling_from_op_file"]}
{"id": "C79", "title": "The analysis driver writes one correct file for every simulated pair", "statement": "statistical_analysis_of_pimc and jackknife_analysis_of_pimc find exactly the files P*_T*_J*_data_points.npz, combine every bead count with every temperature that occurs (each once) and, if they succeed, leave for each pair a thermo file with the analysis of that pair and the hashes of both models; no other file changes and the order of the processes does not matter. If they fail, every file that changed is still a correct analysis. A grid with a missing pair can never be analysed (finding); an unknown method or location writes nothing.", "quantifier": "for every set of result files, every analysis operation, every order in which the worker processes finish or fail", "why_tests_cant": "the schedules of the worker pool cannot be enumerated by tests, and the tests run no analysis with several beads and temperatures", "anchors": ["pibronic/stats/stats.py:starmap_wrapper", "pibronic/stats/stats.py:statistical_analysis_of_pimc", "pibronic/stats/stats.py:jackknife_analysis_of_pimc", "pibronic/data/postprocessing.py:retrive_pimc_file_list"]}
{"id": "C80", "title": "Waiting for a submitted job neither loses its signal nor reports it done too early", "statement": "synchronize_with_job returns only after Slurm has answered COMPLETED and raises only after Slurm has reported an error; the lock is held exactly in the critical section. A SIGUSR1 that arrives at any moment except during the start of sigwait is not lost: the program can always go on. Findings: a signal during the start of sigwait is lost and the program sleeps on; a signal between taking the lock and leaving the critical section can end the program by an unhandled SIGALRM; the flag is never cleared, so after the first signal no later job is waited for; a failed job is polled for ever.", "quantifier": "for every interleaving of the program, the signal handler, the alarm and any number of signals, and all answers of Slurm", "why_tests_cant": "the faults depend on the instant at which a signal arrives; a test cannot place a signal between two instructions of the interpreter", "anchors": ["pibronic/server/job_boss.py:SIGUSR1_handle", "pibronic/server/job_boss.py:synchronize_with_job", "pibronic/vibronic/electronic_structure.py:wait_on_results"]}
{"id": "C81", "title": "The coupling file of VIBRON is read as it stands, or refused", "statement": "read_model_auto_file returns the frequencies, energies, linear and quadratic couplings that a complete cp.auto file holds, the quadratic couplings completed symmetrically in the modes, whatever blank or dashed lines, trailing blanks and following lines the file has; couplings that are not symmetric in the surfaces give AssertionError; every proper beginning of a file is refused (StopIteration); a frequency that is no number gives the error of float(). Finding: the energies are read twice from two consecutive blocks and only the second one is kept, so a file with one block is misread: the next title is taken for a row of energies.", "quantifier": "for every text, all numbers, every placing of blank and dashed lines, every truncation and every behaviour of the Fortran record readers", "why_tests_cant": "tests read one sample file, if any; the numbers, the truncation point and the placing of the separators are unbounded", "anchors": ["pibronic/vibronic/model_auto.py:read_model_auto_file", "pibronic/vibronic/model_auto.py:fill_in_offdiagonal_quadratic_couplings", "pibronic/vibronic/model_auto.py:confirm_symmetry_in_surfaces"]}
{"id": "C82", "title": "A calculation counts as complete exactly if its last message is near the end of the output", "statement": "verify_aces2_completed and parse_vibron_output accept an output file exactly if the final message occurs after the first line and at most nine line ends follow it (not counting one at the very end); otherwise they raise; no file without the message is accepted, an empty file raises ValueError, a missing one FileNotFoundError. Finding: a message on the first line is never seen, however short the file is.", "quantifier": "for every content of the output file and every outcome of the check of the Slurm output", "why_tests_cant": "the position of the message in the file is unbounded; tests would try a few files", "anchors": ["pibronic/vibronic/electronic_structure.py:verify_aces2_completed", "pibronic/vibronic/electronic_structure.py:parse_vibron_output", "pibronic/vibronic/electronic_structure.py:skip_back_n_lines"]}
{"id": "C83", "title": "The removal of the blocks before the effective Hamiltonian cuts exactly at the line of its first occurrence", "statement": "_remove_extra_heff leaves of a file exactly what starts with the line of the first occurrence of the target, byte for byte; without the target it raises and leaves the file as it is; doing it twice changes nothing more.", "quantifier": "for every content and every target", "why_tests_cant": "the move and the truncation inside the memory map work with computed offsets; an error by one byte shows only for some files", "anchors": ["pibronic/vibronic/electronic_structure.py:_remove_extra_heff", "pibronic/vibronic/electronic_structure.py:find_string_in_file"]}
{"id": "C84", "title": "The number of states is written into the input of VIBRON, and the outputs of the previous step are not touched", "statement": "_add_nip_to_file writes nip right-aligned in six columns with thousands separators over the first xxx and succeeds exactly for -9999 <= nip <= 99999 with at least three characters behind xxx; parse_prepVibron_output produces PNTHEFF, cp.auto and the VIBRON input from the outputs of the previous step and changes no other file, whatever happens. Findings: the three characters behind xxx are overwritten as well; a larger nip raises only after the file has been changed; without the target PNTHEFF stays an unfiltered copy.", "quantifier": "for every nip, every content of the files and every file system", "why_tests_cant": "an overwritten character behind the mark goes unnoticed in a test that only looks for the number", "anchors": ["pibronic/vibronic/electronic_structure.py:_add_nip_to_file", "pibronic/vibronic/electronic_structure.py:parse_prepVibron_output", "pibronic/vibronic/electronic_structure.py:_copy_output_file"]}
{"id": "C85", "title": "A geometry file is kept as it is, and only the given coordinates are replaced", "statement": "ZmatClass splits a file with internal coordinates into the relations and the name=value lines, keeps every name with its last value in the order of the file, and writes a text that reads back as the same geometry; without opt_zmat the stars are removed from the relations and from nothing else; set replaces the values of the given names and of no others. For cartesian coordinates the last lines are replaced by the new atoms, the lines before stay; more atoms than lines raise. A line that does not hold exactly one = gives ValueError. Finding: whether a file is internal is decided by the occurrence of = anywhere, so a cartesian file with = in its title is refused (IndexError).", "quantifier": "for every text, all names and values, every padding and whatever follows the coordinates", "why_tests_cant": "the splitting depends on the place of blank lines and on characters in the title; tests use one molecule", "anchors": ["pibronic/vibronic/electronic_structure.py:ZmatClass"]}
{"id": "C86", "title": "The optimised geometry is taken from the lines up to the next empty line, and reading a truncated output never ends", "statement": "parse_opt_output replaces the coordinates by those of the lines that start two lines after the first occurrence of the heading and end before the next empty line, both for internal and for cartesian coordinates; a missing heading, an empty file or a missing file raise. Finding: if no empty line follows, the loop never ends, because readline returns an empty text at the end of the file for ever and the second mark it looks for is compared without its newline; only a file whose last line is that mark without a newline is read to the end.", "quantifier": "for every output file, every geometry and every number of turns of the loop", "why_tests_cant": "a test of a loop that does not end does not end; the truncation point is unbounded", "anchors": ["pibronic/vibronic/electronic_structure.py:parse_opt_output", "pibronic/vibronic/electronic_structure.py:find_string_in_file"]}
{"id": "C87", "title": "The number of dropped orbitals is guessed from the first of the widest gaps, and the user decides", "statement": "_estimate_dropmo reads the table after the heading and its four header lines up to the mark; the proposed number is one more than the place of the first of the widest gaps (quotients of neighbouring energies) in the table, no number is proposed with fewer than two energies and one is proposed if the first quotient is not a number; the value returned is the one the user agrees to, after any number of declined or mistyped values, and the keyword is empty, DROPMO=1 or DROPMO=1-k. Findings: one malformed row makes the call fail with an UnboundLocalError before anything is asked; if the mark occurs in front of the table the rest of the file is taken as the table.", "quantifier": "for every output file, all energies and every dialog", "why_tests_cant": "the dialog may have any length and the table any size; tests cannot type", "anchors": ["pibronic/vibronic/electronic_structure.py:_estimate_dropmo", "pibronic/vibronic/electronic_structure.py:get_integer_from_user", "pibronic/vibronic/electronic_structure.py:get_yes_no_from_user"]}
{"id": "C88", "title": "The number of states is guessed from the last digit of the dropped orbitals and ignores the gap after them", "statement": "_estimate_NIP proposes the number of energies after the first gap that is as wide as the widest one from k+1 on, where k is the last digit of the DROPMO keyword; no number is proposed if fewer than k+3 energies exist or the gap at k+1 is not a number or a row is malformed, and then the user is asked. Findings: with ten or more dropped orbitals k is wrong; the gap right after the dropped orbitals is not considered; a gap among the dropped orbitals may be taken, so that more states are proposed than orbitals remain; a keyword that does not end with a digit raises ValueError.", "quantifier": "for every output file, all energies, every keyword and every dialog", "why_tests_cant": "the wrong count needs ten dropped orbitals or equal quotients, no test has them", "anchors": ["pibronic/vibronic/electronic_structure.py:_guess_NIP_value", "pibronic/vibronic/electronic_structure.py:_estimate_NIP", "pibronic/vibronic/electronic_structure.py:_extract_lines_for_estimating_NIP"]}
{"id": "C89", "title": "The check of the singles never looks at a state and never refuses", "statement": "parse_ip_output, which should answer whether the contributions of the singles of all states are above the cutoff, finds the heading and then reads the newline at which skip_forward_n_lines stops, so that its loop ends at once: for every output file with the heading and a line after it the answer is True without any state being read; if the heading is on the last line, and that line has no dashes, the loop does not end; without the file, with an empty file or without the heading it raises OSError, ValueError or the exception of the search. It never answers False, therefore verify_ip_states never lowers the number of states. The test on given lines would be right: with the lines of the table as input the answer is True exactly when all numbers in column 5 reach the cutoff.", "quantifier": "for every output file, every cutoff and every conversion of words into numbers", "why_tests_cant": "a file with a low contribution has to be fed to the whole loop; the unit tests never call it", "anchors": ["pibronic/vibronic/electronic_structure.py:parse_ip_output", "pibronic/vibronic/electronic_structure.py:verify_ip_states", "pibronic/vibronic/electronic_structure.py:skip_forward_n_lines"]}
{"id": "C90", "title": "The input files contain the geometry, the basis and the theory, and nothing else that was chosen", "statement": "For a geometry without braces and parameters of the right types, hartree_fock_calculation, geometry_optimization, vibrational_frequency and ip_calculation write exactly one file, with the name made from the name of the model (and the number of states), whose text is the geometry followed by the block of keywords, given in full. A parameter that is missing, None or of the wrong type raises KeyError, TypeError or ValueError and nothing is written. The files depend only on basis, theory and nip: the dropped orbitals chosen before have no influence. prepVibron_calculation always raises AttributeError and writes nothing. Findings: braces in the geometry are taken as fields of the template; .in is removed everywhere in the name, so the name of the job may not be that of the output file (it is for names without a dot).", "quantifier": "for all names, geometries, dictionaries of parameters and files already there", "why_tests_cant": "equality of the whole text and independence from all other parameters cannot be tested; no test has braces or dots", "anchors": ["pibronic/vibronic/electronic_structure.py:hartree_fock_calculation", "pibronic/vibronic/electronic_structure.py:geometry_optimization", "pibronic/vibronic/electronic_structure.py:vibrational_frequency", "pibronic/vibronic/electronic_structure.py:ip_calculation", "pibronic/vibronic/electronic_structure.py:_create_template", "pibronic/vibronic/electronic_structure.py:prepVibron_calculation"]}
{"id": "C91", "title": "The arrays behind the plots hold the values of the result files at the right places", "statement": "The plotting classes collect the files P*_T*_X*_thermo, take the sorted lists of beads, temperatures and sample sizes from their names as the axes of an array, and put the values of every file at the position of its parameters. Every element with a file holds exactly the values of that file (null becomes nan, keys of hashes are left out, fields without a value stay nan), every other element is nan, and different files have different places. With restricted beads the other files are not opened. A missing file, an unknown key or a value that is no number stops the loading. Preparing the plots turns Z into 100 (Z Z_rho - Z_ref) / Z_ref and its error into 100 error Z_rho / Z_ref for the references of its own temperature (and system), and changes nothing else.", "quantifier": "all directories, sets of result files and contents, restricted lists of beads, reference values, number types and operations", "why_tests_cant": "The axes come from file names, so mixed-up indices show only for particular sets of files, and a plot has no expected value to compare with.", "anchors": ["pibronic/plotting/plotting.py:plot_original_Z_test", "pibronic/plotting/plotting.py:plot_Z_multiple_FS", "pibronic/plotting/plotting.py:plot_original_Z_vs_diagonal_test", "pibronic/plotting/plotting.py:plot_Z_test", "pibronic/data/postprocessing.py:retrive_jackknife_file_list"]}
{"id": "C92", "title": "The reference values of the plots", "statement": "The analytical values are the entries of the file for the temperatures of the results; a missing temperature or file is an error. The values of the sum over states are those of the last system so far that has a file: a system without a file silently gets the values of an earlier one, and only if the first has none there is an error. The Trotter values form one column per key with an element per number of beads; nan stands for each value that is missing, cannot be read or has no file. The plots against the sum over states and of a rectangle can never be prepared for results with a temperature: they read an attribute that does not exist.", "quantifier": "all file systems, lists of systems, temperatures and numbers of beads", "why_tests_cant": "The leftover variable matters only for several systems with some files missing; the broken classes are not tested.", "anchors": ["pibronic/plotting/plotting.py:load_sos", "pibronic/plotting/plotting.py:load_trotter_coupled", "pibronic/plotting/plotting.py:load_analytical_sampling", "pibronic/plotting/plotting.py:load_analytical_original", "pibronic/plotting/plotting.py:plot_sos_Z_vs_rho_n", "pibronic/plotting/plotting.py:plot_rectangle"]}
{"id": "C93", "title": "The parameter values of a directory of results", "statement": "The lists of files of each kind are exactly the names of the pattern in the right directory; the lists for the sums over states ignore the basis size given. The numbers of beads, temperatures, samples and basis sizes found in the files appear once each in increasing order, and the basis sizes are those present in both directories. extract_pimc_parameters accepts the names of analysed results only and fails on the names of simulation results; no name of a Trotter file can be read.", "quantifier": "all listings, directories without the marks of the names, numbers of beads, temperatures, samples and basis sizes", "why_tests_cant": "The functions read numbers out of paths; the directory part and the kinds of names make the difference, and tests use one directory.", "anchors": ["pibronic/data/postprocessing.py:retrive_all_file_paths", "pibronic/data/postprocessing.py:retrive_sos_coupled_file_list", "pibronic/data/postprocessing.py:extract_parameter_lists", "pibronic/data/postprocessing.py:extract_pimc_parameters", "pibronic/data/postprocessing.py:extract_jackknife_parameters", "pibronic/data/postprocessing.py:extract_trotter_paramater_list"]}
{"id": "C94", "title": "The reader of model.h files", "statement": "The numbers of states and modes are the first words of the lines naming them, any other line is an error; the frequencies are the words of two lines in order, a wrong number of them is an error except a single one, which fills the whole range. The reader as a whole never returns a model: with both files present it fails with a TypeError, otherwise with an OSError, so nothing is written; the functions for the energies and couplings fail on every file that has what they look for, because the number of states is not defined there.", "quantifier": "all files, paths, numbers of modes and frequencies", "why_tests_cant": "The reader is not tested; that no input at all works is a statement about all inputs.", "anchors": ["pibronic/vibronic/model_h.py:get_number_of_electronic_states", "pibronic/vibronic/model_h.py:get_number_of_normal_modes", "pibronic/vibronic/model_h.py:extract_normal_mode_frequencies", "pibronic/vibronic/model_h.py:extract_energies", "pibronic/vibronic/model_h.py:extract_linear_couplings", "pibronic/vibronic/model_h.py:extract_offdiag_quadratic_couplings", "pibronic/vibronic/model_h.py:read_model_h_file", "pibronic/vibronic/vibronic_model_io.py:create_coupling_from_h_file"]}
{"id": "C95", "title": "The submission of the calculations of the paper", "statement": "For every basis size and temperature (and bead number) in order the script starts exactly the calculations whose results are missing: there is no result file, it belongs to another model, or it lacks this temperature; a file that cannot be read stops the script. The command names the calculation, the memory and a program that builds the same directories and the same inverse temperature. A calculation that ended with success is not started again, and after all calculations ran one after the other nothing is started. That two calculations run at the same time are both kept, that a file being written is harmless, and that every directory gives a command are refuted.", "quantifier": "all roots, data sets, lists of basis sizes, temperatures and bead numbers, all contents of the result files, also changing while the script runs", "why_tests_cant": "The scripts have no tests; they need a cluster, and the files change while they run.", "anchors": ["examples/paper_1.5025058/submit_jobs_to_server.py:_generate_sos_results", "examples/paper_1.5025058/submit_jobs_to_server.py:_generate_trotter_results", "examples/paper_1.5025058/submit_jobs_to_server.py:_temp_already_present", "examples/paper_1.5025058/submit_jobs_to_server.py:_valid_hash", "examples/paper_1.5025058/submit_jobs_to_server.py:generate_sampling_analytical_results", "examples/paper_1.5025058/submit_jobs_to_server.py:simple_sos_wrapper", "examples/paper_1.5025058/submit_jobs_to_server.py:simple_trotter_wrapper", "examples/paper_1.5025058/systems.py:get_system_name"]}
{"id": "C96", "title": "The submission of the calculations of the artificial systems", "statement": "For every basis size and temperature exactly one Trotter calculation is started, that of the last bead number whose result is missing; if none is missing the command of the size and temperature before is started again, and if there is none before the script fails, so that with the first size and temperature done nothing is ever started. With one size and temperature the script has to be run once per missing bead number, and fails once all are done. The analytic results are requested for both models at every temperature without looking at the files; the job for the original model calls a function that does not exist. That every missing calculation is started, that no command is started twice and that the script succeeds on readable files are refuted.", "quantifier": "all roots, data sets, lists of basis sizes, temperatures and bead numbers, all contents of the result files, also changing while the script runs", "why_tests_cant": "The scripts have no tests; the wrong indentation only shows with more than one bead number and on a cluster.", "anchors": ["examples/artificial_systems/submit_jobs_to_server.py:_generate_trotter_results", "examples/artificial_systems/submit_jobs_to_server.py:_generate_original_analytic_results", "examples/artificial_systems/submit_jobs_to_server.py:_generate_sampling_analytic_results", "examples/artificial_systems/submit_jobs_to_server.py:generate_analytical_results", "examples/artificial_systems/systems.py:get_system_name", "examples/artificial_systems/systems.py:get_tuning_parameter"]}
{"id": "C97", "title": "The preparation of the models of the examples", "statement": "For a data set of the paper the coupled model is the input file, the harmonic model is the diagonal of the model in it, and sampling model k is the file of the paper with number k; all models are prepared and nothing else is touched. The iterative sampling model of number 11 is the one the job makes, with energies such that each surface at its minimum has the lowest energy of the coupled model there. An artificial system gets the five sampling models it should, its transformation uses the stored matrix if there is one and otherwise makes one with the parameter of the data set, and preparing it again does not change its models. Elsewhere than on the servers nothing happens without a root; with a root of its own the iterative step fails. That sampling model 0 is the diagonal, and that the place of the scripts does not matter, are refuted.", "quantifier": "all files, data sets, roots, directories of the scripts, names, contents of the models and jobs", "why_tests_cant": "The scripts have no tests and need the servers; numbers of sampling models are taken from whole paths.", "anchors": ["examples/paper_1.5025058/setup_models.py:prepare_paper_model", "examples/paper_1.5025058/setup_models.py:copy_input_json_files_into_directories", "examples/paper_1.5025058/setup_models.py:copy_alternate_rhos_into_directories", "examples/paper_1.5025058/setup_models.py:setup_weight_corrected_iterative_model", "examples/paper_1.5025058/setup_models.py:prepare_paper_model_plus_iterative_method", "examples/paper_1.5025058/setup_models.py:automate_prepare_model", "examples/artificial_systems/setup_models.py:setup_sampling_distributions", "examples/artificial_systems/setup_models.py:unitary_transformation", "examples/artificial_systems/setup_models.py:prepare_model", "examples/paper_1.5025058/context.py:choose_root_folder"]}
{"id": "C98", "title": "The results of a submitted job reach the directory the analysis reads", "statement": "Given the directory of the job scripts and an interpreter, a job submitted on nlogn or feynman computes with exactly the parameters of the submission, and afterwards its results lie in the results directory below the root, under the name made of its bead number, temperature and job number, with the hashes of the two models there and the values of all its samples; earlier results left on the scratch disk are moved too and nothing else changes. On orca and graham they stay on the scratch disk. As the code stands the directory of the scripts is taken to be the module file itself, so the scheduler refuses the first command and nothing is started. A job number that is no number costs the whole computation.", "quantifier": "all roots and paths made of ordinary path characters, all parameter dictionaries, hosts, partitions, job numbers, model files, samples and earlier results", "why_tests_cant": "The submission needs a cluster with a scheduler and two disks; the path through shell, scheduler, script and Python is never tested as a whole.", "anchors": ["pibronic/server/job_boss.py:submit_job", "pibronic/server/job_boss.py:submit_jobs", "pibronic/server/job_boss.py:get_path_of_job_boss_directory", "pibronic/server/job_boss.py:get_path_to_python_executable", "pibronic/server/job_boss.py:prepare_job_feynman", "pibronic/server/job_boss.py:serialize_BoxData_dictionary", "pibronic/server/nlogn_feynman/pimc_job.sh", "pibronic/server/compute_canada/pimc_job.sh", "pibronic/server/nlogn_feynman/pimc.py", "pibronic/server/compute_canada/pimc.py", "pibronic/pimc/pimc.py:BoxDataPM.from_json_string", "pibronic/pimc/pimc.py:simple_wrapper", "pibronic/pimc/pimc.py:plus_minus_wrapper"]}
{"id": "C99", "title": "The grid pictures show the parameters of the models of a data set", "statement": "The pictures of the energies, the linear terms and the quadratic terms show exactly the arrays of the original and the coupled model, one picture for each mode or pair of modes, each under a file name of its own in the plot directory of the data set; the texts laid over a picture name the sign of the number shown at that place if the signs are symmetric; the script draws the energies and the linear terms of every data set of the system, up to the first one that fails. In general the texts are those of the transposed array, and from eleven modes on two pictures of mode pairs can have the same title; missing terms raise an exception before the first picture that would need them.", "quantifier": "all models with any numbers of surfaces and modes, all parameter values, all roots, data sets and missing files", "why_tests_cant": "The tests do not draw the pictures; nobody compares the texts with the numbers below them.", "anchors": ["pibronic/plotting/grid_plots.py:generate_sign_array", "pibronic/plotting/grid_plots.py:annotate_intensity_grid", "pibronic/plotting/grid_plots.py:plot_energy", "pibronic/plotting/grid_plots.py:plot_linear_coupling", "pibronic/plotting/grid_plots.py:plot_quadratic_coupling", "examples/artificial_systems/generate_energy_plots.py:automate_energy_grid_plots"]}
{"id": "C100", "title": "The scripts that analyse an example analyse every sampling model once and change nothing else", "statement": "If the analysis script of an example succeeds, every sampling model of the system that exists has, for every bead number and every temperature of its samples, a file with the jackknife analysis of exactly these samples and the hashes of the two models, and no other file has been changed. If it fails, it fails at one sampling model: those before it are complete, those after it are untouched. The processes of the systems have no file in common. The statistical analysis that comes first is not kept: the jackknife writes under the same name; the same holds for the four analyses of testing_execution.", "quantifier": "both examples, all systems, hosts, files, sample files, analyses and orders in which the processes of the pool finish", "why_tests_cant": "The scripts run on a cluster over hundreds of result files; no test runs them, and that one analysis overwrites another is visible only in the files.", "anchors": ["examples/paper_1.5025058/analyze_results.py:automate_statistical_analysis", "examples/artificial_systems/analyze_results.py:automate_statistical_analysis", "pibronic/stats/stats.py:testing_execution", "pibronic/stats/stats.py:main", "pibronic/stats/stats.py:starmap_wrapper", "pibronic/stats/stats.py:statistical_analysis_of_pimc", "pibronic/stats/stats.py:jackknife_analysis_of_pimc", "pibronic/data/file_structure.py:FileStructure.generate_model_hashes"]}
{"id": "C101", "title": "The tables of scaling parameters are complete, are in the right file, and are lost when a plot is made", "statement": "Every order has a data file and a pair file of its own. A grid has 10000 equally spaced points. The table to the first turn goes half way to the first place where the distance falls, or there is an AssertionError and nothing is written. The main function writes both files of the orders 2 to 10 in turn; if an order fails, the ones before it are complete and no later file is touched. What is read back from a written table is what was written. The functions for plots write to the same file: one always fails with a TypeError, after the one with the turning points no matrix other than the identity can be made, after the one with three norms the matrices are made from the wrong columns. Turning point number k is shown k rows too late, and none is shown from the first that repeats the place of its predecessor. The script create.py fails for every command line.", "quantifier": "all norms, orders, directories, files before the call, command lines and tuning parameters", "why_tests_cant": "The tables take long to compute, the plotting functions are never called by a test, and the damage shows only when a matrix is made later.", "anchors": ["pibronic/vibronic/orthonormal/sequences.py:save_sequence", "pibronic/vibronic/orthonormal/sequences.py:load_sequence", "pibronic/vibronic/orthonormal/sequences.py:generate_monotonic_sequence_to_first_turn_around", "pibronic/vibronic/orthonormal/sequences.py:generate_full_monotonic_sequence_for_plotting", "pibronic/vibronic/orthonormal/sequences.py:generate_turning_point_sequence_for_plotting", "pibronic/vibronic/orthonormal/sequences.py:generate_sequences_for_plotting", "pibronic/vibronic/orthonormal/sequences.py:debugging_matrix_checking_function", "pibronic/vibronic/orthonormal/sequences.py:main", "pibronic/vibronic/orthonormal/create.py:main"]}
{"id": "C102", "title": "The training data pairs every coordinate with its own value", "statement": "A job of the training script saves the coordinates of its samples and the values of g row by row, and for the sampling model of the data the values of rho of the same coordinates; the three files differ and no other file is touched. An object is filled completely exactly if the blocks make up all samples; it fails without writing if the blocks do not fit or there is no sample. Without the file of coordinates, with another number of samples in it or without a job number no rho is computed. That another sampling model can be used is false: the call always fails but leaves the number of the other model behind, and the next call with this number computes with the old model. That an object can be saved after the training files were written is false: the coordinates are overwritten.", "quantifier": "all functions g and rho, numbers of samples and blocks, block sizes, bead numbers, temperatures, job numbers, directories and files before the call", "why_tests_cant": "No test runs the training functions; a shift of rows between two files is not visible in either file.", "anchors": ["pibronic/pimc/pimc.py:save_gR_with_samples", "pibronic/pimc/pimc.py:block_compute_gR_from_raw_samples", "pibronic/pimc/pimc.py:block_compute_rhoR_from_input_samples", "pibronic/pimc/pimc.py:block_compute_gR", "pibronic/pimc/pimc.py:BoxData.generate_random_R_values", "pibronic/pimc/pimc.py:BoxResult.compute_path_to_file", "examples/basic_ml_testing.py:generate_basic_data_set", "examples/basic_ml_testing.py:generate_rho_output_values"]}
{"id": "C103", "title": "The driver fails before it changes anything but directories, and the report of jobs can mix them up", "statement": "The driver everything.py fails for every molecule, and all that has changed then is that the directories of the data set exist; from a command line it never gets so far. The report of the 18 electronic structure jobs shows the last state in the file of each; a model whose file has no state is shown with the state of the nearest model before it, and if there is none the report ends with an error. The wrapper for one data set uses one directory for all data sets. The check of a covariance matrix never succeeds. verify_directories_exists makes all directories of a data set or fails. Julia is loaded as a module exactly if it does not answer, in one of three versions.", "quantifier": "all file systems, working directories, molecules, command lines, contents of the output files, matrices and versions", "why_tests_cant": "That no input works, and that a leftover variable is shown for another job, are statements about all inputs; none of these functions has a test.", "anchors": ["pibronic/everything.py:execute", "pibronic/everything.py:copyInput", "pibronic/vibronic/electronic_structure.py:pretty_print_job_status", "pibronic/vibronic/electronic_structure.py:calculate_vibronic_model_wrapper_one", "pibronic/pimc/pimc.py:pos_sym_assert", "pibronic/data/file_structure.py:FileStructure.verify_directories_exists", "pibronic/julia_wrapper.py:prepare_julia"]}
{"id": "C104", "title": "The pictures of the results show the loaded values", "statement": "A plotting object is made from one FileStructure or from a list of two, as its class asks, and uses exactly the result files with the hashes of the two models. With one temperature the pictures of Z and of the energy have one curve for each number of samples: the values along the beads against beta divided by the number of beads; the picture of the heat capacity is never drawn. The picture beside the analytical result has the same curves and the reference line, which is zero for percentages. The comparison of two sets has the curve with most samples and the reference of each. More than one temperature of a set is always an error; without results three empty pictures are saved. Two sets of different temperatures are drawn into one picture without any word about it. From data set 10 on the inset is drawn for 300 K whatever the temperature, names the lowest number of samples beside the values of the highest, and describes the position in the list instead of the sampling model; without a reference for 300 K there is no picture. The comparison with sums over states never saves a picture.", "quantifier": "all FileStructures, result files and hashes, lists of beads, temperatures and samples, arrays, references, number types and operations", "why_tests_cant": "The tests do not draw pictures, and nobody compares the text of a curve with the numbers it shows.", "anchors": ["pibronic/plotting/plotting.py:plot_Z_test.plot_Z", "pibronic/plotting/plotting.py:plot_Z_test.plot_E", "pibronic/plotting/plotting.py:plot_Z_test.plot_Cv", "pibronic/plotting/plotting.py:plot_Z_test.plot", "pibronic/plotting/plotting.py:plot_original_Z_test.plot_Z", "pibronic/plotting/plotting.py:plot_original_Z_vs_diagonal_test.plot_Z", "pibronic/plotting/plotting.py:plot_sos_Z_vs_rho_n.plot_Z", "pibronic/plotting/plotting.py:plot_rectangle.plot_Z", "pibronic/plotting/virtual.py:plotVirtual.__init__"]}
{"id": "C105", "title": "Random models and the regenerated input models are what their parameters say", "statement": "A model is generated from the given entries of the parameters and the defaults for the others; only six entries are looked at, and values of a wrong type are refused. A random model is always a valid symmetric model with 2 to 10 states and 2 to 20 modes, its frequencies and random numbers from the stated ranges, and can be saved and read back; a random diagonal model likewise consists of the diagonals. The script for the input models writes the models of the 4x6 and 7x12 system with the stated sizes and ranges to the files the setup script reads, and nothing else; other names are refused. That quadratic_scaling or the entry nonadiabatic of the script has an effect is false.", "quantifier": "all parameter dictionaries, random numbers, number types, file systems and directories", "why_tests_cant": "The tests draw one random model each; ignored entries and out-of-range sizes show only for some draws.", "anchors": ["pibronic/vibronic/vibronic_model_io.py:create_random_model", "pibronic/vibronic/vibronic_model_io.py:create_random_diagonal_model", "pibronic/vibronic/vibronic_model_io.py:generate_vibronic_model_data", "examples/artificial_systems/generate_initial_model_parameters.py:generate_input_file"]}
{"id": "C106", "title": "The scripts that draw the results draw every pair they can, into its own file", "statement": "For a known system and computer the scripts end without an error; a comparison or a picture is saved exactly if the attempt for one of the pairs of data set and sampling model of that system saves it, so a failure for one pair does not affect the others. The path of each picture is that of its data set and sampling models, no two pictures have the same path, and the directories of all pairs exist in the end. The results shown are those that belong to the models of the pair. The processes of all systems may save their pictures in any order: each picture is on disk in the end. Without the root directory nothing is drawn and that is not noticed; an unknown system or computer is refused. That all pairs of the paper can be drawn is false: the comparisons with the sampling model 11 never are.", "quantifier": "all files, results, listings, hashes, drawing outcomes, systems, computers and orders in which the processes save", "why_tests_cant": "The scripts need the results of the server and are not tested; the exceptions they swallow are only printed.", "anchors": ["examples/artificial_systems/generate_z_plots.py:automate_simple_z_plots", "examples/paper_1.5025058/generate_z_plots.py:automate_simple_z_plots", "examples/paper_1.5025058/generate_plots.py:automate_simple_z_plots"]}
{"id": "C107", "title": "The submission of a system of an example starts exactly the calculations and jobs of its plan", "statement": "For a known system, with readable models, simple_pimc_wrapper and automate_pimc_submission start, for the pairs of data set and sampling model of the system in order, first the analytic calculations of the pair and then one job per number of beads (50 for the paper, 50 to 500 in seven steps for the artificial systems) at 300 K, each with the command, the paths, the job name and the parameters of that pair, even though the parameters are kept in a dictionary of the class which all submissions of a process share. The submission stops at the first answer of the queue that is not accepted, and everything before it is started. If a model can not be read, the pairs before it are started completely and of its pair only the analytic calculations. On an unknown cluster no job is started, but the analytic calculations of the first pair are. Unknown systems, data sets or computers and a missing root directory are refused with nothing started. No two steps of the plan have the same command. The scripts themselves submit only the first system.", "quantifier": "all systems, data sets, sampling models, numbers of surfaces and modes, answers of the queue, texts of the parameters and states of the process after earlier submissions", "why_tests_cant": "The scripts submit jobs to the queue of a cluster and are not tested.", "anchors": ["examples/paper_1.5025058/submit_jobs_to_server.py:simple_pimc_wrapper", "examples/paper_1.5025058/submit_jobs_to_server.py:automate_pimc_submission", "examples/artificial_systems/submit_jobs_to_server.py:simple_pimc_wrapper", "examples/artificial_systems/submit_jobs_to_server.py:automate_pimc_submission", "pibronic/server/job_boss.py:PimcSubmissionClass.submit_jobs"]}
{"id": "C108", "title": "The preparation of the models makes the directories of all files it writes", "statement": "When a file is written only if its directory is there, the preparation of a model of the paper, of all of them, of one with the iterative method and of an artificial system gives the same files and the same outcome as without looking at the directories, whatever files and directories there were before: the constructor of FileStructure and change_rho have made each directory before a file is written to it. The new directories are the root and directories of the data set in question only. Each file that the preparation of a model of the paper changes is in a directory that is there. It is the constructor that makes them: with no_makedir the input file could not be copied.", "quantifier": "all files and directories before, roots, data sets, names, numbers of sampling models, results of the jobs", "why_tests_cant": "The scripts write to the disk of a server and are not tested; a test starts with the directories that happen to be there.", "anchors": ["examples/paper_1.5025058/setup_models.py:prepare_paper_model", "examples/paper_1.5025058/setup_models.py:copy_alternate_rhos_into_directories", "examples/paper_1.5025058/setup_models.py:setup_weight_corrected_iterative_model", "examples/artificial_systems/setup_models.py:prepare_model", "pibronic/data/file_structure.py:FileStructure.change_rho", "pibronic/data/file_structure.py:FileStructure.make_rho_directories"]}
{"id": "C109", "title": "The installation, the questions to the queue and the levels of the messages", "statement": "With a python from 3.6 on setup.py asks for the version of julia, and if that is accepted installs the toolkit, both twice, and then sets up the package pibronic, version 0.3; with a julia that is not accepted only the package is set up. For the versions M.m with M below 10 exactly those from 0.7 on are accepted; in general the last digit of M is looked at. That the package can be installed without julia, as the text printed says, is refuted: there is an OSError before the package is set up. That python 3.5 is enough, as the package says, is refuted: setup.py itself needs 3.6. The two questions to the queue are one command each, with the number of the job, and their answer is what that command printed; the output is captured for all versions of python that can read the file. At the level configured the messages about the flow of the program are shown and those about locks are not.", "quantifier": "all versions of python and julia, answers of the programs, contents of the readme, numbers of jobs, levels and messages", "why_tests_cant": "A test runs on one machine with one python and one julia and does not install the package.", "anchors": ["setup.py:julia_is_installed", "setup.py:install_VibronicToolkit", "setup.py:read_md", "setup.py:get_version", "setup.py:setup_package", "pibronic/server/job_boss.py:subprocess_run_wrapper", "pibronic/server/job_boss.py:check_acct_state", "pibronic/server/job_boss.py:check_running_state", "pibronic/log_conf.py:MyLogger.flow", "pibronic/log_conf.py:MyLogger.lock"]}
{"id": "C110", "title": "Every sample of every job of a campaign reaches the analysis once", "statement": "Let the jobs of one sampling distribution, for any dictionaries, temperatures, bead numbers and values, be submitted from feynman, nlogn, orca or graham (with the right directory of scripts) and run one after the other under different numbers. Then every job has left its file of results in the directory its host uses, below the root on feynman and nlogn and below the scratch root on orca and graham, and no other file there is lost or changed. If both directories were empty and no weight is zero, loading any bead number and temperature that has a job from that directory gives the values of exactly the jobs for them, every job once, and the number of samples is the sum of theirs. A campaign whose jobs can be run is accepted as a whole, and the number read for each job is the one the scheduler gave. The commands of a successful submission are those of the campaign: temperatures, bead numbers, repetitions in this order; for lists without repetition each point has n_jobs times the samples of a job. If the analysis of such a campaign then succeeds, every temperature and bead number of it has a file that names them and the number n_jobs times the samples of a job, with the quantities computed from those samples and the two hashes. On orca and graham loading from below the root fails with an AssertionError.", "quantifier": "all lists of jobs, dictionaries, temperatures, bead numbers, values, sampling outcomes, roots, earlier contents and listings of the directories", "why_tests_cant": "It needs a cluster with a queue and a scratch disk; the tests never run two jobs and an analysis together.", "anchors": ["pibronic/server/job_boss.py:PimcSubmissionClass.submit_jobs", "pibronic/server/nlogn_feynman/pimc_job.sh", "pibronic/server/compute_canada/pimc_job.sh", "pibronic/data/postprocessing.py:load_pimc_data", "pibronic/pimc/pimc.py:BoxResultPM.load_multiple_results", "pibronic/stats/stats.py:starmap_wrapper"]}
