{
 "claims": [
  {
   "property": "C01",
   "status": "proved",
   "theorems": [
    "C01_square_optimal",
    "C01_empty_raises"
   ],
   "note": "Whole algorithm modelled with explicit fuel shown sufficient; exact rationals; optimality by duality. An empty matrix raises."
  },
  {
   "property": "C02",
   "status": "proved",
   "theorems": [
    "C02_wide_optimal",
    "C02_tall_optimal"
   ],
   "note": "Rectangular matrices through the padding of the code, both orientations; exact rationals."
  },
  {
   "property": "C03",
   "status": "proved",
   "theorems": [
    "C03_shape_any_rounding",
    "C03_nan_diverges"
   ],
   "note": "Shape and injectivity for any arithmetic (rounding included) on comparable numbers; with NaN weights the loop never ends."
  },
  {
   "property": "C04",
   "status": "proved",
   "theorems": [
    "C04_all_perms_complete",
    "C04_all_perms_once",
    "C04_brute_force_agrees"
   ],
   "note": "all_perms lists every permutation once; brute force and the Hungarian method give the same cost."
  },
  {
   "property": "C05",
   "status": "proved",
   "theorems": [
    "C05_reverse_inverts",
    "C05_default_size_fails"
   ],
   "note": "All injective lists; without size it raises IndexError for every non-empty list."
  },
  {
   "property": "C06",
   "status": "proved",
   "theorems": [
    "C06_labels_faithful"
   ],
   "note": "All label lists and all outcomes of set order and shuffles (oracles)."
  },
  {
   "property": "C07",
   "status": "proved",
   "theorems": [
    "C07_each_once_and_complete"
   ],
   "note": "Each sample is paired at most once, and each label as often as the rarest modality allows."
  },
  {
   "property": "C08",
   "status": "proved",
   "theorems": [
    "C08_errors"
   ],
   "note": "The exact conditions under which pairing raises."
  },
  {
   "property": "C09",
   "status": "proved",
   "theorems": [
    "C09_organize",
    "C09_positions",
    "C09_default_count"
   ],
   "note": "organize_by_values for all lists, with and without the number of values."
  },
  {
   "property": "C10",
   "status": "proved",
   "theorems": [
    "C10_frames_labelled",
    "C10_runs_out",
    "C10_bad_frame_label",
    "C10_equal_label_refuted"
   ],
   "note": "Basic label windows with a label each; equality of labels needs non-negative labels (C10_equal_label_refuted)."
  },
  {
   "property": "C11",
   "status": "proved",
   "theorems": [
    "C11_basic_subwindow",
    "C11_out_of_bounds"
   ],
   "note": "The values are immutable in this model; that the original object is unchanged is part of C19."
  },
  {
   "property": "C12",
   "status": "proved",
   "theorems": [
    "C12_largest_subwindow",
    "C12_constructor",
    "C12_out_of_bounds"
   ],
   "note": "Exact rationals; for b < a inside the window the result is empty."
  },
  {
   "property": "C13",
   "status": "proved",
   "theorems": [
    "C13_histories",
    "C13_copy"
   ],
   "note": "Any history of move, copy and get_subwindow from a fresh window over a whole file."
  },
  {
   "property": "C14",
   "status": "proved",
   "theorems": [
    "C14_wav_array_agree"
   ],
   "note": "The three possible outcomes, exhaustively."
  },
  {
   "property": "C15",
   "status": "proved",
   "theorems": [
    "C15_construct",
    "C15_align",
    "C15_align_default",
    "C15_lookup",
    "C15_lookup_first",
    "C15_long_windows",
    "C15_out_of_bounds",
    "C15_first_refuted"
   ],
   "note": "The 'first window ending at t or later' part needs ends that never decrease (every window at least TOL long, C15_long_windows); C15_first_refuted gives the counterexample with a shorter overlapping window."
  },
  {
   "property": "C16",
   "status": "proved",
   "theorems": [
    "C16_covers_range",
    "C16_lookup_agrees",
    "C16_gap_refuted"
   ],
   "note": "Exactly aligned windows; C16_gap_refuted shows a failure when windows are aligned only up to TOL. That the original object is unchanged is part of C19."
  },
  {
   "property": "C17",
   "status": "proved",
   "theorems": [
    "C17_full_windows",
    "C17_partial_windows"
   ],
   "note": "Tolerance at most shift (full windows), at most half of shift (partial windows)."
  },
  {
   "property": "C18",
   "status": "proved",
   "theorems": [
    "C18_frames_tile",
    "C18_short_interval",
    "C18_zero_rate"
   ],
   "note": "With t0 + TOL <= t1 and TOL * rate <= 1/2."
  },
  {
   "property": "C19",
   "status": "proved",
   "theorems": [
    "C19_reachable_heaps",
    "C19_programs",
    "C19_copy_value",
    "C19_concat_copy_value",
    "C19_copy_independent",
    "C19_copy_keeps_original",
    "C19_subwindow_value",
    "C19_concat_subwindow_value",
    "C19_subwindow_independent",
    "C19_subwindow_keeps_original",
    "C19_concat_array_independent",
    "C19_align_touches_only_listed",
    "C19_align_value",
    "C19_move_value",
    "C19_align_duplicates_refuted",
    "C19_array_samples_refuted",
    "C19_subwindow_at_is_alias_refuted"
   ],
   "note": "Copies and sub-windows share no mutable object with the original, both directions, for arbitrary programs; array windows share samples (C19_array_samples_refuted), so the theorem excludes writes to samples when array windows are involved. align changes exactly the listed windows; with a window listed twice it does not align (C19_align_duplicates_refuted)."
  },
  {
   "property": "C20",
   "status": "proved",
   "theorems": [
    "C20_first_occurrences",
    "C20_distinct_valid"
   ],
   "note": "chose_examples for any label set order; indices of first occurrences."
  },
  {
   "property": "C21",
   "status": "proved",
   "theorems": [
    "C21_nearest",
    "C21_no_example"
   ],
   "note": "Any strict order on distances; ties go to the first example."
  },
  {
   "property": "C22",
   "status": "proved",
   "theorems": [
    "C22_score_fraction",
    "C22_score_truncates",
    "C22_evaluate_NN",
    "C22_scores_from_dists",
    "C22_share",
    "C22_square",
    "C22_nearest_share"
   ],
   "note": "Scores as exact fractions; zip stops at the shorter list (C22_score_truncates)."
  },
  {
   "property": "C23",
   "status": "proved",
   "theorems": [
    "C23_presence",
    "C23_counts_iff_no_repeat"
   ],
   "note": "confusion matrix marks presence, not counts; equal to counts iff no pair is repeated."
  },
  {
   "property": "C24",
   "status": "proved",
   "theorems": [
    "C24_top_k",
    "C24_true_above_false",
    "C24_match_means_above",
    "C24_score"
   ],
   "note": "Ranking of activations for any number of true labels."
  },
  {
   "property": "C25",
   "status": "proved",
   "theorems": [
    "C25_splits"
   ],
   "note": "All sizes up to 2^51 and all ratios; binary64 rounding of n * ratio modelled."
  },
  {
   "property": "C26",
   "status": "proved",
   "theorems": [
    "C26_leave_one_out"
   ],
   "note": "All sizes."
  },
  {
   "property": "C27",
   "status": "proved",
   "theorems": [
    "C27_velocities",
    "C27_delayed_circular",
    "C27_delayed_zeros",
    "C27_zero_delay_zeros_fails",
    "C27_other_padding_fails",
    "C27_filter_cont",
    "C27_filter_cont_bounds"
   ],
   "note": "All delays and lengths, both paddings, errors included."
  },
  {
   "property": "C28",
   "status": "proved",
   "theorems": [
    "C28_distribute_nesting",
    "C28_flatten",
    "C28_flatten_error",
    "C28_distribute",
    "C28_filter_bound"
   ],
   "note": "Nested lists of any depth."
  },
  {
   "property": "C29",
   "status": "proved",
   "theorems": [
    "C29_reachable_wf",
    "C29_write_once",
    "C29_store",
    "C29_store_frame",
    "C29_new_run",
    "C29_store_global",
    "C29_key_sets",
    "C29_get_values",
    "C29_get_last_value"
   ],
   "note": "State machine over all sequences of operations on loggers sharing run dictionaries."
  },
  {
   "property": "C30",
   "status": "proved",
   "theorems": [
    "C30_roundtrip",
    "C30_without_arrays",
    "C30_npz_suffix_fails",
    "C30_equality_refuted"
   ],
   "note": "Saved and loaded loggers; arrays kept by the archive; the npz name clash is an error; plain equality is refuted (tuples, integer keys)."
  },
  {
   "property": "C31",
   "status": "proved",
   "theorems": [
    "C31_ends",
    "C31_archive_cut",
    "C31_mixture",
    "C31_unreadable",
    "C31_json_cut",
    "C31_atomic_refuted"
   ],
   "note": "Every prefix of the sequence of writes; atomicity is refuted."
  },
  {
   "property": "C32",
   "status": "proved",
   "theorems": [
    "C32_merge_empty",
    "C32_merge",
    "C32_shared_runs_refuted"
   ],
   "note": "Merging shares the run dictionaries (C32_shared_runs_refuted)."
  },
  {
   "property": "C33",
   "status": "proved",
   "theorems": [
    "C33_rows",
    "C33_aligned",
    "C33_distinct",
    "C33_succeeds"
   ],
   "note": "prepare modelled whole, both debug modes; loaders are values; outcomes of shuffles and set orders are arguments"
  },
  {
   "property": "C34",
   "status": "proved",
   "theorems": [
    "C34_splits"
   ],
   "note": "splits of all run modes as logged by run, also when a run raises; at most 2^51 samples (binary64)"
  },
  {
   "property": "C35",
   "status": "proved",
   "theorems": [
    "C35_two_keys",
    "C35_three_keys",
    "C35_reserved_name",
    "C35_three_with_two"
   ],
   "note": "keys distinct for clean names; whole runs raise ValueError for a reserved name and for ThreeModalitiesExperiment with two modalities"
  },
  {
   "property": "C36",
   "status": "proved",
   "theorems": [
    "C36_file",
    "C36_missing",
    "C36_equal",
    "C36_constructed",
    "C36_unknown_dataset",
    "C36_no_loader",
    "C36_not_pair",
    "C36_missing_key",
    "C36_n_samples",
    "C36_unwritable"
   ],
   "note": "File round trip for every experiment over the three datasets (label sets as sets, any set order), exact equality for JSON-native parameters; a foreign loader class is written but cannot be loaded; an unwritable parameter destroys the destination; files without one of the nine keys, or with a loader that is not a pair, are refused."
  },
  {
   "property": "C37",
   "status": "proved",
   "theorems": [
    "C37_balance"
   ],
   "note": "real arithmetic"
  },
  {
   "property": "C38",
   "status": "proved",
   "theorems": [
    "C38_range",
    "C38_partition",
    "C38_stack",
    "C38_slice_back",
    "C38_stacked_dicos",
    "C38_all_dicos",
    "C38_unknown",
    "C38_stack_rows",
    "C38_stack_none",
    "C38_unknown_stack",
    "C38_unknown_dicos"
   ],
   "note": "get_index, get_axis_range, get_dico, get_stacked_dicos, stack_data and safe_hstack modelled on dense and csr matrices over the reals. An unknown modality raises ValueError in each of them."
  },
  {
   "property": "C39",
   "status": "proved",
   "theorems": [
    "C39_composition",
    "C39_cross_modal",
    "C39_modality",
    "C39_wrong_columns"
   ],
   "note": "reconstruct_internal_multi calls the NMF model (random draws are an oracle); result shape, blocks, sign and composition proved for all iteration counts >= 1."
  },
  {
   "property": "C40",
   "status": "proved",
   "theorems": [
    "C40_update",
    "C40_call",
    "C40_zeros"
   ],
   "note": "One update, and results of fit_transform and transform, dense and canonical sparse data; success of the call is C43_run."
  },
  {
   "property": "C41",
   "status": "proved",
   "theorems": [
    "C41_update",
    "C41_update_bound",
    "C41_transform",
    "C41_unnormalised_refuted"
   ],
   "note": "Dense and canonical sparse data, any eps > 0; bound without normalised rows and a witness that the plain statement needs them."
  },
  {
   "property": "C42",
   "status": "proved",
   "theorems": [
    "C42_update",
    "C42_fit"
   ],
   "note": "Per update, and for the components after any successful fit."
  },
  {
   "property": "C43",
   "status": "proved",
   "theorems": [
    "C43_run",
    "C43_end",
    "C43_arguments_ignored",
    "C43_no_iteration",
    "C43_negative_data"
   ],
   "note": "The whole call as a sequence of updates with its errors, the ignored arguments, the UnboundLocalError and the ValueError for negative data."
  },
  {
   "property": "C44",
   "status": "proved",
   "theorems": [
    "C44_error",
    "C44_masked_product",
    "C44_Q",
    "C44_unsorted_refuted"
   ],
   "note": "Canonical (sorted) csr data; for rows that are not sorted the errors differ, C44_unsorted_refuted."
  },
  {
   "property": "C45",
   "status": "proved",
   "theorems": [
    "C45_transform_keeps",
    "C45_after_transform",
    "C45_without_transform",
    "C45_not_random",
    "C45_features_differ"
   ],
   "note": "All histories of fit and transform calls, also those that raise."
  },
  {
   "property": "C46",
   "status": "proved",
   "theorems": [
    "C46_value",
    "C46_value_axis",
    "C46_lower_bound",
    "C46_lower_bound_axis",
    "C46_self",
    "C46_zero_first",
    "C46_nonnegative_refuted",
    "C46_eps_ignored",
    "C46_normalize",
    "C46_symmetrised",
    "C46_reversed",
    "C46_symmetrised_normalize"
   ],
   "note": "Exact reals, smoothing eps > 0, non-negative arrays of any shape, with and without axis. Also proved: the divergence can be negative (refuting the usual expectation), kl_div ignores its eps argument, and normalize=True changes the caller's arrays."
  },
  {
   "property": "C47",
   "status": "proved",
   "theorems": [
    "C47_bounds",
    "C47_zero_iff_deterministic",
    "C47_max_iff_uniform",
    "C47_invariant"
   ],
   "note": "Exact reals, arrays of any shape; zero iff deterministic and maximal iff uniform."
  },
  {
   "property": "C48",
   "status": "proved",
   "theorems": [
    "C48_value",
    "C48_nonneg_zero",
    "C48_transpose",
    "C48_refused",
    "C48_accepted"
   ],
   "note": "Exact reals, any joint histogram of total exactly 1; the tolerance of allclose plays no role there."
  },
  {
   "property": "C49",
   "status": "proved",
   "theorems": [
    "C49_value_and_bounds",
    "C49_matrix_marginals",
    "C49_one_axis",
    "C49_refused",
    "C49_bad_axis"
   ],
   "note": "Any number of axes >= 2; one-dimensional input raises TypeError."
  },
  {
   "property": "C50",
   "status": "proved",
   "theorems": [
    "C50_cosine_value",
    "C50_cosine_laws",
    "C50_cosine_scale",
    "C50_frobenius_value",
    "C50_frobenius_metric",
    "C50_frobenius_triangle"
   ],
   "note": "Exact reals, any shape and axis, both operands of the same shape."
  },
  {
   "property": "C51",
   "status": "proved",
   "theorems": [
    "C51_bounds",
    "C51_one_hot",
    "C51_constant",
    "C51_real_sparsity"
   ],
   "note": "Exact reals, any shape and axis with at least two entries; constant lanes give eps/(sqrt n |c| + eps). real_sparsity for dense arrays."
  },
  {
   "property": "C52",
   "status": "proved",
   "theorems": [
    "C52_rows_padded"
   ],
   "note": "Any non-empty sequence of rows."
  },
  {
   "property": "C53",
   "status": "proved",
   "theorems": [
    "C53_dense",
    "C53_sparse",
    "C53_determined",
    "C53_sums",
    "C53_normalize_sum",
    "C53_normalize_sum_axis"
   ],
   "note": "Dense matrices and csr matrices with any order of elements; normalize_sum for any axis."
  },
  {
   "property": "C54",
   "status": "proved",
   "theorems": [
    "C54_counts",
    "C54_unique",
    "C54_lag_zero",
    "C54_negative_lag",
    "C54_blocks",
    "C54_no_lags",
    "C54_hac",
    "C54_wrong_code_refuted"
   ],
   "note": "hac_model.v models lib/hac.py and hac() of the acorns/sound features. C54_counts gives every cell of the co-occurrence vector as the number of positions, C54_unique that these cells determine it, the others the lag-zero, negative-lag, block layout and no-lag cases. C54_wrong_code_refuted shows that an out-of-range code is not always rejected. Codes are exact integers, no int32 overflow."
  },
  {
   "property": "C55",
   "status": "proved",
   "theorems": [
    "C55_distances",
    "C55_associate",
    "C55_soft",
    "C55_ratio",
    "C55_hard"
   ],
   "note": "quant_model.v over exact reals. C55_soft needs positive weights of some finite distance (EPSILON added), see statement; vq is an oracle returning first nearest centroid."
  },
  {
   "property": "C56",
   "status": "proved",
   "theorems": [
    "C56_round_trip",
    "C56_round_trip_error",
    "C56_velocities",
    "C56_histograms",
    "C56_frequencies",
    "C56_delay_ignored",
    "C56_python3",
    "C56_python3_error",
    "C56_dropped_centroid"
   ],
   "note": "angle_model.v over exact reals; whiten, kmeans and vq are arguments constrained by is_whiten, gives_centroids (kmeans keeps all clusters) and is_vq. C56_dropped_centroid covers a kmeans that drops clusters. Under Python 3 stacking is done before whiten in the model, the code interleaves them."
  },
  {
   "property": "C57",
   "status": "proved",
   "theorems": [
    "C57_consistent",
    "C57_ids_kept",
    "C57_get_tag_add",
    "C57_duplicates",
    "C57_add_record",
    "C57_frame",
    "C57_sort",
    "C57_negative_speaker",
    "C57_tags_checked_refuted"
   ],
   "note": "Every history of add_tag, get_tag_add, add_speaker, add_record, sort and load_from. The expected check of tag numbers is false (C57_tags_checked_refuted)."
  },
  {
   "property": "C58",
   "status": "proved",
   "theorems": [
    "C58_round_trip",
    "C58_no_audio"
   ],
   "note": "Records with named audio files, or without audio file when the speaker has one record or sorting is off; otherwise the sorted reading raises TypeError (C58_no_audio). Other values up to what JSON does to them."
  },
  {
   "property": "C59",
   "status": "proved",
   "theorems": [
    "C59_operators",
    "C59_no_name",
    "C59_weak_order",
    "C59_ties",
    "C59_converse_refuted"
   ],
   "note": "Python 3 comparisons. The converse relation is refuted (C59_converse_refuted)."
  },
  {
   "property": "C60",
   "status": "proved",
   "theorems": [
    "C60_missing",
    "C60_round_trip",
    "C60_subdirectory_refuted",
    "C60_unknown_type",
    "C60_bad_label",
    "C60_extend",
    "C60_extend_records",
    "C60_int_keys",
    "C60_text_keys",
    "C60_int_extend"
   ],
   "note": "Round trip of npz export and loading for labels JSON can write; extend; unknown types; string keys after a round trip and what they break. Refuted for file names with a directory: the exported database cannot be loaded."
  },
  {
   "property": "C61",
   "status": "proved",
   "theorems": [
    "C61_line",
    "C61_line_errors",
    "C61_name_once",
    "C61_four_views",
    "C61_read",
    "C61_read_errors",
    "C61_by_frame",
    "C61_by_frame_refused",
    "C61_frame_dict"
   ],
   "note": "Lines of the statistics file accepted exactly when of the described form; four views become five; features read in reverse order of lines; by-frame histograms are the means of the frame's rows for frames with views; to_dict, JSON and from_dict give back every constructed frame. int and float of words are oracles; sparse matrices as values."
  },
  {
   "property": "C62",
   "status": "proved",
   "theorems": [
    "C62_same_positions",
    "C62_positions",
    "C62_any_order_refuted",
    "C62_file_names",
    "C62_year",
    "C62_speaker",
    "C62_last_speaker",
    "C62_loaded",
    "C62_aligned",
    "C62_mismatch",
    "C62_features_and_labels",
    "C62_short"
   ],
   "note": "Alignment of rows and labels for all record lists and matrices; injectivity for all integers; check_speaker accepts n_speakers. Removal by ascending positions refuted (the blacklists of the code are single positions)."
  },
  {
   "property": "C63",
   "status": "proved",
   "theorems": [
    "C63_multiply",
    "C63_inverse",
    "C63_turned",
    "C63_rescaled_all",
    "C63_rescaled",
    "C63_rescaled_refuted",
    "C63_meaning",
    "C63_joints",
    "C63_missing_joint"
   ],
   "note": "transf_model.v over exact reals (no rounding, no signed zero). A common rescaling is unconditional; a factor for each frame needs the second quaternion not to fall under the eps threshold, C63_rescaled_refuted shows the condition is needed. C63_meaning: the angles rebuild the relative rotation."
  },
  {
   "property": "C64",
   "status": "proved",
   "theorems": [
    "C64_rotation",
    "C64_compose",
    "C64_round_trip",
    "C64_gimbal",
    "C64_sxyz"
   ],
   "note": "For all 24 axis sequences; in gimbal lock C64_gimbal bounds the error by twice the gap."
  },
  {
   "property": "C65",
   "status": "proved",
   "theorems": [
    "C65_bins_1d",
    "C65_errors_1d",
    "C65_recent_numpy",
    "C65_bins_2d",
    "C65_errors_2d",
    "C65_recent_numpy_2d",
    "C65_unchecked_bounds_refuted"
   ],
   "note": "Exact reals. 1D: grid, values, signs, mass and mean proved, errors proved. 2D: values, signs and mass proved; the claim that wrong bounds raise ValueError is false in 2D (C65_unchecked_bounds_refuted). Numpy that refuses float indices: never returns."
  },
  {
   "property": "C66",
   "status": "proved",
   "theorems": [
    "C66_threshold",
    "C66_shapes",
    "C66_score"
   ],
   "note": "All matrices and thresholds."
  },
  {
   "property": "C67",
   "status": "proved",
   "theorems": [
    "C67_label_reco"
   ],
   "note": "All matrices of activations."
  },
  {
   "property": "C68",
   "status": "proved",
   "theorems": [
    "C68_nesting",
    "C68_error",
    "C68_meta_map"
   ],
   "note": "All depths; iterators are taken as lists."
  },
  {
   "property": "C69",
   "status": "proved",
   "theorems": [
    "C69_normalize",
    "C69_normalize_flat"
   ],
   "note": "Exact reals; equal bounds give the flat case."
  },
  {
   "property": "C70",
   "status": "proved",
   "theorems": [
    "C70_failed_save"
   ],
   "note": "A failed save leaves an unreadable file."
  },
  {
   "property": "C71",
   "status": "proved",
   "theorems": [
    "C71_cut_then_load"
   ],
   "note": "Any partition into sampled windows."
  },
  {
   "property": "C72",
   "status": "proved",
   "theorems": [
    "C72_files_in_order",
    "C72_rates_differ"
   ],
   "note": "Any list of files with the same rate; different rates raise."
  },
  {
   "property": "C73",
   "status": "proved",
   "theorems": [
    "C73_sample_times",
    "C73_mid_sample"
   ],
   "note": "Exact rationals."
  },
  {
   "property": "C74",
   "status": "proved",
   "theorems": [
    "C74_frobenius",
    "C74_kl",
    "C74_cosine",
    "C74_lengths_checked_refuted"
   ],
   "note": "Also shown: rows of different lengths are not rejected when one has length 1 (broadcasting)."
  },
  {
   "property": "C75",
   "status": "proved",
   "theorems": [
    "C75_internal",
    "C75_mass",
    "C75_reconstruction"
   ],
   "note": "Also for the learner (C75_internal): coefficients of a sample are bounded by its weighted data."
  },
  {
   "property": "C76",
   "status": "proved",
   "theorems": [
    "C76_scale",
    "C76_one_component_refuted"
   ],
   "note": "Product kept for every number of components but one; with one, IndexError."
  },
  {
   "property": "C77",
   "status": "proved",
   "theorems": [
    "C77_train",
    "C77_wrong_shape",
    "C77_missing_matrix_refuted"
   ],
   "note": "train on the NMF model; the missing-matrix part of the claim is refuted by C77_missing_matrix_refuted (zip cuts the shorter list)."
  },
  {
   "property": "C78",
   "status": "proved",
   "theorems": [
    "C78_run",
    "C78_saved"
   ],
   "note": "end to end, random draws of the factorisations are arguments, real arithmetic"
  },
  {
   "property": "C79",
   "status": "proved",
   "theorems": [
    "C79_split",
    "C79_count",
    "C79_modes"
   ],
   "note": "iterative_kmeans with kmeans2 and svd as oracles constrained by is_kmeans2 and is_svd: number of centroids and the split of the most populated cluster."
  },
  {
   "property": "C80",
   "status": "proved",
   "theorems": [
    "C80_euler_matrix",
    "C80_euler_rotation",
    "C80_quaternion_from_euler",
    "C80_matrix_of_quaternion",
    "C80_quaternion_of_matrix"
   ],
   "note": "All 24 axis sequences, both frames; exact reals."
  },
  {
   "property": "C81",
   "status": "proved",
   "theorems": [
    "C81_smooth_1d",
    "C81_smooth_2d"
   ],
   "note": "Exact reals; FFT and direct convolutions identified."
  },
  {
   "property": "C82",
   "status": "proved",
   "theorems": [
    "C82_opposite",
    "C82_same_samples",
    "C82_nonnegative_refuted"
   ],
   "note": "Exact reals. The returned number has the wrong sign: C82_nonnegative_refuted gives a value below -1."
  },
  {
   "property": "C83",
   "status": "proved",
   "theorems": [
    "C83_counts",
    "C83_size"
   ],
   "note": "Records whose tags all exist."
  },
  {
   "property": "C84",
   "status": "proved",
   "theorems": [
    "C84_statistics"
   ],
   "note": "Printed text is not modelled, only the exceptions."
  },
  {
   "property": "C85",
   "status": "proved",
   "theorems": [
    "C85_path",
    "C85_distinct"
   ],
   "note": "Unix paths."
  },
  {
   "property": "C86",
   "status": "proved",
   "theorems": [
    "C86_from_root",
    "C86_wrong_year",
    "C86_twice"
   ],
   "note": "XML parsing is an oracle giving what is read from each file."
  },
  {
   "property": "C87",
   "status": "proved",
   "theorems": [
    "C87_text",
    "C87_text_not_loaded",
    "C87_mat"
   ],
   "note": "Text export up to the first bad array, Matlab export; a text export cannot be loaded."
  },
  {
   "property": "C88",
   "status": "proved",
   "theorems": [
    "C88_aligned",
    "C88_bad_name",
    "C88_no_features",
    "C88_unknown_feature",
    "C88_not_computed"
   ],
   "note": "Same frames in the same order for data and labels after any calls; a frame without name makes it fail."
  },
  {
   "property": "C89",
   "status": "proved",
   "theorems": [
    "C89_build",
    "C89_build_refused",
    "C89_save_load",
    "C89_line_constructed",
    "C89_save_early"
   ],
   "note": "Kept frames, padded means, IndexError cases; save and load round trip; early save refused. Text files as lists of lines."
  },
  {
   "property": "C90",
   "status": "proved",
   "theorems": [
    "C90_points",
    "C90_sizes",
    "C90_one_sentence"
   ],
   "note": "Drawing is the list of what is handed to matplotlib. Points, rows, segments, axis, legend; sizes; one sentence."
  },
  {
   "property": "C91",
   "status": "proved",
   "theorems": [
    "C91_drawn",
    "C91_outside",
    "C91_interactive",
    "C91_short_refuted",
    "C91_slider_refuted",
    "C91_keys"
   ],
   "note": "Any part inside the recordings is drawn with its sentences; outside raises; the failures of InteractivePlot as _refuted theorems."
  },
  {
   "property": "C92",
   "status": "proved",
   "theorems": [
    "C92_names_refuted",
    "C92_sentence_names_refuted",
    "C92_default_refuted"
   ],
   "note": "Calls by name fail for all data (_refuted theorems)."
  },
  {
   "property": "C93",
   "status": "proved",
   "theorems": [
    "C93_records_refuted",
    "C93_train_refuted",
    "C93_position",
    "C93_labels",
    "C93_confusion",
    "C93_perfect"
   ],
   "note": "The script's use of the logged numbers is refuted for every prepared experiment; exact shift, exact condition on labels, exact counts."
  },
  {
   "property": "C94",
   "status": "proved",
   "theorems": [
    "C94_cases",
    "C94_words",
    "C94_lower",
    "C94_table",
    "C94_information",
    "C94_counts_unique"
   ],
   "note": "The order of the set of labels is an arbitrary function; sentences are lists of ASCII characters (accents are not modelled). The counts are given by an inductive relation, not by the histogram code."
  },
  {
   "property": "C95",
   "status": "proved",
   "theorems": [
    "C95_information",
    "C95_matrix",
    "C95_no_sample",
    "C95_plot",
    "C95_plot_tall"
   ],
   "note": "Floats are real numbers (rational numbers for the assignment); bins are half-open intervals of exact real numbers. The independence criterion follows from the theorem of C48 about mutual_information. np.bool (removed in numpy 1.24) is taken as bool."
  },
  {
   "property": "C96",
   "status": "proved",
   "theorems": [
    "C96_keys",
    "C96_hyphens_refuted",
    "C96_stored",
    "C96_restored"
   ],
   "note": "The expected behaviour of lines 114-115 is refuted for every run (C96_hyphens_refuted); the rest of the script is proved correct for the right names."
  },
  {
   "property": "C97",
   "status": "proved",
   "theorems": [
    "C97_built",
    "C97_everything_refuted",
    "C97_other",
    "C97_bad_line",
    "C97_missing",
    "C97_name",
    "C97_extension",
    "C97_audio",
    "C97_codebook",
    "C97_reload"
   ],
   "note": "The whole of vctk.py, with the disk given by what os and open return. everything is refuted (set of a method); the reading again is stated with the savable and sortable databases of C58."
  },
  {
   "property": "C98",
   "status": "proved",
   "theorems": [
    "C98_pairs",
    "C98_combinations",
    "C98_colours",
    "C98_curve",
    "C98_ragged",
    "C98_missing",
    "C98_merged",
    "C98_k_graphs",
    "C98_2k_graphs",
    "C98_metric_refuted",
    "C98_boxes",
    "C98_python3_refuted",
    "C98_two",
    "C98_three"
   ],
   "note": "plots.py and lib/plot.py in figures_model.v; C98_two and C98_three relate what is drawn after an experiment to the scores of C78; that metric is ignored and that Python 3 cannot fill boxes are C98_metric_refuted and C98_python3_refuted. A logger without runs gives nan and is excluded"
  },
  {
   "property": "C99",
   "status": "proved",
   "theorems": [
    "C99_stats",
    "C99_missing",
    "C99_two",
    "C99_one_refuted",
    "C99_three_refuted"
   ],
   "note": "exact real numbers before formatting with three digits; C99_one_refuted and C99_three_refuted give the failing tables"
  },
  {
   "property": "C100",
   "status": "proved",
   "theorems": [
    "C100_plan",
    "C100_names",
    "C100_prepare",
    "C100_job",
    "C100_figures",
    "C100_missing",
    "C100_figures_refuted",
    "C100_no_runs"
   ],
   "note": "expjobs is not in the repository: jobs, config paths and run_class are modelled from their use; runnable (data and random numbers such that each experiment can be run) is a hypothesis met by C100_ex; C100_figures_refuted, C100_missing and C100_no_runs give the cases without figures"
  },
  {
   "property": "C101",
   "status": "proved",
   "theorems": [
    "C101_files",
    "C101_pipeline",
    "C101_built",
    "C101_kept",
    "C101_python3",
    "C101_suffix_refuted",
    "C101_stale",
    "C101_stale_refuted",
    "C101_no_name",
    "C101_features_and_labels"
   ],
   "note": "Whitening, kmeans and vq are oracles with the specifications of C56; the table of features is described as in C56 (frequencies of nearest centroids); the export and loading of databases are those of C60. Downloads are not part of it."
  },
  {
   "property": "C102",
   "status": "proved",
   "theorems": [
    "C102_loaded",
    "C102_default",
    "C102_unknown",
    "C102_missing",
    "C102_missing_array",
    "C102_python3_refuted",
    "C102_python3_never",
    "C102_from_files"
   ],
   "note": "Arrays are opaque; the disk is that of C60 (motion_model.v)."
  },
  {
   "property": "C103",
   "status": "proved",
   "theorems": [
    "C103_choreo2",
    "C103_acorns",
    "C103_objects",
    "C103_places",
    "C103_frame",
    "C103_frame_data",
    "C103_frame_acorns",
    "C103_frame_acorns_files",
    "C103_frame_objects",
    "C103_refused",
    "C103_halfway_refuted",
    "C103_year_refuted",
    "C103_script_refuted"
   ],
   "note": "The server is an oracle that gives for an address what is left in the file and whether the transfer succeeds; files and directories are identified by the text of their paths."
  },
  {
   "property": "C104",
   "status": "proved",
   "theorems": [
    "C104_matrix",
    "C104_alone",
    "C104_few_bins",
    "C104_recent_numpy",
    "C104_columns_refuted"
   ],
   "note": "binned_model: get_bounds and db_to_binned_hist_matrix, on top of the joint angles (transf_model) and of the density estimates (kde_model). Values of each row tied to the estimates of C65/C81; independence of records when bounds are given; ValueError below four bins; documented number of columns refuted; no result with recent numpy."
  },
  {
   "property": "C105",
   "status": "proved",
   "theorems": [
    "C105_codebooks",
    "C105_buildable",
    "C105_codebook_file",
    "C105_acorns_codebook",
    "C105_features",
    "C105_features_labels",
    "C105_others_kept",
    "C105_no_codebook",
    "C105_equal_shapes",
    "C105_empty_speaker"
   ],
   "note": "hacfeat_model: building of codebooks from sounds, scripts build_codebook and build_acorns_features with the files they write and read, on top of hac_model, sound_model, acorns_model and vctk_model. Coefficients, derivatives, kmeans2, vq and the reading of sounds are arguments. Rows proved to be those of the records, in order, also through load_features_and_labels; failures for codebooks of equal shapes and empty speakers."
  },
  {
   "property": "C106",
   "status": "proved",
   "theorems": [
    "C106_acorns",
    "C106_acorns_first",
    "C106_acorns_second",
    "C106_vctk",
    "C106_vctk_sounds",
    "C106_vctk_missing"
   ],
   "note": "The whole scripts: the loops, the reading of the corpora, writing, and the loading afterwards. XML parsing and the disk are arguments."
  },
  {
   "property": "C107",
   "status": "proved",
   "theorems": [
    "C107_opposite",
    "C107_same_samples",
    "C107_nonnegative_refuted",
    "C107_errors",
    "C107_recent_numpy",
    "C107_entropy_refuted"
   ],
   "note": "Real numbers instead of floats; the claims that a divergence is not negative and that the entropy can be computed are refuted."
  },
  {
   "property": "C109",
   "status": "proved",
   "theorems": [
    "C109_translation",
    "C109_translation_from",
    "C109_reflection",
    "C109_reflection_twice",
    "C109_rotation",
    "C109_rotation_origin",
    "C109_rotation_add",
    "C109_rotation_same",
    "C109_quaternion",
    "C109_quaternion_refuted",
    "C109_concatenate",
    "C109_same",
    "C109_same_symmetric_refuted"
   ],
   "note": "Geometry of points: mirrored and turned_about are stated with inner products and frames, not with the matrices."
  },
  {
   "property": "C110",
   "status": "proved",
   "theorems": [
    "C110_scale",
    "C110_scale_direction",
    "C110_scale_origin",
    "C110_orthogonal",
    "C110_parallel",
    "C110_perspective",
    "C110_pseudo",
    "C110_pseudo_depth",
    "C110_clip",
    "C110_clip_refused",
    "C110_clip_box",
    "C110_clip_pyramid",
    "C110_shear_accepted",
    "C110_shear",
    "C110_shear_volume",
    "C110_shear_volume_refuted",
    "C110_cell"
   ],
   "note": "Images of points are compared with lines, planes and heights stated by inner products; clip matrices with the box and the pyramid."
  },
  {
   "property": "C111",
   "status": "proved",
   "theorems": [
    "C111_slerp_ends",
    "C111_slerp",
    "C111_slerp_close",
    "C111_slerp_unit",
    "C111_slerp_odd_refuted",
    "C111_random",
    "C111_random_length",
    "C111_sphere",
    "C111_constrain",
    "C111_constrain_refuted",
    "C111_nearest",
    "C111_steady",
    "C111_calls",
    "C111_no_axes",
    "C111_down",
    "C111_down_axis",
    "C111_drag",
    "C111_next",
    "C111_next_arc",
    "C111_next_still"
   ],
   "note": "arcball_*.v. Real arithmetic; a vector of NaN is shown as None. Refuted parts: unit results for odd spins, circle points for the axis straight down."
  },
  {
   "property": "C108",
   "status": "proved",
   "theorems": [
    "C108_parse",
    "C108_present",
    "C108_no_source",
    "C108_no_frame",
    "C108_loader",
    "C108_loader_bad",
    "C108_features",
    "C108_guard_refuted"
   ],
   "note": "frames, files and the feature extraction are arguments; the names table is the one of the code"
  },
  {
   "property": "C112",
   "status": "proved",
   "theorems": [
    "C112_image",
    "C112_image_affine",
    "C112_rejects",
    "C112_accepts",
    "C112_parts",
    "C112_round_trip",
    "C112_first_rows",
    "C112_tiny_perspective_refuted",
    "C112_same_parts",
    "C112_same_scale_refuted",
    "C112_same_matrix",
    "C112_zero_scale"
   ],
   "note": "real numbers; numpy.linalg.inv is an argument, any exact inverse; numpy.linalg.det is the determinant; divisions by a zero last entry in compose_matrix excluded"
  },
  {
   "property": "C113",
   "status": "proved",
   "theorems": [
    "C113_rejects",
    "C113_accepts",
    "C113_best",
    "C113_rigid",
    "C113_exact",
    "C113_motion",
    "C113_methods",
    "C113_factor_refuted",
    "C113_decompositions"
   ],
   "note": "svd and eig are arguments: svd returns orthonormal factors with decreasing singular values, eig an eigenbasis of a symmetric matrix; C113_decompositions proves that both always exist (the examples case_svd, case_eig and case_motion, no theorem, also use ClassicalEpsilon.constructive_indefinite_description to make functions of them). Real numbers; scaling is stated for sets that are not a single point (otherwise the code divides by zero)."
  },
  {
   "property": "C114",
   "status": "proved",
   "theorems": [
    "C114_reflection",
    "C114_point_refuted",
    "C114_not_reflection",
    "C114_rotation",
    "C114_axis",
    "C114_small_angle_refuted",
    "C114_enlarge",
    "C114_near_one_refuted",
    "C114_stretch"
   ],
   "note": "numpy.linalg.eig is an argument with [eigenvectors_of]: as many pairs as the dimension, exact complex eigenvectors of length 1, real ones for real values, and every real eigenvector a combination of the listed ones. A point whose last coordinate is 0 is None. The docstring's round trip is refuted for small angles, for factors near 1 and for the point (theorems _refuted)."
  },
  {
   "property": "C115",
   "status": "proved",
   "theorems": [
    "C115_parallel",
    "C115_orthogonal",
    "C115_perspective",
    "C115_distance_refuted",
    "C115_pseudo",
    "C115_pseudo_refuted",
    "C115_shear"
   ],
   "note": "Same oracle as C114. An eye with infinite or undefined coordinates is Some None. Shears with a direction exactly in the plane (shear_matrix accepts 1e-6). The docstring's round trip is refuted at distance 1, for planes through the origin (C115_perspective, s = None) and for pseudo depth."
  },
  {
   "property": "C116",
   "status": "proved",
   "theorems": [
    "C116_refused",
    "C116_array",
    "C116_error",
    "C116_csr",
    "C116_coo",
    "C116_coo_once",
    "C116_coo_finite_refuted",
    "C116_csr_elements_refuted"
   ],
   "note": "assert_all_finite, array2d, atleast2d_or_csr, check_non_negative and the first lines of fit_transform over binary floating-point numbers of any format (Flocq); the order of the additions of X.sum() is any tree that takes each element once."
  },
  {
   "property": "C117",
   "status": "proved",
   "theorems": [
    "C117_vstack",
    "C117_vstack_refused",
    "C117_dot",
    "C117_dot_refused"
   ],
   "note": "safe_vstack and safe_sparse_dot over reals for matrices that are dense or csr; the elements of the result are given by separate readings of the blocks and factors."
  },
  {
   "property": "C118",
   "status": "proved",
   "theorems": [
    "C118_value",
    "C118_missing",
    "C118_printed_refuted",
    "C118_tuple_refuted",
    "C118_other_keys",
    "C118_get",
    "C118_places",
    "C118_names",
    "C118_distinct",
    "C118_no_entry"
   ],
   "note": "The configuration is a dictionary with keys that are strings or tuples; the text of messages is modelled as far as it names the key. Refuted: the message is what is printed; every missing key gives NoConfigValueError."
  },
  {
   "property": "C119",
   "status": "proved",
   "theorems": [
    "C119_spines",
    "C119_unknown",
    "C119_grid",
    "C119_ticklabels_refuted",
    "C119_mesh",
    "C119_cmap",
    "C119_colors",
    "C119_legend",
    "C119_plot",
    "C119_plot_var_axes_refuted",
    "C119_plot_var_area"
   ],
   "note": "Axes are a record of what matplotlib is asked to remember; the order of sets is an oracle. Refuted: ticklabels removes labels; plot_var draws on the axes that are given."
  },
  {
   "property": "C120",
   "status": "proved",
   "theorems": [
    "C120_counts",
    "C120_sliding",
    "C120_plot_rows",
    "C120_plot_rows_debug_refuted",
    "C120_short",
    "C120_features",
    "C120_no_codebooks",
    "C120_arguments",
    "C120_debug_last_refuted"
   ],
   "note": "Whole script for any experiment with two modalities and one split. Recordings, librosa, scipy, expanduser and the numbers drawn are arguments of the model. Refuted: with --debug the plotting script finds more windows than rows; --debug after the name is taken for the directory."
  },
  {
   "property": "C121",
   "status": "proved",
   "theorems": [
    "C121_equal",
    "C121_self",
    "C121_symmetric",
    "C121_transitive",
    "C121_loaded",
    "C121_arrays"
   ],
   "note": "Model logeq_model.v; all theorems unconditional for logs without arrays; == on arrays and other objects is an argument of the model."
  },
  {
   "property": "C122",
   "status": "proved",
   "theorems": [
    "C122_icdl2013",
    "C122_image_sound",
    "C122_few",
    "C122_tenth"
   ],
   "note": "Data, random numbers and the order of dictionary keys are arguments; what is printed is modelled as names, averages and deviations, not as text."
  },
  {
   "property": "C123",
   "status": "proved",
   "theorems": [
    "C123_two",
    "C123_aligned",
    "C123_number",
    "C123_order",
    "C123_three_refuted",
    "C123_one_refuted"
   ],
   "note": "Numbers are real numbers: the rounding of averages and deviations to doubles before they are printed is not modelled. Python's str.center and the conversion '%.3f' are modelled by their documented results."
  },
  {
   "property": "C124",
   "status": "proved",
   "theorems": [
    "C124_session",
    "C124_frame",
    "C124_status",
    "C124_watch",
    "C124_watch_forever",
    "C124_last_line_refuted",
    "C124_run_watches",
    "C124_run_lines",
    "C124_resume_refuted",
    "C124_python3_refuted",
    "C124_no_plot_refuted"
   ],
   "note": "The package expjobs is not in the repository: the reads of the status of its pool are an arbitrary sequence, and the files are those found once the jobs have ended. argparse is not modelled: a command is its accepted arguments. What matplotlib raises for a path or a file of parameters is an argument."
  },
  {
   "property": "C125",
   "status": "proved",
   "theorems": [
    "C125_values_1d",
    "C125_values_2d",
    "C125_grid_refuted"
   ],
   "note": "real numbers; the convolutions of scipy are their definitions; a bandwidth of 0 and samples outside the bounds are excluded"
  },
  {
   "property": "C126",
   "status": "proved",
   "theorems": [
    "C126_number",
    "C126_line",
    "C126_no_runs",
    "C126_missing",
    "C126_all",
    "C126_stops",
    "C126_loaded"
   ],
   "note": "Numbers are real numbers: the rounding of averages and deviations to doubles before they are printed is not modelled. Python's conversion '%g' is modelled by its documented result."
  },
  {
   "property": "C127",
   "status": "proved",
   "theorems": [
    "C127_written",
    "C127_same_name_refuted",
    "C127_stops",
    "C127_few",
    "C127_no_directory",
    "C127_read_back"
   ],
   "note": "plot_one_sentence is an argument of the model (its own properties are in the claims about plots_model). Audio files are assumed to have no '/' in the part before the first point; OSError is written IOError. The claim that every figure is kept is false when names agree up to the first point: C127_same_name_refuted."
  },
  {
   "property": "C128",
   "status": "proved",
   "theorems": [
    "C128_construct",
    "C128_bounds",
    "C128_move",
    "C128_mean_time",
    "C128_samples",
    "C128_subwindow",
    "C128_copy"
   ],
   "note": "Exact rational times. The statement about get_subwindow and copy is for basic windows that cut an interval exactly, as in C16 (with gaps below TOL it is false: C16_gap_refuted)."
  },
  {
   "property": "C129",
   "status": "proved",
   "theorems": [
    "C129_write_as_wav",
    "C129_save_wav",
    "C129_saves",
    "C129_save_errors",
    "C129_nested_refuted"
   ],
   "note": "wavfile.write followed by wavfile.read of the same path is assumed to give back rate and samples (wav_write). The claim that every concatenation can be saved is false: C129_nested_refuted."
  },
  {
   "property": "C130",
   "status": "proved",
   "theorems": [
    "C130_info",
    "C130_empty",
    "C130_read_back",
    "C130_no_marker_refuted",
    "C130_load",
    "C130_load_fails",
    "C130_result"
   ],
   "note": "The printed text is the value of the model; the reading of the files is that of C60. C130_no_marker_refuted: no marker prints as one marker without name."
  },
  {
   "property": "C131",
   "status": "proved",
   "theorems": [
    "C131_one_sentence",
    "C131_without_record",
    "C131_error",
    "C131_one_height",
    "C131_undrawn",
    "C131_redraw_refuted",
    "C131_absolute_refuted"
   ],
   "note": "Axes of matplotlib reduced to title, spans, texts and vertical limits; limits after drawing are any numbers. C131_redraw_refuted and C131_absolute_refuted show the two limitations of the claim."
  },
  {
   "property": "C132",
   "status": "proved",
   "theorems": [
    "C132_element",
    "C132_read_back",
    "C132_same",
    "C132_missing_refuted",
    "C132_tags",
    "C132_speaker_refuted"
   ],
   "note": "Nodes of minidom are trees; the text written by toxml is not modelled, no code of the project writes it."
  },
  {
   "property": "C133",
   "status": "proved",
   "theorems": [
    "C133_sentence",
    "C133_read_back",
    "C133_keyword",
    "C133_speaker",
    "C133_record",
    "C133_refused",
    "C133_statistics"
   ],
   "note": "sentence and its reading back, effect of each addition, and the text printed by statistics before it fails"
  },
  {
   "property": "C134",
   "status": "proved",
   "theorems": [
    "C134_inverse",
    "C134_inside",
    "C134_move"
   ],
   "note": "for every tree of windows that the constructors accept; exact rational times"
  },
  {
   "property": "C135",
   "status": "proved",
   "theorems": [
    "C135_text",
    "C135_error",
    "C135_read_back",
    "C135_quote_refuted",
    "C135_style_refuted"
   ],
   "note": "text, errors, reading back under conditions on the strings, and refutations without them; what format writes for lists is an oracle assumed injective"
  },
  {
   "property": "C136",
   "status": "proved",
   "theorems": [
    "C136_norm_vector",
    "C136_norm_all",
    "C136_norm_axis",
    "C136_unit_vector",
    "C136_unit_all",
    "C136_unit_axis",
    "C136_no_axis",
    "C136_norm_out",
    "C136_norm_out_shape",
    "C136_norm_out_refused",
    "C136_unit_out",
    "C136_unit_out_vector",
    "C136_number",
    "C136_unit_number"
   ],
   "note": "vector_norm and unit_vector of transformations.py on arrays of any shape, over the reals, with and without out; zero vectors excluded (numpy gives NaN). An axis of a 0-d array is an error as in current numpy."
  },
  {
   "property": "C137",
   "status": "proved",
   "theorems": [
    "C137_default",
    "C137_prefix",
    "C137_no_prefix",
    "C137_failed",
    "C137_twice_refuted",
    "C137_clash_refuted"
   ],
   "note": "_import_module as a function of the global names and of what __import__ gives (argument). Attributes listed by dir are distinct and getattr succeeds. Two statements of the docstring are refuted: a second import, and a prefix that imported names start with."
  },
  {
   "property": "C138",
   "status": "proved",
   "theorems": [
    "C138_fit_raises_error_refuted",
    "C138_exact_stays"
   ],
   "note": "The decrease of the error by an update of a fit is refuted on a whole call of fit_transform (real arithmetic; the gap of 4 is far beyond rounding); exact factorisations are proved to be fixed points."
  },
  {
   "property": "C139",
   "status": "proved",
   "theorems": [
    "C139_errors",
    "C139_iterations",
    "C139_no_warning"
   ],
   "note": "From the stopping rule (C43) and a lower bound of the divergence; real arithmetic."
  },
  {
   "property": "C140",
   "status": "proved",
   "theorems": [
    "C140_mass",
    "C140_trained",
    "C140_itself_refuted"
   ],
   "note": "C140_mass bounds each row of a reconstructed modality by the largest share of the modality in a row of the dictionary; C140_trained: after train, by the data times their coefficient; C140_itself_refuted: a modality is not reconstructed from itself."
  },
  {
   "property": "C141",
   "status": "proved",
   "theorems": [
    "C141_same_iterations",
    "C141_independent_refuted"
   ],
   "note": "C141_same_iterations: equal numbers of iterations give equal coefficients; C141_independent_refuted: adding two zero samples changes the coefficient of the first from at least 0.88 to at most 0.81."
  }
 ]
}